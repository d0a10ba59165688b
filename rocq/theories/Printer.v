(** * A printer of f64 values that satisfies [printer]
    (17 significant digits), so that [printer] is not an empty assumption. *)
From Coq Require Import ZArith Reals Lra Lia Psatz List Bool.
From Flocq Require Import Core IEEE754.BinarySingleNaN.
From Verif Require Import RN F64 Prim DoubleM QuadM Spec F64Facts ParseM ParseSpec ParseProofs ParseThms DisplaySpec DisplayNum DisplayParse DisplayMore FromProofs.
Import ListNotations.
Local Open Scope R_scope.
Local Notation fmt := RN.fmt.

Lemma mult2_ge k x : x <> 0 -> mult2 k x -> bp k <= Rabs x.
Proof.
  intros N [z E]. assert (P := bpow_gt_0 radix2 k). subst x. rewrite Rabs_mult, (Rabs_pos_eq (bp k)) by lra.
  assert (z <> 0%Z) by (intros ->; apply N; lra). rewrite <- abs_IZR. assert (1 <= IZR (Z.abs z)) by (apply (IZR_le 1); lia). nra.
Qed.
Lemma gap a b : fmt a -> fmt b -> 0 < a -> a <> b -> bp (-53) * a <= Rabs (b - a).
Proof.
  intros Fa Fb Pa N. 
  assert (M := bpow_mag_le radix2 a ltac:(lra)). assert (M' := bpow_mag_gt radix2 a).
  rewrite Rabs_pos_eq in M, M' by lra. set (m := mag radix2 a : Z) in *.
  assert (E53 : bp (-53) * a <= bp (m - 53)).
  { replace (m - 53)%Z with (-53 + m)%Z by lia. rewrite bpow_plus. apply Rmult_le_compat_l; [apply bpow_ge_0|lra]. }
  assert (CA : mult2 (m - 53) a).
  { apply (mult2_le _ (cexp radix2 fexp64 a)); [rewrite cexp64; fold m; lia|now apply mult2_cexp]. }
  destruct (Rle_or_lt (bp (m - 1)) b) as [L|L].
  - assert (CB : mult2 (m - 53) b).
    { apply (mult2_le _ (cexp radix2 fexp64 b)); [|now apply mult2_cexp].
      assert (m <= mag radix2 b)%Z. { apply (mag_ge_bpow radix2). rewrite Rabs_pos_eq; [exact L|]. apply Rle_trans with (2 := L), bpow_ge_0. }
      rewrite cexp64. lia. }
    apply Rle_trans with (1 := E53). apply mult2_ge; [lra|now apply mult2_minus].
  - assert (K : bp (m - 54) <= bp (m - 1) - b).
    { destruct (Rle_or_lt (bp (m - 2)) b) as [L2|L2].
      - assert (CB : mult2 (m - 54) b).
        { apply (mult2_le _ (cexp radix2 fexp64 b)); [|now apply mult2_cexp].
          assert (m - 1 <= mag radix2 b)%Z. { apply (mag_ge_bpow radix2). rewrite Rabs_pos_eq; [replace (m - 1 - 1)%Z with (m - 2)%Z by lia; exact L2|]. apply Rle_trans with (2 := L2), bpow_ge_0. }
          rewrite cexp64. lia. }
        rewrite <- (Rabs_pos_eq (bp (m - 1) - b)) by lra. apply mult2_ge; [lra|]. apply mult2_minus; [|exact CB].
        apply (mult2_le _ (m - 1)); [lia|]. exists 1%Z. ring.
      - assert (bp (m - 1) = 2 * bp (m - 2)). { replace (m - 1)%Z with (1 + (m - 2))%Z by lia. rewrite bpow_plus. reflexivity. }
        assert (bp (m - 54) <= bp (m - 2)) by (apply bpow_le; lia). lra. }
    rewrite Rabs_left by lra.
    assert (E54 : bp (m - 53) = 2 * bp (m - 54)). { replace (m - 53)%Z with (1 + (m - 54))%Z by lia. rewrite bpow_plus. reflexivity. }
    destruct (Req_dec a (bp (m - 1))) as [Ea|Ea].
    + rewrite Ea at 1. rewrite <- bpow_plus. replace (-53 + (m - 1))%Z with (m - 54)%Z by lia. lra.
    + assert (bp (m - 53) <= a - bp (m - 1)).
      { rewrite <- (Rabs_pos_eq (a - bp (m - 1))) by lra. apply mult2_ge; [lra|]. apply mult2_minus; [exact CA|].
        apply (mult2_le _ (m - 1)); [lia|]. exists 1%Z. ring. }
      lra.
Qed.
Lemma rn_near x a : fmt a -> 0 < a -> Rabs (x - a) < bp (-54) * a -> rn x = a.
Proof.
  intros Fa Pa H. destruct (Req_dec (rn x) a) as [E|E]; [exact E|exfalso].
  assert (K : Rabs (rn x - x) <= Rabs (a - x)).
  { assert (K := round_N_pt radix2 fexp64 (fun n => negb (Z.even n)) x). apply K. exact Fa. }
  assert (G := gap a (rn x) Fa (rn_fmt x) Pa (fun Q => E (eq_sym Q))).
  assert (T := Rabs_triang (rn x - x) (x - a)). replace (rn x - x + (x - a)) with (rn x - a) in T by ring.
  rewrite (Rabs_minus_sym a) in K. change (bp (-53)) with (2 * bp (-54)) in G || replace (bp (-53)) with (2 * bp (-54)) in G by (change (bp (-54)) with (/ 18014398509481984); change (bp (-53)) with (/ 9007199254740992); lra). lra.
Qed.

(** the last [n] decimal digits of [d], most significant first *)
Fixpoint dig_list (n : nat) (d : Z) : list Z :=
  match n with O => [] | S k => (dig_list k (d / 10) ++ [d mod 10])%list end%Z.
Lemma dig_list_len n d : length (dig_list n d) = n.
Proof. revert d. induction n; intros d; [reflexivity|]. cbn [dig_list]. rewrite app_length, IHn. cbn. lia. Qed.
Lemma dig_list_dec n d : decimals (dig_list n d).
Proof.
  revert d. induction n; intros d; cbn [dig_list]; [constructor|]. apply Forall_app. split; [apply IHn|]. constructor; [|constructor].
  assert (H := Z.mod_pos_bound d 10 ltac:(lia)). lia.
Qed.
Lemma dig_list_val n d : (0 <= d < 10 ^ Z.of_nat n)%Z -> dec_val (dig_list n d) = d.
Proof.
  revert d. induction n; intros d H; cbn [dig_list]; [cbn in *; lia|].
  unfold dec_val. rewrite fold_left_app. fold (dec_val (dig_list n (d / 10))). cbn [fold_left].
  rewrite Nat2Z.inj_succ, Z.pow_succ_r in H by lia.
  rewrite IHn; [assert (K := Z.div_mod d 10 ltac:(lia)); lia|].
  split; [apply Z.div_pos; lia|apply Z.div_lt_upper_bound; lia].
Qed.

Fixpoint find_places (fuel : nat) (m P : Z) (f : nat) : nat :=
  match fuel with
  | O => f
  | S k => if (10 ^ 16 * P <=? m * 10 ^ Z.of_nat f)%Z then f else find_places k m P (S f)
  end.
Lemma find_places_ok m P fuel f : (0 < m)%Z -> (10 ^ 16 * P <= m * 10 ^ Z.of_nat (f + fuel))%Z -> (m * 10 ^ Z.of_nat f < 10 ^ 17 * P)%Z ->
  let r := find_places fuel m P f in (f <= r <= f + fuel)%nat /\ (10 ^ 16 * P <= m * 10 ^ Z.of_nat r < 10 ^ 17 * P)%Z.
Proof.
  intros Hm. revert f. induction fuel; intros f H1 H2; cbn [find_places]; cbv zeta.
  - rewrite Nat.add_0_r in H1. split; [lia|]. split; auto.
  - destruct (Z.leb_spec (10 ^ 16 * P) (m * 10 ^ Z.of_nat f)) as [L|L]; [split; [lia|split; auto]|].
    destruct (IHfuel (S f)) as [K1 K2].
    + replace (S f + fuel)%nat with (f + S fuel)%nat by lia. exact H1.
    + rewrite Nat2Z.inj_succ, Z.pow_succ_r by lia. lia.
    + split; [lia|exact K2].
Qed.

(** 17 significant digits of [m / 2^p] *)
Definition digits17 (m p : Z) : nat * Z :=
  let P := (2 ^ p)%Z in let f := find_places 400 m P 1 in (f, (2 * (m * 10 ^ Z.of_nat f) + P) / (2 * P))%Z.
Definition print17 (s : bool) (m p : Z) : list Z :=
  let (f, D) := digits17 m p in let l := dig_list (20 + f) D in
  ((if s then [45%Z] else []) ++ fixed_text (firstn 20 l) (skipn 20 l))%list.
Definition with_printer (lm : libm) : libm :=
  {| lm_ln := lm_ln lm; lm_exp := lm_exp lm; lm_log10 := lm_log10 lm; lm_log2 := lm_log2 lm; lm_atan2 := lm_atan2 lm;
     lm_to_string := fun a => match a with B754_finite s m (Zneg p) _ => print17 s (Zpos m) (Zpos p) | _ => lm_to_string lm a end |}.

Lemma digits17_ok m p : (0 < m < 2 ^ 53)%Z -> (0 < p <= 1074)%Z -> let (f, D) := digits17 m p in
  (1 <= f <= 401)%nat /\ (0 <= D <= 10 ^ 17)%Z /\ Rabs (IZR D / IZR (10 ^ Z.of_nat f) - IZR m * bp (- p)) < bp (-54) * (IZR m * bp (- p)).
Proof.
  intros Hm Hp. unfold digits17. set (P := (2 ^ p)%Z).
  assert (P1 : (2 <= P)%Z) by (change 2%Z with (2 ^ 1)%Z; apply Z.pow_le_mono_r; lia).
  assert (P2 : (P <= 2 ^ 1074)%Z) by (apply Z.pow_le_mono_r; lia).
  destruct (find_places_ok m P 400 1) as [B1 [B2 B3]]; [lia| | |].
  { apply Z.le_trans with (1 * 10 ^ Z.of_nat (1 + 400))%Z; [|apply Z.mul_le_mono_nonneg_r; [apply Z.pow_nonneg; lia|lia]].
    apply Z.le_trans with (10 ^ 16 * 2 ^ 1074)%Z; [lia|vm_compute; discriminate]. }
  { change (10 ^ Z.of_nat 1)%Z with 10%Z. change (2 ^ 53)%Z with 9007199254740992%Z in Hm. change (10 ^ 17)%Z with 100000000000000000%Z. lia. }
  set (f := find_places 400 m P 1) in *. clearbody f. cbv zeta.
  set (T := (10 ^ Z.of_nat f)%Z) in *. assert (TP : (0 < T)%Z) by (apply Z.pow_pos_nonneg; lia).
  set (D := ((2 * (m * T) + P) / (2 * P))%Z).
  assert (DB : (2 * P * D <= 2 * (m * T) + P < 2 * P * D + 2 * P)%Z).
  { assert (K := Z.div_mod (2 * (m * T) + P) (2 * P) ltac:(lia)). assert (K2 := Z.mod_pos_bound (2 * (m * T) + P) (2 * P) ltac:(lia)). fold D in K. lia. }
  clearbody D. split; [lia|]. split.
  { split.
    - apply Z.lt_succ_r. apply (Z.mul_lt_mono_pos_l (2 * P)); [lia|]. assert (0 <= m * T)%Z by nia. lia.
    - apply Z.lt_succ_r. apply (Z.mul_lt_mono_pos_l (2 * P)); [lia|]. lia. }
  assert (EP : bp (- p) = / IZR P).
  { rewrite bpow_opp. unfold P. change 2%Z with (radix_val radix2). rewrite IZR_Zpower by lia. reflexivity. }
  rewrite EP. destruct DB as [D1 D2]. apply IZR_le in D1. apply IZR_lt in D2. apply IZR_le in B2.
  repeat rewrite ?plus_IZR, ?mult_IZR in *. 
  assert (TP' := IZR_lt _ _ TP). assert (PP' : 2 <= IZR P) by (apply (IZR_le 2); exact P1). assert (mp : 0 < IZR m) by (apply (IZR_lt 0); lia).
  clearbody T P. clear P2 B3.
  replace (IZR D / IZR T - IZR m * / IZR P) with ((IZR D * IZR P - IZR m * IZR T) * / (IZR T * IZR P)) by (field; lra).
  replace (bp (-54) * (IZR m * / IZR P)) with ((bp (-54) * (IZR m * IZR T)) * / (IZR T * IZR P)) by (field; lra).
  rewrite Rabs_mult, (Rabs_pos_eq (/ _)) by (left; apply Rinv_0_lt_compat; apply Rmult_lt_0_compat; lra).
  apply Rmult_lt_compat_r; [apply Rinv_0_lt_compat; apply Rmult_lt_0_compat; lra|].
  apply Rle_lt_trans with (IZR P / 2); [apply Rabs_le; lra|].
  change (bp (-54)) with (/ 18014398509481984). change (IZR (10 ^ 16)) with 10000000000000000 in B2. lra.
Qed.

Lemma with_printer_ok lm : printer (with_printer lm).
Proof.
  intros a F NI. destruct a as [s| | |s m e H]; try discriminate F.
  { exfalso. apply (NI 0%Z). reflexivity. }
  destruct e as [|q|p].
  { exfalso. apply (NI (cond_Zopp s (Zpos m))). unfold V, B2R, F2R. cbn [Fnum Fexp]. change (bpow radix2 0) with 1. ring. }
  { exfalso. apply (NI (cond_Zopp s (Zpos m) * 2 ^ Zpos q)%Z). unfold V, B2R, F2R. cbn [Fnum Fexp]. rewrite mult_IZR. try (f_equal; symmetry; apply (IZR_Zpower radix2); lia). }
  assert (VA : V (B754_finite s m (Zneg p) H) = IZR (cond_Zopp s 1) * (IZR (Zpos m) * bp (- Zpos p))).
  { unfold V, B2R, F2R. cbn [Fnum Fexp]. change (- Z.pos p)%Z with (Z.neg p). destruct s; cbn [cond_Zopp]; rewrite ?opp_IZR; ring. }
  assert (BD : (0 < Zpos m < 2 ^ 53)%Z /\ (0 < Zpos p <= 1074)%Z).
  { assert (H' := H). unfold SpecFloat.bounded, SpecFloat.canonical_mantissa in H'. apply andb_prop in H'. destruct H' as [H1 _]. apply Zeq_bool_eq in H1.
    unfold SpecFloat.fexp, SpecFloat.emin in H1. rewrite Digits.Zpos_digits2_pos in H1.
    assert (K := Digits.Zdigits_correct radix2 (Zpos m)). rewrite Z.abs_eq in K by lia.
    set (dg := Digits.Zdigits radix2 (Z.pos m)) in *. 
    split; [split; [lia|]|split; [lia|]].
    - apply Z.lt_le_trans with (1 := proj2 K). apply (Zpower_le radix2). lia.
    - lia. }
  destruct BD as [Bm Bp].
  set (a := B754_finite s m (Z.neg p) H) in *.
  assert (FA : fmt (IZR (Zpos m) * bp (- Zpos p))).
  { apply (fmt_mult2 (- Zpos p)); [lia|now exists (Zpos m)|]. rewrite Rabs_mult, !Rabs_pos_eq by (try apply bpow_ge_0; apply IZR_le; lia).
    rewrite bpow_plus, Rmult_comm. apply Rmult_le_compat_l; [apply bpow_ge_0|]. rewrite <- (IZR_Zpower radix2) by lia. apply IZR_le. change (radix2 ^ 53)%Z with (2 ^ 53)%Z. lia. }
  assert (PA : 0 < IZR (Zpos m) * bp (- Zpos p)) by (apply Rmult_lt_0_compat; [apply IZR_lt; lia|apply bpow_gt_0]).
  assert (DK := digits17_ok (Zpos m) (Zpos p) Bm Bp).
  unfold prints_ok. change (lm_to_string (with_printer lm) a) with (print17 s (Zpos m) (Zpos p)). unfold print17.
  destruct (digits17 (Zpos m) (Zpos p)) as [f D]. destruct DK as [Bf [BDD DK]].
  set (l := dig_list (20 + f) D). assert (Ll : length l = (20 + f)%nat) by apply dig_list_len.
  assert (Dl : decimals l) by apply dig_list_dec.
  assert (Vl : dec_val l = D).
  { apply dig_list_val. split; [apply BDD|]. apply Z.le_lt_trans with (10 ^ 17)%Z; [apply BDD|]. apply Z.lt_le_trans with (10 ^ 20)%Z; [reflexivity|]. apply Z.pow_le_mono_r; lia. }
  set (ip := firstn 20 l). set (fp := skipn 20 l).
  assert (Eif : (ip ++ fp)%list = l) by apply firstn_skipn.
  assert (Di : decimals ip /\ decimals fp). { rewrite <- Eif in Dl. unfold decimals in Dl. now apply Forall_app in Dl. }
  assert (Lf : length fp = f) by (unfold fp; rewrite skipn_length, Ll; lia).
  assert (Li : length ip = 20%nat) by (unfold ip; rewrite firstn_length, Ll; lia).
  assert (NE : ip <> []) by (intros E; rewrite E in Li; discriminate).
  set (sg := if s then [45%Z] else []). assert (S : sign_ok sg) by (unfold sign_ok, sg; destruct s; auto).
  destruct (fixed_number sg ip fp S (proj1 Di) (proj2 Di) NE) as [Nu [Nt [Dg [Fr Ng]]]].
  clearbody l. split.
  - exists (sg ++ fixed_text ip fp)%list. split; [rewrite Nt; exact Nu|]. split.
    { apply fixed_short; auto; try apply Di. lia. }
    rewrite Dg, Eif, Vl, Fr, Lf. split; [apply BDD|]. change RN with rn.
    assert (X := rn_near _ _ FA PA DK). rewrite VA, mult_IZR.
    replace (if negative (sg ++ fixed_text ip fp)%list then (-1)%Z else 1%Z) with (cond_Zopp s 1).
    2:{ destruct s; cbn [cond_Zopp]; [rewrite (proj2 Ng eq_refl); reflexivity|].
        destruct (negative _); [|reflexivity]. discriminate (proj1 Ng eq_refl). }
    unfold Rdiv. rewrite Rmult_assoc. change (IZR D * / IZR (10 ^ Z.of_nat f)) with (IZR D / IZR (10 ^ Z.of_nat f)).
    destruct s; cbn [cond_Zopp]; [|now rewrite !Rmult_1_l].
    change (IZR (- (1))) with (-1). replace (-1 * (IZR D / IZR (10 ^ Z.of_nat f))) with (- (IZR D / IZR (10 ^ Z.of_nat f))) by ring.
    rewrite rn_opp, X. ring.
  - rewrite app_length. unfold fixed_text. rewrite app_length, map_length, Li. lia.
Qed.
