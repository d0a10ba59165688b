(** * floor, ceil, round, trunc *)
From Coq Require Import ZArith Reals Lra Lia Bool.
From Flocq Require Import Core IEEE754.BinarySingleNaN.
From Verif Require Import RN F64 Prim DoubleM QuadM Spec F64Facts EFT OrderProofs ExactProofs QExactProofs SingleProofs IntProofs.
Local Open Scope R_scope.

Lemma fnearby_ok md a : Fin a -> Fin (Bnearbyint (prec := prec) (emax := emax) md a) /\
  V (Bnearbyint (prec := prec) (emax := emax) md a) = IZR (round_mode md (V a)).
Proof.
  intros F. destruct (Bnearbyint_correct prec emax _ md a) as [H1 [H2 _]]. split.
  - unfold Fin. now rewrite H2.
  - unfold V. rewrite H1. apply round_FIX_IZR.
Qed.
Lemma ffloor_ok a : Fin a -> FV (ffloor a) (IZR (Zfloor (V a))).
Proof. exact (fnearby_ok mode_DN a). Qed.
Lemma fceil_ok a : Fin a -> FV (fceil a) (IZR (Zceil (V a))).
Proof. exact (fnearby_ok mode_UP a). Qed.
Lemma Rround_away_ZnearestA x : ZnearestA x = Rround_away x.
Proof.
  unfold Rround_away. destruct (Rle_dec 0 x) as [P|P]; [|apply Rnot_le_lt in P].
  - symmetry. unfold Znearest. assert (L := Zfloor_lb x). assert (U := Zfloor_ub x).
    destruct (Rcompare_spec (x - IZR (Zfloor x)) (/ 2)) as [C|C|C].
    + apply Zfloor_imp. rewrite plus_IZR. lra.
    + assert (0 <= Zfloor x)%Z by (apply Zfloor_lub; lra). rewrite (proj2 (Z.leb_le _ _) H).
      rewrite (Zceil_floor_neq x) by (intros Q; lra). apply Zfloor_imp. rewrite !plus_IZR. lra.
    + rewrite (Zceil_floor_neq x) by (intros Q; lra). apply Zfloor_imp. rewrite !plus_IZR. lra.
  - symmetry. unfold Znearest. assert (L := Zfloor_lb x). assert (U := Zfloor_ub x).
    destruct (Rcompare_spec (x - IZR (Zfloor x)) (/ 2)) as [C|C|C].
    + apply Zceil_imp. rewrite minus_IZR. lra.
    + assert (Zfloor x < 0)%Z by (apply lt_IZR; lra). replace (0 <=? Zfloor x)%Z with false by (symmetry; apply Z.leb_gt; lia).
      apply Zceil_imp. rewrite minus_IZR. lra.
    + rewrite (Zceil_floor_neq x) by (intros Q; lra). apply Zceil_imp. rewrite minus_IZR, plus_IZR. lra.
Qed.
Lemma fround_ok a : Fin a -> FV (fround a) (IZR (Rround_away (V a))).
Proof. intros F. rewrite <- Rround_away_ZnearestA. exact (fnearby_ok mode_NA a F). Qed.

(** Fast2Sum without a magnitude bound on the larger operand *)
Lemma quick_big a b x y : FV a x -> FV b y -> Rabs y <= bp 1018 -> Rabs y <= Rabs x \/ x = 0 -> Rabs (rn (x + y)) < bp 1024 ->
  FV2 (quick_two_sum a b) (rn (x + y)) (x + y - rn (x + y)).
Proof.
  intros [Fa <-] [Fb <-] By D O. unfold quick_two_sum, FV2; cbn [fst snd].
  destruct (fadd_ok a b Fa Fb) as [Fs [Es _]]; auto. set (s := fadd a b) in *.
  assert (E1 : Rabs (V s - V a) <= bp 1019).
  { rewrite Es. replace (rn (V a + V b) - V a) with ((rn (V a + V b) - (V a + V b)) + V b) by ring.
    assert (N := proj2 (round_N_pt radix2 fexp64 (fun x => negb (Z.even x)) (V a + V b)) (V a) (V_fmt a)).
    change (round _ _ _ _) with (rn (V a + V b)) in N.
    replace (V a - (V a + V b)) with (- V b) in N by ring. rewrite Rabs_Ropp in N.
    assert (T := Rabs_triang (rn (V a + V b) - (V a + V b)) (V b)). change 1019%Z with (1018 + 1)%Z. rewrite bp_S. lra. }
  assert (O1 : Rabs (rn (V s - V a)) <= bp 1019) by (apply rn_B; [lia|easy]).
  destruct (fsub_ok s a Fs Fa) as [Fv [Ev _]]. { apply Rle_lt_trans with (1 := O1). apply bpow_lt. lia. }
  set (v := fsub s a) in *.
  destruct (fsub_ok b v Fb Fv) as [Fw [Ew _]].
  { apply Rle_lt_trans with (bp 1020); [|apply bpow_lt; lia]. apply rn_B. lia. rewrite Ev. change 1020%Z with (1019 + 1)%Z. rewrite bp_S.
    assert (T := Rabs_triang (V b) (- rn (V s - V a))). rewrite Rabs_Ropp in T. change (V b - rn (V s - V a)) with (V b + - rn (V s - V a)). assert (bp 1018 <= bp 1019) by (apply bpow_le; lia). lra. }
  split; split; auto. rewrite Ew, Ev, Es.
  destruct D as [D|D].
  - apply fast_two_sum_R; auto with fmt.
  - rewrite D, Rplus_0_l, Rminus_0_r, (rn_id (rn _)), (rn_id (V b)) by auto with fmt.
    replace (V b - V b) with 0 by ring. apply rn_0.
Qed.
Lemma renorm2_quick a b : renorm2 a b = quick_two_sum a b. Proof. reflexivity. Qed.

(** ** facts about a normalised pair *)
Lemma ulp_k h : h <> 0 -> ulp radix2 fexp64 h = bp (cexp radix2 fexp64 h).
Proof. intros H. now apply ulp_neq_0. Qed.
Lemma cexp_ge h : (-1074 <= cexp radix2 fexp64 h)%Z.
Proof. rewrite cexp64. lia. Qed.
Lemma lo_half h l : h <> 0 -> rn (h + l) = h -> Rabs l <= / 2 * bp (cexp radix2 fexp64 h).
Proof.
  intros N E. assert (K := error_le_half_ulp_round radix2 fexp64 (fun x => negb (Z.even x)) (h + l)).
  change (round radix2 _ _ _) with (rn (h + l)) in K. rewrite E, ulp_k in K by easy.
  replace (h - (h + l)) with (- l) in K by ring. now rewrite Rabs_Ropp in K.
Qed.
Lemma lo_zero l : fmt l -> rn (0 + l) = 0 -> l = 0.
Proof. intros F E. now rewrite Rplus_0_l, rn_id in E. Qed.
(** a point of h's own grid that is not h is a full step away *)
Lemma gap h y : fmt h -> mult2 (cexp radix2 fexp64 h) y -> h <> y -> bp (cexp radix2 fexp64 h) <= Rabs (h - y).
Proof. intros F M N. apply mult2_ge; [|lra]. apply mult2_minus; auto. now apply mult2_cexp. Qed.
Definition isint (x : R) : Prop := exists n : Z, x = IZR n.
Lemma isint_mult2 x : isint x <-> mult2 0 x.
Proof. split; intros [n H]; exists n; rewrite H; simpl; ring. Qed.
Lemma nonint_k h : fmt h -> ~ isint h -> (cexp radix2 fexp64 h <= -1)%Z.
Proof.
  intros F N. apply Z.lt_succ_r. change (Z.succ (-1)) with 0%Z. apply Znot_ge_lt. intros G. apply N, isint_mult2. eapply mult2_le; [|apply mult2_cexp; auto]. lia.
Qed.
Lemma int_dec x : isint x \/ ~ isint x.
Proof.
  destruct (Req_dec x (IZR (Zfloor x))) as [E|E]; [left; now exists (Zfloor x)|right]. intros [n ->]. apply E. now rewrite Zfloor_IZR.
Qed.
(** floor of a sum with an integer *)
Lemma Zfloor_add_int n x : Zfloor (IZR n + x) = (n + Zfloor x)%Z.
Proof. apply Zfloor_imp. assert (L := Zfloor_lb x). assert (U := Zfloor_ub x). rewrite !plus_IZR. lra. Qed.
(** a non-integer f64 and its normalised low part lie strictly between the same integers *)
Lemma floor_nonint h l : fmt h -> rn (h + l) = h -> ~ isint h -> Zfloor (h + l) = Zfloor h.
Proof.
  intros F E N. assert (K := nonint_k h F N). assert (Hz : h <> 0) by (intros ->; apply N; now exists 0%Z).
  assert (L := lo_half h l Hz E). set (k := cexp radix2 fexp64 h) in *.
  assert (P : 0 < bp k) by apply bpow_gt_0.
  assert (G : forall n, bp k <= Rabs (h - IZR n)).
  { intros n. apply gap; auto. fold k. apply mult2_le with 0%Z. lia. apply mult2_IZR. intros Q. apply N. now exists n. }
  assert (G1 := G (Zfloor h)). assert (G2 := G (Zfloor h + 1)%Z). rewrite plus_IZR in G2.
  assert (A := Zfloor_lb h). assert (B := Zfloor_ub h).
  rewrite Rabs_pos_eq in G1 by lra. rewrite Rabs_left1 in G2 by lra.
  apply Rabs_le_inv in L. apply Zfloor_imp. rewrite plus_IZR. lra.
Qed.

(** ** [floor] and [ceil] of a Double: [f] is floor (sg = 1) or ceil (sg = -1) *)
Lemma nearfrac H : fmt H -> ~ isint H -> H - IZR (Zfloor H) < bp (-52) -> 0 < H < bp (-52) \/ H = -1 + bp (-53).
Proof.
  intros F N K. assert (Hk := nonint_k H F N). set (k := cexp radix2 fexp64 H) in *.
  assert (Hz : H <> 0) by (intros ->; apply N; now exists 0%Z).
  assert (L := Zfloor_lb H). assert (U := Zfloor_ub H).
  assert (G : bp k <= Rabs (H - IZR (Zfloor H))).
  { apply gap; auto. fold k. apply mult2_le with 0%Z. lia. apply mult2_IZR. intros Q. apply N. now exists (Zfloor H). }
  rewrite Rabs_pos_eq in G by lra.
  assert (k < -52)%Z by (apply (lt_bpow radix2); lra).
  assert (Hm : (mag radix2 H <= 0)%Z) by (unfold k in *; rewrite cexp64 in *; lia).
  assert (B : Rabs H < 1). { apply Rlt_le_trans with (1 := bpow_mag_gt radix2 H). change 1 with (bp 0). now apply bpow_le. }
  apply Rabs_lt_inv in B.
  destruct (Rle_or_lt H 0) as [S|S].
  - right. assert (Zfloor H = -1)%Z by (apply Zfloor_imp; simpl; lra). rewrite H1 in *.
    assert (Q : bp (-1) <= Rabs H). { rewrite Rabs_left1 by easy. simpl in *. assert (bp (-52) <= / 2) by (simpl; lra). lra. }
    assert (m1 := mag_ge_bpow radix2 H 0 Q).
    assert (Ek : k = (-53)%Z) by (unfold k; rewrite cexp64; lia).
    destruct (mult2_cexp H F) as [n En]. fold k in En. rewrite Ek in En.
    assert (P53 : bp (-53) * IZR (2 ^ 53) = 1) by (rewrite <- bp_IZR by lia; rewrite <- bpow_plus; reflexivity).
    assert (P52 : bp (-52) = 2 * bp (-53)) by (change (-52)%Z with (-53 + 1)%Z; apply bp_S).
    assert (P : 0 < bp (-53)) by apply bpow_gt_0.
    assert (N1 : (- 2 ^ 53 < n)%Z).
    { apply lt_IZR. rewrite opp_IZR. apply Rmult_lt_reg_r with (bp (-53)); auto. rewrite <- En. lra. }
    assert (N2 : (n < - 2 ^ 53 + 2)%Z).
    { apply lt_IZR. rewrite plus_IZR, opp_IZR. apply Rmult_lt_reg_r with (bp (-53)); auto. rewrite <- En. lra. }
    assert (n = - 2 ^ 53 + 1)%Z by lia. subst n. rewrite En, plus_IZR, opp_IZR. lra.
  - left. assert (Zfloor H = 0)%Z by (apply Zfloor_imp; simpl; lra). rewrite H1 in *. replace (H - 0) with H in K by ring. lra.
Qed.
Lemma nonint_small x : fmt x -> ~ isint x -> Rabs x < bp 52.
Proof.
  intros F N. assert (K := nonint_k x F N). apply Rlt_le_trans with (1 := bpow_mag_gt radix2 x). apply bpow_le. rewrite cexp64 in K. lia.
Qed.
Lemma rn_ge_neg H y : fmt H -> H < 0 -> 2 * Rabs y < bp (cexp radix2 fexp64 H) -> H <= rn (H + y).
Proof.
  intros F N Hy. apply (round_N_ge_midp radix2 fexp64 (fun x => negb (Z.even x))); auto.
  assert (E : pred radix2 fexp64 H = H - bp (cexp radix2 fexp64 H)).
  { unfold pred. rewrite succ_eq_pos by lra. rewrite ulp_neq_0 by lra. rewrite cexp_opp. ring. }
  rewrite E. assert (T := Rle_abs (- y)). rewrite Rabs_Ropp in T. lra.
Qed.
Lemma fin_lt a : Fin a -> Rabs (V a) < bp 1024.
Proof. intros F. apply (abs_B2R_lt_emax prec emax). Qed.

Lemma u01 : 0 < u <= / 2. Proof. rewrite <- u_bp. split. apply bpow_gt_0. apply (bpow_le radix2 (-53) (-1)); lia. Qed.
Lemma near_ok a x y z : FV a y -> FV x z -> Rabs (y - z) <= 2 ->
  near_eps a x = Rlt_bool (Rabs (rn (y - z))) (bp (-52)).
Proof.
  intros [Fa <-] [Fx <-] B. unfold near_eps.
  assert (O : Rabs (rn (V a - V x)) <= bp 1) by (apply rn_B; [lia|exact B]).
  destruct (fsub_ok a x Fa Fx) as [Fs [Es _]]. { apply Rle_lt_trans with (1 := O). apply bpow_lt. lia. }
  destruct (fabs_ok (fsub a x) Fs) as [Fb Eb].
  rewrite fltb_ok by (auto using Fin_eps). now rewrite Eb, Es, V_eps.
Qed.
Lemma rn_lt_bp x k : (-1074 <= k)%Z -> Rabs (rn x) < bp k -> Rabs x < bp k.
Proof.
  intros Hk H. apply Rnot_le_lt. intros G. assert (bp k <= Rabs (rn x)); [|lra]. apply rn_abs_ge; auto. now apply fmt_bpow.
Qed.

Definition d_floor_like (f : f64 -> f64) (x : Double) : Double :=
  let hi := f (d0 x) in
  if near_eps hi (d0 x) then
    let '(a, b) := renorm2 hi (f (d1 x)) in mkD a b
  else mkD hi F64.f0.
Lemma d_floor_like_floor x : d_floor x = d_floor_like ffloor x. Proof. reflexivity. Qed.
Lemma d_floor_like_ceil x : d_ceil x = d_floor_like fceil x. Proof. reflexivity. Qed.

(** the inputs on which floor is off by one; h, l: the components *)
Definition floor_bad (h l : R) : Prop := (0 < h < bp (-52) \/ h = -1 + bp (-53)) /\ l < 0.

Section FloorLike.
Variables (f : f64 -> f64) (sg : Z).
Hypothesis Hsg : (sg = 1 \/ sg = -1)%Z.
Hypothesis Hf : forall a, Fin a -> FV (f a) (IZR sg * IZR (Zfloor (IZR sg * V a))).
Let s := IZR sg.
Lemma s2 : s * s = 1. Proof. unfold s. destruct Hsg as [-> | ->]; ring. Qed.
Lemma s_abs x : Rabs (s * x) = Rabs x.
Proof. unfold s. destruct Hsg as [-> | ->]. f_equal; ring. rewrite <- Rabs_Ropp. f_equal. ring. Qed.
Lemma s_rn x : rn (s * x) = s * rn x.
Proof. unfold s. destruct Hsg as [-> | ->]. now rewrite !Rmult_1_l. replace (-1 * x) with (- x) by ring. rewrite rn_opp. ring. Qed.
Lemma s_fmt x : fmt x -> fmt (s * x).
Proof. unfold s. destruct Hsg as [-> | ->]. now rewrite Rmult_1_l. replace (-1 * x) with (- x) by ring. apply fmt_opp. Qed.
Lemma s_s x : s * (s * x) = x. Proof. rewrite <- Rmult_assoc, s2. ring. Qed.
Lemma DNorm_FV2 p x y : FV2 p x y -> rn (x + y) = x -> DNorm (let '(a, b) := p in mkD a b) /\ DV (let '(a, b) := p in mkD a b) = x + y.
Proof.
  destruct p as [a b]. intros [[Fa Ea] [Fb Eb]] E. cbn [fst snd] in *. unfold DNorm, DFin, DV. cbn [d0 d1]. rewrite Ea, Eb. unfold RN. auto.
Qed.

Lemma d_floor_like_ok x : DNorm x ->
  let H := s * V (d0 x) in let L := s * V (d1 x) in let r := d_floor_like f x in
  DNorm r /\ (~ floor_bad H L -> DV r = s * IZR (Zfloor (s * DV x))) /\
  (floor_bad H L -> DV r = s * IZR (Zfloor (s * DV x) - 1)).
Proof.
  intros [[F0 F1] N] H L r. unfold DV in N. change RN with rn in N. symmetry in N.
  assert (FH : fmt H) by (apply s_fmt, V_fmt). assert (FL : fmt L) by (apply s_fmt, V_fmt).
  assert (E : rn (H + L) = H) by (unfold H, L; rewrite <- Rmult_plus_distr_l, s_rn, N; reflexivity).
  assert (EV : s * DV x = H + L) by (unfold DV, H, L; ring). rewrite EV.
  assert (Hh := Hf _ F0). fold s in Hh. fold H in Hh.
  assert (Hl := Hf _ F1). fold s in Hl. fold L in Hl.
  assert (Eh : V (d0 x) = s * H) by (unfold H; now rewrite s_s).
  assert (lb := Zfloor_lb H). assert (ub := Zfloor_ub H).
  assert (NE : near_eps (f (d0 x)) (d0 x) = Rlt_bool (Rabs (rn (IZR (Zfloor H) - H))) (bp (-52))).
  { rewrite (near_ok _ _ (s * IZR (Zfloor H)) (s * H)); auto. 2: now split.
    - rewrite <- Rmult_minus_distr_l, s_rn, s_abs. reflexivity.
    - rewrite <- Rmult_minus_distr_l, s_abs. rewrite Rabs_left1 by lra. lra. }
  unfold r, d_floor_like. rewrite NE, renorm2_quick. clear r NE.
  destruct (int_dec H) as [[n I]|I].
  - (* H integer *)
    assert (EF : Zfloor H = n) by (rewrite I; apply Zfloor_IZR).
    rewrite EF in *. rewrite Rminus_diag_eq, rn_0, Rabs_R0 by (now symmetry). rewrite Rlt_bool_true by apply bpow_gt_0.
    assert (Nb : ~ floor_bad H L).
    { intros [[B|B] _].
      - assert (0 < n < 1)%Z; [|lia]. split; apply lt_IZR; rewrite <- I. apply B. apply Rlt_trans with (1 := proj2 B). simpl; lra.
      - assert (-1 < n < 0)%Z; [|lia]. split; apply lt_IZR; rewrite <- I, B; simpl; lra. }
    assert (BL : Rabs (IZR (Zfloor L)) <= Rabs H /\ Rabs (IZR (Zfloor L)) <= bp 971).
    { assert (NL := norm_lo H L FH FL E).
      assert (G : forall m, Rabs L <= IZR m -> Rabs (IZR (Zfloor L)) <= IZR m).
      { intros m B. apply Rabs_le. apply Rabs_le_inv in B. split; [rewrite <- opp_IZR; apply IZR_le, Zfloor_lub; rewrite opp_IZR; lra|].
        apply Rle_trans with (2 := proj2 B). apply Zfloor_lb. }
      split.
      - rewrite I, <- (abs_IZR n). apply G. rewrite I, <- (abs_IZR n) in NL. assert (0 <= IZR (Z.abs n)) by (apply IZR_le; lia). assert (U := u01). nra.
      - rewrite bp_IZR by lia. apply G. rewrite <- bp_IZR by lia. apply Rle_trans with (1 := NL).
        assert (Q : Rabs H < bp 1024). { unfold H. rewrite s_abs. now apply fin_lt. }
        rewrite <- u_bp. change 971%Z with (-53 + 1024)%Z. rewrite bpow_plus. apply Rmult_le_compat_l. apply bpow_ge_0. lra. }
    assert (OV : Rabs (rn (H + IZR (Zfloor L))) < bp 1024).
    { assert (Q : Rabs H < bp 1024). { unfold H. rewrite s_abs. now apply fin_lt. }
      destruct (int_dec L) as [[m IL]|IL]. { rewrite IL, Zfloor_IZR, <- IL, E. exact Q. }
      destruct (Rle_or_lt 0 H) as [P|P].
      - assert (rn (H + IZR (Zfloor L)) <= H). { rewrite <- E at 2. apply rn_le. assert (J := Zfloor_lb L). lra. }
        assert (0 <= rn (H + IZR (Zfloor L))). { apply rn_ge_0. destruct BL as [BL _]. apply Rabs_le_inv in BL. rewrite (Rabs_pos_eq H) in BL by easy. lra. }
        rewrite Rabs_pos_eq in * by easy. lra.
      - destruct (Rle_or_lt (Rabs H) (bp 1000)) as [S|S].
        + apply Rle_lt_trans with (bp 1001); [|apply bpow_lt; lia]. apply rn_B. lia. change 1001%Z with (1000 + 1)%Z. rewrite bp_S.
          assert (T := Rabs_triang H (IZR (Zfloor L))). destruct BL. lra.
        + assert (SL := nonint_small L FL IL).
          assert (IZR (- 2 ^ 52) <= IZR (Zfloor L)).
          { apply IZR_le, Zfloor_lub. rewrite opp_IZR, <- bp_IZR by lia. apply Rabs_lt_inv in SL. lra. }
          assert (U := Zfloor_lb L). rewrite opp_IZR, <- bp_IZR in H0 by lia.
          assert (K : H <= rn (H + IZR (Zfloor L))).
          { apply rn_ge_neg; auto. assert (KM := mag_ge_bpow radix2 H 1001 (Rlt_le _ _ S)).
            assert (bp 54 <= bp (cexp radix2 fexp64 H)) by (apply bpow_le; rewrite cexp64; lia).
            assert (Rabs (IZR (Zfloor L)) <= bp 52). { apply Rabs_le. apply Rabs_lt_inv in SL. lra. }
            assert (bp 53 = 2 * bp 52) by (change 53%Z with (52 + 1)%Z; apply bp_S). assert (bp 54 = 2 * bp 53) by (change 54%Z with (53 + 1)%Z; apply bp_S).
            assert (0 < bp 52) by apply bpow_gt_0. lra. }
          assert (rn (H + IZR (Zfloor L)) <= 0).
          { apply rn_le_0. destruct BL as [BL _]. apply Rabs_le_inv in BL. rewrite (Rabs_left H) in BL by easy. lra. }
          rewrite Rabs_left1 in * by lra. lra. }
    assert (R := quick_big _ _ _ _ Hh Hl). rewrite !s_abs, <- I, <- Rmult_plus_distr_l, s_rn, s_abs in R.
    destruct BL as [BL1 BL2]. specialize (R ltac:(apply Rle_trans with (1 := BL2); apply bpow_le; lia) ltac:(now left) OV).
    apply DNorm_FV2 in R. 2: { replace (s * rn (H + IZR (Zfloor L)) + (s * (H + IZR (Zfloor L)) - s * rn (H + IZR (Zfloor L)))) with (s * (H + IZR (Zfloor L))) by ring. now rewrite s_rn. }
    destruct R as [R1 R2]. split; [exact R1|]. rewrite R2. split; [intros _|tauto].
    assert (EQ : Zfloor (H + L) = (n + Zfloor L)%Z) by (rewrite I; apply Zfloor_add_int). rewrite EQ, plus_IZR, <- I. ring.
  - (* H not an integer *)
    assert (FF : Zfloor (H + L) = Zfloor H) by now apply floor_nonint. rewrite FF.
    assert (Hz : H <> 0) by (intros Q; apply I; exists 0%Z; exact Q).
    assert (NL := norm_lo H L FH FL E).
    case Rlt_bool_spec; intros C.
    + (* near *)
      apply rn_lt_bp in C; [|lia]. rewrite Rabs_minus_sym, Rabs_pos_eq in C by lra.
      assert (Z1 := nearfrac H FH I C).
      assert (B1 : Rabs H < 1).
      { destruct Z1 as [Z1|Z1]; [rewrite Rabs_pos_eq by lra; apply Rlt_trans with (1 := proj2 Z1); simpl; lra|]. rewrite Z1. apply Rabs_def1; simpl; lra. }
      assert (BL : Rabs L < 1) by (assert (U := u01); assert (P := Rabs_pos H); nra). apply Rabs_lt_inv in BL.
      assert (EL : Zfloor L = if Rlt_bool L 0 then (-1)%Z else 0%Z).
      { case Rlt_bool_spec; intros Q; apply Zfloor_imp; simpl; lra. }
      assert (FHv : Zfloor H = 0%Z \/ Zfloor H = (-1)%Z).
      { destruct Z1 as [Z1|Z1]; [left|right]; apply Zfloor_imp; simpl; [|rewrite Z1]; simpl in *; lra. }
      assert (LB : Rabs (IZR (Zfloor L)) <= 1).
      { rewrite EL. destruct (Rlt_bool L 0); [rewrite Rabs_left|rewrite Rabs_R0]; lra. }
      assert (R := quick_big _ _ _ _ Hh Hl). rewrite !s_abs, <- Rmult_plus_distr_l, s_rn, s_abs in R.
      specialize (R ltac:(apply Rle_trans with (1 := LB); apply (bpow_le radix2 0); lia)).
      assert (D : Rabs (IZR (Zfloor L)) <= Rabs (IZR (Zfloor H)) \/ s * IZR (Zfloor H) = 0).
      { destruct FHv as [-> | ->]; [right; ring|left]. rewrite (Rabs_left (-1)) by lra. lra. }
      specialize (R D). specialize (R ltac:(apply Rle_lt_trans with (bp 1); [|apply bpow_lt; lia]; apply rn_B; [lia|];
        destruct FHv as [-> | ->]; simpl; apply Rabs_le; apply Rabs_le_inv in LB; lra)).
      apply DNorm_FV2 in R. 2: { rewrite Rplus_comm. unfold Rminus. rewrite Rplus_assoc, Rplus_opp_l, Rplus_0_r. now rewrite s_rn. }
      destruct R as [R1 R2]. split; [exact R1|]. rewrite R2. rewrite EL. case Rlt_bool_spec; intros Q.
      * split; [intros NB; exfalso; apply NB; split; auto|intros _]. rewrite minus_IZR. ring.
      * split; [intros _; ring|]. intros [_ Q']. lra.
    + assert (NB : ~ floor_bad H L).
      { intros [Z1 _]. assert (FHv : IZR (Zfloor H) - H = - H /\ 0 < H < bp (-52) \/ IZR (Zfloor H) - H = - bp (-53)).
        { destruct Z1 as [Z1|Z1].
          - left. assert (Zfloor H = 0%Z) by (apply Zfloor_imp; simpl in *; lra). rewrite H0. split; [ring|easy].
          - right. assert (Zfloor H = (-1)%Z) by (apply Zfloor_imp; rewrite Z1; simpl; lra). rewrite H0, Z1. ring. }
        destruct FHv as [[Q1 Q2]|Q1]; rewrite Q1, rn_opp, Rabs_Ropp in C.
        - rewrite rn_id, Rabs_pos_eq in C by (auto; lra). lra.
        - rewrite rn_id, Rabs_pos_eq in C by (apply fmt_bpow; lia) || apply bpow_ge_0 || (apply fmt_bpow; lia). 
          assert (bp (-53) < bp (-52)) by (apply bpow_lt; lia). lra. }
      assert (R := DNorm_FV2 (f (d0 x), F64.f0) (s * IZR (Zfloor H)) 0).
      destruct R as [R1 R2]. { split; [exact Hh|]. split; [reflexivity|reflexivity]. }
      { rewrite Rplus_0_r. destruct Hh as [_ <-]. apply rn_id, V_fmt. }
      split; [exact R1|]. rewrite R2, Rplus_0_r. tauto.
Qed.
End FloorLike.

(** ** [round] of a Double *)
Definition ishalf (x : R) : Prop := exists n : Z, x = IZR n + / 2.
Lemma half_dec x : ishalf x \/ ~ ishalf x.
Proof.
  destruct (int_dec (x - / 2)) as [[n H]|H]; [left; exists n; lra|right]. intros [n E]. apply H. exists n. lra.
Qed.
Lemma Rr_imp n x : IZR n - / 2 < x < IZR n + / 2 -> Rround_away x = n.
Proof.
  intros H. unfold Rround_away. destruct (Rle_dec 0 x) as [P|P].
  - apply Zfloor_imp. rewrite plus_IZR. lra.
  - apply Zceil_imp. rewrite minus_IZR. lra.
Qed.
Lemma Rr_half_pos n : (0 <= n)%Z -> Rround_away (IZR n + / 2) = (n + 1)%Z.
Proof.
  intros H. apply IZR_le in H. unfold Rround_away. destruct (Rle_dec 0 (IZR n + / 2)) as [P|P]; [|lra].
  apply Zfloor_imp. rewrite !plus_IZR. lra.
Qed.
Lemma Rr_half_neg n : (n < 0)%Z -> Rround_away (IZR n + / 2) = n.
Proof.
  intros H. assert (H' : (n <= -1)%Z) by lia. apply IZR_le in H'. unfold Rround_away. destruct (Rle_dec 0 (IZR n + / 2)) as [P|P]; [lra|].
  apply Zceil_imp. rewrite minus_IZR. lra.
Qed.
Lemma Rr_err x : Rabs (IZR (Rround_away x) - x) <= / 2.
Proof.
  unfold Rround_away. destruct (Rle_dec 0 x) as [P|P].
  - assert (L := Zfloor_lb (x + / 2)). assert (U := Zfloor_ub (x + / 2)). apply Rabs_le. lra.
  - assert (L := Zceil_ub (x - / 2)). assert (U := Zceil_lb (x - / 2)). apply Rabs_le. lra.
Qed.
Lemma Rr_nothalf x : ~ ishalf x -> Rabs (IZR (Rround_away x) - x) < / 2.
Proof.
  intros N. assert (E := Rr_err x). destruct (Rle_lt_or_eq_dec _ _ E) as [L|L]; auto. exfalso. apply N.
  unfold Rabs in L. destruct Rcase_abs. 
  - exists (Rround_away x). lra.
  - exists (Rround_away x - 1)%Z. rewrite minus_IZR. lra.
Qed.
Lemma Rr_int_bound m x : Rabs x <= IZR m -> Rabs (IZR (Rround_away x)) <= IZR m.
Proof.
  intros H. assert (E := Rr_err x). apply Rabs_le_inv in H. apply Rabs_le_inv in E.
  assert (- m - 1 < Rround_away x < m + 1)%Z.
  { split; apply lt_IZR; rewrite ?minus_IZR, ?plus_IZR, ?opp_IZR; lra. }
  rewrite <- abs_IZR. apply IZR_le. lia.
Qed.
Lemma rn_abs_small H y : fmt H -> H <> 0 -> 2 * Rabs y < bp (cexp radix2 fexp64 H) -> Rabs y <= Rabs H -> Rabs (rn (H + y)) <= Rabs H.
Proof.
  assert (G : forall H y, fmt H -> H < 0 -> 2 * Rabs y < bp (cexp radix2 fexp64 H) -> Rabs y <= Rabs H -> Rabs (rn (H + y)) <= Rabs H).
  { clear. intros H y F P B D. assert (K := rn_ge_neg H y F P B). rewrite (Rabs_left H) in * by easy. apply Rabs_le_inv in D.
    rewrite Rabs_left1. lra. apply rn_le_0. lra. }
  intros F N B D. destruct (Rtotal_order H 0) as [P|[P|P]]; [auto|easy|].
  rewrite <- (Rabs_Ropp H), <- (Rabs_Ropp (rn _)), <- rn_opp. replace (- (H + y)) with (- H + - y) by ring.
  apply G; auto using fmt_opp. lra. now rewrite Rabs_Ropp, cexp_opp. now rewrite !Rabs_Ropp.
Qed.
(** an integer f64 plus an integer not larger than it, with a normalised low part nearby, does not overflow *)
Lemma int_ovf h l m : fmt h -> fmt l -> rn (h + l) = h -> Rabs h < bp 1024 -> h <> 0 ->
  Rabs (IZR m) <= Rabs h -> (isint l -> IZR m = l) -> (~ isint l -> Rabs (IZR m) <= bp 52) -> Rabs (rn (h + IZR m)) < bp 1024.
Proof.
  intros Fh Fl E B N D I1 I2. destruct (int_dec l) as [I|I]. { rewrite I1, E by easy. easy. }
  specialize (I2 I). destruct (Rle_or_lt (Rabs h) (bp 1000)) as [S|S].
  - apply Rle_lt_trans with (bp 1001); [|apply bpow_lt; lia]. apply rn_B. lia. change 1001%Z with (1000 + 1)%Z. rewrite bp_S.
    assert (T := Rabs_triang h (IZR m)). lra.
  - apply Rle_lt_trans with (2 := B). apply rn_abs_small; auto.
    assert (KM := mag_ge_bpow radix2 h 1001 (Rlt_le _ _ S)).
    assert (bp 54 <= bp (cexp radix2 fexp64 h)) by (apply bpow_le; rewrite cexp64; lia).
    assert (bp 53 = 2 * bp 52) by (change 53%Z with (52 + 1)%Z; apply bp_S). assert (bp 54 = 2 * bp 53) by (change 54%Z with (53 + 1)%Z; apply bp_S).
    assert (0 < bp 52) by apply bpow_gt_0. lra.
Qed.

Definition round_bad (h l : R) : Prop :=
  (isint h /\ ishalf l /\ h * l < 0) \/
  (ishalf h /\ h < 0 /\ l <> 0) \/
  (0 < Rabs (Rabs h - / 2) < bp (-52) /\ l < 0).

Lemma half_not_int x : ishalf x -> ~ isint x.
Proof.
  intros [n ->] [m E]. assert (0 < m - n < 1)%Z; [|lia]. split; apply lt_IZR; rewrite minus_IZR; lra.
Qed.
Lemma int_far_half h : isint h -> ~ Rabs (Rabs h - / 2) < / 2.
Proof.
  intros [n ->] H. rewrite <- abs_IZR in H. apply Rabs_lt_inv in H. assert (0 < Z.abs n < 1)%Z; [|lia]. split; apply lt_IZR; lra.
Qed.
Lemma half_mult2 x : ishalf x -> mult2 (-1) x.
Proof. intros [n ->]. exists (2 * n + 1)%Z. rewrite plus_IZR, mult_IZR. change (bp (-1)) with (/ 2). field. Qed.
Lemma bp52_lt : bp (-52) < / 4. Proof. apply (bpow_lt radix2 (-52) (-2)). lia. Qed.
(** rounding a non-integer, non-half value is not changed by its low part *)
Lemma round_plain h l : fmt h -> rn (h + l) = h -> ~ isint h -> ~ ishalf h -> Rround_away (h + l) = Rround_away h.
Proof.
  intros F E N NH. assert (K := nonint_k h F N). assert (Hz : h <> 0) by (intros ->; apply N; now exists 0%Z).
  assert (L := lo_half h l Hz E). set (k := cexp radix2 fexp64 h) in *.
  assert (P : 0 < bp k) by apply bpow_gt_0.
  assert (G : forall y, ishalf y -> bp k <= Rabs (h - y)).
  { intros y Hy. apply gap; auto. fold k. apply mult2_le with (-1)%Z. lia. now apply half_mult2. intros Q. apply NH. now rewrite Q. }
  assert (B := Rr_nothalf h NH). set (n := Rround_away h) in *. apply Rabs_lt_inv in B. apply Rabs_le_inv in L.
  apply Rr_imp.
  assert (G1 := G (IZR n + / 2) ltac:(now exists n)). assert (G2 := G (IZR n - / 2) ltac:(exists (n - 1)%Z; rewrite minus_IZR; lra)).
  rewrite Rabs_left1 in G1 by lra. rewrite Rabs_pos_eq in G2 by lra. lra.
Qed.
(** hi - h is computed exactly *)
Lemma round_sub_fmt h : fmt h -> ~ isint h -> fmt (IZR (Rround_away h) - h).
Proof.
  intros F N. assert (K := nonint_k h F N). assert (E := Rr_err h).
  destruct (Rle_or_lt (/ 4) (Rabs h)) as [S|S].
  - apply fmt_mult2 with (cexp radix2 fexp64 h). apply cexp_ge.
    + apply mult2_minus. apply mult2_le with 0%Z. lia. apply mult2_IZR. now apply mult2_cexp.
    + apply Rle_trans with (1 := E). apply (bpow_le radix2 (-1)). assert (M := mag_ge_bpow radix2 h (-1) S). rewrite cexp64. lia.
  - rewrite (Rr_imp 0). replace (0 - h) with (- h) by ring. now apply fmt_opp. apply Rabs_lt_inv in S. simpl. lra.
Qed.
(** the test for "close to one half" *)
Lemma near_half_ok h : fmt h -> ~ isint h ->
  (Rabs (rn (Rabs (IZR (Rround_away h) - h) - / 2)) < bp (-52) <-> Rabs (Rabs (IZR (Rround_away h) - h) - / 2) < bp (-52)).
Proof.
  intros F N. assert (K := nonint_k h F N). assert (E := Rr_err h). set (d := Rabs (IZR (Rround_away h) - h)) in *.
  split; [apply rn_lt_bp; lia|].
  destruct (Rle_or_lt (/ 4) (Rabs h)) as [S|S].
  - intros H. rewrite rn_id; auto. apply fmt_mult2 with (cexp radix2 fexp64 h). apply cexp_ge.
    + apply mult2_minus; [|exists (2 ^ (-1 - cexp radix2 fexp64 h))%Z].
      * unfold d, Rabs. destruct Rcase_abs; [apply mult2_opp|]; (apply mult2_minus; [apply mult2_le with 0%Z; [lia|apply mult2_IZR]|now apply mult2_cexp]).
      * rewrite <- bp_IZR by lia. rewrite <- bpow_plus. replace (-1 - cexp radix2 fexp64 h + cexp radix2 fexp64 h)%Z with (-1)%Z by ring. reflexivity.
    + apply Rle_trans with (/ 2). { apply Rlt_le, Rlt_trans with (1 := H). assert (Q := bp52_lt). lra. }
      apply (bpow_le radix2 (-1)). assert (M := mag_ge_bpow radix2 h (-1) S). rewrite cexp64. lia.
  - intros H. exfalso. unfold d in H. rewrite (Rr_imp 0) in H by (apply Rabs_lt_inv in S; simpl; lra).
    replace (0 - h) with (- h) in H by ring. rewrite Rabs_Ropp in H. assert (Q := bp52_lt). apply Rabs_lt_inv in H. lra.
Qed.
Lemma near_half_cases h : fmt h -> ~ isint h ->
  (Rabs (Rabs (IZR (Rround_away h) - h) - / 2) < bp (-52) <-> ishalf h \/ 0 < Rabs (Rabs h - / 2) < bp (-52)).
Proof.
  intros F N. assert (Q := bp52_lt). assert (Q0 : 0 < bp (-52)) by apply bpow_gt_0. split.
  - intros H. destruct (half_dec h) as [D|D]; [now left|right].
    assert (K := nonint_k h F N). set (k := cexp radix2 fexp64 h) in *. assert (B := Rr_nothalf h D).
    set (n := Rround_away h) in *.
    assert (G : bp k <= Rabs (Rabs (IZR n - h) - / 2)).
    { apply mult2_ge; [|lra]. apply mult2_minus; [|exists (2 ^ (-1 - k))%Z].
      * unfold Rabs. destruct Rcase_abs; [apply mult2_opp|]; (apply mult2_minus; [apply mult2_le with 0%Z; [lia|apply mult2_IZR]|now apply mult2_cexp]).
      * rewrite <- bp_IZR by lia. rewrite <- bpow_plus. replace (-1 - k + k)%Z with (-1)%Z by ring. reflexivity. }
    assert (k < -52)%Z by (apply (lt_bpow radix2); lra).
    assert (Hm : (mag radix2 h <= 0)%Z) by (unfold k in *; rewrite cexp64 in *; lia).
    assert (B1 : Rabs h < 1). { apply Rlt_le_trans with (1 := bpow_mag_gt radix2 h). change 1 with (bp 0). now apply bpow_le. }
    assert (NH : Rabs h <> / 2).
    { intros Z. apply D. unfold Rabs in Z. destruct (Rcase_abs h). exists (-1)%Z. lra. exists 0%Z. lra. }
    split; [apply Rabs_pos_lt; lra|].
    destruct (Rle_or_lt (Rabs h) (/ 2)) as [S|S].
    + assert (n = 0)%Z. { apply Rr_imp. assert (S' : Rabs h < / 2) by lra. apply Rabs_lt_inv in S'. simpl. lra. }
      rewrite H1 in H. replace (0 - h) with (- h) in H by ring. now rewrite Rabs_Ropp in H.
    + assert (E : Rabs (IZR n - h) = 1 - Rabs h).
      { destruct (Rle_or_lt 0 h) as [P|P].
        - rewrite (Rabs_pos_eq h) in * by easy. assert (En : n = 1%Z) by (apply Rr_imp; simpl; lra). rewrite En. rewrite Rabs_pos_eq; lra.
        - rewrite (Rabs_left h) in * by easy. assert (En : n = (-1)%Z) by (apply Rr_imp; simpl; lra). rewrite En. rewrite Rabs_left1; lra. }
      rewrite E in H. replace (1 - Rabs h - / 2) with (- (Rabs h - / 2)) in H by field. now rewrite Rabs_Ropp in H.
  - intros [D|D].
    + assert (E : Rabs (IZR (Rround_away h) - h) = / 2).
      { destruct D as [n ->]. destruct (Z_lt_le_dec n 0) as [P|P].
        - rewrite Rr_half_neg by easy. rewrite Rabs_left1; lra.
        - rewrite Rr_half_pos by easy. rewrite plus_IZR. rewrite Rabs_pos_eq; lra. }
      rewrite E, Rminus_diag_eq, Rabs_R0 by reflexivity. easy.
    + destruct D as [D1 D2]. apply Rabs_lt_inv in D2.
      destruct (Rle_or_lt (Rabs h) (/ 2)) as [S|S].
      * assert (NE : Rabs h <> / 2). { intros Z. rewrite Z, Rminus_diag_eq, Rabs_R0 in D1 by reflexivity. lra. }
        rewrite (Rr_imp 0). 2: { assert (S' : Rabs h < / 2) by lra. apply Rabs_lt_inv in S'. simpl. lra. }
        replace (0 - h) with (- h) by ring. rewrite Rabs_Ropp. apply Rabs_lt. lra.
      * assert (E : Rabs (IZR (Rround_away h) - h) = 1 - Rabs h).
        { destruct (Rle_or_lt 0 h) as [P|P].
          - rewrite (Rabs_pos_eq h) in * by easy. rewrite (Rr_imp 1) by (simpl; lra). rewrite Rabs_pos_eq; lra.
          - rewrite (Rabs_left h) in * by easy. rewrite (Rr_imp (-1)) by (simpl; lra). rewrite Rabs_left1; lra. }
        rewrite E. apply Rabs_lt. lra.
Qed.

Lemma FV_half : FV fhalf (/ 2).
Proof. destruct (f2pow_exact 1 (-1)) as [F E]; try lia. split; [exact F|]. unfold fhalf. rewrite E. change (bp (-1)) with (/ 2). ring. Qed.
Lemma FV_one : FV F64.f1 1.
Proof. split; [reflexivity|]. unfold F64.f1, V. cbn. unfold F2R. cbn. field. Qed.
Lemma near_half_test a x next y z w : FV a y -> FV x z -> FV next w -> Rabs (y - z) <= 2 ->
  near_half a x next = Rlt_bool (Rabs (rn (Rabs (rn (y - z)) - / 2))) (bp (-52)) && Rlt_bool w 0.
Proof.
  intros [Fa <-] [Fx <-] [Fn <-] B. unfold near_half.
  assert (O : Rabs (rn (V a - V x)) <= bp 1) by (apply rn_B; [lia|exact B]).
  destruct (fsub_ok a x Fa Fx) as [Fs [Es _]]. { apply Rle_lt_trans with (1 := O). apply bpow_lt. lia. }
  destruct (fabs_ok (fsub a x) Fs) as [Fb Eb]. destruct FV_half as [Fh Eh].
  assert (O2 : Rabs (rn (Rabs (rn (V a - V x)) - / 2)) <= bp 2).
  { apply rn_B. lia. change (bp 2) with 4. change (bp 1) with 2 in O. assert (P := Rabs_pos (rn (V a - V x))). apply Rabs_le. lra. }
  destruct (fsub_ok _ _ Fb Fh) as [Fs2 [Es2 _]]. { rewrite Eb, Es, Eh. apply Rle_lt_trans with (1 := O2). apply bpow_lt. lia. }
  destruct (fabs_ok _ Fs2) as [Fb2 Eb2].
  rewrite !fltb_ok by (auto using Fin_eps; reflexivity). now rewrite Eb2, Es2, Eb, Es, Eh, V_eps.
Qed.
Lemma d_round_unf x : d_round x =
  let hi := fround (d0 x) in
  if near_eps hi (d0 x) then let '(a, b) := renorm2 hi (fround (d1 x)) in mkD a b
  else if near_half hi (d0 x) (d1 x) then mkD (fsub hi F64.f1) F64.f0 else mkD hi F64.f0.
Proof. reflexivity. Qed.
Lemma DNorm_single a y : FV a y -> DNorm (mkD a F64.f0) /\ DV (mkD a F64.f0) = y.
Proof.
  intros A. destruct (DNorm_FV2 (a, F64.f0) y 0) as [R1 R2]. { split; [exact A|]. split; reflexivity. }
  { rewrite Rplus_0_r. destruct A as [_ <-]. apply rn_id, V_fmt. }
  split; auto. rewrite <- (Rplus_0_r y). exact R2.
Qed.

Lemma d_round_ok x : DNorm x ->
  DNorm (d_round x) /\ (DV (d_round x) = IZR (Rround_away (DV x)) <-> ~ round_bad (V (d0 x)) (V (d1 x))).
Proof.
  intros [[F0 F1] N]. unfold DV in N. change RN with rn in N. symmetry in N.
  unfold DV at 2. set (h := V (d0 x)) in *. set (l := V (d1 x)) in *.
  assert (Fh : fmt h) by apply V_fmt. assert (Fl : fmt l) by apply V_fmt.
  assert (Hh : FV (fround (d0 x)) (IZR (Rround_away h))) by now apply fround_ok.
  assert (Hl : FV (fround (d1 x)) (IZR (Rround_away l))) by now apply fround_ok.
  assert (Xh : FV (d0 x) h) by now split. assert (Xl : FV (d1 x) l) by now split.
  assert (E := Rr_err h). assert (NL := norm_lo h l Fh Fl N). assert (U := u01). assert (Q52 := bp52_lt).
  rewrite d_round_unf. cbv zeta. rewrite renorm2_quick.
  rewrite (near_ok _ _ _ _ Hh Xh) by lra.
  destruct (int_dec h) as [I|I].
  - destruct I as [n I].
    assert (EF : Rround_away h = n) by (rewrite I; apply Rr_imp; lra).
    rewrite EF in *. rewrite Rminus_diag_eq, rn_0, Rabs_R0 by (now symmetry). rewrite Rlt_bool_true by apply bpow_gt_0.
    assert (Hlt : Rabs h < bp 1024) by now apply fin_lt.
    assert (BL : Rabs (IZR (Rround_away l)) <= Rabs h /\ Rabs (IZR (Rround_away l)) <= bp 971).
    { split.
      - rewrite I, <- (abs_IZR n). apply Rr_int_bound. rewrite I, <- (abs_IZR n) in NL. assert (0 <= IZR (Z.abs n)) by (apply IZR_le; lia). nra.
      - rewrite bp_IZR by lia. apply Rr_int_bound. rewrite <- bp_IZR by lia. apply Rle_trans with (1 := NL).
        rewrite <- u_bp. change 971%Z with (-53 + 1024)%Z. rewrite bpow_plus. apply Rmult_le_compat_l. apply bpow_ge_0. lra. }
    destruct BL as [BL1 BL2].
    assert (OV : Rabs (rn (h + IZR (Rround_away l))) < bp 1024).
    { destruct (Req_dec h 0) as [Z|Z]. { rewrite Z in BL1 |- *. rewrite Rabs_R0 in BL1. assert (R0 := Rabs_pos (IZR (Rround_away l))).
        assert (R1 : Rabs (IZR (Rround_away l)) = 0) by lra. rewrite Rplus_0_l. rewrite <- rn_abs, R1, rn_0. apply bpow_gt_0. }
      apply int_ovf with l; auto.
      - intros [m ->]. f_equal. apply Rr_imp. lra.
      - intros NI. assert (SL := nonint_small l Fl NI). rewrite bp_IZR in * by lia. apply Rr_int_bound. lra. }
    assert (R := quick_big _ _ _ _ Hh Hl). rewrite <- I in R.
    specialize (R ltac:(apply Rle_trans with (1 := BL2); apply bpow_le; lia) ltac:(now left) OV).
    apply DNorm_FV2 in R. 2: { f_equal. ring. }
    destruct R as [R1 R2]. split; [exact R1|]. rewrite R2.
    replace (rn (h + IZR (Rround_away l)) + (h + IZR (Rround_away l) - rn (h + IZR (Rround_away l)))) with (h + IZR (Rround_away l)) by ring.
    assert (NB : round_bad h l <-> ishalf l /\ h * l < 0).
    { unfold round_bad. split.
      - intros [[_ B]|[[B _]|[[_ B] _]]]; auto. exfalso. apply (half_not_int h B). now exists n. exfalso. apply (int_far_half h). now exists n. lra.
      - intros B. left. split; auto. now exists n. }
    rewrite NB. clear NB. destruct (half_dec l) as [D|D].
    + assert (Hz : h <> 0). { intros Z. rewrite Z in *. assert (l = 0) by now apply lo_zero. apply (half_not_int l D). exists 0%Z. easy. }
      destruct D as [m D].
      assert (S : Rabs l < Rabs h). { assert (0 < Rabs h) by now apply Rabs_pos_lt. nra. }
      rewrite I in *.
      destruct (Z_lt_le_dec m 0) as [P|P].
      * assert (Pm : l < 0). { rewrite D. assert (m <= -1)%Z by lia. apply IZR_le in H. lra. }
        assert (E1 : Rround_away l = m) by (rewrite D; now apply Rr_half_neg). rewrite E1.
        destruct (Rtotal_order (IZR n) 0) as [Q|[Q|Q]]; [|easy|].
        -- assert (E2 : Rround_away (IZR n + l) = (n + m)%Z).
           { rewrite D, <- Rplus_assoc, <- plus_IZR. apply Rr_half_neg. apply lt_IZR in Q. lia. }
           rewrite E2, plus_IZR. split; [intros _ [_ B]; nra|easy].
        -- assert (E2 : Rround_away (IZR n + l) = (n + m + 1)%Z).
           { rewrite D, <- Rplus_assoc, <- plus_IZR. apply Rr_half_pos. rewrite (Rabs_pos_eq (IZR n)), Rabs_left in S by lra.
             assert (0 < n + m + 1)%Z; [|lia]. apply lt_IZR. rewrite !plus_IZR. lra. }
           rewrite E2, !plus_IZR. split; [intros B; exfalso; lra|]. intros B. exfalso. apply B. split; [now exists m|]. nra.
      * assert (Pm : 0 < l). { rewrite D. apply IZR_le in P. lra. }
        assert (E1 : Rround_away l = (m + 1)%Z) by (rewrite D; now apply Rr_half_pos). rewrite E1.
        destruct (Rtotal_order (IZR n) 0) as [Q|[Q|Q]]; [|easy|].
        -- assert (E2 : Rround_away (IZR n + l) = (n + m)%Z).
           { rewrite D, <- Rplus_assoc, <- plus_IZR. apply Rr_half_neg. rewrite (Rabs_left (IZR n)), (Rabs_pos_eq l) in S by lra.
             assert (n + m < 0)%Z; [|lia]. apply lt_IZR. rewrite !plus_IZR. lra. }
           rewrite E2, !plus_IZR. split; [intros B; exfalso; lra|]. intros B. exfalso. apply B. split; [now exists m|]. nra.
        -- assert (E2 : Rround_away (IZR n + l) = (n + m + 1)%Z).
           { rewrite D, <- Rplus_assoc, <- plus_IZR. apply Rr_half_pos. apply lt_IZR in Q. lia. }
           rewrite E2, !plus_IZR. split; [intros _ [_ B]; nra|intros _; ring].
    + assert (E1 := Rr_nothalf l D). apply Rabs_lt_inv in E1.
      assert (E2 : Rround_away (h + l) = (n + Rround_away l)%Z). { apply Rr_imp. rewrite plus_IZR, I. lra. }
      rewrite E2, plus_IZR, I. tauto.
  - assert (Hz : h <> 0) by (intros Q; apply I; exists 0%Z; exact Q).
    assert (FS := round_sub_fmt h Fh I). rewrite (rn_id (IZR (Rround_away h) - h)) by easy.
    assert (Lh := lo_half h l Hz N). assert (Kk := nonint_k h Fh I).
    assert (Ll : Rabs l <= / 4). { apply Rle_trans with (1 := Lh). assert (bp (cexp radix2 fexp64 h) <= / 2) by (apply (bpow_le radix2 _ (-1)); lia). lra. }
    assert (Nint : ~ (isint h /\ ishalf l /\ h * l < 0)) by tauto.
    case Rlt_bool_spec; intros C.
    + (* close to an integer *)
      assert (EL : Rround_away l = 0%Z) by (apply Rr_imp; apply Rabs_le_inv in Ll; simpl; lra).
      rewrite EL in Hl.
      assert (B1 : Rabs (IZR (Rround_away h)) <= bp 53).
      { rewrite bp_IZR by lia. apply Rr_int_bound. rewrite <- bp_IZR by lia. assert (S := nonint_small h Fh I).
        assert (bp 52 <= bp 53) by (apply bpow_le; lia). lra. }
      assert (R := quick_big _ _ _ _ Hh Hl). rewrite Rplus_0_r, Rabs_R0 in R.
      specialize (R ltac:(apply bpow_ge_0) ltac:(left; apply Rabs_pos)).
      specialize (R ltac:(apply Rle_lt_trans with (bp 53); [apply rn_B; [lia|easy]|apply bpow_lt; lia])).
      apply DNorm_FV2 in R. 2: { f_equal. ring. }
      destruct R as [R1 R2]. split; [exact R1|]. rewrite R2.
      assert (E2 : Rround_away (h + l) = Rround_away h).
      { apply Rr_imp. apply Rabs_lt_inv in C. apply Rabs_le_inv in Ll. lra. }
      rewrite E2. split; [intros _|intros _; ring].
      intros [B|[[[m B] _]|[B _]]]; auto.
      * assert (Rabs (IZR (Rround_away h) - h) = / 2); [|lra]. rewrite B. destruct (Z_lt_le_dec m 0).
        rewrite Rr_half_neg by easy. rewrite Rabs_left1; lra. rewrite Rr_half_pos by easy. rewrite plus_IZR, Rabs_pos_eq; lra.
      * assert (K := proj2 (near_half_cases h Fh I) (or_intror B)). apply Rabs_lt_inv in K. lra.
    + rewrite (near_half_test _ _ _ _ _ _ Hh Xh Xl) by lra. rewrite (rn_id (IZR (Rround_away h) - h)) by easy.
      assert (T1 := near_half_ok h Fh I). assert (T2 := near_half_cases h Fh I).
      assert (B1 : Rabs (IZR (Rround_away h)) <= bp 52).
      { rewrite bp_IZR by lia. apply Rr_int_bound. rewrite <- bp_IZR by lia. assert (S := nonint_small h Fh I). lra. }
      assert (SB : FV (fsub (fround (d0 x)) F64.f1) (IZR (Rround_away h - 1))).
      { destruct FV_one as [G1 G2]. destruct Hh as [G3 G4].
        assert (FM : fmt (IZR (Rround_away h) - 1)).
        { rewrite <- minus_IZR. apply fmt_mult2 with 0%Z. lia. apply mult2_IZR. rewrite minus_IZR. change (0 + 53)%Z with (52 + 1)%Z. rewrite bp_S.
          apply Rabs_le_inv in B1. assert (1 <= bp 52) by (apply (bpow_le radix2 0); lia). apply Rabs_le. lra. }
        destruct (fsub_ok _ _ G3 G1) as [G5 [G6 _]].
        { rewrite G4, G2. apply Rle_lt_trans with (bp 53); [|apply bpow_lt; lia]. apply rn_B. lia.  change 53%Z with (52 + 1)%Z. rewrite bp_S.
          apply Rabs_le_inv in B1. assert (1 <= bp 52) by (apply (bpow_le radix2 0); lia). apply Rabs_le. lra. }
        split; auto. rewrite G6, G4, G2, minus_IZR. now apply rn_id. }
      destruct (half_dec h) as [D|D].
      * (* exact half *)
        rewrite Rlt_bool_true by (apply T1, T2; now left). cbn [andb].
        assert (BD : round_bad h l <-> h < 0 /\ l <> 0).
        { unfold round_bad. split; [|intros B; right; left; auto]. intros [B|[B|[B _]]]; try tauto. exfalso.
          destruct B as [B Z]. destruct D as [m D].
          assert (Rabs h < 1). { apply Rabs_lt_inv in Z. lra. }
          assert (m = 0 \/ m = -1)%Z. { rewrite D in H. apply Rabs_lt_inv in H. assert (-2 < m < 1)%Z; [|lia]. split; apply lt_IZR; simpl; lra. }
          assert (Rabs h = / 2). { rewrite D. destruct H0 as [-> | ->]; [rewrite Rabs_pos_eq|rewrite Rabs_left]; simpl; lra. }
          rewrite H1, Rminus_diag_eq, Rabs_R0 in B by reflexivity. lra. }
        rewrite BD. clear BD. destruct D as [m D]. apply Rabs_le_inv in Ll.
        destruct (Z_lt_le_dec m 0) as [P|P].
        -- assert (Ph : h < 0). { rewrite D. assert (m <= -1)%Z by lia. apply IZR_le in H. lra. }
           assert (Er : Rround_away h = m) by (rewrite D; now apply Rr_half_neg). rewrite Er in *.
           case Rlt_bool_spec; intros Q; cbn [andb].
           ++ destruct (DNorm_single _ _ SB) as [S1 S2]. split; [exact S1|]. rewrite S2.
              rewrite (Rr_imp m) by lra. rewrite minus_IZR. split; [intros; exfalso; lra|]. intros B. exfalso. apply B. lra.
           ++ destruct (DNorm_single _ _ Hh) as [S1 S2]. split; [exact S1|]. rewrite S2.
              destruct (Req_dec l 0) as [Z|Z].
              ** rewrite Z, Rplus_0_r, Er. split; auto. intros _ [_ B]. auto.
              ** rewrite (Rr_imp (m + 1)) by (rewrite plus_IZR; lra). rewrite plus_IZR. split; [intros; exfalso; lra|]. intros B. exfalso. apply B. auto.
        -- assert (Ph : 0 < h). { rewrite D. apply IZR_le in P. lra. }
           assert (Er : Rround_away h = (m + 1)%Z) by (rewrite D; now apply Rr_half_pos). rewrite Er in *.
           case Rlt_bool_spec; intros Q; cbn [andb].
           ++ destruct (DNorm_single _ _ SB) as [S1 S2]. split; [exact S1|]. rewrite S2.
              rewrite (Rr_imp m) by lra. replace (m + 1 - 1)%Z with m by ring. split; auto. intros _ [B _]. lra.
           ++ destruct (DNorm_single _ _ Hh) as [S1 S2]. split; [exact S1|]. rewrite S2.
              destruct (Req_dec l 0) as [Z|Z].
              ** rewrite Z, Rplus_0_r, Er. split; auto. intros _ [B _]. lra.
              ** rewrite (Rr_imp (m + 1)) by (rewrite plus_IZR; lra). split; auto. intros _ [B _]. lra.
      * assert (RP := round_plain h l Fh N I D). rewrite RP.
        case Rlt_bool_spec; intros C2; cbn [andb].
        -- apply T1, T2 in C2. destruct C2 as [C2|C2]; [easy|].
           case Rlt_bool_spec; intros Q; cbn [andb].
           ++ destruct (DNorm_single _ _ SB) as [S1 S2]. split; [exact S1|]. rewrite S2, minus_IZR. split; [intros; exfalso; lra|].
              intros B. exfalso. apply B. right. right. auto.
           ++ destruct (DNorm_single _ _ Hh) as [S1 S2]. split; [exact S1|]. rewrite S2. split; auto. intros _ [B|[[B _]|[_ B]]]; auto. lra.
        -- destruct (DNorm_single _ _ Hh) as [S1 S2]. split; [exact S1|]. rewrite S2. split; auto.
           intros _ [B|[[B _]|[B _]]]; auto. assert (K := proj2 T1 (proj2 T2 (or_intror B))). lra.
Qed.
