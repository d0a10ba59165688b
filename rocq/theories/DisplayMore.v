(** * Display: totality, accuracy, dependence on log10, round trips *)
From Coq Require Import ZArith Reals Lra Lia Psatz Bool List.
From Flocq Require Import Core IEEE754.BinarySingleNaN.
From Verif Require Import RN F64 Prim DoubleM QuadM Spec F64Facts EFT ExactProofs LawProofs DMulProofs SpecialProofs DAddProofs PowProofs PowThms
  ParseM ParseSpec ParseProofs ParseThms ParseNum DisplayM DisplaySpec DisplayProofs DisplayText DisplayThms ExtractProofs DisplayDigits DisplayNum DisplayParse.
Import ListNotations.
Local Open Scope R_scope.

(** the formatted text depends on the platform's log10 only through the decimal exponent *)
Section Dep.
Context {T : Type} (N : dispops T) (dbg : bool).
Lemma display_dep lm1 lm2 x f : dec_exp lm1 (s_hi N (s_abs N x)) = dec_exp lm2 (s_hi N (s_abs N x)) -> display N lm1 dbg x f = display N lm2 dbg x f.
Proof. intros H. unfold display, push_digits_fixed. cbv zeta. rewrite H. reflexivity. Qed.
Lemma display_exp_dep lm1 lm2 mk x f : dec_exp lm1 (s_hi N (s_abs N x)) = dec_exp lm2 (s_hi N (s_abs N x)) ->
  dec_exp lm1 (fabs (s_hi N x)) = dec_exp lm2 (fabs (s_hi N x)) -> display_exp N lm1 dbg mk x f = display_exp N lm2 dbg mk x f.
Proof. intros H H'. unfold display_exp, push_digits_exp. cbv zeta. rewrite H, H'. reflexivity. Qed.
End Dep.
Definition lmx (k : Z) := Build_libm (fun _ => f0) (fun _ => f1) (fun _ => fofZ k) (fun _ => f0) (fun _ _ => f0) (fun _ => []).

(** what the caller of display needs of a Double: a special value, zero, or a
    normalized nonzero value whose decimal exponent log10 found *)
Definition showable (lm : libm) (x : Double) : Prop :=
  d_is_nan x = true \/ d_is_infinite x = true \/ d_is_zero x = true \/
  (DNorm x /\ DV x <> 0 /\ (Z.abs (dec_exp lm (fabs (d0 x))) <= 260)%Z /\ decade (dec_exp lm (fabs (d0 x))) (Rabs (DV x))).

Lemma abs_hi x : Fin (d0 x) -> d0 (d_abs x) = fabs (d0 x).
Proof.
  intros F. unfold Fin in F. unfold d_abs, d_is_sign_negative, d_neg. destruct (d0 x) as [s|s| |s m e B] eqn:E; try discriminate F; destruct s; cbn; rewrite ?E; reflexivity.
Qed.
Lemma show_num lm dbg x : d_is_nan x = false -> d_is_infinite x = false -> d_is_zero x = false -> showable lm x ->
  let e := dec_exp lm (fabs (d0 x)) in
  exists ds, extract_digits d_disp dbg (d_abs x) e = Val ds /\ d0 (d_abs x) = fabs (d0 x) /\ (Z.abs e <= 260)%Z /\ length ds = 31%nat /\ dig10 ds /\ tens 1 ds /\
    Rabs (digits_val ds e - Rabs (DV x)) <= bp (-45) * powerRZ 10 e /\
    (decimals ds -> powerRZ 10 e <= Rabs (DV x) -> hd 0%Z ds <> 0%Z) /\
    (decimals ds -> clear_of_carry (Rabs (DV x)) e -> Rabs (digits_val ds e - Rabs (DV x)) <= (210 * IZR (Z.abs e) + 900) * bp (-106) * powerRZ 10 e).
Proof.
  intros N1 N2 N3 [H|[H|[H|[DN [NZ [Ee De]]]]]] e; try congruence.
  assert (Fh : Fin (d0 x)) by (destruct DN as [[? _] _]; auto).
  assert (NN : fis_nan (d0 x) = false) by (unfold d_is_nan in N1; exact N1).
  destruct (d_abs_ok x NN) as [_ [_ [_ A]]]. destruct (A DN) as [A1 A2].
  assert (P : 0 < DV (d_abs x)) by (rewrite A2; now apply Rabs_pos_lt).
  rewrite <- A2 in De |- *. destruct (extract_ok dbg (d_abs x) e A1 P Ee De) as [ds [B1 [B2 [B3 [B4 [B5 [B6 B7]]]]]]].
  exists ds. split; [exact B1|]. split; [now apply abs_hi|]. auto 10.
Qed.

Lemma show_total lm dbg x f : showable lm x -> exists t, d_display lm dbg x f = Val t.
Proof.
  intros H. unfold d_display. rewrite display_body. unfold body_fixed. cbn [s_nan s_infinite s_zero d_disp].
  destruct (d_is_nan x) eqn:N1; [cbn; eauto|]. destruct (d_is_infinite x) eqn:N2; [cbn; eauto|]. destruct (d_is_zero x) eqn:N3; [cbn; eauto|].
  destruct (show_num lm dbg x N1 N2 N3 H) as [ds [E [Ea [Eb [L [D [Tn _]]]]]]].
  unfold push_digits_fixed. cbn [s_abs s_hi d_disp]. rewrite Ea, E. cbn [obind].
  destruct (fix_chain_any dbg ds (dec_exp lm (fabs (d0 x))) (f_prec f) D Tn) as [ip [fp [Et _]]]; [now destruct ds|unfold i32_min, i32_max; lia|].
  unfold fix_chain in Et. destruct (adjust_zeros _ _ _); cbn [obind] in Et |- *; [|discriminate]. destruct (adjust_prec _ _ _ _); cbn [obind] in Et |- *; [|discriminate].
  rewrite Et. cbn. eauto.
Qed.
Lemma show_exp_total lm dbg mk x f : showable lm x -> exists t, display_exp d_disp lm dbg mk x f = Val t.
Proof.
  intros H. rewrite display_exp_body. unfold body_exp. cbn [s_nan s_infinite s_zero d_disp].
  destruct (d_is_nan x) eqn:N1; [cbn; eauto|]. destruct (d_is_infinite x) eqn:N2; [cbn; eauto|]. destruct (d_is_zero x) eqn:N3; [cbn; eauto|].
  destruct (show_num lm dbg x N1 N2 N3 H) as [ds [E [Ea [Eb [L [D [Tn _]]]]]]].
  unfold push_digits_exp. cbn [s_abs s_hi d_disp]. rewrite Ea, E. cbn [obind].
  destruct (fix_chain_any dbg ds 0 (f_prec f) D Tn) as [ip [fp [Et _]]]; [now destruct ds|unfold i32_min, i32_max; lia|].
  unfold fix_chain in Et. destruct (adjust_zeros _ _ _); cbn [obind] in Et |- *; [|discriminate]. destruct (adjust_prec _ _ _ _); cbn [obind] in Et |- *; [|discriminate].
  rewrite Et. cbn. eauto.
Qed.

(** the printed number: 31 digits whose value is close to |x|, and, when no digit
    came out as a ten, the text is those digits (rounded half up to the precision) *)
Lemma show_value lm dbg x f : DNorm x -> DV x <> 0 -> let e := dec_exp lm (fabs (d0 x)) in (Z.abs e <= 260)%Z -> decade e (Rabs (DV x)) -> powerRZ 10 e <= Rabs (DV x) ->
  exists ds, extract_digits d_disp dbg (d_abs x) e = Val ds /\ length ds = 31%nat /\ Rabs (digits_val ds e - Rabs (DV x)) <= bp (-45) * powerRZ 10 e /\
  (decimals ds -> clear_of_carry (Rabs (DV x)) e -> Rabs (digits_val ds e - Rabs (DV x)) <= (210 * IZR (Z.abs e) + 900) * bp (-106) * powerRZ 10 e) /\
  (decimals ds -> 
    exists ip fp, d_display lm dbg x f = Val (padded f (sign_shown (d_is_sign_negative x) f) (sign_text (d_is_sign_negative x) f ++ fixed_text ip fp)) /\
    decimals ip /\ decimals fp /\ ip <> [] /\ (f_prec f = None -> Z.of_nat (length ip) = (Z.max 0 e + 1)%Z) /\ (hd 0%Z ip <> 0%Z \/ ip = [0%Z]) /\
    match f_prec f with
    | None => fixed_val ip fp = digits_val ds e /\ (fp <> [] -> last fp 0%Z <> 0%Z)
    | Some p => length fp = p /\ fixed_val ip fp = half_up p (digits_val ds e)
    end).
Proof.
  intros DN NZ e He De Hp.
  assert (Fh : Fin (d0 x) /\ Fin (d1 x)) by (destruct DN as [[? ?] _]; auto). destruct Fh as [F0 F1].
  assert (N1 : d_is_nan x = false).
  { unfold d_is_nan. unfold Fin in F0; destruct (d0 x); try discriminate F0; reflexivity. }
  assert (N2 : d_is_infinite x = false).
  { unfold d_is_infinite. unfold Fin in F0; destruct (d0 x); try discriminate F0; reflexivity. }
  assert (N3 : d_is_zero x = false).
  { destruct (d_is_zero x) eqn:E; [|reflexivity]. exfalso. apply NZ. unfold d_is_zero in E. apply feqb_V in E; [|auto|apply Fin_0]. change (V f0) with 0 in E. assert (K := DNorm_zero x E DN). unfold DV. lra. }
  assert (SH : showable lm x) by (right; right; right; auto).
  destruct (show_num lm dbg x N1 N2 N3 SH) as [ds [E [Ea [Eb [L [D [Tn [B1 [B2 B3]]]]]]]]]. fold e in E, Eb, B1, B2, B3.
  exists ds. split; [exact E|]. split; [exact L|]. split; [exact B1|]. split; [exact B3|]. intros Dd.
  destruct (display_fixed d_disp lm dbg x f ds N1 N2 N3) as [ip [fp [K1 [K2 [K3 [K4 [K5 K6]]]]]]].
  - cbn [s_abs s_hi d_disp]. rewrite Ea. exact E.
  - exact Dd.
  - now apply B2.
  - cbn [s_abs s_hi d_disp]. rewrite Ea. fold e. unfold i32_min, i32_max; lia.
  - cbn [s_abs s_hi s_neg d_disp] in K1, K4, K6. rewrite Ea in K4, K6. fold e in K4, K6.
    exists ip, fp. split; [exact K1|]. split; [auto|]. split; [auto|]. split; [intros ->; cbn [length] in K4; lia|]. split; [|auto].
    intros Pn. destruct K4 as [K4|[K4 _]]; [exact K4|contradiction].
Qed.

(** the default text of a finite nonzero Double: sign, digits, perhaps a point and digits *)
Lemma show_text lm dbg x : d_is_nan x = false -> d_is_infinite x = false -> d_is_zero x = false -> showable lm x ->
  exists ip fp, d_display lm dbg x f_default = Val (sign_text (d_is_sign_negative x) f_default ++ fixed_text ip fp) /\
    decimals ip /\ decimals fp /\ ip <> [] /\ (Z.of_nat (length ip + length fp) <= 1104)%Z.
Proof.
  intros N1 N2 N3 H. unfold d_display. rewrite display_body. unfold body_fixed. cbn [s_nan s_infinite s_zero s_neg d_disp]. rewrite N1, N2, N3.
  destruct (show_num lm dbg x N1 N2 N3 H) as [ds [E [Ea [Eb [L [D [Tn _]]]]]]].
  unfold push_digits_fixed. cbn [s_abs s_hi d_disp]. rewrite Ea, E. cbn [obind].
  destruct (fix_chain_any dbg ds (dec_exp lm (fabs (d0 x))) None D Tn) as [ip [fp [Et [Di [Df [Ne Len]]]]]]; [now destruct ds|unfold i32_min, i32_max; lia|].
  exists ip, fp. change (f_prec f_default) with (@None nat).
  unfold fix_chain in Et. destruct (adjust_zeros _ _ _); cbn [obind] in Et |- *; [|discriminate]. destruct (adjust_prec _ _ _ _); cbn [obind] in Et |- *; [|discriminate].
  rewrite Et. cbn [obind omap]. split; [reflexivity|]. split; auto. split; auto. split; auto. specialize (Len eq_refl). rewrite L in Len. lia.
Qed.
Lemma sign_text_ok b f : sign_ok (sign_text b f).
Proof. unfold sign_ok, sign_text. destruct b; [auto|]. destruct (f_plus f); auto. Qed.
Lemma fixed_short sg ip fp : sign_ok sg -> decimals ip -> decimals fp -> ip <> [] -> (Z.of_nat (length ip + length fp) <= 1104)%Z -> short (normal_text (sg ++ fixed_text ip fp)).
Proof.
  intros S A B C L. destruct (fixed_number sg ip fp S A B C) as [_ [Nt [Dg _]]]. rewrite Nt. unfold short. rewrite Dg, app_length. unfold i32_max. lia.
Qed.

Lemma from_double_total lm dbg x : showable lm x -> exists q, q_from_double lm dbg x = Val q.
Proof.
  intros H. unfold q_from_double.
  destruct (d_is_nan x) eqn:N1.
  { unfold d_display. rewrite (display_nan d_disp lm dbg x f_default N1). cbn [obind]. unfold d_is_nan in N1. cbn [s_neg d_disp]. unfold d_is_sign_negative.
    destruct (d0 x); try discriminate N1. cbn. eauto. }
  destruct (d_is_infinite x) eqn:N2.
  { unfold d_display. rewrite (display_inf d_disp lm dbg x f_default N1 N2). cbn [obind s_neg d_disp]. destruct (d_is_sign_negative x); cbn; eauto. }
  destruct (d_is_zero x) eqn:N3.
  { unfold d_display. rewrite (display_zero d_disp lm dbg x f_default N1 N2 N3). cbn [obind s_neg d_disp]. destruct (d_is_sign_negative x); destruct dbg; vm_compute; eauto. }
  destruct (show_text lm dbg x N1 N2 N3 H) as [ip [fp [E [Di [Df [Ne Len]]]]]]. rewrite E. cbn [obind].
  set (sg := sign_text _ _). assert (S : sign_ok sg) by apply sign_text_ok.
  destruct (fixed_number sg ip fp S Di Df Ne) as [Nu [Nt [Dg [Fr _]]]]. assert (Sh := fixed_short sg ip fp S Di Df Ne Len).
  rewrite (from_str_number q_ops dbg _ (sg ++ fixed_text ip fp) 0 Sh); [|now rewrite Nt|rewrite Fr; unfold i32_min; lia].
  destruct (number_value_total q_ops dbg (fun y n Hn => proj2 (powi_total dbg D_ZERO y n Hn)) (sg ++ fixed_text ip fp) 0) as [r ->]; [unfold i32_min, i32_max; lia|rewrite Fr; unfold i32_min; lia|].
  cbn. eauto.
Qed.
Lemma from_double_special lm dbg x :
  (d_is_nan x = true -> q_from_double lm dbg x = Val Q_NAN) /\
  (d_is_infinite x = true -> q_from_double lm dbg x = Val (if d_is_sign_negative x then Q_NEG_INFINITY else Q_INFINITY)) /\
  (d_is_zero x = true -> exists q, q_from_double lm dbg x = Val q /\ q_is_zero q = true /\ q_is_sign_negative q = d_is_sign_negative x).
Proof.
  split; [|split]; intros H; unfold q_from_double, d_display.
  - rewrite (display_nan d_disp lm dbg x f_default H). cbn [obind]. unfold d_is_nan in H. cbn [s_neg d_disp]. unfold d_is_sign_negative. destruct (d0 x); try discriminate H. reflexivity.
  - assert (N1 : s_nan d_disp x = false). { cbn. unfold d_is_infinite in H. unfold d_is_nan. destruct (d0 x); try discriminate H; reflexivity. }
    rewrite (display_inf d_disp lm dbg x f_default N1 H). cbn [obind s_neg d_disp]. destruct (d_is_sign_negative x); reflexivity.
  - assert (N : s_nan d_disp x = false /\ s_infinite d_disp x = false). { cbn. unfold d_is_zero in H. unfold d_is_nan, d_is_infinite. destruct (feqb_0 _ H) as [s ->]. split; reflexivity. }
    destruct N as [N1 N2]. rewrite (display_zero d_disp lm dbg x f_default N1 N2 H). cbn [obind s_neg d_disp]. destruct (d_is_sign_negative x); destruct dbg; vm_compute; eauto.
Qed.

(** text and back *)
Lemma fixed_short_frac ip fp ds e : decimals ip -> decimals fp -> decimals ds -> length ds = 31%nat -> (e <= 30)%Z -> (fp <> [] -> last fp 0%Z <> 0%Z) ->
  fixed_val ip fp = digits_val ds e -> (Z.of_nat (length fp) <= 30 - e)%Z /\ (0 <= dec_val (ip ++ fp) < 10 ^ 31)%Z.
Proof.
  intros Di Df Dd L He Lz Ev. assert (R := dec_val_range ds Dd). rewrite L in R. replace (Z.of_nat 31) with 31%Z in R by reflexivity.
  assert (R2 := dec_val_range (ip ++ fp) ltac:(now apply decimals_app)). revert Ev Lz Df. unfold fixed_val, digits_val. rewrite L.
  set (M := dec_val ds) in *. set (k := length fp). intros Ev Lz Df.
  assert (P := pw_pos k).
  assert (Ev' : IZR (dec_val (ip ++ fp)) = IZR M * powerRZ 10 (Z.of_nat k + e - 30)).
  { replace (Z.of_nat k + e - 30)%Z with (Z.of_nat k + (e + 1 - Z.of_nat 31))%Z by lia. rewrite pz_add, pz_nat.
    transitivity (IZR (dec_val (ip ++ fp)) / 10 ^ k * 10 ^ k); [field; lra|]. rewrite Ev. ring. }
  destruct (Z_lt_le_dec (30 - e) (Z.of_nat k)) as [Hk|Hk].
  - exfalso. assert (NEf : fp <> []) by (intros K; unfold k in Hk; rewrite K in Hk; cbn [length Z.of_nat] in Hk; lia). specialize (Lz NEf).
    destruct (exists_last NEf) as [fp' [z Ez]]. rewrite Ez, last_last in Lz. rewrite Ez in Df. apply decimals_app in Df. destruct Df as [_ Dz]. inversion_clear Dz as [|? ? Hz _].
    rewrite Ez, app_assoc, dec_val_snoc in Ev'.
    set (j := Z.to_nat (Z.of_nat k + e - 30 - 1)). replace (Z.of_nat k + e - 30)%Z with (Z.of_nat (S j)) in Ev' by (unfold j; lia).
    rewrite pz_nat, <- IZR_p10, <- mult_IZR in Ev'. apply eq_IZR in Ev'. rewrite Nat2Z.inj_succ, Z.pow_succ_r in Ev' by lia.
    set (A := dec_val (ip ++ fp')) in Ev'. replace (M * (10 * 10 ^ Z.of_nat j))%Z with (10 * (M * 10 ^ Z.of_nat j))%Z in Ev' by ring. lia.
  - split; [exact Hk|]. split; [lia|]. apply lt_IZR. rewrite Ev'. apply Rle_lt_trans with (IZR M); [|apply IZR_lt; lia].
    rewrite <- (Rmult_1_r (IZR M)) at 2. apply Rmult_le_compat_l; [apply IZR_le; lia|].
    set (j := Z.to_nat (30 - e - Z.of_nat k)). replace (Z.of_nat k + e - 30)%Z with (- Z.of_nat j)%Z by (unfold j; lia). rewrite pz_neg.
    rewrite <- Rinv_1. apply Rinv_le; [lra|]. apply pow_R1_Rle. lra.
Qed.
Lemma sign_value x : DNorm x -> DV x <> 0 -> DV x = (if d_is_sign_negative x then -1 else 1) * Rabs (DV x).
Proof.
  intros N Z. assert (F : Fin (d0 x)) by (destruct N as [[? _] _]; auto). destruct (DNorm_sgn x N) as [A B]. unfold d_is_sign_negative.
  destruct (fsign_neg (d0 x)) eqn:E.
  - assert (K := A (Fin_sign_V _ F E)). rewrite Rabs_left by lra. ring.
  - assert (K := B (Fin_sign_V' _ F E)). rewrite (Rabs_pos_eq (DV x)) by lra. ring.
Qed.
Lemma trip_err s X Dv r n c T : (s = 1 \/ s = -1) -> 0 < T <= X -> Rabs (Dv - X) <= c * T -> 0 <= n -> 0 <= c <= 1 -> Rabs (r - s * Dv) <= n * Rabs (s * Dv) ->
  Rabs (r - s * X) <= (2 * n + c) * X.
Proof.
  intros S T0 H1 N C H2. replace (r - s * X) with ((r - s * Dv) + s * (Dv - X)) by ring.
  assert (As : Rabs s = 1) by (destruct S as [->| ->]; [apply Rabs_R1|rewrite Rabs_left; lra]).
  rewrite Rabs_mult, As, Rmult_1_l in H2. assert (Rabs Dv <= 2 * X).
  { replace Dv with ((Dv - X) + X) by ring. eapply Rle_trans; [apply Rabs_triang|]. rewrite (Rabs_pos_eq X) by lra. nra. }
  eapply Rle_trans; [apply Rabs_triang|]. rewrite Rabs_mult, As, Rmult_1_l. assert (n * Rabs Dv <= n * (2 * X)) by (apply Rmult_le_compat_l; auto). nra.
Qed.
Lemma round_trip lm dbg x : DNorm x -> DV x <> 0 -> let e := dec_exp lm (fabs (d0 x)) in (-230 <= e <= 30)%Z -> decade e (Rabs (DV x)) -> powerRZ 10 e <= Rabs (DV x) ->
  exists ds, extract_digits d_disp dbg (d_abs x) e = Val ds /\ (decimals ds ->
  exists t r, d_display lm dbg x f_default = Val t /\ from_str d_ops dbg t = Val (POk r) /\ DNorm r /\
    Rabs (DV r - DV x) <= bp (-44) * Rabs (DV x) /\
    (clear_of_carry (Rabs (DV x)) e -> Rabs (DV r - DV x) <= bp (-90) * Rabs (DV x))).
Proof.
  intros DN NZ e He De Hp. destruct (show_value lm dbg x f_default DN NZ ltac:(fold e; lia) De Hp) as [ds [E [L [B1 [B2 K]]]]]. fold e in E, B1, B2, K.
  exists ds. split; [exact E|]. intros Dd. destruct (K Dd) as [ip [fp [Et [Di [Df [Ne [Li [Hh [Ev Lz]]]]]]]]]. clear K. specialize (Li eq_refl).
  set (sg := sign_text (d_is_sign_negative x) f_default) in *. unfold padded in Et. cbn [f_width f_default] in Et.
  assert (S : sign_ok sg) by apply sign_text_ok. destruct (fixed_number sg ip fp S Di Df Ne) as [Nu [Nt [Dg [Fr Ng]]]].
  destruct (fixed_short_frac ip fp ds e Di Df Dd L ltac:(lia) Lz Ev) as [Lf Bd].
  assert (Sh : short (normal_text (sg ++ fixed_text ip fp))) by (apply fixed_short; auto; lia).
  destruct (parse_accurate dbg (sg ++ fixed_text ip fp) (sg ++ fixed_text ip fp) 0 Sh) as [r [P1 [P2 P3]]].
  { now rewrite Nt. } { rewrite Fr. lia. } { rewrite Dg. lia. }
  exists (sg ++ fixed_text ip fp), r. split; [exact Et|]. split; [exact P1|]. split; [exact P2|].
  rewrite Fr, Dg in P3. replace (0 - Z.of_nat (length fp))%Z with (- Z.of_nat (length fp))%Z in P3 by lia. rewrite mult_IZR, pz_neg in P3.
  assert (SG : IZR (sgn_of (sg ++ fixed_text ip fp)) = (if d_is_sign_negative x then -1 else 1)).
  { unfold sgn_of. destruct (d_is_sign_negative x) eqn:Es.
    - rewrite (proj2 Ng) by reflexivity. reflexivity.
    - destruct (negative _); [|reflexivity]. assert (K := proj1 Ng eq_refl). discriminate K. }
  rewrite SG in P3. set (s := if d_is_sign_negative x then -1 else 1) in *.
  assert (S1 : s = 1 \/ s = -1) by (unfold s; destruct (d_is_sign_negative x); auto).
  assert (Ex : DV x = s * Rabs (DV x)) by (now apply sign_value). set (X := Rabs (DV x)) in *. rewrite Ex.
  replace (s * IZR (dec_val (ip ++ fp)) * / 10 ^ length fp) with (s * digits_val ds e) in P3 by (rewrite <- Ev; unfold fixed_val, Rdiv; ring).
  unfold approx in P3. set (T := powerRZ 10 e) in *. assert (T0 : 0 < T) by apply pz_pos.
  set (n := IZR (10 * Z.abs (- Z.of_nat (length fp)) + 27) * bpow radix2 (-106)) in P3.
  assert (Nb : 0 <= n <= 2627 * bp (-106)).
  { unfold n. split; [apply Rmult_le_pos; [apply IZR_le; lia|apply bpow_ge_0]|]. apply Rmult_le_compat_r; [apply bpow_ge_0|]. apply IZR_le. lia. }
  assert (Q1 : bp (-45) = IZR (2 ^ 61) * bp (-106)) by (apply (bp_split (-106) 61); lia).
  assert (Q2 : bp (-44) = IZR (2 ^ 62) * bp (-106)) by (apply (bp_split (-106) 62); lia).
  assert (Q3 : bp (-90) = IZR (2 ^ 16) * bp (-106)) by (apply (bp_split (-106) 16); lia).
  assert (B0 : 0 < bp (-106)) by apply bpow_gt_0. assert (B00 : bp (-106) <= bp (-70)) by (apply bpow_le; lia). change (bp (-70)) with (/ 1180591620717411303424) in B00.
  split.
  - eapply Rle_trans; [apply (trip_err s X (digits_val ds e) (DV r) n (bp (-45)) T S1); auto; lra|]. apply Rmult_le_compat_r; [lra|]. rewrite Q2. change (IZR (2 ^ 62)) with 4611686018427387904. change (IZR (2 ^ 61)) with 2305843009213693952 in Q1. lra.
  - intros C. specialize (B2 Dd C). change (IZR (2 ^ 16)) with 65536 in Q3.
    assert (Ee : 0 <= IZR (Z.abs e) <= 230) by (split; apply IZR_le; lia).
    eapply Rle_trans; [apply (trip_err s X (digits_val ds e) (DV r) n ((210 * IZR (Z.abs e) + 900) * bp (-106)) T S1); auto; try lra; nra|]. apply Rmult_le_compat_r; [lra|]. rewrite Q3. nra.
Qed.
