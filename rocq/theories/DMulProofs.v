(** * Double multiplication and squaring (lemmas) *)
From Coq Require Import ZArith Reals Lra Lia Psatz Bool.
From Flocq Require Import Core IEEE754.BinarySingleNaN.
From Verif Require Import RN F64 Prim DoubleM Spec F64Facts EFT DWAdd DAddProofs.
Local Open Scope R_scope.

Lemma mul_Bd m a b : (-1074 <= m < 1024)%Z -> Fin a -> Fin b -> Rabs (V a * V b) <= bp m ->
  Bd (bp m) (fmul a b) /\ V (fmul a b) = rn (V a * V b).
Proof.
  intros Hm Fa Fb H.
  assert (K : Rabs (rn (V a * V b)) <= bp m) by (apply rn_abs_le; [apply fmt_bpow; lia|easy]).
  destruct (fmul_ok a b Fa Fb) as [K1 [K2 _]].
  { apply Rle_lt_trans with (1 := K). apply bpow_lt. lia. }
  rewrite <- K2 in K. repeat split; auto.
Qed.

Lemma two_prod_m m a b : (-1074 <= m < 1023)%Z -> Fin a -> Fin b -> Rabs (V a * V b) <= bp m ->
  Fin (fst (two_prod a b)) /\ Fin (snd (two_prod a b)) /\
  V (fst (two_prod a b)) = rn (V a * V b) /\
  V (snd (two_prod a b)) = rn (V a * V b - rn (V a * V b)).
Proof.
  intros Hm Fa Fb H. unfold two_prod; cbn [fst snd].
  destruct (mul_Bd m a b ltac:(lia) Fa Fb H) as [[Fs Bs] Es]. set (p := fmul a b) in *.
  destruct (fneg_ok p Fs) as [Fn En].
  destruct (fma_ok a b (fneg p) Fa Fb Fn) as [Fe Ee].
  - rewrite En. apply Rle_lt_trans with (bp (m + 1)); [|apply bpow_lt; lia].
    apply rn_abs_le. apply fmt_bpow; lia. rewrite bp_S.
    assert (K := Rabs_triang (V a * V b) (- V p)). rewrite Rabs_Ropp in K. lra.
  - repeat split; auto. rewrite Ee, En, Es. f_equal; ring.
Qed.

Lemma Rabs_mult_le a b A B : Rabs a <= A -> Rabs b <= B -> Rabs (a * b) <= A * B.
Proof. intros. rewrite Rabs_mult. apply Rmult_le_compat; auto using Rabs_pos. Qed.

(** an absolute-value chain step: |a| <= |a - b| + |b| *)
Lemma tri a b A B : Rabs (a - b) <= A -> Rabs b <= B -> Rabs a <= A + B.
Proof. intros. assert (K := Rabs_triang (a - b) b). replace (a - b + b) with a in K by ring. lra. Qed.
Lemma tri2 a b A B : Rabs (a - b) <= A -> Rabs a <= B -> Rabs b <= A + B.
Proof.
  intros. assert (K := Rabs_triang (b - a) a). rewrite <- (Rabs_Ropp (b - a)) in K.
  replace (- (b - a)) with (a - b) in K by ring. replace (b - a + a) with b in K by ring. lra.
Qed.
Lemma triP a b A B : Rabs a <= A -> Rabs b <= B -> Rabs (a + b) <= A + B.
Proof. intros. assert (K := Rabs_triang a b). lra. Qed.

Lemma plus_rel x y B : fmt x -> fmt y -> Rabs (x + y) <= B -> Rabs (rn (x + y) - (x + y)) <= u * B.
Proof. intros Fx Fy H. destruct (plus_ex x y Fx Fy) as [K _]. lra. Qed.
Lemma rn_rel_le x B : Rabs x <= B -> Rabs (rn x - x) <= u * B + bp (-1075).
Proof. intros H. assert (K := rn_err x). lra. Qed.

(** leading product and its three correction terms *)
Section MulR.
Variables P e m1 m2 n1 n2 p : R.
(** p = rn(P), e = P - p, m1 = rn n1, m2 = rn n2 *)
Hypothesis Fe : fmt e.
Hypothesis Fm1 : fmt m1.
Hypothesis Fm2 : fmt m2.
Hypothesis Fp : fmt p.
Hypothesis Ep : Rabs (p - P) <= u * Rabs P.
Hypothesis Ee : e = P - p.

Lemma mul3_R A1 A2 h :
  Rabs n1 <= A1 * Rabs P -> Rabs n2 <= A2 * Rabs P ->
  0 <= A1 <= 2 * u -> 0 <= A2 <= u ->
  Rabs (m1 - n1) <= u * (A1 * Rabs P) + h -> Rabs (m2 - n2) <= u * (A2 * Rabs P) + h ->
  h <= u * u * u * Rabs P ->
  let t2 := rn (rn (e + m1) + m2) in
  Rabs t2 <= 5 * u * Rabs P /\ Rabs t2 <= Rabs p /\
  Rabs (p + t2 - (P + n1 + n2)) <= (u * (u + A1) * 2 + u * (A1 + A2) + u * A2 + 20 * u * u * u) * Rabs P.
Proof.
  intros H1 H2 HA1 HA2 E1 E2 Hh.
  assert (PP := Rabs_pos P). set (Q := Rabs P) in *.
  assert (He : Rabs e <= u * Q).
  { rewrite Ee, <- Rabs_Ropp. replace (- (P - p)) with (p - P) by ring. easy. }
  assert (PA1 : A1 * Q <= 2 * u * Q) by nra. assert (PA1' : 0 <= A1 * Q) by nra.
  assert (PA2 : A2 * Q <= u * Q) by nra. assert (PA2' : 0 <= A2 * Q) by nra.
  set (q1 := A1 * Q) in *. set (q2 := A2 * Q) in *.
  assert (Hm1 : Rabs m1 <= (u * q1 + h) + q1) by (eapply tri; eauto).
  assert (Hm2 : Rabs m2 <= (u * q2 + h) + q2) by (eapply tri; eauto).
  assert (Hs : Rabs (e + m1) <= u * Q + ((u * q1 + h) + q1)) by (apply triP; auto).
  set (t := rn (e + m1)).
  assert (Et : Rabs (t - (e + m1)) <= u * (u * Q + ((u * q1 + h) + q1))) by (apply plus_rel; auto).
  assert (Ht := tri _ _ _ _ Et Hs).
  assert (Hs2 := triP _ _ _ _ Ht Hm2).
  assert (Et2 := plus_rel t m2 _ (rn_fmt _) Fm2 Hs2).
  cbv zeta. set (t2 := rn (t + m2)) in *.
  assert (Ht2 := tri _ _ _ _ Et2 Hs2).
  assert (Hp : (1 - u) * Q <= Rabs p).
  { assert (K := tri2 _ _ _ _ Ep (Rle_refl (Rabs p))). fold Q in K. lra. }
  split; [lra|]. split; [lra|].
  replace (p + t2 - (P + n1 + n2)) with ((t2 - (t + m2)) + (t - (e + m1)) + (m1 - n1) + (m2 - n2))
    by (rewrite Ee; ring).
  eapply Rle_trans. { repeat (apply triP; eauto). }
  replace ((u * (u + A1) * 2 + u * (A1 + A2) + u * A2 + 20 * u * u * u) * Q)
    with (2 * u * u * Q + 3 * u * q1 + 2 * u * q2 + 20 * u * u * u * Q) by (unfold q1, q2; ring).
  lra.
Qed.
End MulR.

(** no overflow and no harmful underflow for a product of leading parts *)
Definition mul_window (a b : R) : Prop := a * b = 0 \/ bp (-900) <= Rabs (a * b) <= bp 1015.

Lemma bp_u3 : bp (-1075) <= u * u * u * bp (-900).
Proof.
  rewrite <- u_bp, <- !bpow_plus. apply bpow_le. lia.
Qed.

Lemma d_pre_mul_fin x y : Fin (d0 x) -> Fin (d0 y) -> V (d0 x) <> 0 -> d_pre_mul x y = None.
Proof.
  intros Fx Fy Hx. unfold d_pre_mul, d_is_nan, d_is_infinite, d_is_zero.
  rewrite (Fin_nan _ Fx), (Fin_nan _ Fy), (Fin_inf _ Fx), (Fin_inf _ Fy).
  rewrite feqb_ok by (easy || apply Fin_0). now rewrite Req_bool_false.
Qed.

Lemma d_pre_mul_zero x y : Fin (d0 x) -> Fin (d0 y) -> V (d0 x) = 0 ->
  d_pre_mul x y = Some (if Bool.eqb (fsign_pos (d0 x)) (fsign_pos (d0 y)) then D_ZERO else D_NEG_ZERO).
Proof.
  intros Fx Fy Hx. unfold d_pre_mul, d_is_nan, d_is_infinite, d_is_zero.
  rewrite (Fin_nan _ Fx), (Fin_nan _ Fy), (Fin_inf _ Fy).
  rewrite feqb_ok by (easy || apply Fin_0). rewrite Req_bool_true by easy. cbn [orb].
  now destruct (Bool.eqb _ _).
Qed.

Lemma DNorm_zero x : V (d0 x) = 0 -> DNorm x -> V (d1 x) = 0.
Proof.
  intros H N. assert (K := DNorm_lo x N). rewrite H, Rabs_R0 in K.
  destruct (Req_dec (V (d1 x)) 0); auto. assert (0 < Rabs (V (d1 x))) by now apply Rabs_pos_lt. lra.
Qed.

Lemma DNorm_const s t : DNorm (mkD (B754_zero s) (B754_zero t)).
Proof. split; [split; reflexivity|]. unfold DV; cbn [d0 d1]. change (0 = rn (0 + 0)). rewrite Rplus_0_r. now rewrite rn_0. Qed.

Lemma rel9 n e : IZR n * u * u * Rabs e = IZR n * bp (-106) * Rabs e.
Proof. replace (bp (-106)) with (u * u). ring. change (-106)%Z with (-53 + -53)%Z. now rewrite bpow_plus. Qed.

(** common tail: renorm2 p t *)
Lemma renorm_tail p t : Bd M18 p -> Bd M18 t -> Rabs (V t) <= Rabs (V p) ->
  DNorm (let '(a, b) := renorm2 p t in mkD a b) /\
  DV (let '(a, b) := renorm2 p t in mkD a b) = V p + V t /\
  V (d0 (let '(a, b) := renorm2 p t in mkD a b)) = rn (V p + V t).
Proof.
  intros Bp Bt H. unfold renorm2.
  destruct (quick_ok p t Bp Bt (or_introl H)) as [Fa [Fb [Ea Eb]]].
  destruct (quick_two_sum p t) as [a b]. cbn [fst snd] in *.
  split; [|split]; auto.
  - apply (DNorm_mk a b (V p + V t)); auto.
  - unfold DV; cbn [d0 d1]. rewrite Ea, Eb. ring.
Qed.

Lemma d_mul_ok x y : DNorm x -> DNorm y -> mul_window (V (d0 x)) (V (d0 y)) ->
  DNorm (d_mul x y) /\ approx (DV (d_mul x y)) (DV x * DV y) 9 (-106).
Proof.
  intros Nx Ny W.
  assert (Lx := DNorm_lo x Nx). assert (Ly := DNorm_lo y Ny).
  assert (Nx' := Nx). assert (Ny' := Ny).
  destruct Nx as [[Fx0 Fx1] Nx], Ny as [[Fy0 Fy1] Ny].
  destruct (Req_dec (V (d0 x)) 0) as [Zx|Zx].
  { (* zero left operand: shortcut *)
    assert (Zx1 := DNorm_zero x Zx Nx').
    assert (D0 : DV x * DV y = 0) by (unfold DV; rewrite Zx, Zx1; ring).
    unfold d_mul. rewrite d_pre_mul_zero by easy. cbn [from_pre]. unfold approx. rewrite D0, Rabs_R0, Rmult_0_r.
    destruct (Bool.eqb _ _); (split; [apply DNorm_const|]); unfold DV; cbn [d0 d1 D_ZERO D_NEG_ZERO];
      change (V f0) with 0; change (V fn0) with 0; rewrite ?Rplus_0_r, Rminus_0_r, Rabs_R0; lra. }
  assert (W' : Rabs (V (d0 x) * V (d0 y)) <= bp 1015).
  { destruct W as [W|[_ W]]; auto. rewrite W, Rabs_R0. apply bpow_ge_0. }
  unfold d_mul. rewrite d_pre_mul_fin by easy. cbn [from_pre].
  destruct (two_prod_m 1015 (d0 x) (d0 y) ltac:(lia) Fx0 Fy0 W') as [Fp [Fe [Ep Ee]]].
  destruct (two_prod (d0 x) (d0 y)) as [p e]. cbn [fst snd] in *.
  set (xh := V (d0 x)) in *. set (xl := V (d1 x)) in *. set (yh := V (d0 y)) in *. set (yl := V (d1 y)) in *.
  assert (B1 : Rabs (xh * yl) <= u * Rabs (xh * yh)).
  { rewrite !Rabs_mult. assert (Pa := Rabs_pos xh). nra. }
  assert (B2 : Rabs (xl * yh) <= u * Rabs (xh * yh)).
  { rewrite !Rabs_mult. assert (Pa := Rabs_pos yh). nra. }
  assert (B3 : Rabs (xl * yl) <= u * u * Rabs (xh * yh)).
  { rewrite !Rabs_mult. assert (Pa := Rabs_pos yl). assert (Pb := Rabs_pos xl). assert (Pc := Rabs_pos xh). assert (Pd := Rabs_pos yh). nra. }
  assert (PP := Rabs_pos (xh * yh)).
  assert (H15 : bp 1015 <= bp 1018) by (apply bpow_le; lia).
  destruct (mul_Bd 1015 (d0 x) (d1 y) ltac:(lia) Fx0 Fy1) as [[Fm1 Bm1] Em1]; [fold xh yl; lra|].
  destruct (mul_Bd 1015 (d1 x) (d0 y) ltac:(lia) Fx1 Fy0) as [[Fm2 Bm2] Em2]; [fold xl yh; lra|].
  set (m1 := fmul (d0 x) (d1 y)) in *. set (m2 := fmul (d1 x) (d0 y)) in *.
  fold xh yl in Em1. fold xl yh in Em2.
  assert (Be : Rabs (V e) <= bp 1016).
  { rewrite Ee. apply rn_abs_le. apply fmt_bpow; lia. change 1016%Z with (1015 + 1)%Z. rewrite bp_S.
    assert (K := rn_abs_le (xh * yh) (bp 1015) ltac:(apply fmt_bpow; lia) W').
    assert (K' := Rabs_triang (xh * yh) (- rn (xh * yh))). rewrite Rabs_Ropp in K'. unfold Rminus. lra. }
  assert (Bp : Rabs (V p) <= bp 1015).
  { rewrite Ep. apply rn_abs_le; auto. apply fmt_bpow; lia. }
  destruct (Bd_add 1016 e m1 ltac:(lia)) as [[Ft Bt] Et]; [now split|split; auto; apply Rle_trans with (1 := Bm1); apply bpow_le; lia|].
  set (t := fadd e m1) in *.
  destruct (Bd_add 1017 t m2 ltac:(lia)) as [[Ft2 Bt2] Et2]; [now split|split; auto; apply Rle_trans with (1 := Bm2); apply bpow_le; lia|].
  set (t2 := fadd t m2) in *.
  assert (MAIN : Rabs (V t2) <= Rabs (V p) /\
     Rabs (V p + V t2 - (xh * yh + xh * yl + xl * yh)) <= (7 * u * u + 20 * u * u * u) * Rabs (xh * yh)).
  { destruct W as [W|[W _]].
    - (* yh = 0 *)
      assert (yh = 0) as Zy by (apply Rmult_integral in W; tauto).
      assert (yl = 0) as Zyl by (now apply DNorm_zero).
      assert (Vp : V p = 0) by (rewrite Ep, W; apply rn_0).
      assert (Ve : V e = 0). { rewrite Ee, W, rn_0. replace (0 - 0) with 0 by ring. apply rn_0. }
      assert (V1 : V m1 = 0). { rewrite Em1, Zyl, Rmult_0_r. apply rn_0. }
      assert (V2 : V m2 = 0). { rewrite Em2, Zy, Rmult_0_r. apply rn_0. }
      assert (Vt : V t = 0). { rewrite Et, Ve, V1, Rplus_0_r. apply rn_0. }
      assert (Vt2 : V t2 = 0). { rewrite Et2, Vt, V2, Rplus_0_r. apply rn_0. }
      rewrite Vp, Vt2, W, Zy, Zyl. split; [lra|].
      replace (0 + 0 - (0 + xh * 0 + xl * 0)) with 0 by ring. rewrite Rabs_R0. lra.
    - assert (Wu := bp_u3).
      assert (W3 : bp (-1075) <= u * u * u * Rabs (xh * yh)) by nra.
      assert (Re : V e = xh * yh - V p).
      { rewrite Ee, Ep. apply rn_id, mul_err_fmt; unfold xh, yh; auto with fmt. intros _. fold xh yh.
        apply Rle_trans with (2 := W). apply bpow_le; lia. }
      destruct (mul3_R (xh * yh) (V e) (V m1) (V m2) (xh * yl) (xl * yh) (V p)
                  ltac:(auto with fmt) ltac:(auto with fmt) ltac:(auto with fmt)) with (A1 := u) (A2 := u) (h := bp (-1075))
        as [K1 [K2 K3]]; auto; try lra.
      + rewrite Ep. apply rn_rel. apply Rle_trans with (2 := W). apply bpow_le; lia.
      + rewrite Em1. apply rn_rel_le. exact B1.
      + rewrite Em2. apply rn_rel_le. exact B2.
      + rewrite <- Et, <- Et2 in *. split; [easy|]. lra. }
  destruct MAIN as [M1 M2].
  destruct (renorm_tail p t2) as [R1 [R2 _]]; auto.
  { split; auto. lra. } { split; auto. }
  split; [exact R1|]. unfold approx. rewrite <- rel9, R2.
  assert (E : DV x * DV y = xh * yh + xh * yl + xl * yh + xl * yl) by (unfold DV; fold xh xl yh yl; ring).
  assert (Elow : (1 - 3 * u) * Rabs (xh * yh) <= Rabs (DV x * DV y)).
  { rewrite E. assert (K := triP _ _ _ _ (triP _ _ _ _ B1 B2) B3).
    assert (K' := Rabs_triang (xh * yh + xh * yl + xl * yh + xl * yl) (- (xh * yl + xl * yh + xl * yl))).
    rewrite Rabs_Ropp in K'.
    replace (xh * yh + xh * yl + xl * yh + xl * yl + - (xh * yl + xl * yh + xl * yl)) with (xh * yh) in K' by ring. lra. }
  replace (V p + V t2 - DV x * DV y) with ((V p + V t2 - (xh * yh + xh * yl + xl * yh)) + - (xl * yl)) by (rewrite E; ring).
  rewrite <- (Rabs_Ropp (xl * yl)) in B3.
  eapply Rle_trans. { apply triP; eauto. } lra.
Qed.
