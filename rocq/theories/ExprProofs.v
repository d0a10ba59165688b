(** * Forward error of whole expressions (lemmas) *)
From Coq Require Import ZArith Reals List Bool Lia Lra.
From Flocq Require Import Core IEEE754.BinarySingleNaN.
From Verif Require Import F64 F64Facts Prim DoubleM QuadM AlgM RN Spec EFT DAddProofs DMulProofs DDivProofs LawProofs SqrtProofs FromProofs QuadSpec QAddAcc QAddThms QMulThms QAccThms QGeoAcc QGeoMul FoldThms ExprSpec.
Local Open Scope R_scope.

Section Rel.
Variable eps : R.
Hypothesis He : 0 <= eps.
Definition relg (n : nat) (c v : R) : Prop := Rabs (c - v) <= ((1 + eps) ^ n - 1) * Rabs v.

Lemma pw_ge1 n : 1 <= (1 + eps) ^ n.
Proof. apply pow_R1_Rle. lra. Qed.
Lemma pw_mono n m : (n <= m)%nat -> (1 + eps) ^ n <= (1 + eps) ^ m.
Proof. intros H. apply Rle_pow; [lra|exact H]. Qed.
Lemma pw_bern n : INR n * eps <= / 2 -> (1 + eps) ^ n <= 1 + 2 * INR n * eps.
Proof.
  induction n as [|n IH]; intros H. { simpl. lra. }
  rewrite S_INR in *. assert (P0 : 0 <= INR n) by apply pos_INR.
  specialize (IH ltac:(lra)). simpl pow. set (k := INR n) in *.
  apply Rle_trans with ((1 + eps) * (1 + 2 * k * eps)). { apply Rmult_le_compat_l; lra. }
  assert (k * eps * eps <= / 2 * eps). { apply Rmult_le_compat_r; lra. } lra.
Qed.
Lemma relg_mono n m c v : (n <= m)%nat -> relg n c v -> relg m c v.
Proof.
  intros H E. unfold relg in *. eapply Rle_trans; [exact E|]. apply Rmult_le_compat_r; [apply Rabs_pos|].
  assert (K := pw_mono n m H). lra.
Qed.
Lemma relg_0 v : relg 0 v v.
Proof. unfold relg. rewrite Rminus_diag_eq by reflexivity. rewrite Rabs_R0. simpl. lra. Qed.
Lemma relg_neg n c v : relg n c v -> relg n (- c) (- v).
Proof. unfold relg. intros H. rewrite Rabs_Ropp. replace (- c - - v) with (- (c - v)) by ring. now rewrite Rabs_Ropp. Qed.
Lemma relg_step n a v c : relg n a v -> Rabs (c - a) <= eps * Rabs a -> relg (n + 1) c v.
Proof.
  unfold relg. intros H E. rewrite pow_add, pow_1. set (p := (1 + eps) ^ n) in *.
  assert (K : Rabs a <= p * Rabs v).
  { replace a with ((a - v) + v) by ring. eapply Rle_trans; [apply Rabs_triang|]. lra. }
  replace (c - v) with ((c - a) + (a - v)) by ring. eapply Rle_trans; [apply Rabs_triang|].
  assert (eps * Rabs a <= eps * (p * Rabs v)) by (apply Rmult_le_compat_l; auto). lra.
Qed.
Lemma same_abs A B : 0 < A * B -> Rabs (A + B) = Rabs A + Rabs B.
Proof.
  intros H. destruct (Rlt_or_le 0 A) as [Ha|Ha].
  - assert (0 < B). { destruct (Rlt_or_le 0 B) as [|Hb]; auto. assert (0 <= A * - B) by (apply Rmult_le_pos; lra). lra. }
    rewrite !Rabs_pos_eq; lra.
  - assert (B < 0). { destruct (Rlt_or_le B 0) as [|Hb]; auto. assert (0 <= (- A) * B) by (apply Rmult_le_pos; lra). lra. }
    rewrite !Rabs_left1; lra.
Qed.
Lemma relg_add n m a b A B : relg n a A -> relg m b B -> 0 < A * B -> relg (Nat.max n m) (a + b) (A + B).
Proof.
  intros H1 H2 HS. apply (relg_mono n (Nat.max n m)) in H1; [|lia]. apply (relg_mono m (Nat.max n m)) in H2; [|lia].
  unfold relg in *. rewrite (same_abs A B HS). replace (a + b - (A + B)) with ((a - A) + (b - B)) by ring.
  eapply Rle_trans; [apply Rabs_triang|]. lra.
Qed.
Lemma relg_mul n m a b A B : relg n a A -> relg m b B -> relg (n + m) (a * b) (A * B).
Proof.
  unfold relg. intros H1 H2. rewrite pow_add, Rabs_mult.
  assert (P1 := pw_ge1 n). assert (P2 := pw_ge1 m). set (p := (1 + eps) ^ n) in *. set (q := (1 + eps) ^ m) in *.
  replace (a * b - A * B) with ((a - A) * (b - B) + (a - A) * B + A * (b - B)) by ring.
  assert (T1 : Rabs ((a - A) * (b - B)) <= ((p - 1) * Rabs A) * ((q - 1) * Rabs B)) by (rewrite Rabs_mult; apply Rmult_le_compat; auto; apply Rabs_pos).
  assert (T2 : Rabs ((a - A) * B) <= ((p - 1) * Rabs A) * Rabs B) by (rewrite Rabs_mult; apply Rmult_le_compat_r; auto; apply Rabs_pos).
  assert (T3 : Rabs (A * (b - B)) <= Rabs A * ((q - 1) * Rabs B)) by (rewrite Rabs_mult; apply Rmult_le_compat_l; auto; apply Rabs_pos).
  eapply Rle_trans; [apply Rabs_triang|]. eapply Rle_trans; [apply Rplus_le_compat_r, Rabs_triang|].
  eapply Rle_trans; [apply Rplus_le_compat; [apply Rplus_le_compat; [exact T1|exact T2]|exact T3]|]. right. ring.
Qed.
Lemma relg_inv m b B : B <> 0 -> (1 + eps) ^ m <= 3 / 2 -> relg m b B -> b <> 0 /\ relg (2 * m) (/ b) (/ B).
Proof.
  unfold relg. intros NB S1 H. assert (P2 := pw_ge1 m).
  replace (2 * m)%nat with (m + m)%nat by lia. rewrite pow_add. set (q := (1 + eps) ^ m) in *.
  assert (PB := Rabs_pos_lt B NB).
  assert (LB : (2 - q) * Rabs B <= Rabs b).
  { assert (K : Rabs B <= Rabs b + Rabs (b - B)).
    { replace B with (b + - (b - B)) at 1 by ring. eapply Rle_trans; [apply Rabs_triang|]. rewrite Rabs_Ropp. lra. }
    lra. }
  assert (Pb : 0 < Rabs b) by (eapply Rlt_le_trans; [|exact LB]; apply Rmult_lt_0_compat; lra).
  assert (Nb : b <> 0) by (intros ->; rewrite Rabs_R0 in Pb; lra).
  split; [exact Nb|].
  replace (/ b - / B) with ((B - b) * / (b * B)) by (field; auto).
  rewrite Rabs_mult, (Rabs_inv (b * B)), (Rabs_inv B), Rabs_mult, (Rabs_minus_sym B b).
  rewrite Rinv_mult.
  apply Rle_trans with ((q - 1) * Rabs B * (/ Rabs b * / Rabs B)).
  { apply Rmult_le_compat_r; [|exact H]. apply Rlt_le, Rmult_lt_0_compat; apply Rinv_0_lt_compat; lra. }
  replace ((q - 1) * Rabs B * (/ Rabs b * / Rabs B)) with ((q - 1) * / Rabs b) by (field; lra).
  assert (IB : / Rabs b <= / ((2 - q) * Rabs B)).
  { apply Rinv_le_contravar; [apply Rmult_lt_0_compat; lra|exact LB]. }
  apply Rle_trans with ((q - 1) * (/ (2 - q) * / Rabs B)).
  { apply Rmult_le_compat_l; [lra|]. rewrite <- Rinv_mult. exact IB. }
  rewrite <- Rmult_assoc. apply Rmult_le_compat_r; [apply Rlt_le, Rinv_0_lt_compat; lra|].
  apply Rmult_le_reg_r with (2 - q); [lra|]. replace ((q - 1) * / (2 - q) * (2 - q)) with (q - 1) by (field; lra).
  (* q - 1 <= (q*q - 1)(2 - q) *)
  assert (0 <= (q - 1) * ((q + 1) * (2 - q) - 1)); [|lra].
  apply Rmult_le_pos; [lra|].
  assert ((q - 1) * (q - 1) <= / 2 * / 2) by (apply Rmult_le_compat; lra). lra.
Qed.
Lemma relg_sqrt n a A : relg n a A -> 0 < A -> 0 <= a -> relg n (sqrt a) (sqrt A).
Proof.
  unfold relg. intros H HA Ha. assert (P1 := pw_ge1 n). set (p := (1 + eps) ^ n) in *.
  rewrite (Rabs_pos_eq A) in H by lra. assert (PA := sqrt_lt_R0 A HA). assert (Pa := sqrt_pos a).
  rewrite (Rabs_pos_eq (sqrt A)) by lra.
  apply Rmult_le_reg_r with (sqrt A); [exact PA|].
  apply Rle_trans with (Rabs (a - A)).
  { replace (a - A) with ((sqrt a - sqrt A) * (sqrt a + sqrt A)).
    2:{ rewrite <- (sqrt_sqrt a) at 3 by exact Ha. rewrite <- (sqrt_sqrt A) at 3 by lra. ring. }
    rewrite Rabs_mult. apply Rmult_le_compat_l; [apply Rabs_pos|]. rewrite Rabs_pos_eq; lra. }
  rewrite Rmult_assoc, sqrt_sqrt by lra. exact H.
Qed.
(** with few roundings the computed value has the sign and the size of the exact one *)
Lemma relg_range n c v : INR n * eps <= / 4 -> relg n c v -> / 2 * Rabs v <= Rabs c <= 2 * Rabs v.
Proof.
  unfold relg. intros Hn H. assert (B := pw_bern n ltac:(lra)). set (p := (1 + eps) ^ n) in *.
  assert (Pv := Rabs_pos v). assert (K : Rabs (c - v) <= / 2 * Rabs v).
  { eapply Rle_trans; [exact H|]. apply Rmult_le_compat_r; lra. }
  split.
  - assert (Rabs v <= Rabs c + Rabs (c - v)); [|lra]. replace v with (c + - (c - v)) at 1 by ring.
    eapply Rle_trans; [apply Rabs_triang|]. rewrite Rabs_Ropp. lra.
  - replace c with ((c - v) + v) by ring. eapply Rle_trans; [apply Rabs_triang|]. lra.
Qed.
Lemma relg_sign n c v : INR n * eps <= / 4 -> relg n c v -> v <> 0 -> 0 < c * v.
Proof.
  unfold relg. intros Hn H Nv. assert (B := pw_bern n ltac:(lra)). set (p := (1 + eps) ^ n) in *.
  assert (Pv := Rabs_pos_lt v Nv). assert (K : Rabs (c - v) <= / 2 * Rabs v).
  { eapply Rle_trans; [exact H|]. apply Rmult_le_compat_r; lra. }
  destruct (Rlt_or_le 0 v) as [S1|S1].
  - rewrite (Rabs_pos_eq v) in * by lra. apply Rabs_le_inv in K. apply Rmult_lt_0_compat; lra.
  - rewrite (Rabs_left1 v) in * by lra. apply Rabs_le_inv in K. replace (c * v) with ((- c) * (- v)) by ring. apply Rmult_lt_0_compat; lra.
Qed.
Lemma relg_sign2 n m a b A B : INR n * eps <= / 4 -> INR m * eps <= / 4 -> relg n a A -> relg m b B -> 0 < A * B -> 0 < a * b.
Proof.
  intros Hn Hm Ra Rb H.
  assert (NA : A <> 0) by (intros ->; lra). assert (NB : B <> 0) by (intros ->; lra).
  assert (Ka := relg_sign n a A Hn Ra NA). assert (Kb := relg_sign m b B Hm Rb NB).
  apply Rmult_lt_reg_r with (A * B); [exact H|]. rewrite Rmult_0_l. replace (a * b * (A * B)) with ((a * A) * (b * B)) by ring.
  now apply Rmult_lt_0_compat.
Qed.
End Rel.

(** ** Double *)
Lemma cost_split eps n m : 0 <= eps -> INR m * eps <= / 4 -> (n <= m)%nat -> INR n * eps <= / 4.
Proof. intros He K H. eapply Rle_trans; [|exact K]. apply Rmult_le_compat_r; [exact He|]. now apply le_INR. Qed.

Lemma dhi_bounds x : DNorm x -> / 2 * Rabs (DV x) <= Rabs (V (d0 x)) <= 2 * Rabs (DV x).
Proof. intros N. assert (A := DNorm_hi_rel x N). assert (B := DNorm_val_abs x N). assert (P := Rabs_pos (DV x)). assert (P' := Rabs_pos (V (d0 x))). split; lra. Qed.
Lemma dhi_sign x : DNorm x -> 0 < DV x -> 0 < V (d0 x).
Proof.
  intros N H. assert (L := DNorm_lo x N). unfold DV in H. destruct (Rlt_or_le 0 (V (d0 x))) as [|K]; auto.
  rewrite (Rabs_left1 (V (d0 x))) in L by exact K. apply Rabs_le_inv in L. lra.
Qed.

Notation deps := (bp (-101)).
Lemma approx_eps r e n : (n <= 32)%Z -> approx r e n (-106) -> Rabs (r - e) <= deps * Rabs e.
Proof.
  unfold approx. intros Hn A. eapply Rle_trans; [exact A|]. apply Rmult_le_compat_r; [apply Rabs_pos|].
  replace deps with (32 * bp (-106)) by (symmetry; apply (bp_split (-106) 5); lia). apply Rmult_le_compat_r; [apply bpow_ge_0|]. now apply IZR_le.
Qed.

Lemma d_benign_range e : d_benign e -> bp (-790) <= Rabs (d_real e) <= bp 790.
Proof. destruct e; cbn [d_benign]; intros [K _]; exact K. Qed.
Lemma bp_790 : 0 < bp (-790) /\ bp (-800) = / 1024 * bp (-790) /\ bp 800 = 1024 * bp 790 /\ bp (-900) <= bp (-800) /\ bp 800 <= bp 1010 /\ bp 1010 <= bp 1015.
Proof.
  split; [apply bpow_gt_0|]. split; [|split].
  - change (bp (-790)) with (bp (-800 + 10)). rewrite (bp_split (-800) 10) by lia. change (IZR (2 ^ 10)) with 1024. field.
  - apply (bp_split 790 10). lia.
  - repeat split; apply bpow_le; lia.
Qed.

Definition din (x : R) : Prop := / 16 * bp (-790) <= Rabs x <= 16 * bp 790.
Lemma din_D15 x : DNorm x -> din (DV x) -> D15 x.
Proof. intros N H. destruct bp_790 as (G & E1 & E2 & E3 & E4 & E5). destruct (dhi_bounds x N), H. assert (P := bpow_gt_0 radix2 790). unfold D15. lra. Qed.
Lemma d_add_e x y : DNorm x -> DNorm y -> din (DV x) -> din (DV y) ->
  DNorm (d_add x y) /\ Rabs (DV (d_add x y) - (DV x + DV y)) <= deps * Rabs (DV x + DV y).
Proof. intros Nx Ny Ix Iy. destruct (d_add_ok x y Nx Ny) as [N A]; [now apply din_D15|now apply din_D15|]. split; [exact N|]. apply (approx_eps _ _ 6); [lia|exact A]. Qed.
Lemma d_sub_e x y : DNorm x -> DNorm y -> din (DV x) -> din (DV y) ->
  DNorm (d_sub x y) /\ Rabs (DV (d_sub x y) - (DV x - DV y)) <= deps * Rabs (DV x - DV y).
Proof. intros Nx Ny Ix Iy. destruct (d_sub_ok x y Nx Ny) as [N A]; [now apply din_D15|now apply din_D15|]. split; [exact N|]. apply (approx_eps _ _ 6); [lia|exact A]. Qed.
Lemma prod_abs_bounds a b p q : / 2 * Rabs p <= Rabs a <= 2 * Rabs p -> / 2 * Rabs q <= Rabs b <= 2 * Rabs q -> / 4 * Rabs (p * q) <= Rabs (a * b) <= 4 * Rabs (p * q).
Proof.
  intros [A1 A2] [B1 B2]. rewrite !Rabs_mult.
  assert (P := Rabs_pos p). assert (Q := Rabs_pos q). assert (Pa := Rabs_pos a). assert (Pb := Rabs_pos b).
  split.
  - apply Rle_trans with ((/ 2 * Rabs p) * (/ 2 * Rabs q)); [right; field|]. apply Rmult_le_compat; lra.
  - apply Rle_trans with ((2 * Rabs p) * (2 * Rabs q)); [|right; ring]. apply Rmult_le_compat; lra.
Qed.
Lemma d_mul_e x y : DNorm x -> DNorm y -> din (DV x * DV y) ->
  DNorm (d_mul x y) /\ Rabs (DV (d_mul x y) - DV x * DV y) <= deps * Rabs (DV x * DV y).
Proof.
  intros Nx Ny [I1 I2]. destruct bp_790 as (G & E1 & E2 & E3 & E4 & E5). assert (P := bpow_gt_0 radix2 790).
  destruct (prod_abs_bounds _ _ _ _ (dhi_bounds x Nx) (dhi_bounds y Ny)) as [K1 K2].
  destruct (d_mul_ok x y Nx Ny) as [N A]; [right; split; lra|]. split; [exact N|]. apply (approx_eps _ _ 9); [lia|exact A].
Qed.
Lemma inv_abs_bounds b q : q <> 0 -> / 2 * Rabs q <= Rabs b <= 2 * Rabs q -> / 2 * Rabs (/ q) <= Rabs (/ b) <= 2 * Rabs (/ q).
Proof.
  intros Nq [B1 B2]. assert (Pq := Rabs_pos_lt q Nq). rewrite !Rabs_inv. split.
  - rewrite <- Rinv_mult. apply Rinv_le_contravar; lra.
  - replace (2 * / Rabs q) with (/ (/ 2 * Rabs q)) by (field; lra). apply Rinv_le_contravar; lra.
Qed.
Lemma d_div_e x y : DNorm x -> DNorm y -> DV y <> 0 -> din (DV x) -> din (DV x / DV y) ->
  DNorm (d_div x y) /\ Rabs (DV (d_div x y) - DV x / DV y) <= deps * Rabs (DV x / DV y).
Proof.
  intros Nx Ny NZ [H1 H2] [I1 I2]. destruct bp_790 as (G & E1 & E2 & E3 & E4 & E5). assert (P := bpow_gt_0 radix2 790).
  assert (Hx := dhi_bounds x Nx). assert (Hy := dhi_bounds y Ny).
  destruct (prod_abs_bounds _ _ _ _ Hx (inv_abs_bounds _ _ NZ Hy)) as [K1 K2].
  assert (NV : V (d0 y) <> 0).
  { intros Z. rewrite Z, Rabs_R0 in Hy. assert (Q := Rabs_pos_lt _ NZ). lra. }
  destruct (d_div_ok x y Nx Ny NV) as [N A]; [right; unfold Rdiv in *; split; split; lra|]. split; [exact N|]. apply (approx_eps _ _ 16); [lia|exact A].
Qed.
Lemma d_sqrt_e lm dbg x : printer lm -> DNorm x -> 0 < DV x -> din (DV x) ->
  exists r, d_sqrt lm dbg x = Val r /\ DNorm r /\ Rabs (DV r - sqrt (DV x)) <= deps * Rabs (sqrt (DV x)).
Proof.
  intros PR Nx Px [I1 I2]. destruct bp_790 as (G & E1 & E2 & E3 & E4 & E5). assert (P := bpow_gt_0 radix2 790).
  assert (Hx := dhi_bounds x Nx). assert (S1 := dhi_sign x Nx Px). rewrite (Rabs_pos_eq (V (d0 x))) in Hx by lra.
  destruct (d_sqrt_ok lm dbg x PR Nx) as (r & E & N & A); [lra|]. exists r. split; [exact E|]. split; [exact N|]. apply (approx_eps _ _ 32); [lia|exact A].
Qed.

Lemma d_expr_ok lm dbg e : printer lm -> d_benign e -> INR (d_cost e) * deps <= / 4 ->
  exists r, d_run lm dbg e = Val r /\ DNorm r /\ relg deps (d_cost e) (DV r) (d_real e).
Proof.
  intros PR. assert (He := bpow_ge_0 radix2 (-101)). assert (G := bpow_gt_0 radix2 (-790)). assert (G' := bpow_gt_0 radix2 790).
  assert (IN : forall n c v, INR n * deps <= / 4 -> relg deps n c v -> bp (-790) <= Rabs v <= bp 790 -> din c).
  { intros n c v Hn Hr Hv. destruct (relg_range deps He n c v Hn Hr). unfold din. lra. }
  induction e as [a|e IH|e1 IH1 e2 IH2|e1 IH1 e2 IH2|e1 IH1 e2 IH2|e1 IH1 e2 IH2|e IH]; cbn [d_benign d_cost d_run d_real]; intros [Rg HB] HC.
  - exists a. split; [reflexivity|]. split; [exact HB|]. apply relg_0.
  - destruct (IH HB HC) as (r & -> & N & K). cbn [obind]. exists (d_neg r). split; [reflexivity|].
    destruct (d_neg_val r) as [EV EN]. split; [auto|]. rewrite EV. now apply relg_neg.
  - destruct HB as (B1 & B2 & SG). assert (C1 := cost_split _ (d_cost e1) _ He HC ltac:(lia)). assert (C2 := cost_split _ (d_cost e2) _ He HC ltac:(lia)).
    destruct (IH1 B1 C1) as (r1 & -> & N1 & K1). destruct (IH2 B2 C2) as (r2 & -> & N2 & K2). cbn [obind].
    assert (I1 := IN _ _ _ C1 K1 (d_benign_range e1 B1)). assert (I2 := IN _ _ _ C2 K2 (d_benign_range e2 B2)).
    exists (d_add r1 r2). split; [reflexivity|]. destruct (d_add_e r1 r2 N1 N2 I1 I2) as [N E]. split; [exact N|].
    eapply relg_step; [exact He| |exact E]. apply relg_add; auto.
  - destruct HB as (B1 & B2 & SG). assert (C1 := cost_split _ (d_cost e1) _ He HC ltac:(lia)). assert (C2 := cost_split _ (d_cost e2) _ He HC ltac:(lia)).
    destruct (IH1 B1 C1) as (r1 & -> & N1 & K1). destruct (IH2 B2 C2) as (r2 & -> & N2 & K2). cbn [obind].
    assert (I1 := IN _ _ _ C1 K1 (d_benign_range e1 B1)). assert (I2 := IN _ _ _ C2 K2 (d_benign_range e2 B2)).
    exists (d_sub r1 r2). split; [reflexivity|]. destruct (d_sub_e r1 r2 N1 N2 I1 I2) as [N E]. split; [exact N|].
    eapply relg_step; [exact He| |exact E]. unfold Rminus. apply relg_add; auto; [now apply relg_neg|lra].
  - destruct HB as (B1 & B2). assert (C0 := cost_split _ (d_cost e1 + d_cost e2) _ He HC ltac:(lia)). assert (C1 := cost_split _ (d_cost e1) _ He HC ltac:(lia)). assert (C2 := cost_split _ (d_cost e2) _ He HC ltac:(lia)).
    destruct (IH1 B1 C1) as (r1 & -> & N1 & K1). destruct (IH2 B2 C2) as (r2 & -> & N2 & K2). cbn [obind].
    assert (KM := relg_mul deps He _ _ _ _ _ _ K1 K2). assert (IM := IN _ _ _ C0 KM Rg).
    exists (d_mul r1 r2). split; [reflexivity|]. destruct (d_mul_e r1 r2 N1 N2 IM) as [N E]. split; [exact N|].
    eapply relg_step; [exact He|exact KM|exact E].
  - destruct HB as (B1 & B2). assert (C0 := cost_split _ (d_cost e1 + 2 * d_cost e2) _ He HC ltac:(lia)). assert (C1 := cost_split _ (d_cost e1) _ He HC ltac:(lia)). assert (C2 := cost_split _ (d_cost e2) _ He HC ltac:(lia)).
    destruct (IH1 B1 C1) as (r1 & -> & N1 & K1). destruct (IH2 B2 C2) as (r2 & -> & N2 & K2). cbn [obind].
    assert (I1 := IN _ _ _ C1 K1 (d_benign_range e1 B1)).
    assert (NB : d_real e2 <> 0). { intros Z. assert (K := d_benign_range e2 B2). rewrite Z, Rabs_R0 in K. lra. }
    assert (QB : (1 + deps) ^ d_cost e2 <= 3 / 2) by (assert (B := pw_bern deps He (d_cost e2)); lra).
    destruct (relg_inv deps He _ _ _ NB QB K2) as [Nr KI].
    assert (KM := relg_mul deps He _ _ _ _ _ _ K1 KI). assert (IM := IN _ _ _ C0 KM Rg).
    exists (d_div r1 r2). split; [reflexivity|]. destruct (d_div_e r1 r2 N1 N2 Nr I1 IM) as [N E]. split; [exact N|].
    eapply relg_step; [exact He|exact KM|exact E].
  - destruct HB as (B1 & SG). assert (C1 := cost_split _ (d_cost e) _ He HC ltac:(lia)).
    destruct (IH B1 C1) as (r1 & -> & N1 & K1). cbn [obind].
    assert (I1 := IN _ _ _ C1 K1 (d_benign_range e B1)).
    assert (Pr : 0 < DV r1).
    { assert (K := relg_sign deps He _ _ _ C1 K1 ltac:(lra)). destruct (Rlt_or_le 0 (DV r1)) as [|Hn]; auto.
      assert (0 <= - DV r1 * d_real e) by (apply Rmult_le_pos; lra). lra. }
    destruct (d_sqrt_e lm dbg r1 PR N1 Pr I1) as (r & -> & N & E). exists r. split; [reflexivity|]. split; [exact N|].
    eapply relg_step; [exact He| |exact E]. apply relg_sqrt; auto. lra.
Qed.

(** ** Quad *)
Notation qeps := (bp (-137)).
Lemma QGeo_neg x : QGeo x -> QGeo (q_neg x) /\ QV (q_neg x) = - QV x.
Proof.
  intros ((F0 & F1 & F2 & F3) & A & B & C & D). destruct x as [a b c d]. cbn [q0 q1 q2 q3] in *.
  destruct (fneg_ok a F0) as [Fa Ea]. destruct (fneg_ok b F1) as [Fb Eb]. destruct (fneg_ok c F2) as [Fc Ec]. destruct (fneg_ok d F3) as [Fd Ed].
  split.
  - split; [split; [exact Fa|]; split; [exact Fb|]; split; [exact Fc|exact Fd]|]. unfold q_neg. cbn [q0 q1 q2 q3]. rewrite Ea, Eb, Ec, Ed, !Rabs_Ropp.
    split; [exact A|]. split; [exact B|]. split; [exact C|exact D].
  - unfold QV, q_neg. cbn [q0 q1 q2 q3]. rewrite Ea, Eb, Ec, Ed. ring.
Qed.
Lemma q_benign_range e : q_benign e -> bp (-490) <= Rabs (q_real e) <= bp 490.
Proof. destruct e; cbn [q_benign]; intros [K _]; exact K. Qed.
Lemma q_add_e x y : QGeo x -> QGeo y -> Rabs (QV x) <= bp 498 -> Rabs (QV y) <= bp 498 -> 0 < QV x * QV y ->
  QGeo (q_add x y) /\ Rabs (QV (q_add x y) - (QV x + QV y)) <= qeps * Rabs (QV x + QV y).
Proof.
  intros Gx Gy Bx By SG. assert (K : bp 498 <= bp 999) by (apply bpow_le; lia).
  assert (ES := same_abs _ _ SG).
  destruct (q_add_geo x y Gx Gy ltac:(lra) ltac:(lra)) as [N E].
  - rewrite ES. assert (P1 := Rabs_pos (QV x)). assert (P2 := Rabs_pos (QV y)). assert (bp (-30) <= 1) by (change 1 with (bp 0); apply bpow_le; lia).
    rewrite <- (Rmult_1_l (Rabs (QV x) + Rabs (QV y))) at 2. apply Rmult_le_compat_r; lra.
  - rewrite ES. split; [exact N|exact E].
Qed.
Lemma q_expr_ok e : q_benign e -> INR (q_cost e) * qeps <= / 4 ->
  QGeo (q_run e) /\ relg qeps (q_cost e) (QV (q_run e)) (q_real e).
Proof.
  assert (He := bpow_ge_0 radix2 (-137)). assert (G := bpow_gt_0 radix2 (-490)). assert (G' := bpow_gt_0 radix2 490).
  assert (E8 : bp 498 = 256 * bp 490) by (apply (bp_split 490 8); lia).
  assert (E9 : bp 499 = 2 * bp 498) by (apply (bp_split 498 1); lia).
  assert (E0 : bp (-490) = 1024 * bp (-500)) by (apply (bp_split (-500) 10); lia).
  assert (IN : forall n c v, INR n * qeps <= / 4 -> relg qeps n c v -> bp (-490) <= Rabs v <= bp 490 -> bp (-500) <= Rabs c <= bp 498).
  { intros n c v Hn Hr Hv. destruct (relg_range qeps He n c v Hn Hr). lra. }
  induction e as [a|e IH|e1 IH1 e2 IH2|e1 IH1 e2 IH2|e1 IH1 e2 IH2]; cbn [q_benign q_cost q_run q_real]; intros [Rg HB] HC.
  - split; [now apply QGeo_dec, QNorms_dec|]. apply relg_0.
  - destruct (IH HB HC) as (N & K). destruct (QGeo_neg _ N) as [N' ->]. split; [exact N'|now apply relg_neg].
  - destruct HB as (B1 & B2 & SG). assert (C1 := cost_split _ (q_cost e1) _ He HC ltac:(lia)). assert (C2 := cost_split _ (q_cost e2) _ He HC ltac:(lia)).
    destruct (IH1 B1 C1) as (N1 & K1). destruct (IH2 B2 C2) as (N2 & K2).
    destruct (IN _ _ _ C1 K1 (q_benign_range e1 B1)). destruct (IN _ _ _ C2 K2 (q_benign_range e2 B2)).
    assert (SG' := relg_sign2 qeps He _ _ _ _ _ _ C1 C2 K1 K2 SG).
    destruct (q_add_e _ _ N1 N2) as [N E]; [assumption|assumption|assumption|]. split; [exact N|].
    eapply relg_step; [exact He| |exact E]. apply relg_add; auto.
  - destruct HB as (B1 & B2 & SG). assert (C1 := cost_split _ (q_cost e1) _ He HC ltac:(lia)). assert (C2 := cost_split _ (q_cost e2) _ He HC ltac:(lia)).
    destruct (IH1 B1 C1) as (N1 & K1). destruct (IH2 B2 C2) as (N2 & K2). apply (relg_neg qeps) in K2.
    assert (Rg2 := q_benign_range e2 B2). rewrite <- Rabs_Ropp in Rg2.
    destruct (QGeo_neg _ N2) as [N2' EN]. rewrite <- EN in K2.
    destruct (IN _ _ _ C1 K1 (q_benign_range e1 B1)). destruct (IN _ _ _ C2 K2 Rg2).
    assert (SG2 : 0 < q_real e1 * - q_real e2) by lra.
    assert (SG' := relg_sign2 qeps He _ _ _ _ _ _ C1 C2 K1 K2 SG2).
    unfold q_sub. destruct (q_add_e _ _ N1 N2') as [N E]; [assumption|assumption|assumption|]. split; [exact N|].
    eapply relg_step; [exact He| |exact E]. unfold Rminus. apply relg_add; auto.
  - destruct HB as (B1 & B2). assert (C0 := cost_split _ (q_cost e1 + q_cost e2) _ He HC ltac:(lia)). assert (C1 := cost_split _ (q_cost e1) _ He HC ltac:(lia)). assert (C2 := cost_split _ (q_cost e2) _ He HC ltac:(lia)).
    destruct (IH1 B1 C1) as (N1 & K1). destruct (IH2 B2 C2) as (N2 & K2).
    destruct (IN _ _ _ C1 K1 (q_benign_range e1 B1)). destruct (IN _ _ _ C2 K2 (q_benign_range e2 B2)).
    assert (KM := relg_mul qeps He _ _ _ _ _ _ K1 K2). destruct (IN _ _ _ C0 KM Rg) as [L _].
    destruct (q_mul_geo _ _ N1 N2) as [N E]; [lra|lra|exact L|]. split; [exact N|].
    eapply relg_step; [exact He|exact KM|]. eapply Rle_trans; [exact E|]. apply Rmult_le_compat_r; [apply Rabs_pos|apply bpow_le; lia].
Qed.

Lemma relg_final eps n c v : 0 <= eps -> INR n * eps <= / 4 -> relg eps n c v -> Rabs (c - v) <= 2 * INR n * eps * Rabs v.
Proof.
  intros He Hn H. unfold relg in H. eapply Rle_trans; [exact H|]. apply Rmult_le_compat_r; [apply Rabs_pos|].
  assert (B := pw_bern eps He n ltac:(lra)). lra.
Qed.
