(** * Whole Quad expressions with literals, quotients and roots *)
From Coq Require Import ZArith Reals List Bool Lia Lra.
From Flocq Require Import Core IEEE754.BinarySingleNaN.
From Verif Require Import F64 F64Facts Prim DoubleM QuadM AlgM RN Spec EFT ParseM ParseSpec ParseThms FromProofs QuadSpec QGeoAcc QLoose QLDiv QLOps ExprProofs DAddProofs QExprSpec QParse QLSqrt QLRoot QLSq.
Import ListNotations.
Local Open Scope R_scope.
Notation xeps := (bp (-89)).

Lemma tame_L x : QTame x <-> QL (32 * u) x.
Proof. unfold QTame, QL. assert (E : bpow radix2 (-48) = 32 * u) by (change (bpow radix2 (-48)) with (/ 281474976710656); field). rewrite E. tauto. Qed.
Lemma L_tame d x : d <= 32 * u -> QL d x -> QTame x.
Proof. intros H L. apply tame_L. now apply QL_mono with d. Qed.
Lemma hi_bounds x : QTame x -> / 2 * Rabs (QV x) <= Rabs (V (q0 x)) <= 2 * Rabs (QV x).
Proof. intros T. apply tame_L in T. assert (K := QL_abs (32 * u) x ltac:(lra) ltac:(lra) T). assert (P := Rabs_pos (V (q0 x))). lra. Qed.
Lemma xeps_v : xeps = 131072 * (u * u).
Proof. change (bp (-89)) with (/ 618970019642690137449562112). field. Qed.

Definition xin (v : R) : Prop := bp (-86) <= Rabs v <= bp 86.
Lemma xg : 0 < bp (-86) /\ bp (-86) = 16 * bp (-90) /\ bp 90 = 16 * bp 86 /\ bp (-300) <= bp (-90) /\ bp 90 <= bp 300 /\ bp 90 <= bp 490 /\ bp 90 <= bp 900 /\ 0 < bp 86.
Proof.
  split; [apply bpow_gt_0|]. split; [exact (bp_split (-90) 4 ltac:(lia))|]. split; [exact (bp_split 86 4 ltac:(lia))|].
  repeat split; try (apply bpow_le; lia). apply bpow_gt_0.
Qed.

Lemma x_add_e x y : QTame x -> QTame y -> xin (QV x) -> xin (QV y) -> 0 < QV x * QV y ->
  QTame (q_add x y) /\ Rabs (QV (q_add x y) - (QV x + QV y)) <= xeps * Rabs (QV x + QV y).
Proof.
  intros Tx Ty [X1 X2] [Y1 Y2] SG. assert (Hx := hi_bounds x Tx). assert (Hy := hi_bounds y Ty). apply tame_L in Tx, Ty.
  destruct xg as (G1 & G2 & G3 & G4 & G5 & G6 & G7 & G8).
  destruct (q_add_L (32 * u) x y) as [L E]; [lra|lra|exact Tx|exact Ty|lra|lra|exact SG|].
  split; [apply L_tame with (18 * u); [lra|exact L]|]. eapply Rle_trans; [exact E|]. apply Rmult_le_compat_r; [apply Rabs_pos|]. rewrite xeps_v. lra.
Qed.
Lemma x_mul_e x y : QTame x -> QTame y -> xin (QV x) -> xin (QV y) ->
  QTame (q_mul x y) /\ Rabs (QV (q_mul x y) - QV x * QV y) <= xeps * Rabs (QV x * QV y).
Proof.
  intros Tx Ty [X1 X2] [Y1 Y2]. assert (Hx := hi_bounds x Tx). assert (Hy := hi_bounds y Ty). apply tame_L in Tx, Ty.
  destruct xg as (G1 & G2 & G3 & G4 & G5 & G6 & G7 & G8).
  destruct (q_mul_L (32 * u) x y) as [L E]; [lra|lra|exact Tx|exact Ty|lra|lra| |].
  { apply Rle_trans with (bp (-90) * bp (-90)); [rewrite <- bpow_plus; apply bpow_le; lia|]. apply Rmult_le_compat; lra. }
  split; [apply L_tame with (4 * u); [lra|exact L]|]. eapply Rle_trans; [exact E|]. apply Rmult_le_compat_r; [apply Rabs_pos|]. rewrite xeps_v. lra.
Qed.
Lemma x_div_e x y : QTame x -> QTame y -> xin (QV x) -> xin (QV y) ->
  QTame (q_div x y) /\ Rabs (QV (q_div x y) - QV x / QV y) <= xeps * Rabs (QV x / QV y).
Proof.
  intros Tx Ty [X1 X2] [Y1 Y2]. assert (Hx := hi_bounds x Tx). assert (Hy := hi_bounds y Ty). apply tame_L in Tx, Ty.
  destruct xg as (G1 & G2 & G3 & G4 & G5 & G6 & G7 & G8).
  destruct (q_div_L (32 * u) x y) as [L E]; [lra|lra|exact Tx|exact Ty|lra|lra|lra|lra|].
  split; [apply L_tame with (4 * u); [lra|exact L]|]. eapply Rle_trans; [exact E|]. apply Rmult_le_compat_r; [apply Rabs_pos|]. rewrite xeps_v. lra.
Qed.
Lemma x_sqrt_e lm dbg x : printer lm -> QTame x -> xin (QV x) -> 0 < QV x ->
  exists r, q_sqrt lm dbg x = Val r /\ QTame r /\ Rabs (QV r - sqrt (QV x)) <= xeps * Rabs (sqrt (QV x)).
Proof.
  intros PR Tx [X1 X2] P. apply tame_L in Tx. rewrite (Rabs_pos_eq (QV x)) in X1, X2 by lra.
  assert (bp (-91) <= bp (-86)) by (apply bpow_le; lia). assert (bp 86 <= bp 91) by (apply bpow_le; lia).
  destruct (q_sqrt_L lm dbg x PR Tx P ltac:(lra)) as (r & K1 & K2 & K3). exists r. split; [exact K1|]. split; [apply L_tame with (4 * u); [lra|exact K2]|].
  rewrite (Rabs_pos_eq (sqrt (QV x))) by apply sqrt_pos. exact K3.
Qed.
Lemma x_neg_e x : QTame x -> QTame (q_neg x) /\ QV (q_neg x) = - QV x.
Proof. intros T. apply tame_L in T. destruct (QL_neg _ x T) as [L E]. split; [now apply tame_L|exact E]. Qed.
Lemma x_lit_e dbg s m e : short (normal_text s) -> number (normal_text s) m e -> (sig_digits (digs m) <= 130)%nat -> (-87 <= e - frac m <= 140)%Z ->
  exists r, from_str q_ops dbg s = Val (POk r) /\ QTame r /\ Rabs (QV r - q_lit m e) <= bp (-87) * Rabs (q_lit m e).
Proof.
  intros S Nu HL HE. destruct (Z_lt_le_dec (e - frac m) 0) as [G|G].
  - destruct (q_parse_neg dbg s m e S Nu HL ltac:(lia)) as (r & K1 & K2 & K3). exists r. split; [exact K1|]. split; [apply L_tame with (4 * u); [lra|exact K2]|exact K3].
  - destruct (q_parse_pos dbg s m e S Nu HL ltac:(lia)) as (r & K1 & K2 & K3). exists r. split; [exact K1|]. split; [apply L_tame with (4 * u); [lra|apply QL_geo, K2]|].
    eapply Rle_trans; [exact K3|]. apply Rmult_le_compat_r; [apply Rabs_pos|].
    assert (INR (2 * sig_digits (digs m) + 2) <= INR 262) by (apply le_INR; lia). assert (J : INR 262 = 262) by (rewrite INR_IZR_INZ; reflexivity).
    change (bp (-137)) with (/ 174224571863520493293247799005065324265472). change (bp (-87)) with (/ 154742504910672534362390528). lra.
Qed.
Lemma x_benign_range e : x_benign e -> bp (-85) <= Rabs (x_real e) <= bp 85.
Proof. destruct e; cbn [x_benign]; intros [K _]; exact K. Qed.

Lemma x_expr_ok lm dbg e : printer lm -> x_benign e -> INR (x_cost e) * xeps <= / 4 ->
  exists r, x_run lm dbg e = Val r /\ QTame r /\ relg xeps (x_cost e) (QV r) (x_real e).
Proof.
  intros PR. assert (He := bpow_ge_0 radix2 (-89)). assert (G := bpow_gt_0 radix2 (-85)). assert (G' := bpow_gt_0 radix2 85).
  assert (E1 : bp (-85) = 2 * bp (-86)) by exact (bp_split (-86) 1 ltac:(lia)). assert (E2 : bp 86 = 2 * bp 85) by exact (bp_split 85 1 ltac:(lia)).
  assert (IN : forall n c v, INR n * xeps <= / 4 -> relg xeps n c v -> bp (-85) <= Rabs v <= bp 85 -> xin c).
  { intros n c v Hn Hr Hv. destruct (relg_range xeps He n c v Hn Hr). unfold xin. lra. }
  induction e as [a|s m x|e IH|e1 IH1 e2 IH2|e1 IH1 e2 IH2|e1 IH1 e2 IH2|e1 IH1 e2 IH2|e IH]; cbn [x_benign x_cost x_run x_real]; intros [Rg HB] HC.
  - exists a. split; [reflexivity|]. split; [exact HB|]. apply relg_0.
  - destruct HB as (S & Nu & H1 & H2). destruct (x_lit_e dbg s m x S Nu H1 H2) as (r & -> & K2 & K3). cbn [obind unwrap]. exists r.
    split; [reflexivity|]. split; [exact K2|]. apply (relg_of xeps (bp (-87))); [exact He| |exact K3].
    replace (INR 4) with 4 by (cbn; ring). right. exact (bp_split (-89) 2 ltac:(lia)).
  - destruct (IH HB HC) as (r & -> & N & K). cbn [obind]. exists (q_neg r). split; [reflexivity|].
    destruct (x_neg_e r N) as [N' ->]. split; [exact N'|]. now apply relg_neg.
  - destruct HB as (B1 & B2 & SG). assert (C1 := cost_split _ (x_cost e1) _ He HC ltac:(lia)). assert (C2 := cost_split _ (x_cost e2) _ He HC ltac:(lia)).
    destruct (IH1 B1 C1) as (r1 & -> & N1 & K1). destruct (IH2 B2 C2) as (r2 & -> & N2 & K2). cbn [obind].
    assert (I1 := IN _ _ _ C1 K1 (x_benign_range e1 B1)). assert (I2 := IN _ _ _ C2 K2 (x_benign_range e2 B2)).
    assert (SG' := relg_sign2 xeps He _ _ _ _ _ _ C1 C2 K1 K2 SG).
    exists (q_add r1 r2). split; [reflexivity|]. destruct (x_add_e r1 r2 N1 N2 I1 I2 SG') as [N E]. split; [exact N|].
    eapply relg_step; [exact He| |exact E]. apply relg_add; auto.
  - destruct HB as (B1 & B2 & SG). assert (C1 := cost_split _ (x_cost e1) _ He HC ltac:(lia)). assert (C2 := cost_split _ (x_cost e2) _ He HC ltac:(lia)).
    destruct (IH1 B1 C1) as (r1 & -> & N1 & K1). destruct (IH2 B2 C2) as (r2 & -> & N2 & K2). cbn [obind].
    apply (relg_neg xeps) in K2. assert (Rg2 := x_benign_range e2 B2). rewrite <- Rabs_Ropp in Rg2.
    destruct (x_neg_e r2 N2) as [N2' EN]. rewrite <- EN in K2.
    assert (I1 := IN _ _ _ C1 K1 (x_benign_range e1 B1)). assert (I2 := IN _ _ _ C2 K2 Rg2).
    assert (SG2 : 0 < x_real e1 * - x_real e2) by lra.
    assert (SG' := relg_sign2 xeps He _ _ _ _ _ _ C1 C2 K1 K2 SG2).
    exists (q_sub r1 r2). split; [reflexivity|]. unfold q_sub. destruct (x_add_e r1 (q_neg r2) N1 N2' I1 I2 SG') as [N E]. split; [exact N|].
    eapply relg_step; [exact He| |exact E]. unfold Rminus. apply relg_add; auto.
  - destruct HB as (B1 & B2). assert (C1 := cost_split _ (x_cost e1) _ He HC ltac:(lia)). assert (C2 := cost_split _ (x_cost e2) _ He HC ltac:(lia)).
    destruct (IH1 B1 C1) as (r1 & -> & N1 & K1). destruct (IH2 B2 C2) as (r2 & -> & N2 & K2). cbn [obind].
    assert (I1 := IN _ _ _ C1 K1 (x_benign_range e1 B1)). assert (I2 := IN _ _ _ C2 K2 (x_benign_range e2 B2)).
    assert (KM := relg_mul xeps He _ _ _ _ _ _ K1 K2).
    exists (q_mul r1 r2). split; [reflexivity|]. destruct (x_mul_e r1 r2 N1 N2 I1 I2) as [N E]. split; [exact N|].
    eapply relg_step; [exact He|exact KM|exact E].
  - destruct HB as (B1 & B2). assert (C1 := cost_split _ (x_cost e1) _ He HC ltac:(lia)). assert (C2 := cost_split _ (x_cost e2) _ He HC ltac:(lia)).
    destruct (IH1 B1 C1) as (r1 & -> & N1 & K1). destruct (IH2 B2 C2) as (r2 & -> & N2 & K2). cbn [obind].
    assert (I1 := IN _ _ _ C1 K1 (x_benign_range e1 B1)). assert (I2 := IN _ _ _ C2 K2 (x_benign_range e2 B2)).
    assert (NB : x_real e2 <> 0). { intros Z. assert (K := x_benign_range e2 B2). rewrite Z, Rabs_R0 in K. lra. }
    assert (QB : (1 + xeps) ^ x_cost e2 <= 3 / 2) by (assert (B := pw_bern xeps He (x_cost e2)); lra).
    destruct (relg_inv xeps He _ _ _ NB QB K2) as [Nr KI].
    assert (KM := relg_mul xeps He _ _ _ _ _ _ K1 KI).
    exists (q_div r1 r2). split; [reflexivity|]. destruct (x_div_e r1 r2 N1 N2 I1 I2) as [N E]. split; [exact N|].
    eapply relg_step; [exact He|exact KM|exact E].
  - destruct HB as (B1 & SG). assert (C1 := cost_split _ (x_cost e) _ He HC ltac:(lia)).
    destruct (IH B1 C1) as (r1 & -> & N1 & K1). cbn [obind].
    assert (I1 := IN _ _ _ C1 K1 (x_benign_range e B1)).
    assert (Pr : 0 < QV r1).
    { assert (K := relg_sign xeps He _ _ _ C1 K1 ltac:(lra)). destruct (Rlt_or_le 0 (QV r1)) as [|Hn]; auto.
      assert (0 <= - QV r1 * x_real e) by (apply Rmult_le_pos; lra). lra. }
    destruct (x_sqrt_e lm dbg r1 PR N1 I1 Pr) as (r & -> & N & E). exists r. split; [reflexivity|]. split; [exact N|].
    eapply relg_step; [exact He| |exact E]. apply relg_sqrt; auto. lra.
Qed.
