(** * C28, C35, C54, C67, C94-C96: Quad quotients, roots, literals, negative powers, whole expressions *)
From Coq Require Import ZArith Reals List Bool Lia Lra String.
From Flocq Require Import Core IEEE754.BinarySingleNaN.
From Verif Require Import RN F64 F64Facts Prim DoubleM QuadM AlgM Spec Exact Witness ParseM ParseSpec ParseThms P_Parse FromProofs Printer QuadSpec QAccThms QGeoAcc QGeoMul QLoose QLDiv QLOps QPowProofs ExprProofs P_Sum P_Expr QExprSpec QParse QLSqrt QLRoot QLSq QExprProofs.
Import ListNotations.
Local Open Scope R_scope.

(** every canonical Quad is tame *)
Theorem C94_canonical_tame : forall x, QNorm x \/ QNormW x -> QTame x.
Proof. intros x H. apply L_tame with (4 * u); [lra|]. apply QL_geo, QGeo_dec, QNorms_dec, H. Qed.
Print Assumptions C94_canonical_tame.

(** C54, the accuracy Quad division does have: 2^-91 on canonical operands, 2^-89 on tame ones *)
Theorem C54_div_accuracy_partial : forall x y, QNorm x \/ QNormW x -> QNorm y \/ QNormW y ->
  bpow radix2 (-300) <= Rabs (V (q0 x)) <= bpow radix2 90 -> bpow radix2 (-300) <= Rabs (V (q0 y)) <= bpow radix2 300 ->
  QTame (q_div x y) /\ Rabs (QV (q_div x y) - QV x / QV y) <= bpow radix2 (-91) * Rabs (QV x / QV y).
Proof.
  intros x y Hx Hy [X1 X2] [Y1 Y2].
  assert (Lx := QL_geo _ (QGeo_dec _ (QNorms_dec _ Hx))). assert (Ly := QL_geo _ (QGeo_dec _ (QNorms_dec _ Hy))).
  destruct (q_div_L (4 * u) x y) as [L E]; [lra|lra|exact Lx|exact Ly|exact X1|exact X2|exact Y1|exact Y2|].
  split; [apply L_tame with (4 * u); [lra|exact L]|]. eapply Rle_trans; [exact E|]. apply Rmult_le_compat_r; [apply Rabs_pos|].
  change (bpow radix2 (-91)) with (/ 2475880078570760549798248448). lra.
Qed.
Print Assumptions C54_div_accuracy_partial.
Theorem C54_div_tame_partial : forall x y, QTame x -> QTame y ->
  bpow radix2 (-300) <= Rabs (V (q0 x)) <= bpow radix2 90 -> bpow radix2 (-300) <= Rabs (V (q0 y)) <= bpow radix2 300 ->
  QTame (q_div x y) /\ Rabs (QV (q_div x y) - QV x / QV y) <= bpow radix2 (-89) * Rabs (QV x / QV y).
Proof.
  intros x y Hx Hy [X1 X2] [Y1 Y2]. apply tame_L in Hx, Hy.
  destruct (q_div_L (32 * u) x y) as [L E]; [lra|lra|exact Hx|exact Hy|exact X1|exact X2|exact Y1|exact Y2|].
  split; [apply L_tame with (4 * u); [lra|exact L]|]. eapply Rle_trans; [exact E|]. apply Rmult_le_compat_r; [apply Rabs_pos|].
  rewrite xeps_v. lra.
Qed.
Print Assumptions C54_div_tame_partial.

(** C28: the Quad square root *)
Theorem C28_quad_accuracy_partial : forall lm dbg x, printer lm -> QTame x -> 0 < QV x ->
  bpow radix2 (-91) <= QV x <= bpow radix2 91 ->
  exists r, q_sqrt lm dbg x = Val r /\ QTame r /\ Rabs (QV r - sqrt (QV x)) <= bpow radix2 (-89) * sqrt (QV x).
Proof.
  intros lm dbg x PR T P B. destruct (q_sqrt_L lm dbg x PR (proj1 (tame_L x) T) P B) as (r & K1 & K2 & K3).
  exists r. split; [exact K1|]. split; [apply L_tame with (4 * u); [lra|exact K2]|exact K3].
Qed.
Print Assumptions C28_quad_accuracy_partial.

(** C67: Quad::from(f64) *)
Theorem C67_quad_from_f64 : forall lm dbg a, printer lm -> Fin a -> bpow radix2 (-100) <= Rabs (V a) ->
  exists r, q_from_f64 lm dbg a = Val r /\ QTame r /\ Rabs (QV r - V a) <= bpow radix2 (-52) * Rabs (V a).
Proof.
  intros lm dbg a PR F B. destruct (q_from_f64_ok lm dbg a PR F B) as (r & K1 & K2 & K3).
  exists r. split; [exact K1|]. split; [apply L_tame with (4 * u); [lra|exact K2]|].
  eapply Rle_trans; [exact K3|]. apply Rmult_le_compat_r; [apply Rabs_pos|]. change (bpow radix2 (-52)) with (/ 4503599627370496). lra.
Qed.
Print Assumptions C67_quad_from_f64.

(** C95: decimal literals read as Quads; the net exponent is e - frac m *)
Theorem C95_quad_literals : forall dbg s m e, short (normal_text s) -> number (normal_text s) m e ->
  (sig_digits (digs m) <= 130)%nat -> (0 <= e - frac m <= 140)%Z ->
  exists r, from_str q_ops dbg s = Val (POk r) /\ QGeo r /\
    Rabs (QV r - q_lit m e) <= 2 * INR (2 * sig_digits (digs m) + 2) * bpow radix2 (-137) * Rabs (q_lit m e).
Proof. exact q_parse_pos. Qed.
Print Assumptions C95_quad_literals.
Theorem C95_quad_fractions : forall dbg s m e, short (normal_text s) -> number (normal_text s) m e ->
  (sig_digits (digs m) <= 130)%nat -> (-87 <= e - frac m < 0)%Z ->
  exists r, from_str q_ops dbg s = Val (POk r) /\ QTame r /\
    Rabs (QV r - q_lit m e) <= bpow radix2 (-87) * Rabs (q_lit m e).
Proof.
  intros dbg s m e H1 H2 H3 H4. destruct (q_parse_neg dbg s m e H1 H2 H3 H4) as (r & K1 & K2 & K3).
  exists r. split; [exact K1|]. split; [apply L_tame with (4 * u); [lra|exact K2]|exact K3].
Qed.
Print Assumptions C95_quad_fractions.

(** C96: reciprocals and negative integer powers of a Quad *)
Theorem C96_quad_recip : forall x, QNorm x \/ QNormW x -> bpow radix2 (-299) <= Rabs (QV x) <= bpow radix2 299 ->
  QTame (q_recip x) /\ Rabs (QV (q_recip x) - / QV x) <= bpow radix2 (-91) * Rabs (/ QV x).
Proof.
  intros x H B. destruct (q_recip_ok x (QL_geo _ (QGeo_dec _ (QNorms_dec _ H))) B) as [L E].
  split; [apply L_tame with (4 * u); [lra|exact L]|exact E].
Qed.
Print Assumptions C96_quad_recip.
Theorem C96_quad_negative_power : forall dbg x n, QNorm x \/ QNormW x -> (1 <= n <= 2147483647)%Z ->
  bpow radix2 (-290) <= Rabs (QV x) ^ Z.to_nat n <= bpow radix2 290 ->
  exists r, q_powi dbg x (- n) = Val r /\ QTame r /\
    Rabs (QV r - / QV x ^ Z.to_nat n) <= bpow radix2 (-90) * Rabs (/ QV x ^ Z.to_nat n).
Proof.
  intros dbg x n H Hn B. destruct (q_powi_neg_ok dbg x n (QNorms_dec _ H) Hn B) as (r & K1 & K2 & K3).
  exists r. split; [exact K1|]. split; [apply L_tame with (4 * u); [lra|exact K2]|exact K3].
Qed.
Print Assumptions C96_quad_negative_power.

(** C94: whole Quad expressions with literals, +, -, *, / and sqrt *)
Theorem C94_quad_expression : forall lm dbg e,
  printer lm -> x_benign e -> (Z.of_nat (x_cost e) <= 2 ^ 87)%Z ->
  exists r, x_run lm dbg e = Val r /\ QTame r /\
    Rabs (QV r - x_real e) <= 2 * INR (x_cost e) * bpow radix2 (-89) * Rabs (x_real e).
Proof.
  intros lm dbg e PR HB HC. assert (K := cost_small _ 87 (-89) ltac:(lia) HC ltac:(lia)).
  destruct (x_expr_ok lm dbg e PR HB K) as (r & E & N & A). exists r. split; [exact E|]. split; [exact N|].
  apply relg_final; [apply bpow_ge_0|exact K|exact A].
Qed.
Print Assumptions C94_quad_expression.

(** ** concrete cases *)
Lemma in85 x : / 16 <= Rabs x <= 16 -> bpow radix2 (-85) <= Rabs x <= bpow radix2 85.
Proof.
  intros H. split; [apply Rle_trans with (bpow radix2 (-4)); [apply bpow_le; lia|change (bpow radix2 (-4)) with (/ 16); lra]|].
  apply Rle_trans with (bpow radix2 4); [change (bpow radix2 4) with 16; lra|apply bpow_le; lia].
Qed.
Lemma quarter_lit : number (normal_text (txt " 0.25 ")) (txt "0.25") 0 /\ q_lit (txt "0.25") 0 = / 4.
Proof.
  split.
  - exists []. split; [vm_compute; reflexivity|]. split; [discriminate|]. split; [|constructor].
    apply documented_ok. exists [], (txt "0.25"). doc_tac.
  - unfold q_lit. replace ((if negative (txt "0.25") then -1 else 1) * dec_val (digs (txt "0.25")))%Z with 25%Z by (vm_compute; reflexivity).
    replace (0 - frac (txt "0.25"))%Z with (-2)%Z by (vm_compute; reflexivity). change (powerRZ 10 (-2)) with (/ (10 * (10 * 1))). lra.
Qed.
(** sqrt(y*y + 0.25) / (y - x) for full-width x < 0 < y *)
Definition ex_x : xexpr :=
  XQuot (XRoot (XPlus (XTimes (XLeaf w_qm_y) (XLeaf w_qm_y)) (XLit (txt " 0.25 ") (txt "0.25") 0))) (XMinus (XLeaf w_qm_y) (XLeaf w_qm_x)).
Example C94_case : x_benign ex_x /\ x_cost ex_x = 9%nat.
Proof.
  split; [|reflexivity]. destruct w_qm_box as [Bx By]. destruct quarter_lit as [Nq Eq].
  assert (Tx : QTame w_qm_x) by (apply C94_canonical_tame; left; apply qnormx_ok; vm_compute; reflexivity).
  assert (Ty : QTame w_qm_y) by (apply C94_canonical_tame; left; apply qnormx_ok; vm_compute; reflexivity).
  unfold ex_x. cbn [x_benign x_real]. rewrite Eq. set (a := QV w_qm_x) in *. set (b := QV w_qm_y) in *. clearbody a b.
  assert (Q : 0.36 <= b * b <= 0.49) by (split; [apply Rle_trans with (0.6 * 0.6); [lra|apply Rmult_le_compat; lra]|apply Rle_trans with (0.7 * 0.7); [apply Rmult_le_compat; lra|lra]]).
  assert (SQ : 0.5 <= sqrt (b * b + / 4) <= 1).
  { split; [rewrite <- (sqrt_square 0.5) by lra|rewrite <- (sqrt_square 1) by lra]; apply sqrt_le_1_alt; lra. }
  assert (D : 0.25 <= sqrt (b * b + / 4) / (b - a) <= 1).
  { assert (/ 2 <= / (b - a)) by (apply Rinv_le_contravar; lra). assert (/ (b - a) <= / 1) by (apply Rinv_le_contravar; lra). rewrite Rinv_1 in *.
    unfold Rdiv. split; [apply Rle_trans with (0.5 * / 2); [lra|apply Rmult_le_compat; lra]|]. apply Rle_trans with (1 * 1); [apply Rmult_le_compat; lra|lra]. }
  split; [apply in85; rewrite Rabs_pos_eq; lra|]. split.
  - split; [apply in85; rewrite Rabs_pos_eq; lra|]. split; [|lra].
    split; [apply in85; rewrite Rabs_pos_eq; lra|]. split; [|split].
    + split; [apply in85; rewrite Rabs_pos_eq; lra|]. split; (split; [apply in85; rewrite Rabs_pos_eq; lra|exact Ty]).
    + split; [apply in85; rewrite Rabs_pos_eq; lra|]. split; [short_tac|]. split; [exact Nq|]. split; [vm_compute; lia|vm_compute; split; discriminate].
    + apply Rmult_lt_0_compat; lra.
  - split; [apply in85; rewrite Rabs_pos_eq; lra|]. split; [|split].
    + split; [apply in85; rewrite Rabs_pos_eq; lra|exact Ty].
    + split; [apply in85; rewrite Rabs_left; lra|exact Tx].
    + assert (0 < b * - a) by (apply Rmult_lt_0_compat; lra). lra.
Qed.
(** the hypotheses of C54/C28/C96 on a full-width operand *)
Example C54_case : bpow radix2 (-300) <= Rabs (V (q0 w_qm_x)) <= bpow radix2 90 /\ bpow radix2 (-300) <= Rabs (V (q0 w_qm_y)) <= bpow radix2 300 /\
  bpow radix2 (-91) <= QV w_qm_y <= bpow radix2 91 /\ bpow radix2 (-299) <= Rabs (QV w_qm_x) <= bpow radix2 299 /\
  bpow radix2 (-290) <= Rabs (QV w_qm_x) ^ Z.to_nat 3 <= bpow radix2 290.
Proof.
  destruct w_qm_box as [Bx By].
  assert (Tx : QTame w_qm_x) by (apply C94_canonical_tame; left; apply qnormx_ok; vm_compute; reflexivity).
  assert (Ty : QTame w_qm_y) by (apply C94_canonical_tame; left; apply qnormx_ok; vm_compute; reflexivity).
  assert (Hx := hi_bounds _ Tx). assert (Hy := hi_bounds _ Ty).
  assert (Ax : Rabs (QV w_qm_x) = - QV w_qm_x) by (apply Rabs_left; lra). assert (Ay : Rabs (QV w_qm_y) = QV w_qm_y) by (apply Rabs_pos_eq; lra).
  rewrite Ax. rewrite Ax in Hx. rewrite Ay in Hy. assert (Ea : exists a, a = - QV w_qm_x) by (eexists; reflexivity). destruct Ea as [a Ea]. rewrite <- Ea in *.
  assert (L4 : forall k, (k <= -4)%Z -> bpow radix2 k <= / 16) by (intros k Hk; change (/ 16) with (bpow radix2 (-4)); now apply bpow_le).
  assert (U4 : forall k, (4 <= k)%Z -> 16 <= bpow radix2 k) by (intros k Hk; change 16 with (bpow radix2 4); now apply bpow_le).
  assert (A1 := L4 (-300)%Z ltac:(lia)). assert (A2 := L4 (-91)%Z ltac:(lia)). assert (A3 := L4 (-299)%Z ltac:(lia)). assert (A4 := L4 (-290)%Z ltac:(lia)).
  assert (B1 := U4 90%Z ltac:(lia)). assert (B2 := U4 300%Z ltac:(lia)). assert (B3 := U4 91%Z ltac:(lia)). assert (B4 := U4 299%Z ltac:(lia)). assert (B5 := U4 290%Z ltac:(lia)).
  split; [lra|]. split; [lra|]. split; [lra|]. split; [lra|].
  change (Z.to_nat 3) with 3%nat. assert (0.64 <= a * a <= 0.81) by (split; [apply Rle_trans with (0.8 * 0.8); [lra|apply Rmult_le_compat; lra]|apply Rle_trans with (0.9 * 0.9); [apply Rmult_le_compat; lra|lra]]).
  assert (0.5 <= a * (a * a) <= 1) by (split; [apply Rle_trans with (0.8 * 0.64); [lra|apply Rmult_le_compat; lra]|apply Rle_trans with (0.9 * 0.81); [apply Rmult_le_compat; lra|lra]]).
  replace (a ^ 3) with (a * (a * a)) by ring. lra.
Qed.
(** the hypotheses of C95 on a literal with 70 significant digits *)
Example C95_case : exists m e, number (normal_text (txt "1234567890.123456789012345678901234567890123456789012345678901234567890e3")) m e /\
  (e - frac m = -57)%Z /\ sig_digits (digs m) = 70%nat.
Proof.
  exists (txt "1234567890.123456789012345678901234567890123456789012345678901234567890"), 3%Z. split; [|split; vm_compute; reflexivity].
  exists (txt "e3"). split; [vm_compute; reflexivity|]. split; [discriminate|]. split.
  - apply documented_ok. exists [], (txt "1234567890.123456789012345678901234567890123456789012345678901234567890"). doc_tac.
  - constructor. apply (lit_plain (txt "3")); [discriminate|reflexivity|vm_compute; discriminate].
Qed.
