(** * Quad accuracy for normalised operands: the theorems quoted in P_Quad.v *)
From Coq Require Import ZArith Reals List Bool Lia Lra.
From Flocq Require Import Core IEEE754.BinarySingleNaN.
From Verif Require Import F64 F64Facts Prim DoubleM QuadM RN Spec EFT Exact QuadSpec QAddAcc QAddThms QAddComm QMulThms QMulFine Witness.
Local Open Scope R_scope.

Lemma q_neg_dec k x : QDec k x -> QDec k (q_neg x) /\ QV (q_neg x) = - QV x.
Proof.
  intros ((F0 & F1 & F2 & F3) & H1 & H2 & H3). unfold q_neg, QDec, QFin, QV. cbn [q0 q1 q2 q3].
  destruct (fneg_ok _ F0) as [G0 E0]. destruct (fneg_ok _ F1) as [G1 E1]. destruct (fneg_ok _ F2) as [G2 E2]. destruct (fneg_ok _ F3) as [G3 E3].
  rewrite E0, E1, E2, E3, !Rabs_Ropp. split; [|ring]. split; [split; [assumption|split; [assumption|split; assumption]]|auto].
Qed.

(** the error of a Quad sum is at most 2^-96 (|x|+|y|), and at most 2^-147 (|x|+|y|)
    unless more than 44 leading bits cancel *)
Lemma q_add_acc53 x y : QDec 53 x -> QDec 53 y -> Rabs (QV x) <= bp 999 -> Rabs (QV y) <= bp 999 ->
  QFin (q_add x y) /\
  Rabs (QV (q_add x y) - (QV x + QV y)) <= bp (-96) * (Rabs (QV x) + Rabs (QV y)) /\
  (bp (-44) * (Rabs (QV x) + Rabs (QV y)) <= Rabs (QV x + QV y) ->
   Rabs (QV (q_add x y) - (QV x + QV y)) <= bp (-147) * (Rabs (QV x) + Rabs (QV y))) /\
  (0 <= QV x * QV y -> Rabs (QV (q_add x y) - (QV x + QV y)) <= bp (-147) * Rabs (QV x + QV y)).
Proof.
  intros Hx Hy Bx By. destruct (q_add_acc 53 x y ltac:(lia) Hx Hy Bx By) as (F & A & B).
  change (10 - 2 * 53)%Z with (-96)%Z in A. change (9 - 53)%Z with (-44)%Z in B. change (12 - 3 * 53)%Z with (-147)%Z in B.
  split; [exact F|]. split; [exact A|]. split; [exact B|]. intros S.
  assert (E : Rabs (QV x + QV y) = Rabs (QV x) + Rabs (QV y)).
  { unfold Rabs. destruct (Rcase_abs (QV x)) as [H1|H1], (Rcase_abs (QV y)) as [H2|H2], (Rcase_abs (QV x + QV y)) as [H3|H3]; try nra. }
  rewrite E in *. apply B. assert (P1 := Rabs_pos (QV x)). assert (P2 := Rabs_pos (QV y)).
  assert (bp (-44) <= 1) by (change 1 with (bp 0); apply bpow_le; lia).
  rewrite <- (Rmult_1_l (Rabs (QV x) + Rabs (QV y))) at 2. apply Rmult_le_compat_r; lra.
Qed.

Lemma q_sub_acc53 x y : QDec 53 x -> QDec 53 y -> Rabs (QV x) <= bp 999 -> Rabs (QV y) <= bp 999 ->
  QFin (q_sub x y) /\
  Rabs (QV (q_sub x y) - (QV x - QV y)) <= bp (-96) * (Rabs (QV x) + Rabs (QV y)) /\
  (bp (-44) * (Rabs (QV x) + Rabs (QV y)) <= Rabs (QV x - QV y) ->
   Rabs (QV (q_sub x y) - (QV x - QV y)) <= bp (-147) * (Rabs (QV x) + Rabs (QV y))) /\
  (QV x * QV y <= 0 -> Rabs (QV (q_sub x y) - (QV x - QV y)) <= bp (-147) * Rabs (QV x - QV y)).
Proof.
  intros Hx Hy Bx By. destruct (q_neg_dec 53 y Hy) as [Hn En].
  assert (K := q_add_acc53 x (q_neg y) Hx Hn Bx). rewrite En, Rabs_Ropp in K. specialize (K By).
  unfold q_sub. unfold Rminus at 2 4 5 7 8. destruct K as (K1 & K2 & K3 & K4). split; [exact K1|]. split; [exact K2|]. split; [exact K3|].
  intros S. apply K4. lra.
Qed.

Lemma q_mul_acc53 x y : QDec 53 x -> QDec 53 y ->
  Rabs (QV x) <= bp 499 -> Rabs (QV y) <= bp 499 -> bp (-500) <= Rabs (QV x * QV y) ->
  QFin (q_mul x y) /\ Rabs (QV (q_mul x y) - QV x * QV y) <= bp (-203) * Rabs (QV x * QV y).
Proof. intros Hx Hy Bx By Lo. exact (q_mul_fine 53 x y ltac:(lia) Hx Hy Bx By Lo). Qed.

(** swapping the factors changes a Quad product by at most 2^-202 relatively *)
Lemma q_mul_comm_close x y : QDec 53 x -> QDec 53 y ->
  Rabs (QV x) <= bp 499 -> Rabs (QV y) <= bp 499 -> bp (-500) <= Rabs (QV x * QV y) ->
  Rabs (QV (q_mul x y) - QV (q_mul y x)) <= bp (-202) * Rabs (QV x * QV y).
Proof.
  intros Hx Hy Bx By Lo. destruct (q_mul_acc53 x y Hx Hy Bx By Lo) as [_ A].
  rewrite Rmult_comm in Lo. destruct (q_mul_acc53 y x Hy Hx By Bx Lo) as [_ B]. rewrite (Rmult_comm (QV y)) in B.
  replace (QV (q_mul x y) - QV (q_mul y x)) with ((QV (q_mul x y) - QV x * QV y) + - (QV (q_mul y x) - QV x * QV y)) by ring.
  eapply Rle_trans; [apply Rabs_triang|]. rewrite Rabs_Ropp.
  replace (bp (-202)) with (2 * bp (-203)) by (change 2 with (bp 1); rewrite <- bpow_plus; reflexivity). lra.
Qed.

Lemma QNorms_dec x : QNorm x \/ QNormW x -> QDec 53 x.
Proof. intros [H|H]; [now apply QNorm_dec|now apply QNormW_dec]. Qed.

(** ** witnesses *)
Lemma qabs_le_z x k : (-1074 <= k)%Z -> (Z.abs (zq x) <=? 2 ^ (k + 1074))%Z = true -> Rabs (QV x) <= bp k.
Proof.
  intros Hk H. apply Z.leb_le, IZR_le in H. rewrite zq_ok, Rabs_mult, (Rabs_pos_eq (bp _)) by apply bpow_ge_0. rewrite <- abs_IZR.
  replace (bp k) with (IZR (2 ^ (k + 1074)) * bp (-1074)).
  - apply Rmult_le_compat_r; [apply bpow_ge_0|exact H].
  - change 2%Z with (radix_val radix2). rewrite IZR_Zpower by lia. rewrite <- bpow_plus. f_equal. lia.
Qed.
Lemma qprod_ge_z x y k : (0 <= k + 2148)%Z -> (2 ^ (k + 2148) <=? Z.abs (zq x * zq y))%Z = true -> bp k <= Rabs (QV x * QV y).
Proof.
  intros Hk H. apply Z.leb_le, IZR_le in H. rewrite !zq_ok.
  replace (IZR (zq x) * bp (-1074) * (IZR (zq y) * bp (-1074))) with (IZR (zq x * zq y) * (bp (-1074) * bp (-1074))) by (rewrite mult_IZR; ring).
  rewrite <- bpow_plus, Rabs_mult, (Rabs_pos_eq (bp _)) by apply bpow_ge_0. rewrite <- abs_IZR.
  replace (bp k) with (IZR (2 ^ (k + 2148)) * bp (-1074 + -1074)).
  - apply Rmult_le_compat_r; [apply bpow_ge_0|exact H].
  - change 2%Z with (radix_val radix2). rewrite IZR_Zpower by lia. rewrite <- bpow_plus. f_equal. lia.
Qed.
Lemma qsame_sign_z x y : (0 <=? zq x * zq y)%Z = true -> 0 <= QV x * QV y.
Proof.
  intros H. apply Z.leb_le, IZR_le in H. rewrite !zq_ok.
  replace (IZR (zq x) * bp (-1074) * (IZR (zq y) * bp (-1074))) with (IZR (zq x * zq y) * (bp (-1074) * bp (-1074))) by (rewrite mult_IZR; ring).
  apply Rmult_le_pos; [exact H|]. apply Rmult_le_pos; apply bpow_ge_0.
Qed.

Lemma add_acc_wit : QNorm w_qa_x /\ QNorm w_qa_y /\ Rabs (QV w_qa_x) <= bp 999 /\ Rabs (QV w_qa_y) <= bp 999 /\ 0 <= QV w_qa_x * QV w_qa_y.
Proof.
  split; [apply qnormx_ok; vm_compute; reflexivity|]. split; [apply qnormx_ok; vm_compute; reflexivity|].
  split; [apply qabs_le_z; [lia|vm_compute; reflexivity]|]. split; [apply qabs_le_z; [lia|vm_compute; reflexivity]|].
  apply qsame_sign_z. vm_compute. reflexivity.
Qed.
Lemma mul_acc_wit : QNorm w_qm_x /\ QNorm w_qm_y /\ Rabs (QV w_qm_x) <= bp 499 /\ Rabs (QV w_qm_y) <= bp 499 /\ bp (-500) <= Rabs (QV w_qm_x * QV w_qm_y).
Proof.
  split; [apply qnormx_ok; vm_compute; reflexivity|]. split; [apply qnormx_ok; vm_compute; reflexivity|].
  split; [apply qabs_le_z; [lia|vm_compute; reflexivity]|]. split; [apply qabs_le_z; [lia|vm_compute; reflexivity]|].
  apply qprod_ge_z; [lia|]. vm_compute. reflexivity.
Qed.

(** one operand far below the other: commutation of + holds there *)
Definition w_qc_x := mkQ (f2pow 1 0) (f2pow 1 (-60)) (f2pow 1 (-400)) (f2pow 1 (-500)).
Definition w_qc_y := mkQ (f2pow 3 (-30)) (f2pow 5 (-100)) (f2pow 7 (-200)) (f2pow 9 (-300)).
Lemma apart_z x y : forallb (fun a => forallb (fun b => negb (Z.abs (zv a) =? Z.abs (zv b))%Z) (comps y)) (comps x) = true -> qapart x y.
Proof.
  intros H a b Ia Ib E. rewrite forallb_forall in H. specialize (H a Ia). rewrite forallb_forall in H. specialize (H b Ib).
  apply negb_true_iff, Z.eqb_neq in H. apply H. rewrite !zv_ok, !Rabs_mult in E. apply Rmult_eq_reg_r in E.
  - rewrite <- !abs_IZR in E. now apply eq_IZR.
  - apply Rgt_not_eq, Rabs_pos_lt, Rgt_not_eq, bpow_gt_0.
Qed.
Lemma comm_wit : QNorm w_qc_x /\ QNorm w_qc_y /\ qapart w_qc_x w_qc_y /\ Rabs (V (q2 w_qc_x)) < Rabs (V (q3 w_qc_y)).
Proof.
  split; [apply qnormx_ok; vm_compute; reflexivity|]. split; [apply qnormx_ok; vm_compute; reflexivity|].
  split; [apply apart_z; vm_compute; reflexivity|].
  rewrite !zv_ok, !Rabs_mult. apply Rmult_lt_compat_r; [apply Rabs_pos_lt, Rgt_not_eq, bpow_gt_0|].
  rewrite <- !abs_IZR. apply IZR_lt. vm_compute. reflexivity.
Qed.
Lemma q_add_comm_far x y : QNorm x \/ QNormW x -> QNorm y \/ QNormW y -> qapart x y -> Rabs (V (q2 x)) < Rabs (V (q3 y)) ->
  q_add x y = q_add y x.
Proof. intros Hx Hy. apply q_add_comm_apart; now apply QNorms_dec. Qed.
