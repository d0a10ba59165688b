(** * Rounding functions: the theorems in the form the properties state, and witnesses *)
From Coq Require Import ZArith Reals Lra Lia Bool.
From Flocq Require Import Core IEEE754.BinarySingleNaN.
From Verif Require Import RN F64 Prim DoubleM QuadM Spec Exact ExactProofs RoundProofs FractProofs QRoundProofs.
Local Open Scope R_scope.

Lemma d_floor_iff x : DNorm x ->
  DNorm (d_floor x) /\ (DV (d_floor x) = IZR (Rfloor (DV x)) <-> ~ floor_bad (V (d0 x)) (V (d1 x))) /\
  (floor_bad (V (d0 x)) (V (d1 x)) -> DV (d_floor x) = IZR (Rfloor (DV x) - 1)).
Proof.
  intros N. destruct (d_floor_like_ok ffloor 1 (or_introl eq_refl) Hf_floor x N) as [A [B C]]. rewrite !Rmult_1_l in *.
  rewrite d_floor_like_floor. split; [exact A|]. split; [|exact C]. split; [|exact B].
  intros E K. rewrite (C K) in E. apply eq_IZR in E. unfold Rfloor in E. lia.
Qed.
Lemma d_ceil_iff x : DNorm x ->
  DNorm (d_ceil x) /\ (DV (d_ceil x) = IZR (Rceil (DV x)) <-> ~ floor_bad (- V (d0 x)) (- V (d1 x))) /\
  (floor_bad (- V (d0 x)) (- V (d1 x)) -> DV (d_ceil x) = IZR (Rceil (DV x) + 1)).
Proof.
  intros N. destruct (d_floor_like_ok fceil (-1) (or_intror eq_refl) Hf_ceil x N) as [A [B C]].
  replace (IZR (-1) * V (d0 x)) with (- V (d0 x)) in * by (simpl; ring). replace (IZR (-1) * V (d1 x)) with (- V (d1 x)) in * by (simpl; ring).
  replace (IZR (-1) * DV x) with (- DV x) in * by (simpl; ring).
  assert (E1 : IZR (-1) * IZR (Zfloor (- DV x)) = IZR (Rceil (DV x))) by (unfold Rceil, Zceil; rewrite opp_IZR; simpl; ring).
  assert (E2 : IZR (-1) * IZR (Zfloor (- DV x) - 1) = IZR (Rceil (DV x) + 1)) by (unfold Rceil, Zceil; rewrite plus_IZR, minus_IZR, opp_IZR; simpl; ring).
  rewrite E1 in B. rewrite E2 in C.
  rewrite d_floor_like_ceil. split; [exact A|]. split; [|exact C]. split; [|exact B].
  intros E K. rewrite (C K) in E. apply eq_IZR in E. unfold Rceil in E. lia.
Qed.
Lemma q_floor_ok x : QNorm x -> Rabs (V (q0 x)) <= bp 1000 -> ~ qfloor_bad (V (q0 x)) (V (q1 x)) (V (q2 x)) (V (q3 x)) ->
  QFin (q_floor x) /\ QV (q_floor x) = IZR (Rfloor (QV x)).
Proof.
  intros N B NB. assert (K := q_floor_like_ok ffloor 1 (or_introl eq_refl) Hf_floor x N B). rewrite !Rmult_1_l in K. exact (K NB).
Qed.
Lemma q_ceil_ok x : QNorm x -> Rabs (V (q0 x)) <= bp 1000 -> ~ qfloor_bad (- V (q0 x)) (- V (q1 x)) (- V (q2 x)) (- V (q3 x)) ->
  QFin (q_ceil x) /\ QV (q_ceil x) = IZR (Rceil (QV x)).
Proof.
  intros N B NB. assert (K := q_floor_like_ok fceil (-1) (or_intror eq_refl) Hf_ceil x N B).
  assert (M : forall z, IZR (-1) * z = - z) by (intros; simpl; ring). rewrite !M in K. destruct (K NB) as [K1 K2]. split; [exact K1|].
  unfold q_ceil. rewrite K2. unfold Rceil, Zceil. now rewrite opp_IZR.
Qed.

(** ** exact evaluation on literals *)
Definition P1074 : Z := (2 ^ 1074)%Z.
Lemma P1074_pos : (0 < P1074)%Z. Proof. reflexivity. Qed.
Lemma val_div z : IZR z * bp (-1074) = IZR z / IZR P1074.
Proof.
  unfold Rdiv. f_equal.
Qed.
Lemma floor_z z : Zfloor (IZR z * bp (-1074)) = (z / P1074)%Z.
Proof. rewrite val_div. apply Zfloor_div. discriminate. Qed.
Lemma ceil_z z : Zceil (IZR z * bp (-1074)) = (- ((- z) / P1074))%Z.
Proof. unfold Zceil. f_equal. rewrite <- floor_z. f_equal. rewrite opp_IZR. ring. Qed.
Definition roundz (z : Z) : Z := if Z.leb 0 z then ((2 * z + P1074) / (2 * P1074))%Z else (- ((- (2 * z) + P1074) / (2 * P1074)))%Z.
Lemma round_z z : Rround_away (IZR z * bp (-1074)) = roundz z.
Proof.
  unfold Rround_away, roundz. rewrite val_div. assert (Pp := P1074_pos). assert (IZR P1074 > 0) by (apply IZR_lt; easy).
  destruct (Rle_dec 0 (IZR z / IZR P1074)) as [L|L]; case Z.leb_spec; intros C.
  - rewrite <- Zfloor_div by lia. f_equal. rewrite plus_IZR, !mult_IZR. field. lra.
  - exfalso. apply IZR_lt in C. assert (IZR z = IZR z / IZR P1074 * IZR P1074) by (field; lra). nra.
  - exfalso. apply L. apply IZR_le in C. apply Rmult_le_pos; [lra|apply Rlt_le, Rinv_0_lt_compat; lra].
  - unfold Zceil. f_equal. rewrite <- Zfloor_div by lia. f_equal. rewrite plus_IZR, opp_IZR, !mult_IZR. field. lra.
Qed.
Lemma int_z z n : IZR z * bp (-1074) = IZR n <-> z = (n * P1074)%Z.
Proof.
  rewrite val_div. assert (Pp := P1074_pos). assert (IZR P1074 > 0) by (apply IZR_lt; easy). split; intros E.
  - apply eq_IZR. rewrite mult_IZR, <- E. field. lra.
  - rewrite E, mult_IZR. field. lra.
Qed.

Definition wx1 : Quad := mkQ (f2pow 1 0) f0 (f2pow 1 (-60)) (f2pow (-1) (-120)). (* 1 + 2^-60 - 2^-120 *)
Definition wx : Quad := mkQ (f2pow 1 60) (f2pow 1 0) (f2pow 1 (-60)) (f2pow (-1) (-120)).
Definition wn : Quad := mkQ (f2pow (2 ^ 52 + 1) 100) (f2pow 1 99) (f2pow (-1) 0) f0.
Definition wr : Quad := mkQ (f2pow (-5) (-1)) (f2pow 1 (-70)) f0 f0.  (* -2.5 + 2^-70 *)

Lemma q_floor_refuted :
  (exists x, QNorm x /\ QV (q_floor x) = IZR (Rfloor (QV x) - 1)) /\
  (exists x, QNorm x /\ QV x = IZR (Rfloor (QV x)) /\ ~ QNorm (q_floor x)).
Proof.
  split.
  - exists wx. split; [apply qnormx_ok; vm_compute; reflexivity|]. unfold Rfloor. rewrite !zq_ok, floor_z. apply int_z. vm_compute; reflexivity.
  - exists wn. split; [apply qnormx_ok; vm_compute; reflexivity|]. split.
    + unfold Rfloor. rewrite !zq_ok, floor_z. apply int_z. vm_compute; reflexivity.
    + apply qnormx_no; vm_compute; reflexivity.
Qed.
Lemma q_ceil_refuted :
  (exists x, QNorm x /\ QV (q_ceil x) = IZR (Rceil (QV x) + 1)) /\
  (exists x, QNorm x /\ QV x = IZR (Rceil (QV x)) /\ ~ QNorm (q_ceil x)).
Proof.
  split.
  - exists (q_neg wx). split; [apply qnormx_ok; vm_compute; reflexivity|]. unfold Rceil. rewrite !zq_ok, ceil_z. apply int_z. vm_compute; reflexivity.
  - exists wn. split; [apply qnormx_ok; vm_compute; reflexivity|]. split.
    + unfold Rceil. rewrite !zq_ok, ceil_z. apply int_z. vm_compute; reflexivity.
    + apply qnormx_no; vm_compute; reflexivity.
Qed.
Lemma q_round_refuted :
  (exists x, QNorm x /\ IZR (Rround_away (QV x)) <> QV (q_round x)).
Proof.
  exists wr. split; [apply qnormx_ok; vm_compute; reflexivity|]. rewrite !zq_ok, round_z. intros E. symmetry in E. rewrite int_z in E. revert E. vm_compute. discriminate.
Qed.
