(** * Long Quad sums *)
From Coq Require Import ZArith Reals List Bool Lia Lra.
From Flocq Require Import Core IEEE754.BinarySingleNaN.
From Verif Require Import RN F64 F64Facts Prim DoubleM QuadM Spec Exact Witness QuadSpec QAccThms QAddAcc QAddThms QGeoAcc FoldSpec FoldProofs QSumProofs.
Import ListNotations.
Local Open Scope R_scope.

Lemma qlen_small (n : nat) : (Z.of_nat n <= 2 ^ 107)%Z -> INR n * bpow radix2 (-136) <= bpow radix2 (-29).
Proof.
  intros H. rewrite INR_IZR_INZ. apply IZR_le in H. change 2%Z with (radix_val radix2) in H. rewrite IZR_Zpower in H by lia.
  change (-29)%Z with (107 + -136)%Z. rewrite bpow_plus. apply Rmult_le_compat_r; [apply bpow_ge_0|exact H].
Qed.

(** C90: Iterator::sum of Quads.  If no partial sum almost cancels (each is at least
    2^-28 of the sum of the absolute values so far), the error is at most n * 2^-136
    times the sum of the absolute values *)
Theorem C90_quad_sum : forall l, Forall QGeo l -> (Z.of_nat (length l) <= 2 ^ 107)%Z ->
  rsum (map (fun x => Rabs (QV x)) l) <= bpow radix2 998 ->
  Steady (bpow radix2 (-28)) (map QV l) ->
  QGeo (q_sum l) /\
  Rabs (QV (q_sum l) - rsum (map QV l)) <= INR (length l) * bpow radix2 (-136) * rsum (map (fun x => Rabs (QV x)) l).
Proof. intros l H Hn HB HS. apply q_sum_ok; auto. now apply qlen_small. Qed.
Print Assumptions C90_quad_sum.

(** in particular for terms of one sign: then it is a relative error *)
Theorem C90_quad_sum_sign : forall l, Forall (fun x => QNorm x \/ QNormW x) l -> (Z.of_nat (length l) <= 2 ^ 107)%Z ->
  Forall (fun x => 0 <= QV x) l \/ Forall (fun x => QV x <= 0) l ->
  Rabs (rsum (map QV l)) <= bpow radix2 998 ->
  QFin (q_sum l) /\
  Rabs (QV (q_sum l) - rsum (map QV l)) <= INR (length l) * bpow radix2 (-136) * Rabs (rsum (map QV l)).
Proof.
  intros l H Hn Sg HB.
  assert (Sg' : Forall (fun x => 0 <= x) (map QV l) \/ Forall (fun x => x <= 0) (map QV l)).
  { destruct Sg as [Sg|Sg]; [left|right]; apply Forall_map; exact Sg. }
  assert (E : rsum (map (fun x => Rabs (QV x)) l) = Rabs (rsum (map QV l))).
  { rewrite <- (map_map QV Rabs). destruct Sg' as [K|K].
    - destruct (rsum_nn _ K) as [-> P]. now rewrite Rabs_pos_eq.
    - destruct (rsum_np _ K) as [-> P]. now rewrite Rabs_left1. }
  destruct (q_sum_ok l) as [K1 K2].
  - eapply Forall_impl; [|exact H]. intros x Hx. now apply QGeo_dec, QNorms_dec.
  - now rewrite E.
  - now apply qlen_small.
  - apply Steady_sign; [|exact Sg']. change 1 with (bpow radix2 0). apply bpow_le. lia.
  - rewrite E in K2. split; [apply K1|exact K2].
Qed.
Print Assumptions C90_quad_sum_sign.

(** C91: a computed Quad sum is again a good operand, however long the chain *)
Theorem C91_quad_add_closed : forall x y, QGeo x -> QGeo y ->
  Rabs (QV x) <= bpow radix2 999 -> Rabs (QV y) <= bpow radix2 999 ->
  bpow radix2 (-30) * (Rabs (QV x) + Rabs (QV y)) <= Rabs (QV x + QV y) ->
  QGeo (q_add x y) /\ Rabs (QV (q_add x y) - (QV x + QV y)) <= bpow radix2 (-137) * (Rabs (QV x) + Rabs (QV y)).
Proof. exact q_add_geo. Qed.
Print Assumptions C91_quad_add_closed.
Theorem C91_canonical_closed : forall x, QNorm x \/ QNormW x -> QGeo x.
Proof. intros x H. now apply QGeo_dec, QNorms_dec. Qed.
Print Assumptions C91_canonical_closed.

(** ** concrete cases *)
Lemma qle_z x n k : (-1074 <= k)%Z -> (zq x <=? n * 2 ^ (k + 1074))%Z = true -> QV x <= IZR n * bpow radix2 k.
Proof.
  intros Hk H. apply Z.leb_le, IZR_le in H. rewrite zq_ok. rewrite mult_IZR in H. change 2%Z with (radix_val radix2) in H. rewrite IZR_Zpower in H by lia.
  replace (bpow radix2 k) with (bpow radix2 (k + 1074) * bp (-1074)) by (rewrite <- bpow_plus; f_equal; lia).
  rewrite <- Rmult_assoc. apply Rmult_le_compat_r; [apply bpow_ge_0|exact H].
Qed.
Lemma qge_z x n k : (-1074 <= k)%Z -> (n * 2 ^ (k + 1074) <=? zq x)%Z = true -> IZR n * bpow radix2 k <= QV x.
Proof.
  intros Hk H. apply Z.leb_le, IZR_le in H. rewrite zq_ok. rewrite mult_IZR in H. change 2%Z with (radix_val radix2) in H. rewrite IZR_Zpower in H by lia.
  replace (bpow radix2 k) with (bpow radix2 (k + 1074) * bp (-1074)) by (rewrite <- bpow_plus; f_equal; lia).
  rewrite <- Rmult_assoc. apply Rmult_le_compat_r; [apply bpow_ge_0|exact H].
Qed.
Lemma w_qm_box : -0.9 <= QV w_qm_x <= -0.8 /\ 0.6 <= QV w_qm_y <= 0.7.
Proof.
  assert (A := qge_z w_qm_x (-900) (-10) ltac:(lia) ltac:(vm_compute; reflexivity)).
  assert (B := qle_z w_qm_x (-850) (-10) ltac:(lia) ltac:(vm_compute; reflexivity)).
  assert (C := qge_z w_qm_y 630 (-10) ltac:(lia) ltac:(vm_compute; reflexivity)).
  assert (D := qle_z w_qm_y 700 (-10) ltac:(lia) ltac:(vm_compute; reflexivity)).
  change (bpow radix2 (-10)) with (/ 1024) in *. lra.
Qed.

(** full-width terms of both signs, and terms of one sign *)
Example C90_case : Forall (fun x => QNorm x /\ QGeo x) [w_qm_x; w_qm_y; w_qm_x] /\
  rsum (map (fun x => Rabs (QV x)) [w_qm_x; w_qm_y; w_qm_x]) <= bpow radix2 998 /\
  Steady (bpow radix2 (-28)) (map QV [w_qm_x; w_qm_y; w_qm_x]) /\
  Forall (fun x => QV x <= 0) [w_qm_x; w_qm_x].
Proof.
  destruct w_qm_box as [Bx By].
  assert (Nx : QNorm w_qm_x) by (apply qnormx_ok; vm_compute; reflexivity).
  assert (Ny : QNorm w_qm_y) by (apply qnormx_ok; vm_compute; reflexivity).
  assert (Gx := C91_canonical_closed _ (or_introl Nx)). assert (Gy := C91_canonical_closed _ (or_introl Ny)).
  split; [apply Forall_cons; [auto|]; apply Forall_cons; [auto|]; apply Forall_cons; [auto|apply Forall_nil]|].
  split.
  { cbn [map]. rewrite !rsum_cons, rsum_nil, (Rabs_left (QV w_qm_x)), (Rabs_pos_eq (QV w_qm_y)) by lra.
    apply Rle_trans with (bpow radix2 2); [change (bpow radix2 2) with 4; lra|apply bpow_le; lia]. }
  split; [|apply Forall_cons; [lra|apply Forall_cons; [lra|apply Forall_nil]]].
  change (bpow radix2 (-28)) with (/ 268435456). cbn [map]. set (a := QV w_qm_x) in *. set (b := QV w_qm_y) in *.
  intros l1 l2 E.
  assert (K : l1 = [] \/ l1 = [a] \/ l1 = [a; b] \/ l1 = [a; b; a]).
  { destruct l1 as [|p [|q [|r [|s l1]]]]; cbn [app] in E; [now left|injection E as <- _; auto|injection E as <- <- _; auto|injection E as <- <- <- _; auto 6|discriminate]. }
  clear E. destruct K as [->|[->|[->| ->]]]; cbn [map]; rewrite ?rsum_cons, ?rsum_nil, ?(Rabs_left a), ?(Rabs_pos_eq b) by lra.
  - rewrite Rabs_R0. lra.
  - rewrite Rabs_left by lra. lra.
  - rewrite (Rabs_left (a + _)) by lra. lra.
  - rewrite (Rabs_left (a + (b + _))) by lra. lra.
Qed.
