(** * C102: accuracy of the Quad trigonometric functions

    [sin], [cos] and [tan] on the right are the standard library's real functions.  The range |x| <= 3.1 is where
    [v.round()] is zero, so that no full turn is subtracted.  The only assumption on the environment is the
    contract on f64 printing ([printer]), which Quad's square root needs. *)
From Coq Require Import ZArith Reals List Bool Lia Lra.
From Flocq Require Import Core IEEE754.BinarySingleNaN.
From Verif Require Import SqrtProofs RN F64 F64Facts Prim DoubleM QuadM AlgM TransM ConstM Spec Exact QuadSpec DAddProofs DMulProofs QAccThms QGeoAcc QLoose QLOps QExprSpec QExprProofs SinReduce SinThms FromProofs Printer ConstProofs QHypThms P_QLn QTrigOps QTrigMain.
Import ListNotations.
Local Open Scope R_scope.

Theorem C102_quad_sin : forall lm dbg x, printer lm -> QNorm x \/ QNormW x -> bpow radix2 (-290) <= Rabs (QV x) <= 31 / 10 ->
  exists r, q_sin lm dbg x = Val r /\ QFin r /\ Rabs (QV r - sin (QV x)) <= bpow radix2 (-87).
Proof.
  intros lm dbg x PR N H. destruct (q_sin_ok lm dbg x PR (conj (norms_geoS x N) H)) as (r & A & B & C).
  exists r. split; [exact A|]. split; [eapply QB_fin; exact B|exact C].
Qed.
Print Assumptions C102_quad_sin.

Theorem C102_quad_cos : forall lm dbg x, printer lm -> QNorm x \/ QNormW x -> bpow radix2 (-290) <= Rabs (QV x) <= 31 / 10 ->
  exists r, q_cos lm dbg x = Val r /\ QFin r /\ Rabs (QV r - cos (QV x)) <= bpow radix2 (-87).
Proof.
  intros lm dbg x PR N H. destruct (q_cos_ok lm dbg x PR (conj (norms_geoS x N) H)) as (r & A & B & C).
  exists r. split; [exact A|]. split; [eapply QB_fin; exact B|exact C].
Qed.
Print Assumptions C102_quad_cos.

Theorem C102_quad_sin_cos : forall lm dbg x, printer lm -> QNorm x \/ QNormW x -> bpow radix2 (-290) <= Rabs (QV x) <= 31 / 10 ->
  exists s c, q_sin_cos lm dbg x = Val (s, c) /\ QFin s /\ QFin c /\
    Rabs (QV s - sin (QV x)) <= bpow radix2 (-87) /\ Rabs (QV c - cos (QV x)) <= bpow radix2 (-87) /\
    Rabs (QV s * QV s + QV c * QV c - 1) <= bpow radix2 (-84).
Proof.
  intros lm dbg x PR N H. destruct (q_sin_cos_ok lm dbg x PR (conj (norms_geoS x N) H)) as (s & c & A & B & C & D & E).
  exists s, c. split; [exact A|]. split; [eapply QB_fin; exact B|]. split; [eapply QB_fin; exact C|]. split; [exact D|]. split; [exact E|].
  destruct (sc1 (QV x)) as [S1 C1]. assert (I := sin2_cos2 (QV x)). unfold Rsqr in I. set (S := sin (QV x)) in *. set (K := cos (QV x)) in *.
  assert (B84 : bpow radix2 (-84) = 8 * bpow radix2 (-87)) by exact (bp_split (-87) 3 ltac:(lia)). rewrite B84.
  assert (P9 : 0 < bpow radix2 (-87) <= / 1000000000) by (split; [apply bpow_gt_0|]; apply Rle_trans with (bpow radix2 (-30)); [apply bpow_le; lia|change (bpow radix2 (-30)) with (/ 1073741824); lra]).
  set (q := bpow radix2 (-87)) in *. clearbody q. set (a := QV s) in *. set (b := QV c) in *.
  replace (a * a + b * b - 1) with ((a - S) * (2 * S + (a - S)) + (b - K) * (2 * K + (b - K))) by (rewrite <- I; ring).
  assert (G : forall e t, Rabs e <= q -> Rabs t <= 1 -> Rabs (e * (2 * t + e)) <= q * 3).
  { intros e t He Ht. apply prod_le; [exact He|]. eapply Rle_trans; [apply Rabs_triang|]. rewrite Rabs_mult, (Rabs_pos_eq 2) by lra. lra. }
  eapply Rle_trans; [apply Rabs_triang|]. assert (G1 := G _ _ D S1). assert (G2 := G _ _ E C1). lra.
Qed.
Print Assumptions C102_quad_sin_cos.

(** larger arguments: full turns are subtracted, and the absolute error grows with |x| *)
Theorem C102_quad_sin_turns : forall lm dbg x, printer lm -> QNorm x \/ QNormW x -> bpow radix2 (-290) <= Rabs (QV x) <= bpow radix2 20 ->
  exists r, q_sin lm dbg x = Val r /\ QFin r /\ Rabs (QV r - sin (QV x)) <= (Rabs (QV x) + 8) * bpow radix2 (-89).
Proof.
  intros lm dbg x PR N H. destruct (q_sin_far lm dbg x PR (conj (norms_geoS x N) H)) as (r & A & B & C).
  exists r. split; [exact A|]. split; [eapply QB_fin; exact B|exact C].
Qed.
Print Assumptions C102_quad_sin_turns.
Theorem C102_quad_cos_turns : forall lm dbg x, printer lm -> QNorm x \/ QNormW x -> bpow radix2 (-290) <= Rabs (QV x) <= bpow radix2 20 ->
  exists r, q_cos lm dbg x = Val r /\ QFin r /\ Rabs (QV r - cos (QV x)) <= (Rabs (QV x) + 8) * bpow radix2 (-89).
Proof.
  intros lm dbg x PR N H. destruct (q_cos_far lm dbg x PR (conj (norms_geoS x N) H)) as (r & A & B & C).
  exists r. split; [exact A|]. split; [eapply QB_fin; exact B|exact C].
Qed.
Print Assumptions C102_quad_cos_turns.
Theorem C102_quad_sin_cos_turns : forall lm dbg x, printer lm -> QNorm x \/ QNormW x -> bpow radix2 (-290) <= Rabs (QV x) <= bpow radix2 20 ->
  exists s c, q_sin_cos lm dbg x = Val (s, c) /\ QFin s /\ QFin c /\
    Rabs (QV s - sin (QV x)) <= (Rabs (QV x) + 8) * bpow radix2 (-89) /\ Rabs (QV c - cos (QV x)) <= (Rabs (QV x) + 8) * bpow radix2 (-89).
Proof.
  intros lm dbg x PR N H. destruct (q_sin_cos_far lm dbg x PR (conj (norms_geoS x N) H)) as (s & c & A & B & C & D & E).
  exists s, c. split; [exact A|]. split; [eapply QB_fin; exact B|]. split; [eapply QB_fin; exact C|]. split; [exact D|exact E].
Qed.
Print Assumptions C102_quad_sin_cos_turns.

(** away from the zeros and poles tan has a small relative error *)
Theorem C102_quad_tan : forall lm dbg x, printer lm -> QNorm x \/ QNormW x -> bpow radix2 (-290) <= Rabs (QV x) <= 31 / 10 ->
  / 32 <= Rabs (sin (QV x)) -> / 32 <= Rabs (cos (QV x)) ->
  exists r, q_tan lm dbg x = Val r /\ QTame r /\ Rabs (QV r - tan (QV x)) <= bpow radix2 (-80) * Rabs (tan (QV x)).
Proof.
  intros lm dbg x PR N H HS HC. destruct (q_tan_ok lm dbg x PR (conj (norms_geoS x N) H) HS HC) as (r & A & B & C).
  exists r. split; [exact A|]. split; [|exact C]. apply L_tame with (2 := B); lra.
Qed.
Print Assumptions C102_quad_tan.

(** the same over full turns, with the growing error *)
Theorem C102_quad_tan_turns : forall lm dbg x, printer lm -> QNorm x \/ QNormW x -> bpow radix2 (-290) <= Rabs (QV x) <= bpow radix2 20 ->
  / 32 <= Rabs (sin (QV x)) -> / 32 <= Rabs (cos (QV x)) ->
  exists r, q_tan lm dbg x = Val r /\ QTame r /\ Rabs (QV r - tan (QV x)) <= (Rabs (QV x) + 8) * bpow radix2 (-82) * Rabs (tan (QV x)).
Proof.
  intros lm dbg x PR N H HS HC. destruct (q_tan_far lm dbg x PR (conj (norms_geoS x N) H) HS HC) as (r & A & B & C).
  exists r. split; [exact A|]. split; [|exact C]. apply L_tame with (2 := B); lra.
Qed.
Print Assumptions C102_quad_tan_turns.

(** the contract on f64 printing is met by a concrete library *)
Theorem C102_contract : forall lm, printer (with_printer lm).
Proof. exact with_printer_ok. Qed.
Print Assumptions C102_contract.

(** the constant pi/4 (four nonzero components) is in the domain of all four *)
Example C102_quarter : QNorm Q_FRAC_PI_4 /\ bpow radix2 (-290) <= Rabs (QV Q_FRAC_PI_4) <= 31 / 10 /\
  / 32 <= Rabs (sin (QV Q_FRAC_PI_4)) /\ / 32 <= Rabs (cos (QV Q_FRAC_PI_4)).
Proof.
  destruct q_FRAC_PI_4_ok as [N E]. assert (PB := pi_b). split; [exact N|].
  unfold approx in E. change (IZR 1) with 1 in E. rewrite Rmult_1_l, (Rabs_pos_eq (PI / 4)) in E by lra.
  assert (B : bpow radix2 (-212) <= / 1024) by (apply Rle_trans with (bpow radix2 (-10)); [apply bpow_le; lia|cbn; lra]).
  assert (K : bpow radix2 (-212) * (PI / 4) <= / 1024 * 1) by (apply Rmult_le_compat; [apply bpow_ge_0|lra|exact B|lra]).
  assert (Y : Rabs (QV Q_FRAC_PI_4 - PI / 4) <= / 1024) by lra.
  assert (LS := sin_lip (QV Q_FRAC_PI_4) (PI / 4)). assert (LC := cos_lip (QV Q_FRAC_PI_4) (PI / 4)).
  assert (S4 : / 2 <= sin (PI / 4)). { assert (K6 := sin_PI6). assert (K7 : sin (PI / 6) < sin (PI / 4)) by (apply sin_increasing_1; lra). lra. }
  rewrite cos_PI4, <- sin_PI4 in LC.
  assert (Y' := Rabs_le_inv _ _ Y). split.
  - rewrite Rabs_pos_eq by lra. split; [|lra]. apply Rle_trans with (bpow radix2 (-1)); [apply bpow_le; lia|cbn; lra].
  - assert (LS' := Rabs_le_inv _ _ (Rle_trans _ _ _ LS Y)). assert (LC' := Rabs_le_inv _ _ (Rle_trans _ _ _ LC Y)). rewrite !Rabs_pos_eq by lra. lra.
Qed.
Print Assumptions C102_quarter.

(** 1000, which is 159 turns away, is in the domain of the general statements *)
Definition w_thousand : Quad := mkQ (fofZ 1000) f0 f0 f0.
Example C102_thousand : forall lm dbg, exists r, q_sin (with_printer lm) dbg w_thousand = Val r /\ Rabs (QV r - sin 1000) <= bpow radix2 (-79).
Proof.
  intros lm dbg. destruct (fofZ_exact 1000 ltac:(lia)) as [F E0].
  assert (E : QV w_thousand = 1000). { unfold QV, w_thousand. cbn [q0 q1 q2 q3]. rewrite E0, V_0. ring. }
  destruct (C102_quad_sin_turns (with_printer lm) dbg w_thousand (with_printer_ok lm)) as (r & A & _ & B).
  - left. apply qnormx_ok. vm_compute. reflexivity.
  - rewrite E, Rabs_pos_eq by lra. split; [apply Rle_trans with (bpow radix2 0); [apply bpow_le; lia|cbn; lra]|cbn; lra].
  - exists r. split; [exact A|]. rewrite E in B. apply Rle_trans with (1 := B). rewrite Rabs_pos_eq by lra.
    assert (B79 : bpow radix2 (-79) = 1024 * bpow radix2 (-89)) by exact (bp_split (-89) 10 ltac:(lia)). rewrite B79. apply Rmult_le_compat_r; [apply bpow_ge_0|lra].
Qed.
Print Assumptions C102_thousand.

Example C102_tan_thousand : QNorm w_thousand /\ QV w_thousand = 1000 /\ / 32 <= Rabs (sin 1000) /\ / 32 <= Rabs (cos 1000).
Proof.
  destruct (fofZ_exact 1000 ltac:(lia)) as [F E0]. assert (PB := pi_b).
  split; [apply qnormx_ok; vm_compute; reflexivity|]. split; [unfold QV, w_thousand; cbn [q0 q1 q2 q3]; rewrite E0, V_0; ring|].
  assert (J : turn_ok 0) by (unfold turn_ok; lia). assert (S := sin_turns (1000 - 318 * PI) 0 159 J). assert (C := cos_turns (1000 - 318 * PI) 0 159 J).
  cbv [Z.eqb] in S, C. replace (1000 - 318 * PI + IZR 159 * (2 * PI) + IZR 0 * (PI / 2)) with 1000 in S, C by (change (IZR 0) with 0; change (IZR 159) with 159; field).
  assert (K1 : sin (PI / 6) < sin (1000 - 318 * PI)) by (apply sin_increasing_1; lra). rewrite sin_PI6 in K1.
  assert (K2 : cos (PI / 3) < cos (1000 - 318 * PI)) by (apply cos_decreasing_1; lra). rewrite cos_PI3 in K2.
  rewrite ?S, ?C in *. split; (apply Rle_trans with (2 := Rle_abs _)); lra.
Qed.
Print Assumptions C102_tan_thousand.
