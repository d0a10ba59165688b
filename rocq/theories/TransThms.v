(** * Refutations and small cases for P_Trans *)
From Coq Require Import ZArith Reals Lra Lia List Bool.
From Flocq Require Import Core IEEE754.BinarySingleNaN.
From Verif Require Import RN F64 Prim DoubleM QuadM Spec F64Facts SpecialProofs LawProofs SingleProofs ParseM AlgM ConstM TransM TransProofs TrigProofs TransMore FromProofs Exact.
Import ListNotations.
Local Open Scope R_scope.
Lemma huge_values : DNorm D_HUGE /\ DV D_HUGE = 4504587281683481 * bpow radix2 150 /\ QFin Q_HUGE /\ QV Q_HUGE = 6004799503160661 * bpow radix2 250.
Proof.
  destruct (f2pow_exact 4504587281683481 150) as [F1 E1]; try lia.
  destruct (f2pow_exact 6004799503160661 250) as [F2 E2]; try lia.
  unfold DNorm, DFin, DV, QFin, QV, D_HUGE, Q_HUGE; cbn [d0 d1 q0 q1 q2 q3]. rewrite !V_0, !Rplus_0_r.
  split; [split; [split; [exact F1|reflexivity]|symmetry; apply (rn_id _ (V_fmt _))]|].
  split; [exact E1|]. split; [|exact E2]. split; [exact F2|repeat split].
Qed.
Lemma atan2_refuted lm dbg :
  (exists r, d_atan2 lm dbg D_ONE D_NEG_INFINITY = Val r /\ DV r = 0) /\ d_atan2 lm dbg D_ZERO D_ZERO = Val D_NAN /\
  (exists r, q_atan2 lm dbg Q_ONE Q_NEG_INFINITY = Val r /\ QV r = 0) /\ q_atan2 lm dbg Q_ZERO Q_ZERO = Val Q_NAN.
Proof.
  split; [exists D_ZERO; split; [reflexivity|unfold DV, D_ZERO; cbn [d0 d1]; rewrite V_0; ring]|].
  split; [reflexivity|]. split; [|reflexivity].
  exists Q_ZERO; split; [reflexivity|unfold QV, Q_ZERO; cbn [q0 q1 q2 q3]; rewrite V_0; ring].
Qed.
Lemma powf_refuted lm dbg :
  d_powf lm dbg (mkD fhalf f0) D_INFINITY = Val D_INFINITY /\ d_powf lm dbg D_ZERO D_ZERO = Val D_NAN /\
  q_powf lm dbg (mkQ fhalf f0 f0 f0) Q_INFINITY = Val Q_INFINITY /\ q_powf lm dbg Q_ZERO Q_ZERO = Val Q_NAN.
Proof.
  split; [|split; [reflexivity|split; [|reflexivity]]].
  - destruct (d_powf_special lm dbg) as [_ [_ [_ [_ [_ [H _]]]]]]. apply (H (mkD fhalf f0) ltac:(vm_compute; reflexivity) ltac:(vm_compute; reflexivity) false).
  - destruct (q_powf_special lm dbg) as [_ [_ [_ [_ [_ H]]]]]. apply (H (mkQ fhalf f0 f0 f0) ltac:(vm_compute; reflexivity) ltac:(vm_compute; reflexivity) false).
Qed.
Lemma from_f64_special lm dbg :
  d_from_f64 lm dbg f0 = Val D_ZERO /\ d_from_f64 lm dbg (fneg f0) = Val D_NEG_ZERO /\ d_from_f64 lm dbg fnan = Val D_NAN /\
  d_from_f64 lm dbg finf = Val D_INFINITY /\ d_from_f64 lm dbg fninf = Val D_NEG_INFINITY /\
  q_from_f64 lm dbg f0 = Val Q_ZERO /\ q_from_f64 lm dbg (fneg f0) = Val Q_NEG_ZERO /\ q_from_f64 lm dbg fnan = Val Q_NAN /\
  q_from_f64 lm dbg finf = Val Q_INFINITY /\ q_from_f64 lm dbg fninf = Val Q_NEG_INFINITY.
Proof. repeat split; reflexivity. Qed.
Lemma inv_domain_case lm dbg : d_asin lm dbg (mkD f1 (f2pow 1 (-80))) = Val D_NAN /\ d_acosh lm dbg (mkD f1 (f2pow (-1) (-80))) = Val D_NAN.
Proof.
  assert (P := bpow_gt_0 radix2 (-80)).
  destruct (f2pow_exact 1 (-80)) as [F1 E1]; try lia. destruct (f2pow_exact (-1) (-80)) as [F2 E2]; try lia.
  destruct (d_inv_domain lm dbg) as [A [_ [_ [_ [_ [_ [B _]]]]]]]. split.
  - apply A; [apply dnormx_ok; vm_compute; reflexivity|]. unfold DV; cbn [d0 d1]. rewrite V_1, E1.
    rewrite Rabs_pos_eq; lra.
  - apply B; [apply dnormx_ok; vm_compute; reflexivity|]. unfold DV; cbn [d0 d1]. rewrite V_1, E2. lra.
Qed.
