(** * Concrete texts: witnesses for the display theorems *)
From Coq Require Import ZArith Reals Lra Lia List Bool String.
From Flocq Require Import Core IEEE754.BinarySingleNaN.
From Verif Require Import RN F64 Prim DoubleM QuadM Spec Exact ParseM ParseSpec DisplayM DisplaySpec DisplayMore.
Import ListNotations.
Local Open Scope string_scope.

(** precision only; ["{:.p}"] *)
Definition with_prec (p : nat) : fmt := mkF (Some p) None 32 None false false false.
(** the text of an outcome, for computing *)
Definition otext (o : outcome text) : option text := match o with Val t => Some t | Panicked => None end.
Lemma otext_val o t : otext o = Some t -> o = Val t. Proof. destruct o; cbn; congruence. Qed.
Lemma otext_panic o : otext o = None -> o = Panicked. Proof. destruct o; cbn; congruence. Qed.

(** 1.0999999999999999928..., 1000 - 2^-44, 9.96875, 2^-1074, 2^-1030 *)
Definition w_11 : Double := mkD (f2pow 4953959590107546 (-52)) (f2pow (-3895613677675479) (-105)).
Definition w_1000 : Double := mkD (fofZ 1000) (f2pow (-1) (-44)).
Definition w_9968 : Double := mkD (f2pow 319 (-5)) f0.
Definition w_min : Double := mkD (f2pow 1 (-1074)) f0.
Definition w_1030 : Double := mkD (f2pow 1 (-1030)) f0.
Lemma disp_by x k lm dbg f t : dec_exp lm (fabs (d0 x)) = k -> d0 (d_abs x) = fabs (d0 x) -> dec_exp (lmx k) (d0 (d_abs x)) = k ->
  otext (d_display (lmx k) dbg x f) = t -> otext (d_display lm dbg x f) = t.
Proof. intros H E K <-. f_equal. unfold d_display. apply display_dep. cbn [s_hi s_abs d_disp]. now rewrite K, E. Qed.
Lemma disp_exp_by x k lm dbg mk f t : dec_exp lm (fabs (d0 x)) = k -> d0 (d_abs x) = fabs (d0 x) -> dec_exp (lmx k) (d0 (d_abs x)) = k ->
  otext (display_exp d_disp (lmx k) dbg mk x f) = t -> otext (display_exp d_disp lm dbg mk x f) = t.
Proof. intros H E K <-. f_equal. apply display_exp_dep; cbn [s_hi s_abs d_disp]; [now rewrite K, E|now rewrite <- E, K, E]. Qed.

Lemma w_11_norm : DNorm w_11. Proof. apply dnormx_ok; vm_compute; reflexivity. Qed.
Lemma w_1000_norm : DNorm w_1000. Proof. apply dnormx_ok; vm_compute; reflexivity. Qed.
Lemma w_9968_norm : DNorm w_9968. Proof. apply dnormx_ok; vm_compute; reflexivity. Qed.
Lemma w_min_norm : DNorm w_min. Proof. apply dnormx_ok; vm_compute; reflexivity. Qed.

Lemma w_11_text lm dbg : dec_exp lm (fabs (d0 w_11)) = 0%Z -> d_display lm dbg w_11 f_default = Val (txt "1.010").
Proof. intros H. apply otext_val, (disp_by _ 0); [exact H|apply abs_hi; reflexivity|vm_compute; reflexivity|destruct dbg; vm_compute; reflexivity]. Qed.
Lemma w_11_text5 lm dbg : dec_exp lm (fabs (d0 w_11)) = 0%Z -> d_display lm dbg w_11 (with_prec 5) = Val (txt "1.010000").
Proof. intros H. apply otext_val, (disp_by _ 0); [exact H|apply abs_hi; reflexivity|vm_compute; reflexivity|destruct dbg; vm_compute; reflexivity]. Qed.
Lemma w_1000_text lm dbg : dec_exp lm (fabs (d0 w_1000)) = 3%Z -> d_display lm dbg w_1000 f_default = Val (txt "0100.0").
Proof. intros H. apply otext_val, (disp_by _ 3); [exact H|apply abs_hi; reflexivity|vm_compute; reflexivity|destruct dbg; vm_compute; reflexivity]. Qed.
Lemma w_9968_text lm dbg : dec_exp lm (fabs (d0 w_9968)) = 0%Z -> d_lower_exp lm dbg w_9968 (with_prec 1) = Val (txt "10.0e0").
Proof. intros H. apply otext_val, (disp_exp_by _ 0); [exact H|apply abs_hi; reflexivity|vm_compute; reflexivity|destruct dbg; vm_compute; reflexivity]. Qed.
Lemma w_min_panic lm dbg f : dec_exp lm (fabs (d0 w_min)) = (-324)%Z -> d_display lm dbg w_min f = Panicked.
Proof.
  intros H. apply otext_panic. apply (disp_by _ (-324)); [exact H|apply abs_hi; reflexivity|vm_compute; reflexivity|destruct f as [? ? ? ? [] ? ?], dbg; vm_compute; reflexivity].
Qed.
(** a finite nonzero number printed as zero: the text has no digit but 0 *)
Lemma w_1030_zero lm dbg : dec_exp lm (fabs (d0 w_1030)) = (-311)%Z ->
  exists t, d_display lm dbg w_1030 f_default = Val t /\ forallb (fun c => (c =? 48) || (c =? 46))%Z t = true.
Proof.
  intros H. assert (E : exists t, otext (d_display (lmx (-311)) dbg w_1030 f_default) = Some t /\ forallb (fun c => (c =? 48) || (c =? 46))%Z t = true).
  { destruct dbg; eexists; split; vm_compute; reflexivity. }
  destruct E as [t [E F]]. exists t. split; [|exact F]. apply otext_val, (disp_by _ (-311)); [exact H|apply abs_hi; reflexivity|vm_compute; reflexivity|exact E].
Qed.
(** Quad::from(Double) through the text *)
Definition q_is (q : Quad) (n : Z) : bool := feqb (q0 q) (fofZ n).
Lemma w_1000_quad lm dbg : dec_exp lm (fabs (d0 w_1000)) = 3%Z -> exists q, q_from_double lm dbg w_1000 = Val q /\ q_is q 100 = true.
Proof.
  intros H. assert (E : match (let* r := from_str q_ops dbg (txt "0100.0") in unwrap r) with Val q => q_is q 100 | _ => false end = true) by (destruct dbg; vm_compute; reflexivity).
  unfold q_from_double. rewrite (w_1000_text lm dbg H). cbn [obind]. destruct (let* r := from_str q_ops dbg (txt "0100.0") in unwrap r) as [q|] eqn:K; [|discriminate]. eauto.
Qed.
Definition d_is (q : Double) (n : Z) : bool := feqb (d0 q) (fofZ n).
Lemma w_1000_back dbg : exists r, from_str d_ops dbg (txt "0100.0") = Val (POk r) /\ d_is r 100 = true.
Proof.
  assert (E : match from_str d_ops dbg (txt "0100.0") with Val (POk q) => d_is q 100 | _ => false end = true) by (destruct dbg; vm_compute; reflexivity).
  destruct (from_str d_ops dbg (txt "0100.0")) as [[q|]|] eqn:K; try discriminate. eauto.
Qed.
