(** * The angle of a point, and how it moves with the point *)
From Coq Require Import ZArith Reals Lra Lia.
From Flocq Require Import Core.
From Verif Require Import RN Spec AbsOps ConstProofs SinThms.
Local Open Scope R_scope.

(** atan2 on the reals: the angle in (-PI, PI] of the point (x, y) *)
Definition ratan2 (y x : R) : R :=
  if Rlt_dec 0 x then atan (y / x)
  else if Rlt_dec x 0 then if Rle_dec 0 y then atan (y / x) + PI else atan (y / x) - PI
  else if Rlt_dec 0 y then PI / 2 else if Rlt_dec y 0 then - (PI / 2) else 0.

Definition polar (y x t : R) : Prop := - PI < t <= PI /\ exists r, 0 < r /\ y = r * sin t /\ x = r * cos t.

Lemma polar_sqrt y x t : polar y x t -> 0 < x * x + y * y /\ y = sqrt (x * x + y * y) * sin t /\ x = sqrt (x * x + y * y) * cos t.
Proof.
  intros [_ (r & Pr & -> & ->)]. assert (U := sin2_cos2 t). unfold Rsqr in U.
  assert (E : r * cos t * (r * cos t) + r * sin t * (r * sin t) = r * r) by (transitivity (r * r * (sin t * sin t + cos t * cos t)); [ring|rewrite U; ring]).
  rewrite E, sqrt_square by lra. split; [nra|]. auto.
Qed.
Lemma atan_polar t k : 0 < k -> k * t = (k * sqrt (1 + t * t)) * sin (atan t) /\ k = (k * sqrt (1 + t * t)) * cos (atan t).
Proof.
  intros Pk. rewrite sin_atan, cos_atan. unfold Rsqr. assert (P : 0 < sqrt (1 + t * t)) by (apply sqrt_lt_R0; nra). split; field; lra.
Qed.
Lemma ratan2_polar y x : x <> 0 \/ y <> 0 -> polar y x (ratan2 y x).
Proof.
  intros H. assert (P := PI_RGT_0). unfold ratan2. assert (B := atan_bound (y / x)).
  destruct (Rlt_dec 0 x) as [X|X].
  { destruct (atan_polar (y / x) x X) as [K1 K2]. split; [lra|]. exists (x * sqrt (1 + y / x * (y / x))).
    split; [apply Rmult_lt_0_compat; [exact X|apply sqrt_lt_R0; nra]|]. split; [rewrite <- K1; field; lra|exact K2]. }
  destruct (Rlt_dec x 0) as [X'|X'].
  { destruct (atan_polar (y / x) (- x) ltac:(lra)) as [K1 K2]. set (t := y / x) in *. set (r := - x * sqrt (1 + t * t)) in *.
    assert (Pr : 0 < r) by (apply Rmult_lt_0_compat; [lra|apply sqrt_lt_R0; nra]).
    assert (Ey : y = - (r * sin (atan t))) by (rewrite <- K1; unfold t; field; lra). assert (Ex : x = - (r * cos (atan t))) by lra.
    destruct (Rle_dec 0 y) as [Y|Y].
    - assert (S : sin (atan t) <= 0) by nra. assert (T : atan t <= 0).
      { destruct (Rle_or_lt (atan t) 0) as [L|L]; [exact L|]. assert (Q := sin_gt_0 (atan t) L ltac:(lra)). lra. }
      split; [lra|]. exists r. split; [exact Pr|]. rewrite neg_sin, neg_cos. split; lra.
    - assert (S : 0 < sin (atan t)) by nra. assert (T : 0 < atan t).
      { destruct (Rle_or_lt (atan t) 0) as [L|L]; [|exact L]. destruct L as [L|L]; [assert (Q := sin_lt_0_var (atan t) ltac:(lra) L)|rewrite L, sin_0 in S]; lra. }
      split; [lra|]. exists r. split; [exact Pr|]. replace (atan t - PI) with (- (PI - atan t)) by ring.
      rewrite sin_neg, cos_neg, sin_PI_x. replace (PI - atan t) with (- atan t + PI) by ring. rewrite neg_cos, cos_neg. split; lra. }
  assert (X0 : x = 0) by lra. subst x. destruct (Rlt_dec 0 y) as [Y|Y]; [|destruct (Rlt_dec y 0) as [Y'|Y']].
  - split; [lra|]. exists y. rewrite sin_PI2, cos_PI2. split; [exact Y|]. split; ring.
  - split; [lra|]. exists (- y). rewrite sin_neg, cos_neg, sin_PI2, cos_PI2. split; [lra|]. split; ring.
  - exfalso. destruct H; lra.
Qed.

Lemma polar_pos y x t : polar y x t -> 0 < y -> 0 < t < PI.
Proof.
  intros [B (r & Pr & Ey & _)] Y. assert (P := PI_RGT_0). assert (S : 0 < sin t) by nra. split.
  - destruct (Rle_or_lt t 0) as [L|L]; [|exact L]. destruct L as [L|L]; [assert (Q := sin_lt_0_var t ltac:(lra) L)|rewrite L, sin_0 in S]; lra.
  - destruct (Rle_lt_or_eq_dec _ _ (proj2 B)) as [L|L]; [exact L|]. rewrite L, sin_PI in S. lra.
Qed.
Lemma polar_opp y x t : polar y x t -> y <> 0 -> polar (- y) x (- t).
Proof.
  intros [B (r & Pr & Ey & Ex)] NY. assert (T : t <> PI) by (intros ->; apply NY; rewrite Ey, sin_PI; ring).
  split; [lra|]. exists r. split; [exact Pr|]. rewrite sin_neg, cos_neg. split; lra.
Qed.
Lemma sin_small_inv d : Rabs d < PI / 2 -> Rabs (sin d) <= / 20 -> Rabs d <= 1003 / 1000 * Rabs (sin d).
Proof.
  intros H S. destruct (Rle_or_lt (Rabs d) (/ 10)) as [L|L]; [assert (K := sin_lower d L); assert (K0 := Rabs_pos (sin d)); lra|]. exfalso.
  assert (P := PI_RGT_0). assert (P3 : 3 < PI) by consts. assert (K : sin (/ 10) < sin (Rabs d)) by (apply sin_increasing_1; lra).
  assert (K2 := sin_lower (/ 10) ltac:(rewrite Rabs_pos_eq; lra)). rewrite (Rabs_pos_eq (/ 10)) in K2 by lra.
  assert (Q : 0 < sin (/ 10)) by (apply sin_gt_0; lra). rewrite (Rabs_pos_eq (sin (/ 10))) in K2 by lra.
  assert (E : sin (Rabs d) = Rabs (sin d)).
  { unfold Rabs at 1. destruct (Rcase_abs d) as [C|C].
    - rewrite Rabs_left in H by exact C. rewrite sin_neg. assert (Z := sin_lt_0_var d ltac:(lra) C). rewrite Rabs_left by exact Z. reflexivity.
    - rewrite Rabs_pos_eq in H by lra. rewrite Rabs_pos_eq; [reflexivity|]. apply sin_ge_0; lra. }
  lra.
Qed.

(** moving both coordinates by a relative amount e *)
Lemma polar_near y x t y' x' t' e : polar y x t -> polar y' x' t' -> y <> 0 -> 0 <= e <= / 100 -> Rabs (y' - y) <= e * Rabs y -> Rabs (x' - x) <= e * Rabs x ->
  Rabs (t' - t) <= 203 / 100 * e * (Rabs (sin t) * Rabs (cos t)).
Proof.
  assert (G : forall y x t y' x' t' e, polar y x t -> polar y' x' t' -> 0 < y -> 0 <= e <= / 100 -> Rabs (y' - y) <= e * Rabs y -> Rabs (x' - x) <= e * Rabs x ->
    Rabs (t' - t) <= 203 / 100 * e * (Rabs (sin t) * Rabs (cos t))).
  { clear. intros y x t y' x' t' e H H' Y He Ey Ex. assert (P := PI_RGT_0).
    assert (EB : e * Rabs y <= / 100 * Rabs y) by (apply Rmult_le_compat_r; [apply Rabs_pos|lra]). rewrite (Rabs_pos_eq y) in Ey, EB by lra. assert (Ey' := Rabs_def2' _ _ Ey).
    assert (T := polar_pos _ _ _ H Y). assert (T' := polar_pos _ _ _ H' ltac:(lra)).
    destruct H as [_ (r & Pr & -> & ->)]. destruct H' as [_ (r' & Pr' & -> & ->)].
    rewrite Rabs_mult, (Rabs_pos_eq r) in Ex by lra.
    assert (Ss : 0 < sin t) by (apply sin_gt_0; lra).
    assert (RR : 99 / 100 * r <= r').
    { assert (A1 : 99 / 100 * (r * sin t) <= r' * sin t') by lra.
      assert (A2 : 99 / 100 * (r * Rabs (cos t)) <= r' * Rabs (cos t')).
      { assert (Q : e * (r * Rabs (cos t)) <= / 100 * (r * Rabs (cos t))) by (apply Rmult_le_compat_r; [apply Rmult_le_pos; [lra|apply Rabs_pos]|lra]).
        replace (r' * Rabs (cos t')) with (Rabs (r' * cos t')) by (rewrite Rabs_mult, Rabs_pos_eq by lra; reflexivity).
        assert (Q2 : Rabs (r * cos t) <= Rabs (r' * cos t') + Rabs (r' * cos t' - r * cos t)).
        { replace (r * cos t) with (r' * cos t' + - (r' * cos t' - r * cos t)) at 1 by ring. eapply Rle_trans; [apply Rabs_triang|]. rewrite Rabs_Ropp. lra. }
        rewrite (Rabs_mult r), (Rabs_pos_eq r) in Q2 by lra. lra. }
      assert (U := sin2_cos2 t). assert (U' := sin2_cos2 t'). rewrite (Rsqr_abs (cos t)) in U. rewrite (Rsqr_abs (cos t')) in U'. unfold Rsqr in U, U'.
      assert (C0 := Rabs_pos (cos t)). assert (Ss' : 0 < sin t') by (apply sin_gt_0; lra). assert (C0' := Rabs_pos (cos t')).
      destruct (Rle_or_lt (99 / 100 * r) r') as [L|L]; [exact L|]. exfalso.
      assert (B1 : (99 / 100 * (r * sin t)) * (99 / 100 * (r * sin t)) <= (r' * sin t') * (r' * sin t')) by (apply Rmult_le_compat; try apply Rmult_le_pos; try lra; apply Rmult_le_pos; lra).
      assert (B2 : (99 / 100 * (r * Rabs (cos t))) * (99 / 100 * (r * Rabs (cos t))) <= (r' * Rabs (cos t')) * (r' * Rabs (cos t'))) by (apply Rmult_le_compat; try apply Rmult_le_pos; try lra; apply Rmult_le_pos; lra).
      assert (B3 : (99 / 100 * r) * (99 / 100 * r) <= r' * r').
      { replace ((99 / 100 * r) * (99 / 100 * r)) with ((99 / 100 * (r * sin t)) * (99 / 100 * (r * sin t)) + (99 / 100 * (r * Rabs (cos t))) * (99 / 100 * (r * Rabs (cos t)))).
        - replace (r' * r') with ((r' * sin t') * (r' * sin t') + (r' * Rabs (cos t')) * (r' * Rabs (cos t'))); [lra|].
          transitivity (r' * r' * (sin t' * sin t' + Rabs (cos t') * Rabs (cos t'))); [ring|rewrite U'; ring].
        - transitivity (99 / 100 * r * (99 / 100 * r) * (sin t * sin t + Rabs (cos t) * Rabs (cos t))); [ring|rewrite U; ring]. }
      assert (B4 : r' * r' < (99 / 100 * r) * (99 / 100 * r)) by (apply Rmult_le_0_lt_compat; lra). lra. }
    assert (SD : r * r' * sin (t' - t) = (r' * sin t' - r * sin t) * (r * cos t) - (r' * cos t' - r * cos t) * (r * sin t)) by (rewrite sin_minus; ring).
    assert (CD : r * r' * cos (t' - t) = (r' * cos t') * (r * cos t) + (r' * sin t') * (r * sin t)) by (rewrite cos_minus; ring).
    set (K := r * Rabs (cos t)) in *. set (L := r * sin t) in *.
    assert (KP : 0 <= K) by (apply Rmult_le_pos; [lra|apply Rabs_pos]).
    assert (KC : Rabs (r * cos t) = K) by (unfold K; rewrite Rabs_mult, Rabs_pos_eq by lra; reflexivity).
    assert (B : Rabs (r * r' * sin (t' - t)) <= 2 * e * (K * L)).
    { rewrite SD. unfold Rminus at 1. eapply Rle_trans; [apply Rabs_triang|]. rewrite Rabs_Ropp, (Rabs_mult _ (r * cos t)), (Rabs_mult _ L), KC. fold L in Ey. rewrite (Rabs_pos_eq L) by lra.
      apply Rle_trans with (e * L * K + e * K * L); [|lra]. apply Rplus_le_compat; apply Rmult_le_compat_r; lra. }
    rewrite Rabs_mult, (Rabs_pos_eq (r * r')) in B by (apply Rmult_le_pos; lra).
    assert (SB : Rabs (sin (t' - t)) <= 2021 / 1000 * e * (Rabs (cos t) * sin t)).
    { apply Rmult_le_reg_l with (r * r'); [apply Rmult_lt_0_compat; lra|]. apply Rle_trans with (1 := B).
      replace (r * r' * (2021 / 1000 * e * (Rabs (cos t) * sin t))) with (e * (Rabs (cos t) * sin t * r) * (2021 / 1000 * r')) by ring.
      replace (2 * e * (K * L)) with (e * (Rabs (cos t) * sin t * r) * (2 * r)) by (unfold K, L; ring).
      apply Rmult_le_compat_l; [|lra]. apply Rmult_le_pos; [lra|]. apply Rmult_le_pos; [apply Rmult_le_pos; [apply Rabs_pos|lra]|lra]. }
    assert (CP : 0 < cos (t' - t)).
    { apply Rmult_lt_reg_l with (r * r'); [apply Rmult_lt_0_compat; lra|]. rewrite Rmult_0_r, CD.
      assert (PL : 0 < L) by (apply Rmult_lt_0_compat; lra).
      assert (Q1 : 0 < r' * sin t' * L) by (apply Rmult_lt_0_compat; lra).
      assert (Q2 : 0 <= r' * cos t' * (r * cos t)); [|lra].
      assert (Q3 : e * K <= / 100 * K) by (apply Rmult_le_compat_r; lra). assert (Ex' := Rabs_def2' _ _ Ex).
      unfold K in *. unfold Rabs in Ex', Q3 |- *. destruct (Rcase_abs (cos t)) as [C|C].
      - assert (r * cos t < 0) by nra. assert (r' * cos t' <= 0) by lra. nra.
      - assert (0 <= r * cos t) by (apply Rmult_le_pos; lra). assert (0 <= r' * cos t') by lra. apply Rmult_le_pos; lra. }
    assert (D : Rabs (t' - t) < PI / 2).
    { destruct (Rlt_or_le (Rabs (t' - t)) (PI / 2)) as [Q|Q]; [exact Q|]. exfalso. assert (Z : cos (Rabs (t' - t)) <= 0).
      { apply cos_le_0; [exact Q|]. assert (Rabs (t' - t) <= PI) by (apply Rabs_le; lra). lra. }
      unfold Rabs in Z. destruct (Rcase_abs (t' - t)); [rewrite cos_neg in Z|]; lra. }
    destruct (SIN_bound t) as [_ S1]. destruct (COS_bound t) as [C1 C2]. assert (CA : Rabs (cos t) <= 1) by (apply Rabs_le; lra).
    assert (SC : 0 <= Rabs (cos t) * sin t <= 1) by (assert (C0 := Rabs_pos (cos t)); split; [apply Rmult_le_pos; lra|nra]).
    assert (QQ : 2021 / 1000 * e * (Rabs (cos t) * sin t) <= / 20).
    { apply Rle_trans with (2021 / 1000 * e * 1); [apply Rmult_le_compat_l; lra|lra]. }
    assert (F := sin_small_inv _ D ltac:(lra)). rewrite (Rabs_pos_eq (sin t)) by lra.
    apply Rle_trans with (1 := F). rewrite (Rmult_comm (sin t)). assert (0 <= e * (Rabs (cos t) * sin t)) by (apply Rmult_le_pos; lra). lra. }
  intros H H' NY He Ey Ex. destruct (Rlt_or_le 0 y) as [Y|Y]; [eapply G; eassumption|].
  assert (Yn : 0 < - y) by lra. assert (NY' : y' <> 0).
  { intros ->. rewrite Rminus_0_l, Rabs_Ropp in Ey. assert (Z := Rabs_pos_lt y NY). assert (e * Rabs y <= / 100 * Rabs y) by (apply Rmult_le_compat_r; lra). lra. }
  assert (K := G _ _ _ _ _ _ e (polar_opp _ _ _ H NY) (polar_opp _ _ _ H' NY') Yn He).
  replace (- y' - - y) with (- (y' - y)) in K by ring. replace (- t' - - t) with (- (t' - t)) in K by ring. rewrite !Rabs_Ropp, sin_neg, cos_neg, Rabs_Ropp in K. auto.
Qed.
Lemma polar_unique y x t t' : polar y x t -> polar y x t' -> y <> 0 -> t = t'.
Proof.
  intros H H' N. assert (K := polar_near y x t y x t' 0 H H' N ltac:(lra)). rewrite !Rminus_diag_eq, Rabs_R0, !Rmult_0_l in K by reflexivity.
  assert (Q := K ltac:(lra) ltac:(lra)). assert (Z : t' - t = 0). { destruct (Req_dec (t' - t) 0) as [E|E]; [exact E|]. assert (Z := Rabs_pos_lt _ E). lra. } lra.
Qed.
