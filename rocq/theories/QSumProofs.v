(** * Accuracy of long Quad sums *)
From Coq Require Import ZArith Reals List Bool Lia Lra.
From Flocq Require Import Core IEEE754.BinarySingleNaN.
From Verif Require Import F64 F64Facts Prim DoubleM QuadM RN Spec EFT QuadSpec QAddAcc QAddThms QGeoAcc FoldSpec FoldProofs.
Import ListNotations.
Local Open Scope R_scope.

Section FoldC.
Variables (A : Type) (P : A -> Prop) (v : A -> R) (d c B : R).
Hypothesis (Hd : 0 <= d) (Hc : 0 <= c).
Variables (add : A -> A -> A).
Hypothesis add_ok : forall x y, P x -> P y -> Rabs (v x) <= 2 * B -> Rabs (v y) <= B ->
  c * (Rabs (v x) + Rabs (v y)) <= Rabs (v x + v y) ->
  P (add x y) /\ Rabs (v (add x y) - (v x + v y)) <= d * (Rabs (v x) + Rabs (v y)).

Lemma fold_sum_steady C l : forall acc L, P acc -> Forall P l ->
  rsum (map Rabs (L ++ map v l)) <= B ->
  INR (length L + length l) * (2 * d) <= 1 ->
  INR (length L + length l) * (2 * d) + 2 * c <= C ->
  (forall l1 l2, l = l1 ++ l2 -> C * rsum (map Rabs (L ++ map v l1)) <= Rabs (rsum (L ++ map v l1))) ->
  Rabs (v acc - rsum L) <= INR (length L) * (2 * d) * rsum (map Rabs L) ->
  P (fold_left add l acc) /\
  Rabs (v (fold_left add l acc) - rsum (L ++ map v l)) <= INR (length L + length l) * (2 * d) * rsum (map Rabs (L ++ map v l)).
Proof.
  induction l as [|x l IH]; intros acc L Pa Pl HB Hn HC HS E; cbn [fold_left map length].
  { rewrite app_nil_r, Nat.add_0_r. split; assumption. }
  inversion Pl as [|? ? Px Pl']; subst.
  assert (EL : forall m, L ++ v x :: m = (L ++ [v x]) ++ m) by (intros m; rewrite <- app_assoc; reflexivity).
  cbn [map] in HB.
  assert (EN : (length L + S (length l) = length (L ++ [v x]) + length l)%nat) by (rewrite app_length; cbn; lia).
  assert (Nn := rsum_nonneg L). assert (Nl := rsum_nonneg (map v l)).
  assert (HS' : rsum (map Rabs (L ++ v x :: map v l)) = rsum (map Rabs L) + (Rabs (v x) + rsum (map Rabs (map v l)))).
  { rewrite map_app, rsum_app. cbn [map]. rewrite rsum_cons. reflexivity. }
  assert (Px' := Rabs_pos (v x)).
  assert (PL : 0 <= INR (length L)) by apply pos_INR.
  assert (Lnn : INR (length L) * (2 * d) <= INR (length L + length (x :: l)) * (2 * d)).
  { apply Rmult_le_compat_r; [lra|]. apply le_INR. lia. }
  set (n2d := INR (length L) * (2 * d)) in *.
  assert (Pn : 0 <= n2d) by (apply Rmult_le_pos; lra).
  assert (Ba : Rabs (v acc) <= 2 * rsum (map Rabs L)).
  { assert (T := rsum_abs L). assert (n2d * rsum (map Rabs L) <= 1 * rsum (map Rabs L)) by (apply Rmult_le_compat_r; lra).
    replace (v acc) with ((v acc - rsum L) + rsum L) by ring. eapply Rle_trans; [apply Rabs_triang|]. lra. }
  assert (HX := HS [x] l eq_refl). cbn [map] in HX.
  rewrite map_app, !rsum_app in HX. cbn [map] in HX. rewrite !rsum_cons, !rsum_nil, !Rplus_0_r in HX.
  set (T := rsum (map Rabs L) + Rabs (v x)) in *.
  assert (PT : 0 <= T) by (unfold T; lra).
  destruct (add_ok acc x Pa Px) as [Pn' En]; [lra|lra| |].
  { assert (K : Rabs (rsum L + v x) <= Rabs (v acc + v x) + n2d * T).
    { replace (rsum L + v x) with ((v acc + v x) + - (v acc - rsum L)) by ring.
      eapply Rle_trans; [apply Rabs_triang|]. rewrite Rabs_Ropp.
      assert (n2d * rsum (map Rabs L) <= n2d * T) by (apply Rmult_le_compat_l; [exact Pn|unfold T; lra]). lra. }
    assert (K2 : c * (Rabs (v acc) + Rabs (v x)) <= c * (2 * T)) by (apply Rmult_le_compat_l; [exact Hc|unfold T; lra]).
    assert (K3 : (n2d + 2 * c) * T <= C * T) by (apply Rmult_le_compat_r; lra).
    lra. }
  rewrite EL, EN. apply IH; [exact Pn'|exact Pl'|now rewrite <- EL| | | |].
  { rewrite <- EN. exact Hn. }
  { rewrite <- EN. exact HC. }
  { intros l1 l2 ->. rewrite <- EL. apply (HS (x :: l1) l2). reflexivity. }
  rewrite rsum_app, map_app, rsum_app, app_length, plus_INR. cbn [map length INR].
  rewrite !rsum_cons, !rsum_nil, !Rplus_0_r.
  replace (v (add acc x) - (rsum L + v x)) with ((v (add acc x) - (v acc + v x)) + (v acc - rsum L)) by ring.
  eapply Rle_trans; [apply Rabs_triang|].
  assert (d * (Rabs (v acc) + Rabs (v x)) <= d * (2 * rsum (map Rabs L) + Rabs (v x))) by (apply Rmult_le_compat_l; lra).
  assert (0 <= d * Rabs (v x)) by (apply Rmult_le_pos; lra).
  assert (0 <= INR (length L) * (2 * d) * Rabs (v x)) by (apply Rmult_le_pos; [exact Pn|lra]).
  unfold T, n2d in *. lra.
Qed.
End FoldC.

Lemma QGeo_ZERO : QGeo Q_ZERO /\ QV Q_ZERO = 0.
Proof.
  split.
  - split; [repeat split; apply Fin_0|]. cbn [Q_ZERO q0 q1 q2 q3]. rewrite V_0, Rabs_R0. lra.
  - unfold QV, Q_ZERO. cbn [q0 q1 q2 q3]. rewrite V_0. ring.
Qed.

Lemma q_sum_ok l : Forall QGeo l -> rsum (map (fun x => Rabs (QV x)) l) <= bp 998 ->
  INR (length l) * bp (-136) <= bp (-29) -> Steady (bp (-28)) (map QV l) ->
  QGeo (q_sum l) /\
  Rabs (QV (q_sum l) - rsum (map QV l)) <= INR (length l) * bp (-136) * rsum (map (fun x => Rabs (QV x)) l).
Proof.
  intros Hl HB Hn HS. unfold q_sum. destruct QGeo_ZERO as [Z1 Z2].
  assert (EA : map Rabs (map QV l) = map (fun x => Rabs (QV x)) l) by apply map_map.
  assert (E2 : bp (-136) = 2 * bp (-137)) by (change 2 with (bp 1); rewrite <- bpow_plus; reflexivity).
  assert (E29 : bp (-28) = bp (-29) + 2 * bp (-30)).
  { change (bp (-28)) with (/ 268435456). change (bp (-29)) with (/ 536870912). change (bp (-30)) with (/ 1073741824). lra. }
  assert (B29 : bp (-29) <= 1) by (change 1 with (bp 0); apply bpow_le; lia).
  rewrite E2 in *.
  destruct (fold_sum_steady Quad QGeo QV (bp (-137)) (bp (-30)) (bp 998) (bpow_ge_0 _ _) (bpow_ge_0 _ _) q_add) with (C := bp (-28)) (l := l) (acc := Q_ZERO) (L := @nil R) as [K1 K2].
  - intros x y Gx Gy Bx By HC. apply q_add_geo; auto.
    eapply Rle_trans; [exact By|]. apply bpow_le. lia.
  - exact Z1.
  - exact Hl.
  - cbn [app]. now rewrite EA.
  - cbn [length Nat.add]. lra.
  - cbn [length Nat.add]. lra.
  - cbn [app]. intros l1 l2 ->. apply (HS (map QV l1) (map QV l2)). now rewrite map_app.
  - rewrite rsum_nil, Z2. cbn [length INR map]. rewrite Rminus_0_r, Rabs_R0. lra.
  - cbn [app length Nat.add] in K2. rewrite EA in K2. split; [exact K1|exact K2].
Qed.

Lemma rsum_nn l : Forall (fun x => 0 <= x) l -> map Rabs l = l /\ 0 <= rsum l.
Proof.
  induction 1 as [|a l Ha Hl [IH1 IH2]]; cbn [map]; rewrite ?rsum_cons, ?rsum_nil; [split; [reflexivity|lra]|].
  rewrite IH1, Rabs_pos_eq by exact Ha. split; [reflexivity|lra].
Qed.
Lemma rsum_np l : Forall (fun x => x <= 0) l -> rsum (map Rabs l) = - rsum l /\ rsum l <= 0.
Proof.
  induction 1 as [|a l Ha Hl [IH1 IH2]]; cbn [map]; rewrite ?rsum_cons, ?rsum_nil; [split; [ring|lra]|].
  rewrite IH1, Rabs_left1 by exact Ha. split; [ring|lra].
Qed.
Lemma Steady_sign c l : c <= 1 -> Forall (fun x => 0 <= x) l \/ Forall (fun x => x <= 0) l -> Steady c l.
Proof.
  intros Hc H l1 l2 ->. destruct H as [H|H]; apply Forall_app in H as [H _].
  - destruct (rsum_nn l1 H) as [-> K]. rewrite Rabs_pos_eq by exact K.
    rewrite <- (Rmult_1_l (rsum l1)) at 2. apply Rmult_le_compat_r; lra.
  - destruct (rsum_np l1 H) as [-> K]. rewrite Rabs_left1 by exact K.
    rewrite <- (Rmult_1_l (- rsum l1)) at 2. apply Rmult_le_compat_r; lra.
Qed.
