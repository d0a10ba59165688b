(** * Long sums and products: error growth of a left fold (lemmas) *)
From Coq Require Import ZArith Reals List Bool Lia Lra.
From Flocq Require Import Core.
From Verif Require Import FoldSpec.
Import ListNotations.
Local Open Scope R_scope.

Lemma rsum_cons a l : rsum (a :: l) = a + rsum l. Proof. reflexivity. Qed.
Lemma rprod_cons a l : rprod (a :: l) = a * rprod l. Proof. reflexivity. Qed.
Lemma rsum_nil : rsum [] = 0. Proof. reflexivity. Qed.
Lemma rprod_nil : rprod [] = 1. Proof. reflexivity. Qed.
Lemma rsum_app l m : rsum (l ++ m) = rsum l + rsum m.
Proof. induction l as [|a l IH]; cbn [app]; rewrite ?rsum_cons, ?rsum_nil; [ring|]. rewrite IH. ring. Qed.
Lemma rprod_app l m : rprod (l ++ m) = rprod l * rprod m.
Proof. induction l as [|a l IH]; cbn [app]; rewrite ?rprod_cons, ?rprod_nil; [ring|]. rewrite IH. ring. Qed.
Lemma rsum_abs l : Rabs (rsum l) <= rsum (map Rabs l).
Proof. induction l as [|a l IH]; cbn [map]; rewrite ?rsum_cons, ?rsum_nil; [rewrite Rabs_R0; lra|]. eapply Rle_trans; [apply Rabs_triang|lra]. Qed.
Lemma rsum_nonneg l : 0 <= rsum (map Rabs l).
Proof. induction l as [|a l IH]; cbn [map]; rewrite ?rsum_cons, ?rsum_nil; [lra|]. assert (K := Rabs_pos a). lra. Qed.

Section Fold.
Variables (A : Type) (P : A -> Prop) (v : A -> R) (d B : R).
Hypothesis (Hd : 0 <= d).

(** sums *)
Variables (add : A -> A -> A).
Hypothesis add_ok : forall x y, P x -> P y -> Rabs (v x) <= 2 * B -> Rabs (v y) <= B ->
  P (add x y) /\ Rabs (v (add x y) - (v x + v y)) <= d * (Rabs (v x) + Rabs (v y)).

Lemma fold_sum l : forall acc L, P acc -> Forall P l ->
  rsum (map Rabs (L ++ map v l)) <= B ->
  INR (length L + length l) * (2 * d) <= 1 ->
  Rabs (v acc - rsum L) <= INR (length L) * (2 * d) * rsum (map Rabs L) ->
  P (fold_left add l acc) /\
  Rabs (v (fold_left add l acc) - rsum (L ++ map v l)) <= INR (length L + length l) * (2 * d) * rsum (map Rabs (L ++ map v l)).
Proof.
  induction l as [|x l IH]; intros acc L Pa Pl HB Hn E; cbn [fold_left map length].
  { rewrite app_nil_r, Nat.add_0_r. split; assumption. }
  inversion Pl as [|? ? Px Pl']; subst.
  assert (EL : L ++ v x :: map v l = (L ++ [v x]) ++ map v l) by (rewrite <- app_assoc; reflexivity).
  cbn [map] in HB.
  assert (EN : (length L + S (length l) = length (L ++ [v x]) + length l)%nat) by (rewrite app_length; cbn; lia).
  assert (Nn := rsum_nonneg L). assert (Nl := rsum_nonneg (map v l)).
  assert (HS : rsum (map Rabs (L ++ v x :: map v l)) = rsum (map Rabs L) + (Rabs (v x) + rsum (map Rabs (map v l)))).
  { rewrite map_app, rsum_app. cbn [map]. rewrite rsum_cons. reflexivity. }
  assert (Px' := Rabs_pos (v x)).
  assert (PL : 0 <= INR (length L)) by apply pos_INR.
  assert (Ln : INR (length L) * (2 * d) <= 1).
  { eapply Rle_trans; [|exact Hn]. apply Rmult_le_compat_r; [lra|]. apply le_INR. lia. }
  assert (Ba : Rabs (v acc) <= 2 * rsum (map Rabs L)).
  { assert (T := rsum_abs L). assert (INR (length L) * (2 * d) * rsum (map Rabs L) <= 1 * rsum (map Rabs L)) by (apply Rmult_le_compat_r; lra).
    replace (v acc) with ((v acc - rsum L) + rsum L) by ring. eapply Rle_trans; [apply Rabs_triang|]. lra. }
  destruct (add_ok acc x Pa Px) as [Pn En]; [lra|lra|].
  rewrite EL, EN. apply IH; [exact Pn|exact Pl'|now rewrite <- EL| | ].
  { rewrite <- EN. exact Hn. }
  rewrite rsum_app, map_app, rsum_app, app_length, plus_INR. cbn [map length INR].
  rewrite !rsum_cons, !rsum_nil, !Rplus_0_r.
  replace (v (add acc x) - (rsum L + v x)) with ((v (add acc x) - (v acc + v x)) + (v acc - rsum L)) by ring.
  eapply Rle_trans; [apply Rabs_triang|].
  assert (d * (Rabs (v acc) + Rabs (v x)) <= d * (2 * rsum (map Rabs L) + Rabs (v x))) by (apply Rmult_le_compat_l; lra).
  assert (0 <= d * Rabs (v x)) by (apply Rmult_le_pos; lra).
  assert (0 <= INR (length L) * (2 * d) * Rabs (v x)) by (apply Rmult_le_pos; [apply Rmult_le_pos; lra|lra]).
  lra.
Qed.
End Fold.

Section FoldProd.
Variables (A : Type) (P Pe : A -> Prop) (v : A -> R) (d lo hi : R).
Hypothesis (Hd : 0 <= d).
Hypothesis (Hlo : 0 < lo).
Variables (mul : A -> A -> A).
Hypothesis mul_ok : forall x y, P x -> Pe y -> lo / 2 <= Rabs (v x) <= 2 * hi -> lo / 2 <= Rabs (v x * v y) <= 2 * hi ->
  P (mul x y) /\ Rabs (v (mul x y) - v x * v y) <= d * Rabs (v x * v y).

Lemma fold_prod l : forall acc L, P acc -> Forall Pe l ->
  (forall l1 l2, l = l1 ++ l2 -> lo <= Rabs (rprod (L ++ map v l1)) <= hi) ->
  INR (length L + length l) * (2 * d) <= / 2 ->
  Rabs (v acc - rprod L) <= INR (length L) * (2 * d) * Rabs (rprod L) ->
  P (fold_left mul l acc) /\
  Rabs (v (fold_left mul l acc) - rprod (L ++ map v l)) <= INR (length L + length l) * (2 * d) * Rabs (rprod (L ++ map v l)).
Proof.
  induction l as [|x l IH]; intros acc L Pa Pl HB Hn E; cbn [fold_left map length].
  { rewrite app_nil_r, Nat.add_0_r. split; assumption. }
  inversion Pl as [|? ? Px Pl']; subst.
  assert (EL : L ++ v x :: map v l = (L ++ [v x]) ++ map v l) by (rewrite <- app_assoc; reflexivity).
  assert (EN : (length L + S (length l) = length (L ++ [v x]) + length l)%nat) by (rewrite app_length; cbn; lia).
  assert (PL : 0 <= INR (length L)) by apply pos_INR.
  assert (Ln : INR (length L) * (2 * d) <= / 2).
  { eapply Rle_trans; [|exact Hn]. apply Rmult_le_compat_r; [lra|]. apply le_INR. lia. }
  assert (Ln0 : 0 <= INR (length L) * (2 * d)) by (apply Rmult_le_pos; lra).
  assert (H0 := HB [] (x :: l) eq_refl). cbn [map] in H0. rewrite app_nil_r in H0.
  assert (H1 := HB [x] l eq_refl). cbn [map] in H1. rewrite rprod_app, rprod_cons, rprod_nil, Rmult_1_r in H1.
  set (p := rprod L) in *. set (a := v acc) in *. set (k := INR (length L) * (2 * d)) in *.
  assert (Pp := Rabs_pos p).
  assert (Ek : k * Rabs p <= / 2 * Rabs p) by (apply Rmult_le_compat_r; lra).
  assert (A1 : Rabs a <= (1 + k) * Rabs p) by (replace a with ((a - p) + p) by ring; eapply Rle_trans; [apply Rabs_triang|]; lra).
  assert (A2 : Rabs p <= k * Rabs p + Rabs a) by (replace p with (- (a - p) + a) at 1 by ring; eapply Rle_trans; [apply Rabs_triang|]; rewrite Rabs_Ropp; lra).
  set (y := v x) in *. assert (Py := Rabs_pos y). rewrite Rabs_mult in H1.
  assert (A3 : Rabs a * Rabs y <= (1 + k) * Rabs p * Rabs y) by (apply Rmult_le_compat_r; lra).
  assert (A4 : Rabs p * Rabs y <= (k * Rabs p + Rabs a) * Rabs y) by (apply Rmult_le_compat_r; lra).
  assert (Ppy : 0 <= Rabs p * Rabs y) by (apply Rmult_le_pos; lra).
  assert (A5 : k * (Rabs p * Rabs y) <= / 2 * (Rabs p * Rabs y)) by (apply Rmult_le_compat_r; lra).
  destruct (mul_ok acc x Pa Px) as [Pn En].
  { fold a. lra. }
  { fold a y. rewrite Rabs_mult. lra. }
  fold a y in En.
  rewrite EL, EN. apply IH; [exact Pn|exact Pl'| | | ].
  { intros l1 l2 e. rewrite <- app_assoc. cbn [app]. apply (HB (x :: l1) l2). now rewrite e. }
  { rewrite <- EN. exact Hn. }
  rewrite rprod_app, app_length, plus_INR. cbn [length INR].
  rewrite !rprod_cons, !rprod_nil, !Rmult_1_r. fold p y.
  replace (v (mul acc x) - p * y) with ((v (mul acc x) - a * y) + (a - p) * y) by ring.
  eapply Rle_trans; [apply Rabs_triang|]. rewrite !Rabs_mult in *.
  assert (B1 : Rabs (a - p) * Rabs y <= k * Rabs p * Rabs y) by (apply Rmult_le_compat_r; [lra|exact E]).
  assert (B2 : d * (Rabs a * Rabs y) <= d * (2 * (Rabs p * Rabs y))) by (apply Rmult_le_compat_l; lra).
  replace ((INR (length L) + 1) * (2 * d)) with (k + 2 * d) by (unfold k; ring). lra.
Qed.
End FoldProd.
