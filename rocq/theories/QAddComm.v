(** * Quad addition: the two operand orders agree when the read order is the same *)
From Coq Require Import ZArith Reals List Bool Lia Lra.
From Flocq Require Import Core IEEE754.BinarySingleNaN.
From Verif Require Import F64 F64Facts Prim DoubleM QuadM RN Spec EFT SpecialProofs QuadSpec QAddAcc QAddThms.
Import ListNotations.
Local Open Scope R_scope.

Lemma abs_gt_swap a b : Fin a -> Fin b -> Rabs (V a) <> Rabs (V b) -> abs_gt b a = negb (abs_gt a b).
Proof.
  intros Fa Fb N. unfold abs_gt, fgtb.
  destruct (fabs_ok a Fa) as [F1 E1]. destruct (fabs_ok b Fb) as [F2 E2].
  change Bltb with fltb. rewrite !fltb_ok by auto. rewrite E1, E2.
  destruct (Rlt_bool_spec (Rabs (V a)) (Rabs (V b))); destruct (Rlt_bool_spec (Rabs (V b)) (Rabs (V a))); try reflexivity; lra.
Qed.

Definition apart (rx ry : list f64) : Prop := forall a b, In a rx -> In b ry -> Fin a /\ Fin b /\ Rabs (V a) <> Rabs (V b).

Lemma mrg_comm : forall rx ry, apart rx ry -> mrg rx ry = mrg ry rx.
Proof.
  induction rx as [|a rx IHx].
  - intros ry _. now rewrite mrg_nil_l, mrg_nil_r.
  - induction ry as [|b ry IHy]; intros H.
    + now rewrite mrg_nil_l, mrg_nil_r.
    + rewrite !mrg_cons. destruct (H a b) as (Fa & Fb & N); [now left|now left|].
      rewrite (abs_gt_swap a b Fa Fb N). destruct (abs_gt a b); cbn [negb]; f_equal.
      * apply IHx. intros c d Hc Hd. apply H; [now right|exact Hd].
      * apply IHy. intros c d Hc Hd. apply H; [exact Hc|now right].
Qed.

(** what the loop leaves unread is a suffix of at most two of the six *)
Lemma loop1_suffix : forall ts x y out, (length out <= 4)%nat -> let '(o, l) := loop1 ts x y out in
  (l = [] \/ (length l + 4 <= length ts + length out)%nat) /\ exists pre, ts = pre ++ l.
Proof.
  induction ts as [|t ts IH]; intros x y out Ho; cbn [loop1].
  - destruct (Nat.ltb (length out) 4); split; auto; exists []; reflexivity.
  - destruct (Nat.ltb_spec (length out) 4) as [L|L].
    + destruct (accumulate x y t) as [[s y'] z]. specialize (IH y' z (qa_push s out)).
      assert (LP : (length (qa_push s out) <= S (length out))%nat).
      { unfold qa_push. destruct (fne0 s); [rewrite app_length; cbn; lia|lia]. }
      destruct (loop1 ts y' z (qa_push s out)) as [o l]. destruct IH as [[K|K] [pre P]]; [lia|..].
      * split; [now left|]. exists (t :: pre). now rewrite P.
      * split; [right; cbn [length]; lia|]. exists (t :: pre). now rewrite P.
    + split; [right; lia|]. exists []. reflexivity.
Qed.

(** the unread parts are suffixes of the operands *)
Lemma qa_loop_suffix : forall rx ry x y out o lx ly, qa_loop rx ry x y out = (o, lx, ly) ->
  (exists p, rx = p ++ lx) /\ (exists p, ry = p ++ ly).
Proof.
  induction rx as [|a rx IHx].
  - induction ry as [|b ry IHy]; intros x y out o lx ly H; cbn [qa_loop] in H.
    + destruct (Nat.ltb (length out) 4); injection H as _ <- <-; split; exists []; reflexivity.
    + destruct (Nat.ltb (length out) 4); [|injection H as _ <- <-; split; exists []; reflexivity].
      destruct (accumulate x y b) as [[s y'] z]. apply IHy in H.
      destruct H as [P1 [p P2]]. split; [exact P1|]. exists (b :: p). now rewrite P2.
  - induction ry as [|b ry IHy]; intros x y out o lx ly H; cbn [qa_loop] in H.
    + destruct (Nat.ltb (length out) 4); [|injection H as _ <- <-; split; exists []; reflexivity].
      destruct (accumulate x y a) as [[s y'] z]. apply IHx in H.
      destruct H as [[p P1] P2]. split; [exists (a :: p); now rewrite P1|exact P2].
    + destruct (Nat.ltb (length out) 4); [|injection H as _ <- <-; split; exists []; reflexivity].
      destruct (abs_gt a b).
      * destruct (accumulate x y a) as [[s y'] z]. apply IHx in H.
        destruct H as [[p P1] P2]. split; [exists (a :: p); now rewrite P1|exact P2].
      * destruct (accumulate x y b) as [[s y'] z]. apply IHy in H.
        destruct H as [P1 [p P2]]. split; [exact P1|]. exists (b :: p). now rewrite P2.
Qed.

Lemma suffix_trans {A} (a b c : list A) : (exists p, a = p ++ b) -> (exists p, b = p ++ c) -> exists p, a = p ++ c.
Proof. intros [p ->] [q ->]. exists (p ++ q). now rewrite app_assoc. Qed.

Lemma qa_take_suffix rx ry t lx ly : qa_take rx ry = (t, lx, ly) -> (exists p, rx = p ++ lx) /\ (exists p, ry = p ++ ly).
Proof.
  unfold qa_take. destruct rx as [|a rx], ry as [|b ry]; [..|destruct (abs_gt a b)]; intros [= <- <- <-]; split;
    try (exists []; reflexivity); try (exists [a]; reflexivity); exists [b]; reflexivity.
Qed.

Lemma last_in {A} (p l : list A) (c d : A) q : q ++ [c] = p ++ l -> l <> [] -> In c l.
Proof.
  intros H N. destruct (exists_last N) as [l' [x ->]].
  rewrite app_assoc in H. apply app_inj_tail in H as [_ <-]. apply in_or_app. right. now left.
Qed.

(** the sum as a function of the merged list *)
Definition sum_of (ts : list f64) : Quad :=
  match ts with
  | t0 :: t1 :: ts => let '(s, e) := renorm2 t0 t1 in let '(o, l) := loop1 ts s e [] in qa_finish o l []
  | _ => Q_ZERO
  end.

Lemma q_add_core_sum x y :
  (forall l, (length l <= 2)%nat -> (exists p, mrg (q_list x) (q_list y) = p ++ l) -> ~ In (q3 x) l \/ ~ In (q3 y) l) ->
  q_add_core x y = sum_of (mrg (q_list x) (q_list y)).
Proof.
  intros H. unfold q_add_core.
  destruct (qa_take (q_list x) (q_list y)) as [[t0 rx] ry] eqn:T1.
  assert (S1 := qa_take_suffix _ _ _ _ _ T1). apply qa_take_mrg in T1 as [T1 L1]; [|cbn; lia].
  destruct (qa_take rx ry) as [[t1 rx'] ry'] eqn:T2.
  assert (S2 := qa_take_suffix _ _ _ _ _ T2). apply qa_take_mrg in T2 as [T2 L2]; [|cbn [q_list length] in L1; lia].
  rewrite T1, T2. unfold sum_of. rewrite T1, T2 in H.
  destruct (renorm2 t0 t1) as [s e].
  assert (QL := qa_loop_mrg rx' ry' s e []). assert (QS := qa_loop_suffix rx' ry' s e []).
  assert (LS := loop1_suffix (mrg rx' ry') s e []).
  destruct (qa_loop rx' ry' s e []) as [[o lx] ly]. rewrite QL in *. specialize (QS o lx ly eq_refl).
  destruct LS as [LS1 [pre LS2]]; [cbn; lia|]. rewrite !mrg_len in LS1. cbn [length q_list Nat.add] in *.
  destruct S1 as [SX1 SY1], S2 as [SX2 SY2], QS as [SX3 SY3].
  assert (SX := suffix_trans _ _ _ SX1 (suffix_trans _ _ _ SX2 SX3)).
  assert (SY := suffix_trans _ _ _ SY1 (suffix_trans _ _ _ SY2 SY3)).
  destruct (H (mrg lx ly)) as [N|N].
  - destruct LS1 as [->|LS1]; [cbn; lia|rewrite mrg_len; lia].
  - exists (t0 :: t1 :: pre). rewrite LS2 at 1. reflexivity.
  - assert (lx = []) as ->.
    { destruct lx as [|a lx]; [reflexivity|exfalso]. destruct SX as [p SX]. apply N.
      assert (I : In (q3 x) (a :: lx)) by (apply (last_in p (a :: lx) (q3 x) (q3 x) [q0 x; q1 x; q2 x]); [exact SX|discriminate]).
      assert (Fo := mrg_Forall (fun c => In c (mrg (a :: lx) ly)) (a :: lx) ly). destruct Fo as [Fo _].
      { apply Forall_forall. auto. }
      rewrite Forall_forall in Fo. auto. }
    rewrite mrg_nil_l. reflexivity.
  - assert (ly = []) as ->.
    { destruct ly as [|a ly]; [reflexivity|exfalso]. destruct SY as [p SY]. apply N.
      assert (I : In (q3 y) (a :: ly)) by (apply (last_in p (a :: ly) (q3 y) (q3 y) [q0 y; q1 y; q2 y]); [exact SY|discriminate]).
      assert (Fo := mrg_Forall (fun c => In c (mrg lx (a :: ly))) lx (a :: ly)). destruct Fo as [_ Fo].
      { apply Forall_forall. auto. }
      rewrite Forall_forall in Fo. auto. }
    rewrite mrg_nil_r. reflexivity.
Qed.

(** [apart] for the components of two Quads *)
Lemma mrg_tail x y : QDec 53 x -> QDec 53 y -> Rabs (V (q2 x)) < Rabs (V (q3 y)) ->
  exists p, mrg (q_list x) (q_list y) = p ++ [q2 x; q3 x] /\ length p = 6%nat.
Proof.
  destruct x as [x0 x1 x2 x3], y as [y0 y1 y2 y3]. unfold QDec, QFin, q_list. cbn [q0 q1 q2 q3].
  intros ((FA & FB & FC & FD) & H1 & H2 & H3) ((FE & FF & FG & FH) & K1 & K2 & K3) L.
  change (bp (- (53))) with u in *.
  assert (W : forall a b, Rabs b <= u * Rabs a -> Rabs b <= Rabs a) by (intros a b; assert (P := Rabs_pos a); lra).
  apply W in H1, H2, H3, K1, K2, K3. clear W.
  assert (G : forall a b, Fin a -> Fin b -> Rabs (V a) < Rabs (V b) -> abs_gt a b = false).
  { intros a b Fa Fb Hl. unfold abs_gt, fgtb. destruct (fabs_ok a Fa) as [A1 A2]. destruct (fabs_ok b Fb) as [B1 B2].
    change Bltb with fltb. rewrite fltb_ok by auto. rewrite A2, B2. apply Rlt_bool_false. lra. }
  cbn [mrg].
  rewrite !(G x2) by (assumption || lra). 
  repeat match goal with
  | |- context [if abs_gt ?a ?b then _ else _] => destruct (abs_gt a b)
  end;
  match goal with |- exists p, ?l = p ++ _ /\ _ => exists (firstn 6 l); split; reflexivity end.
Qed.

Lemma q_add_comm_apart x y : QDec 53 x -> QDec 53 y -> qapart x y -> Rabs (V (q2 x)) < Rabs (V (q3 y)) ->
  q_add x y = q_add y x.
Proof.
  intros Hx Hy HA HL. rewrite !q_add_fin by (apply Hx || apply Hy).
  assert (AP : apart (q_list x) (q_list y)).
  { intros a b Ia Ib. destruct Hx as ((? & ? & ? & ?) & _). destruct Hy as ((? & ? & ? & ?) & _).
    split; [|split; [|now apply HA]].
    - cbn in Ia. intuition (subst; assumption).
    - cbn in Ib. intuition (subst; assumption). }
  assert (EM := mrg_comm _ _ AP).
  destruct (mrg_tail x y Hx Hy HL) as (p & EP & LP).
  assert (NI : forall l, (length l <= 2)%nat -> (exists q, mrg (q_list x) (q_list y) = q ++ l) -> ~ In (q3 y) l).
  { intros l Ll [q EQ] I. rewrite EP in EQ.
    assert (Q : forall c, In c l -> c = q2 x \/ c = q3 x).
    { assert (LQ : (6 <= length q)%nat).
      { apply (f_equal (@length f64)) in EQ. rewrite !app_length in EQ. cbn in EQ. lia. }
      intros c Ic. assert (E2 : [q2 x; q3 x] = skipn 6 q ++ l).
      { apply (f_equal (skipn 6)) in EQ. rewrite !skipn_app in EQ.
        rewrite LP in EQ. rewrite (skipn_all2 p) in EQ by lia.
        replace (6 - length q)%nat with 0%nat in EQ by lia. exact EQ. }
      assert (I2 : In c [q2 x; q3 x]) by (rewrite E2; apply in_or_app; now right).
      cbn in I2. intuition. }
    destruct Hx as (_ & _ & _ & H3). change (bp (- (53))) with u in H3.
    assert (P := Rabs_pos (V (q2 x))).
    destruct (Q _ I) as [E|E]; rewrite E in HL; lra. }
  rewrite (q_add_core_sum x y), (q_add_core_sum y x).
  - now rewrite EM.
  - intros l Ll [q EQ]. left. apply NI; [exact Ll|]. exists q. rewrite EM. exact EQ.
  - intros l Ll EQ. right. now apply NI.
Qed.
