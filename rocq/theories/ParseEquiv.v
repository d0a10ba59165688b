(** * Characters that do not matter *)
From Coq Require Import ZArith List Bool Lia.
From Verif Require Import F64 Prim DoubleM QuadM ParseM ParseSpec ParseProofs ParseThms.
Import ListNotations.
Local Open Scope Z_scope.

(** ** whitespace and case *)
Lemma ws_lower c : is_ws (lower c) = is_ws c.
Proof.
  unfold lower. destruct (Z.leb_spec 65 c), (Z.leb_spec c 90); try reflexivity. cbn [andb].
  unfold is_ws.
  repeat match goal with |- context [?a <=? ?b] => destruct (Z.leb_spec a b); try lia end;
  repeat match goal with |- context [?a =? ?b] => destruct (Z.eqb_spec a b); try lia end; reflexivity.
Qed.
Lemma drop_ws_lower s : drop_ws (map lower s) = map lower (drop_ws s).
Proof. induction s as [|c s IH]; [reflexivity|]. cbn. rewrite ws_lower. destruct (is_ws c); [exact IH|reflexivity]. Qed.
Lemma normal_lower s : normal_text s = trim (map lower s).
Proof. unfold normal_text, lowercase, trim. now rewrite drop_ws_lower, <- map_rev, drop_ws_lower, map_rev. Qed.
Lemma drop_ws_app w s : forallb is_ws w = true -> drop_ws (w ++ s) = drop_ws s.
Proof. induction w as [|c w IH]; [reflexivity|]. cbn. destruct (is_ws c); [exact IH|discriminate]. Qed.
Lemma drop_ws_all w : forallb is_ws w = true -> drop_ws w = [].
Proof. intros H. rewrite <- (app_nil_r w), drop_ws_app by auto. reflexivity. Qed.
Lemma forallb_rev {A} (p : A -> bool) l : forallb p (rev l) = forallb p l.
Proof. induction l as [|a l IH]; [reflexivity|]. cbn. rewrite forallb_app, IH. cbn. rewrite andb_true_r. apply andb_comm. Qed.
Lemma drop_ws_idem_r s : drop_ws s = [] \/ exists a b, s = a ++ b /\ forallb is_ws a = true /\ drop_ws s = b /\ b <> [].
Proof.
  induction s as [|c s IH]; [auto|]. cbn. destruct (is_ws c) eqn:E.
  - destruct IH as [IH|[a [b [-> [H1 [H2 H3]]]]]]; [auto|]. right. exists (c :: a), b. cbn. now rewrite E.
  - right. exists [], (c :: s). repeat split; auto. discriminate.
Qed.
Lemma trim_app w s w' : forallb is_ws w = true -> forallb is_ws w' = true -> trim (w ++ s ++ w') = trim s.
Proof.
  intros Hw Hw'. unfold trim. rewrite drop_ws_app by auto.
  destruct (drop_ws_idem_r s) as [E|[a [b [E [H1 [H2 H3]]]]]].
  - assert (forallb is_ws s = true). { clear - E. induction s as [|c s IH]; [reflexivity|]. cbn in *. destruct (is_ws c); [auto|discriminate]. }
    rewrite (drop_ws_app s w') by auto. rewrite (drop_ws_all w') by auto. rewrite E. reflexivity.
  - assert (drop_ws (s ++ w') = b ++ w') as ->.
    { clear - E H1 H2 H3. rewrite E, <- app_assoc, drop_ws_app by auto.
      assert (X : drop_ws b = b). { rewrite E in H2. now rewrite drop_ws_app in H2. }
      destruct b as [|c b]; [congruence|]. cbn in *. destruct (is_ws c) eqn:W; [|reflexivity].
      exfalso. assert (L : forall l, (length (drop_ws l) <= length l)%nat). { clear. induction l as [|x l IH]; cbn; [lia|]. destruct (is_ws x); cbn; lia. }
      specialize (L b). rewrite X in L. cbn in L. lia. }
    rewrite H2, rev_app_distr, drop_ws_app; [reflexivity|]. now rewrite forallb_rev.
Qed.
Lemma ws_case {T} (N : numops T) dbg w s w' s' : forallb is_ws w = true -> forallb is_ws w' = true -> map lower s = map lower s' ->
  from_str N dbg (w ++ s ++ w') = from_str N dbg s'.
Proof.
  intros Hw Hw' E. assert (H : normal_text (w ++ s ++ w') = normal_text s').
  { rewrite !normal_lower, <- E, !map_app. apply trim_app; rewrite forallb_forall in *; intros c Hc; apply in_map_iff in Hc; destruct Hc as [c' [<- Hc]]; rewrite ws_lower; auto. }
  unfold normal_text in H. unfold from_str. now rewrite H.
Qed.

(** ** two accepted numbers with the same digits, fraction length, sign and exponent *)
Lemma same_number {T} (N : numops T) dbg s s' m m' e :
  short (normal_text s) -> short (normal_text s') -> number (normal_text s) m e -> number (normal_text s') m' e ->
  i32_min <= e - frac m -> accumulate_digits N (digs m') = accumulate_digits N (digs m) -> frac m' = frac m -> negative m' = negative m ->
  from_str N dbg s' = from_str N dbg s.
Proof.
  intros S S' Nu Nu' H A F G. rewrite (from_str_number N dbg s m e), (from_str_number N dbg s' m' e) by (auto; now rewrite F).
  unfold number_value. now rewrite A, F, G.
Qed.

(** ** underscores *)
Definition not_under (c : Z) : bool := negb (c =? c_under).
Lemma filter_under p m : (forall c, c = c_under -> p c = false) -> filter p (filter not_under m) = filter p m.
Proof.
  intros H. induction m as [|c m IH]; [reflexivity|]. cbn. unfold not_under at 1. destruct (Z.eqb_spec c c_under); cbn [negb].
  - rewrite (H c) by auto. exact IH.
  - cbn. destruct (p c); rewrite IH; reflexivity.
Qed.
Lemma digs_under m : digs (filter not_under m) = digs m.
Proof. unfold digs. rewrite filter_under; [reflexivity|]. intros c ->; reflexivity. Qed.
Lemma count_under p m : (forall c, c = c_under -> p c = false) -> count p (filter not_under m) = count p m.
Proof. intros H. unfold count. now rewrite filter_under. Qed.
Lemma after_dot_under m : after_dot (filter not_under m) = filter not_under (after_dot m).
Proof.
  induction m as [|c m IH]; [reflexivity|]. cbn [filter after_dot]. unfold not_under at 1. destruct (Z.eqb_spec c c_under) as [->|]; cbn [negb].
  - exact IH.
  - cbn [after_dot]. destruct (is_dot c); [reflexivity|exact IH].
Qed.
Lemma frac_under m : frac (filter not_under m) = frac m.
Proof. unfold frac. now rewrite after_dot_under, digs_under. Qed.
Lemma existsb_filter p m : existsb p m = negb (count p m =? 0)%nat.
Proof. apply existsb_count. Qed.
Lemma negative_under m : negative (filter not_under m) = negative m.
Proof. unfold negative. rewrite !existsb_count, count_under; [reflexivity|]. intros c ->; reflexivity. Qed.
Lemma split_under m : forall a c b, filter not_under m = a ++ c :: b -> exists a' b', m = a' ++ c :: b' /\ filter not_under a' = a.
Proof.
  induction m as [|x m IH]; intros a c b H; cbn in H; [destruct a; discriminate|]. unfold not_under at 1 in H. destruct (x =? c_under) eqn:E; cbn [negb] in H.
  - destruct (IH a c b H) as [a' [b' [-> H2]]]. exists (x :: a'), b'. split; auto. cbn. unfold not_under at 1. now rewrite E.
  - destruct a as [|y a]; cbn in H; injection H as -> H.
    + exists [], m. auto.
    + destruct (IH a c b H) as [a' [b' [-> H2]]]. exists (y :: a'), b'. split; auto. cbn. unfold not_under at 1. rewrite E. cbn. now rewrite H2.
Qed.
Lemma mant_under m : mant_ok m -> mant_ok (filter not_under m).
Proof.
  intros [H1 [H2 [H3 H4]]]. split; [|split; [|split]].
  - rewrite forallb_forall in *. intros c Hc. apply filter_In in Hc. now apply H1.
  - rewrite count_under; [auto|intros c ->; reflexivity].
  - rewrite count_under; [auto|intros c ->; reflexivity].
  - intros a c b E S. destruct (split_under _ _ _ _ E) as [a' [b' [-> <-]]]. rewrite filter_under by (intros ? ->; reflexivity). now apply (H4 a' c b').
Qed.
Lemma underscores {T} (N : numops T) dbg s s' m x e :
  short (normal_text s) -> number (normal_text s) m e -> i32_min <= e - frac m ->
  normal_text s = m ++ x -> normal_text s' = filter not_under m ++ x -> normal_text s' <> [] ->
  from_str N dbg s' = from_str N dbg s.
Proof.
  intros S Nu H E E' NE.
  assert (Nu' : number (normal_text s') (filter not_under m) e).
  { destruct Nu as [x0 [E0 [_ [M X]]]]. rewrite E in E0. apply app_inv_head in E0. subst x0. exists x. split; auto. split; auto. split; auto. now apply mant_under. }
  apply (same_number N dbg s s' m (filter not_under m) e); auto.
  - unfold short in *. rewrite E' . rewrite E in S. rewrite !digs_app, !app_length in *. now rewrite digs_under.
  - now rewrite digs_under.
  - apply frac_under.
  - apply negative_under.
Qed.

(** ** a leading sign *)
Lemma count_cons p c m : count p (c :: m) = ((if p c then 1 else 0) + count p m)%nat.
Proof. unfold count. cbn. destruct (p c); reflexivity. Qed.
Lemma no_sign_neg m : count is_sgn m = 0%nat -> negative m = false.
Proof.
  unfold negative. intros H. induction m as [|c m IH]; [reflexivity|]. rewrite count_cons in H. cbn. unfold is_sgn in H at 1.
  destruct (c =? c_minus); [rewrite orb_true_r in H; discriminate|]. apply IH. destruct (_ || _) in H; [discriminate|exact H].
Qed.
Lemma mant_sign c m : is_sgn c = true -> mant_ok m -> count is_sgn m = 0%nat -> mant_ok (c :: m).
Proof.
  intros Hc [H1 [H2 [H3 H4]]] Z0.
  assert (C : is_mant c = true /\ is_dot c = false).
  { unfold is_sgn in Hc. apply orb_true_iff in Hc. rewrite !Z.eqb_eq in Hc. destruct Hc; subst c; auto. }
  destruct C as [C1 C2]. split; [cbn; now rewrite C1|]. split; [rewrite count_cons, C2; lia|]. split; [rewrite count_cons, Hc, Z0; lia|].
  intros [|y a] d b E S; [reflexivity|]. cbn in E. injection E as <- E.
  exfalso. rewrite E in Z0. rewrite count_app, count_cons, S in Z0. lia.
Qed.
Lemma number_sign c t m e : is_sgn c = true -> number t m e -> count is_sgn m = 0%nat -> number (c :: t) (c :: m) e.
Proof. intros Hc [x [E [NE [M X]]]] Z0. exists x. split; [cbn; now rewrite E|]. split; [discriminate|]. split; auto using mant_sign. Qed.
Lemma frac_cons c m : is_dot c = false -> frac (c :: m) = frac m.
Proof. intros H. unfold frac. cbn [after_dot]. now rewrite H. Qed.
Lemma digs_cons c m : is_dig c = false -> digs (c :: m) = digs m.
Proof. intros H. unfold digs. cbn. now rewrite H. Qed.
Lemma lead_plus {T} (N : numops T) dbg s s' m e :
  short (normal_text s) -> number (normal_text s) m e -> i32_min <= e - frac m -> count is_sgn m = 0%nat ->
  normal_text s' = c_plus :: normal_text s -> from_str N dbg s' = from_str N dbg s.
Proof.
  intros S Nu H Z0 E. assert (Nu' := number_sign c_plus _ _ _ eq_refl Nu Z0). rewrite <- E in Nu'.
  apply (same_number N dbg s s' m (c_plus :: m) e); auto.
  unfold short in *. rewrite E. now rewrite digs_cons.
Qed.
Lemma lead_minus {T} (N : numops T) dbg s s' m e :
  short (normal_text s) -> number (normal_text s) m e -> i32_min <= e - frac m -> count is_sgn m = 0%nat ->
  normal_text s' = c_minus :: normal_text s ->
  from_str N dbg s' = let* r := from_str N dbg s in Val (match r with POk v => POk (n_neg N v) | PErr k => PErr k end).
Proof.
  intros S Nu H Z0 E. assert (Nu' := number_sign c_minus _ _ _ eq_refl Nu Z0). rewrite <- E in Nu'.
  rewrite (from_str_number N dbg s m e), (from_str_number N dbg s' (c_minus :: m) e); auto.
  - unfold number_value. rewrite digs_cons, frac_cons, (no_sign_neg m Z0) by reflexivity. unfold negative at 1. cbn [existsb c_minus Z.eqb Pos.eqb orb].
    destruct (apply_exp N dbg (accumulate_digits N (digs m)) (e - frac m)); reflexivity.
  - unfold short in *. rewrite E. now rewrite digs_cons.
Qed.

(** ** leading zeros *)
Definition c_zero : Z := 48.
Lemma digs_zeros k : digs (repeat c_zero k) = repeat 0 k.
Proof. induction k as [|k IH]; [reflexivity|]. cbn [repeat]. change (c_zero :: repeat c_zero k) with ([c_zero] ++ repeat c_zero k). rewrite digs_app, IH. reflexivity. Qed.
Lemma acc_zeros {T} (N : numops T) k l : n_add N (n_mul N (n_zero N) (n_ten N)) (n_digit N 0) = n_zero N ->
  accumulate_digits N (repeat 0 k ++ l) = accumulate_digits N l.
Proof. intros Z0. unfold accumulate_digits. rewrite fold_left_app. f_equal. induction k as [|k IH]; [reflexivity|]. cbn. rewrite Z0. exact IH. Qed.
Lemma count_zeros p k : p c_zero = false -> count p (repeat c_zero k) = 0%nat.
Proof. intros H. induction k as [|k IH]; [reflexivity|]. cbn [repeat]. rewrite count_cons, H, IH. reflexivity. Qed.
Lemma after_dot_nodot a b : count is_dot a = 0%nat -> after_dot (a ++ b) = after_dot b.
Proof. induction a as [|c a IH]; [reflexivity|]. rewrite count_cons. cbn. destruct (is_dot c); [discriminate|]. cbn. exact IH. Qed.
Lemma mant_zeros a k b : mant_ok (a ++ b) -> count is_sgn b = 0%nat -> mant_ok (a ++ repeat c_zero k ++ b).
Proof.
  intros [H1 [H2 [H3 H4]]] Z0. rewrite !forallb_app in H1. apply andb_true_iff in H1. destruct H1 as [H1 H1']. rewrite count_app in H2, H3.
  split; [|split; [|split]].
  - rewrite !forallb_app, H1, H1', andb_true_r. cbn [andb]. apply forallb_forall. intros c Hc. apply repeat_spec in Hc. now subst c.
  - rewrite !count_app, count_zeros by reflexivity. lia.
  - rewrite !count_app, count_zeros by reflexivity. lia.
  - intros a' c b' E S.
    assert (PRE : exists r, a = a' ++ c :: r).
    { assert (Q : forall l m2 a1 b1, l ++ m2 = a1 ++ c :: b1 -> count is_sgn m2 = 0%nat -> exists r, l = a1 ++ c :: r).
      { clear - S. induction l as [|x l IH]; intros m2 a1 b1 E Z0; cbn in E.
        - exfalso. rewrite E, count_app, count_cons, S in Z0. lia.
        - destruct a1 as [|y a1]; cbn in E; injection E as -> E; [exists l; reflexivity|].
          destruct (IH _ _ _ E Z0) as [r ->]. exists r. reflexivity. }
      apply (Q a (repeat c_zero k ++ b) a' b'); auto. rewrite count_app, count_zeros by reflexivity. auto. }
    destruct PRE as [r ->]. apply (H4 a' c (r ++ b)); auto. now rewrite <- app_assoc.
Qed.
Lemma lead_zeros {T} (N : numops T) dbg s s' a b x k e :
  n_add N (n_mul N (n_zero N) (n_ten N)) (n_digit N 0) = n_zero N ->
  short (normal_text s') -> number (normal_text s) (a ++ b) e -> i32_min <= e - frac (a ++ b) ->
  filter is_dig a = [] -> count is_dot a = 0%nat -> count is_sgn b = 0%nat ->
  normal_text s = (a ++ b) ++ x -> normal_text s' = (a ++ repeat c_zero k ++ b) ++ x ->
  from_str N dbg s' = from_str N dbg s.
Proof.
  intros Z0 S' Nu H Da Pa Sb E E'.
  assert (DA : digs a = []) by (unfold digs; now rewrite Da).
  assert (Nu' : number (normal_text s') (a ++ repeat c_zero k ++ b) e).
  { destruct Nu as [x0 [E0 [NE [M X]]]]. rewrite E in E0. apply app_inv_head in E0. subst x0. exists x. split; auto.
    split. { rewrite E'. rewrite E in NE. intros Q. apply NE. apply app_eq_nil in Q. destruct Q as [Q ->]. apply app_eq_nil in Q. destruct Q as [-> Q]. apply app_eq_nil in Q. destruct Q as [_ ->]. reflexivity. }
    split; auto. now apply mant_zeros. }
  apply (same_number N dbg s s' (a ++ b) (a ++ repeat c_zero k ++ b) e); auto.
  - unfold short in *. rewrite E' in S'. rewrite E. rewrite !digs_app, !app_length in *. lia.
  - rewrite !digs_app, DA. cbn [app]. rewrite digs_zeros. now apply acc_zeros.
  - unfold frac. rewrite !after_dot_nodot; auto. now apply count_zeros.
  - unfold negative. rewrite !existsb_app. assert (existsb (fun c => c =? c_minus) (repeat c_zero k) = false) as ->; [|reflexivity].
    clear. induction k; [reflexivity|]. exact IHk.
Qed.
Lemma d_zero_step : n_add d_ops (n_mul d_ops (n_zero d_ops) (n_ten d_ops)) (n_digit d_ops 0) = n_zero d_ops.
Proof. vm_compute. reflexivity. Qed.
Lemma q_zero_step : n_add q_ops (n_mul q_ops (n_zero q_ops) (n_ten q_ops)) (n_digit q_ops 0) = n_zero q_ops.
Proof. vm_compute. reflexivity. Qed.
