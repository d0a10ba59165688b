(** * Printed texts are numbers for the parser *)
From Coq Require Import ZArith Reals Lra Lia List Bool.
From Verif Require Import F64 ParseM ParseSpec ParseProofs DisplayM DisplaySpec DisplayProofs DisplayText.
Import ListNotations.
Local Open Scope Z_scope.

Definition sign_ok (sg : text) : Prop := sg = [] \/ sg = [45] \/ sg = [43].
Definition plain (c : Z) : Prop := 43 <= c <= 57.
Lemma plain_digits l : decimals l -> Forall plain (map digit_char l).
Proof. induction 1; constructor; auto. unfold plain, digit_char. lia. Qed.
Lemma plain_fixed ip fp : decimals ip -> decimals fp -> Forall plain (fixed_text ip fp).
Proof.
  intros A B. unfold fixed_text. apply Forall_app. split; [now apply plain_digits|]. destruct fp as [|d fp]; constructor; [unfold plain; lia|now apply plain_digits].
Qed.
Lemma plain_sign sg : sign_ok sg -> Forall plain sg.
Proof. intros [->|[->| ->]]; repeat constructor; unfold plain; lia. Qed.
Lemma plain_normal t : Forall plain t -> normal_text t = t.
Proof.
  intros H. unfold normal_text, trim, lowercase.
  assert (D : forall s, Forall plain s -> drop_ws s = s).
  { intros s P. destruct P as [|c s P]; [reflexivity|]. cbn [drop_ws]. unfold plain in P. unfold is_ws.
    repeat match goal with |- context [Z.eqb ?a ?b] => rewrite (proj2 (Z.eqb_neq a b)) by lia end.
    rewrite (proj2 (Z.leb_gt c 13)) by lia. rewrite (proj2 (Z.leb_gt 8192 c)) by lia. now rewrite !andb_false_r. }
  rewrite (D t H), D by (now apply Forall_rev). rewrite rev_involutive.
  induction H as [|c t P H IH]; [reflexivity|]. cbn [map]. rewrite IH. f_equal. unfold lower. unfold plain in P.
  now rewrite (proj2 (Z.leb_gt 65 c)) by lia.
Qed.
Lemma dig_char d : 0 <= d <= 9 -> is_dig (digit_char d) = true /\ is_dot (digit_char d) = false /\ is_sgn (digit_char d) = false.
Proof.
  intros H. unfold is_dig, is_dot, is_sgn, digit_char, c_dot, c_plus, c_minus. split; [|split].
  - apply andb_true_iff. split; apply Z.leb_le; lia.
  - apply Z.eqb_neq. lia.
  - apply orb_false_iff. split; apply Z.eqb_neq; lia.
Qed.
Lemma filter_dig l : decimals l -> filter is_dig (map digit_char l) = map digit_char l /\ filter is_dot (map digit_char l) = [] /\
  filter is_sgn (map digit_char l) = [] /\ existsb (fun c => c =? c_minus) (map digit_char l) = false /\ forallb is_mant (map digit_char l) = true.
Proof.
  induction 1 as [|d l D F [I1 [I2 [I3 [I4 I5]]]]]; [repeat split; reflexivity|]. destruct (dig_char d D) as [A [B C]]. cbn [map filter existsb forallb]. rewrite A, B, C, I1, I2, I3, I4.
  split; [reflexivity|]. split; [reflexivity|]. split; [reflexivity|]. split.
  - rewrite orb_false_r. apply Z.eqb_neq. unfold digit_char, c_minus. lia.
  - apply andb_true_iff. split; [|exact I5]. unfold is_mant. now rewrite A.
Qed.
Lemma digits_back l : decimals l -> map (fun c => c - 48) (map digit_char l) = l.
Proof. intros H. rewrite map_map. induction H; [reflexivity|]. cbn [map]. rewrite IHForall. f_equal. unfold digit_char. lia. Qed.
Lemma after_dot_digits l r : decimals l -> after_dot (map digit_char l ++ r) = after_dot r.
Proof. induction 1 as [|d l D F IH]; [reflexivity|]. cbn [map app after_dot]. destruct (dig_char d D) as [_ [-> _]]. exact IH. Qed.

Lemma fixed_number sg ip fp : sign_ok sg -> decimals ip -> decimals fp -> ip <> [] ->
  let t := sg ++ fixed_text ip fp in
  number t t 0 /\ normal_text t = t /\ digs t = ip ++ fp /\ frac t = Z.of_nat (length fp) /\ (negative t = true <-> sg = [45]).
Proof.
  intros S Di Df NE t.
  destruct (filter_dig ip Di) as [I1 [I2 [I3 [I4 I5]]]]. destruct (filter_dig fp Df) as [J1 [J2 [J3 [J4 J5]]]].
  set (b := fixed_text ip fp) in *.
  assert (Bd : filter is_dig b = map digit_char (ip ++ fp)).
  { unfold b, fixed_text. rewrite filter_app, I1, map_app. f_equal. destruct fp; [reflexivity|]. cbn [filter]. change (is_dig 46) with false. exact J1. }
  assert (Bs : filter is_sgn b = []).
  { unfold b, fixed_text. rewrite filter_app, I3. destruct fp; [reflexivity|]. cbn [filter app]. change (is_sgn 46) with false. exact J3. }
  assert (Bdot : (count is_dot b <= 1)%nat).
  { unfold count, b, fixed_text. rewrite filter_app, I2. destruct fp; [cbn; lia|]. cbn [filter app]. change (is_dot 46) with true. cbv iota. rewrite J2. cbn. lia. }
  assert (Bm : forallb is_mant b = true).
  { unfold b, fixed_text. rewrite forallb_app, I5. destruct fp; [reflexivity|]. cbn [forallb]. change (is_mant 46) with true. exact J5. }
  assert (Bn : existsb (fun c => c =? c_minus) b = false).
  { unfold b, fixed_text. rewrite existsb_app, I4. destruct fp; [reflexivity|]. cbn [existsb]. change (46 =? c_minus) with false. exact J4. }
  assert (Ba : digs (after_dot b) = fp).
  { unfold b, fixed_text. rewrite after_dot_digits by auto. destruct fp as [|d fp]; [reflexivity|]. cbn [after_dot]. change (is_dot 46) with true. cbn [app]. unfold digs. rewrite J1. now apply digits_back. }
  assert (NEb : b <> []) by (unfold b, fixed_text; destruct ip; easy).
  assert (Sm : forallb is_mant sg = true) by (destruct S as [->|[->| ->]]; reflexivity).
  assert (Sdot : filter is_dot sg = []) by (destruct S as [->|[->| ->]]; reflexivity).
  assert (Sdig : filter is_dig sg = []) by (destruct S as [->|[->| ->]]; reflexivity).
  assert (Ssg : (length (filter is_sgn sg) <= 1)%nat) by (destruct S as [->|[->| ->]]; cbn; lia).
  assert (Sl : (length sg <= 1)%nat) by (destruct S as [->|[->| ->]]; cbn; lia).
  assert (Sa : after_dot t = after_dot b) by (unfold t; destruct S as [->|[->| ->]]; reflexivity).
  split; [|split; [|split; [|split]]].
  - exists []. rewrite app_nil_r. split; [reflexivity|]. split; [unfold t; destruct sg; easy|]. split; [|constructor].
    split; [unfold t; now rewrite forallb_app, Sm, Bm|]. split; [unfold t, count in *; rewrite filter_app, Sdot; exact Bdot|].
    split; [unfold t, count; rewrite filter_app, Bs, app_nil_r; exact Ssg|].
    intros a c b' E H. unfold t in E. destruct a as [|a0 a]; [reflexivity|exfalso].
    assert (K : In c b). { destruct sg as [|s [|]]; cbn [length] in Sl; try lia; cbn [app] in E.
      - rewrite E. change (In c ((a0 :: a) ++ c :: b')). apply in_or_app. right. now left.
      - injection E as _ E. rewrite E. apply in_or_app. right. now left. }
    assert (In c (filter is_sgn b)) by (apply filter_In; auto). rewrite Bs in H0. easy.
  - apply plain_normal. unfold t. apply Forall_app. split; [now apply plain_sign|now apply plain_fixed].
  - unfold digs, t. rewrite filter_app, Sdig, Bd. cbn [app]. apply digits_back. now apply decimals_app.
  - unfold frac. rewrite Sa, Ba. reflexivity.
  - unfold negative, t. rewrite existsb_app, Bn, orb_false_r. destruct S as [->|[->| ->]]; cbn; split; intros H; easy.
Qed.
