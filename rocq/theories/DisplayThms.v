(** * Formatting: theorems about the whole text *)
From Coq Require Import ZArith Reals Lra Lia List Bool.
From Flocq Require Import Core.Raux IEEE754.BinarySingleNaN.
From Verif Require Import F64 Prim DoubleM QuadM ParseM ParseSpec DisplayM DisplaySpec DisplayProofs DisplayText.
Import ListNotations.
Local Open Scope Z_scope.

(** the same options without a width *)
Definition no_width (f : fmt) : fmt := mkF (f_prec f) None (f_fill f) (f_align f) (f_plus f) (f_zero f) (f_alt f).
(** whether a sign is shown *)
Definition sign_shown (neg : bool) (f : fmt) : bool := neg || f_plus f.
Definition omap {A B} (g : A -> B) (o : outcome A) : outcome B := let* a := o in Val (g a).

Section G.
Context {T : Type} (N : dispops T) (lm : libm) (dbg : bool).
Lemma push_sign_ok x f : push_sign N [] x f = (sign_text (s_neg N x) f, sign_shown (s_neg N x) f).
Proof. unfold push_sign, sign_text, sign_shown. destruct (s_neg N x), (f_plus f); reflexivity. Qed.
Lemma sign_nonempty x f : sign_shown (s_neg N x) f = true -> sign_text (s_neg N x) f <> [].
Proof. unfold sign_text, sign_shown. destruct (s_neg N x), (f_plus f); easy. Qed.
Lemma app_ne {A} (a b : list A) : a <> [] -> a ++ b <> []. Proof. destruct a; easy. Qed.

Definition body_fixed (x : T) (f : fmt) : outcome text :=
  let r := sign_text (s_neg N x) f in
  if s_nan N x then Val (push_nan r)
  else if s_infinite N x then Val (push_inf r)
  else if s_zero N x then Val (push_zero r f)
  else push_digits_fixed N lm dbg r x f.
Definition body_exp (x : T) (f : fmt) : outcome text :=
  let r := sign_text (s_neg N x) f in
  if s_nan N x then Val (push_nan r)
  else if s_infinite N x then Val (push_inf r)
  else if s_zero N x then Val (push_zero r f)
  else push_digits_exp N lm dbg r x f.
Lemma push_zero_ne r f : push_zero r f <> [].
Proof. unfold push_zero. destruct (f_prec f) as [[|n]|]; cbn [Nat.ltb Nat.leb]; destruct r; easy. Qed.
Lemma body_fixed_ne x f s : body_fixed x f = Val s -> sign_shown (s_neg N x) f = true -> s <> [].
Proof.
  intros E H. apply sign_nonempty in H. unfold body_fixed in E.
  destruct (s_nan N x); [injection E as <-; now apply app_ne|].
  destruct (s_infinite N x); [injection E as <-; now apply app_ne|].
  destruct (s_zero N x); [injection E as <-; apply push_zero_ne|].
  unfold push_digits_fixed in E.
  destruct (extract_digits _ _ _ _); cbn [obind] in E; try discriminate.
  destruct (adjust_zeros _ _ _); cbn [obind] in E; try discriminate.
  destruct (adjust_prec _ _ _ _); cbn [obind] in E; try discriminate.
  destruct (place_decimal _ _); cbn [obind] in E; try discriminate. injection E as <-. now apply app_ne.
Qed.
Lemma body_exp_ne x f s : body_exp x f = Val s -> sign_shown (s_neg N x) f = true -> s <> [].
Proof.
  intros E H. apply sign_nonempty in H. unfold body_exp in E.
  destruct (s_nan N x); [injection E as <-; now apply app_ne|].
  destruct (s_infinite N x); [injection E as <-; now apply app_ne|].
  destruct (s_zero N x); [injection E as <-; apply push_zero_ne|].
  unfold push_digits_exp in E.
  destruct (extract_digits _ _ _ _); cbn [obind] in E; try discriminate.
  destruct (adjust_zeros _ _ _); cbn [obind] in E; try discriminate.
  destruct (adjust_prec _ _ _ _); cbn [obind] in E; try discriminate.
  destruct (place_decimal _ _); cbn [obind] in E; try discriminate. injection E as <-. now apply app_ne.
Qed.
Lemma display_body x f : display N lm dbg x f = omap (padded f (sign_shown (s_neg N x) f)) (body_fixed x f).
Proof.
  unfold display. rewrite push_sign_ok. fold (body_fixed x f). unfold omap.
  destruct (body_fixed x f) as [s|] eqn:E; cbn [obind]; [|reflexivity].
  apply align_and_fill_ok. now apply body_fixed_ne.
Qed.
Definition exp_tail (marker : Z) (x : T) : text :=
  if s_finite N x then marker :: i32_text (if s_zero N x then 0 else dec_exp lm (fabs (s_hi N x))) else [].
Lemma display_exp_body mk x f : display_exp N lm dbg mk x f = omap (fun s => padded f (sign_shown (s_neg N x) f) (s ++ exp_tail mk x)) (body_exp x f).
Proof.
  unfold display_exp. rewrite push_sign_ok. unfold omap.
  destruct (body_exp x f) as [s|] eqn:E; unfold body_exp in E; rewrite E; cbn [obind]; [|reflexivity].
  unfold exp_tail, push_exp. replace (if s_finite N x then _ else s) with (s ++ exp_tail mk x)
    by (unfold exp_tail; destruct (s_finite N x); [now rewrite <- app_assoc|apply app_nil_r]).
  apply align_and_fill_ok. intros H. apply app_ne. now apply (body_exp_ne x f).
Qed.
Lemma padded_no_width f s sg : padded (no_width f) sg s = s. Proof. reflexivity. Qed.
Lemma body_fixed_no_width x f : body_fixed x (no_width f) = body_fixed x f. Proof. reflexivity. Qed.
Lemma body_exp_no_width x f : body_exp x (no_width f) = body_exp x f. Proof. reflexivity. Qed.
Lemma omap_id {A} (o : outcome A) g : (forall a, g a = a) -> omap g o = o.
Proof. intros H. destruct o; [|reflexivity]. unfold omap. cbn [obind]. now rewrite H. Qed.

(** width, fill, alignment: the padded text of the unpadded text *)
Lemma display_pads x f : display N lm dbg x f = omap (padded f (sign_shown (s_neg N x) f)) (display N lm dbg x (no_width f)).
Proof. rewrite !display_body, body_fixed_no_width. f_equal. symmetry. apply omap_id. intros a. apply padded_no_width. Qed.
Lemma display_exp_pads mk x f : display_exp N lm dbg mk x f = omap (padded f (sign_shown (s_neg N x) f)) (display_exp N lm dbg mk x (no_width f)).
Proof. rewrite !display_exp_body, body_exp_no_width. destruct (body_exp x f); reflexivity. Qed.

(** infinities, NaN, zero *)
Lemma display_nan x f : s_nan N x = true -> display N lm dbg x f = Val (padded f (sign_shown (s_neg N x) f) (sign_text (s_neg N x) f ++ t_NaN)).
Proof. intros H. rewrite display_body. unfold body_fixed. rewrite H. reflexivity. Qed.
Lemma display_inf x f : s_nan N x = false -> s_infinite N x = true -> display N lm dbg x f = Val (padded f (sign_shown (s_neg N x) f) (sign_text (s_neg N x) f ++ t_inf)).
Proof. intros H H1. rewrite display_body. unfold body_fixed. rewrite H, H1. reflexivity. Qed.
Lemma push_zero_text r f : push_zero r f = r ++ fixed_text [0] (repeat 0 (match f_prec f with Some p => p | None => 0%nat end)).
Proof.
  unfold push_zero, fixed_text. destruct (f_prec f) as [[|p]|]; cbn [Nat.ltb Nat.leb map repeat app]; try reflexivity.
  rewrite <- !app_assoc. cbn [app]. do 4 f_equal. induction p; [reflexivity|]. cbn [repeat map]. now rewrite <- IHp.
Qed.
Lemma display_zero x f : s_nan N x = false -> s_infinite N x = false -> s_zero N x = true ->
  display N lm dbg x f = Val (padded f (sign_shown (s_neg N x) f) (sign_text (s_neg N x) f ++ fixed_text [0] (repeat 0 (match f_prec f with Some p => p | None => 0%nat end)))).
Proof. intros H H1 H2. rewrite display_body. unfold body_fixed. rewrite H, H1, H2, push_zero_text. reflexivity. Qed.
Lemma display_exp_zero mk x f : s_nan N x = false -> s_infinite N x = false -> s_zero N x = true -> s_finite N x = true ->
  display_exp N lm dbg mk x f = Val (padded f (sign_shown (s_neg N x) f) (sign_text (s_neg N x) f ++ fixed_text [0] (repeat 0 (match f_prec f with Some p => p | None => 0%nat end)) ++ [mk; 48])).
Proof. intros H H1 H2 H3. rewrite display_exp_body. unfold body_exp, exp_tail. rewrite H, H1, H2, H3, push_zero_text. unfold omap. cbn [obind]. now rewrite <- app_assoc. Qed.

(** finite nonzero *)
Lemma display_fixed x f ds : s_nan N x = false -> s_infinite N x = false -> s_zero N x = false ->
  let e := dec_exp lm (s_hi N (s_abs N x)) in
  extract_digits N dbg (s_abs N x) e = Val ds -> decimals ds -> hd 0 ds <> 0 -> i32_min < e < i32_max ->
  exists ip fp, display N lm dbg x f = Val (padded f (sign_shown (s_neg N x) f) (sign_text (s_neg N x) f ++ fixed_text ip fp)) /\
    decimals ip /\ decimals fp /\
    (Z.of_nat (length ip) = Z.max 0 e + 1 \/ (f_prec f <> None /\ Z.of_nat (length ip) = Z.max 0 e + 2)) /\
    (hd 0 ip <> 0 \/ ip = [0]) /\
    match f_prec f with
    | None => fixed_val ip fp = digits_val ds e /\ (fp <> [] -> last fp 0 <> 0)
    | Some p => length fp = p /\ fixed_val ip fp = half_up p (digits_val ds e)
    end.
Proof.
  intros H1 H2 H3 e He D Hd Hr. destruct (fix_chain_ok dbg ds e (f_prec f) D Hd Hr) as [ip [fp [E R]]].
  exists ip, fp. split; [|exact R]. rewrite display_body. unfold body_fixed. rewrite H1, H2, H3. unfold push_digits_fixed. fold e. rewrite He.
  cbn [obind]. unfold fix_chain in E.
  destruct (adjust_zeros _ _ _); cbn [obind] in E |- *; try discriminate.
  destruct (adjust_prec _ _ _ _); cbn [obind] in E |- *; try discriminate. rewrite E. reflexivity.
Qed.
Lemma display_exp_digits x f ds : s_nan N x = false -> s_infinite N x = false -> s_zero N x = false -> s_finite N x = true ->
  fabs (s_hi N x) = s_hi N (s_abs N x) ->
  let e := dec_exp lm (s_hi N (s_abs N x)) in
  extract_digits N dbg (s_abs N x) e = Val ds -> decimals ds -> hd 0 ds <> 0 -> i32_min <= e <= i32_max ->
  exists ip fp et, (forall mk, display_exp N lm dbg mk x f = Val (padded f (sign_shown (s_neg N x) f) (sign_text (s_neg N x) f ++ fixed_text ip fp ++ mk :: et))) /\
    int_text e et /\ decimals ip /\ decimals fp /\ hd 0 ip <> 0 /\
    (length ip = 1%nat \/ (f_prec f <> None /\ length ip = 2%nat)) /\
    match f_prec f with
    | None => fixed_val ip fp = digits_val ds 0 /\ (fp <> [] -> last fp 0 <> 0)
    | Some p => length fp = p /\ fixed_val ip fp = half_up p (digits_val ds 0)
    end.
Proof.
  intros H1 H2 H3 H4 Hs e He D Hd Hr. destruct (fix_chain_ok dbg ds 0 (f_prec f) D Hd ltac:(unfold i32_min, i32_max; lia)) as [ip [fp [E [Di [Df [Li [Hi R]]]]]]].
  exists ip, fp, (i32_text e). split.
  { intros mk. rewrite display_exp_body. unfold body_exp, exp_tail. rewrite H1, H2, H3, H4. unfold push_digits_exp. fold e. rewrite He.
    cbn [obind]. unfold fix_chain in E.
    destruct (adjust_zeros _ _ _); cbn [obind] in E |- *; try discriminate.
    destruct (adjust_prec _ _ _ _); cbn [obind] in E |- *; try discriminate. rewrite E. unfold omap. cbn [obind]. rewrite Hs. fold e. now rewrite <- app_assoc. }
  split; [now apply i32_text_ok|]. split; auto. split; auto.
  assert (V : (1 <= digits_val ds 0)%R).
  { unfold digits_val. destruct ds as [|d ds]; [easy|]. cbn [hd] in Hd. cbn [length]. rewrite dec_val_cons.
    replace (0 + 1 - Z.of_nat (S (length ds))) with (- Z.of_nat (length ds)) by lia. rewrite pz_neg.
    assert (R1 := dec_val_range ds ltac:(now inversion D)). assert (1 <= d) by (inversion_clear D; lia).
    assert (P := pw_pos (length ds)). apply Rmult_le_reg_r with (10 ^ length ds)%R; auto. rewrite Rmult_assoc, Rinv_l, Rmult_1_r, Rmult_1_l by lra.
    rewrite <- IZR_p10. apply IZR_le. nia. }
  split; [|split; auto; destruct Li as [Li|[Lp Li]]; [left|right; split; auto]; lia].
  destruct Hi as [Hi| ->]; auto. exfalso.
  assert (R1 := dec_val_range fp Df).
  assert (F : (fixed_val [0%Z] fp < 1)%R).
  { unfold fixed_val. cbn [app]. rewrite dec_val_cons, Z.mul_0_l, Z.add_0_l. assert (P := pw_pos (length fp)).
    apply Rmult_lt_reg_r with (10 ^ length fp)%R; auto. unfold Rdiv. rewrite Rmult_assoc, Rinv_l, Rmult_1_r, Rmult_1_l by lra. rewrite <- IZR_p10. now apply IZR_lt. }
  destruct (f_prec f) as [p|]; [|destruct R as [R _]; lra].
  destruct R as [_ R]. rewrite R in F. unfold half_up in F. assert (P := pw_pos p).
  assert (K : (10 ^ Z.of_nat p <= Zfloor (digits_val ds 0 * 10 ^ p + / 2))%Z). { apply Zfloor_lub. rewrite IZR_p10. nra. }
  apply IZR_le in K. rewrite IZR_p10 in K. apply Rmult_lt_compat_r with (r := (10 ^ p)%R) in F; auto.
  unfold Rdiv in F. rewrite Rmult_assoc, Rinv_l, Rmult_1_r, Rmult_1_l in F by lra. lra.
Qed.
End G.
