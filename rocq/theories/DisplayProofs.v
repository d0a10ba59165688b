(** * Formatting of digit vectors and padding *)
From Coq Require Import ZArith Lia List Bool.
From Verif Require Import F64 Prim DoubleM QuadM ParseM ParseSpec ParseProofs ParseNum DisplayM DisplaySpec.
Import ListNotations.
Local Open Scope Z_scope.

(** ** padding *)
Lemma push_n_ok n : forall s c, push_n n s c = s ++ repeat c n.
Proof. induction n; intros s c; cbn; [now rewrite app_nil_r|]. rewrite IHn, <- app_assoc. reflexivity. Qed.
Lemma insert_n_0 n : forall s c, insert_n n s 0 c = Val (repeat c n ++ s).
Proof.
  induction n; intros s c; [reflexivity|]. cbn [insert_n insert_at Nat.leb obind firstn skipn app].
  rewrite IHn. f_equal. change (c :: s) with ([c] ++ s). rewrite app_assoc. change (repeat c (S n)) with ([c] ++ repeat c n).
  f_equal. now rewrite <- repeat_cons.
Qed.
Lemma insert_n_1 n : forall a s c, insert_n n (a :: s) 1 c = Val (a :: repeat c n ++ s).
Proof.
  induction n; intros a s c; [reflexivity|]. cbn [insert_n insert_at length Nat.leb obind firstn skipn app].
  rewrite IHn. do 2 f_equal. change (c :: s) with ([c] ++ s). rewrite app_assoc. change (repeat c (S n)) with ([c] ++ repeat c n).
  f_equal. now rewrite <- repeat_cons.
Qed.
Lemma align_and_fill_ok s signed f : (signed = true -> s <> []) -> align_and_fill s signed f = Val (padded f signed s).
Proof.
  intros NE. unfold align_and_fill, padded. destruct (f_width f) as [w|]; [|reflexivity].
  destruct (Nat.ltb_spec (length s) w) as [L|L].
  - destruct (f_align f) as [[]|].
    + now rewrite push_n_ok.
    + now rewrite insert_n_0.
    + rewrite insert_n_0. cbn [obind]. rewrite push_n_ok, Nat.div2_div, <- app_assoc. reflexivity.
    + destruct (f_zero f).
      * destruct signed; [destruct s as [|c s]; [now destruct NE|]; now rewrite insert_n_1|]. rewrite insert_n_0. destruct s; [now rewrite app_nil_r|reflexivity].
      * now rewrite insert_n_0.
  - replace (w - length s)%nat with O by lia. destruct (f_align f) as [[]|]; cbn [repeat Nat.div Nat.divmod fst Nat.sub app]; rewrite ?app_nil_r; auto.
    destruct (f_zero f); auto. destruct s; auto. now destruct signed.
Qed.
Lemma padded_length f signed s : length (padded f signed s) = match f_width f with Some w => Nat.max w (length s) | None => length s end.
Proof.
  unfold padded. destruct (f_width f) as [w|]; [|reflexivity].
  destruct (f_align f) as [[]|]; rewrite ?app_length, ?repeat_length; try lia.
  - assert (((w - length s) / 2 <= w - length s)%nat) by (apply Nat.div_le_upper_bound; lia). lia.
  - destruct (f_zero f); [destruct s as [|c s]; [|destruct signed]|]; cbn [length]; rewrite ?app_length, ?repeat_length; cbn [length]; lia.
Qed.

(** ** decimal values *)
Lemma dec_val_fold l : forall a, fold_left (fun a d => 10 * a + d) l a = a * 10 ^ Z.of_nat (length l) + dec_val l.
Proof.
  unfold dec_val. induction l as [|d l IH]; intros a; cbn [fold_left length]; [change (10 ^ Z.of_nat 0) with 1; lia|].
  rewrite (IH (10 * a + d)), (IH (10 * 0 + d)). rewrite Nat2Z.inj_succ, Z.pow_succ_r by lia. ring.
Qed.
Lemma dec_val_app a b : dec_val (a ++ b) = dec_val a * 10 ^ Z.of_nat (length b) + dec_val b.
Proof. unfold dec_val at 1. rewrite fold_left_app. apply dec_val_fold. Qed.
Lemma dec_val_cons d l : dec_val (d :: l) = d * 10 ^ Z.of_nat (length l) + dec_val l.
Proof. change (d :: l) with ([d] ++ l). now rewrite dec_val_app. Qed.
Lemma dec_val_zeros n : dec_val (repeat 0 n) = 0.
Proof. induction n; [reflexivity|]. cbn [repeat]. rewrite dec_val_cons, IHn. lia. Qed.
Lemma decimals_app a b : decimals (a ++ b) <-> decimals a /\ decimals b.
Proof. apply Forall_app. Qed.
Lemma decimals_zeros n : decimals (repeat 0 n).
Proof. apply Forall_forall. intros x H. apply repeat_spec in H. lia. Qed.
Lemma dec_val_range l : decimals l -> 0 <= dec_val l < 10 ^ Z.of_nat (length l).
Proof.
  induction 1 as [|d l D F IH]; [cbn; lia|]. rewrite dec_val_cons. cbn [length]. rewrite Nat2Z.inj_succ, Z.pow_succ_r by lia. nia.
Qed.
Lemma decimals_firstn n l : decimals l -> decimals (firstn n l).
Proof. intros H. rewrite <- (firstn_skipn n l) in H. now apply decimals_app in H. Qed.
Lemma decimals_skipn n l : decimals l -> decimals (skipn n l).
Proof. intros H. rewrite <- (firstn_skipn n l) in H. now apply decimals_app in H. Qed.

(** ** rounding *)
Lemma get_app a d b : get (a ++ d :: b) (length a) = Val d.
Proof. unfold get. rewrite nth_error_app2, Nat.sub_diag by lia. reflexivity. Qed.
Lemma set_app a d b e : set_nth (a ++ d :: b) (length a) e = a ++ e :: b.
Proof. induction a; cbn; [reflexivity|]. now rewrite IHa. Qed.
(** what carrying leaves of the first digits: either all fit, or the list is 10, 0, ..., 0 *)
Definition topped (l : list Z) : Prop := decimals l \/ exists n, l = 10 :: repeat 0 n.
Lemma carry_ok dbg a : forall d b, decimals a -> 0 <= d <= 10 ->
  exists r, carry dbg (a ++ d :: b) (length a) = Val (r ++ b) /\ length r = S (length a) /\ dec_val r = dec_val (a ++ [d]) /\
    (decimals r \/ r = 10 :: repeat 0 (length a)).
Proof.
  induction a as [|x a IH] using rev_ind; intros d b Da Hd.
  - cbn [length app carry]. change (get (d :: b) 0) with (@Val Z d). cbn [obind].
    exists [d]. replace (if d =? 10 then Val (d :: b) else Val (d :: b)) with (@Val (list Z) (d :: b)) by now destruct (d =? 10).
    split; [reflexivity|]. split; [reflexivity|]. split; [reflexivity|].
    destruct (Z.eq_dec d 10) as [->|]; [now right|left]. constructor; [lia|constructor].
  - apply decimals_app in Da. destruct Da as [Da Dx]. inversion_clear Dx as [|? ? Hx _].
    rewrite app_length; cbn [length]. rewrite Nat.add_comm. cbn [Nat.add carry].
    replace (S (length a)) with (length (a ++ [x])) by (rewrite app_length; cbn; lia). rewrite get_app. cbn [obind].
    destruct (Z.eqb_spec d 10) as [->|ND].
    + rewrite set_app. unfold incr_at. rewrite <- app_assoc. cbn [app]. rewrite get_app. cbn [obind].
      replace (x =? 255) with false by (symmetry; apply Z.eqb_neq; lia). rewrite set_app. cbn [obind].
      destruct (IH (x + 1) (0 :: b)) as [r [E [L [Vr C]]]]; [auto|lia|].
      exists (r ++ [0]). rewrite E. rewrite <- app_assoc. split; [reflexivity|].
      rewrite app_length, L. cbn [length]. split; [rewrite app_length; cbn; lia|]. split.
      * rewrite dec_val_snoc, Vr, !dec_val_snoc. lia.
      * destruct C as [C | ->]; [left; apply decimals_app; split; auto; constructor; [lia|constructor]|right].
        rewrite app_length; cbn [app length]. f_equal. rewrite Nat.add_1_r. cbn [repeat]. now rewrite repeat_cons.
    + exists ((a ++ [x]) ++ [d]). rewrite <- (app_assoc _ [d] b). split; [reflexivity|]. rewrite !app_length; cbn [length]. split; [lia|].
      split; [reflexivity|]. left. repeat (apply decimals_app; split); auto; constructor; try lia; constructor.
Qed.
Lemma round_div d : 0 <= d <= 9 -> forall q, (10 * q + d + 5) / 10 = if 5 <=? d then q + 1 else q.
Proof. intros H q. destruct (Z.leb_spec 5 d); symmetry; [apply Z.div_unique with (d - 5)|apply Z.div_unique with (d + 5)]; lia. Qed.
(** keeping n digits rounds half up *)
Lemma round_ok dbg l n : decimals l -> (0 < n < length l)%nat ->
  exists r, round_and_trunc dbg l (Z.of_nat n) = Val r /\ length r = n /\
    (decimals r \/ r = 10 :: repeat 0 (n - 1)) /\
    dec_val r = (dec_val l + 5 * 10 ^ Z.of_nat (length l - n - 1)) / 10 ^ Z.of_nat (length l - n).
Proof.
  intros D [Hn Hl]. destruct (nth_error l n) as [d|] eqn:E; [|apply nth_error_None in E; lia].
  destruct (nth_error_split l n E) as [a [b [-> La]]]. subst n.
  apply decimals_app in D. destruct D as [Da Db]. inversion_clear Db as [|? ? Hd Db'].
  assert (Rb := dec_val_range b Db').
  assert (ND : dec_val (a ++ d :: b) = (10 * dec_val a + d) * 10 ^ Z.of_nat (length b) + dec_val b).
  { rewrite dec_val_app, dec_val_cons. cbn [length]. rewrite Nat2Z.inj_succ, Z.pow_succ_r by lia. ring. }
  assert (LL : (length (a ++ d :: b) - length a = S (length b))%nat) by (rewrite app_length; cbn [length]; lia).
  replace (length (a ++ d :: b) - length a - 1)%nat with (length b) by lia. rewrite LL.
  assert (VV : (dec_val (a ++ d :: b) + 5 * 10 ^ Z.of_nat (length b)) / 10 ^ Z.of_nat (S (length b)) = if 5 <=? d then dec_val a + 1 else dec_val a).
  { rewrite <- (round_div d Hd). rewrite ND, Nat2Z.inj_succ, Z.pow_succ_r by lia. 
    assert (P10 : 0 < 10 ^ Z.of_nat (length b)) by (apply Z.pow_pos_nonneg; lia).
    rewrite (Z.mul_comm 10 (10 ^ _)), <- Z.div_div by lia.
    f_equal. symmetry. apply Z.div_unique with (dec_val b); [lia|ring]. }
  rewrite VV. unfold round_and_trunc. replace (Z.of_nat (length a) <? 0) with false by (symmetry; apply Z.ltb_ge; lia).
  rewrite Nat2Z.id, get_app. cbn [obind]. destruct (5 <=? d).
  - destruct a as [|x a _] using rev_ind; [cbn in Hn; lia|].
    apply decimals_app in Da. destruct Da as [Da Dx]. inversion_clear Dx as [|? ? Hx _].
    replace (length (a ++ [x])) with (S (length a)) by (rewrite app_length; cbn; lia).
    unfold incr_at. rewrite <- app_assoc. cbn [app]. rewrite get_app. cbn [obind].
    replace (x =? 255) with false by (symmetry; apply Z.eqb_neq; lia). rewrite set_app. cbn [obind].
    destruct (carry_ok dbg a (x + 1) (d :: b) Da ltac:(lia)) as [r [E' [L [Vr C]]]]. rewrite E'. cbn [obind].
    exists r. rewrite <- L, firstn_app, Nat.sub_diag, firstn_all. cbn [firstn]. rewrite app_nil_r. split; [reflexivity|]. split; [reflexivity|].
    split; [destruct C as [C | ->]; [now left|right]; cbn [length]; rewrite repeat_length; f_equal; f_equal; lia|].
    rewrite Vr, !dec_val_snoc. lia.
  - cbn [obind]. exists a. rewrite firstn_app, Nat.sub_diag, firstn_all. cbn [firstn]. rewrite app_nil_r. auto.
Qed.

(** ** trailing and leading zeros *)
Lemma zeros_len_ok l e1 : forall n, (0 < n <= length l)%nat -> exists m, zeros_len l e1 n = Val m /\ (0 < m <= n)%nat /\
  firstn n l = firstn m l ++ repeat 0 (n - m) /\ (m = n \/ Z.min (Z.of_nat n) e1 <= Z.of_nat m) /\
  (m = 1%nat \/ Z.of_nat m <= e1 \/ nth (m - 1) l 0 <> 0).
Proof.
  induction n as [|n IH]; [lia|]. intros H. cbn [zeros_len].
  destruct (nth_error l n) as [d|] eqn:E; [|apply nth_error_None in E; lia]. unfold get. rewrite E. cbn [obind].
  assert (NT : nth n l 0 = d) by now apply nth_error_nth.
  destruct (Z.eqb_spec d 0) as [->|ND], (Nat.ltb_spec 1 (S n)), (Z.ltb_spec e1 (Z.of_nat (S n))); cbn [andb].
  1: { destruct IH as [m [E' [Hm [F [C C2]]]]]; [lia|]. exists m. rewrite E'. split; [reflexivity|]. split; [lia|].
       split; [|split; [right; lia|exact C2]]. replace (S n - m)%nat with (S (n - m)) by lia.
       replace (firstn (S n) l) with (firstn n l ++ [0]).
       - rewrite F, <- app_assoc. f_equal. cbn [repeat]. now rewrite repeat_cons.
       - destruct (nth_error_split l n E) as [a [b [-> La]]]. subst n. rewrite !firstn_app, Nat.sub_diag, firstn_all.
         replace (S (length a) - length a)%nat with 1%nat by lia. rewrite (firstn_all2 (n := S (length a)) a) by lia. cbn. now rewrite app_nil_r. }
  all: exists (S n); split; [reflexivity|]; split; [lia|]; rewrite Nat.sub_diag; cbn [repeat]; rewrite app_nil_r; split; [reflexivity|]; split; [now left|].
  all: try (left; lia); try (right; left; lia); right; right; replace (S n - 1)%nat with n by lia; now rewrite NT.
Qed.

Lemma chk_in dbg z : i32_min <= z <= i32_max -> i32_chk dbg z = Val z.
Proof. intros H. unfold i32_chk. replace ((i32_min <=? z) && (z <=? i32_max)) with true; [reflexivity|]. symmetry. apply andb_true_iff. split; apply Z.leb_le; lia. Qed.
(** [adjust_zeros]: trailing zeros (of the fraction) removed, then the zeros
    between point and first digit, or between last digit and point, added *)
Lemma adjust_zeros_ok dbg l exp : l <> [] -> i32_min < exp < i32_max ->
  exists m, (0 < m <= length l)%nat /\ l = firstn m l ++ repeat 0 (length l - m) /\
    adjust_zeros dbg l exp = Val (repeat 0 (Z.to_nat (- exp)) ++ firstn m l ++ repeat 0 (Z.to_nat (exp + 1 - Z.of_nat (length l)))) /\
    (m = length l \/ exp + 1 <= Z.of_nat m) /\ (m = 1%nat \/ Z.of_nat m <= exp + 1 \/ nth (m - 1) l 0 <> 0).
Proof.
  intros NE He. assert (0 < length l)%nat by (destruct l; [easy|cbn; lia]).
  unfold i32_min, i32_max in *. unfold adjust_zeros. rewrite !chk_in by (unfold i32_min, i32_max; lia). cbn [obind].
  assert (EQ : forall r, (if exp <? 0 then if Z.abs exp <? 0 then Panicked else Val (repeat 0 (Z.to_nat (Z.abs exp)) ++ r)
     else Val (r ++ repeat 0 (Z.to_nat (Z.max 0 (Z.abs exp - Z.of_nat (length l) + 1))))) =
     Val (repeat 0 (Z.to_nat (- exp)) ++ r ++ repeat 0 (Z.to_nat (exp + 1 - Z.of_nat (length l))))).
  { intros r. destruct (Z.ltb_spec exp 0).
    - replace (Z.abs exp <? 0) with false by (symmetry; apply Z.ltb_ge; lia).
      replace (Z.to_nat (exp + 1 - Z.of_nat (length l))) with O by lia. replace (Z.abs exp) with (- exp) by lia. cbn [repeat]. now rewrite app_nil_r.
    - replace (Z.to_nat (- exp)) with O by lia. replace (Z.to_nat (Z.max 0 (Z.abs exp - Z.of_nat (length l) + 1))) with (Z.to_nat (exp + 1 - Z.of_nat (length l))) by lia. reflexivity. }
  destruct (Z.ltb_spec (exp + 1) (Z.of_nat (length l))) as [L|L].
  - destruct (zeros_len_ok l (exp + 1) (length l) ltac:(lia)) as [m [E [Hm [F [C C2]]]]]. exists m. rewrite E. cbn [obind].
    split; [lia|]. split; [now rewrite <- F, firstn_all|]. split; [apply EQ|]. split; [lia|exact C2].
  - exists (length l). split; [lia|]. split; [rewrite Nat.sub_diag, firstn_all; cbn [repeat]; now rewrite app_nil_r|].
    cbn [obind]. rewrite firstn_all. split; [apply EQ|]. split; [now left|right; left; lia].
Qed.
Lemma nat_pos_len a b : (a + (b - a))%nat = Nat.max a b. Proof. lia. Qed.
(** [adjust_prec] makes room for exactly p fraction digits, rounding half up *)
Lemma adjust_prec_ok dbg l exp p : decimals l -> l <> [] ->
  let n := (Z.to_nat (Z.max 0 exp) + 1 + p)%nat in
  exists r, adjust_prec dbg l exp (Some p) = Val r /\ length r = n /\ (decimals r \/ r = 10 :: repeat 0 (n - 1)) /\
    dec_val r = if (length l <=? n)%nat then dec_val l * 10 ^ Z.of_nat (n - length l)
                else (dec_val l + 5 * 10 ^ Z.of_nat (length l - n - 1)) / 10 ^ Z.of_nat (length l - n).
Proof.
  intros D NE n. unfold adjust_prec.
  replace (if exp <? 0 then (p + 1)%nat else (Z.to_nat exp + p + 1)%nat) with n by (unfold n; destruct (Z.ltb_spec exp 0); lia).
  destruct (Nat.ltb_spec (length l) n) as [L|L].
  - exists (l ++ repeat 0 (n - length l)). split; [reflexivity|]. rewrite app_length, repeat_length. split; [lia|].
    split; [left; apply decimals_app; split; [auto|apply decimals_zeros]|].
    rewrite (leb_correct _ _ (Nat.lt_le_incl _ _ L)). rewrite dec_val_app, dec_val_zeros, repeat_length. lia.
  - destruct (Nat.ltb_spec n (length l)) as [L'|L'].
    + destruct (round_ok dbg l n D) as [r [E [Lr [C Vr]]]]; [unfold n in *; lia|]. exists r. rewrite E. split; [reflexivity|]. split; [auto|]. split; [auto|].
      now rewrite (leb_correct_conv _ _ L').
    + assert (length l = n) by lia. exists l. split; [reflexivity|]. split; [auto|]. split; [now left|].
      rewrite H, Nat.leb_refl, Nat.sub_diag. change (10 ^ Z.of_nat 0) with 1. lia.
Qed.

(** ** placing the point *)
Lemma digit_chars_ok l : decimals l -> digit_chars l = Val (map digit_char l).
Proof.
  induction 1 as [|d l D F IH]; [reflexivity|]. cbn [digit_chars map]. rewrite IH.
  replace (d =? 10) with false by (symmetry; apply Z.eqb_neq; lia).
  replace ((0 <=? d) && (d <? 10)) with true by (symmetry; apply andb_true_iff; split; [apply Z.leb_le|apply Z.ltb_lt]; lia).
  reflexivity.
Qed.
Lemma place_text l pos : (0 < pos)%nat -> (if (pos <? length (map digit_char l))%nat then insert_at (map digit_char l) pos c_dot else Val (map digit_char l)) =
  Val (fixed_text (firstn pos l) (skipn pos l)).
Proof.
  intros Hp. rewrite map_length. unfold fixed_text. destruct (Nat.ltb_spec pos (length l)) as [L|L].
  - unfold insert_at. rewrite map_length, leb_correct by lia. rewrite firstn_map, skipn_map.
    destruct (skipn pos l) eqn:E; [|reflexivity]. apply (f_equal (@length Z)) in E. rewrite skipn_length in E. cbn in E. lia.
  - rewrite skipn_all2, firstn_all2 by lia. now rewrite app_nil_r.
Qed.
Lemma place_decimal_ok l exp : decimals l -> l <> [] -> let pos := (Z.to_nat (Z.max 0 exp) + 1)%nat in
  place_decimal l exp = Val (fixed_text (firstn pos l) (skipn pos l)).
Proof.
  intros D NE pos. unfold place_decimal. destruct l as [|d l]; [easy|]. change (get (d :: l) 0) with (@Val Z d). cbn [obind].
  assert (d <> 10) by (inversion_clear D; lia).
  replace (d =? 10) with false by (symmetry; now apply Z.eqb_neq). rewrite digit_chars_ok by auto. cbn [obind].
  rewrite Nat.add_0_r. apply place_text. lia.
Qed.
Lemma place_decimal_top n exp : let pos := (Z.to_nat (Z.max 0 exp) + 2)%nat in let l := 1 :: 0 :: repeat 0 n in
  place_decimal (10 :: repeat 0 n) exp = Val (fixed_text (firstn pos l) (skipn pos l)).
Proof.
  intros pos l. unfold place_decimal. change (get (10 :: repeat 0 n) 0) with (@Val Z 10). cbn [obind Z.eqb Pos.eqb].
  cbn [digit_chars Z.eqb Pos.eqb obind]. rewrite digit_chars_ok by apply decimals_zeros. cbn [obind].
  change ([c_one; c_zero] ++ map digit_char (repeat 0 n)) with (map digit_char l).
  replace (Z.to_nat (Z.max 0 exp) + 1 + 1)%nat with pos by (unfold pos; lia). apply place_text. unfold pos; lia.
Qed.
