(** * Digit vectors that may contain a ten *)
From Coq Require Import ZArith Reals Lra Lia Psatz Bool List.
From Flocq Require Import Core IEEE754.BinarySingleNaN.
From Verif Require Import RN F64 Prim DoubleM Spec F64Facts EFT DWAdd DAddProofs DMulProofs ExactProofs RoundProofs DDivProofs MulAny
  ParseM ParseSpec ParseNum DisplayM DisplaySpec DisplayProofs DisplayText ExtractProofs.
Import ListNotations.
Local Open Scope Z_scope.

Definition dig10 (l : list Z) : Prop := Forall (fun d => 0 <= d <= 10) l.
Lemma dig10_app a b : dig10 (a ++ b) <-> dig10 a /\ dig10 b. Proof. apply Forall_app. Qed.
Lemma dig10_1 d : 0 <= d <= 10 -> dig10 [d]. Proof. intros H. constructor; [exact H|constructor]. Qed.
Lemma dig10_zeros n : dig10 (repeat 0 n). Proof. induction n; constructor; [lia|exact IHn]. Qed.
Lemma decimals_dig10 l : dig10 l -> ~ In 10 l -> decimals l.
Proof. induction 1 as [|d l D F IH]; intros N; constructor; [destruct (Z.eq_dec d 10) as [->|]; [exfalso; apply N; now left|lia]|apply IH; intros H; apply N; now right]. Qed.
Lemma tens_snoc k l d : tens k (l ++ [d]) <-> tens k l /\ (last l 0 = 10 -> 0 <= d <= k).
Proof.
  induction l as [|a l IH]; [cbn; intuition lia|]. destruct l as [|b l].
  - cbn. tauto.
  - change ((a :: b :: l) ++ [d]) with (a :: (b :: l) ++ [d]). cbn [tens]. change ((b :: l) ++ [d]) with (b :: l ++ [d]) at 1.
    rewrite IH. cbn [tens]. change (last (a :: b :: l) 0) with (last (b :: l) 0). tauto.
Qed.
Lemma tens_mono k k' l : k <= k' -> tens k l -> tens k' l.
Proof.
  intros H. induction l as [|a [|b l] IH]; auto. intros [A B]. split; [intros E; specialize (A E); lia|apply IH, B].
Qed.
Lemma tens_app_l k a b : tens k (a ++ b) -> tens k a.
Proof. induction b as [|x b IH] using rev_ind; [now rewrite app_nil_r|]. rewrite app_assoc. intros H. apply tens_snoc in H. tauto. Qed.
Lemma tens_zeros_r k a n : 0 <= k -> tens k a -> tens k (a ++ repeat 0 n).
Proof.
  intros K H. induction n; [now rewrite app_nil_r|]. replace (repeat 0 (S n)) with (repeat 0 n ++ [0]) by (symmetry; apply repeat_cons).
  rewrite app_assoc. apply tens_snoc. split; [exact IHn|]. intros _. lia.
Qed.
Lemma tens_zeros_l k a n : tens k a -> tens k (repeat 0 n ++ a).
Proof. intros H. induction n; [exact H|]. cbn [repeat app tens]. split; [lia|exact IHn]. Qed.

Lemma last_snoc (l : list Z) a d : last (l ++ [a]) d = a. Proof. apply last_last. Qed.
Lemma carry_any dbg k a : 0 <= k <= 8 -> forall d b, dig10 a -> tens k a -> 0 <= d <= 10 -> (last a 0 = 10 -> d <= k + 1) ->
  exists r, carry dbg (a ++ d :: b) (length a) = Val (r ++ b) /\ length r = S (length a) /\ dec_val r = dec_val (a ++ [d]) /\
    dig10 r /\ tens (k + 1) r /\ (In 10 a -> In 10 r).
Proof.
  intros Hk. induction a as [|x a IH] using rev_ind; intros d b Da Ta Hd Hl.
  - cbn [length app carry]. change (get (d :: b) 0) with (@Val Z d). cbn [obind].
    exists [d]. replace (if d =? 10 then Val (d :: b) else Val (d :: b)) with (@Val (list Z) (d :: b)) by now destruct (d =? 10).
    do 3 (split; [reflexivity|]). split; [now apply dig10_1|]. split; [cbn; auto|intros []].
  - apply dig10_app in Da. destruct Da as [Da Dx]. inversion_clear Dx as [|? ? Hx _].
    assert (Ta' := Ta). apply tens_snoc in Ta. destruct Ta as [Ta Tx]. rewrite last_snoc in Hl.
    rewrite app_length; cbn [length]. rewrite Nat.add_comm. cbn [Nat.add carry].
    replace (S (length a)) with (length (a ++ [x])) by (rewrite app_length; cbn; lia). rewrite get_app. cbn [obind].
    destruct (Z.eqb_spec d 10) as [->|ND].
    + rewrite set_app. unfold incr_at. rewrite <- app_assoc. cbn [app]. rewrite get_app. cbn [obind].
      replace (x =? 255) with false by (symmetry; apply Z.eqb_neq; lia). rewrite set_app. cbn [obind].
      assert (NX : x <> 10) by (intros ->; specialize (Hl eq_refl); lia).
      destruct (IH (x + 1) (0 :: b)) as [r [E [L [Vr [Dr [Tr Ir]]]]]]; [auto|auto|lia|intros K; specialize (Tx K); lia|].
      exists (r ++ [0]). rewrite E. rewrite <- app_assoc. split; [reflexivity|].
      rewrite app_length, L. cbn [length]. split; [rewrite app_length; cbn; lia|]. split.
      * rewrite dec_val_snoc, Vr, !dec_val_snoc. lia.
      * split; [apply dig10_app; split; auto; apply dig10_1; lia|]. split; [apply tens_snoc; split; auto; intros; lia|].
        intros K. apply in_app_or in K. destruct K as [K|[K|[]]]; [apply in_or_app; left; auto|easy].
    + exists ((a ++ [x]) ++ [d]). rewrite <- (app_assoc _ [d] b). split; [reflexivity|]. rewrite !app_length; cbn [length]. split; [lia|].
      split; [reflexivity|]. split; [repeat (apply dig10_app; split); auto; apply dig10_1; lia|].
      split; [apply tens_snoc; split; [apply tens_mono with k; [lia|exact Ta']|rewrite last_snoc; intros K; specialize (Hl K); lia]|].
      intros K. apply in_or_app. now left.
Qed.
Lemma round_any dbg k l n : 0 <= k <= 4 -> dig10 l -> tens k l -> (0 < n < length l)%nat ->
  exists r d, round_and_trunc dbg l (Z.of_nat n) = Val r /\ length r = n /\ dig10 r /\ tens (k + 1) r /\
    (In 10 (firstn n l) -> In 10 r) /\ nth n l 0 = d /\ 0 <= d <= 10 /\
    dec_val r = if 5 <=? d then dec_val (firstn n l) + 1 else dec_val (firstn n l).
Proof.
  intros Hk D Tl [Hn Hl]. destruct (nth_error l n) as [d|] eqn:E; [|apply nth_error_None in E; lia].
  destruct (nth_error_split l n E) as [a [b [-> La]]]. subst n.
  apply dig10_app in D. destruct D as [Da Db]. inversion_clear Db as [|? ? Hd Db'].
  assert (Td : tens k (a ++ [d])). { apply tens_app_l with b. rewrite <- app_assoc. exact Tl. }
  apply tens_snoc in Td. destruct Td as [Ta Td].
  assert (FA : firstn (length a) (a ++ d :: b) = a) by (rewrite firstn_app, Nat.sub_diag, firstn_all; cbn [firstn]; apply app_nil_r).
  rewrite FA. unfold round_and_trunc. replace (Z.of_nat (length a) <? 0) with false by (symmetry; apply Z.ltb_ge; lia).
  rewrite Nat2Z.id, get_app. cbn [obind]. destruct (Z.leb_spec 5 d) as [L5|L5].
  - destruct a as [|x a _] using rev_ind; [cbn in Hn; lia|]. rewrite last_snoc in Td.
    apply dig10_app in Da. destruct Da as [Da Dx]. inversion_clear Dx as [|? ? Hx _].
    apply tens_snoc in Ta. destruct Ta as [Ta Tx].
    assert (NX : x <> 10) by (intros ->; specialize (Td eq_refl); lia).
    replace (length (a ++ [x])) with (S (length a)) by (rewrite app_length; cbn; lia).
    unfold incr_at. rewrite <- app_assoc. cbn [app]. rewrite get_app. cbn [obind].
    replace (x =? 255) with false by (symmetry; apply Z.eqb_neq; lia). rewrite set_app. cbn [obind].
    destruct (carry_any dbg k a ltac:(lia) (x + 1) (d :: b) Da Ta ltac:(lia)) as [r [E' [L [Vr [Dr [Tr Ir]]]]]]; [intros K; specialize (Tx K); lia|].
    rewrite E'. cbn [obind].
    exists r, d. rewrite <- L.
    rewrite firstn_app, Nat.sub_diag, firstn_all. cbn [firstn]. rewrite app_nil_r. split; [reflexivity|]. split; [reflexivity|].
    split; auto. split; auto. split; [intros K; apply in_app_or in K; destruct K as [K|[K|[]]]; auto; easy|].
    split; [|split; [lia|]]. 
    { rewrite L. replace (a ++ x :: d :: b) with ((a ++ [x]) ++ d :: b) by (now rewrite <- app_assoc). replace (S (length a)) with (length (a ++ [x])) by (rewrite app_length; cbn; lia). apply nth_middle. }
    destruct (Z.leb_spec 5 d); [|lia]. rewrite Vr, !dec_val_snoc. lia.
  - cbn [obind]. exists a, d. rewrite FA. split; [reflexivity|]. split; [reflexivity|]. split; auto. split; [apply tens_mono with k; [lia|auto]|].
    split; auto. split; [apply nth_middle|]. split; [lia|]. destruct (Z.leb_spec 5 d); [lia|reflexivity].
Qed.

(** nothing after the extraction panics *)
Lemma digit_chars_10 l : dig10 l -> exists c, digit_chars l = Val (map digit_char c) /\ decimals c /\ (length l <= length c <= 2 * length l)%nat.
Proof.
  induction 1 as [|d l D F [c [E [Dc L]]]]; [exists []; cbn; split; auto; split; [constructor|lia]|]. cbn [digit_chars]. rewrite E.
  destruct (Z.eqb_spec d 10) as [->|N].
  - cbn [obind]. exists (1 :: 0 :: c). split; [reflexivity|]. split; [constructor; [lia|constructor; [lia|auto]]|]. cbn [length]. lia.
  - replace ((0 <=? d) && (d <? 10)) with true by (symmetry; apply andb_true_iff; split; [apply Z.leb_le|apply Z.ltb_lt]; lia).
    cbn [obind]. exists (d :: c). split; [reflexivity|]. split; [constructor; [lia|auto]|]. cbn [length]. lia.
Qed.
Lemma place_decimal_10 l exp : dig10 l -> l <> [] -> exists ip fp, place_decimal l exp = Val (fixed_text ip fp) /\ decimals ip /\ decimals fp /\ ip <> [] /\ (length ip + length fp <= 2 * length l)%nat.
Proof.
  intros D NE. unfold place_decimal. destruct (digit_chars_10 l D) as [c [E [Dc L]]]. destruct l as [|d l]; [easy|].
  change (get (d :: l) 0) with (@Val Z d). cbn [obind]. rewrite E. cbn [obind]. rewrite map_length.
  set (k := (Z.to_nat (Z.max 0 exp) + (if (d =? 10)%Z then 1 else 0) + 1)%nat). assert (K0 : (0 < k)%nat) by (unfold k; lia).
  destruct (Nat.ltb_spec k (length c)) as [P|P].
  - unfold insert_at. rewrite map_length, leb_correct by lia. exists (firstn k c), (skipn k c).
    assert (Ls : length (skipn k c) = (length c - k)%nat) by apply skipn_length. assert (Lf : length (firstn k c) = k) by (rewrite firstn_length; lia).
    split; [|split; [|split; [|split]]].
    + f_equal. unfold fixed_text. rewrite firstn_map, skipn_map. f_equal. destruct (skipn k c); [cbn in Ls; lia|reflexivity].
    + rewrite <- (firstn_skipn k c) in Dc. apply decimals_app in Dc. tauto.
    + rewrite <- (firstn_skipn k c) in Dc. apply decimals_app in Dc. tauto.
    + intros Kn. rewrite Kn in Lf. cbn in Lf. lia.
    + rewrite Ls, Lf. lia.
  - exists c, []. split; [unfold fixed_text; now rewrite app_nil_r|]. split; auto. split; [constructor|]. split; [intros ->; cbn in L; lia|]. cbn [length]. cbn [length] in L. lia.
Qed.
Lemma fix_chain_any dbg ds e prec : dig10 ds -> tens 1 ds -> ds <> [] -> i32_min < e < i32_max ->
  exists ip fp, fix_chain dbg ds e prec = Val (fixed_text ip fp) /\ decimals ip /\ decimals fp /\ ip <> [] /\
    (prec = None -> Z.of_nat (length ip + length fp) <= 2 * (2 * Z.abs e + 1 + Z.of_nat (length ds)))%Z.
Proof.
  intros D Tn NE He. destruct (adjust_zeros_ok dbg ds e NE He) as [m [Hm [Es [Ea [M1 M2]]]]].
  unfold fix_chain. rewrite Ea. cbn [obind].
  set (l := repeat 0 (Z.to_nat (- e)) ++ firstn m ds ++ repeat 0 (Z.to_nat (e + 1 - Z.of_nat (length ds)))).
  assert (Df : dig10 (firstn m ds) /\ tens 1 (firstn m ds)).
  { rewrite Es in D, Tn. apply dig10_app in D. apply tens_app_l in Tn. tauto. }
  assert (Dl : dig10 l) by (unfold l; rewrite !dig10_app; repeat split; try apply dig10_zeros; tauto).
  assert (Tl : tens 1 l) by (apply tens_zeros_l, tens_zeros_r; [lia|tauto]).
  assert (Ll : (0 < length l)%nat). { unfold l. rewrite !app_length, firstn_length. lia. }
  assert (NEl : l <> []) by (intros K; rewrite K in Ll; cbn in Ll; lia).
  destruct prec as [p|]; cbn [adjust_prec obind].
  2: { destruct (place_decimal_10 l e Dl NEl) as [ip [fp [P1 [P2 [P3 [P4 P5]]]]]]. exists ip, fp. split; [auto|]. split; [auto|]. split; [auto|]. split; [auto|]. intros _.
       assert (Lb : Z.of_nat (length l) <= 2 * Z.abs e + 1 + Z.of_nat (length ds)) by (unfold l; rewrite !app_length, !repeat_length, firstn_length; lia). lia. }
  assert (W : forall r, dig10 r -> r <> [] -> exists ip fp, place_decimal r e = Val (fixed_text ip fp) /\ decimals ip /\ decimals fp /\ ip <> [] /\
    (Some p = None -> Z.of_nat (length ip + length fp) <= 2 * (2 * Z.abs e + 1 + Z.of_nat (length ds)))%Z).
  { intros r Dr NEr. destruct (place_decimal_10 r e Dr NEr) as [ip [fp [P1 [P2 [P3 [P4 P5]]]]]]. exists ip, fp. repeat (split; [assumption|]). discriminate. }
  set (n := if e <? 0 then (p + 1)%nat else (Z.to_nat e + p + 1)%nat). assert (N0 : (0 < n)%nat) by (unfold n; destruct (e <? 0); lia).
  destruct (Nat.ltb_spec (length l) n) as [L|L]; cbn [obind].
  { apply W; [apply dig10_app; split; auto; apply dig10_zeros|]. intros K. apply app_eq_nil in K. easy. }
  destruct (Nat.ltb_spec n (length l)) as [L'|L'].
  - destruct (round_any dbg 1 l n ltac:(lia) Dl Tl ltac:(lia)) as [r [d [Er [Lr [Dr _]]]]]. rewrite Er. cbn [obind].
    apply W; auto. intros ->. cbn in Lr. lia.
  - cbn [obind]. apply W; auto.
Qed.
