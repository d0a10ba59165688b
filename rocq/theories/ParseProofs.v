(** * The parser's language and value (lemmas) *)
From Coq Require Import ZArith List Bool Lia.
From Verif Require Import F64 Prim DoubleM QuadM ParseM ParseSpec.
Import ListNotations.
Local Open Scope Z_scope.

Lemma to_digit_dig c : to_digit c = if is_dig c then Some (c - 48) else None.
Proof. reflexivity. Qed.

Lemma chk_in dbg z : i32_min <= z <= i32_max -> i32_chk dbg z = Val z.
Proof. intros H. unfold i32_chk. rewrite (proj2 (Z.leb_le _ _) (proj1 H)), (proj2 (Z.leb_le _ _) (proj2 H)). reflexivity. Qed.

Lemma digs_app a b : digs (a ++ b) = digs a ++ digs b.
Proof. unfold digs. now rewrite filter_app, map_app. Qed.
Lemma digs_len m : length (digs m) = length (filter is_dig m).
Proof. apply map_length. Qed.
Lemma count_app p a b : count p (a ++ b) = (count p a + count p b)%nat.
Proof. unfold count. now rewrite filter_app, app_length. Qed.

(** ** i32 literals *)
Lemma digits_val_spec s : forall acc, digits_val s acc = if forallb is_dig s then Some (fold_left (fun a d => 10 * a + d) (digs s) acc) else None.
Proof.
  induction s as [|c s IH]; intros acc; [reflexivity|]. cbn [digits_val forallb]. rewrite to_digit_dig.
  unfold digs. cbn [filter]. destruct (is_dig c) eqn:E; [|reflexivity]. cbn [andb map fold_left]. rewrite IH.
  destruct (forallb is_dig s); [|reflexivity]. do 2 f_equal. ring.
Qed.
Lemma dig_not_sgn c : is_dig c = true -> is_sgn c = false.
Proof. unfold is_dig, is_sgn, c_plus, c_minus. rewrite andb_true_iff, !Z.leb_le. intros H. apply orb_false_iff. rewrite !Z.eqb_neq. lia. Qed.
Lemma dec_val_nonneg l : Forall (fun d => 0 <= d) l -> 0 <= dec_val l.
Proof.
  unfold dec_val. intros H. assert (G : forall a, 0 <= a -> 0 <= fold_left (fun a d => 10 * a + d) l a).
  { induction H as [|d l0 Hd _ IH]; intros a Ha; cbn [fold_left]; auto. apply IH. cbn in Hd; lia. } apply G; lia.
Qed.
Lemma digs_nonneg m : Forall (fun d => 0 <= d <= 9) (digs m).
Proof.
  unfold digs. apply Forall_map. apply Forall_forall. intros c H. apply filter_In in H. destruct H as [_ H].
  unfold is_dig in H. rewrite andb_true_iff, !Z.leb_le in H. lia.
Qed.
Lemma dec_digs_nonneg m : 0 <= dec_val (digs m).
Proof. apply dec_val_nonneg. eapply Forall_impl; [|apply digs_nonneg]. intros d H; cbn in H; lia. Qed.

Lemma parse_i32_spec x e : parse_i32 x = Some e <-> i32_lit x e.
Proof.
  assert (CORE : forall (neg : bool) ds,
    (match ds with [] => None | _ => match digits_val ds 0 with
         | Some v => let v := if neg then - v else v in if (i32_min <=? v) && (v <=? i32_max) then Some v else None
         | None => None end end) = Some e <->
    (ds <> [] /\ forallb is_dig ds = true /\ e = (if neg then - dec_val (digs ds) else dec_val (digs ds)) /\ i32_min <= e <= i32_max)).
  { intros neg ds. destruct ds as [|c ds]; [split; [discriminate|intros [H _]; congruence]|].
    rewrite digits_val_spec. destruct (forallb is_dig (c :: ds)) eqn:F.
    - fold (dec_val (digs (c :: ds))). set (v := if neg then - dec_val (digs (c :: ds)) else dec_val (digs (c :: ds))). cbv zeta.
      split.
      + destruct (Z.leb_spec i32_min v), (Z.leb_spec v i32_max); try discriminate. intros [= <-]. repeat split; auto; discriminate.
      + intros [_ [_ [-> H]]]. fold v in H. rewrite (proj2 (Z.leb_le _ _) (proj1 H)), (proj2 (Z.leb_le _ _) (proj2 H)). reflexivity.
    - split; [discriminate|]. intros [_ [H _]]; discriminate. }
  unfold parse_i32. split.
  - destruct x as [|c s].
    + discriminate.
    + destruct (Z.eqb_spec c c_minus) as [->|N1]; [|destruct (Z.eqb_spec c c_plus) as [->|N2]]; intros H;
        [apply (proj1 (CORE true s)) in H|apply (proj1 (CORE false s)) in H|apply (proj1 (CORE false (c :: s))) in H];
        destruct H as [H1 [H2 [-> H3]]]; constructor; auto; lia.
  - intros H. destruct H as [ds H1 H2 H3|ds H1 H2 H3|ds H1 H2 H3].
    + destruct ds as [|c s]; [congruence|]. assert (D : is_dig c = true) by (cbn in H2; apply andb_true_iff in H2; tauto).
      apply dig_not_sgn in D. unfold is_sgn in D. apply orb_false_iff in D. destruct D as [D1 D2]. rewrite D1, D2.
      apply (proj2 (CORE false (c :: s))). repeat split; auto. generalize (dec_digs_nonneg (c :: s)). unfold i32_min. lia.
    + replace (c_plus =? c_minus) with false by reflexivity. replace (c_plus =? c_plus) with true by reflexivity.
      apply (proj2 (CORE false ds)). repeat split; auto. generalize (dec_digs_nonneg ds). unfold i32_min. lia.
    + replace (c_minus =? c_minus) with true by reflexivity.
      apply (proj2 (CORE true ds)). repeat split; auto. generalize (dec_digs_nonneg ds). unfold i32_max. lia.
Qed.

(** ** byte slicing after an ASCII prefix *)
Lemma mant_ascii c : is_mant c = true -> utf8_len c = 1.
Proof.
  unfold is_mant, is_dig, is_dot, is_sgn, c_dot, c_plus, c_minus, c_under, utf8_len.
  rewrite !orb_true_iff, andb_true_iff, !Z.leb_le, !Z.eqb_eq. intros H. destruct (Z.ltb_spec c 128); [reflexivity|lia].
Qed.
Lemma byte_suffix_mant p r : forallb is_mant p = true -> byte_suffix (p ++ r) (Z.of_nat (length p)) = Val r.
Proof.
  induction p as [|c p IH]; intros H. { destruct r; reflexivity. }
  cbn [forallb] in H. apply andb_true_iff in H. destruct H as [H1 H2].
  cbn [app length byte_suffix]. rewrite (mant_ascii c H1). destruct (Z.eqb_spec (Z.of_nat (S (length p))) 0); [lia|].
  destruct (Z.ltb_spec (Z.of_nat (S (length p))) 1); [lia|].
  replace (Z.of_nat (S (length p)) - 1) with (Z.of_nat (length p)) by lia. auto.
Qed.
Lemma byte_suffix_e p r : forallb is_mant p = true -> byte_suffix (p ++ c_e :: r) (Z.of_nat (length p) + 1) = Val r.
Proof.
  intros H. induction p as [|c p IH].
  - cbn. destruct r; reflexivity.
  - cbn [forallb] in H. apply andb_true_iff in H. destruct H as [H1 H2].
    cbn [app length byte_suffix]. rewrite (mant_ascii c H1). destruct (Z.eqb_spec (Z.of_nat (S (length p)) + 1) 0); [lia|].
    destruct (Z.ltb_spec (Z.of_nat (S (length p)) + 1) 1); [lia|].
    replace (Z.of_nat (S (length p)) + 1 - 1) with (Z.of_nat (length p) + 1) by lia. auto.
Qed.

(** ** extending a mantissa by one character *)
Lemma mant_ok_nil : mant_ok [].
Proof. split; [reflexivity|]. split; [cbn; lia|]. split; [cbn; lia|]. intros a c b H. destruct a; discriminate. Qed.

Lemma app_last_inv {A} (p : list A) x a c b : p ++ [x] = a ++ c :: b -> (b = [] /\ a = p /\ c = x) \/ (exists b', b = b' ++ [x] /\ p = a ++ c :: b').
Proof.
  intros H. destruct (exists_last (l := c :: b)) as [l' [y E]]; [discriminate|].
  rewrite E, app_assoc in H. apply app_inj_tail in H. destruct H as [H1 H2]. subst y.
  destruct l' as [|z l'].
  - cbn in E. injection E as -> ->. left. rewrite app_nil_r in H1. auto.
  - cbn in E. injection E as -> ->. right. exists l'. auto.
Qed.

Lemma mant_ok_prefix p x : mant_ok (p ++ x) -> mant_ok p.
Proof.
  intros [H1 [H2 [H3 H4]]]. rewrite forallb_app in H1. apply andb_true_iff in H1. rewrite count_app in H2, H3.
  split; [tauto|]. split; [lia|]. split; [lia|]. intros a c b E S. apply (H4 a c (b ++ x)); auto. rewrite E, <- app_assoc. reflexivity.
Qed.
Lemma mant_ok_snoc p c : mant_ok (p ++ [c]) <->
  mant_ok p /\ is_mant c = true /\ (is_dot c = true -> count is_dot p = 0%nat) /\
  (is_sgn c = true -> count is_sgn p = 0%nat /\ filter is_dig p = []).
Proof.
  split.
  - intros H. split; [now apply mant_ok_prefix in H|]. destruct H as [H1 [H2 [H3 H4]]].
    rewrite forallb_app in H1. apply andb_true_iff in H1. destruct H1 as [_ H1]. cbn in H1. rewrite andb_true_r in H1.
    rewrite count_app in H2, H3. unfold count in H2 at 2, H3 at 2. cbn [filter] in H2, H3.
    split; [auto|]. split.
    + intros D. rewrite D in H2. cbn in H2. lia.
    + intros D. rewrite D in H3. cbn in H3. split; [lia|]. apply (H4 p c []); auto.
  - intros [[H1 [H2 [H3 H4]]] [M [D S]]].
    assert (C : forall p0, count p0 [c] = if p0 c then 1%nat else 0%nat) by (intros p0; unfold count; cbn; destruct (p0 c); reflexivity).
    split; [|split; [|split]].
    + rewrite forallb_app, H1. cbn. now rewrite M.
    + rewrite count_app, C. destruct (is_dot c); [rewrite D by reflexivity; lia|lia].
    + rewrite count_app, C. destruct (is_sgn c); [rewrite (proj1 (S eq_refl)); lia|lia].
    + intros a c0 b E Sg. destruct (app_last_inv _ _ _ _ _ E) as [[-> [-> ->]]|[b' [-> ->]]]; [now apply S|].
      now apply (H4 a c0 b').
Qed.

(** ** the loop *)
Lemma existsb_count p m : existsb p m = negb (count p m =? 0)%nat.
Proof. unfold count. induction m as [|c m IH]; [reflexivity|]. cbn. destruct (p c); [reflexivity|exact IH]. Qed.
Lemma after_dot_app p c : after_dot (p ++ [c]) = if existsb is_dot p then after_dot p ++ [c] else [].
Proof. induction p as [|x p IH]; cbn. { destruct (is_dot c); reflexivity. } destruct (is_dot x); [reflexivity|exact IH]. Qed.

Section Loop.
Context {T : Type} (N : numops T) (dbg : bool).
Notation facc := (accumulate_digits N).
Lemma facc_snoc l d : facc (l ++ [d]) = n_add N (n_mul N (facc l) (n_ten N)) (n_digit N d).
Proof. unfold accumulate_digits. now rewrite fold_left_app. Qed.

Definition ndig (m : text) : Z := Z.of_nat (length (digs m)).
Definition st_of (m : text) (e : Z) : pst :=
  mkP (facc (digs m)) (ndig m) (if existsb is_dot m then ndig m - frac m else -1)
      (if existsb (fun c => c =? c_minus) m then -1 else if existsb (fun c => c =? c_plus) m then 1 else 0) e.

Lemma frac_le m : 0 <= frac m <= ndig m.
Proof.
  unfold frac, ndig. induction m as [|c m IH]; [cbn; lia|]. cbn [after_dot]. 
  change (c :: m) with ([c] ++ m). rewrite digs_app, app_length. destruct (is_dot c); lia.
Qed.
Lemma frac_snoc m c : frac (m ++ [c]) = if existsb is_dot m then frac m + ndig [c] else 0.
Proof. unfold frac. rewrite after_dot_app. destruct (existsb is_dot m); [|reflexivity]. rewrite digs_app, app_length. unfold ndig. lia. Qed.
Lemma ndig_snoc m c : ndig (m ++ [c]) = ndig m + ndig [c].
Proof. unfold ndig. rewrite digs_app, app_length. lia. Qed.
Lemma ndig1 c : ndig [c] = if is_dig c then 1 else 0.
Proof. unfold ndig, digs. cbn. destruct (is_dig c); reflexivity. Qed.
Lemma no_dot_frac m : existsb is_dot m = false -> frac m = 0.
Proof. unfold frac. induction m as [|c m IH]; [reflexivity|]. cbn. destruct (is_dot c); [discriminate|exact IH]. Qed.
Lemma ndig_nil m : filter is_dig m = [] <-> ndig m = 0.
Proof. unfold ndig. rewrite digs_len. destruct (filter is_dig m); cbn; split; intros; try reflexivity; try discriminate; lia. Qed.
Lemma signs_zero m : (if existsb (fun c => c =? c_minus) m then -1 else if existsb (fun c => c =? c_plus) m then 1 else 0) = 0 <-> count is_sgn m = 0%nat.
Proof.
  unfold count. induction m as [|c m IH]; [split; reflexivity|]. cbn [existsb filter]. unfold is_sgn at 1.
  destruct (c =? c_minus), (c =? c_plus); cbn [orb]; try exact IH.
  - split; intros H; [discriminate|cbn in H; discriminate].
  - split; intros H; [discriminate|cbn in H; discriminate].
  - split; intros H; [destruct (existsb (fun c0 => c0 =? c_minus) m); discriminate|cbn in H; discriminate].
Qed.
Lemma st_of_dig m c e : is_dig c = true -> is_dot c = false -> is_sgn c = false ->
  st_of (m ++ [c]) e = mkP (n_add N (n_mul N (facc (digs m)) (n_ten N)) (n_digit N (c - 48))) (ndig m + 1)
    (p_point (st_of m e)) (p_sign (st_of m e)) e.
Proof.
  intros D P S. unfold st_of. cbn [p_point p_sign]. rewrite !existsb_app, ndig_snoc, frac_snoc, ndig1, D. cbn [existsb]. rewrite P.
  unfold is_sgn in S. apply orb_false_iff in S. destruct S as [-> ->]. cbn [orb]. rewrite !orb_false_r.
  f_equal. { rewrite digs_app. unfold digs at 2. cbn [filter]. rewrite D. cbn [map]. apply facc_snoc. }
  destruct (existsb is_dot m) eqn:E; [lia|reflexivity].
Qed.
Lemma digs_nd m c : is_dig c = false -> digs (m ++ [c]) = digs m.
Proof. intros D. rewrite digs_app. unfold digs at 2. cbn. rewrite D. cbn. apply app_nil_r. Qed.
Lemma ndig_nd m c : is_dig c = false -> ndig (m ++ [c]) = ndig m.
Proof. intros D. unfold ndig. now rewrite digs_nd. Qed.



(** reading [rest] after the accepted prefix [p]: either it completes a number,
    or it is rejected *)
Lemma loop_spec s rest : forall p, s = p ++ rest -> mant_ok p -> short s ->
  (exists m x e, rest = m ++ x /\ mant_ok (p ++ m) /\ exp_part x e /\
     parse_loop N dbg s (Z.of_nat (length p)) rest (st_of p 0) = Val (Some (st_of (p ++ m) e))) \/
  (parse_loop N dbg s (Z.of_nat (length p)) rest (st_of p 0) = Val None /\
   forall m x e, rest = m ++ x -> mant_ok (p ++ m) -> exp_part x e -> False).
Proof.
  induction rest as [|c rest IH]; intros p ES MP SH.
  { left. exists [], [], 0. rewrite !app_nil_r. split; [reflexivity|]. split; [exact MP|]. split; [constructor|reflexivity]. }
  assert (IDX : Z.of_nat (length p) + 1 = Z.of_nat (length (p ++ [c]))) by (rewrite app_length; cbn; lia).
  assert (ES' : s = (p ++ [c]) ++ rest) by (now rewrite <- app_assoc).
  (* continuing with c accepted *)
  assert (GO : mant_ok (p ++ [c]) -> is_mant c = true ->
     parse_loop N dbg s (Z.of_nat (length p)) (c :: rest) (st_of p 0) = parse_loop N dbg s (Z.of_nat (length (p ++ [c]))) rest (st_of (p ++ [c]) 0) ->
     (exists m x e, c :: rest = m ++ x /\ mant_ok (p ++ m) /\ exp_part x e /\
       parse_loop N dbg s (Z.of_nat (length p)) (c :: rest) (st_of p 0) = Val (Some (st_of (p ++ m) e))) \/
     (parse_loop N dbg s (Z.of_nat (length p)) (c :: rest) (st_of p 0) = Val None /\
      forall m x e, c :: rest = m ++ x -> mant_ok (p ++ m) -> exp_part x e -> False)).
  { intros M MC ->. destruct (IH (p ++ [c]) ES' M SH) as [[m [x [e [E1 [E2 [E3 E4]]]]]]|[E1 E2]].
    - left. exists (c :: m), x, e. rewrite <- app_assoc in E2, E4. cbn [app] in *. subst rest. auto.
    - right. split; auto. intros m x e E Mm X. destruct m as [|c' m].
      + cbn in E. subst x. inversion X; subst. cbn in MC. discriminate.
      + cbn in E. injection E as <- E. apply (E2 m x e); auto. now rewrite <- app_assoc. }
  assert (STOP : ~ mant_ok (p ++ [c]) -> c <> c_e -> forall m x e, c :: rest = m ++ x -> mant_ok (p ++ m) -> exp_part x e -> False).
  { intros NM NE m x e E Mm X. destruct m as [|c' m].
    - cbn in E. subst x. inversion X; subst. congruence.
    - cbn in E. injection E as <- E. apply NM. change (c :: m) with ([c] ++ m) in Mm. rewrite app_assoc in Mm. now apply mant_ok_prefix in Mm. }
  pose proof (mant_ok_snoc p c) as MS.
  cbn [parse_loop]. cbn [parse_loop] in GO. rewrite to_digit_dig in *. destruct (is_dig c) eqn:D.
  - (* digit *)
    assert (C : is_dot c = false /\ is_sgn c = false /\ is_mant c = true).
    { split; [|split]. unfold is_dig in D. rewrite andb_true_iff, !Z.leb_le in D. unfold is_dot, c_dot. apply Z.eqb_neq. lia. now apply dig_not_sgn. unfold is_mant. now rewrite D. }
    destruct C as [C1 [C2 C3]].
    assert (M : mant_ok (p ++ [c])). { apply MS. split; auto. split; auto. rewrite C1, C2. split; discriminate. }
    apply GO; auto.
    unfold st_of at 1 2 3. cbn [p_res p_digits]. rewrite chk_in. cbn [obind]. 2: { unfold short in SH. rewrite ES' in SH. unfold ndig in *. rewrite !digs_app, !app_length in SH. unfold digs in SH at 2. cbn [filter] in SH. rewrite D in SH. cbn in SH. unfold i32_min. lia. }
    rewrite IDX, (st_of_dig p c 0 D C1 C2). reflexivity.
  - destruct (Z.eqb_spec c c_dot) as [->|Nd].
    + destruct (existsb is_dot p) eqn:X.
      * right. unfold st_of at 1. cbn [p_point]. rewrite X. assert (F := frac_le p). rewrite Z.geb_leb, (proj2 (Z.leb_le _ _)) by lia. split; [reflexivity|].
        apply STOP; [|discriminate]. intros M. apply MS in M. destruct M as [_ [_ [M _]]]. specialize (M eq_refl). rewrite existsb_count, M in X. discriminate.
      * assert (M : mant_ok (p ++ [c_dot])). { apply MS. split; auto. split; [reflexivity|]. split; [|discriminate]. intros _. rewrite existsb_count in X. apply negb_false_iff, Nat.eqb_eq in X. exact X. }
        apply GO; auto. unfold st_of at 1. cbn [p_point]. rewrite X. cbn [Z.geb Z.compare]. rewrite IDX. f_equal.
        unfold st_of. cbn [p_res p_digits p_sign p_exp]. rewrite digs_nd, ndig_nd, !existsb_app, frac_snoc, X by reflexivity. cbn [existsb is_dot orb]. 
        rewrite !orb_false_r. f_equal. cbn. ring.
    + destruct (Z.eqb_spec c c_minus) as [->|Nm].
      * destruct (negb (p_sign (st_of p 0) =? 0) || (p_digits (st_of p 0) >? 0)) eqn:X.
        -- right. split; [reflexivity|]. apply STOP; [|discriminate]. intros M. apply MS in M. destruct M as [_ [_ [_ M]]]. specialize (M eq_refl).
           destruct M as [M1 M2]. apply signs_zero in M1. unfold st_of in X. cbn [p_sign p_digits] in X. rewrite M1 in X. apply ndig_nil in M2. rewrite M2 in X. discriminate.
        -- unfold st_of in X. cbn [p_sign p_digits] in X. apply orb_false_iff in X. destruct X as [X1 X2]. apply negb_false_iff, Z.eqb_eq in X1.
           assert (X1' := proj1 (signs_zero p) X1). rewrite Z.gtb_ltb in X2. apply Z.ltb_ge in X2.
           assert (X2' : ndig p = 0) by (assert (F := frac_le p); lia).
           assert (M : mant_ok (p ++ [c_minus])). { apply MS. split; auto. split; [reflexivity|]. split; [discriminate|]. intros _. split; auto. now apply ndig_nil. }
           apply GO; auto. rewrite IDX. f_equal. unfold st_of. cbn [p_res p_digits p_point p_exp].
           rewrite digs_nd, ndig_nd, !existsb_app, frac_snoc, ndig1 by reflexivity. cbn [existsb is_dot orb]. rewrite !orb_false_r, orb_true_r.
           f_equal. destruct (existsb is_dot p); [cbn; ring|reflexivity].
      * destruct (Z.eqb_spec c c_plus) as [->|Np].
        -- destruct (negb (p_sign (st_of p 0) =? 0) || (p_digits (st_of p 0) >? 0)) eqn:X.
           ++ right. split; [reflexivity|]. apply STOP; [|discriminate]. intros M. apply MS in M. destruct M as [_ [_ [_ M]]]. specialize (M eq_refl).
              destruct M as [M1 M2]. apply signs_zero in M1. unfold st_of in X. cbn [p_sign p_digits] in X. rewrite M1 in X. apply ndig_nil in M2. rewrite M2 in X. discriminate.
           ++ unfold st_of in X. cbn [p_sign p_digits] in X. apply orb_false_iff in X. destruct X as [X1 X2]. apply negb_false_iff, Z.eqb_eq in X1.
              assert (X1' := proj1 (signs_zero p) X1). rewrite Z.gtb_ltb in X2. apply Z.ltb_ge in X2.
              assert (X2' : ndig p = 0) by (assert (F := frac_le p); lia).
              assert (M : mant_ok (p ++ [c_plus])). { apply MS. split; auto. split; [reflexivity|]. split; [discriminate|]. intros _. split; auto. now apply ndig_nil. }
              apply GO; auto. rewrite IDX. f_equal. unfold st_of. cbn [p_res p_digits p_point p_exp].
              rewrite digs_nd, ndig_nd, !existsb_app, frac_snoc, ndig1 by reflexivity. cbn [existsb is_dot orb]. rewrite !orb_false_r, orb_true_r.
              destruct (existsb (fun c0 => c0 =? c_minus) p); [discriminate X1|].
              f_equal. destruct (existsb is_dot p); [cbn; ring|reflexivity].
        -- destruct (Z.eqb_spec c c_e) as [->|Ne].
           ++ rewrite ES, byte_suffix_e by apply MP. cbn [obind].
              assert (NOM : forall m x e, c_e :: rest = m ++ x -> mant_ok (p ++ m) -> exp_part x e -> m = [] /\ x = c_e :: rest).
              { intros m x e E Mm X. destruct m as [|c' m]; [auto|]. exfalso. cbn in E. injection E as <- E.
                change (c_e :: m) with ([c_e] ++ m) in Mm. rewrite app_assoc in Mm. apply mant_ok_prefix in Mm. apply MS in Mm. destruct Mm as [_ [Mm _]]. discriminate. }
              destruct (parse_i32 rest) as [e|] eqn:PI.
              ** left. exists [], (c_e :: rest), e. rewrite app_nil_r. split; [reflexivity|]. split; [auto|]. split; [constructor; now apply parse_i32_spec|reflexivity].
              ** right. split; [reflexivity|]. intros m x e E Mm X. destruct (NOM m x e E Mm X) as [-> ->]. inversion X; subst.
                 apply parse_i32_spec in H0. congruence.
           ++ destruct (Z.eqb_spec c c_under) as [->|Nu].
              ** assert (M : mant_ok (p ++ [c_under])). { apply MS. split; auto. split; [reflexivity|]. split; discriminate. }
                 apply GO; auto. rewrite IDX. f_equal. unfold st_of. cbn [p_res p_digits p_point p_exp].
                 rewrite digs_nd, ndig_nd, !existsb_app, frac_snoc, ndig1 by reflexivity. cbn [existsb is_dot orb]. rewrite !orb_false_r.
                 f_equal. destruct (existsb is_dot p); [cbn; ring|reflexivity].
              ** right. split; [reflexivity|]. apply STOP; [|auto]. intros M. apply MS in M. destruct M as [_ [M _]].
                 unfold is_mant, is_dot, is_sgn in M. rewrite D in M.
                 rewrite (proj2 (Z.eqb_neq _ _) Nd), (proj2 (Z.eqb_neq _ _) Np), (proj2 (Z.eqb_neq _ _) Nm), (proj2 (Z.eqb_neq _ _) Nu) in M. discriminate.
Qed.
End Loop.
