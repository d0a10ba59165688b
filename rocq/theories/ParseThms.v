(** * Parser theorems, for any number type *)
From Coq Require Import ZArith List Bool Lia.
From Verif Require Import F64 Prim DoubleM QuadM ParseM ParseSpec ParseProofs.
Import ListNotations.
Local Open Scope Z_scope.

Lemma text_eqb_eq a : forall b, text_eqb a b = true <-> a = b.
Proof.
  induction a as [|x a IH]; intros [|y b]; cbn; split; intros H; try reflexivity; try discriminate.
  - apply andb_true_iff in H. destruct H as [H1 H2]. apply Z.eqb_eq in H1. apply IH in H2. congruence.
  - injection H as -> ->. rewrite Z.eqb_refl. now apply IH.
Qed.

Lemma i32_lit_range x e : i32_lit x e -> i32_min <= e <= i32_max.
Proof.
  intros H. destruct H as [ds H1 H2 H3|ds H1 H2 H3|ds H1 H2 H3]; generalize (dec_digs_nonneg ds); unfold i32_min, i32_max in *; lia.
Qed.
Lemma exp_part_range x e : exp_part x e -> i32_min <= e <= i32_max.
Proof. intros H. destruct H; [unfold i32_min, i32_max; lia|now apply i32_lit_range in H]. Qed.
Lemma i32_lit_fun x e e' : i32_lit x e -> i32_lit x e' -> e = e'.
Proof. intros H H'. apply parse_i32_spec in H. apply parse_i32_spec in H'. congruence. Qed.
Lemma exp_part_fun x e e' : exp_part x e -> exp_part x e' -> e = e'.
Proof. intros H H'. inversion H; subst; inversion H'; subst; auto. eapply i32_lit_fun; eauto. Qed.

(** mantissa and exponent are determined by the text *)
Lemma number_fun t m e m' e' : number t m e -> number t m' e' -> m = m' /\ e = e'.
Proof.
  intros [x [E [_ [M X]]]] [x' [E' [_ [M' X']]]].
  assert (H : m = m' /\ x = x').
  { rewrite E in E'. destruct M as [M _], M' as [M' _]. clear E. revert m' M' E'. induction m as [|c m IH]; intros [|c' m'] M' E'; cbn in E'.
    - auto.
    - destruct X; [discriminate|]. injection E' as <- E'. cbn in M'. discriminate.
    - destruct X'; [discriminate|]. injection E' as -> E'. cbn in M. discriminate.
    - injection E' as -> E'. cbn in M, M'. apply andb_true_iff in M. apply andb_true_iff in M'.
      destruct (IH (proj2 M) m' (proj2 M') E') as [-> ->]. auto. }
  destruct H as [-> ->]. split; auto. eapply exp_part_fun; eauto.
Qed.
Lemma number_not_keyword t m e : number t m e -> ~ keyword t.
Proof.
  intros [x [E [_ [[M _] X]]]] K. destruct m as [|c m].
  - cbn in E. subst t. destruct X.
    + destruct K as [K|[K|[K|[K|K]]]]; discriminate.
    + destruct K as [K|[K|[K|[K|K]]]]; discriminate.
  - destruct m as [|c2 m].
    + cbn in M. destruct X; cbn in E; subst t; destruct K as [K|[K|[K|[K|K]]]]; try discriminate; injection K as -> ?; discriminate.
    + cbn in M. destruct K as [K|[K|[K|[K|K]]]]; rewrite K in E; cbn in E; injection E as <- <- ?; discriminate.
Qed.

Section G.
Context {T : Type} (N : numops T) (dbg : bool).

Lemma from_str_empty s : normal_text s = [] -> from_str N dbg s = Val (PErr EEmpty).
Proof. unfold from_str, normal_text. intros ->. reflexivity. Qed.

Lemma pre_keyword t : keyword t -> pre_from_str N t = Some (POk (keyword_value N t)).
Proof. intros [->|[->|[->|[->| ->]]]]; reflexivity. Qed.
Lemma pre_other t : t <> [] -> ~ keyword t -> pre_from_str N t = None.
Proof.
  intros NE NK. unfold pre_from_str. destruct t as [|c t]; [congruence|]. set (s := c :: t) in *.
  assert (A : forall w, s <> w -> text_eqb s w = false).
  { intros w H. destruct (text_eqb s w) eqn:E; auto. apply text_eqb_eq in E. congruence. }
  unfold keyword in NK. rewrite !A; [reflexivity|..]; intros E; apply NK; auto 10.
Qed.
Lemma from_str_keyword s : keyword (normal_text s) -> from_str N dbg s = Val (POk (keyword_value N (normal_text s))).
Proof. intros K. unfold from_str. fold (normal_text s). cbv zeta. now rewrite (pre_keyword _ K). Qed.

Lemma parse_finish_ok m e : i32_min <= e <= i32_max -> i32_min <= e - frac m -> ndig m <= i32_max ->
  parse_finish N dbg (st_of N m e) = number_value N dbg m e.
Proof.
  intros He Hf Hs. assert (F := frac_le m). unfold parse_finish, number_value, st_of. cbn [p_point p_digits p_exp p_res p_sign].
  assert (EX : (if (if existsb is_dot m then ndig m - frac m else -1) >=? 0
     then let* k := i32_chk dbg (ndig m - (if existsb is_dot m then ndig m - frac m else -1)) in i32_chk dbg (e - k)
     else Val e) = Val (e - frac m)).
  { destruct (existsb is_dot m) eqn:X.
    - rewrite Z.geb_leb, (proj2 (Z.leb_le _ _)) by lia. replace (ndig m - (ndig m - frac m)) with (frac m) by ring.
      rewrite chk_in by (unfold i32_min; lia). cbn [obind]. apply chk_in. lia.
    - cbn [Z.geb Z.compare]. rewrite (no_dot_frac _ X). f_equal; ring. }
  rewrite EX. cbn [obind]. set (x := e - frac m) in *. unfold apply_exp.
  assert (SG : (if existsb (fun c => c =? c_minus) m then -1 else if existsb (fun c => c =? c_plus) m then 1 else 0) =? -1 = negative m).
  { unfold negative. destruct (existsb (fun c => c =? c_minus) m); [reflexivity|]. destruct (existsb (fun c => c =? c_plus) m); reflexivity. }
  rewrite SG. destruct (Z.eqb_spec x 0) as [E0|E0]; cbn [negb]; [reflexivity|].
  destruct (Z.ltb_spec x (-307)) as [L|L].
  - rewrite chk_in by (unfold i32_max in *; lia). cbn [obind].
    destruct (n_powi N dbg (n_ten N) (x + 307)) as [p|]; [|reflexivity]. cbn [obind].
    replace (x - (x + 307)) with (-307) by ring. rewrite chk_in by (unfold i32_min, i32_max; lia). cbn [obind].
    destruct (n_powi N dbg (n_ten N) (-307)) as [q|]; reflexivity.
  - cbn [obind]. destruct (n_powi N dbg (n_ten N) x) as [q|]; reflexivity.
Qed.

Lemma st_of_nil : mkP (n_zero N) 0 (-1) 0 0 = st_of N [] 0.
Proof. reflexivity. Qed.

Lemma from_str_number s m e : short (normal_text s) -> number (normal_text s) m e -> i32_min <= e - frac m ->
  from_str N dbg s = let* r := number_value N dbg m e in Val (POk r).
Proof.
  intros S Nu Hf. assert (NK := number_not_keyword _ _ _ Nu). assert (Nu' := Nu). destruct Nu' as [x [E [NE [M X]]]].
  unfold from_str. fold (normal_text s). cbv zeta. rewrite (pre_other _ NE NK). set (t := normal_text s) in *.
  rewrite st_of_nil. change 0 with (Z.of_nat (length (@nil Z))) at 1.
  destruct (loop_spec N dbg t t [] eq_refl mant_ok_nil S) as [[m' [x' [e' [E' [M' [X' ->]]]]]]|[_ H]].
  - cbn [app] in M' |- *. destruct (number_fun t m e m' e') as [<- <-]; auto. { exists x'. auto. }
    cbn [obind]. rewrite parse_finish_ok; [reflexivity|now apply exp_part_range in X|auto|].
    assert (L : ndig m <= Z.of_nat (length (digs t))). { rewrite E. unfold ndig. rewrite digs_app, app_length. lia. }
    unfold short in S. lia.
  - exfalso. apply (H m x e); auto.
Qed.
Lemma from_str_reject s : short (normal_text s) -> normal_text s <> [] -> ~ keyword (normal_text s) ->
  (forall m e, ~ number (normal_text s) m e) -> from_str N dbg s = Val (PErr EInvalid).
Proof.
  intros S NE NK NN. unfold from_str. fold (normal_text s). cbv zeta. rewrite (pre_other _ NE NK). set (t := normal_text s) in *.
  rewrite st_of_nil. change 0 with (Z.of_nat (length (@nil Z))) at 1.
  destruct (loop_spec N dbg t t [] eq_refl mant_ok_nil S) as [[m' [x' [e' [E' [M' [X' _]]]]]]|[-> _]].
  - exfalso. apply (NN m' e'). exists x'. auto.
  - reflexivity.
Qed.
(** accepted or not is decidable from the specification *)
Lemma number_dec t : short t -> t <> [] -> (exists m e, number t m e) \/ (forall m e, ~ number t m e).
Proof.
  intros S NE. destruct (loop_spec N dbg t t [] eq_refl mant_ok_nil S) as [[m' [x' [e' [E' [M' [X' _]]]]]]|[_ H]].
  - left. exists m', e', x'. auto.
  - right. intros m e [x [E [_ [M X]]]]. apply (H m x e); auto.
Qed.
Lemma keyword_dec t : keyword t \/ ~ keyword t.
Proof.
  assert (D : forall w, t = w \/ t <> w). { intros w. destruct (text_eqb t w) eqn:E. left; now apply text_eqb_eq. right; intros <-. rewrite (proj2 (text_eqb_eq t t) eq_refl) in E. discriminate. }
  unfold keyword. destruct (D t_nan), (D t_inf), (D t_infinity), (D (c_minus :: t_inf)), (D (c_minus :: t_infinity)); tauto.
Qed.

(** ** totality *)
Hypothesis powi_tot : forall x n, i32_min < n <= i32_max -> exists r, n_powi N dbg x n = Val r.
Lemma number_value_total m e : i32_min <= e <= i32_max -> i32_min <= e - frac m -> exists r, number_value N dbg m e = Val r.
Proof.
  intros He Hf. assert (F := frac_le m). unfold number_value, apply_exp. set (x := e - frac m) in *.
  destruct (x =? 0); [cbn; eauto|]. destruct (Z.ltb_spec x (-307)).
  - destruct (powi_tot (n_ten N) (x + 307)) as [p ->]; [unfold i32_min, i32_max in *; lia|].
    destruct (powi_tot (n_ten N) (-307)) as [q ->]; [unfold i32_min, i32_max in *; lia|]. cbn; eauto.
  - destruct (powi_tot (n_ten N) x) as [p ->]; [unfold i32_min, i32_max in *; lia|]. cbn; eauto.
Qed.
Lemma from_str_total s : short (normal_text s) -> (forall m e, number (normal_text s) m e -> i32_min <= e - frac m) ->
  exists r, from_str N dbg s = Val r.
Proof.
  intros S H. destruct (list_eq_dec Z.eq_dec (normal_text s) []) as [E|NE]; [eauto using from_str_empty|].
  destruct (keyword_dec (normal_text s)) as [K|K]; [eauto using from_str_keyword|].
  destruct (number_dec _ S NE) as [[m [e Nu]]|NN]; [|eauto using from_str_reject].
  rewrite (from_str_number s m e S Nu (H _ _ Nu)).
  destruct (number_value_total m e) as [r ->]; [|eauto|cbn; eauto].
  destruct Nu as [x [_ [_ [_ X]]]]. now apply exp_part_range in X.
Qed.
(** Ok exactly on the language *)
Lemma from_str_ok_iff s : short (normal_text s) -> (forall m e, number (normal_text s) m e -> i32_min <= e - frac m) ->
  ((exists r, from_str N dbg s = Val (POk r)) <-> keyword (normal_text s) \/ exists m e, number (normal_text s) m e).
Proof.
  intros S H. split.
  - intros [r E]. destruct (list_eq_dec Z.eq_dec (normal_text s) []) as [E'|NE]; [rewrite from_str_empty in E by auto; discriminate|].
    destruct (keyword_dec (normal_text s)) as [K|K]; [auto|]. right.
    destruct (number_dec _ S NE) as [X|NN]; [auto|]. rewrite from_str_reject in E by auto. discriminate.
  - intros [K|[m [e Nu]]]; [eauto using from_str_keyword|]. rewrite (from_str_number s m e S Nu (H _ _ Nu)).
    destruct (number_value_total m e) as [r ->]; [|eauto|cbn; eauto].
    destruct Nu as [x [_ [_ [_ X]]]]. now apply exp_part_range in X.
Qed.
End G.

(** ** release builds never panic, whatever the text *)
Lemma chk_rel z : i32_chk false z = Val (if (i32_min <=? z) && (z <=? i32_max) then z else wrap32 z).
Proof. unfold i32_chk. destruct ((i32_min <=? z) && (z <=? i32_max)); reflexivity. Qed.
Section Rel.
Context {T : Type} (N : numops T).
Hypothesis powi_tot : forall x n, exists r, n_powi N false x n = Val r.
Lemma loop_rel s rest : forall p st, s = p ++ rest -> forallb is_mant p = true ->
  exists r, parse_loop N false s (Z.of_nat (length p)) rest st = Val r.
Proof.
  induction rest as [|c rest IH]; intros p st ES MP; [cbn; eauto|].
  assert (IDX : Z.of_nat (length p) + 1 = Z.of_nat (length (p ++ [c]))) by (rewrite app_length; cbn; lia).
  assert (GO : is_mant c = true -> forall st, exists r, parse_loop N false s (Z.of_nat (length p) + 1) rest st = Val r).
  { intros M st'. rewrite IDX. apply IH. now rewrite <- app_assoc. rewrite forallb_app, MP. cbn. now rewrite M. }
  cbn [parse_loop]. rewrite to_digit_dig. destruct (is_dig c) eqn:D.
  - rewrite chk_rel. cbn [obind]. apply GO. unfold is_mant. now rewrite D.
  - destruct (Z.eqb_spec c c_dot) as [->|_]. { destruct (p_point st >=? 0); [eauto|]. now apply GO. }
    destruct (Z.eqb_spec c c_minus) as [->|_]. { destruct (_ || _); [eauto|]. now apply GO. }
    destruct (Z.eqb_spec c c_plus) as [->|_]. { destruct (_ || _); [eauto|]. now apply GO. }
    destruct (Z.eqb_spec c c_e) as [->|_]. { rewrite ES, byte_suffix_e by auto. cbn [obind]. destruct (parse_i32 rest); eauto. }
    destruct (Z.eqb_spec c c_under) as [->|_]; [now apply GO|eauto].
Qed.
Lemma finish_rel st : exists r, parse_finish N false st = Val r.
Proof.
  unfold parse_finish.
  assert (X : exists x, (if p_point st >=? 0 then let* k := i32_chk false (p_digits st - p_point st) in i32_chk false (p_exp st - k) else Val (p_exp st)) = Val x).
  { destruct (p_point st >=? 0); [|eauto]. rewrite chk_rel. cbn [obind]. rewrite chk_rel. eauto. }
  destruct X as [x ->]. cbn [obind]. destruct (x =? 0); cbn [negb obind]; [eauto|].
  destruct (x <? -307).
  - rewrite chk_rel. cbn [obind]. destruct (powi_tot (n_ten N) (if (i32_min <=? x + 307) && (x + 307 <=? i32_max) then x + 307 else wrap32 (x + 307))) as [p ->]. cbn [obind].
    rewrite chk_rel. cbn [obind]. match goal with |- context [n_powi N false (n_ten N) ?k] => destruct (powi_tot (n_ten N) k) as [q ->] end. cbn [obind]. eauto.
  - cbn [obind]. destruct (powi_tot (n_ten N) x) as [q ->]. cbn [obind]. eauto.
Qed.
Lemma from_str_rel s : exists r, from_str N false s = Val r.
Proof.
  unfold from_str. cbv zeta. destruct (pre_from_str N (lowercase (trim s))); [eauto|].
  destruct (loop_rel (lowercase (trim s)) (lowercase (trim s)) [] (mkP (n_zero N) 0 (-1) 0 0) eq_refl eq_refl) as [r E].
  cbn [length Z.of_nat] in E. rewrite E. cbn [obind]. destruct r as [st|]; [|eauto]. destruct (finish_rel st) as [v ->]. cbn; eauto.
Qed.
End Rel.

(** ** and the one case where a debug build does *)
Lemma from_str_panic {T} (N : numops T) s m e : short (normal_text s) -> number (normal_text s) m e -> e - frac m < i32_min ->
  from_str N true s = Panicked.
Proof.
  intros S Nu Hf. assert (NK := number_not_keyword _ _ _ Nu). assert (Nu' := Nu). destruct Nu' as [x [E [NE [M X]]]].
  assert (HX := exp_part_range _ _ X).
  unfold from_str. fold (normal_text s). cbv zeta. rewrite (pre_other N _ NE NK). set (t := normal_text s) in *.
  rewrite st_of_nil. change 0 with (Z.of_nat (length (@nil Z))) at 1.
  destruct (loop_spec N true t t [] eq_refl mant_ok_nil S) as [[m' [x' [e' [E' [M' [X' ->]]]]]]|[_ H]].
  - cbn [app] in M' |- *. destruct (number_fun t m e m' e') as [<- <-]; auto. { exists x'. auto. }
    assert (L : ndig m <= Z.of_nat (length (digs t))). { rewrite E. unfold ndig. rewrite digs_app, app_length. lia. }
    unfold short in S. assert (F := frac_le m).
    cbn [obind]. unfold parse_finish, st_of. cbn [p_point p_digits p_exp p_res p_sign].
    destruct (existsb is_dot m) eqn:D.
    + rewrite Z.geb_leb, (proj2 (Z.leb_le _ _)) by lia. replace (ndig m - (ndig m - frac m)) with (frac m) by ring.
      rewrite chk_in by (unfold i32_min in *; lia). cbn [obind]. unfold i32_chk. rewrite (proj2 (Z.leb_gt _ _) Hf). reflexivity.
    + rewrite (no_dot_frac _ D) in Hf. lia.
  - exfalso. apply (H m x e); auto.
Qed.
(** a documented mantissa is an accepted one *)
Lemma documented_ok m : documented_mant m -> mant_ok m.
Proof.
  intros [sg [body [-> [SG [B [D _]]]]]].
  assert (NS : count is_sgn body = 0%nat /\ forallb is_mant body = true).
  { clear - B. unfold count. induction body as [|c b IH]; [auto|]. cbn in B. apply andb_true_iff in B. destruct B as [B1 B2]. destruct (IH B2) as [I1 I2].
    cbn. assert (is_sgn c = false /\ is_mant c = true) as [-> ->]; [|auto].
    unfold is_mant, is_sgn, is_dig, is_dot, c_dot, c_plus, c_minus, c_under in *. rewrite !orb_true_iff, andb_true_iff, !Z.leb_le, !Z.eqb_eq in B1.
    split. { apply orb_false_iff. rewrite !Z.eqb_neq. lia. } rewrite !orb_true_iff, andb_true_iff, !Z.leb_le, !Z.eqb_eq. tauto. }
  destruct NS as [NS NM].
  assert (Q : forall a c b, body = a ++ c :: b -> is_sgn c = true -> False).
  { intros a c b -> S. rewrite count_app in NS. unfold count in NS. cbn in NS. rewrite S in NS. cbn in NS. lia. }
  destruct SG as [->|[->| ->]]; cbn [app].
  - split; auto. split; auto. split; [lia|]. intros a c b E S. exfalso. eauto.
  - split; [exact NM|]. split; [exact D|]. split; [unfold count in *; cbn; lia|].
    intros [|y a] c b E S; [reflexivity|]. cbn in E. injection E as <- E. exfalso. eauto.
  - split; [exact NM|]. split; [exact D|]. split; [unfold count in *; cbn; lia|].
    intros [|y a] c b E S; [reflexivity|]. cbn in E. injection E as <- E. exfalso. eauto.
Qed.
