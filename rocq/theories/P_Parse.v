(** * Parsing: what is accepted, what it means *)
From Coq Require Import ZArith Reals Lra Lia List Bool.
From Coq Require Import String.
From Flocq Require Import Core IEEE754.BinarySingleNaN.
From Verif Require Import RN F64 Prim DoubleM QuadM Spec PowProofs ParseM ParseSpec ParseProofs ParseThms ParseEquiv ParseNum.
Import ListNotations.
Local Open Scope Z_scope.
Local Open Scope string_scope.

Lemma d_powi_tot dbg : forall x n, i32_min < n <= i32_max -> exists r, n_powi d_ops dbg x n = Val r.
Proof. intros x n H. exact (proj1 (powi_total dbg x Q_ZERO n H)). Qed.
Lemma q_powi_tot dbg : forall x n, i32_min < n <= i32_max -> exists r, n_powi q_ops dbg x n = Val r.
Proof. intros x n H. exact (proj2 (powi_total dbg D_ZERO x n H)). Qed.
Lemma d_powi_rel : forall x n, exists r, n_powi d_ops false x n = Val r.
Proof. intros x n. cbn. unfold d_powi. destruct (d_pre_powi x n); [eauto|]. rewrite chk_rel. cbn; eauto. Qed.
Lemma q_powi_rel : forall x n, exists r, n_powi q_ops false x n = Val r.
Proof. intros x n. cbn. unfold q_powi. destruct (q_pre_powi x n); [eauto|]. rewrite chk_rel. cbn; eauto. Qed.

(** ** C32: the exact language.  [normal_text s] is s trimmed and lowercased;
    [short]: fewer than 2^31 digits; the exponent condition excludes only texts
    such as "1.5e-2147483648". *)
Theorem C32_parser_language : forall dbg s, short (normal_text s) ->
  (forall m e, number (normal_text s) m e -> i32_min <= e - frac m) ->
  ((exists r, from_str d_ops dbg s = Val (POk r)) <-> keyword (normal_text s) \/ exists m e, number (normal_text s) m e) /\
  ((exists r, from_str q_ops dbg s = Val (POk r)) <-> keyword (normal_text s) \/ exists m e, number (normal_text s) m e).
Proof. intros dbg s S H. exact (conj (from_str_ok_iff d_ops dbg (d_powi_tot dbg) s S H) (from_str_ok_iff q_ops dbg (q_powi_tot dbg) s S H)). Qed.
Print Assumptions C32_parser_language.
(** which error, and the values of the words *)
Theorem C32_parser_errors : forall dbg s,
  (normal_text s = [] -> from_str d_ops dbg s = Val (PErr EEmpty) /\ from_str q_ops dbg s = Val (PErr EEmpty)) /\
  (short (normal_text s) -> normal_text s <> [] -> ~ keyword (normal_text s) -> (forall m e, ~ number (normal_text s) m e) ->
     from_str d_ops dbg s = Val (PErr EInvalid) /\ from_str q_ops dbg s = Val (PErr EInvalid)) /\
  (normal_text s = txt "nan" -> from_str d_ops dbg s = Val (POk D_NAN) /\ from_str q_ops dbg s = Val (POk Q_NAN)) /\
  (normal_text s = txt "inf" \/ normal_text s = txt "infinity" ->
     from_str d_ops dbg s = Val (POk D_INFINITY) /\ from_str q_ops dbg s = Val (POk Q_INFINITY)) /\
  (normal_text s = txt "-inf" \/ normal_text s = txt "-infinity" ->
     from_str d_ops dbg s = Val (POk D_NEG_INFINITY) /\ from_str q_ops dbg s = Val (POk Q_NEG_INFINITY)).
Proof.
  intros dbg s. split; [|split; [|split; [|split]]].
  - intros H. exact (conj (from_str_empty d_ops dbg s H) (from_str_empty q_ops dbg s H)).
  - intros H1 H2 H3 H4. exact (conj (from_str_reject d_ops dbg s H1 H2 H3 H4) (from_str_reject q_ops dbg s H1 H2 H3 H4)).
  - intros H. rewrite !from_str_keyword by (rewrite H; unfold keyword; auto). rewrite H. split; reflexivity.
  - intros [H|H]; (rewrite !from_str_keyword by (rewrite H; unfold keyword; auto)); rewrite H; split; reflexivity.
  - intros [H|H]; (rewrite !from_str_keyword by (rewrite H; unfold keyword; auto 10)); rewrite H; split; reflexivity.
Qed.
Print Assumptions C32_parser_errors.
(** every text of the documented form is accepted ... *)
Theorem C32_documented_accepted_partial : forall dbg s m x e, short (normal_text s) ->
  normal_text s = (m ++ x)%list -> documented_mant m -> exp_part x e -> i32_min <= e - frac m ->
  (exists r, from_str d_ops dbg s = Val (POk r)) /\ (exists r, from_str q_ops dbg s = Val (POk r)).
Proof.
  intros dbg s m x e S E D X H.
  assert (NE : normal_text s <> []).
  { rewrite E. destruct D as [sg [b [-> [_ [_ [_ NZ]]]]]]. intros Q. apply app_eq_nil in Q. destruct Q as [Q _]. apply app_eq_nil in Q. destruct Q as [_ ->]. now apply NZ. }
  assert (Nu : number (normal_text s) m e) by (exists x; auto using documented_ok).
  assert (HH : forall m' e', number (normal_text s) m' e' -> i32_min <= e' - frac m') by (intros m' e' Nu'; destruct (number_fun _ _ _ _ _ Nu Nu') as [<- <-]; auto).
  destruct (C32_parser_language dbg s S HH) as [A B]. split; [apply A|apply B]; eauto.
Qed.
Print Assumptions C32_documented_accepted_partial.
Definition is_ok {T} (o : outcome (presult T)) : bool := match o with Val (POk _) => true | _ => false end.
Lemma is_ok_ex {T} (o : outcome (presult T)) : is_ok o = true -> exists r, o = Val (POk r).
Proof. destruct o as [[r|]|]; try discriminate. intros _. now exists r. Qed.
(** ... but so are texts with no digit at all and with the sign after the point:
    ".-5" is -0.5 *)
Theorem C32_undocumented_accepted_refuted :
  Forall (fun t => (exists r, from_str d_ops true (txt t) = Val (POk r)) /\ (exists r, from_str q_ops true (txt t) = Val (POk r)))
    ["."; "-"; "+"; "_"; ".-5"; "_-5"; "e5"; "-.e7"] /\
  ~ documented_mant (txt ".-5") /\ ~ documented_mant (txt "-").
Proof.
  split.
  - repeat (apply Forall_cons; [split; apply is_ok_ex; vm_compute; reflexivity|]). apply Forall_nil.
  - split; intros [sg [b [E [[->|[->| ->]] [B [_ D]]]]]]; cbn in E; try (subst b; cbn in B; discriminate); try discriminate.
    injection E as <-. now apply D.
Qed.
Print Assumptions C32_undocumented_accepted_refuted.
Ltac doc_tac := refine (conj eq_refl (conj _ (conj eq_refl (conj _ _)))); [cbn; auto|cbv; repeat constructor|discriminate].
Ltac short_tac := unfold short; vm_compute; discriminate.
Example C32_ex : short (normal_text (txt "  -1_234.50E+3 ")) /\
  number (normal_text (txt "  -1_234.50E+3 ")) (txt "-1_234.50") 3 /\ frac (txt "-1_234.50") = 2 /\ documented_mant (txt "-1_234.50").
Proof.
  split; [short_tac|]. split; [|split; [reflexivity|]].
  - exists (txt "e+3"). split; [reflexivity|]. split; [discriminate|]. split; [|constructor; apply (lit_plus (txt "3")); [discriminate|reflexivity|vm_compute; discriminate]].
    apply documented_ok. exists (txt "-"), (txt "1_234.50"). doc_tac.
  - exists (txt "-"), (txt "1_234.50"). doc_tac.
Qed.

(** ** C33 *)
Theorem C33_release_never_panics : forall s,
  (exists r, from_str d_ops false s = Val r) /\ (exists r, from_str q_ops false s = Val r).
Proof. intros s. exact (conj (from_str_rel d_ops d_powi_rel s) (from_str_rel q_ops q_powi_rel s)). Qed.
Print Assumptions C33_release_never_panics.
Theorem C33_debug_no_panic_partial : forall dbg s, short (normal_text s) ->
  (forall m e, number (normal_text s) m e -> i32_min <= e - frac m) ->
  (exists r, from_str d_ops dbg s = Val r) /\ (exists r, from_str q_ops dbg s = Val r).
Proof. intros dbg s S H. exact (conj (from_str_total d_ops dbg (d_powi_tot dbg) s S H) (from_str_total q_ops dbg (q_powi_tot dbg) s S H)). Qed.
Print Assumptions C33_debug_no_panic_partial.
(** the applied power of ten is written exponent minus fraction digits *)
Theorem C33_exponent_applied : forall dbg s m e, short (normal_text s) -> number (normal_text s) m e -> i32_min <= e - frac m ->
  from_str d_ops dbg s = (let* r := number_value d_ops dbg m e in Val (POk r)) /\
  from_str q_ops dbg s = (let* r := number_value q_ops dbg m e in Val (POk r)).
Proof. intros dbg s m e S Nu H. exact (conj (from_str_number d_ops dbg s m e S Nu H) (from_str_number q_ops dbg s m e S Nu H)). Qed.
Print Assumptions C33_exponent_applied.
(** otherwise a debug build panics; a release build wraps, e.g. reads
    1.5e-2147483648 (a tiny number) as NaN *)
Theorem C33_exponent_overflow_refuted :
  (forall s m e, short (normal_text s) -> number (normal_text s) m e -> e - frac m < i32_min ->
     from_str d_ops true s = Panicked /\ from_str q_ops true s = Panicked) /\
  from_str d_ops true (txt "1.5e-2147483648") = Panicked /\
  from_str d_ops false (txt "1.5e-2147483648") = Val (POk D_NAN).
Proof.
  split; [|split; vm_compute; reflexivity].
  intros s m e S Nu H. exact (conj (from_str_panic d_ops s m e S Nu H) (from_str_panic q_ops s m e S Nu H)).
Qed.
Print Assumptions C33_exponent_overflow_refuted.

(** ** C34: integer literals up to 31 digits (more if leading zeros) are exact;
    also e.g. "12.5e1", whose digits and exponent cancel *)
Theorem C34_integer_literals_exact : forall dbg s m e, short (normal_text s) -> number (normal_text s) m e ->
  e - frac m = 0 -> dec_val (digs m) < 10 ^ 31 ->
  exists r, from_str d_ops dbg s = Val (POk r) /\ DNorm r /\
    DV r = IZR ((if negative m then -1 else 1) * dec_val (digs m)).
Proof. exact parse_int_exact. Qed.
Print Assumptions C34_integer_literals_exact.
Theorem C34_zero_literals : forall dbg,
  from_str d_ops dbg (txt "0") = Val (POk D_ZERO) /\ from_str d_ops dbg (txt "-0") = Val (POk (mkD fn0 fn0)) /\
  from_str q_ops dbg (txt "0") = Val (POk Q_ZERO).
Proof. intros [|]; repeat split; vm_compute; reflexivity. Qed.
Print Assumptions C34_zero_literals.
Example C34_ex : number (normal_text (txt "-9999999999999999999999999999999")) (txt "-9999999999999999999999999999999") 0 /\
  dec_val (digs (txt "-9999999999999999999999999999999")) = 10 ^ 31 - 1.
Proof.
  split; [|vm_compute; reflexivity]. exists []. split; [vm_compute; reflexivity|]. split; [discriminate|]. split; [|constructor].
  apply documented_ok. exists (txt "-"), (txt "9999999999999999999999999999999"). doc_tac.
Qed.

(** ** C35: accuracy with an exponent *)
Theorem C35_literals_accurate : forall dbg s m e, short (normal_text s) -> number (normal_text s) m e ->
  Z.abs (e - frac m) <= 260 -> dec_val (digs m) < 10 ^ 31 ->
  exists r, from_str d_ops dbg s = Val (POk r) /\ DNorm r /\
    approx (DV r) (IZR ((if negative m then -1 else 1) * dec_val (digs m)) * powerRZ 10 (e - frac m))
      (10 * Z.abs (e - frac m) + 27) (-106).
Proof. exact parse_accurate. Qed.
Print Assumptions C35_literals_accurate.
(** out of range exponents give NaN even when the number is 0 or nearly 0 *)
Theorem C35_extreme_exponents_refuted : forall dbg,
  from_str d_ops dbg (txt "0e400") = Val (POk D_NAN) /\ from_str d_ops dbg (txt "1e-700") = Val (POk D_NAN) /\
  from_str d_ops dbg (txt "1e400") = Val (POk D_NAN) /\
  from_str q_ops dbg (txt "0e400") = Val (POk Q_NAN) /\ from_str q_ops dbg (txt "1e-700") = Val (POk Q_NAN).
Proof. intros [|]; repeat split; vm_compute; reflexivity. Qed.
Print Assumptions C35_extreme_exponents_refuted.
Example C35_ex : exists m e, number (normal_text (txt "3.14159e-5")) m e /\ e - frac m = -10 /\ dec_val (digs m) = 314159.
Proof.
  exists (txt "3.14159"), (-5). split; [|split; reflexivity]. exists (txt "e-5"). split; [reflexivity|]. split; [discriminate|]. split.
  - apply documented_ok. exists [], (txt "3.14159"). doc_tac.
  - constructor. apply (lit_minus (txt "5")); [discriminate|reflexivity|vm_compute; discriminate].
Qed.

(** ** C36 *)
Theorem C36_whitespace_case : forall dbg w s w' s', forallb is_ws w = true -> forallb is_ws w' = true -> map lower s = map lower s' ->
  from_str d_ops dbg (w ++ s ++ w')%list = from_str d_ops dbg s' /\ from_str q_ops dbg (w ++ s ++ w')%list = from_str q_ops dbg s'.
Proof. intros dbg w s w' s' H1 H2 H3. exact (conj (ws_case d_ops dbg w s w' s' H1 H2 H3) (ws_case q_ops dbg w s w' s' H1 H2 H3)). Qed.
Print Assumptions C36_whitespace_case.
Example C36_ex1 : forallb is_ws (txt "  ") = true /\ map lower (txt "1E5") = map lower (txt "1e5").
Proof. split; reflexivity. Qed.
(** underscores in the mantissa *)
Theorem C36_underscores : forall dbg s s' m x e, short (normal_text s) -> number (normal_text s) m e -> i32_min <= e - frac m ->
  normal_text s = (m ++ x)%list -> normal_text s' = (filter (fun c => negb (c =? 95)%Z) m ++ x)%list -> normal_text s' <> [] ->
  from_str d_ops dbg s' = from_str d_ops dbg s /\ from_str q_ops dbg s' = from_str q_ops dbg s.
Proof. intros dbg s s' m x e H1 H2 H3 H4 H5 H6. exact (conj (underscores d_ops dbg s s' m x e H1 H2 H3 H4 H5 H6) (underscores q_ops dbg s s' m x e H1 H2 H3 H4 H5 H6)). Qed.
Print Assumptions C36_underscores.
(** a leading plus is ignored, a leading minus negates *)
Theorem C36_leading_sign : forall dbg s s' m e, short (normal_text s) -> number (normal_text s) m e -> i32_min <= e - frac m ->
  count is_sgn m = 0%nat ->
  (normal_text s' = 43 :: normal_text s ->
     from_str d_ops dbg s' = from_str d_ops dbg s /\ from_str q_ops dbg s' = from_str q_ops dbg s) /\
  (normal_text s' = 45 :: normal_text s ->
     from_str d_ops dbg s' = (let* r := from_str d_ops dbg s in Val (match r with POk v => POk (d_neg v) | PErr k => PErr k end)) /\
     from_str q_ops dbg s' = (let* r := from_str q_ops dbg s in Val (match r with POk v => POk (q_neg v) | PErr k => PErr k end))).
Proof.
  intros dbg s s' m e H1 H2 H3 H4. split; intros E.
  - exact (conj (lead_plus d_ops dbg s s' m e H1 H2 H3 H4 E) (lead_plus q_ops dbg s s' m e H1 H2 H3 H4 E)).
  - exact (conj (lead_minus d_ops dbg s s' m e H1 H2 H3 H4 E) (lead_minus q_ops dbg s s' m e H1 H2 H3 H4 E)).
Qed.
Print Assumptions C36_leading_sign.
(** k zeros inserted before the first digit and before the point, after the sign *)
Theorem C36_leading_zeros : forall dbg s s' a b x k e,
  short (normal_text s') -> number (normal_text s) (a ++ b)%list e -> i32_min <= e - frac (a ++ b)%list ->
  filter is_dig a = [] -> count is_dot a = 0%nat -> count is_sgn b = 0%nat ->
  normal_text s = ((a ++ b) ++ x)%list -> normal_text s' = ((a ++ repeat 48 k ++ b) ++ x)%list ->
  from_str d_ops dbg s' = from_str d_ops dbg s /\ from_str q_ops dbg s' = from_str q_ops dbg s.
Proof.
  intros dbg s s' a b x k e H1 H2 H3 H4 H5 H6 H7 H8.
  exact (conj (lead_zeros d_ops dbg s s' a b x k e d_zero_step H1 H2 H3 H4 H5 H6 H7 H8) (lead_zeros q_ops dbg s s' a b x k e q_zero_step H1 H2 H3 H4 H5 H6 H7 H8)).
Qed.
Print Assumptions C36_leading_zeros.
Example C36_ex : number (normal_text (txt "1_2.5e1")) (txt "1_2.5") 1 /\ filter (fun c => negb (c =? 95)%Z) (txt "1_2.5") = txt "12.5" /\
  count is_sgn (txt "1_2.5") = 0%nat /\
  normal_text (txt "-0012") = ((txt "-" ++ repeat 48 2 ++ txt "12") ++ [])%list.
Proof.
  split; [|split; [reflexivity|split; reflexivity]]. exists (txt "e1"). split; [reflexivity|]. split; [discriminate|]. split.
  - apply documented_ok. exists [], (txt "1_2.5"). doc_tac.
  - constructor. apply (lit_plain (txt "1")); [discriminate|reflexivity|vm_compute; discriminate].
Qed.
