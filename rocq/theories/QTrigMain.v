(** * Accuracy of Quad sin, cos and sin_cos within half a turn: the functions *)
From Coq Require Import ZArith Reals List Bool Lia Lra.
From Flocq Require Import Core IEEE754.BinarySingleNaN.
From Verif Require Import SqrtProofs F64 F64Facts Prim DoubleM QuadM AlgM RN Spec EFT SpecialProofs ExactProofs QExactProofs QuadSpec QAddAcc QGeoAcc QGeoMul QSqrAcc QLoose QLDiv QLOps
  AbsOps Exact ConstM BaseConst TransM ExpProofs QExpProofs SinLoop SinSeries SinReduce SinThms QLogThms QLSq SqrtProofs TransProofs QSinhThms QTrigOps LdexpProofs FromProofs DAddProofs DMulProofs DMulProofs QTrigSmall QHypThms QTrigTab QTrigThms QTrigBig.
Local Open Scope R_scope.
Local Notation uu := (u * u).

Definition res (r : Quad) (y : R) : Prop := QB 20 (20 * u) r /\ Rabs (QV r - y) <= 302000 * uu.
Lemma res_neg r y : res r y -> res (q_neg r) (- y).
Proof.
  intros [B E]. destruct (QB_neg _ _ _ B) as (B' & E' & _). split; [exact B'|]. rewrite E'. replace (- QV r - - y) with (- (QV r - y)) by ring. now rewrite Rabs_Ropp.
Qed.
Lemma okq_res q T e : okq q T e -> e <= 302000 * uu -> res q T.
Proof. intros (A & B & _) H. split; [eapply QB_mono; [| |exact A]; lra|lra]. Qed.

Lemma qprod U k X T e : ent U k -> Rabs k <= 1 -> okq X T (e * uu) -> Rabs T <= 1 -> 0 <= e <= 200000 ->
  QB (11 / 10) (3 * u) (q_mul U X) /\ Rabs (QV (q_mul U X) - k * T) <= (e + 24700) * uu.
Proof.
  intros (A & B & C) K (P & Q & _) HT He. assert (UP : 0 < uu) by (apply Rmult_lt_0_compat; lra).
  assert (B4 : 1024 <= bp 400) by (apply Rle_trans with (bp 10); [cbn; lra|apply bpow_le; lia]). assert (B9 : 1024 <= bp 900) by (apply Rle_trans with (bp 10); [cbn; lra|apply bpow_le; lia]).
  destruct (bmul (101 / 100) (5 * u) (103 / 100) (18 * u) U X (19 * u) (100 * uu) A P) with (N0 := 105 / 100) as (G1 & G2 & _); try lra; try exact C.
  split; [eapply QB_mono; [| |exact G2]; lra|].
  assert (QX : Rabs (QV X) <= 2) by (assert (K2 := QB_abs _ _ _ P); lra).
  replace (QV (q_mul U X) - k * T) with ((QV (q_mul U X) - QV U * QV X) + (QV U - k) * QV X + k * (QV X - T)) by ring.
  eapply Rle_trans; [apply Rabs_triang|]. eapply Rle_trans; [apply Rplus_le_compat_r, Rabs_triang|].
  assert (M1 : Rabs ((QV U - k) * QV X) <= / 1000 * uu * 2) by (apply prod_le; assumption).
  assert (M2 : Rabs (k * (QV X - T)) <= 1 * (e * uu)) by (apply prod_le; assumption). lra.
Qed.
Lemma qcomb U k X T W g Y T' e e' : ent U k -> ent W g -> Rabs k <= 1 -> Rabs g <= 1 -> okq X T (e * uu) -> okq Y T' (e' * uu) -> Rabs T <= 1 -> Rabs T' <= 1 ->
  0 <= e <= 200000 -> 0 <= e' <= 200000 -> e + e' <= 250000 ->
  res (q_add (q_mul U X) (q_mul W Y)) (k * T + g * T') /\ res (q_sub (q_mul U X) (q_mul W Y)) (k * T - g * T').
Proof.
  intros EU EW K G OX OY HT HT' He He' HS. assert (UP : 0 < uu) by (apply Rmult_lt_0_compat; lra).
  destruct (qprod U k X T e EU K OX HT He) as [A1 A2]. destruct (qprod W g Y T' e' EW G OY HT' He') as [B1 B2].
  set (p := q_mul U X) in *. set (q := q_mul W Y) in *. clearbody p q.
  assert (B1000 : 1000 <= bp 1000) by (apply Rle_trans with (bp 10); [cbn; lra|apply bpow_le; lia]).
  assert (S : (e + e' + 51416) * uu <= 302000 * uu) by (apply Rmult_le_compat_r; lra).
  split.
  - destruct (badd (11 / 10) (3 * u) p q) as (G1 & G2 & _); try lra; try assumption. split; [eapply QB_mono; [| |exact G2]; lra|].
    replace (QV (q_add p q) - (k * T + g * T')) with ((QV (q_add p q) - (QV p + QV q)) + (QV p - k * T) + (QV q - g * T')) by ring.
    eapply Rle_trans; [apply Rabs_triang|]. eapply Rle_trans; [apply Rplus_le_compat_r, Rabs_triang|]. lra.
  - destruct (bsub (11 / 10) (3 * u) p q) as (G1 & G2 & _); try lra; try assumption. split; [eapply QB_mono; [| |exact G2]; lra|].
    replace (QV (q_sub p q) - (k * T - g * T')) with ((QV (q_sub p q) - (QV p - QV q)) + (QV p - k * T) + - (QV q - g * T')) by ring.
    eapply Rle_trans; [apply Rabs_triang|]. eapply Rle_trans; [apply Rplus_le_compat_r, Rabs_triang|]. rewrite Rabs_Ropp. lra.
Qed.

Lemma q_trig_fin y F Ft A B E : (forall x z, Rabs (F x - F z) <= Rabs (x - z)) -> Rabs (A - B) <= E -> F B = Ft -> res y Ft ->
  QB 20 (20 * u) y /\ Rabs (QV y - F A) <= E + 302000 * uu.
Proof.
  intros L H EF [Fy K]. split; [exact Fy|]. assert (L1 := L A B). rewrite EF in L1.
  replace (QV y - F A) with ((QV y - Ft) + - (F A - Ft)) by ring. eapply Rle_trans; [apply Rabs_triang|]. rewrite Rabs_Ropp. lra.
Qed.
(** what the reduction has to deliver *)
Definition reduced (a : Quad) (E : R) : Prop := q_is_zero a = false /\ q_is_finite a = true /\
  exists z j k t, q_reduce a = (j, k, t) /\ QB (/ 635) (14 * u) t /\ Rabs (QV t) <= / 640 /\ (V (q0 t) = 0 -> QV t = 0) /\ turn_ok j /\ (-256 <= k <= 256)%Z /\
   Rabs (QV a - (QV t + IZR k * (PI / 1024) + IZR z * (2 * PI) + IZR j * (PI / 2))) <= E.
Definition trig_dom (a : Quad) : Prop := QGeoS a /\ bp (-290) <= Rabs (QV a) <= 31 / 10.
Lemma dom_pre a : trig_dom a -> q_is_zero a = false /\ q_is_finite a = true.
Proof.
  intros (N & L & _). assert (P := bpow_gt_0 radix2 (-290)). split; [|apply (proj1 N)].
  destruct (nz_preQ a N) as (_ & Z & _); [|exact Z]. intros E. rewrite E, Rabs_R0 in L. lra.
Qed.

Section Main.
Variables (lm : libm) (dbg : bool).
Hypothesis PR : printer lm.
Lemma q_combos k t : QB (/ 635) (14 * u) t -> Rabs (QV t) <= / 640 -> (V (q0 t) = 0 -> QV t = 0) -> (-256 <= k <= 256)%Z -> k <> 0%Z ->
  exists U W s c, q_cos_sin_entry k = Val (U, W) /\ q_sincos_taylor lm dbg t = Val (s, c) /\
   let g := (k >? 0)%Z in let x := QV t + IZR k * (PI / 1024) in
   res (if g then q_add (q_mul U s) (q_mul W c) else q_sub (q_mul U s) (q_mul W c)) (sin x) /\
   res (if g then q_sub (q_mul U c) (q_mul W s) else q_add (q_mul U c) (q_mul W s)) (cos x) /\
   res (if g then q_sub (q_mul (q_neg U) s) (q_mul W c) else q_add (q_mul (q_neg U) s) (q_mul W c)) (- sin x) /\
   res (if g then q_add (q_mul (q_neg U) c) (q_mul W s) else q_sub (q_mul (q_neg U) c) (q_mul W s)) (- cos x) /\
   (g = false -> res (q_sub (q_mul W c) (q_mul U s)) (- sin x)).
Proof.
  intros Bt Vt Zt Hk NZ. destruct (q_entry_ok k Hk NZ) as (U & W & E1 & EU & EW). destruct (q_sincos_small t Bt Vt Zt lm dbg PR) as (s & c & E2 & Os & Oc).
  exists U, W, s, c. split; [exact E1|]. split; [exact E2|]. cbv zeta.
  destruct (sc1 (QV t)) as [b1 b2]. destruct (sc1 (IZR k * (PI / 1024))) as [b3 b4].
  rewrite sin_plus, cos_plus. set (S := sin (QV t)) in *. set (C := cos (QV t)) in *. set (sg := sin (IZR k * (PI / 1024))) in *. set (ka := cos (IZR k * (PI / 1024))) in *.
  assert (EN := ent_neg _ _ EU). assert (b4' : Rabs (- ka) <= 1) by now rewrite Rabs_Ropp.
  destruct (k >? 0)%Z.
  - destruct (qcomb U ka s S W sg c C 100000 150000) as [A1 _]; auto; try lra. destruct (qcomb U ka c C W sg s S 150000 100000) as [_ A2]; auto; try lra.
    destruct (qcomb (q_neg U) (- ka) s S W sg c C 100000 150000) as [_ A3]; auto; try lra. destruct (qcomb (q_neg U) (- ka) c C W sg s S 150000 100000) as [A4 _]; auto; try lra.
    replace (S * ka + C * sg) with (ka * S + sg * C) by ring. replace (C * ka - S * sg) with (ka * C - sg * S) by ring.
    replace (- (ka * S + sg * C)) with (- ka * S - sg * C) by ring. replace (- (ka * C - sg * S)) with (- ka * C + sg * S) by ring.
    split; [exact A1|split; [exact A2|split; [exact A3|split; [exact A4|intros; discriminate]]]].
  - assert (b3' : Rabs (- sg) <= 1) by now rewrite Rabs_Ropp.
    destruct (qcomb U ka s S W (- sg) c C 100000 150000) as [_ A1]; auto; try lra. destruct (qcomb U ka c C W (- sg) s S 150000 100000) as [A2 _]; auto; try lra.
    destruct (qcomb (q_neg U) (- ka) s S W (- sg) c C 100000 150000) as [A3 _]; auto; try lra. destruct (qcomb (q_neg U) (- ka) c C W (- sg) s S 150000 100000) as [_ A4]; auto; try lra.
    destruct (qcomb W (- sg) c C U ka s S 150000 100000) as [_ A5]; auto; try lra.
    replace (S * ka + C * sg) with (ka * S - - sg * C) by ring. replace (C * ka - S * sg) with (ka * C + - sg * S) by ring.
    split; [exact A1|split; [exact A2|split; [|split; [|intros _]]]].
    + replace (- (ka * S - - sg * C)) with (- ka * S + - sg * C) by ring. exact A3.
    + replace (- (ka * C + - sg * S)) with (- ka * C - - sg * S) by ring. exact A4.
    + replace (- (ka * S - - sg * C)) with (- sg * C - ka * S) by ring. exact A5.
Qed.
Lemma qk0 t : QV t + IZR 0 * (PI / 1024) = QV t. Proof. ring. Qed.
Lemma q_sin_red a E : reduced a E -> exists r, q_sin lm dbg a = Val r /\ QB 20 (20 * u) r /\ Rabs (QV r - sin (QV a)) <= E + 302000 * uu.
Proof.
  intros (Z & F & z & j & k & t & RD & Bt & Vt & Zt & TJ & TK & ER).
  unfold q_sin, q_pre_sin. rewrite Z, F. cbn [negb]. rewrite RD. assert (UP : 0 < uu) by (apply Rmult_lt_0_compat; lra).
  assert (ST := sin_turns (QV t + IZR k * (PI / 1024)) j z TJ).
  assert (FIN : forall y, res y (if (j =? 0)%Z then sin (QV t + IZR k * (PI / 1024)) else if (j =? 1)%Z then cos (QV t + IZR k * (PI / 1024)) else if (j =? -1)%Z then - cos (QV t + IZR k * (PI / 1024)) else - sin (QV t + IZR k * (PI / 1024))) ->
    exists r, Val y = Val r /\ QB 20 (20 * u) r /\ Rabs (QV r - sin (QV a)) <= E + 302000 * uu).
  { intros y Ey. exists y. split; [reflexivity|]. eapply q_trig_fin; [exact sin_lip|exact ER|exact ST|exact Ey]. }
  destruct (k =? 0)%Z eqn:K.
  - apply Z.eqb_eq in K. rewrite K, qk0 in FIN.
    assert (Os := okq_res _ _ _ (q_sin_small t Bt Vt Zt) ltac:(lra)). assert (Oc := okq_res _ _ _ (q_cos_small t Bt Vt Zt) ltac:(lra)).
    assert (Os' := res_neg _ _ Os). assert (Oc' := res_neg _ _ Oc).
    apply FIN; destruct (j =? 0)%Z; auto; destruct (j =? 1)%Z; auto; destruct (j =? -1)%Z; auto.
  - apply Z.eqb_neq in K. destruct (q_combos k t Bt Vt Zt TK K) as (U & W & s & c & E1 & E2 & C1 & C2 & C3 & C4 & _). rewrite E1. cbn [obind]. rewrite E2. cbn [obind].
    destruct (k >? 0)%Z; apply FIN; destruct (j =? 0)%Z; auto; destruct (j =? 1)%Z; auto; destruct (j =? -1)%Z; auto.
Qed.
Lemma q_cos_red a E : reduced a E -> exists r, q_cos lm dbg a = Val r /\ QB 20 (20 * u) r /\ Rabs (QV r - cos (QV a)) <= E + 302000 * uu.
Proof.
  intros (Z & F & z & j & k & t & RD & Bt & Vt & Zt & TJ & TK & ER).
  unfold q_cos, q_pre_cos. rewrite Z, F. cbn [negb]. rewrite RD. assert (UP : 0 < uu) by (apply Rmult_lt_0_compat; lra).
  assert (ST := cos_turns (QV t + IZR k * (PI / 1024)) j z TJ).
  assert (FIN : forall y, res y (if (j =? 0)%Z then cos (QV t + IZR k * (PI / 1024)) else if (j =? 1)%Z then - sin (QV t + IZR k * (PI / 1024)) else if (j =? -1)%Z then sin (QV t + IZR k * (PI / 1024)) else - cos (QV t + IZR k * (PI / 1024))) ->
    exists r, Val y = Val r /\ QB 20 (20 * u) r /\ Rabs (QV r - cos (QV a)) <= E + 302000 * uu).
  { intros y Ey. exists y. split; [reflexivity|]. eapply q_trig_fin; [exact cos_lip|exact ER|exact ST|exact Ey]. }
  destruct (k =? 0)%Z eqn:K.
  - apply Z.eqb_eq in K. rewrite K, qk0 in FIN.
    assert (Os := okq_res _ _ _ (q_sin_small t Bt Vt Zt) ltac:(lra)). assert (Oc := okq_res _ _ _ (q_cos_small t Bt Vt Zt) ltac:(lra)).
    assert (Os' := res_neg _ _ Os). assert (Oc' := res_neg _ _ Oc).
    apply FIN; destruct (j =? 0)%Z; auto; destruct (j =? 1)%Z; auto; destruct (j =? -1)%Z; auto.
  - apply Z.eqb_neq in K. destruct (q_combos k t Bt Vt Zt TK K) as (U & W & s & c & E1 & E2 & C1 & C2 & C3 & C4 & C5). rewrite E1. cbn [obind]. rewrite E2. cbn [obind].
    destruct (k >? 0)%Z; [|assert (C6 := C5 eq_refl)]; apply FIN; destruct (j =? 0)%Z; auto; destruct (j =? 1)%Z; auto; destruct (j =? -1)%Z; auto.
Qed.
Lemma q_sin_cos_red a E : reduced a E -> exists s c, q_sin_cos lm dbg a = Val (s, c) /\ QB 20 (20 * u) s /\ QB 20 (20 * u) c /\ Rabs (QV s - sin (QV a)) <= E + 302000 * uu /\ Rabs (QV c - cos (QV a)) <= E + 302000 * uu.
Proof.
  intros (Z & F & z & j & k & t & RD & Bt & Vt & Zt & TJ & TK & ER).
  unfold q_sin_cos, q_pre_sin_cos. rewrite Z, F. cbn [negb]. rewrite RD. assert (UP : 0 < uu) by (apply Rmult_lt_0_compat; lra).
  assert (ST := sin_turns (QV t + IZR k * (PI / 1024)) j z TJ). assert (CT := cos_turns (QV t + IZR k * (PI / 1024)) j z TJ).
  set (S := sin (QV t + IZR k * (PI / 1024))) in *. set (C := cos (QV t + IZR k * (PI / 1024))) in *.
  assert (FIN : forall s c, res s S -> res c C ->
    exists s' c', Val (if (j =? 0)%Z then (s, c) else if (j =? 1)%Z then (c, q_neg s) else if (j =? -1)%Z then (q_neg c, s) else (q_neg s, q_neg c)) = Val (s', c') /\ QB 20 (20 * u) s' /\ QB 20 (20 * u) c' /\
      Rabs (QV s' - sin (QV a)) <= E + 302000 * uu /\ Rabs (QV c' - cos (QV a)) <= E + 302000 * uu).
  { intros s c Rs Rc. assert (Rs' := res_neg _ _ Rs). assert (Rc' := res_neg _ _ Rc).
    assert (G : forall s' c', res s' (if (j =? 0)%Z then S else if (j =? 1)%Z then C else if (j =? -1)%Z then - C else - S) -> res c' (if (j =? 0)%Z then C else if (j =? 1)%Z then - S else if (j =? -1)%Z then S else - C) ->
      QB 20 (20 * u) s' /\ QB 20 (20 * u) c' /\ Rabs (QV s' - sin (QV a)) <= E + 302000 * uu /\ Rabs (QV c' - cos (QV a)) <= E + 302000 * uu).
    { intros s' c' G1 G2. destruct (q_trig_fin _ sin _ _ _ _ sin_lip ER ST G1) as [H1 H2]. destruct (q_trig_fin _ cos _ _ _ _ cos_lip ER CT G2) as [H3 H4]. auto. }
    destruct (j =? 0)%Z; [|destruct (j =? 1)%Z; [|destruct (j =? -1)%Z]]; eexists; eexists; (split; [reflexivity|]); apply G; assumption. }
  destruct (k =? 0)%Z eqn:K.
  - apply Z.eqb_eq in K. destruct (q_sincos_small t Bt Vt Zt lm dbg PR) as (s & c & E2 & Os & Oc). rewrite E2. cbn [obind].
    unfold S, C in FIN. rewrite K, qk0 in FIN. apply FIN; [eapply okq_res; [exact Os|lra]|eapply okq_res; [exact Oc|lra]].
  - apply Z.eqb_neq in K. destruct (q_combos k t Bt Vt Zt TK K) as (U & W & s & c & E1 & E2 & C1 & C2 & _). rewrite E2. cbn [obind]. rewrite E1. cbn [obind].
    fold S in C1. fold C in C2. destruct (k >? 0)%Z; cbn [obind]; apply FIN; auto.
Qed.
End Main.
Lemma bp_87 : bp (-87) = 524288 * uu. Proof. rewrite <- u_bp, <- bpow_plus. exact (bp_split (-106) 19 ltac:(lia)). Qed.
Lemma red_near a : trig_dom a -> reduced a (125000 * uu).
Proof.
  intros D. destruct (dom_pre a D) as [Z F]. destruct D as [N H]. destruct (q_reduce_ok a N H) as (j & k & t & RD & Bt & Vt & Zt & TJ & TK & ER).
  split; [exact Z|]. split; [exact F|]. exists 0%Z, j, k, t. repeat (split; [assumption || (left; exact TJ)|]).
  replace (QV t + IZR k * (PI / 1024) + IZR 0 * (2 * PI) + IZR j * (PI / 2)) with (QV t + IZR j * (PI / 2) + IZR k * (PI / 1024)) by ring. exact ER.
Qed.
Lemma q_sin_cos_ok lm dbg a : printer lm -> trig_dom a -> exists s c, q_sin_cos lm dbg a = Val (s, c) /\ QB 20 (20 * u) s /\ QB 20 (20 * u) c /\ Rabs (QV s - sin (QV a)) <= bp (-87) /\ Rabs (QV c - cos (QV a)) <= bp (-87).
Proof.
  intros PR D. destruct (q_sin_cos_red lm dbg PR a _ (red_near a D)) as (s & c & A & B & C & G & H). exists s, c. assert (UP : 0 < uu) by (apply Rmult_lt_0_compat; lra). rewrite bp_87.
  repeat (split; [assumption|]). split; lra.
Qed.
Lemma q_sin_ok lm dbg a : printer lm -> trig_dom a -> exists r, q_sin lm dbg a = Val r /\ QB 20 (20 * u) r /\ Rabs (QV r - sin (QV a)) <= bp (-87).
Proof.
  intros PR D. destruct (q_sin_red lm dbg PR a _ (red_near a D)) as (r & A & B & C). exists r. assert (UP : 0 < uu) by (apply Rmult_lt_0_compat; lra). rewrite bp_87.
  repeat (split; [assumption|]). lra.
Qed.
Lemma q_cos_ok lm dbg a : printer lm -> trig_dom a -> exists r, q_cos lm dbg a = Val r /\ QB 20 (20 * u) r /\ Rabs (QV r - cos (QV a)) <= bp (-87).
Proof.
  intros PR D. destruct (q_cos_red lm dbg PR a _ (red_near a D)) as (r & A & B & C). exists r. assert (UP : 0 < uu) by (apply Rmult_lt_0_compat; lra). rewrite bp_87.
  repeat (split; [assumption|]). lra.
Qed.

(** ** several turns *)
Definition turns_dom (a : Quad) : Prop := QGeoS a /\ bp (-290) <= Rabs (QV a) <= bp 20.
Lemma turns_pre a : turns_dom a -> q_is_zero a = false /\ q_is_finite a = true.
Proof.
  intros (N & L & _). assert (P := bpow_gt_0 radix2 (-290)). split; [|apply (proj1 N)].
  destruct (nz_preQ a N) as (_ & Z & _); [|exact Z]. intros E. rewrite E, Rabs_R0 in L. lra.
Qed.
Lemma red_far a : turns_dom a -> reduced a ((84000 * (Rabs (QV a) + 4) + 179000) * uu).
Proof.
  intros D. destruct (turns_pre a D) as [Z F]. destruct D as [N [L H]]. change (bp 20) with 1048576 in H. assert (P := Rabs_pos (QV a)).
  split; [exact Z|]. split; [exact F|]. exact (q_reduce_big a (Rabs (QV a) + 4) N ltac:(lra) ltac:(lra)).
Qed.
Lemma far_bound x : 0 <= x -> (84000 * (x + 4) + 179000) * uu + 302000 * uu <= (x + 8) * bp (-89).
Proof.
  intros P. assert (E : bp (-89) = 131072 * uu) by (rewrite <- u_bp, <- bpow_plus; exact (bp_split (-106) 17 ltac:(lia))). rewrite E. assert (UP : 0 < uu) by (apply Rmult_lt_0_compat; lra).
  replace ((x + 8) * (131072 * uu)) with (131072 * (x + 8) * uu) by ring. rewrite <- Rmult_plus_distr_r. apply Rmult_le_compat_r; lra.
Qed.
Lemma q_sin_far lm dbg a : printer lm -> turns_dom a -> exists r, q_sin lm dbg a = Val r /\ QB 20 (20 * u) r /\ Rabs (QV r - sin (QV a)) <= (Rabs (QV a) + 8) * bp (-89).
Proof.
  intros PR D. destruct (q_sin_red lm dbg PR a _ (red_far a D)) as (r & A & B & C). exists r. repeat (split; [assumption|]). assert (K := far_bound _ (Rabs_pos (QV a))). lra.
Qed.
Lemma q_cos_far lm dbg a : printer lm -> turns_dom a -> exists r, q_cos lm dbg a = Val r /\ QB 20 (20 * u) r /\ Rabs (QV r - cos (QV a)) <= (Rabs (QV a) + 8) * bp (-89).
Proof.
  intros PR D. destruct (q_cos_red lm dbg PR a _ (red_far a D)) as (r & A & B & C). exists r. repeat (split; [assumption|]). assert (K := far_bound _ (Rabs_pos (QV a))). lra.
Qed.
Lemma q_sin_cos_far lm dbg a : printer lm -> turns_dom a -> exists s c, q_sin_cos lm dbg a = Val (s, c) /\ QB 20 (20 * u) s /\ QB 20 (20 * u) c /\
  Rabs (QV s - sin (QV a)) <= (Rabs (QV a) + 8) * bp (-89) /\ Rabs (QV c - cos (QV a)) <= (Rabs (QV a) + 8) * bp (-89).
Proof.
  intros PR D. destruct (q_sin_cos_red lm dbg PR a _ (red_far a D)) as (s & c & A & B & C & G & H). exists s, c. repeat (split; [assumption|]). assert (K := far_bound _ (Rabs_pos (QV a))). split; lra.
Qed.
Lemma QB_QL a d D x : QB a (d * u) x -> d <= D * Rabs (V (q0 x)) -> QL (D * u) x.
Proof.
  intros ([F0 A] & [F1 B] & [F2 C] & [F3 E]) H. assert (K : d * u <= D * u * Rabs (V (q0 x))).
  { replace (D * u * Rabs (V (q0 x))) with (D * Rabs (V (q0 x)) * u) by ring. apply Rmult_le_compat_r; lra. }
  repeat split; try assumption; lra.
Qed.
Lemma tan_quotient s c S C e : QB 20 (20 * u) s -> QB 20 (20 * u) c -> / 32 <= Rabs S <= 1 -> / 32 <= Rabs C <= 1 ->
  524288 * uu <= e <= 400000000000 * uu -> Rabs (QV s - S) <= e -> Rabs (QV c - C) <= e ->
  QL (4 * u) (q_div s c) /\ Rabs (QV (q_div s c) - S / C) <= 128 * e * Rabs (S / C).
Proof.
  intros Bs Bc [HS S1] [HC C1] He Es Ec.
  assert (UP : 0 < uu) by (apply Rmult_lt_0_compat; lra).
  assert (e1 : e <= 32 * e * Rabs S) by (apply Rle_trans with (32 * e * / 32); [lra|apply Rmult_le_compat_l; lra]).
  assert (e2 : e <= 32 * e * Rabs C) by (apply Rle_trans with (32 * e * / 32); [lra|apply Rmult_le_compat_l; lra]).
  assert (G : forall q T, QB 20 (20 * u) q -> / 32 <= Rabs T -> Rabs T <= 1 -> Rabs (QV q - T) <= e -> / 33 <= Rabs (V (q0 q)) <= 2 /\ QL (660 * u) q).
  { intros q T Bq L H Eq. assert (V1 := QB_val _ _ _ Bq). assert (K : Rabs (V (q0 q) - T) <= 62 * u).
    { replace (V (q0 q) - T) with (- (QV q - V (q0 q)) + (QV q - T)) by ring. eapply Rle_trans; [apply Rabs_triang|]. rewrite Rabs_Ropp. lra. }
    assert (K1 := tri _ _ _ _ K (Rle_refl _)). assert (K2 := tri2 _ _ _ _ K (Rle_refl _)). split; [lra|]. eapply QB_QL; [exact Bq|lra]. }
  destruct (G s S Bs HS S1 Es) as [As Ls]. destruct (G c C Bc HC C1 Ec) as [Ac Lc]. clear G.
  assert (B30 : bp (-300) <= / 1024) by (apply Rle_trans with (bp (-10)); [apply bpow_le; lia|cbn; lra]).
  assert (B90 : 1024 <= bp 90) by (apply Rle_trans with (bp 10); [cbn; lra|apply bpow_le; lia]). assert (B300 : 1024 <= bp 300) by (apply Rle_trans with (bp 10); [cbn; lra|apply bpow_le; lia]).
  destruct (q_div_L (660 * u) s c) as [L1 L2]; try lra; try assumption. split; [exact L1|].
  assert (NC : C <> 0) by (intros Z; rewrite Z, Rabs_R0 in HC; lra).
  destruct (inv_err (QV c) C (32 * e)) as [I1 I2]; [lra|exact NC|lra|].
  assert (P1 := prod_err (QV s) (/ QV c) S (/ C) (32 * e) (1002 / 1000 * (32 * e)) ltac:(lra) I2 ltac:(lra) ltac:(lra)).
  assert (P2 := chain_err _ _ _ _ _ L2 P1 ltac:(lra) ltac:(lra)). unfold Rdiv in *. apply Rle_trans with (1 := P2). apply Rmult_le_compat_r; [apply Rabs_pos|]. lra.
Qed.
Lemma q_tan_ok lm dbg a : printer lm -> trig_dom a -> / 32 <= Rabs (sin (QV a)) -> / 32 <= Rabs (cos (QV a)) ->
  exists r, q_tan lm dbg a = Val r /\ QL (4 * u) r /\ Rabs (QV r - tan (QV a)) <= bp (-80) * Rabs (tan (QV a)).
Proof.
  intros PR D HS HC. destruct (q_sin_cos_ok lm dbg a PR D) as (s & c & E & Bs & Bc & Es & Ec). unfold q_tan. rewrite E. cbn [obind].
  exists (q_div s c). split; [reflexivity|]. destruct (sc1 (QV a)) as [S1 C1].
  assert (UP : 0 < uu) by (apply Rmult_lt_0_compat; lra).
  assert (BE : bp (-87) = 524288 * uu) by (rewrite <- u_bp, <- bpow_plus; exact (bp_split (-106) 19 ltac:(lia))).
  assert (BE2 : bp (-80) = 67108864 * uu) by (rewrite <- u_bp, <- bpow_plus; exact (bp_split (-106) 26 ltac:(lia))).
  rewrite BE in Es, Ec. destruct (tan_quotient s c (sin (QV a)) (cos (QV a)) (524288 * uu) Bs Bc (conj HS S1) (conj HC C1) ltac:(lra) Es Ec) as [A B].
  split; [exact A|]. unfold tan. eapply Rle_trans; [exact B|]. apply Rmult_le_compat_r; [apply Rabs_pos|]. rewrite BE2. lra.
Qed.
Lemma q_tan_far lm dbg a : printer lm -> turns_dom a -> / 32 <= Rabs (sin (QV a)) -> / 32 <= Rabs (cos (QV a)) ->
  exists r, q_tan lm dbg a = Val r /\ QL (4 * u) r /\ Rabs (QV r - tan (QV a)) <= (Rabs (QV a) + 8) * bp (-82) * Rabs (tan (QV a)).
Proof.
  intros PR D HS HC. destruct (q_sin_cos_far lm dbg a PR D) as (s & c & E & Bs & Bc & Es & Ec). unfold q_tan. rewrite E. cbn [obind].
  exists (q_div s c). split; [reflexivity|]. destruct (sc1 (QV a)) as [S1 C1].
  assert (UP : 0 < uu) by (apply Rmult_lt_0_compat; lra).
  assert (BE : bp (-89) = 131072 * uu) by (rewrite <- u_bp, <- bpow_plus; exact (bp_split (-106) 17 ltac:(lia))).
  assert (BE2 : bp (-82) = 16777216 * uu) by (rewrite <- u_bp, <- bpow_plus; exact (bp_split (-106) 24 ltac:(lia))).
  assert (X : 0 <= Rabs (QV a) <= 1048576). { split; [apply Rabs_pos|]. destruct D as [_ [_ H]]. apply Rle_trans with (1 := H). cbn. lra. }
  rewrite BE in Es, Ec. set (x := Rabs (QV a)) in *.
  assert (B1 : 524288 * uu <= (x + 8) * (131072 * uu)) by (apply Rle_trans with (8 * (131072 * uu)); [lra|apply Rmult_le_compat_r; lra]).
  assert (B2 : (x + 8) * (131072 * uu) <= 400000000000 * uu) by (apply Rle_trans with (1048584 * (131072 * uu)); [apply Rmult_le_compat_r; lra|lra]).
  destruct (tan_quotient s c (sin (QV a)) (cos (QV a)) _ Bs Bc (conj HS S1) (conj HC C1) (conj B1 B2) Es Ec) as [A B].
  split; [exact A|]. unfold tan. eapply Rle_trans; [exact B|]. apply Rmult_le_compat_r; [apply Rabs_pos|]. rewrite BE2. lra.
Qed.
