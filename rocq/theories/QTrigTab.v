(** * The entries of the Quad sine and cosine tables are bounded and nearly exact *)
From Coq Require Import ZArith Reals List Bool Lia Lra.
From Flocq Require Import Core IEEE754.BinarySingleNaN.
From Verif Require Import F64 F64Facts Prim DoubleM QuadM RN Spec EFT ExactProofs QuadSpec QAddAcc QGeoAcc QGeoMul QSqrAcc QLoose QLDiv QLOps DDivProofs DAddProofs AbsOps QLSq Exact ConstM ConstProofs TableProofs TableQuad TransM ExpProofs SinReduce SinThms TransProofs QTrigOps.
Import ListNotations.
Local Open Scope R_scope.
Local Notation uu := (u * u).

Lemma V_nz_fin x : V x <> 0 -> Fin x.
Proof. destruct x as [s|s| |s m e h]; intros H; try reflexivity; exfalso; apply H; reflexivity. Qed.
Lemma check_rok t l : forall m, check t l m = true -> forallb rok l = true /\ forallb rok m = true.
Proof.
  revert t. induction l as [|a l IH]; intros [[s c] e] m H; destruct m as [|b m]; try discriminate H; [split; reflexivity|].
  cbn [check] in H. rewrite !andb_true_iff in H. destruct H as [[[[[Ra Rb] _] _] _] Hc]. destruct (IH _ _ Hc) as [A B].
  cbn [forallb]. rewrite Ra, Rb, A, B. split; reflexivity.
Qed.
Definition rbd (r : row) : bool := let '(a, b, c, d) := r in
  (100 * Z.abs (wval a) <=? 101 * one)%Z && (9007199254740992 * Z.abs (wval b) <=? 5 * one)%Z && (9007199254740992 * Z.abs (wval c) <=? 5 * one)%Z && (9007199254740992 * Z.abs (wval d) <=? 5 * one)%Z.
Lemma rows_bd : forallb rbd rows_s = true /\ forallb rbd rows_c = true.
Proof. split; vm_compute; reflexivity. Qed.
Lemma wok_nz w : wok w = true -> wval w <> 0%Z.
Proof.
  destruct w as [m e M k]. unfold wok, wval. rewrite !andb_true_iff. intros [[[[[[H1 H2] H3] H4] H5] H6] _]. apply Z.ltb_lt in H5. apply Z.leb_le in H4.
  rewrite Z.shiftl_mul_pow2 by lia. assert (0 < 2 ^ (248 - k))%Z by (apply Z.pow_pos_nonneg; lia). nia.
Qed.
Lemma wfb w p q a : wok w = true -> (p * Z.abs (wval w) <=? q * one)%Z = true -> (0 < p)%Z -> IZR q / IZR p <= a -> fb a (wdec w) /\ V (wdec w) <> 0.
Proof.
  intros H K P L. assert (E := wok_ok w H). assert (N := wok_nz w H). assert (O := one_pos). assert (NZ : V (wdec w) <> 0).
  { rewrite E. intros Z. apply N. apply eq_IZR. unfold Rdiv in Z. apply Rmult_integral in Z. destruct Z as [Z|Z]; [exact Z|]. exfalso. assert (0 < / IZR one) by now apply Rinv_0_lt_compat. lra. }
  split; [|exact NZ]. split; [now apply V_nz_fin|]. apply Z.leb_le, IZR_le in K. rewrite !mult_IZR, abs_IZR in K. apply Rle_trans with (2 := L).
  rewrite E. unfold Rdiv. rewrite Rabs_mult, (Rabs_pos_eq (/ IZR one)) by (left; now apply Rinv_0_lt_compat).
  assert (P' : 0 < IZR p) by now apply (IZR_lt 0). set (o := IZR one) in *. clearbody o. set (x := Rabs (IZR (wval w))) in *. clearbody x.
  apply Rmult_le_reg_r with (IZR p * o); [now apply Rmult_lt_0_compat|].
  replace (x * / o * (IZR p * o)) with (IZR p * x) by (field; lra). replace (IZR q * / IZR p * (IZR p * o)) with (IZR q * o) by (field; lra). exact K.
Qed.
Lemma row_QB r : rok r = true -> rbd r = true -> QB (101 / 100) (5 * u) (rq r) /\ V (q0 (rq r)) <> 0.
Proof.
  destruct r as [[[a b] c] d]. unfold rok, rbd. rewrite !andb_true_iff. intros [[[A B] C] D] [[[A' B'] C'] D'].
  destruct (wfb a 100 101 (101 / 100) A A') as [A1 A2]; [easy|lra|]. destruct (wfb b 9007199254740992 5 (5 * u) B B') as [B1 _]; [easy|lra|].
  destruct (wfb c 9007199254740992 5 (5 * u) C C') as [C1 _]; [easy|lra|]. destruct (wfb d 9007199254740992 5 (5 * u) D D') as [D1 _]; [easy|lra|].
  cbn [rq q0]. split; [|exact A2]. unfold QB. cbn [q0 q1 q2 q3]. auto.
Qed.
Lemma tab_QB i : (i < 256)%nat -> (QB (101 / 100) (5 * u) (nth i Q_SINES Q_ZERO) /\ V (q0 (nth i Q_SINES Q_ZERO)) <> 0) /\
  (QB (101 / 100) (5 * u) (nth i Q_COSINES Q_ZERO) /\ V (q0 (nth i Q_COSINES Q_ZERO)) <> 0).
Proof.
  intros H. destruct (check_rok _ _ _ tables_checked) as [K1 K2]. destruct rows_bd as [B1 B2]. rewrite forallb_forall in K1, K2, B1, B2.
  destruct quad_tables_ok as (LS & LC & _). rewrite sines_rows, map_length in LS. rewrite cosines_rows, map_length in LC. rewrite sines_rows, cosines_rows.
  assert (G : forall l, length l = 256%nat -> (forall x, In x l -> rok x = true) -> (forall x, In x l -> rbd x = true) ->
    QB (101 / 100) (5 * u) (nth i (map rq l) Q_ZERO) /\ V (q0 (nth i (map rq l) Q_ZERO)) <> 0).
  { intros l HL R1 R2. destruct (nth_in_or_default i (map rq l) Q_ZERO) as [I|I]; [|].
    - apply in_map_iff in I. destruct I as (r & E & I). rewrite <- E. apply row_QB; auto.
    - exfalso. assert (H2 : (i < length (map rq l))%nat) by (rewrite map_length, HL; exact H).
      destruct l as [|r0 l']; [discriminate HL|]. rewrite (nth_indep _ _ (rq r0) H2) in I. rewrite map_nth in I.
      assert (I2 : In (nth i (r0 :: l') r0) (r0 :: l')) by (apply nth_In; rewrite HL; exact H).
      destruct (row_QB _ (R1 _ I2) (R2 _ I2)) as [_ N]. apply N. rewrite I. reflexivity. }
  split; apply G; assumption.
Qed.

(** a table entry as a multiplier *)
Definition ent (U : Quad) (x : R) : Prop := QB (101 / 100) (5 * u) U /\ Rabs (QV U - x) <= / 1000 * uu /\ V (q0 U) <> 0.
Lemma ent_neg U x : ent U x -> ent (q_neg U) (- x).
Proof.
  intros (A & B & C). destruct (QB_neg _ _ _ A) as (A' & E & N). split; [exact A'|]. split; [|auto]. rewrite E.
  replace (- QV U - - x) with (- (QV U - x)) by ring. now rewrite Rabs_Ropp.
Qed.
Lemma q_entry_ok k : (-256 <= k <= 256)%Z -> k <> 0%Z -> exists U W, q_cos_sin_entry k = Val (U, W) /\ ent U (cos (IZR k * (PI / 1024))) /\
  ent W (if (k >? 0)%Z then sin (IZR k * (PI / 1024)) else - sin (IZR k * (PI / 1024))).
Proof.
  intros H NZ. set (i := Z.to_nat (Z.abs k - 1)). assert (Hi : (i < 256)%nat) by (unfold i; lia).
  unfold q_cos_sin_entry. replace (Z.abs k <=? 256)%Z with true by (symmetry; apply Z.leb_le; lia). fold i.
  exists (nth i Q_COSINES Q_ZERO), (nth i Q_SINES Q_ZERO). split; [reflexivity|].
  destruct (tab_QB i Hi) as [[S1 S2] [C1 C2]]. destruct quad_tables_ok as (_ & _ & T). destruct (T i Hi) as [KS KC]. clear T. unfold approx in KS, KC.
  assert (IK : INR (i + 1) = IZR (Z.abs k)). { rewrite INR_IZR_INZ. f_equal. unfold i. lia. }
  rewrite IK in KS, KC. change (IZR 1) with 1 in KS, KC. rewrite Rmult_1_l in KS, KC.
  replace (IZR (Z.abs k) * PI / 1024) with (IZR (Z.abs k) * (PI / 1024)) in KS, KC by field.
  set (th := IZR (Z.abs k) * (PI / 1024)) in *.
  assert (EC : cos (IZR k * (PI / 1024)) = cos th).
  { unfold th. destruct (Z_le_gt_dec 0 k) as [P|P]; [rewrite Z.abs_eq by exact P; reflexivity|]. rewrite Z.abs_neq, opp_IZR by lia. rewrite <- cos_neg. f_equal. ring. }
  assert (ES : (if (k >? 0)%Z then sin (IZR k * (PI / 1024)) else - sin (IZR k * (PI / 1024))) = sin th).
  { unfold th. destruct (k >? 0)%Z eqn:P.
    - apply Z.gtb_lt in P. rewrite Z.abs_eq by lia. reflexivity.
    - assert (k < 0)%Z by (rewrite Z.gtb_ltb in P; apply Z.ltb_ge in P; lia). rewrite Z.abs_neq, opp_IZR by lia. rewrite <- sin_neg. f_equal. ring. }
  rewrite EC, ES.
  assert (BB : bp (-210) <= / 1024 * uu). { change (/ 1024) with (bp (-10)). rewrite <- u_bp, <- !bpow_plus. apply bpow_le. lia. }
  assert (UP : 0 < uu) by (apply Rmult_lt_0_compat; lra).
  assert (BS := SIN_bound th). assert (BC := COS_bound th). assert (P := bpow_gt_0 radix2 (-210)).
  split; (split; [assumption|split; [|assumption]]).
  - apply Rle_trans with (1 := KC). apply Rle_trans with (bp (-210) * 1); [apply Rmult_le_compat_l; [lra|apply Rabs_le; lra]|lra].
  - apply Rle_trans with (1 := KS). apply Rle_trans with (bp (-210) * 1); [apply Rmult_le_compat_l; [lra|apply Rabs_le; lra]|lra].
Qed.
