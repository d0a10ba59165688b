(** * Quad reciprocals, negative integer powers and literals: accuracy *)
From Coq Require Import ZArith Reals List Bool Lia Lra.
From Flocq Require Import Core IEEE754.BinarySingleNaN.
From Verif Require Import F64 F64Facts Prim DoubleM QuadM RN Spec EFT SpecialProofs ExactProofs QExactProofs LawProofs QuadSpec QAddAcc QAddThms QMulAcc QMulThms QGeoAcc QGeoMul QLoose QLDiv QLOps
  QPowProofs FoldThms ExprProofs ParseM ParseSpec ParseProofs ParseThms ParseNum DDivProofs DAddProofs DMulProofs QExprSpec.
Import ListNotations.
Local Open Scope R_scope.

Lemma QGeo_fall x : QFall 52 x -> QGeo x.
Proof.
  intros (F & A & B & C & D). change (- (52))%Z with (-52)%Z in *. change (-2 * 52)%Z with (-104)%Z in *. change (-3 * 52)%Z with (-156)%Z in *. change (2 - 52)%Z with (-50)%Z in *.
  assert (E1 : bp (-52) = 2 * u) by (rewrite <- u_bp; exact (bp_split (-53) 1 ltac:(lia))).
  assert (E2 : bp (-104) = 4 * u * u) by (change (-104)%Z with (-52 + -52)%Z; rewrite bpow_plus, E1; ring).
  assert (E3 : bp (-156) = 8 * u * u * u) by (change (-156)%Z with (-104 + -52)%Z; rewrite bpow_plus, E1, E2; ring).
  assert (E4 : bp (-50) = 8 * u) by (rewrite <- u_bp; exact (bp_split (-53) 3 ltac:(lia))).
  rewrite E1, E2, E3, E4 in *. assert (P := Rabs_pos (V (q0 x))). assert (P' := Rabs_pos (V (q1 x))).
  unfold QGeo. change (bpow radix2 (-53)) with u. split; [exact F|]. lra.
Qed.
Lemma QGeo_zero x : QGeo x -> QV x = 0 -> QFV x 0 0 0 0.
Proof.
  intros G E. assert (H := QGeo_hi x G). destruct G as ((F0 & F1 & F2 & F3) & A & B & C & _). rewrite E, Rabs_R0 in H.
  assert (Z : Rabs (V (q0 x)) = 0) by (assert (P := Rabs_pos (V (q0 x))); lra). rewrite Z in A, B, C.
  assert (ZZ : forall a, Rabs (V a) <= 0 -> V a = 0). { intros a Ha. destruct (Req_dec (V a) 0) as [K|K]; [exact K|]. apply Rabs_pos_lt in K. lra. }
  split; [|split; [|split]]; (split; [assumption|apply ZZ; lra]).
Qed.
Lemma QFV_zero_geo x : QFV x 0 0 0 0 -> QGeo x /\ QV x = 0.
Proof.
  intros ([F0 E0] & [F1 E1] & [F2 E2] & [F3 E3]). split; [|unfold QV; rewrite E0, E1, E2, E3; ring].
  split; [split; [exact F0|]; split; [exact F1|]; split; [exact F2|exact F3]|]. rewrite E0, E1, E2, E3, Rabs_R0. lra.
Qed.
Lemma QFV_mul_0l x y : QFV x 0 0 0 0 -> Fin (q0 y) -> QFV (q_mul x y) 0 0 0 0.
Proof. intros ([F0 E0] & _) Fy. unfold q_mul. rewrite q_pre_mul_zero by assumption. apply QFV_zero_if. Qed.
Lemma single_geo a : Fin a -> QGeo (mkQ a f0 f0 f0) /\ QV (mkQ a f0 f0 f0) = V a.
Proof.
  intros F. assert (Z : V f0 = 0) by reflexivity. split; [|unfold QV; cbn [q0 q1 q2 q3]; rewrite Z; ring].
  unfold QGeo, QFin. cbn [q0 q1 q2 q3]. rewrite Z, Rabs_R0. assert (P := Rabs_pos (V a)). change (bpow radix2 (-53)) with u.
  split; [auto using Fin_0|]. lra.
Qed.
Lemma QL_ONE : QL (4 * u) Q_ONE /\ V (q0 Q_ONE) = 1 /\ QV Q_ONE = 1.
Proof.
  destruct QFall_ONE as [K E]. split; [apply QL_geo, QGeo_fall; exact K|]. split; [|exact E].
  apply V_1.
Qed.

Lemma q_recip_ok x : QL (4 * u) x -> bp (-299) <= Rabs (QV x) <= bp 299 ->
  QL (4 * u) (q_recip x) /\ Rabs (QV (q_recip x) - / QV x) <= bp (-91) * Rabs (/ QV x).
Proof.
  intros L [B1 B2]. destruct QL_ONE as (L1 & V1 & E1).
  assert (AX := QL_abs (4 * u) x ltac:(lra) ltac:(lra) L). set (X := Rabs (V (q0 x))) in *.
  assert (G1 : bp 300 = 2 * bp 299) by exact (bp_split 299 1 ltac:(lia)).
  assert (G2 : bp (-299) = 2 * bp (-300)) by exact (bp_split (-300) 1 ltac:(lia)).
  assert (P1 := bpow_gt_0 radix2 299). assert (P2 := bpow_gt_0 radix2 (-300)).
  assert (Q1 : bp (-300) <= 1) by (change 1 with (bp 0); apply bpow_le; lia).
  assert (Q2 : 1 <= bp 90) by (change 1 with (bp 0); apply bpow_le; lia).
  destruct (q_div_L (4 * u) Q_ONE x) as [L2 E2]; try assumption; try (rewrite V1, Rabs_R1; assumption); try (fold X; lra).
  split; [exact L2|]. rewrite E1 in E2. unfold q_recip. replace (1 / QV x) with (/ QV x) in E2 by (unfold Rdiv; ring).
  eapply Rle_trans; [exact E2|]. apply Rmult_le_compat_r; [apply Rabs_pos|].
  replace (bp (-91)) with (32768 * (u * u)); [lra|]. rewrite <- u_bp, <- bpow_plus. symmetry. exact (bp_split (-106) 15 ltac:(lia)).
Qed.

(** negative integer powers *)
Lemma q_powi_split dbg x n : (1 <= n <= 2147483647)%Z -> Fin (q0 x) -> V (q0 x) <> 0 ->
  forall s, q_powi dbg x n = Val s -> q_powi dbg x (- n) = Val (q_recip s).
Proof.
  intros Hn F NZ s. unfold q_powi.
  assert (PN : forall k, (k <> 0)%Z -> q_pre_powi x k = None).
  { intros k Hk. unfold q_pre_powi, q_is_nan, q_is_zero, q_is_infinite. apply Z.eqb_neq in Hk. rewrite Hk, (Fin_nan _ F), (Fin_inf _ F).
    rewrite feqb_ok by (easy || apply Fin_0). now rewrite Req_bool_false. }
  rewrite !PN by lia. rewrite Z.abs_opp. rewrite (Z.abs_eq n) by lia.
  destruct (i32_chk dbg n) as [i|]; cbn [obind]; [|discriminate].
  replace (n <? 0)%Z with false by (symmetry; apply Z.ltb_ge; lia). replace (- n <? 0)%Z with true by (symmetry; apply Z.ltb_lt; lia).
  intros H. injection H as <-. reflexivity.
Qed.
Lemma q_powi_neg_ok dbg x n : QDec 53 x -> (1 <= n <= 2147483647)%Z -> bp (-290) <= Rabs (QV x) ^ Z.to_nat n <= bp 290 ->
  exists r, q_powi dbg x (- n) = Val r /\ QL (4 * u) r /\
    Rabs (QV r - / QV x ^ Z.to_nat n) <= bp (-90) * Rabs (/ QV x ^ Z.to_nat n).
Proof.
  intros Hx Hn [H1 H2].
  assert (G1 : bp (-490) <= bp (-290)) by (apply bpow_le; lia). assert (G2 : bp 290 <= bp 490) by (apply bpow_le; lia).
  destruct (q_powi_pos_ok dbg x n Hx Hn) as (s & E & L & A); [lra|].
  assert (P0 := bpow_gt_0 radix2 (-290)).
  assert (NX : QV x <> 0). { intros K. rewrite K, Rabs_R0, pow_i in H1 by lia. lra. }
  assert (Gx := QGeo_dec x Hx).
  assert (NZ : V (q0 x) <> 0).
  { intros K. apply NX. apply QFV_zero_geo. destruct Gx as ((F0 & F1 & F2 & F3) & A1 & A2 & A3 & _). rewrite K, Rabs_R0 in *.
    assert (ZZ : forall a, Rabs (V a) <= 0 -> V a = 0). { intros a Ha. destruct (Req_dec (V a) 0) as [J|J]; [exact J|]. apply Rabs_pos_lt in J. lra. }
    split; [|split; [|split]]; (split; [assumption|]); [exact K| | |]; apply ZZ; lra. }
  exists (q_recip s). split; [apply q_powi_split; try assumption; apply Gx|].
  set (P := QV x ^ Z.to_nat n) in *.
  assert (AP : Rabs P = Rabs (QV x) ^ Z.to_nat n) by (unfold P; symmetry; apply RPow_abs). rewrite <- AP in *.
  assert (T : IZR n * bp (-197) <= bp (-160)).
  { apply Rle_trans with (bp 31 * bp (-197)).
    - apply Rmult_le_compat_r; [apply bpow_ge_0|]. apply Rle_trans with (IZR 2147483647); [apply IZR_le; lia|change (bp 31) with 2147483648; lra].
    - rewrite <- bpow_plus. apply bpow_le. lia. }
  assert (A' : Rabs (QV s - P) <= bp (-160) * Rabs P).
  { eapply Rle_trans; [exact A|]. apply Rmult_le_compat_r; [apply Rabs_pos|exact T]. }
  assert (NP : P <> 0) by (intros K; rewrite K, Rabs_R0 in H1; lra).
  assert (K1 : relg (bp (-91)) 0 P P) by apply relg_0.
  assert (S9 : bp (-160) <= / 1000 * bp (-91)).
  { assert (J : bp (-91) = IZR (2 ^ 69) * bp (-160)) by exact (bp_split (-160) 69 ltac:(lia)). assert (0 < bp (-160)) by apply bpow_gt_0.
    change (2 ^ 69)%Z with 590295810358705651712%Z in J. lra. }
  assert (SM : bp (-91) <= / 1000). { apply Rle_trans with (bp (-10)); [apply bpow_le; lia|change (bp (-10)) with (/ 1024); lra]. }
  assert (P9 := bpow_gt_0 radix2 (-91)).
  set (e := bp (-91)) in *.
  assert (A2 : Rabs (QV s - P) <= / 1000 * e * Rabs P). { eapply Rle_trans; [exact A'|]. apply Rmult_le_compat_r; [apply Rabs_pos|exact S9]. }
  assert (PP := Rabs_pos_lt P NP).
  assert (eP : e * Rabs P <= / 1000 * Rabs P) by (apply Rmult_le_compat_r; lra).
  assert (T1 := Rabs_triang_inv P (P - QV s)). replace (P - (P - QV s)) with (QV s) in T1 by ring. rewrite (Rabs_minus_sym P (QV s)) in T1.
  assert (T2 := Rabs_triang P (QV s - P)). replace (P + (QV s - P)) with (QV s) in T2 by ring.
  assert (G3 : bp 299 = 512 * bp 290) by exact (bp_split 290 9 ltac:(lia)).
  assert (G4 : bp (-290) = 512 * bp (-299)) by exact (bp_split (-299) 9 ltac:(lia)).
  assert (0 < bp 290) by apply bpow_gt_0. assert (0 < bp (-299)) by apply bpow_gt_0.
  assert (LB : 999 / 1000 * Rabs P <= Rabs (QV s)) by lra.
  destruct (q_recip_ok s) as [L2 E2]; [apply QL_geo, QGeo_fall; exact L|lra|].
  split; [exact L2|].
  assert (NS : QV s <> 0). { intros K. rewrite K, Rabs_R0 in LB. lra. }
  assert (E3 : Rabs (/ QV s - / P) <= / 100 * e * Rabs (/ P)).
  { replace (/ QV s - / P) with (- (QV s - P) * / QV s * / P) by (field; split; assumption).
    rewrite !Rabs_mult, Rabs_Ropp. apply Rmult_le_compat_r; [apply Rabs_pos|]. rewrite Rabs_inv.
    apply Rmult_le_reg_r with (Rabs (QV s)); [lra|]. rewrite Rmult_assoc, Rinv_l by lra. rewrite Rmult_1_r.
    eapply Rle_trans; [exact A2|]. replace (/ 1000 * e * Rabs P) with (/ 1000 * (e * Rabs P)) by ring. replace (/ 100 * e * Rabs (QV s)) with (/ 100 * (e * Rabs (QV s))) by ring.
    assert (e * (999 / 1000 * Rabs P) <= e * Rabs (QV s)) by (apply Rmult_le_compat_l; lra). lra. }
  assert (E4 : Rabs (/ QV s) <= (1 + / 100) * Rabs (/ P)).
  { assert (J := Rabs_triang (/ P) (/ QV s - / P)). replace (/ P + (/ QV s - / P)) with (/ QV s) in J by ring.
    assert (e * Rabs (/ P) <= 1 * Rabs (/ P)) by (apply Rmult_le_compat_r; [apply Rabs_pos|lra]). lra. }
  fold e in E2.
  replace (QV (q_recip s) - / P) with ((QV (q_recip s) - / QV s) + (/ QV s - / P)) by ring.
  eapply Rle_trans; [apply Rabs_triang|].
  assert (e * Rabs (/ QV s) <= e * ((1 + / 100) * Rabs (/ P))) by (apply Rmult_le_compat_l; lra).
  replace (bp (-90)) with (2 * e) by (symmetry; exact (bp_split (-91) 1 ltac:(lia))).
  assert (0 <= e * Rabs (/ P)) by (apply Rmult_le_pos; [lra|apply Rabs_pos]). lra.
Qed.

(** digits *)
Notation qeps := (bp (-137)).
Lemma q_assign_id x r : q_assign x r = r. Proof. now destruct r. Qed.
Lemma ten_geo : QGeo (mkQ (fofZ 10) f0 f0 f0) /\ QV (mkQ (fofZ 10) f0 f0 f0) = 10.
Proof. destruct (fofZ_exact 10 ltac:(lia)) as [F E]. destruct (single_geo (fofZ 10) F) as [G K]. split; [exact G|]. rewrite K. exact E. Qed.
Lemma relg_zero eps n c : relg eps n c 0 -> c = 0.
Proof.
  unfold relg. rewrite Rabs_R0, Rmult_0_r, Rminus_0_r. intros H. destruct (Req_dec c 0) as [K|K]; [exact K|]. apply Rabs_pos_lt in K. lra.
Qed.
Lemma dec_val_lt l : Forall (fun d => (0 <= d <= 9)%Z) l -> (0 <= dec_val l < 10 ^ Z.of_nat (length l))%Z.
Proof.
  induction l as [|d l IH] using rev_ind; intros H; [cbn; lia|].
  apply Forall_app in H as [H1 H2]. inversion H2; subst. specialize (IH H1). rewrite dec_val_snoc, app_length. cbn [length].
  replace (Z.of_nat (length l + 1)) with (Z.of_nat (length l) + 1)%Z by lia. rewrite Z.pow_add_r by lia. lia.
Qed.
Lemma p10_bp n : (0 <= n)%Z -> (n <= 130)%Z -> IZR (10 ^ n) <= bp 432.
Proof.
  intros H1 H2. change (bp 432) with (IZR (2 ^ 432)). apply IZR_le. apply Z.le_trans with (10 ^ 130)%Z; [apply Z.pow_le_mono_r; lia|]. vm_compute. discriminate.
Qed.
Lemma dec_val_cons c t : dec_val (c :: t) = (c * 10 ^ Z.of_nat (length t) + dec_val t)%Z.
Proof.
  induction t as [|d t IH] using rev_ind; [cbn; lia|].
  change (c :: t ++ [d]) with ((c :: t) ++ [d]). rewrite !dec_val_snoc, IH, app_length. cbn [length].
  replace (Z.of_nat (length t + 1)) with (Z.of_nat (length t) + 1)%Z by lia. rewrite Z.pow_add_r by lia. ring.
Qed.
Lemma sig_snoc l d : Forall (fun d => (0 <= d <= 9)%Z) l ->
  sig_digits (l ++ [d]) = if (dec_val l =? 0)%Z then sig_digits [d] else (sig_digits l + 1)%nat.
Proof.
  induction 1 as [|c t Hc Ht IH]; [reflexivity|]. rewrite dec_val_cons. assert (B := dec_val_lt t Ht).
  cbn [app sig_digits]. destruct (Z.eqb_spec c 0) as [->|N].
  - rewrite IH. rewrite Z.mul_0_l, Z.add_0_l. reflexivity.
  - assert (1 * 10 ^ Z.of_nat (length t) <= c * 10 ^ Z.of_nat (length t))%Z by (apply Z.mul_le_mono_nonneg_r; lia).
    rewrite (proj2 (Z.eqb_neq _ _)) by lia. cbn [length]. rewrite app_length. cbn [length]. lia.
Qed.
Lemma dec_val_sig l : Forall (fun d => (0 <= d <= 9)%Z) l -> (0 <= dec_val l < 10 ^ Z.of_nat (sig_digits l))%Z.
Proof.
  induction 1 as [|c t Hc Ht IH]; [cbn; lia|]. cbn [sig_digits]. destruct (Z.eqb_spec c 0) as [->|N].
  - rewrite dec_val_cons. lia.
  - apply (dec_val_lt (c :: t)). constructor; assumption.
Qed.
Lemma accumulate_q l : Forall (fun d => (0 <= d <= 9)%Z) l -> (sig_digits l <= 130)%nat ->
  QGeo (accumulate_digits q_ops l) /\ relg qeps (2 * sig_digits l) (QV (accumulate_digits q_ops l)) (IZR (dec_val l)).
Proof.
  assert (He := bpow_ge_0 radix2 (-137)).
  induction l as [|d l IH] using rev_ind; intros HF HL.
  { cbn [accumulate_digits fold_left n_zero q_ops dec_val length Nat.mul]. destruct (QFV_zero_geo Q_ZERO) as [G E]; [apply (QFV_zero_if true)|].
    split; [exact G|]. cbn. rewrite E. apply relg_0. }
  apply Forall_app in HF as [H1 H2]. inversion H2 as [|? ? Hd _]; subst. rewrite (sig_snoc l d H1) in HL |- *.
  rewrite facc_snoc. rewrite dec_val_snoc. cbn [n_add n_mul n_ten n_digit q_ops].
  unfold q_mul_assign, q_add_assign. rewrite !q_assign_id.
  assert (DB := dec_val_sig l H1).
  assert (HL0 : (dec_val l = 0)%Z -> sig_digits l = 0%nat).
  { clear - H1. induction H1 as [|c t Hc Ht IH]; [reflexivity|]. rewrite dec_val_cons. assert (B := dec_val_lt t Ht). cbn [sig_digits]. destruct (Z.eqb_spec c 0) as [->|N].
    - rewrite Z.mul_0_l, Z.add_0_l. exact IH.
    - assert (1 * 10 ^ Z.of_nat (length t) <= c * 10 ^ Z.of_nat (length t))%Z by (apply Z.mul_le_mono_nonneg_r; lia). assert (0 < 10 ^ Z.of_nat (length t))%Z by (apply Z.pow_pos_nonneg; lia). lia. }
  destruct IH as [G K]; [exact H1|destruct (Z.eqb_spec (dec_val l) 0) as [Z0|Z0]; [rewrite (HL0 Z0)|]; lia|].
  set (a := accumulate_digits q_ops l) in *. clearbody a.
  set (D := dec_val l) in *. clearbody D. set (sl := sig_digits l) in *. clearbody sl.
  destruct ten_geo as [GT ET]. set (T := mkQ (fofZ 10) f0 f0 f0) in *. clearbody T.
  destruct (fofZ_exact d ltac:(lia)) as [Fd Ed]. destruct (single_geo (fofZ d) Fd) as [Gd Vd]. rewrite Ed in Vd.
  set (y := mkQ (fofZ d) f0 f0 f0) in *. clearbody y.
  assert (Pd : 0 <= IZR d <= 9) by (split; apply IZR_le; lia).
  assert (G6 : bp 499 <= bp 999) by (apply bpow_le; lia).
  assert (G7 : 16 <= bp 499) by (change 16 with (bp 4); apply bpow_le; lia).
  assert (J30 : bp (-30) <= 1) by (change 1 with (bp 0); apply bpow_le; lia).
  destruct (Z.eqb_spec D 0) as [D0|D0].
  { rewrite D0 in *. apply relg_zero in K. destruct (QFV_zero_geo _ (QFV_mul_0l a T (QGeo_zero a G K) (proj1 (proj1 GT)))) as [G' E'].
    destruct (q_add_geo _ y G' Gd) as [GA EA].
    { rewrite E', Rabs_R0; lra. } { rewrite Vd, Rabs_pos_eq; lra. }
    { rewrite Vd, E', Rabs_R0, !Rplus_0_l. assert (0 <= Rabs (IZR d)) by apply Rabs_pos. rewrite <- (Rmult_1_l (Rabs (IZR d))) at 2. apply Rmult_le_compat_r; lra. }
    split; [exact GA|]. rewrite E', Vd, Rabs_R0, !Rplus_0_l in EA. change (10 * 0 + d)%Z with d.
    cbn [sig_digits length]. destruct (Z.eqb_spec d 0) as [->|Nd].
    - rewrite Rabs_R0, Rmult_0_r in EA. unfold relg. rewrite Rabs_R0, Rmult_0_r. exact EA.
    - apply (relg_mono qeps He 1); [lia|]. change 1%nat with (0 + 1)%nat. apply (relg_step qeps He) with (IZR d); [apply relg_0|exact EA]. }
  assert (SM : INR (2 * sl) * qeps <= / 4).
  { apply Rle_trans with (INR 260 * qeps); [apply Rmult_le_compat_r; [exact He|apply le_INR; lia]|].
    apply Rle_trans with (bp 9 * qeps); [apply Rmult_le_compat_r; [exact He|]; change (bp 9) with 512; rewrite INR_IZR_INZ; apply IZR_le; lia|].
    rewrite <- bpow_plus. change (/ 4) with (bp (-2)). apply bpow_le. lia. }
  assert (B43 : IZR D <= bp 432). { apply Rle_trans with (IZR (10 ^ Z.of_nat sl)); [apply IZR_le; lia|apply p10_bp; lia]. }
  assert (PD : 0 <= IZR D) by (apply IZR_le; lia).
  assert (G5 : bp 499 = IZR (2 ^ 67) * bp 432) by exact (bp_split 432 67 ltac:(lia)). change (2 ^ 67)%Z with 147573952589676412928%Z in G5.
  assert (P43 := bpow_gt_0 radix2 432).
  (* the product *)
  assert (M : QGeo (q_mul a T) /\ relg qeps (2 * sl + 1) (QV (q_mul a T)) (IZR (10 * D))).
  { destruct (relg_range qeps He _ _ _ SM K) as [R1 R2]. rewrite (Rabs_pos_eq (IZR D)) in R1, R2 by lra.
    assert (1 <= IZR D) by (apply IZR_le; lia).
    assert (B5 : bp (-500) <= / 2) by (change (/ 2) with (bp (-1)); apply bpow_le; lia).
    destruct (q_mul_geo a T G GT) as [G' E']; [lra|rewrite ET, Rabs_pos_eq; lra|rewrite ET, Rabs_mult, (Rabs_pos_eq 10); lra|].
    split; [exact G'|]. rewrite mult_IZR, (Rmult_comm 10). rewrite ET in E'.
    apply (relg_step qeps He) with (QV a * 10).
    + replace (2 * sl)%nat with (2 * sl + 0)%nat by lia. apply (relg_mul qeps He _ 0); [exact K|apply relg_0].
    + eapply Rle_trans; [exact E'|]. apply Rmult_le_compat_r; [apply Rabs_pos|apply bpow_le; lia]. }
  destruct M as [GM KM]. set (m := q_mul a T) in *. clearbody m.
  assert (SM2 : INR (2 * sl + 1) * qeps <= / 4).
  { apply Rle_trans with (INR 261 * qeps); [apply Rmult_le_compat_r; [exact He|apply le_INR; lia]|].
    apply Rle_trans with (bp 9 * qeps); [apply Rmult_le_compat_r; [exact He|]; change (bp 9) with 512; rewrite INR_IZR_INZ; apply IZR_le; lia|].
    rewrite <- bpow_plus. change (/ 4) with (bp (-2)). apply bpow_le. lia. }
  destruct (relg_range qeps He _ _ _ SM2 KM) as [R1 R2].
  assert (Pm : 0 <= QV m).
  { assert (N1 : IZR (10 * D) <> 0) by (apply not_0_IZR; lia). assert (J := relg_sign qeps He _ _ _ SM2 KM N1).
    assert (0 < IZR (10 * D)) by (apply IZR_lt; lia). apply Rlt_le. apply Rmult_lt_reg_r with (IZR (10 * D)); lra. }
  rewrite mult_IZR in R1, R2, KM. rewrite (Rabs_pos_eq (10 * IZR D)) in R1, R2 by lra.
  rewrite (Rabs_pos_eq (QV m)) in R1, R2 by lra.
  destruct (q_add_geo m y GM Gd) as [GA EA].
  { rewrite Rabs_pos_eq; lra. } { rewrite Vd, Rabs_pos_eq; lra. }
  { rewrite Vd. rewrite !Rabs_pos_eq by lra.
    rewrite <- (Rmult_1_l (QV m + IZR d)) at 2. apply Rmult_le_compat_r; lra. }
  split; [exact GA|]. rewrite Vd in EA. rewrite (Rabs_pos_eq (QV m)), (Rabs_pos_eq (IZR d)) in EA by lra.
  replace (2 * (sl + 1))%nat with (2 * sl + 1 + 1)%nat by lia. rewrite plus_IZR, mult_IZR.
  apply (relg_step qeps He) with (QV m + IZR d).
  - unfold relg in *. rewrite (Rabs_pos_eq (10 * IZR D + IZR d)) by lra. rewrite (Rabs_pos_eq (10 * IZR D)) in KM by lra.
    replace (QV m + IZR d - (10 * IZR D + IZR d)) with (QV m - 10 * IZR D) by ring. eapply Rle_trans; [exact KM|].
    apply Rmult_le_compat_l; [|lra]. assert (J := pw_ge1 qeps He (2 * sl + 1)). lra.
  - rewrite (Rabs_pos_eq (QV m + IZR d)) by lra. exact EA.
Qed.

(** ** literals *)
Lemma relg_of eps k c v n : 0 <= eps -> k <= INR n * eps -> Rabs (c - v) <= k * Rabs v -> relg eps n c v.
Proof.
  intros He Hk H. unfold relg. eapply Rle_trans; [exact H|]. apply Rmult_le_compat_r; [apply Rabs_pos|].
  assert (J := poly n eps). destruct (Rle_lt_or_eq_dec 0 eps He) as [P|P]; [specialize (J P); lra|]. rewrite <- P in *. rewrite Rplus_0_r, pow1. lra.
Qed.
Lemma pow10_490 n : (1 <= n <= 147)%Z -> bp (-490) <= Rabs 10 ^ Z.to_nat n <= bp 490.
Proof.
  intros H. rewrite Rabs_pos_eq by lra. split.
  - apply Rle_trans with 1; [change 1 with (bp 0); apply bpow_le; lia|apply pow_R1_Rle; lra].
  - apply Rle_trans with (10 ^ 147). { apply Rle_pow; [lra|lia]. }
    replace 10 with (IZR 10) by reflexivity. rewrite pow_IZR. change (bp 490) with (IZR (2 ^ 490)). apply IZR_le. vm_compute. discriminate.
Qed.
Lemma pow10_290 n : (1 <= n <= 87)%Z -> bp (-290) <= Rabs 10 ^ Z.to_nat n <= bp 290.
Proof.
  intros H. rewrite Rabs_pos_eq by lra. split.
  - apply Rle_trans with 1; [change 1 with (bp 0); apply bpow_le; lia|apply pow_R1_Rle; lra].
  - apply Rle_trans with (10 ^ 87). { apply Rle_pow; [lra|lia]. }
    replace 10 with (IZR 10) by reflexivity. rewrite pow_IZR. change (bp 290) with (IZR (2 ^ 290)). apply IZR_le. vm_compute. discriminate.
Qed.
Lemma ten_dec : QDec 53 (mkQ (fofZ 10) f0 f0 f0).
Proof.
  destruct (fofZ_exact 10 ltac:(lia)) as [F E]. assert (Z : V f0 = 0) by reflexivity.
  unfold QDec, QFin. cbn [q0 q1 q2 q3]. rewrite Z, Rabs_R0, Rmult_0_r. split; [auto using Fin_0|].
  assert (0 <= bp (- (53)) * Rabs (V (fofZ 10))) by (apply Rmult_le_pos; [apply bpow_ge_0|apply Rabs_pos]). lra.
Qed.

Lemma q_neg_if (b : bool) x z k : QFin x -> Rabs (QV x - z) <= k * Rabs z ->
  Rabs (QV (if b then q_neg x else x) - (if b then -1 else 1) * z) <= k * Rabs ((if b then -1 else 1) * z).
Proof.
  intros F H. destruct b.
  - rewrite (QV_neg x F). replace (- QV x - -1 * z) with (- (QV x - z)) by ring. rewrite Rabs_Ropp. replace (-1 * z) with (- z) by ring. now rewrite Rabs_Ropp.
  - now rewrite Rmult_1_l.
Qed.

(** nonnegative effective exponent *)
Lemma q_parse_pos dbg s m e : short (normal_text s) -> number (normal_text s) m e -> (sig_digits (digs m) <= 130)%nat -> (0 <= e - frac m <= 140)%Z ->
  exists r, from_str q_ops dbg s = Val (POk r) /\ QGeo r /\
    Rabs (QV r - q_lit m e) <= 2 * INR (2 * sig_digits (digs m) + 2) * qeps * Rabs (q_lit m e).
Proof.
  intros S Nu HL HE. assert (He := bpow_ge_0 radix2 (-137)).
  destruct (accumulate_q (digs m) (digs_nonneg m) HL) as [G K].
  rewrite (from_str_number q_ops dbg s m e S Nu) by (unfold i32_min; lia).
  unfold number_value, apply_exp. rewrite (proj2 (Z.ltb_ge _ _)) by lia. cbn [n_powi q_ops n_ten n_mul n_neg].
  unfold q_lit. set (a := accumulate_digits q_ops (digs m)) in *. clearbody a.
  assert (DB := dec_val_sig (digs m) (digs_nonneg m)). set (n := sig_digits (digs m)) in *. set (D := dec_val (digs m)) in *. set (E := (e - frac m)%Z) in *. clearbody D n E.
  assert (SM : INR (2 * n + 2) * qeps <= / 4).
  { apply Rle_trans with (INR 262 * qeps); [apply Rmult_le_compat_r; [exact He|apply le_INR; lia]|].
    apply Rle_trans with (bp 9 * qeps); [apply Rmult_le_compat_r; [exact He|]; change (bp 9) with 512; rewrite INR_IZR_INZ; apply IZR_le; lia|].
    rewrite <- bpow_plus. change (/ 4) with (bp (-2)). apply bpow_le. lia. }
  assert (FIN : forall r, QGeo r -> relg qeps (2 * n + 2) (QV r) (IZR D * powerRZ 10 E) ->
    QGeo (if negative m then q_neg r else r) /\
    Rabs (QV (if negative m then q_neg r else r) - IZR ((if negative m then -1 else 1) * D) * powerRZ 10 E) <=
      2 * INR (2 * n + 2) * qeps * Rabs (IZR ((if negative m then -1 else 1) * D) * powerRZ 10 E)).
  { intros r Gr Kr. split; [destruct (negative m); [apply QGeo_neg|]; exact Gr|].
    rewrite mult_IZR, Rmult_assoc. replace (IZR (if negative m then -1 else 1)) with (if negative m then -1 else 1) by now destruct (negative m).
    apply q_neg_if; [apply Gr|]. apply relg_final; assumption. }
  destruct (Z.eqb_spec E 0) as [E0|NE].
  { cbn [obind]. exists (if negative m then q_neg a else a). split; [reflexivity|]. apply FIN; [exact G|]. rewrite E0. cbn [powerRZ]. rewrite Rmult_1_r.
    apply (relg_mono qeps He (2 * n)); [lia|exact K]. }
  destruct ten_geo as [_ ET].
  destruct (q_powi_pos_ok dbg _ E ten_dec ltac:(lia)) as (p & EP & LP & AP). { rewrite ET. apply pow10_490. lia. }
  rewrite EP. cbn [obind]. unfold q_mul_assign. rewrite q_assign_id. rewrite ET in AP.
  assert (PE : powerRZ 10 E = 10 ^ Z.to_nat E). { destruct E as [|k|k]; try lia. reflexivity. }
  rewrite <- PE in AP. set (X := powerRZ 10 E) in *.
  assert (X1 : 1 <= X) by (rewrite PE; apply pow_R1_Rle; lra).
  assert (X2 : X <= bp 490). { rewrite PE. rewrite <- (Rabs_pos_eq 10) by lra. apply pow10_490. lia. }
  clearbody X. apply QGeo_fall in LP.
  assert (KP : relg qeps 1 (QV p) X).
  { apply (relg_of qeps (IZR E * bp (-197))); [exact He| |exact AP]. rewrite INR_IZR_INZ. cbn [Z.of_nat Pos.of_succ_nat]. rewrite Rmult_1_l.
    apply Rle_trans with (bp 9 * bp (-197)); [apply Rmult_le_compat_r; [apply bpow_ge_0|]; change (bp 9) with 512; apply IZR_le; lia|].
    rewrite <- bpow_plus. apply bpow_le. lia. }
  assert (KM := relg_mul qeps He _ _ _ _ _ _ K KP).
  eexists. split; [reflexivity|]. apply FIN.
  - destruct (Z.eq_dec D 0) as [D0|D0].
    + rewrite D0 in K. apply relg_zero in K. apply (QFV_zero_geo _ (QFV_mul_0l a p (QGeo_zero a G K) (proj1 (proj1 LP)))).
    + assert (1 <= IZR D) by (apply IZR_le; lia).
      assert (SM2 : INR (2 * n) * qeps <= / 4) by (eapply Rle_trans; [|exact SM]; apply Rmult_le_compat_r; [exact He|apply le_INR; lia]).
      assert (SM1 : INR 1 * qeps <= / 4) by (eapply Rle_trans; [|exact SM]; apply Rmult_le_compat_r; [exact He|apply le_INR; lia]).
      destruct (relg_range qeps He _ _ _ SM2 K) as [R1 R2]. destruct (relg_range qeps He _ _ _ SM1 KP) as [R3 R4].
      rewrite (Rabs_pos_eq (IZR D)) in R1, R2 by lra. rewrite (Rabs_pos_eq X) in R3, R4 by lra.
      assert (B43 : IZR D <= bp 432). { apply Rle_trans with (IZR (10 ^ Z.of_nat n)); [apply IZR_le; lia|apply p10_bp; lia]. }
      assert (G1 : bp 499 = 512 * bp 490) by exact (bp_split 490 9 ltac:(lia)). assert (G2 : bp 432 <= bp 490) by (apply bpow_le; lia). assert (P9 := bpow_gt_0 radix2 490).
      assert (B5 : bp (-500) <= / 4) by (change (/ 4) with (bp (-2)); apply bpow_le; lia).
      apply q_mul_geo; [exact G|exact LP|lra|lra|]. rewrite Rabs_mult. apply Rle_trans with (/ 2 * / 2); [lra|]. apply Rmult_le_compat; lra.
  - destruct (Z.eq_dec D 0) as [D0|D0].
    + rewrite D0 in K |- *. apply relg_zero in K. destruct (QFV_zero_geo _ (QFV_mul_0l a p (QGeo_zero a G K) (proj1 (proj1 LP)))) as [_ ->].
      rewrite Rmult_0_l. apply (relg_mono qeps He 0); [lia|apply relg_0].
    + assert (1 <= IZR D) by (apply IZR_le; lia).
      assert (SM2 : INR (2 * n) * qeps <= / 4) by (eapply Rle_trans; [|exact SM]; apply Rmult_le_compat_r; [exact He|apply le_INR; lia]).
      assert (SM1 : INR 1 * qeps <= / 4) by (eapply Rle_trans; [|exact SM]; apply Rmult_le_compat_r; [exact He|apply le_INR; lia]).
      destruct (relg_range qeps He _ _ _ SM2 K) as [R1 R2]. destruct (relg_range qeps He _ _ _ SM1 KP) as [R3 R4].
      rewrite (Rabs_pos_eq (IZR D)) in R1, R2 by lra. rewrite (Rabs_pos_eq X) in R3, R4 by lra.
      assert (B43 : IZR D <= bp 432). { apply Rle_trans with (IZR (10 ^ Z.of_nat n)); [apply IZR_le; lia|apply p10_bp; lia]. }
      assert (G1 : bp 499 = 512 * bp 490) by exact (bp_split 490 9 ltac:(lia)). assert (G2 : bp 432 <= bp 490) by (apply bpow_le; lia). assert (P9 := bpow_gt_0 radix2 490).
      assert (B5 : bp (-500) <= / 4) by (change (/ 4) with (bp (-2)); apply bpow_le; lia).
      replace (2 * n + 2)%nat with (2 * n + 1 + 1)%nat by lia. apply (relg_step qeps He) with (QV a * QV p); [exact KM|].
      eapply Rle_trans; [|apply Rmult_le_compat_r; [apply Rabs_pos|apply (bpow_le radix2 (-146) (-137)); lia]].
      apply q_mul_geo; [exact G|exact LP|lra|lra|]. rewrite Rabs_mult. apply Rle_trans with (/ 2 * / 2); [lra|]. apply Rmult_le_compat; lra.
Qed.

(** negative effective exponent: the power of ten is a reciprocal *)
Lemma q_parse_neg dbg s m e : short (normal_text s) -> number (normal_text s) m e -> (sig_digits (digs m) <= 130)%nat -> (-87 <= e - frac m < 0)%Z ->
  exists r, from_str q_ops dbg s = Val (POk r) /\ QL (4 * u) r /\
    Rabs (QV r - q_lit m e) <= bp (-87) * Rabs (q_lit m e).
Proof.
  intros S Nu HL HE. assert (Hq := bpow_ge_0 radix2 (-137)). assert (He := bpow_ge_0 radix2 (-90)). 
  destruct (accumulate_q (digs m) (digs_nonneg m) HL) as [G K].
  rewrite (from_str_number q_ops dbg s m e S Nu) by (unfold i32_min; lia).
  unfold number_value, apply_exp. rewrite (proj2 (Z.ltb_ge _ _)) by lia. cbn [n_powi q_ops n_ten n_mul n_neg].
  unfold q_lit. set (a := accumulate_digits q_ops (digs m)) in *. clearbody a.
  assert (DB := dec_val_sig (digs m) (digs_nonneg m)). set (n := sig_digits (digs m)) in *. set (D := dec_val (digs m)) in *. set (E := (e - frac m)%Z) in *. clearbody D n E.
  rewrite (proj2 (Z.eqb_neq _ _)) by lia.
  assert (SM : INR (2 * n) * qeps <= / 4 /\ 2 * INR (2 * n) * qeps <= bp (-90)).
  { assert (J : INR (2 * n) * qeps <= bp (-128)).
    { apply Rle_trans with (INR 260 * qeps); [apply Rmult_le_compat_r; [exact Hq|apply le_INR; lia]|].
      apply Rle_trans with (bp 9 * qeps); [apply Rmult_le_compat_r; [exact Hq|]; change (bp 9) with 512; rewrite INR_IZR_INZ; apply IZR_le; lia|].
      rewrite <- bpow_plus. apply bpow_le. lia. }
    assert (bp (-128) <= / 4) by (change (/ 4) with (bp (-2)); apply bpow_le; lia).
    assert (2 * bp (-128) <= bp (-90)). { change 2 with (bp 1). rewrite <- bpow_plus. apply bpow_le; lia. } lra. }
  destruct SM as [SM SM'].
  set (q := bp (-90)) in *. assert (q4 : 16 * q <= / 1024).
  { unfold q. change 16 with (bp 4). rewrite <- bpow_plus. change (/ 1024) with (bp (-10)). apply bpow_le. lia. }
  assert (K9 : relg q 1 (QV a) (IZR D)).
  { apply (relg_of q (2 * INR (2 * n) * qeps)); [exact He|change (INR 1) with 1; lra|]. apply relg_final; assumption. }
  assert (R2a : relg qeps (2 * n) (QV a) (IZR D)) by exact K.
  destruct ten_geo as [_ ET].
  destruct (q_powi_neg_ok dbg _ (- E) ten_dec ltac:(lia)) as (p & EP & LP & AP). { rewrite ET. apply pow10_290. lia. }
  rewrite Z.opp_involutive in EP. rewrite EP. cbn [obind]. unfold q_mul_assign. rewrite q_assign_id. rewrite ET in AP.
  assert (PE : powerRZ 10 E = / 10 ^ Z.to_nat (- E)). { destruct E as [|k|k]; try lia. reflexivity. }
  rewrite <- PE in AP. set (X := powerRZ 10 E) in *.
  assert (TX : 1 <= 10 ^ Z.to_nat (- E)) by (apply pow_R1_Rle; lra).
  assert (X1 : X <= 1). { rewrite PE. rewrite <- Rinv_1. apply Rinv_le_contravar; lra. }
  assert (X2 : bp (-290) <= X).
  { rewrite PE. replace (bp (-290)) with (/ bp 290) by (symmetry; exact (bpow_opp radix2 290)). apply Rinv_le_contravar; [lra|].
    rewrite <- (Rabs_pos_eq 10) by lra. apply pow10_290. lia. }
  clearbody X. assert (P290 := bpow_gt_0 radix2 (-290)).
  assert (KP : relg q 1 (QV p) X). { apply (relg_of q q); [exact He|change (INR 1) with 1; lra|exact AP]. }
  assert (KM := relg_mul q He _ _ _ _ _ _ K9 KP).
  assert (FIN : forall r, QL (4 * u) r -> relg q 3 (QV r) (IZR D * X) ->
    QL (4 * u) (if negative m then q_neg r else r) /\
    Rabs (QV (if negative m then q_neg r else r) - IZR ((if negative m then -1 else 1) * D) * X) <=
      bp (-87) * Rabs (IZR ((if negative m then -1 else 1) * D) * X)).
  { intros r Gr Kr. split; [destruct (negative m); [apply QL_neg|]; exact Gr|].
    rewrite mult_IZR, Rmult_assoc. replace (IZR (if negative m then -1 else 1)) with (if negative m then -1 else 1) by now destruct (negative m).
    apply q_neg_if; [apply Gr|]. apply relg_final in Kr; [|exact He|change (INR 3) with (1 + 1 + 1); lra]. eapply Rle_trans; [exact Kr|].
    apply Rmult_le_compat_r; [apply Rabs_pos|]. replace (bp (-87)) with (8 * q) by (symmetry; exact (bp_split (-90) 3 ltac:(lia))). change (INR 3) with (1 + 1 + 1). lra. }
  eexists. split; [reflexivity|].
  destruct (Z.eq_dec D 0) as [D0|D0].
  - apply relg_zero in KM || idtac. rewrite D0 in R2a. apply relg_zero in R2a.
    destruct (QFV_zero_geo _ (QFV_mul_0l a p (QGeo_zero a G R2a) (proj1 (proj1 LP)))) as [G0 E0].
    rewrite D0 in *. apply FIN; [apply QL_geo; exact G0|]. rewrite E0, Rmult_0_l. apply (relg_mono q He 0); [lia|apply relg_0].
  - assert (1 <= IZR D) by (apply IZR_le; lia).
    destruct (relg_range qeps Hq _ _ _ SM R2a) as [R1 R2]. assert (SM1 : INR 1 * q <= / 4) by (change (INR 1) with 1; lra). destruct (relg_range q He _ _ _ SM1 KP) as [R3 R4].
    rewrite (Rabs_pos_eq (IZR D)) in R1, R2 by lra. rewrite (Rabs_pos_eq X) in R3, R4 by lra.
    assert (B43 : IZR D <= bp 432). { apply Rle_trans with (IZR (10 ^ Z.of_nat n)); [apply IZR_le; lia|apply p10_bp; lia]. }
    assert (G1 : bp 490 = IZR (2 ^ 58) * bp 432) by exact (bp_split 432 58 ltac:(lia)). change (2 ^ 58)%Z with 288230376151711744%Z in G1. assert (P9 := bpow_gt_0 radix2 432).
    assert (G2 : 16 <= bp 490) by (change 16 with (bp 4); apply bpow_le; lia).
    assert (AX := QL_abs (4 * u) a ltac:(lra) ltac:(lra) (QL_geo a G)). assert (AY := QL_abs (4 * u) p ltac:(lra) ltac:(lra) LP).
    assert (B5 : bp (-600) <= / 16 * bp (-290)) by (change (/ 16) with (bp (-4)); rewrite <- bpow_plus; apply bpow_le; lia).
    destruct (q_mul_L (4 * u) a p) as [LM EM]; [lra|lra|apply QL_geo; exact G|exact LP|lra|lra| |].
    { apply Rle_trans with (/ 4 * (/ 4 * bp (-290))); [lra|]. apply Rmult_le_compat; lra. }
    apply FIN; [exact LM|]. change 3%nat with (1 + 1 + 1)%nat. apply (relg_step q He) with (QV a * QV p); [exact KM|].
    eapply Rle_trans; [exact EM|]. apply Rmult_le_compat_r; [apply Rabs_pos|]. unfold q.
    replace (bp (-90)) with (65536 * (u * u)); [lra|]. rewrite <- u_bp, <- bpow_plus. symmetry. exact (bp_split (-106) 16 ltac:(lia)).
Qed.
