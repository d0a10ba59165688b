(** * The Quad sine and cosine tables (src/quad/common.rs), all 256 entries each.
    sin(k t) and cos(k t), t = pi/1024, are computed by the addition formulas in
    248-bit fixed point with an explicit error budget; each literal of the table
    comes with its binary value, checked by multiplication. *)
From Coq Require Import Reals ZArith List Lra Lia Arith Bool.
From Flocq Require Import Core IEEE754.BinarySingleNaN.
From Verif Require Import RN F64 F64Facts Prim DoubleM QuadM Spec Exact ConstM ConstProofs TableProofs.
Import ListNotations.
Local Open Scope R_scope.

(** ** decimal literals *)
Lemma dec_rn m e : (e < 0)%Z -> Rabs (IZR m / IZR (10 ^ (- e))) <= 2 -> V (dec m e) = rn (IZR m / IZR (10 ^ (- e))).
Proof.
  intros He Hb. destruct e as [|p|p]; try (exfalso; lia). change (- Z.neg p)%Z with (Z.pos p) in *.
  assert (G : forall q, Rabs (IZR (Z.pos q) / IZR (10 ^ Z.pos p)) <= 2 -> V (dec_pos q (Z.neg p)) = rn (IZR (Z.pos q) / IZR (10 ^ Z.pos p))).
  { intros q Hq. unfold dec_pos, V. rewrite B2R_SF2B.
    assert (K := proj2 (Bdiv_correct_aux prec emax Hprec Hmax mode_NE false q 0 false (Pos.pow 10 p) 0)).
    cbv zeta in K. unfold F2R in K. cbn [cond_Zopp Fnum Fexp] in K. change (bpow radix2 0) with 1 in K. rewrite !Rmult_1_r in K.
    rewrite <- (Pos2Z.inj_pow 10 p) in *.
    change (round radix2 _ _ _) with (rn (IZR (Z.pos q) / IZR (Z.pos (10 ^ p)))) in K.
    rewrite Rlt_bool_true in K; [apply K|].
    apply Rle_lt_trans with (bpow radix2 1).
    - apply rn_abs_le; [apply fmt_bpow; lia|]. exact Hq.
    - apply bpow_lt. reflexivity. }
  destruct m as [|q|q]; cbn [dec].
  - unfold Rdiv. rewrite Rmult_0_l, rn_0. reflexivity.
  - now apply G.
  - unfold V, fneg. rewrite B2R_Bopp. fold (V (dec_pos q (Z.neg p))). change (Z.neg q) with (- Z.pos q)%Z in *. rewrite opp_IZR in *. unfold Rdiv in *.
    rewrite Ropp_mult_distr_l_reverse in *. rewrite rn_opp. f_equal. apply G. rewrite Rabs_Ropp in Hb. exact Hb.
Qed.
Lemma rn_cert x M k : (k <= 1074)%Z -> (2 ^ 52 < Z.abs M < 2 ^ 53)%Z -> Rabs (x - IZR M * bp (- k)) < bp (- k) / 2 -> rn x = IZR M * bp (- k).
Proof.
  intros Hk HM Hx. set (F := IZR M * bp (- k)) in *. assert (P := bpow_gt_0 radix2 (- k)).
  assert (FF : fmt F).
  { apply (fmt_mult2 (- k)); [lia|now exists M|]. unfold F. rewrite Rabs_mult, (Rabs_pos_eq (bp (- k))) by lra.
    rewrite bpow_plus, Rmult_comm. apply Rmult_le_compat_l; [lra|]. rewrite <- abs_IZR, <- (IZR_Zpower radix2) by lia. apply IZR_le.
    change (radix2 ^ 53)%Z with (2 ^ 53)%Z. lia. }
  assert (N : Rabs (rn x - x) <= Rabs (F - x)).
  { assert (K := round_N_pt radix2 fexp64 (fun n => negb (Z.even n)) x). apply K. exact FF. }
  assert (LX : bp (- k + 52) <= Rabs x).
  { assert (TF := Rabs_triang_inv F (F - x)). replace (F - (F - x)) with x in TF by ring. rewrite (Rabs_minus_sym F x) in TF.
    assert (LF : (4503599627370496 + 1) * bp (- k) <= Rabs F).
    { unfold F. rewrite Rabs_mult, (Rabs_pos_eq (bp (- k))) by lra. apply Rmult_le_compat_r; [lra|]. rewrite <- abs_IZR, <- plus_IZR. apply IZR_le. change (2 ^ 52)%Z with 4503599627370496%Z in HM. lia. }
    rewrite bpow_plus. change (bp 52) with 4503599627370496. lra. }
  assert (LR : bp (- k + 52) <= Rabs (rn x)) by (apply rn_abs_ge; [apply fmt_bpow; lia|exact LX]).
  assert (MR : mult2 (- k) (rn x)).
  { apply (mult2_le _ (cexp radix2 fexp64 (rn x))); [|apply mult2_cexp, rn_fmt]. rewrite cexp64.
    assert (mag radix2 (rn x) >= - k + 53)%Z; [|lia].
    apply Z.le_ge. replace (- k + 53)%Z with (- k + 52 + 1)%Z by ring. apply mag_ge_bpow.
    replace (- k + 52 + 1 - 1)%Z with (- k + 52)%Z by ring. exact LR. }
  assert (MD : mult2 (- k) (rn x - F)) by (apply mult2_minus; [exact MR|now exists M]).
  destruct MD as [n En].
  assert (SD : Rabs (rn x - F) < bp (- k)).
  { replace (rn x - F) with ((rn x - x) + (x - F)) by ring. eapply Rle_lt_trans; [apply Rabs_triang|]. rewrite (Rabs_minus_sym F x) in N. lra. }
  rewrite En, Rabs_mult, (Rabs_pos_eq (bp (- k))) in SD by lra.
  assert (n = 0)%Z.
  { assert (Rabs (IZR n) < 1) by (apply Rmult_lt_reg_r with (bp (- k)); lra). rewrite <- abs_IZR in H. apply lt_IZR in H. lia. }
  subst n. lra.
Qed.

Definition ptab : list Z := Eval vm_compute in map (fun i => 10 ^ Z.of_nat i)%Z (seq 0 100).
Lemma ptab_len : length ptab = 100%nat. Proof. reflexivity. Qed.
Fixpoint pchk (l : list Z) (t : Z) : bool := match l with [] => true | a :: r => (a =? t)%Z && pchk r (10 * t)%Z end.
Lemma pchk_ok l : forall t i, pchk l t = true -> (i < length l)%nat -> nth i l 0%Z = (t * 10 ^ Z.of_nat i)%Z.
Proof.
  induction l as [|a l IH]; intros t i H Hi; [cbn in Hi; lia|]. cbn [pchk] in H. apply andb_prop in H. destruct H as [H1 H2]. apply Z.eqb_eq in H1.
  destruct i as [|i]; [cbn; lia|]. cbn [nth]. rewrite (IH _ _ H2) by (cbn in Hi; lia). rewrite Nat2Z.inj_succ, Z.pow_succ_r by lia. ring.
Qed.
Lemma ptab_ok i : (i < 100)%nat -> nth i ptab 0%Z = (10 ^ Z.of_nat i)%Z.
Proof. intros H. rewrite (pchk_ok ptab 1 i); [lia|vm_compute; reflexivity|exact H]. Qed.

(** a literal [m * 10^e] with its claimed binary value [M * 2^-k] *)
Inductive word := W (m e M k : Z).
Definition wdec (w : word) : f64 := let '(W m e _ _) := w in dec m e.
Definition wok (w : word) : bool :=
  let '(W m e M k) := w in
  (e <? 0)%Z && (-100 <? e)%Z && (0 <=? k)%Z && (k <=? 248)%Z && (4503599627370496 <? Z.abs M)%Z && (Z.abs M <? 9007199254740992)%Z &&
  let t := nth (Z.to_nat (- e)) ptab 0%Z in
  (2 * Z.abs (Z.shiftl m k - M * t) <? t)%Z && (Z.abs m <=? 2 * t)%Z.
Definition wval (w : word) : Z := let '(W _ _ M k) := w in Z.shiftl M (248 - k).
Definition one : Z := 452312848583266388373324160190187140051835877600158453279131187530910662656.
Lemma one_pow : one = (2 ^ 248)%Z. Proof. reflexivity. Qed.
Lemma one_pos : 0 < IZR one. Proof. apply (IZR_lt 0). reflexivity. Qed.
Lemma bp_one : bp (- 248) = / IZR one. Proof. reflexivity. Qed.
Lemma wok_ok w : wok w = true -> V (wdec w) = IZR (wval w) / IZR one.
Proof.
  destruct w as [m e M k]. unfold wok, wdec, wval. rewrite !andb_true_iff. intros [[[[[[H1 H2] H3] H4] H5] H6] [H7 H8]].
  apply Z.ltb_lt in H1, H2, H5, H6, H7. apply Z.leb_le in H3, H4, H8.
  rewrite ptab_ok in H7, H8 by lia. rewrite Z2Nat.id in H7, H8 by lia.
  assert (PT : (0 < 10 ^ (- e))%Z) by (apply Z.pow_pos_nonneg; lia). assert (PT' := IZR_lt _ _ PT).
  rewrite Z.shiftl_mul_pow2 in * by lia. change (10 ^ - e)%Z with (10 ^ (- e))%Z in *.
  assert (P2 : IZR (2 ^ k) * bp (- k) = 1).
  { rewrite <- (bpow_opp radix2 k) || idtac. change (2 ^ k)%Z with (radix2 ^ k)%Z. rewrite IZR_Zpower by exact H3. rewrite <- bpow_plus. replace (k + - k)%Z with 0%Z by ring. reflexivity. }
  assert (Pk := bpow_gt_0 radix2 (- k)).
  set (t := (10 ^ (- e))%Z) in *. assert (TT : IZR t <> 0) by lra.
  rewrite dec_rn; [| exact H1 |].
  - fold t. transitivity (IZR M * bp (- k)).
    + apply rn_cert; [lia|change (2 ^ 52)%Z with 4503599627370496%Z; change (2 ^ 53)%Z with 9007199254740992%Z; lia|].
      apply IZR_lt in H7. rewrite mult_IZR, abs_IZR, minus_IZR, !mult_IZR in H7.
      set (a := IZR m) in *. set (b := IZR M) in *. set (c := IZR (2 ^ k)) in *. set (d := IZR t) in *. set (v := bp (- k)) in *.
      clearbody a b c d v. clear - H7 P2 Pk TT PT'.
      replace (a / d - b * v) with ((a * c - b * d) * (v / d)).
      2:{ replace (a / d) with (a / d * (c * v)) by (rewrite P2; ring). field. exact TT. }
      assert (PV : 0 < v / d) by (apply Rdiv_lt_0_compat; lra).
      rewrite Rabs_mult, (Rabs_pos_eq (v / d)) by lra.
      replace (v / 2) with (d / 2 * (v / d)) by (field; exact TT). apply Rmult_lt_compat_r; lra.
    + rewrite mult_IZR. assert (E : IZR (2 ^ (248 - k)) / IZR one = bp (- k)).
      { change (2 ^ (248 - k))%Z with (radix2 ^ (248 - k))%Z. rewrite IZR_Zpower by lia. unfold Rdiv. rewrite <- bp_one, <- bpow_plus. f_equal. ring. }
      rewrite <- E. field. assert (Q := one_pos). lra.
  - fold t. unfold Rdiv. rewrite Rabs_mult, (Rabs_pos_eq (/ IZR t)) by (left; now apply Rinv_0_lt_compat).
    apply IZR_le in H8. rewrite mult_IZR, abs_IZR in H8.
    apply Rmult_le_reg_r with (IZR t); [exact PT'|]. rewrite Rmult_assoc, Rinv_l by exact TT. lra.
Qed.
Definition row := (word * word * word * word)%type.
Definition rq (r : row) : Quad := let '(a, b, c, d) := r in mkQ (wdec a) (wdec b) (wdec c) (wdec d).
Definition rok (r : row) : bool := let '(a, b, c, d) := r in wok a && wok b && wok c && wok d.
Definition rval (r : row) : Z := let '(a, b, c, d) := r in (wval a + wval b + wval c + wval d)%Z.
Lemma rok_ok r : rok r = true -> QV (rq r) = IZR (rval r) / IZR one.
Proof.
  destruct r as [[[a b] c] d]. unfold rok, rq, rval, QV. rewrite !andb_true_iff. intros [[[A B] C] D]. cbn [q0 q1 q2 q3].
  rewrite (wok_ok a A), (wok_ok b B), (wok_ok c C), (wok_ok d D), !plus_IZR. unfold Rdiv. ring.
Qed.

(** ** sin and cos of pi/1024 *)
Lemma half_encg T x c lo hi clo chi : (0 < T)%Z -> 0 <= x -> x * x = (1 + c) / 2 -> IZR clo <= IZR T * c <= IZR chi ->
  (0 <= hi)%Z -> (0 <= lo)%Z -> (2 * (lo * lo) <= T * T + T * clo)%Z -> (T * T + T * chi <= 2 * (hi * hi))%Z ->
  IZR lo <= IZR T * x <= IZR hi.
Proof.
  intros HT Hx E [C1 C2] H0 H3 H1 H2. assert (P : 0 < IZR T) by now apply IZR_lt.
  apply IZR_le in H0, H1, H2, H3. rewrite !plus_IZR, !mult_IZR in H1. rewrite !mult_IZR, plus_IZR, !mult_IZR in H2. clear HT.
  generalize dependent (IZR T). intros t C1 C2 H1 H2 P.
  assert (G1 := Rmult_le_compat_l _ _ _ (Rlt_le _ _ P) C1). assert (G2 := Rmult_le_compat_l _ _ _ (Rlt_le _ _ P) C2).
  assert (TX : t * x * (t * x) = (t * t + t * (t * c)) / 2) by (transitivity (t * t * (x * x)); [ring|rewrite E; field]).
  assert (PX : 0 <= t * x) by (apply Rmult_le_pos; lra).
  split; apply sq_le; try assumption; rewrite ?TX; lra.
Qed.
Lemma ch2 : IZR 319833482451031748506059381027264173076200908090793894772741615627956073368 <= IZR one * cos (PI / 4) <= IZR 319833482451031748506059381027264173076200908090793894772741615627956073371.
Proof.
  apply (half_encg one _ 0 _ _ 0 0); [reflexivity|apply cos_pos; pip| |rewrite Rmult_0_r; lra|discriminate|discriminate|vm_compute; discriminate|vm_compute; discriminate].
  replace (PI / 4) with (PI / 2 / 2) by field. rewrite cos_half, cos_PI2. reflexivity.
Qed.
Lemma ch3 : IZR 417882583097956583028913337532585810738900330882673736061035845192060766261 <= IZR one * cos (PI / 8) <= IZR 417882583097956583028913337532585810738900330882673736061035845192060766265.
Proof.
  apply (half_encg one _ (cos (PI / 4)) _ _ 319833482451031748506059381027264173076200908090793894772741615627956073368 319833482451031748506059381027264173076200908090793894772741615627956073371); [reflexivity|apply cos_pos; pip| |exact ch2|discriminate|discriminate|vm_compute; discriminate|vm_compute; discriminate].
  rewrite <- cos_half. replace (PI / 4 / 2) with (PI / 8) by field. reflexivity.
Qed.
Lemma ch4 : IZR 443621784027722841115092847319765454417520982746994685897467334670865960585 <= IZR one * cos (PI / 16) <= IZR 443621784027722841115092847319765454417520982746994685897467334670865960589.
Proof.
  apply (half_encg one _ (cos (PI / 8)) _ _ 417882583097956583028913337532585810738900330882673736061035845192060766261 417882583097956583028913337532585810738900330882673736061035845192060766265); [reflexivity|apply cos_pos; pip| |exact ch3|discriminate|discriminate|vm_compute; discriminate|vm_compute; discriminate].
  rewrite <- cos_half. replace (PI / 8 / 2) with (PI / 16) by field. reflexivity.
Qed.
Lemma ch5 : IZR 450134838587660737324520267740463087316733834093172289378718560152613485473 <= IZR one * cos (PI / 32) <= IZR 450134838587660737324520267740463087316733834093172289378718560152613485477.
Proof.
  apply (half_encg one _ (cos (PI / 16)) _ _ 443621784027722841115092847319765454417520982746994685897467334670865960585 443621784027722841115092847319765454417520982746994685897467334670865960589); [reflexivity|apply cos_pos; pip| |exact ch4|discriminate|discriminate|vm_compute; discriminate|vm_compute; discriminate].
  rewrite <- cos_half. replace (PI / 16 / 2) with (PI / 32) by field. reflexivity.
Qed.
Lemma ch6 : IZR 451768017948184615744270359523752359653050131918484938352540966975446053475 <= IZR one * cos (PI / 64) <= IZR 451768017948184615744270359523752359653050131918484938352540966975446053479.
Proof.
  apply (half_encg one _ (cos (PI / 32)) _ _ 450134838587660737324520267740463087316733834093172289378718560152613485473 450134838587660737324520267740463087316733834093172289378718560152613485477); [reflexivity|apply cos_pos; pip| |exact ch5|discriminate|discriminate|vm_compute; discriminate|vm_compute; discriminate].
  rewrite <- cos_half. replace (PI / 32 / 2) with (PI / 64) by field. reflexivity.
Qed.
Lemma ch7 : IZR 452176620409806497032194477411238762855132608681588605700470290333557580550 <= IZR one * cos (PI / 128) <= IZR 452176620409806497032194477411238762855132608681588605700470290333557580554.
Proof.
  apply (half_encg one _ (cos (PI / 64)) _ _ 451768017948184615744270359523752359653050131918484938352540966975446053475 451768017948184615744270359523752359653050131918484938352540966975446053479); [reflexivity|apply cos_pos; pip| |exact ch6|discriminate|discriminate|vm_compute; discriminate|vm_compute; discriminate].
  rewrite <- cos_half. replace (PI / 64 / 2) with (PI / 128) by field. reflexivity.
Qed.
Lemma ch8 : IZR 452278790257636774674913312243051873606564921243173081362056656904560072609 <= IZR one * cos (PI / 256) <= IZR 452278790257636774674913312243051873606564921243173081362056656904560072613.
Proof.
  apply (half_encg one _ (cos (PI / 128)) _ _ 452176620409806497032194477411238762855132608681588605700470290333557580550 452176620409806497032194477411238762855132608681588605700470290333557580554); [reflexivity|apply cos_pos; pip| |exact ch7|discriminate|discriminate|vm_compute; discriminate|vm_compute; discriminate].
  rewrite <- cos_half. replace (PI / 128 / 2) with (PI / 256) by field. reflexivity.
Qed.
Lemma ch9 : IZR 452304333921715936231632412188364044258093419497259161210357834700971700657 <= IZR one * cos (PI / 512) <= IZR 452304333921715936231632412188364044258093419497259161210357834700971700661.
Proof.
  apply (half_encg one _ (cos (PI / 256)) _ _ 452278790257636774674913312243051873606564921243173081362056656904560072609 452278790257636774674913312243051873606564921243173081362056656904560072613); [reflexivity|apply cos_pos; pip| |exact ch8|discriminate|discriminate|vm_compute; discriminate|vm_compute; discriminate].
  rewrite <- cos_half. replace (PI / 256 / 2) with (PI / 512) by field. reflexivity.
Qed.
Lemma ch10 : IZR 452310719912869811219971928259646534978495879473902420548167645727738304471 <= IZR one * cos (PI / 1024) <= IZR 452310719912869811219971928259646534978495879473902420548167645727738304475.
Proof.
  apply (half_encg one _ (cos (PI / 512)) _ _ 452304333921715936231632412188364044258093419497259161210357834700971700657 452304333921715936231632412188364044258093419497259161210357834700971700661); [reflexivity|apply cos_pos; pip| |exact ch9|discriminate|discriminate|vm_compute; discriminate|vm_compute; discriminate].
  rewrite <- cos_half. replace (PI / 512 / 2) with (PI / 1024) by field. reflexivity.
Qed.
Lemma sh10 : IZR 1387676262787437714670547167214349796467132768615139290037563799677316503 <= IZR one * sin (PI / 1024) <= IZR 1387676262787437714670547167214349796467132768615139290037563799677316832.
Proof.
  apply (half_encg one _ (- cos (PI / 512)) _ _ (-452304333921715936231632412188364044258093419497259161210357834700971700661) (-452304333921715936231632412188364044258093419497259161210357834700971700657)); [reflexivity|apply sin_pos; pip| | |discriminate|discriminate|vm_compute; discriminate|vm_compute; discriminate].
  - rewrite <- sin_half. replace (PI / 512 / 2) with (PI / 1024) by field. reflexivity.
  - assert (K := ch9). lra.
Qed.

Definition S1 : Z := 1387676262787437714670547167214349796467132768615139290037563799677316667.
Definition C1 : Z := 452310719912869811219971928259646534978495879473902420548167645727738304473.
Notation th := (PI / 1024).
Lemma s1_ok : Rabs (IZR S1 / IZR one - sin th) <= 1024 / IZR one.
Proof.
  assert (P := one_pos). assert (K := sh10). replace (IZR S1 / IZR one - sin th) with ((IZR S1 - IZR one * sin th) / IZR one) by (field; lra).
  unfold Rdiv. rewrite Rabs_mult, (Rabs_pos_eq (/ IZR one)) by (left; now apply Rinv_0_lt_compat).
  apply Rmult_le_compat_r; [left; now apply Rinv_0_lt_compat|]. apply Rabs_le. unfold S1. lra.
Qed.
Lemma c1_ok : Rabs (IZR C1 / IZR one - cos th) <= 1024 / IZR one.
Proof.
  assert (P := one_pos). assert (K := ch10). replace (IZR C1 / IZR one - cos th) with ((IZR C1 - IZR one * cos th) / IZR one) by (field; lra).
  unfold Rdiv. rewrite Rabs_mult, (Rabs_pos_eq (/ IZR one)) by (left; now apply Rinv_0_lt_compat).
  apply Rmult_le_compat_r; [left; now apply Rinv_0_lt_compat|]. apply Rabs_le. unfold C1. lra.
Qed.
(** s, c within e units of 2^-248 of sin(k t), cos(k t) *)
Definition near (k : nat) (s c e : Z) : Prop :=
  (0 <= e)%Z /\ Rabs (IZR s / IZR one - sin (INR k * th)) <= IZR e / IZR one /\ Rabs (IZR c / IZR one - cos (INR k * th)) <= IZR e / IZR one.

Definition step (t : Z * Z * Z) : Z * Z * Z :=
  let '(s, c, e) := t in
  (Z.shiftr (s * C1 + c * S1) 248, Z.shiftr (c * C1 - s * S1) 248, e + e / 128 + 2100)%Z.


Lemma div_near z : Rabs (IZR (z / one) / IZR one - IZR z / (IZR one * IZR one)) <= 1 / IZR one.
Proof.
  assert (P := one_pos).
  assert (E := Z.div_mod z one ltac:(discriminate)). assert (B := Z.mod_pos_bound z one ltac:(reflexivity)).
  set (q := (z / one)%Z) in *. set (m := (z mod one)%Z) in *. clearbody q m.
  apply (f_equal IZR) in E. rewrite plus_IZR, mult_IZR in E. destruct B as [B1 B2]. apply IZR_le in B1. apply IZR_lt in B2.
  rewrite E. set (o := IZR one) in *. clearbody o.
  replace (IZR q / o - (o * IZR q + IZR m) / (o * o)) with (- (IZR m / o) / o) by (field; lra).
  unfold Rdiv at 1. rewrite Rabs_mult, Rabs_Ropp, (Rabs_pos_eq (/ o)) by (apply Rlt_le, Rinv_0_lt_compat; lra).
  unfold Rdiv at 2. apply Rmult_le_compat_r; [apply Rlt_le, Rinv_0_lt_compat; lra|].
  assert (0 <= IZR m / o <= 1); [|rewrite Rabs_pos_eq; lra].
  split; [apply Rmult_le_pos; [lra|apply Rlt_le, Rinv_0_lt_compat; lra]|].
  apply Rmult_le_reg_r with o; [lra|]. replace (IZR m / o * o) with (IZR m) by (field; lra). lra.
Qed.

Lemma Rabs_def2' x a : Rabs x <= a -> - a <= x <= a.
Proof. intros H. unfold Rabs in H. destruct (Rcase_abs x); lra. Qed.

Lemma step_ok k s c e : near k s c e -> (e < 2 ^ 100)%Z -> let '(s', c', e') := step (s, c, e) in near (S k) s' c' e'.
Proof.
  intros (He & Hs & Hc) Le. unfold step, near. rewrite !Z.shiftr_div_pow2 by lia. rewrite <- one_pow.
  assert (P := one_pos). assert (Ks := s1_ok). assert (Kc := c1_ok).
  assert (B1 : Rabs (sin th) <= / 256) by (rewrite Rabs_pos_eq; [assert (SX := sin_lt_x th ltac:(pip)); assert (P4 := PI_4); lra|apply sin_pos; pip]). assert (B2 : Rabs (cos th) <= 1) by (apply Rabs_le, COS_bound).
  assert (B3 : Rabs (sin (INR k * th)) <= 1) by apply Rabs_le, SIN_bound. assert (B4 : Rabs (cos (INR k * th)) <= 1) by apply Rabs_le, COS_bound.
  assert (He' : 0 <= IZR e) by now apply (IZR_le 0).
  assert (Lo : 1 / IZR one <= / 1000000000000 ) by (unfold one; lra).
  assert (Le' : IZR e / IZR one <= / 10000).
  { apply Rle_trans with (IZR 1267650600228229401496703205376 / IZR one); [|unfold one; lra].
    apply Rmult_le_compat_r; [apply Rlt_le, Rinv_0_lt_compat; lra|]. apply IZR_le. change (2 ^ 100)%Z with 1267650600228229401496703205376%Z in Le. lia. }
  assert (Pe : 0 <= IZR e / IZR one) by (apply Rmult_le_pos; [lra|apply Rlt_le, Rinv_0_lt_compat; lra]).
  assert (E' : IZR (e + e / 128 + 2100) / IZR one >= IZR e / IZR one * (1 + / 128) + 2099 * (1 / IZR one)).
  { assert (D := Z.div_mod e 128 ltac:(discriminate)). assert (M := Z.mod_pos_bound e 128 ltac:(reflexivity)).
    assert (Q : (e - 128 <= 128 * (e / 128))%Z) by lia. apply IZR_le in Q. rewrite minus_IZR, mult_IZR in Q.
    rewrite !plus_IZR. replace (IZR e / IZR one * (1 + / 128) + 2099 * (1 / IZR one)) with ((IZR e + IZR e / 128 + 2099) / IZR one) by (field; lra).
    apply Rle_ge. apply Rmult_le_compat_r; [apply Rlt_le, Rinv_0_lt_compat; lra|]. lra. }
  set (eps := 1 / IZR one) in *. replace (1024 / IZR one) with (1024 * eps) in * by (unfold eps; field; lra).
  assert (D1 := div_near (s * C1 + c * S1)). assert (D2 := div_near (c * C1 - s * S1)).
  rewrite plus_IZR, !mult_IZR in D1. rewrite minus_IZR, !mult_IZR in D2. fold eps in D1, D2.
  assert (Peps : 0 < eps) by (unfold eps; apply Rmult_lt_0_compat; [lra|now apply Rinv_0_lt_compat]).
  replace ((IZR s * IZR C1 + IZR c * IZR S1) / (IZR one * IZR one)) with (IZR s / IZR one * (IZR C1 / IZR one) + IZR c / IZR one * (IZR S1 / IZR one)) in D1 by (field; lra).
  replace ((IZR c * IZR C1 - IZR s * IZR S1) / (IZR one * IZR one)) with (IZR c / IZR one * (IZR C1 / IZR one) - IZR s / IZR one * (IZR S1 / IZR one)) in D2 by (field; lra).
  set (s' := IZR ((s * C1 + c * S1) / one) / IZR one) in *. set (c' := IZR ((c * C1 - s * S1) / one) / IZR one) in *.
  set (sr := IZR s / IZR one) in *. set (cr := IZR c / IZR one) in *. set (s1 := IZR S1 / IZR one) in *. set (c1 := IZR C1 / IZR one) in *.
  assert (A : INR (S k) * th = INR k * th + th) by (rewrite S_INR; ring).
  split; [assert (0 <= e / 128)%Z by (apply Z.div_pos; lia); lia|].
  rewrite A, sin_plus, cos_plus.
  set (E := IZR e / IZR one) in *. set (E2 := IZR (e + e / 128 + 2100) / IZR one) in *.
  set (sk := sin (INR k * th)) in *. set (ck := cos (INR k * th)) in *. set (st := sin th) in *. set (ct := cos th) in *.
  clearbody s' c' sr cr s1 c1 E E2 sk ck st ct eps. clear He He' Le A P.
  set (ds := sr - sk) in *. set (dc := cr - ck) in *. set (d1 := s1 - st) in *. set (d2 := c1 - ct) in *.
  assert (G : forall a b x y, Rabs a <= x -> Rabs b <= y -> Rabs (a * b) <= x * y).
  { intros a b x y Ha Hb. rewrite Rabs_mult. apply Rmult_le_compat; auto using Rabs_pos. }
  assert (m1 := G _ _ _ _ Hs B2). assert (m2 := G _ _ _ _ B3 Kc). assert (m3 := G _ _ _ _ Hs Kc).
  assert (m4 := G _ _ _ _ Hc B1). assert (m5 := G _ _ _ _ B4 Ks). assert (m6 := G _ _ _ _ Hc Ks).
  assert (m7 := G _ _ _ _ Hc B2). assert (m8 := G _ _ _ _ B4 Kc). assert (m9 := G _ _ _ _ Hc Kc).
  assert (n4 := G _ _ _ _ Hs B1). assert (n5 := G _ _ _ _ B3 Ks). assert (n6 := G _ _ _ _ Hs Ks).
  assert (sm : E * (1024 * eps) <= eps) by nra.
  assert (Q1 : sr * c1 + cr * s1 - (sk * ct + ck * st) = ds * ct + sk * d2 + ds * d2 + (dc * st + ck * d1 + dc * d1)) by (unfold ds, dc, d1, d2; ring).
  assert (Q2 : cr * c1 - sr * s1 - (ck * ct - sk * st) = dc * ct + ck * d2 + dc * d2 - (ds * st + sk * d1 + ds * d1)) by (unfold ds, dc, d1, d2; ring).
  clearbody ds dc d1 d2.
  split.
  - assert (R1 : s' - (sk * ct + ck * st) = (s' - (sr * c1 + cr * s1)) + (ds * ct + sk * d2 + ds * d2 + (dc * st + ck * d1 + dc * d1))) by (rewrite <- Q1; ring).
    rewrite R1. clear R1 Q1 Q2 G.
    apply Rabs_def2' in D1, m1, m2, m3, m4, m5, m6. apply Rabs_le. lra.
  - assert (R1 : c' - (ck * ct - sk * st) = (c' - (cr * c1 - sr * s1)) + (dc * ct + ck * d2 + dc * d2 - (ds * st + sk * d1 + ds * d1))) by (rewrite <- Q2; ring).
    rewrite R1. clear R1 Q1 Q2 G.
    apply Rabs_def2' in D2, m7, m8, m9, n4, n5, n6. apply Rabs_le. lra.
Qed.


Definition entry_ok (z v e : Z) : bool := (Z.shiftl (Z.abs (z - v) + e) 210 <=? v - e)%Z && (0 <? v)%Z.
Fixpoint check (t : Z * Z * Z) (l m : list row) : bool :=
  match l, m with
  | a :: l', b :: m' => let '(s, c, e) := t in
      rok a && rok b && entry_ok (rval a) s e && entry_ok (rval b) c e && (e <? 1267650600228229401496703205376)%Z && check (step t) l' m'
  | [], [] => true
  | _, _ => false
  end.
Lemma entry_ok_ok q z v e r : QV q = IZR z / IZR one -> (0 <= e)%Z -> entry_ok z v e = true -> Rabs (IZR v / IZR one - r) <= IZR e / IZR one ->
  approx (QV q) r 1 (-210).
Proof.
  intros -> He H Hr. unfold entry_ok in H. rewrite Z.shiftl_mul_pow2 in H by easy.
  apply andb_true_iff in H. destruct H as [H Hv]. apply Z.leb_le, IZR_le in H. apply Z.ltb_lt, IZR_lt in Hv.
  rewrite mult_IZR, plus_IZR, abs_IZR, !minus_IZR in H.
  unfold approx. rewrite Rmult_1_l.
  assert (T2 : bpow radix2 (-210) * IZR (2 ^ 210) = 1) by exact (bp_neg_pow 210 ltac:(easy)).
  assert (P := one_pos). assert (P2 := bpow_gt_0 radix2 (-210)).
  assert (He' : 0 <= IZR e) by now apply (IZR_le 0).
  set (k := bpow radix2 (-210)) in *. set (K := IZR (2 ^ 210)) in *. set (o := IZR one) in *.
  set (zz := IZR z) in *. set (w := IZR v) in *. set (E := IZR e) in *.
  clearbody k K o zz w E. clear He.
  assert (H1 : Rabs (w - o * r) <= E).
  { replace (w - o * r) with (o * (w / o - r)) by (field; lra). rewrite Rabs_mult, (Rabs_pos_eq o) by lra.
    replace E with (o * (E / o)) by (field; lra). apply Rmult_le_compat_l; lra. }
  assert (H3 : Rabs (zz - o * r) <= Rabs (zz - w) + E).
  { replace (zz - o * r) with ((zz - w) + (w - o * r)) by ring. eapply Rle_trans; [apply Rabs_triang|]. lra. }
  assert (H4 : w - E <= o * Rabs r).
  { apply Rabs_def2' in H1. assert (R := Rle_abs r). assert (o * r <= o * Rabs r) by (apply Rmult_le_compat_l; lra). lra. }
  apply Rmult_le_reg_l with o; [lra|].
  replace (o * Rabs (zz / o - r)) with (Rabs (zz - o * r)).
  2:{ rewrite <- (Rabs_pos_eq o) at 2 by lra. rewrite <- Rabs_mult. f_equal. field. lra. }
  replace (o * (k * Rabs r)) with (k * (o * Rabs r)) by ring.
  apply Rle_trans with (k * ((Rabs (zz - w) + E) * K)).
  - replace (k * ((Rabs (zz - w) + E) * K)) with ((k * K) * (Rabs (zz - w) + E)) by ring. rewrite T2. lra.
  - apply Rmult_le_compat_l; lra.
Qed.
Lemma check_ok l : forall m k s c e, near k s c e -> check (s, c, e) l m = true -> forall i, (i < length l)%nat ->
  approx (QV (nth i (map rq l) Q_ZERO)) (sin (INR (i + k) * th)) 1 (-210) /\
  approx (QV (nth i (map rq m) Q_ZERO)) (cos (INR (i + k) * th)) 1 (-210).
Proof.
  induction l as [|a l IH]; intros m k s c e N H i Hi; [cbn in Hi; lia|].
  destruct m as [|b m]; [discriminate H|]. cbn [check] in H. rewrite !andb_true_iff in H. destruct H as [[[[[Ra Rb] Ea] Eb] Le] Hc].
  destruct i as [|i].
  - cbn [nth map Nat.add]. destruct N as (He & Hs & Hcc). split.
    + exact (entry_ok_ok _ _ _ _ _ (rok_ok a Ra) He Ea Hs).
    + exact (entry_ok_ok _ _ _ _ _ (rok_ok b Rb) He Eb Hcc).
  - cbn [nth map]. apply Z.ltb_lt in Le. assert (ST := step_ok k s c e N ltac:(exact Le)).
    destruct (step (s, c, e)) as [[s' c'] e']. 
    replace (S i + k)%nat with (i + S k)%nat by lia. apply (IH m (S k) s' c' e' ST Hc). cbn in Hi. lia.
Qed.
Lemma near1 : near 1 S1 C1 1024.
Proof. split; [lia|]. replace (INR 1 * th) with th by (cbn [INR]; ring). split; [exact s1_ok|exact c1_ok]. Qed.

(** the tables of ConstM.v with the binary values of their literals *)
Definition rows_s : list row := [
  (W 3067956762965976 (-18) 7074226654454970 61, W 12690279085455925 (-35) 5271335698347442 115, W 5287946424532839 (-51) 7913822574154586 170, W (-17820334081955295) (-68) (-4804352564403216) 224);
  (W 6135884649154475 (-18) 7074193361797233 60, W 9054525748247493 (-35) 7522205695703707 116, W 1626011313374532 (-52) 7787047147324868 175, W (-9749200120876422) (-70) (-6728650631838897) 232);
  (W 920375478205982 (-17) 5305603405682435 59, W (-12136591693535934) (-35) (-5041342953893321) 115, W 5569690394942557 (-51) 8335474310793984 170, W 12505635791936973 (-68) 6743025479788619 225);
  (W 12271538285719925 (-18) 7074060192106372 59, W 6919790764028317 (-34) 7185921569156509 113, W (-40203726713435555) (-52) (-6016799991653399) 170, W (-20688703606952494) (-68) (-5577663458559263) 224);
  (W 15339206284988102 (-18) 8842450394781643 59, W (-844625788654017) (-33) (-8771095658131507) 113, W 4653589750505863 (-50) 8705573170983202 167, W (-1392368297857049) (-66) (-4692271881407170) 221);
  (W 1840672990580482 (-17) 5305378684473085 58, W 7419553381283316 (-34) 7704904742673764 113, W 39068476486787607 (-51) 7308626221243388 167, W 36393321292898124 (-68) 4905810005485056 223);
  (W 21474080275469508 (-18) 6189482235310630 58, W (-4540796020768857) (-34) (-4715432182777116) 113, W (-22031770119723005) (-51) (-8243063834437948) 168, W 12709814654833732 (-67) 8566398131092176 222);
  (W 24541228522912288 (-18) 7073527528384126 58, W (-9186849012577878) (-35) (-7632135562854704) 116, W 4870614870446706 (-51) 7289253486557291 170, W (-28153947855469075) (-68) (-7590289326531864) 224);
  (W 27608145778965743 (-18) 7957506242722589 58, W (-1593235883138927) (-33) (-8272553670927212) 112, W (-7047541624277603) (-50) (-6591995918745221) 166, W (-2751849417660274) (-66) (-4636857096009408) 220);
  (W 30674803176636626 (-18) 8841410057981697 58, W (-1693605484410792) (-35) (-5627969559234247) 118, W 10053112316608014 (-52) 6018105389463175 172, W 43727432941767413 (-70) 7544891264009315 230);
  (W 3374117185137759 (-17) 4862615327261055 57, W (-2009607429236834) (-33) (-5217239170857332) 111, W (-13548237016537134) (-50) (-6336246586437174) 165, W 6555488187589997 (-66) 5522987872330073 219);
  (W 3680722294135883 (-17) 5304479856743885 57, W 6106008880352984 (-34) 6340842145528512 113, W (-40448721259852727) (-51) (-7566831660699656) 167, W (-21111056765671487) (-67) (-7114412056121162) 221);
  (W 3987292758773981 (-17) 5746294458442105 57, W 4665745348118329 (-34) 4845186982751657 113, W 34119333562288684 (-51) 6382779118838290 167, W 240075347261875 (-65) 8090523197847274 221);
  (W 4293825693494082 (-17) 6188054973828419 57, W 28351940588660907 (-34) 7360584602593505 111, W 16991309601186475 (-50) 7946504576809704 165, W 6802653609867265 (-66) 5731224328660039 219);
  (W 4600318213091463 (-17) 6629757244884614 57, W (-11182813940157788) (-34) (-5806448969106076) 112, W 7523502027037895 (-50) 7037190739826080 166, W 41187304955493796 (-68) 5552037724818910 223);
  (W 49067674327418015 (-18) 7071397114140692 57, W (-679610372051828) (-33) (-7057477599664784) 113, W (-44318868124718325) (-51) (-8290828586102809) 167, W (-9937662813252524) (-67) (-6697971486035356) 222);
  (W 52131704680283324 (-18) 7512970424714007 57, W (-2424369529195378) (-33) (-6294023145184360) 111, W (-13675405320092298) (-50) (-6395720725273163) 165, W (-8393813762114509) (-66) (-7071774105018820) 219);
  (W 5519524434968994 (-17) 7954473020348387 57, W (-13340299860891103) (-34) (-6926679705961747) 112, W (-3435957412566561) (-50) (-6427721451859560) 167, W 1191146275540942 (-66) 8028310015339729 222);
  (W 5825826450043576 (-17) 8395900745453257 57, W 2329990549607749 (-34) 4839201044457661 114, W 1937610899062866 (-51) 5799570435052711 171, W (-5127377571009318) (-68) (-5529353034270224) 226);
  (W 6132073630220858 (-17) 8837249445142752 57, W (-5118113406463811) (-34) (-5314952832401406) 113, W (-42726335866706313) (-51) (-7992910057771694) 167, W 26368495557440717 (-67) 8886165424020004 221);
  (W 6438263092985747 (-17) 4639257482637412 56, W (-42325997000052705) (-34) (-5494228531443205) 110, W 33260117711855937 (-51) 6222043711193090 167, W 14736267706718376 (-67) 4966112393074771 221);
  (W 6744391956366406 (-17) 4859846576245171 56, W (-69221796556983636) (-34) (-8985502920124077) 110, W 1590928635891104 (-49) 7440463379940699 165, W (-7882894689183518) (-66) (-6641325637598521) 219);
  (W 7050457338961387 (-17) 5080389927126093 56, W (-6855279110734288) (-33) (-8898661047761268) 110, W (-1996117763084158) (-49) (-4667727006484474) 164, W 20127129580485298 (-66) 8478536563323651 218);
  (W 7356456359966743 (-17) 5300885459442166 56, W (-27784941506273593) (-34) (-7213383224879916) 111, W (-9124037548985282) (-50) (-8534269322822802) 166, W (-19589752023546822) (-67) (-6601733372219108) 221);
  (W 7662386139203149 (-17) 5521331097805465 56, W 232537002879588 (-33) 4829604598179156 114, W (-1318608392121344) (-51) (-7893599535446481) 172, W (-4992787260809975) (-68) (-5384211130874642) 226);
  (W 7968243797143013 (-17) 5741724767297686 56, W (-4486766431137304) (-33) (-5824155811343436) 110, W 28540789143650264 (-50) 6673985610265747 164, W 28491348583262765 (-67) 4800782739249763 220);
  (W 8274026454937569 (-17) 5962064393489674 56, W 1473598353087776 (-33) 7651360099479755 112, W 37284093452233713 (-51) 6974817744235260 167, W 29024430036723684 (-68) 7824970858345156 224);
  (W 857973123444399 (-16) 6182347902460953 56, W (-3388189383068403) (-33) (-8796242544913562) 111, W (-16135529531508258) (-50) (-7546272905440146) 165, W 7729465162058808 (-66) 6512061516709511 219);
  (W 888535525825246 (-16) 6402573220819241 56, W (-3750177583029069) (-33) (-4868008820827392) 110, W 37543606373911578 (-50) 8779206749884591 164, W (-20530533507023269) (-66) (-8648470131210883) 218);
  (W 9190895649713272 (-17) 6622738275719969 56, W 47631594854274564 (-34) 6182934508221337 110, W 15722874642939344 (-50) 7353282250945404 165, W (-48464145447831486) (-67) (-8166192353391052) 220);
  (W 94963495329639 (-15) 6842840994885793 56, W (-65885886400417564) (-34) (-8552477024466766) 110, W (-21371116991641965) (-50) (-4997427595980002) 164, W 13819370559249302 (-66) 5821398332046139 218);
  (W 980171403295606 (-16) 7062879306626092 56, W (-1634582362244256) (-33) (-8487236864497288) 112, W (-13209238810006454) (-51) (-4942162982072151) 168, W (-3569106004911789) (-67) (-4811145377091446) 223);
  (W 10106986275482782 (-17) 7282851139856476 56, W 33164325719308656 (-34) 8609951212389606 111, W (-12004224885132282) (-50) (-5614142183842944) 165, W 7202882849541882 (-66) 6068416796043224 219);
  (W 10412163387205457 (-17) 7502754424118275 56, W 657602540853851 (-32) 8536169017599928 110, W 17066246171219214 (-50) 7981550951145323 165, W (-4949934099689357) (-66) (-8340622458345961) 220);
  (W 10717242495680884 (-17) 7722587089598028 56, W 644240442790262 (-32) 8362719068102409 110, W (-8395697649969814) (-50) (-7853008551658302) 166, W (-4066773021331873) (-66) (-6852498985157148) 220);
  (W 11022220729388306 (-17) 7942347067146965 56, W (-5678950353782323) (-34) (-5897359216343841) 113, W 10380274792383233 (-51) 7767443765766550 169, W 15213997918457891 (-68) 8203371449515312 225);
  (W 11327095217756435 (-17) 8162032288300481 56, W 271004810121329 (-32) 7035687121204020 111, W 1532329299949162 (-50) 5733124558862890 168, W 4956443281036479 (-67) 6681272325775030 223);
  (W 11631863091190477 (-17) 8381640685297609 56, W 10294914877509705 (-34) 5345425417737710 112, W (-9397573494899304) (-50) (-8790124191829010) 166, W 13534827323718545 (-68) 7297964455930904 225);
  (W 11936521481099137 (-17) 8601170191100479 56, W (-39500089391898506) (-34) (-5127404751534987) 110, W 3531734997822731 (-49) 8258618371098839 164, W 18856046807012723 (-67) 6354475203379489 221);
  (W 1224106751992162 (-16) 8820618739413774 56, W 28354501489965335 (-34) 7361249450583405 111, W 18151655751493305 (-50) 8489175872343797 165, W (-28716592177915257) (-67) (-4838736209868191) 220);
  (W 12545498341154623 (-17) 4519992132352091 55, W 48686751763148235 (-34) 6319901705801489 110, W 5987810525809794 (-50) 5600764727998866 166, W (-3353462909872179) (-66) (-5650573825026359) 220);
  (W 12849811079379317 (-17) 4629632351109917 55, W 381986039549888 (-32) 4958462282897610 110, W (-18627501455947798) (-50) (-8711719640720475) 165, W (-24308161133527975) (-67) (-8191834096705228) 221);
  (W 13154002870288312 (-17) 4739228994004870 55, W (-5003970826221381) (-33) (-6495525500297301) 110, W (-12983004159245552) (-50) (-6071898187587615) 165, W (-4687203491579388) (-66) (-7897922259441410) 220);
  (W 1345807085071262 (-16) 4848781029471607 55, W (-916703591714807) (-32) (-5949746474335482) 109, W 15916493007073973 (-50) 7443833788929433 165, W 4023700248436679 (-66) 6779921506403353 220);
  (W 13762012158648604 (-17) 4958287426364647 55, W 6625325586677448 (-33) 8600164307618932 110, W (-2374658303140146) (-49) (-5552907197025195) 164, W (-9370387617309003) (-67) (-6315628760329487) 222);
  (W 14065823933284924 (-17) 5067747153968079 55, W (-7919393296552474) (-33) (-5139980116898898) 109, W 609724642021084 (-48) 7128908501078503 163, W 24566623241035754 (-66) 5174334784143026 217);
  (W 14369503315029444 (-17) 5177159182005257 55, W 11472723016618666 (-33) 7446222959753664 109, W (-5188495455757643) (-50) (-4853116546479197) 166, W (-42220684832186815) (-67) (-7114171320789578) 220);
  (W 14673047445536175 (-17) 5286522480648506 55, W 3726947147046568 (-33) 4837853990883808 110, W 37352398151250827 (-50) 8734494569006220 164, W (-40881822289508557) (-67) (-6888573428631756) 220);
  (W 1497645346773215 (-16) 5395836020528807 55, W 8081211413128515 (-33) 5245006079192873 109, W 12979142554917325 (-50) 6070092190452118 165, W 993806674877366 (-65) 8372804672547532 219);
  (W 15279718525844344 (-17) 5505098772745492 55, W (-7631357393841684) (-33) (-4953034127800088) 109, W 57714690450284125 (-50) 6748009167290918 163, W (-37731132582986663) (-66) (-7947104079128986) 217);
  (W 15582839765426523 (-17) 5614309708875923 55, W 3035130718767822 (-33) 7879649848150358 111, W (-10976942315176184) (-50) (-5133702133285397) 165, W 7873464768525745 (-66) 6633380945160739 219);
  (W 15885814333386145 (-17) 5723467800985178 55, W (-4016320057385908) (-33) (-5213481504208817) 110, W (-9284058025762881) (-50) (-8683946243665639) 166, W (-2856742002927449) (-66) (-4813600752545820) 220);
  (W 16188639378011183 (-17) 5832572021635720 55, W 11850519643573528 (-33) 7691426989666512 109, W (-5044099051916296) (-49) (-5897567218587937) 163, W 3051002870792798 (-65) 6426162084210729 217);
  (W 16491312048996992 (-17) 5941621343897074 55, W (-7040528831916674) (-34) (-7311303147276965) 113, W 33211107491245527 (-51) 6212875260931578 167, W 8666329925468717 (-67) 5841094814764205 222);
  (W 16793829497473117 (-17) 6050614741355486 55, W 5428453372155814 (-33) 7046535347736856 110, W (-3326333933618137) (-49) (-7778307984467600) 164, W (-18536367335123897) (-66) (-7808429293088336) 218);
  (W 17096188876030122 (-17) 6159551188123590 55, W 919199801817591 (-32) 5965947804179142 109, W (-67688743940982606) (-50) (-7914176807889465) 163, W (-10377711384318362) (-66) (-8743204545259534) 219);
  (W 17398387338746382 (-17) 6268429658850061 55, W 5815199461810793 (-33) 7548560474328400 110, W (-16751014298301606) (-50) (-7834123143654772) 165, W (-6698225979716456) (-66) (-5643244224302453) 219);
  (W 17700422041214875 (-17) 6377249128729266 55, W 6732930063540817 (-33) 8739842904414420 110, W 28042736644246623 (-50) 6557520883328920 164, W 3678688823279387 (-66) 6198578405040964 220);
  (W 18002290140569951 (-17) 6486008573510911 55, W 7970182604739214 (-33) 5172944262567044 109, W (-7076592011052498) (-49) (-8273960648700810) 163, W 19622512608461807 (-66) 8265967084369083 218);
  (W 18303988795514095 (-17) 6594706969509681 55, W 7734991868863738 (-33) 5020296747686703 109, W (-4480376996814508) (-49) (-5238462653363294) 163, W 1120114879332894 (-65) 4718474594983859 218);
  (W 18605515166344666 (-17) 6703343293614876 55, W (-12564893007679552) (-33) (-8155081811450095) 109, W 7595384424853081 (-49) 8880533418464333 163, W (-3847169513241551) (-66) (-6482467806030006) 220);
  (W 18906866414980622 (-17) 6811916523300038 55, W (-7620895580352778) (-33) (-4946244022635960) 109, W (-4479229865666299) (-49) (-5237121426122221) 163, W 4139164662630522 (-65) 8718098324302613 217);
  (W 19208039704989244 (-17) 6920425636632580 55, W 433483439411749 (-32) 5626936751711242 110, W (-23404121848139937) (-50) (-5472825984215756) 164, W 15789970962611875 (-66) 6651512109810522 218);
  (W 19509032201612828 (-17) 7028869612283403 55, W (-7991079068461731) (-33) (-5186506842934658) 109, W 6184627002422071 (-49) 7231073992256617 163, W (-3584027091803293) (-65) (-7548842128799984) 217);
  (W 1980984107179536 (-16) 7137247429536506 55, W (-18434411800689445) (-34) (-4785846924082858) 111, W 14139031318237285 (-50) 6612549575000546 165, W 10542811125343775 (-66) 8882300801909706 219);
  (W 2011046348420919 (-16) 7245558068298598 55, W 11010032669300739 (-33) 7145919755147006 109, W (-3912357675741379) (-49) (-4574333719136121) 163, W 24084852500063748 (-67) 8116579236098855 221);
  (W 20410896609281687 (-17) 7353800509108698 55, W 6094129777395775 (-33) 7910632724668908 110, W (-2827540997044964) (-49) (-6611929274882350) 164, W 4610100856353328 (-66) 7768004576091951 220);
  (W 20711137619221856 (-17) 7461973733147729 55, W (-10613362528971356) (-33) (-6888466114708653) 109, W 22456805112690884 (-50) 5251305190626995 164, W 13483736125280926 (-66) 5680012606429784 218);
  (W 2101118368804696 (-16) 7570076722248107 55, W 11561548476512844 (-33) 7503873979299470 109, W 6035590561040125 (-49) 7056820389775269 163, W 33329909618405684 (-66) 7020098326040378 217);
  (W 21311031991609136 (-17) 7678108458903330 55, W 1203187382106386 (-32) 7809132580424664 109, W (-34142699719695635) (-50) (-7983937846917205) 164, W (-1243626278024175) (-65) (-5238765332718564) 218);
  (W 21610679707621952 (-17) 7786067926277549 55, W (-10111196082609117) (-33) (-6562541456970122) 109, W 7278954533518964 (-49) 8510563175036132 163, W (-29347540365258595) (-66) (-6181313461401737) 217);
  (W 2191012401568698 (-16) 7893954108215139 55, W (-36513812299150776) (-35) (-7583622115760437) 114, W (-23359499418606442) (-51) (-8739826341766039) 168, W 31785298198457637 (-68) 8569299442298972 224);
  (W 22209362097320354 (-17) 8001765989250269 55, W (-30337210995812162) (-34) (-7875990267513186) 111, W 66654668033633 (-48) 6234618013881755 166, W 20110862322656835 (-67) 6777347195615469 221);
  (W 22508391135979283 (-17) 8109502554616454 55, W 3950704082255651 (-33) 5128307098824184 110, W 24287993958305375 (-51) 4543608696005937 167, W 56662797513025196 (-68) 7638129994813576 223);
  (W 22807208317088573 (-17) 8217162790256110 55, W 8236183733925801 (-33) 5345588865997323 109, W 6978678131639794 (-49) 8159479612637540 163, W (-6412296248263911) (-66) (-5402348902098912) 219);
  (W 2310581082806711 (-16) 8324745682830097 55, W 10129787149761869 (-33) 6574607749416877 109, W (-6935923461581604) (-49) (-8109490796402671) 163, W (-2887735560488378) (-65) (-6082280992156331) 217);
  (W 23404195858354343 (-17) 8432250219727258 55, W (-6992240269610117) (-33) (-4538223398252166) 109, W (-5732303192275028) (-49) (-6702216400949692) 163, W 5309257996687299 (-66) 8946082027052039 220);
  (W 2370236059943672 (-16) 8539675389073947 55, W 8854485228503992 (-33) 5746889479488039 109, W 13588480826354134 (-50) 6355067832497967 165, W 10381022520213889 (-66) 8745994171733005 219);
  (W 2400030224487415 (-16) 8647020179743560 55, W (-12137758975632164) (-33) (-7877855974853474) 109, W (-2644880773170389) (-49) (-6184796128853677) 164, W (-1992973380067015) (-66) (-6716307004457208) 221);
  (W 2429801799032639 (-16) 8754283581366043 55, W (-8751431529719663) (-33) (-5680003804930756) 109, W (-6572326037307943) (-49) (-7684372211678467) 163, W (-10333158083172172) (-66) (-8705668463298697) 219);
  (W 24595505033579462 (-17) 8861464584337410 55, W (-11129044052741832) (-33) (-7223162559193390) 109, W 438059982028834 (-48) 5121803047874294 163, W 12219399554686294 (-66) 5147411879671043 218);
  (W 24892760574572018 (-17) 8968562179829241 55, W (-8178343610002099) (-33) (-5308048479279035) 109, W 5566687526111184 (-49) 6508578347136807 163, W 38080473058748167 (-66) 8020683771279042 217);
  (W 25189781815421697 (-17) 4537787679899090 54, W (-1759143603251704) (-32) (-5708747378047162) 108, W (-10959681232525285) (-49) (-6407036826384189) 162, W 5620942602023243 (-65) 5919543467564905 216);
  (W 25486565960451457 (-17) 4591251558497710 54, W (-13602299806901461) (-35) (-5650174284497868) 115, W (-60073844642762535) (-52) (-8990517484150757) 170, W (-3007275131189635) (-67) (-8107597715032100) 224);
  (W 257831102162159 (-15) 4644672222488094 54, W 18480038630879957 (-33) 5997115408045016 108, W 332016647140476 (-48) 7763885974670757 164, W (-5554781929057646) (-66) (-4679894517345196) 219);
  (W 2607941179152755 (-16) 4698049169054608 54, W 42721420983550075 (-34) 5545557499125773 110, W 5678212693477792 (-50) 5311178975123782 166, W 3142833808436547 (-66) 5295664491197952 220);
  (W 2637546789748314 (-16) 4751381895793102 54, W (-188379476800387) (-31) (-6113263535019274) 108, W 13720129045754794 (-49) 8020796425904764 162, W (-8276340666596603) (-65) (-8716004022289625) 216);
  (W 26671275747489837 (-17) 4804669900715639 54, W 20941222578826688 (-33) 6795815263120026 108, W (-1130346652472799) (-48) (-6608013933362003) 162, W 19954224050508953 (-66) 8405700252907750 218);
  (W 2696683255729151 (-16) 4857912682255224 54, W 1576565761813326 (-32) 5116248407710562 108, W (-6969614217337009) (-49) (-8148882072162222) 163, W (-40455346879146766) (-66) (-8520890580178718) 217);
  (W 272621355449949 (-15) 4911109739270519 54, W 7869716607638785 (-33) 5107738102425278 109, W 6617938860293337 (-50) 6190162227247694 166, W (-2764290369638619) (-66) (-4657820058623456) 220);
  (W 27557181931095814 (-17) 4964260571050563 54, W 19320328962556582 (-33) 6269805211133874 108, W 1393209418010028 (-48) 8144711382265961 162, W 1361725392001808 (-65) 5736256866198991 218);
  (W 2785196893850531 (-16) 5017364677319486 54, W (-10030273719543544) (-33) (-6510019840528798) 109, W 7259211532568925 (-49) 8487479632464686 163, W (-1006851629665586) (-65) (-8482708199224345) 219);
  (W 281464937925758 (-15) 5070421558241214 54, W (-1232229964127401) (-32) (-7997629714663984) 109, W (-10564788706386435) (-50) (-4940945917580418) 165, W 7513742425126599 (-66) 6330315470378757 219);
  (W 2844075372112718 (-16) 5123430714424177 54, W 22209268510661475 (-33) 7207319694891503 108, W (-918230956295237) (-48) (-5367984184293639) 162, W (-5219287530889219) (-65) (-5496551307550691) 216);
  (W 2873474595447295 (-16) 5176391646926010 54, W 15461117367645717 (-33) 5017419446091570 108, W (-6326397366344408) (-49) (-7396832087454611) 163, W (-22982538416476248) (-66) (-4840687577999534) 217);
  (W 2902846772544624 (-16) 5229303857258246 54, W (-1892797870777425) (-32) (-6142480273924397) 108, W 11522953157142315 (-49) 6736325962420316 162, W 7473865565471657 (-65) 7870899103225372 216);
  (W 29321916269425863 (-17) 5282166847391008 54, W 22385430811901833 (-33) 7264487630099164 108, W 1366248464653968 (-48) 7987097472370426 162, W (-4245132525399692) (-65) (-8941292693731422) 217);
  (W 29615088824362384 (-17) 5334980119757703 54, W (-20220736360876938) (-33) (-6562004117740143) 108, W (-7925221253392041) (-50) (-7412943256346969) 166, W (-2899057772957201) (-66) (-4884902683994665) 220);
  (W 2990798263080405 (-16) 5387743177259695 54, W 16701181609219447 (-34) 8671749280336977 112, W 8609115111731629 (-50) 8052630932330237 166, W 3993128623001396 (-67) 5382726735559515 223);
  (W 3020059493192281 (-16) 5440455523270994 54, W (-17167666235262474) (-33) (-5571226216357986) 108, W 2333618214900807 (-49) 5456938947172397 164, W 8302533455521957 (-66) 6994870598847058 219);
  (W 30492922973540243 (-17) 5493116661642923 54, W (-22989033898191262) (-33) (-7460368030645572) 108, W (-14598901099661133) (-50) (-6827621715323733) 165, W 37760487693121697 (-67) 6362629589575994 220);
  (W 30784964004153487 (-17) 5545726096708791 54, W 27074088527245185 (-33) 8786044050481812 108, W 12568858206899284 (-49) 7347762739505304 162, W 7293181510590166 (-65) 7680616584350001 216);
  (W 3107671527496115 (-16) 5598283333288561 54, W 20887076364048513 (-33) 6778243811814134 108, W (-30130590791065942) (-50) (-7045745243982448) 164, W 13876739009935514 (-67) 4676451795272878 221);
  (W 31368174039889146 (-17) 5650787876693505 54, W 14560447299968912 (-33) 4725135298405656 108, W 36564186898011595 (-50) 8550179043058735 164, W 1165426473499937 (-65) 4909349307819336 218);
  (W 31659337555616585 (-17) 5703239232730864 54, W 21435292512726283 (-33) 6956150123475237 108, W 12338169231377316 (-49) 7212901813329486 162, W 33963542100989274 (-66) 7153556903673408 217);
  (W 3195020308160157 (-16) 5755636907708500 54, W (-13981562491096626) (-33) (-4537276437495587) 108, W 8173000069741135 (-49) 4777941193532901 162, W (-7767109627021095) (-65) (-8179721144625040) 216);
  (W 32240767880106985 (-17) 5807980408439539 54, W (-405190399379594) (-32) (-5259672094517845) 110, W 37438302780296796 (-50) 8754582529967018 164, W 8793673104663928 (-66) 7408654934690515 219);
  (W 3253102921622629 (-16) 5860269242247018 54, W 791712494637659 (-32) 5138507873462360 109, W (-6757662206814639) (-50) (-6320854003064805) 166, W 2302165506692977 (-66) 7758282409924561 221);
  (W 32820984357909255 (-17) 5912502916968520 54, W (-26693140719641896) (-33) (-8662419418939044) 108, W 7892885144753479 (-49) 4614185824928788 162, W 25525163821987572 (-67) 8601963191388349 221);
  (W 33110630575987643 (-17) 5964680940960804 54, W (-27469465474778694) (-33) (-8914351205645270) 108, W (-13401245916610206) (-49) (-7834377139759957) 162, W 6553176248997621 (-65) 6901300084898990 216);
  (W 3339996514420094 (-16) 6016802823104436 54, W 22598986806288142 (-33) 7333790512522496 108, W 7806305719258612 (-49) 4563571436080821 162, W 2042760089548672 (-65) 8605109854377510 218);
  (W 33688985339222005 (-17) 6068868072808413 54, W (-4200094003347509) (-34) (-8723253959652896) 114, W (-29178652969985438) (-52) (-8733624133784357) 171, W (-1159737643703204) (-67) (-6253293004425066) 225);
  (W 33977688440682685 (-17) 6120876200014774 54, W 6602867949941828 (-33) 8571012628450813 110, W 12575009988669683 (-50) 5881087260125824 165, W 25569067699008188 (-67) 8616758768675311 221);
  (W 3426607173119944 (-16) 6172826715203219 54, W 1926151844930632 (-32) 6250720108433989 108, W (-9275418913599087) (-49) (-5422415971662036) 162, W 8543999668739021 (-65) 8997881851302998 216);
  (W 34554132496398904 (-17) 6224719129395714 54, W 27251143672916123 (-33) 8843501730272727 108, W 7013816360194174 (-49) 8200563275489647 163, W (-14176292197453965) (-66) (-5971751274707854) 218);
  (W 34841868024943456 (-17) 6276552954161094 54, W 3697442051420492 (-33) 4799554187051297 110, W 35532146878499996 (-50) 8308846534529580 164, W 1956546254450134 (-65) 8241934792467025 218);
  (W 35129275608556715 (-17) 6328327701619659 54, W (-22670712098795844) (-33) (-7357066700707823) 108, W (-16994216673139633) (-50) (-7947864157743905) 165, W 9110561603453039 (-66) 7675632966777636 219);
  (W 3541635254204904 (-16) 6380042884447767 54, W (-1695176330576486) (-32) (-5501161709946803) 108, W 12772331777814617 (-49) 7466713522323834 162, W (-3370378543584333) (-65) (-7098845764308005) 217);
  (W 35703096123343003 (-17) 6431698015882422 54, W (-4821819113791917) (-34) (-5007263247392991) 113, W (-4167243699449236) (-50) (-7795754867074493) 167, W (-715311671493684) (-66) (-4821191128465025) 222);
  (W 35989503653498817 (-17) 6483292609725855 54, W (-17601687123839282) (-33) (-5712074047376477) 108, W 13375125473046791 (-49) 7819107111345661 162, W 7946781559358436 (-65) 8368937774054673 216);
  (W 3627557243673972 (-16) 6534826180350098 54, W (-9166835266374985) (-33) (-5949616244538138) 109, W (-74317843956936735) (-50) (-8689252050077247) 163, W (-20199582511804567) (-66) (-8509057300264998) 218);
  (W 36561299780477385 (-17) 6586298242701558 54, W 16217898770457546 (-33) 5263009052367660 108, W 11286970151961055 (-49) 6598370143038445 162, W (-7182528731813896) (-65) (-7564085607225772) 216);
  (W 3684668299533723 (-16) 6637708312305582 54, W 10463640796159268 (-33) 6791291154341829 109, W 20554984738517304 (-51) 7690532825767619 168, W 10441861305618895 (-67) 7037800597631734 222);
  (W 37131719395183754 (-17) 6689055905271015 54, W 34749239648238266 (-35) 7217134714480857 114, W (-7515105304286667) (-52) (-8997551068716333) 173, W (-28153468438618943) (-69) (-6072128060803804) 227);
  (W 374164062971458 (-15) 6740340538294756 54, W 8011410376196212 (-33) 5199702616094614 109, W 5342959981340605 (-49) 6246995808738228 163, W 10351378796539212 (-66) 8721019383942848 219);
  (W 37700741021641826 (-17) 6791561728666308 54, W (-2725530204195693) (-33) (-7075880958543542) 111, W 6364658644501814 (-50) 5953253779194679 166, W 8304865717650216 (-67) 5597468420642439 222);
  (W 37984720892405116 (-17) 6842718994272319 54, W 9915130585517237 (-33) 6435287673892967 109, W 48761409697224886 (-50) 5701190408884571 163, W 14025084000776738 (-66) 5908054947863259 218);
  (W 3826834323650898 (-16) 6893811853601123 54, W (-10050772696461588) (-33) (-6523324437210640) 109, W (-20605316302806695) (-50) (-4818352562283701) 164, W (-12717724698085234) (-66) (-5357330931060662) 218);
  (W 38551605384391885 (-17) 6944839825747268 54, W 15177665396472313 (-33) 4925434022374747 108, W 14198230518016535 (-49) 8300294859713104 162, W 5895516715990422 (-65) 6208703759312377 216);
  (W 3883450466988263 (-16) 6995802430416048 54, W (-10053770598398717) (-33) (-6525270186811934) 109, W 7594299925505713 (-49) 8879265420406843 163, W (-31967974046654205) (-66) (-6733241213708228) 217);
  (W 39117038430225387 (-17) 7046699187928017 54, W 17997787858243995 (-33) 5840616084808535 108, W (-10613482402609856) (-49) (-6204648763678812) 162, W (-5458214881779101) (-65) (-5748171176195801) 216);
  (W 3939920400610481 (-16) 7097529619223511 54, W 9764924164123934 (-33) 6337798132651441 109, W (-21233599441284617) (-50) (-4965270455978562) 164, W (-5552983679534047) (-66) (-4678379495118620) 219);
  (W 3968099874167103 (-16) 7148293245867151 54, W 20545063670840126 (-33) 6667254347281325 108, W 6134705880192284 (-49) 7172706150755633 163, W 10733788150636435 (-66) 4521599313713309 218);
  (W 39962419984564684 (-17) 7198989590052351 54, W (-15065497476189372) (-33) (-4889033451117653) 108, W (-996532588818673) (-48) (-5825736040848376) 162, W (-5752432371272538) (-65) (-6058018356871036) 216);
  (W 40243465085941843 (-17) 7249618174605810 54, W 1090261933932827 (-32) 7076204518174404 109, W 73998528125989765 (-50) 8651917601296873 163, W 2274578480682347 (-65) 4790821447612860 217);
  (W 40524131400498986 (-17) 7300178522992010 54, W 9911140194289988 (-33) 6432697761913771 109, W (-25169070895434648) (-50) (-5885542131804050) 164, W 9277298481839648 (-68) 5002309445712690 225);
  (W 4080441628649787 (-16) 7350670159317696 54, W (-7000601513735131) (-33) (-4543650155952635) 109, W (-14108207334268228) (-50) (-6598133798027798) 165, W 15175546997581244 (-68) 8182638753992567 225);
  (W 41084317105790397 (-17) 7401092608336357 54, W (-242198351903555) (-31) (-7859785885819633) 108, W (-11418902925313314) (-49) (-6675498128747218) 162, W (-20996843165093447) (-66) (-8844902686085090) 218);
  (W 41363831223843456 (-17) 7451445395452699 54, W (-10393984940597871) (-33) (-6746081919340579) 109, W (-1148168117450388) (-49) (-5369758667471624) 165, W (-20281052851028834) (-67) (-6834701290217510) 221);
  (W 4164295600976372 (-16) 7501728046727114 54, W (-25475580413131732) (-33) (-8267298509278455) 108, W (-34482678506112824) (-50) (-8063438575398244) 164, W 7178861935186544 (-66) 6048179215733346 219);
  (W 41921688836322396 (-17) 7551940088880137 54, W (-4223246375011059) (-33) (-5482087221447130) 110, W (-36053023045255794) (-50) (-8430648353819219) 164, W 2055456215144949 (-65) 8658592177651740 218);
  (W 4220002707997997 (-16) 7602081049296905 54, W 4354326699412853 (-33) 5652239210598920 110, W 3173431027225119 (-49) 7420759427593921 164, W (-135732479807387) (-64) (-5717719400948835) 218);
  (W 4247796812091088 (-16) 7652150456031602 54, W 2746231220427728 (-32) 8912029836648224 108, W (-4655284780211195) (-49) (-5442965062816235) 163, W 6596178109919312 (-66) 5557269064076599 219);
  (W 4275550934302821 (-16) 7702147837811904 54, W 9411189816295473 (-33) 6108211414778243 109, W (-174466824265988) (-48) (-8159473578389260) 165, W (-22054492626479695) (-67) (-7432349312261995) 221);
  (W 4303264813400826 (-16) 7752072724043411 54, W 2225968697409269 (-32) 7223681421721881 108, W 8597259131408508 (-49) 5025963318844636 162, W (-29420897889002997) (-66) (-6196764359275044) 217);
  (W 43309381885315196 (-17) 7801924644814081 54, W 11224283329847517 (-33) 7284976384109012 109, W 5322374804107566 (-50) 4978342074042849 166, W (-5298439577667404) (-66) (-8927853027064586) 220);
  (W 4358570799222555 (-16) 7851703130898649 54, W 16230515450644527 (-33) 5267103399173910 108, W (-6437144906357944) (-50) (-6021054605042187) 166, W 37808151922300826 (-67) 6370660996304745 220);
  (W 43861623853852766 (-17) 7901407713763047 54, W (-2088331583107509) (-32) (-6777023449092614) 108, W (-14259583540891877) (-50) (-6668929501654487) 165, W 6386476359065959 (-67) 8608953101571833 223);
  (W 44137126873171667 (-17) 7951037925568809 54, W 2236078388696497 (-32) 7256489245666525 108, W 1186476960351577 (-49) 5548921664669512 165, W (-3808700326618951) (-66) (-6417647354800384) 220);
  (W 44412214457042926 (-17) 8000593299177483 54, W (-24218874422178315) (-33) (-7859474098720372) 108, W 22205230838703907 (-50) 5192476996492227 164, W 9213303591135644 (-66) 7762192920165138 219);
  (W 4468688401623742 (-16) 8050073368155017 54, W (-19222136142309382) (-33) (-6237939819127611) 108, W (-4442567858973205) (-50) (-8310809855799018) 167, W (-13673609292149568) (-67) (-4607997215797597) 221);
  (W 4496113296546066 (-16) 8099477666776158 54, W 4883192423203524 (-33) 6338746169655183 110, W 2715108449819138 (-49) 6349016711906624 164, W (-1565399317161318) (-65) (-6594231578666119) 218);
  (W 4523495872337709 (-16) 8148805730028833 54, W (-14827977472196122) (-33) (-4811953802956820) 108, W (-76947501088972324) (-50) (-8996711906404359) 163, W 1765685688203132 (-65) 7437936247641814 218);
  (W 45508358712634384 (-17) 8198057093618523 54, W (-12379906758116472) (-33) (-8035018871140280) 109, W 5528968895554264 (-49) 6464477674883353 163, W (-8538231284020904) (-66) (-7193445626531272) 219);
  (W 45781330359887723 (-17) 8247231293972637 54, W (-8455425492229595) (-33) (-5487884902609878) 109, W (-6377039424676426) (-49) (-7456042848390653) 163, W 31778253575564297 (-66) 6693281418534395 217);
  (W 46053871095824 (-14) 8296327868244873 54, W 18488777492177872 (-33) 5999951330674037 108, W (-10527732154209725) (-49) (-6154519112303483) 162, W 33235593490947117 (-66) 7000233030992447 217);
  (W 4632597835518602 (-16) 8345346354319577 54, W (-735149245332317) (-32) (-4771391396366549) 109, W 67175396881707035 (-50) 7854156202477445 163, W 39594127612123412 (-66) 8339496630900029 217);
  (W 4659764957679662 (-16) 8394286290816088 54, W (-33023547778235135) (-34) (-8573403169330254) 111, W 3490467705047689 (-50) 6529695060451631 167, W (-18971438937970005) (-67) (-6393362274584704) 221);
  (W 46868882203582796 (-17) 8443147217093086 54, W (-22949251681845054) (-33) (-7447457963335574) 108, W (-11364757641823658) (-49) (-6643844760557667) 162, W 6884052250191858 (-65) 7249753184337924 216);
  (W 47139673682599764 (-17) 8491928673252923 54, W 6516678136069013 (-33) 8459131853498433 110, W 29457546966235984 (-50) 6888360499664938 164, W (-6215971773883671) (-66) (-5236945859638048) 219);
  (W 47410021465055 (-14) 8540630200145957 54, W (-8145160154897808) (-33) (-5286511185567367) 109, W (-34789448555614422) (-50) (-8135173764139151) 164, W (-11681943974658491) (-66) (-4921009164459917) 218);
  (W 47679923006332214 (-17) 8589251339374868 54, W (-10293515338305794) (-33) (-6680873419295655) 109, W (-3658204500836995) (-49) (-8554354988263275) 164, W 1742413147917649 (-65) 7339900865625293 218);
  (W 479493757660153 (-15) 8637791633298976 54, W 1841999966268477 (-32) 5977631648923170 108, W (-13040838621273312) (-49) (-7623682798863608) 162, W 10977131822246452 (-66) 4624107632594476 218);
  (W 4821837720791228 (-16) 8686250625038550 54, W (-25861500925520442) (-33) (-8392536875785958) 108, W (-6291319760650001) (-51) (-4707724355155067) 169, W 40802359808682775 (-68) 5500147221679892 223);
  (W 4848692480007911 (-16) 8734627858479102 54, W (-18034004203262245) (-33) (-5852368960712652) 108, W (-35244276906958044) (-50) (-8241530944970066) 164, W (-17138318654749265) (-66) (-7219502451510517) 218);
  (W 48755016014843594 (-17) 8782922878275687 54, W 14231090931273653 (-33) 4618253045998479 108, W (-18277733073262697) (-50) (-8548139780246601) 165, W (-15208291790429067) (-67) (-5125184194605407) 221);
  (W 49022648328829116 (-17) 8831135229857187 54, W (-51496145643440404) (-34) (-6684581881277189) 110, W (-36903027405284104) (-50) (-8629413596046384) 164, W 1517294009515126 (-65) 6391588371080461 218);
  (W 49289819222978404 (-17) 8879264459430586 54, W (-10257831676562186) (-34) (-5326170718959288) 112, W 6952081776088507 (-50) 6502706495111478 166, W (-2426096121409026) (-66) (-8175927755321046) 221);
  (W 49556526182577254 (-17) 8927310113985246 54, W (-9432324194236536) (-33) (-6121928410302052) 109, W 31212918657699143 (-51) 5839069660685259 167, W 42009072375238366 (-68) 5662811753864488 223);
  (W 49822766697278187 (-17) 8975271741297168 54, W (-16126383830540798) (-33) (-5233310756427739) 108, W (-1509289731929887) (-48) (-8823317657688998) 162, W 11049298890895924 (-66) 4654507950124388 218);
  (W 5008853826112408 (-16) 4511574444966625 53, W (-3960401514707464) (-32) (-6426118857297543) 107, W (-22208395201898007) (-49) (-6491521190013141) 161, W 13648202735839415 (-65) 7186617536341603 215);
  (W 5035383837257176 (-16) 4535470554627767 53, W (-16731308204967497) (-33) (-5429619939489420) 108, W (-10140233644074786) (-49) (-5927987229493283) 162, W 4095307193767152 (-65) 8625723713246935 217);
  (W 5061866453451553 (-16) 4559323974712726 53, W (-4832159298649371) (-32) (-7840626733224058) 107, W 9285810722664225 (-49) 5428491030047448 162, W 4269980240103704 (-65) 8993628089295542 217);
  (W 508830142543107 (-15) 4583134480704026 53, W 4783696826801413 (-32) 7761991876870000 107, W (-10727022928806035) (-49) (-6271024629654463) 162, W 27309374513672715 (-66) 5752025628139526 217);
  (W 5114688504379704 (-16) 4606901848488119 53, W (-13088001221007579) (-33) (-8494598453042205) 109, W 409290333633669 (-48) 4785427941994550 163, W (-37952190153477893) (-66) (-7993664237807216) 217);
  (W 5141027441932218 (-16) 4630625854357486 53, W (-45712707523615624) (-33) (-7417310864687212) 107, W 15488279442238283 (-49) 4527229152853963 161, W (-25853959305521116) (-66) (-5445479406340096) 217);
  (W 5167317990176499 (-16) 4654306275012748 53, W 8301861723383652 (-33) 5388216318289433 109, W 582510274676952 (-48) 6810717761619515 163, W (-2281239719053509) (-65) (-4804851653177212) 217);
  (W 5193559901655896 (-16) 4677942887564769 53, W (-55331248144171145) (-33) (-8978008309930964) 107, W (-31628375609769026) (-51) (-5916790110693661) 167, W (-2409197205118826) (-66) (-8118978520081491) 221);
  (W 5219752929371544 (-16) 4701535469536748 53, W (-4655579569208888) (-32) (-7554109741206949) 107, W 4637898093685043 (-49) 5422636526155651 163, W (-33470542934689544) (-67) (-5639775327748786) 220);
  (W 524589682678469 (-15) 4725083798866319 53, W (-43068869040082345) (-33) (-6988323544295858) 107, W (-42013155291932055) (-50) (-4912183619887695) 163, W (-15096069926700272) (-66) (-6359206876678375) 218);
  (W 5271991347819014 (-16) 4748587653907638 53, W (-4220298348056062) (-32) (-6847825579591004) 107, W 855859161848673 (-48) 5003358265465959 162, W 7997433933673227 (-65) 8422280950230115 216);
  (W 5298036246862947 (-16) 4772046813433470 53, W (-4806784170648234) (-32) (-7799453234034926) 107, W 583097210466303 (-48) 6817580222556671 163, W (-8974076152175692) (-66) (-7560644201550159) 219);
  (W 532403127877198 (-15) 4795461056637271 53, W (-41020306135800895) (-33) (-6655925208907997) 107, W (-1923999637423082) (-48) (-5623857240635796) 161, W (-15326987913812186) (-65) (-8070601107899199) 215);
  (W 5349976198870973 (-16) 4818830163135267 53, W (-53683132708358134) (-33) (-8710586291184881) 107, W (-13900569918838112) (-49) (-8126282278485839) 162, W 27154084726474073 (-66) 5719317781414303 217);
  (W 5375870762956455 (-16) 4842153912968527 53, W (-22617365388403054) (-33) (-7339754703408720) 108, W (-59787279033447075) (-50) (-6990336495915397) 163, W 31204419729043204 (-67) 5257934322964925 220);
  (W 5401714727298929 (-16) 4865432086605035 53, W 2707244796593584 (-32) 8785511657898515 108, W 1169879970921383 (-48) 6839125971928921 162, W (-5909466851588148) (-65) (-6223394966801214) 216);
  (W 5427507848645159 (-16) 4888664464941756 53, W 171482610047571 (-31) 5564928859020974 108, W (-1352590592520087) (-48) (-7907253462425933) 162, W 4972441129072729 (-65) 5236591704896370 216);
  (W 5453249884220465 (-16) 4911850829306697 53, W (-4151781753838426) (-32) (-6736651049305461) 107, W (-1531893021938594) (-48) (-8955456639116160) 162, W 6362992110141397 (-65) 6701012809879390 216);
  (W 5478940591731002 (-16) 4934990961460965 53, W (-24065878297113363) (-33) (-7809824017498950) 108, W (-35639213669362606) (-52) (-5333685159010237) 170, W (-26013270854276044) (-68) (-7013163948694263) 224);
  (W 5504579729366048 (-16) 4958084643600824 53, W (-8331990301580766) (-33) (-5407770883530058) 109, W (-23058454035767638) (-50) (-5391994932415003) 164, W 21152944929106175 (-66) 8910660424091829 218);
  (W 5530167055800276 (-16) 4981131658359743 53, W (-47061536623798204) (-33) (-7636170899049036) 107, W (-10617111545918056) (-49) (-6206770363233629) 162, W (-1619631614440733) (-65) (-6822684679023945) 218);
  (W 5555702330196022 (-16) 5004131788810440 53, W 4709410940561677 (-32) 7641456135071232 107, W (-2064052038368292) (-48) (-6033230867222893) 161, W 12290163188567138 (-65) 6471526251842736 215);
  (W 5581185312205561 (-16) 5027084818466930 53, W 13481176324765226 (-33) 8749783685054072 109, W (-5501674387301144) (-49) (-6432564900081691) 163, W (-23484822739335397) (-66) (-4946481004218507) 217);
  (W 560661576197336 (-15) 5049990531286555 53, W (-7395641815347615) (-33) (-4800045970584779) 109, W 3968062061173119 (-49) 4639463359548121 163, W 3199595220083625 (-65) 6739134100775363 217);
  (W 5631993440138341 (-16) 5072848711672022 53, W 2383577514685483 (-32) 7735151275984803 108, W 13511793173769814 (-50) 6319202510957152 165, W 9320131158124818 (-66) 7852194967309188 219);
  (W 5657318107836132 (-16) 5095659144473433 53, W (-34096079596590466) (-33) (-5532405218054066) 107, W (-17073289744303546) (-49) (-4990528183184909) 161, W 891470899754045 (-64) 4694142170446455 215);
  (W 5682589526701316 (-16) 5118421614990306 53, W (-5093567364276925) (-32) (-8264785570084562) 107, W (-1627435635102825) (-48) (-4756999690706873) 161, W 9818315156170268 (-66) 8271914155363351 219);
  (W 5707807458869673 (-16) 5141135908973599 53, W 24568151455566208 (-33) 7972820976421517 108, W (-1284448124756035) (-48) (-7508892149590212) 162, W (-18037634376936246) (-66) (-7598338450058815) 218);
  (W 5732971666980422 (-16) 5163801812627728 53, W 851766116693064 (-32) 5528278164889757 109, W (-6444320878802677) (-49) (-7534708412684668) 163, W 22546105543273003 (-66) 4748764085926481 217);
  (W 5758081914178453 (-16) 5186419112612575 53, W (-37909495458942734) (-33) (-6151167318128396) 107, W (-2743373804685431) (-48) (-8018890614716932) 161, W 11130841524216792 (-65) 5861072145574032 215);
  (W 5783137964116556 (-16) 5208987596045498 53, W (-2623769151237283) (-32) (-8514617700931210) 108, W 13679051680738167 (-49) 7996782571413148 162, W (-31409808935335943) (-66) (-6615677919703505) 217);
  (W 5808139580957645 (-16) 5231507050503336 53, W 18585338586613408 (-33) 6031287197379932 108, W 2767384311454918 (-49) 6471258723704346 164, W 19605349619836932 (-66) 8258737189713215 218);
  (W 5833086529376983 (-16) 5253977264024408 53, W 3451660107904486 (-33) 8961021967501223 111, W 18065977478946306 (-50) 8449105812948238 165, W (-6395395803854505) (-66) (-5388110305851139) 219);
  (W 5857978574564389 (-16) 5276398025110506 53, W (-3748550196431129) (-33) (-4865896352247366) 110, W 27965403775536614 (-50) 6539437345050652 164, W (-7181693602415737) (-66) (-6050564890654538) 219);
  (W 5882815482226453 (-16) 5298769122728888 53, W (-29292166725006846) (-33) (-4752925789560358) 107, W (-23744954603693934) (-49) (-6940658006329329) 161, W (-11571631191512478) (-66) (-4874539996486144) 218);
  (W 5907597018588743 (-16) 5321090346314263 53, W (-4701358417065954) (-32) (-7628390168680570) 107, W 24808417611768356 (-49) 7251508591837652 161, W 12598907673643214 (-66) 5307279358527750 218);
  (W 5932322950397998 (-16) 5343361485770773 53, W 12892320944189053 (-33) 8367594692216948 109, W 5305836477635958 (-49) 6203590959579987 163, W 41141674699390024 (-66) 8665448091350124 217);
  (W 5956993044924334 (-16) 5365582331473973 53, W (-13438641936579467) (-33) (-8722177288784495) 109, W (-6787768790772106) (-50) (-6349014528983703) 166, W 508636508720028 (-65) 8570508217536035 220);
  (W 5981607069963423 (-16) 5387752674272799 53, W 3880188578300066 (-32) 6295965926759422 107, W (-12084165858094663) (-49) (-7064411274953418) 162, W (-4045661084343004) (-65) (-8521156802129235) 217);
  (W 600616479383869 (-15) 5409872305491543 53, W (-4639819822946193) (-32) (-7528538090890981) 107, W (-166734930037108) (-47) (-4873667464989738) 161, W 5198282437849149 (-65) 5474430362703081 216);
  (W 6030665985403482 (-16) 5431941016931809 53, W 3732335768055965 (-32) 6056061026085675 107, W 27771920866974305 (-49) 8117741563781443 161, W (-1619422964974246) (-64) (-8527257181106373) 215);
  (W 6055110414043255 (-16) 5453958600874483 53, W (-3120267249330568) (-32) (-5062923073902567) 107, W 12761267338680916 (-49) 7460245243959813 162, W (-4085936859837968) (-65) (-8605987486451295) 217);
  (W 6079497849677736 (-16) 5475924850081677 53, W 3516083236209666 (-32) 5705171231787006 107, W (-25546242776778394) (-50) (-5973740103346300) 164, W (-14085313551220675) (-66) (-5933426595796931) 218);
  (W 6103828062763095 (-16) 5497839557798690 53, W (-2256326564822917) (-32) (-7322198333974194) 108, W 1318557501122673 (-48) 7708295787222922 162, W 823166914200635 (-64) 8668959416020346 216);
  (W 6128100824294097 (-16) 5519702517755945 53, W (-42693476568409685) (-34) (-5541930106652097) 110, W 2583996588665032 (-49) 6042424392306259 164, W 1688441200562252 (-65) 7112544487152830 218);
  (W 6152315905806268 (-16) 5541513524170937 53, W 2623141776726695 (-32) 8512581754243428 108, W (-14095366621106716) (-49) (-8240160558210729) 162, W 7205869049130455 (-65) 7588665830274553 216);
  (W 617647307937804 (-15) 5563272371750168 53, W (-4747859451090245) (-32) (-7703842410206491) 107, W (-72986558263124) (-47) (-8533597952376245) 163, W (-3015232751743918) (-65) (-6350821420004836) 217);
  (W 6200572117632892 (-16) 5584978855691076 53, W (-2798341083768112) (-32) (-4540568005736910) 107, W 11649951056138923 (-49) 6810569017348767 162, W (-5453908911713521) (-65) (-5743636460441176) 216);
  (W 62246127937415 (-14) 5606632771683968 53, W 52940728606573 (-31) 6872099470811347 110, W (-4848641121594583) (-50) (-4535230040345874) 166, W 12696527641976689 (-68) 6845954161713908 225);
  (W 6248594881423863 (-16) 5628233915913940 53, W 336718460372439 (-31) 5463569387507809 107, W (-27846053391012096) (-49) (-8139410524833584) 161, W 5610271812001211 (-65) 5908305814053564 216);
  (W 6272518154951441 (-16) 5649782085062796 53, W 30763585181253225 (-33) 4991677084184053 107, W 2706893027349814 (-49) 6329805746482172 164, W (-1117224030928648) (-65) (-4706296920171157) 218);
  (W 629638238914927 (-15) 5671277076310961 53, W 41115334049626806 (-33) 6671344369483978 107, W (-19167473580230747) (-49) (-5602658804200812) 161, W 1111842402816173 (-64) 5854533570742313 215);
  (W 6320187359398091 (-16) 5692718687339392 53, W (-4016494229646361) (-32) (-6517134490911270) 107, W (-7220864364173672) (-49) (-8442644072947353) 163, W 3782892047054432 (-65) 7967700612201234 217);
  (W 6343932841636455 (-16) 5714106716331478 53, W 10420901929280035 (-33) 6763552043812531 109, W 4117455892928049 (-49) 4814134823321695 163, W (-1446415298663068) (-66) (-4874409913813385) 221);
  (W 6367618612362842 (-16) 5735440961974946 53, W 3141904871190161 (-32) 5098032122654983 107, W (-2269373841512645) (-48) (-6633387170173303) 161, W (-16023584204297392) (-65) (-8437401866493264) 215);
  (W 6391244448637757 (-16) 5756721223463751 53, W 12416796312271043 (-33) 8058961560658971 109, W (-62095419626356605) (-50) (-7260204596373573) 163, W 2776206599950661 (-65) 5847373583723549 217);
  (W 6414810128085832 (-16) 5777947300499967 53, W (-9988343011594331) (-33) (-6482805255133693) 109, W 4196923037673013 (-49) 4907047913048716 163, W 5698054379925748 (-66) 4800601318416321 219);
  (W 6438315428897915 (-16) 5799118993295673 53, W (-32084798795046886) (-33) (-5206056249695124) 107, W (-12595311907053305) (-49) (-7363227589940729) 162, W (-4020588523084152) (-65) (-8468347824445836) 217);
  (W 6461760129833164 (-16) 5820236102574833 53, W (-29756137382280815) (-33) (-4828209332879607) 107, W (-10275370077518259) (-49) (-6006988076989561) 162, W 8085247866589343 (-66) 6811807852310693 219);
  (W 6485144010221124 (-16) 5841298429575172 53, W 3987027031338683 (-33) 5175456982428321 110, W 19408388509540788 (-50) 4538462653543703 164, W (-5179842063619337) (-66) (-8728016611215052) 220);
  (W 6508466849963809 (-16) 5862305776050047 53, W 3971467071050026 (-32) 6444073748996113 107, W 29178546787002963 (-50) 6823119024662590 164, W 3814063550829358 (-66) 6426684369717668 220);
  (W 6531728429537768 (-16) 5883257944270313 53, W 8569564206002624 (-33) 5561965163229991 109, W (-6916532230507063) (-49) (-8086818543630428) 163, W 23873751224185414 (-66) 5028398904287977 217);
  (W 6554928529996153 (-16) 5904154737026182 53, W 35638734426385005 (-33) 5782715275133621 107, W 12695365790889811 (-49) 7421719155960077 162, W 4398495286541201 (-65) 4632156185190010 216);
  (W 6578066932970786 (-16) 5924995957629083 53, W 19580943058468545 (-33) 6354379320602223 108, W (-11944272256627192) (-49) (-6982629383914688) 162, W 2855640261643684 (-65) 6014680402693892 217);
  (W 6601143420674205 (-16) 5945781409913510 53, W (-13960054386823638) (-35) (-5798779723014377) 115, W 6151577793149405 (-51) 4603157000630414 169, W 53510498875626214 (-68) 7213200979097535 223);
  (W 6624157775901718 (-16) 5966510898238870 53, W (-2261550888576459) (-32) (-7339152233857623) 108, W 5017705031812686 (-49) 5866707295710201 163, W 29162532399530814 (-66) 6142346235706276 217);
  (W 6647109782033449 (-16) 5987184227491324 53, W (-3622779359803437) (-32) (-5878295590335062) 107, W (-9060793476554043) (-49) (-5296945800600359) 162, W 3091703634238017 (-65) 6511887897632246 217);
  (W 6669999223036375 (-16) 6007801203085623 53, W 35284364997428166 (-33) 5725215547860703 107, W (-10382057232458238) (-49) (-6069357457640343) 162, W 7381275655016762 (-65) 7773390546671457 216);
  (W 6692825883466361 (-16) 6028361630966943 53, W (-5459265241744791) (-32) (-8858164301443705) 107, W (-2518101470969515) (-48) (-7360418845574603) 161, W (-1686787599943717) (-64) (-8881973385408914) 215);
  (W 6715589548470184 (-16) 6048865317612704 53, W (-4048903774929669) (-32) (-6569721984711602) 107, W 3199583562535568 (-49) 7481914584676442 164, W (-14044414655670971) (-66) (-5916197970128722) 218);
  (W 673829000378756 (-15) 6069312070034399 53, W 23091901236161086 (-33) 7493750390382232 108, W 5742803719288132 (-49) 6714493630887683 163, W 11240668354625932 (-66) 4735122177247548 218);
  (W 6760927035753159 (-16) 6089701695779408 53, W 37256902248049466 (-33) 6045278015665200 107, W 17059417895764375 (-49) 4986473437314348 161, W 9732634779530067 (-65) 5124830363027071 215);
  (W 6783500431298615 (-16) 6110034002932808 53, W 18302093041863122 (-33) 5939368762867376 108, W 9524167574681307 (-49) 5567834601844250 162, W 5032810111613354 (-65) 5300167663866894 216);
  (W 680600997795453 (-15) 6130308800119180 53, W 28473293354522047 (-33) 4620055988650794 107, W 413318059772709 (-48) 4832520168769970 163, W 4257903051074859 (-65) 8968190560224702 217);
  (W 6828455463852481 (-16) 6150525896504412 53, W (-12958058061524531) (-33) (-8410260520695715) 109, W 18292386959330698 (-50) 8554993117360727 165, W 34536209116044084 (-67) 5819339724088189 220);
  (W 6850836677727004 (-16) 6170685101797492 53, W 25948135194645137 (-33) 8420651303499559 108, W (-850307431295007) (-48) (-4970902812289148) 162, W (-6957208614100993) (-65) (-7326795827672023) 216);
  (W 6873153408917592 (-16) 6190786226252304 53, W (-5515615871491717) (-32) (-8949598425759774) 107, W 11896489854266829 (-49) 6954695760200578 162, W (-785058962182207) (-65) (-6614108672187791) 219);
  (W 6895405447370669 (-16) 6210829080669407 53, W (-1588932329480679) (-32) (-5156380214241847) 108, W 9124235624020571 (-49) 5334034121559607 162, W 3831545415226764 (-65) 8070176566193680 217);
  (W 6917592583641577 (-16) 6230813476397823 53, W 27406078472410668 (-33) 8893780947316055 108, W 13286508943202092 (-49) 7767301829960617 162, W 10651869129579751 (-67) 7179345590973460 222);
  (W 693971460889654 (-15) 6250739225336809 53, W 7434507695628014 (-33) 4825271369095292 109, W 7506152838819746 (-49) 8776203731192851 163, W (-15928000240686557) (-66) (-6709656828176127) 218);
  (W 696177131491463 (-15) 6270606139937627 53, W (-4122408121358289) (-32) (-6688989605664720) 107, W (-31838716762083296) (-51) (-5956139094822349) 167, W 13829706789724612 (-67) 4660601968416333 221);
  (W 6983762494089728 (-16) 6290414033205309 53, W 4898828243566777 (-32) 7948803281116707 107, W 19134010413244152 (-49) 5592877509532575 161, W 26161153243794036 (-66) 5510182001592517 217);
  (W 7005687939432483 (-16) 6310162718700422 53, W 3102796019299292 (-32) 5034574382400651 107, W 9563825050918 (-46) 5591018388425185 162, W 45896916138107285 (-67) 7733615070437862 220);
  (W 7027547444572253 (-16) 6329852010540816 53, W 2527829438362982 (-33) 6562620425861985 111, W (-8698556121067495) (-50) (-8136290568547131) 166, W 5001072609587458 (-66) 8426790677064109 220);
  (W 7049340803759049 (-16) 6349481723403377 53, W 27608725585748502 (-33) 8959543695439504 108, W 29816599471629137 (-50) 6972321431588115 164, W 11533044185111213 (-66) 4858285252195158 218);
  (W 7071067811865476 (-16) 6369051672525773 53, W (-4833646656726457) (-32) (-7843040109683798) 107, W 20693376543497068 (-49) 6048680740045173 161, W 2467773495734176 (-65) 5197737643093850 217) ]%Z.
Definition rows_c : list row := [
  (W 9999952938095762 (-16) 9007156865146114 53, W (-1966806428532219) (-32) (-6382651775133715) 108, W (-6305395509588348) (-49) (-7372276689025835) 163, W 5326611085572218 (-67) 7180257539184019 223);
  (W 9999811752826011 (-16) 9007029696760466 53, W 33568103522895585 (-33) 5446736202153207 107, W (-14740132559368063) (-51) (-5514938334717690) 168, W 9860309759475735 (-67) 6645835630926269 222);
  (W 9999576445519639 (-16) 9006817750781007 53, W (-3152783686664729) (-32) (-5115684009971601) 107, W 26363251186638437 (-49) 7705986954927589 161, W 10007504815488404 (-65) 5269566330016027 215);
  (W 9999247018391445 (-16) 9006521029202651 53, W 3793108251266801 (-32) 6154670017854733 107, W (-8509991866050148) (-50) (-7959914909379173) 166, W (-49956973223295165) (-67) (-8417733335951939) 220);
  (W 9998823474542126 (-16) 9006139534818257 53, W (-3547781487240854) (-32) (-5756604584677720) 107, W 17102001035303974 (-49) 4998920502946311 161, W (-10725388519026538) (-65) (-5647576219871587) 215);
  (W 9998305817958234 (-16) 9005673271218593 53, W 1882514051755112 (-32) 6109107373172336 108, W (-5138351345761694) (-49) (-6007767124009731) 163, W (-38378827995403777) (-66) (-8083524655498701) 217);
  (W 9997694053512153 (-16) 9005122242792311 53, W 4268117703228901 (-32) 6925416919478846 107, W 190623023597371 (-47) 5571917222010501 161, W (-6022115326288111) (-65) (-6342027657037420) 216);
  (W 9996988186962042 (-16) 9004486454725901 53, W (-2985148640379975) (-32) (-4843680596157643) 107, W (-19084787370733737) (-49) (-5578489598087899) 161, W 5598026034402892 (-66) 4716327604025711 219);
  (W 9996188224951786 (-16) 9003765913003641 53, W (-41181965521424734) (-33) (-6682155943911976) 107, W 20915365593699916 (-49) 6113568212113372 161, W 81403390920903705 (-66) 8572777647471791 216);
  (W 9995294175010931 (-16) 9002960624407544 53, W 2051791782375559 (-32) 6658445016247619 108, W (-4767380258570652) (-49) (-5574027242944025) 163, W (-29443604198656734) (-66) (-6201546866284986) 217);
  (W 9994306045554617 (-16) 9002070596517294 53, W 396444977522578 (-31) 6432687535538725 107, W (-2375722371672243) (-49) (-5555395417668222) 164, W (-12856759011361572) (-67) (-8665438431467909) 222);
  (W 9993223845883495 (-16) 9001095837710173 53, W (-4285853844084568) (-32) (-6954195453368662) 107, W 33235101605146565 (-50) 7771704866044900 164, W (-8355427237705765) (-66) (-7039433522181413) 219);
  (W 9992047586183639 (-16) 9000036357160980 53, W 917963171103857 (-32) 5957921611966531 109, W 5541620818586857 (-49) 6479270319865368 163, W 8026704671761995 (-67) 5409988246591807 222);
  (W 9990777277526454 (-16) 8998892164841951 53, W 21419007653587032 (-33) 6950865384540836 108, W (-7904820331852962) (-49) (-4621163143123886) 162, W (-5316629618111275) (-65) (-5599064490362244) 216);
  (W 9989412931868569 (-16) 8997663271522660 53, W (-2061064191005864) (-32) (-6688535702623983) 108, W (-12546525485913485) (-49) (-7334707016190584) 162, W (-7517588880615705) (-65) (-7916945128397035) 216);
  (W 9987954562051724 (-16) 8996349688769918 53, W (-12291693337075465) (-33) (-7977765087521301) 109, W 2446844678649127 (-49) 5721708006624170 164, W 10723891085210282 (-66) 4517430183150022 218);
  (W 9986402181802653 (-16) 8994951428947667 53, W (-486902543129233) (-31) (-7900445453445422) 107, W (-29470881967909147) (-50) (-6891478759949600) 164, W (-13000650761346857) (-66) (-5476513299440041) 218);
  (W 9984755805732948 (-16) 8993468505216860 53, W (-22002931182778795) (-33) (-7140359403681271) 108, W (-12371509454944992) (-49) (-7232392529862741) 162, W (-24911225131232046) (-66) (-5246916413682802) 217);
  (W 9983015449338929 (-16) 8991900931535341 53, W (-5186940270279228) (-32) (-8416291772118320) 107, W 10480195493633452 (-49) 6126729149397296 162, W (-28995649143155554) (-66) (-6107196519366296) 217);
  (W 9981181129001492 (-16) 8990248722657709 53, W 2793548755811383 (-32) 4532792009051038 107, W 24423341255830345 (-49) 7138950646897488 161, W (-6764669917533444) (-65) (-7124028913967967) 216);
  (W 997925286198596 (-15) 8988511894135185 53, W 17143659778886362 (-33) 5563435675856346 108, W 5788584090288746 (-49) 6768020100627694 163, W (-9260143260389495) (-66) (-7801655263446101) 219);
  (W 9977230666441916 (-16) 8986690462315460 53, W (-2639447527489872) (-32) (-8565496940783238) 108, W (-16176223087661783) (-50) (-7565304489103248) 165, W (-9992494288936241) (-66) (-8418659784422763) 219);
  (W 9975114561403035 (-16) 8984784444342543 53, W 5600720591980694 (-33) 7270150983818169 110, W (-5947767351468569) (-50) (-5563309902486145) 166, W (-14166807162473617) (-70) (-4888785478964434) 231);
  (W 9972904566786902 (-16) 8982793858156602 53, W 9164769537110173 (-33) 5948275509591605 109, W 678241343097393 (-48) 7930006667538804 163, W (-8619139279553858) (-67) (-5809288382337880) 222);
  (W 997060070339483 (-15) 8980718722493792 53, W 16734093546241963 (-33) 5430523834411255 108, W (-13169951440780028) (-49) (-7699162237707398) 162, W 10311048767952451 (-66) 8687041402074606 219);
  (W 9968202992911657 (-16) 8978559056886080 53, W 47062820708615655 (-33) 7636379253722903 107, W 28412041076474937 (-49) 8304848910636198 161, W (-8000615567026358) (-65) (-8425631601226789) 216);
  (W 9965711457905548 (-16) 8976314881661062 53, W 11707179088390986 (-33) 7598393650369643 109, W (-7593441326302466) (-49) (-8878261545093758) 163, W 28474848436925975 (-66) 5997503087615016 217);
  (W 996312612182778 (-15) 8973986217941769 53, W 11336497891624735 (-33) 7357807798683726 109, W 3400245867441436 (-49) 7951143844149272 164, W 7741907592154426 (-67) 5218035394662299 222);
  (W 996044700901252 (-15) 8971573087646471 53, W 22870031707670695 (-33) 7421749611895653 108, W (-3918483940501315) (-49) (-4581496555918016) 163, W (-37081260416246323) (-66) (-7810225024786914) 217);
  (W 9957674144676598 (-16) 8969075513488470 53, W (-2315190832309436) (-32) (-7513223803443073) 108, W (-16306512931944591) (-50) (-7626238511742260) 165, W (-1592542078386364) (-66) (-5366856187311201) 221);
  (W 9954807554919269 (-16) 8966493518975884 53, W 32084621412226554 (-34) 8329643948299160 111, W (-4950129214601302) (-51) (-7408252878990684) 170, W (-27811428850873264) (-68) (-7497946385567978) 224);
  (W 9951847266721969 (-16) 8963827128411430 53, W (-4248691367830441) (-32) (-6893895888146887) 107, W 13315510772504614 (-49) 7784256318365108 162, W 6792798741705191 (-65) 7153652023322653 216);
  (W 9948793307948056 (-16) 8961076366892190 53, W 4213081328494366 (-33) 5468892236673259 110, W (-4206259748828845) (-50) (-7868743052739110) 167, W 25157064556087756 (-67) 8477913984177395 221);
  (W 9945645707342554 (-16) 8958241260309380 53, W 3674506964152806 (-32) 5962228427073425 107, W (-3060330410547101) (-48) (-8945355811576285) 161, W 10397872280487526 (-65) 5475118791675541 215);
  (W 9942404494531879 (-16) 8955321835348103 53, W 44129423472462673 (-33) 7160408339531907 107, W (-30107231708238066) (-49) (-8800353687418162) 161, W 7420158290686193 (-65) 7814338741356071 216);
  (W 9939069700023561 (-16) 8952318119487099 53, W (-18964849471123746) (-33) (-6154445520718857) 108, W (-15980853777937752) (-51) (-5979147254374853) 168, W (-8537480715059655) (-67) (-5754250618745885) 222);
  (W 9935641355205953 (-16) 8949230140998484 53, W 2975230992779743 (-32) 4827588292883036 107, W (-4506670733113423) (-49) (-5269205324285223) 163, W (-3354819163380503) (-65) (-7066073884583851) 217);
  (W 9932119492347945 (-16) 8946057928947489 53, W 3309690626127226 (-32) 5370280075238301 107, W 15592811973249567 (-49) 4557784045899430 161, W 14373977733253573 (-66) 6055026141926987 218);
  (W 9928504144598651 (-16) 8942801513192182 53, W (-14094517733693302) (-33) (-4573932509451197) 108, W (-11954558131616916) (-49) (-6988642513170233) 162, W 18761873742867948 (-66) 7903423679430216 218);
  (W 99247953459871 (-14) 8939460924383187 53, W 31093055095428906 (-33) 5045136634195182 107, W (-1837959475781802) (-48) (-5372361566405903) 161, W (-39885758559381824) (-67) (-6720737022123632) 220);
  (W 9920993131421918 (-16) 8936036193963400 53, W (-3943192614958878) (-32) (-6398195821015223) 107, W (-6275806291104723) (-49) (-7337680936016907) 163, W (-1296092955921242) (-65) (-5459780776141611) 218);
  (W 9917097536690995 (-16) 8932527354167686 53, W (-2337289131188366) (-33) (-6067949506678475) 111, W 2707329882496859 (-50) 5064661831761972 167, W (-12569459441802728) (-67) (-8471798904647865) 222);
  (W 9913108598461154 (-16) 8928934438022583 53, W (-25192111583372105) (-33) (-8175307614637614) 108, W (-12852471567380887) (-49) (-7513563295790417) 162, W 5238521258431044 (-65) 5516806786798273 216);
  (W 99090263542778 (-14) 8925257479345985 53, W 15394565094566704 (-33) 4995821998689288 108, W (-10799984133184567) (-49) (-6313677797518807) 162, W 2745111596013394 (-66) 4625503888993617 220);
  (W 9904850842564571 (-16) 8921496512746829 53, W (-55411437553780867) (-33) (-8991019785543599) 107, W (-14614017210753585) (-49) (-8543364032599344) 162, W (-38339374397387644) (-66) (-8075214757855403) 217);
  (W 9900582102622971 (-16) 8917651573624763 53, W (-17055485906233963) (-33) (-5534821618232727) 108, W 13454939685758777 (-49) 7865766552369999 162, W 7311758913730006 (-65) 7700180873329073 216);
  (W 9896220174632009 (-16) 8913722698169820 53, W (-5239821796813253) (-32) (-8502096954648678) 107, W 1346318921145622 (-48) 7870589230495605 162, W 5802164055489491 (-65) 6110391933205279 216);
  (W 989176509964781 (-15) 8909709923362071 53, W (-4098730993704711) (-32) (-6650571269560095) 107, W (-4485756055204844) (-49) (-5244751855479113) 163, W (-3941450450287111) (-65) (-8301663588356046) 217);
  (W 9887216919603238 (-16) 8905613286971281 53, W (-10976227206656125) (-33) (-7123978755460638) 109, W 32311342577653764 (-50) 7555692813056111 164, W 9636794658357516 (-66) 8118983438487525 219);
  (W 9882575677307495 (-16) 8901432827556552 53, W 2703060778437263 (-32) 8771933742692817 108, W 7751486648860138 (-50) 7250438674596944 166, W 21019644956865235 (-67) 7083606337494108 221);
  (W 9877841416445722 (-16) 8897168584465961 53, W (-2360069339715902) (-32) (-7658862886582027) 108, W (-1232328376970786) (-48) (-7204199762688552) 162, W 3013090071680331 (-65) 6346308409048658 217);
  (W 9873014181578584 (-16) 8892820597836187 53, W (-5233226125571565) (-32) (-8491394866189883) 107, W (-27937644333152473) (-49) (-8166182587214152) 161, W 12074160567958412 (-65) 6357787596929142 215);
  (W 9868094018141855 (-16) 8888388908592136 53, W (-50287214351061075) (-33) (-8159567034358810) 107, W (-2268152623814446) (-48) (-6629817546842393) 161, W 44003694320169095 (-66) 4634129890739681 216);
  (W 9863080972445987 (-16) 8883873558446555 53, W (-2152087710301334) (-32) (-6983923910930642) 108, W 11866528054187716 (-49) 6937180072251376 162, W (-7853219919981384) (-65) (-8270405867504028) 216);
  (W 9857975091675675 (-16) 8879274589899640 53, W (-5143945297995301) (-32) (-8346528441017500) 107, W 26276439309996725 (-49) 7680611814957263 161, W 7542355278328632 (-65) 7943027189392267 216);
  (W 9852776423889412 (-16) 8874592046238633 53, W 23155637027900207 (-33) 7514433837333686 108, W (-7527597154576483) (-49) (-8801276453264781) 163, W 10582231660456088 (-66) 8915512537041534 219);
  (W 9847485018019042 (-16) 8869825971537420 53, W 10548144061829957 (-33) 6846136909451560 109, W 28786145266267306 (-50) 6731359750255182 164, W (-36782210081466076) (-67) (-6197790138101600) 220);
  (W 984210092386929 (-15) 8864976410656110 53, W 4798392262705069 (-32) 7785836584894173 107, W 22597419645070588 (-50) 5284186529715868 164, W 17573875814863422 (-66) 7402980542247599 218);
  (W 9836624192117303 (-16) 8860043409240618 53, W 19864948201635255 (-33) 6446544258894238 108, W (-10743046281211033) (-51) (-8038901621714735) 169, W 1797566279655703 (-67) 4846229103018615 224);
  (W 9831054874312163 (-16) 8855027013722231 53, W 4217000752288863 (-32) 6842474924546396 107, W 823962656564409 (-48) 4816891086673617 162, W (-8080370013909653) (-65) (-8509622836947169) 216);
  (W 9825393022874412 (-16) 8849927271317175 53, W 15149580813777224 (-33) 4916320054218436 108, W (-4180277142218624) (-49) (-4887585510279573) 163, W (-221501743262262) (-64) (-4665371238305841) 217);
  (W 9819638691095552 (-16) 8844744230026167 53, W 21108443711513084 (-33) 6850081623240539 108, W (-15253013442896054) (-49) (-8916921648409142) 162, W (-6838808207933793) (-65) (-7202105646592465) 216);
  (W 9813791933137546 (-16) 8839477938633966 53, W 13428163260355633 (-33) 8715376239079668 109, W (-6529429046996299) (-49) (-7634216994416838) 163, W 2796541228745605 (-66) 4712162648716839 220);
  (W 9807852804032304 (-16) 8834128446708912 53, W 18546939997825006 (-33) 6018826142883795 108, W (-10696564445530757) (-49) (-6253218580383489) 162, W 6666817447526491 (-65) 7020978235349358 216);
  (W 9801821359681174 (-16) 8828695804602461 53, W (-3680178696385616) (-32) (-5971431338778072) 107, W 6324517138799284 (-49) 7394633722946009 163, W 18600176137175948 (-66) 7835308697779243 218);
  (W 9795697656854405 (-16) 8823180063448708 53, W 1557399158499042 (-32) 5054049223849600 108, W (-1340106602978299) (-48) (-7834271977802953) 162, W (-1726370219986218) (-65) (-7272320165403993) 218);
  (W 9789481753190622 (-16) 8817581275163911 53, W (-23817727961148053) (-34) (-6183435703505308) 111, W (-10694750370381661) (-50) (-5001726456690585) 165, W (-8229304719608728) (-66) (-6933175510886949) 219);
  (W 9783173707196277 (-16) 8811899492445997 53, W (-21623082233344895) (-33) (-7017091372002309) 108, W 10970403012028032 (-49) 6413304785703535 162, W 7709192309936935 (-65) 8118727090730766 216);
  (W 9776773578245099 (-16) 8806134768774068 53, W 5051413616705963 (-32) 8196387204119507 107, W (-13254751701428788) (-49) (-7748736525621098) 162, W 701612543121245 (-64) 7388842477950271 216);
  (W 9770281426577544 (-16) 8800287158407901 53, W (-43353875751555997) (-33) (-7034568527191045) 107, W 5494883983153548 (-49) 6424625550657811 163, W (-9275526310537764) (-66) (-7814615457557833) 219);
  (W 9763697313300211 (-16) 8794356716387429 53, W 9309393152621378 (-33) 6042141602652702 109, W (-41184949155685665) (-50) (-4815349649953967) 163, W (-3191392603139366) (-65) (-6721857373013778) 217);
  (W 9757021300385286 (-16) 8788343498532233 53, W (-25572556081259686) (-33) (-8298768912839398) 108, W (-9317424450894222) (-49) (-5446972436275558) 162, W (-8367586321164737) (-66) (-7049677529730642) 219);
  (W 9750253450669941 (-16) 8782247561441008 53, W 26642660651899135 (-33) 8646037700366584 108, W 17819392739353853 (-50) 8333782932738579 165, W (-3315962538564879) (-66) (-5587385824373662) 220);
  (W 9743393827855759 (-16) 8776068962491037 53, W 23041221476151512 (-34) 5981843094371335 111, W 1075868600503143 (-49) 5031627907802402 165, W 5107411643280983 (-66) 8605971594377469 220);
  (W 973644249650812 (-15) 8769807759837646 53, W (-5172980869100587) (-32) (-8393641348716169) 107, W (-15508473005989887) (-49) (-4533131738151266) 161, W (-16505125917675405) (-65) (-8690963173342474) 215);
  (W 9729399522055602 (-16) 8763464012413658 53, W (-313112111222818) (-31) (-5080534473348267) 107, W (-2687408778900614) (-48) (-7855304661081380) 161, W (-21652434818822018) (-67) (-7296856099117464) 221);
  (W 9722264970789363 (-16) 8757037779928840 53, W 3646116978593822 (-32) 5916163041813500 107, W 30309636883883133 (-49) 8859516786540065 161, W (-12702716907967761) (-67) (-8561614259168088) 222);
  (W 9715038909862518 (-16) 8750529122869341 53, W (-7986542112228905) (-33) (-5183562189985281) 109, W (-4362841721126338) (-49) (-5101040255073374) 163, W 34307517798758936 (-67) 5780805313355389 220);
  (W 9707721407289504 (-16) 8743938102497119 53, W (-4799216332511492) (-32) (-7787173714602643) 107, W 30347528910975783 (-49) 8870592638467604 161, W 859891995064797 (-64) 4527859829386072 215);
  (W 970031253194544 (-15) 8737264780849367 53, W 18365300348428844 (-33) 5959880706574729 108, W (-14311097571944918) (-49) (-8366277013359923) 162, W 8584678199874089 (-66) 7232577075726756 219);
  (W 9692812353565485 (-16) 8730509220737932 53, W (-45663660261927896) (-33) (-7409352491475308) 107, W 9614752691723939 (-49) 5620790720594497 162, W 8126760520787177 (-66) 6846782194285239 219);
  (W 9685220942744173 (-16) 8723671485748716 53, W 4947507491824477 (-32) 8027789877305549 107, W 2855873835191124 (-48) 8347728572284626 161, W 6294842231650748 (-65) 6629242611071550 216);
  (W 9677538370934755 (-16) 8716751640241088 53, W (-4551213282551582) (-32) (-7384765759223300) 107, W (-14127617988719093) (-49) (-8259014728839389) 162, W (-8462060908970456) (-65) (-8911590265625928) 216);
  (W 9669764710448521 (-16) 8709749749347266 53, W 38496228837337864 (-33) 6246370251798351 107, W (-5388163154274565) (-49) (-6299847417742655) 163, W (-3522186317145893) (-65) (-7418590254845391) 217);
  (W 9661900034454125 (-16) 8702665878971716 53, W 5129884040166549 (-32) 8323712745751476 107, W 14564075904769808 (-50) 6811334649930440 165, W 10095973971377442 (-66) 8505841244414902 219);
  (W 9653944416976894 (-16) 8695500095790524 53, W (-23745389918392156) (-33) (-7705819592372010) 108, W 5922151559005386 (-49) 6924187360006505 163, W (-38811192556231103) (-66) (-8174591260972691) 217);
  (W 9645897932898128 (-16) 8688252467250769 53, W (-34189470735959786) (-33) (-5547558796790388) 107, W 22982074155463522 (-49) 6717667801494033 161, W (-4512879104560768) (-65) (-4752616405244408) 216);
  (W 9637760657954398 (-16) 8680923061569891 53, W 2646395056122003 (-32) 8588042960215234 108, W (-29073234590199323) (-52) (-8702070775005543) 171, W (-12938328629395878) (-68) (-6976332996211622) 225);
  (W 9629532668736839 (-16) 8673511947735049 53, W 8934196040431363 (-33) 5798624754283258 109, W (-39071244661020126) (-50) (-4568215043570977) 163, W 16212091116847368 (-66) 6829329873018620 218);
  (W 9621214042690416 (-16) 8666019195502468 53, W 15236770453846305 (-33) 4944614710107653 108, W (-13050173525597142) (-49) (-7629139990045050) 162, W 79016122394092685 (-66) 8321368928085102 216);
  (W 9612804858113206 (-16) 8658444875396786 53, W 2093395521667404 (-33) 5434765495412269 111, W 10768607469015692 (-50) 5036267983276872 165, W (-5945363930436221) (-66) (-5008959202542551) 219);
  (W 9604305194155658 (-16) 8650789058710388 53, W 24653904815317185 (-33) 8000649532699255 108, W (-13792169410906322) (-49) (-8062911270553914) 162, W (-4772659837850652) (-66) (-8041915918056587) 220);
  (W 9595715130819845 (-16) 8643051817502737 53, W 11000640085000957 (-33) 7139823619402846 109, W (-42036030828223975) (-50) (-4914858230587332) 163, W 4002370484260642 (-66) 6743980924865299 220);
  (W 9587034748958716 (-16) 8635233224599694 53, W (-43685014392372053) (-33) (-7088298843580067) 107, W 2200180066272913 (-48) 6431133538561354 161, W (-10553721324358075) (-65) (-5557182891497346) 215);
  (W 9578264130275329 (-16) 8627333353592832 53, W (-17696710075371263) (-33) (-5742910758171990) 108, W 1916403411038219 (-49) 8962645513660430 165, W 8148923507175447 (-66) 6865454473379381 219);
  (W 9569403357322088 (-16) 8619352278838746 53, W 405538698618757 (-31) 6580241596413982 107, W (-1714701336430215) (-48) (-5012077621452493) 161, W 2573674529532947 (-65) 5420791254282208 217);
  (W 9560452513499964 (-16) 8611290075458352 53, W 3770504527958907 (-32) 6117993379878867 107, W 1967869999734757 (-48) 5752090453333422 161, W 8509317773123018 (-65) 8961357552235688 216);
  (W 9551411683057707 (-16) 8603146819336178 53, W 5008865295501467 (-32) 8127348605830121 107, W (-2698318183805921) (-48) (-7887192887344204) 161, W 10102323575596497 (-65) 5319494234616799 215);
  (W 9542280951091057 (-16) 8594922587119653 53, W (-37545901690626874) (-33) (-6092170856221856) 107, W 14951619241257764 (-49) 8740726400738582 162, W (-8271733315139502) (-65) (-8711151914884927) 216);
  (W 9533060403541939 (-16) 8586617456218381 53, W (-25190738779919934) (-33) (-8174862114446858) 108, W (-14272239821134379) (-49) (-8343560746786883) 162, W (-4671728680928317) (-65) (-4919904534422869) 216);
  (W 9523750127197659 (-16) 8578231504803418 53, W (-20269300462299272) (-33) (-6577764069693440) 108, W (-10635956887246246) (-49) (-6217787362116513) 162, W (-35514537666487615) (-66) (-7480234698414208) 217);
  (W 9514350209690083 (-16) 8569764811806532 53, W 31350584123266695 (-33) 5086923108014672 107, W (-24824833452737813) (-49) (-7256306947528657) 161, W 9545033552538072 (-66) 8041674859768432 219);
  (W 9504860739494817 (-16) 8561217456919463 53, W 19410097562630436 (-33) 6298936787393783 108, W (-8155939394981679) (-49) (-4767967511894935) 162, W (-10501209720164549) (-66) (-8847251687381254) 219);
  (W 9495281805930367 (-16) 8552589520593170 53, W (-755441519280433) (-32) (-4903095784208212) 109, W (-51260245024046686) (-50) (-5993354562610200) 163, W 18093643389040408 (-66) 7621932199733940 218);
  (W 9485613499157303 (-16) 8543881084037075 53, W 20668262262333232 (-33) 6707234576005423 108, W (-5944073024366731) (-49) (-6949817966021143) 163, W 14268853111554324 (-66) 6010742482639235 218);
  (W 9475855910177411 (-16) 8535092229218300 53, W 4341799385212599 (-32) 7044972283821195 107, W (-27728667889840373) (-50) (-6484078963521046) 164, W 5570916019652006 (-66) 4693487461781038 219);
  (W 9466009130832835 (-16) 8526223038860894 53, W 3505680021068073 (-32) 5688291050131270 107, W 9857853694031812 (-49) 5762907725758393 162, W 66035911064585235 (-66) 6954393126632503 216);
  (W 9456073253805213 (-16) 8517273596445054 53, W 4601910247852374 (-32) 7467026288494722 107, W (-6253438476945206) (-49) (-7311528458402789) 163, W 15758941215779988 (-66) 6638440854815477 218);
  (W 9446048372614803 (-16) 8508243986206341 53, W 8810054547664117 (-33) 5718052318919608 109, W 5229169560275784 (-49) 6113951899379181 163, W (-33487256018407157) (-66) (-7053239345980283) 217);
  (W 9435934581619604 (-16) 8499134293134885 53, W (-24093127844404214) (-33) (-7818667001173624) 108, W 1028327985680394 (-49) 4809289711312272 165, W (-23398232614530868) (-67) (-7885188792416711) 221);
  (W 9425731976014469 (-16) 8489944602974586 53, W 13235564806436886 (-33) 8590372695674546 109, W (-5704826288538691) (-50) (-5336072295288112) 166, W 3994705044275339 (-66) 6731064684041298 220);
  (W 9415440651830208 (-16) 8480675002222309 53, W (-2789637954769834) (-32) (-4526446371562791) 107, W 162732363567339 (-47) 4756672316007874 161, W (-53075944708470906) (-67) (-8943278991556324) 220);
  (W 9405060705932683 (-16) 8471325578127065 53, W 2861042156711627 (-32) 4642306313259215 107, W 29261501147538827 (-49) 8553146367577618 161, W (-268498676908969) (-64) (-5655242195051809) 217);
  (W 9394592236021899 (-16) 8461896418689196 53, W (-7015286794309865) (-33) (-4553181447976997) 109, W (-5639569381801121) (-49) (-6593791908274853) 163, W 355681426789876 (-64) 7491525231836798 217);
  (W 9384035340631081 (-16) 8452387612659540 53, W 5424254504479549 (-32) 8801356132344547 107, W (-1903996660785976) (-48) (-5565388474422551) 161, W (-15627792988341221) (-65) (-8228993466620118) 215);
  (W 937339011912575 (-15) 8442799249538603 53, W (-36570926284362776) (-33) (-5933972051875175) 107, W (-11902940071273247) (-49) (-6958466561286986) 162, W (-11215082331583266) (-66) (-4724344086362317) 218);
  (W 9362656671702783 (-16) 8433131419575708 53, W (-13013766145497654) (-33) (-8446417134371795) 109, W 52229870061990595 (-50) 6106723249054365 163, W (-33972777075633675) (-67) (-5724401613088011) 220);
  (W 9351835099389476 (-16) 8423384213768154 53, W (-32609395302485065) (-33) (-5291176899619174) 107, W (-8181301521887525) (-49) (-4782794227894570) 162, W 5564214002492817 (-65) 5859801279367935 216);
  (W 9340925504042589 (-16) 8413557723860353 53, W 4466282436076751 (-32) 7246957581928310 107, W (-25903243047396916) (-49) (-7571526425190184) 161, W 8150520900434308 (-65) 8583500343172092 216);
  (W 9329927988347388 (-16) 8403652042342972 53, W 42041415555384355 (-33) 6821609684893107 107, W 9028589649552128 (-49) 5278119422243711 162, W 5301998497766128 (-65) 5583656122229985 216);
  (W 9318842655816681 (-16) 8393667262452058 53, W (-40785944377318095) (-33) (-6617897839460155) 107, W 1763145029875417 (-48) 5153678696029531 161, W 257764033055074 (-64) 5429144206151914 217);
  (W 9307669610789837 (-16) 8383603478168160 53, W 1970377510283833 (-32) 6394240597984013 108, W 65657908718278205 (-50) 7676731287638925 163, W (-19480347966259367) (-67) (-6564864277848612) 221);
  (W 9296408958431812 (-16) 8373460784215450 53, W 5128253001686411 (-32) 8321066234508797 107, W 2371973989191626 (-49) 5546630190255800 164, W (-17230065426917108) (-66) (-7258150702831271) 218);
  (W 9285060804732156 (-16) 8363239276060827 53, W (-23306639848485943) (-33) (-7563437054268512) 108, W (-777990843332085) (-48) (-4548139565433169) 162, W (-5859755800930029) (-65) (-6171043120140631) 216);
  (W 9273625256504011 (-16) 8352939049913017 53, W (-27677111692155437) (-33) (-8981736255781014) 108, W 22110293450199576 (-50) 5170276812693347 164, W 20349190819680565 (-66) 8572079675285304 218);
  (W 9262102421383114 (-16) 8342560202721672 53, W (-37303754586099054) (-33) (-6052880242154884) 107, W 20464457809993405 (-49) 5981767719278909 161, W 13831799631231817 (-65) 7283292585326634 215);
  (W 9250492407826776 (-16) 8332102832176454 53, W 6052944741257616 (-33) 7857171491229206 110, W (-8825651776027854) (-50) (-8255170893553344) 166, W 182854621223887 (-65) 6162188545047531 221);
  (W 9238795325112867 (-16) 8321567036706118 53, W 17645047084336677 (-33) 5726145159043778 108, W (-5044253732158682) (-49) (-5897748070929945) 163, W (-4047867771682387) (-65) (-8525804628143364) 217);
  (W 9227011283338785 (-16) 8310952915477583 53, W 52963798918539814 (-33) 8593867710650143 107, W (-57135699628876685) (-50) (-6680313484611995) 163, W 3016367179721905 (-65) 6353210804206730 217);
  (W 9215140393420419 (-16) 8300260568395001 53, W 41639843390684644 (-33) 6756450875854190 107, W 11891485604702356 (-49) 6951770272627742 162, W 20862437594380324 (-66) 8788284451425813 218);
  (W 9203182767091106 (-16) 8289490096098815 53, W (-2780688877903684) (-32) (-4511925664156885) 107, W 27011013677071274 (-49) 7895328143001416 161, W 11998578792455505 (-65) 6317989146996194 215);
  (W 9191138516900578 (-16) 8278641599964811 53, W (-26496484622344718) (-33) (-8598600866676053) 108, W 6540360476346192 (-49) 7646998035931427 163, W (-2899718020118612) (-65) (-6107518997826049) 217);
  (W 9179007756213905 (-16) 8267715182103167 53, W (-39074579680849515) (-33) (-6340213041420117) 107, W 23004636541490264 (-49) 6724262794318068 161, W 39851762744443107 (-66) 8393760923297867 217);
  (W 9166790599210427 (-16) 8256710945357489 53, W (-4173397869828757) (-32) (-6771725202789936) 107, W 12094444804381172 (-49) 7070420353684526 162, W 493569168260978 (-64) 5197890020650729 216);
  (W 9154487160882678 (-16) 8245628993303844 53, W (-13591056692900894) (-33) (-8821100121339757) 109, W 59923027475594735 (-50) 7006208221552511 163, W 2140329592596286 (-65) 4508060286446885 217);
  (W 9142097557035307 (-16) 8234469430249786 53, W (-3631618252781442) (-32) (-5892637514160882) 107, W (-19438819777122554) (-49) (-5681973386408990) 161, W 2834067928772836 (-65) 5969243766468573 217);
  (W 9129621904283982 (-16) 8223232361233372 53, W (-4793250522803947) (-32) (-7777493634914173) 107, W (-1775355188942864) (-48) (-5189369030967820) 161, W 4060778290386794 (-66) 6842397883496945 220);
  (W 9117060320054299 (-16) 8211917892022175 53, W (-2691327317503413) (-32) (-8733856484976210) 108, W (-5192810191616253) (-50) (-4857152382333282) 166, W 11338175936090927 (-67) 7641915463494554 222);
  (W 9104412922580672 (-16) 8200526129112289 53, W (-5043304167331382) (-32) (-8183228870209481) 107, W 10938746257404305 (-49) 6394798226217471 162, W 9537827208417024 (-66) 8035603526856914 219);
  (W 9091679830905224 (-16) 8189057179727324 53, W (-36878564091359894) (-34) (-4787111311971082) 110, W 29951330310507693 (-50) 7003826926247311 164, W (-12225666136919918) (-66) (-5150051672214853) 218);
  (W 9078861164876663 (-16) 8177511151817401 53, W (-4945996430122584) (-32) (-8025338039515614) 107, W (-16599682707075313) (-49) (-4852092691112809) 161, W (-51925202712634725) (-66) (-5468362093021945) 216);
  (W 9065957045149153 (-16) 8165888154058130 53, W 30506718955442023 (-33) 4949998156142078 107, W (-14478836557141204) (-49) (-8464337333963361) 162, W 18906373784448763 (-66) 7964294201530526 218);
  (W 9052967593181188 (-16) 8154188295849595 53, W (-411530998268899) (-31) (-6677472217191581) 107, W 29859368705184223 (-49) 8727903250458773 161, W 5114529391743917 (-65) 5386228110507438 216);
  (W 9039892931234433 (-16) 8142411687315315 53, W (-6609754468748431) (-33) (-8579951840942254) 110, W 12728013034680357 (-50) 5952643804849413 165, W (-4302609723401478) (-66) (-7249883042029226) 220);
  (W 9026733182372588 (-16) 8130558439301216 53, W (-19250787033961483) (-33) (-6247237565047575) 108, W 13242128993244527 (-49) 7741357282149559 162, W (-5297103068870367) (-65) (-5578500633872855) 216);
  (W 901348847046022 (-15) 8118628663374582 53, W (-13524789367698682) (-33) (-8778090168280888) 109, W 6360535311588009 (-49) 7436746217749520 163, W 3622740065457378 (-65) 7630381168256307 217);
  (W 9000158920161603 (-16) 8106622471823008 53, W (-5063961805080227) (-32) (-8216747803830756) 107, W 10783525384031576 (-49) 6304056001984601 162, W 2813001632651511 (-65) 5924872968038470 217);
  (W 8986744656939538 (-16) 8094539977653340 53, W 26316906461033013 (-33) 8540324421498539 108, W 3700313704779684 (-50) 6922258608862064 167, W (-23447719900465505) (-67) (-7901865974785459) 221);
  (W 8973245807054183 (-16) 8082381294590617 53, W (-3639628331486729) (-32) (-5905634609941531) 107, W (-23611649895474815) (-49) (-6901692996464097) 161, W 11837247047900086 (-65) 6233038068306107 215);
  (W 8959662497561851 (-16) 8070146537076992 53, W 49025099114811813 (-33) 7954777128849873 107, W (-19440489814795326) (-49) (-5682461538967622) 161, W (-17070486667767029) (-65) (-8988660354400491) 215);
  (W 8945994856313827 (-16) 8057835820270665 53, W (-1751622639681492) (-32) (-5684340455847933) 108, W (-13200670047246923) (-49) (-7717120355166554) 162, W (-1595300988432466) (-65) (-6720192119717497) 218);
  (W 8932243011955153 (-16) 8045449260044789 53, W (-4116123915190891) (-33) (-5343034318546435) 110, W 25380253805716 (-47) 5934925198868450 164, W 42849455510515997 (-67) 7220118970499721 220);
  (W 8918407093923427 (-16) 8032986972986387 53, W 4669022813712455 (-33) 6060738122016655 110, W 16150254286841982 (-50) 7553159386729597 165, W (-3961744882072459) (-66) (-6675526920595656) 220);
  (W 8904487232447579 (-16) 8020449076395251 53, W 11781931459051803 (-33) 7646910712788417 109, W (-1334614220957193) (-49) (-6241730781228944) 165, W (-9498237353073309) (-66) (-8002249139712327) 219);
  (W 8890483558546646 (-16) 8007835688282839 53, W (-11164514966766675) (-33) (-7246184498625959) 109, W (-34797636107798736) (-50) (-8137088343486848) 164, W (-15605079997040665) (-66) (-6573626944638056) 218);
  (W 8876396204028539 (-16) 7995146927371163 53, W 1280509191858796 (-32) 8310979817766747 109, W 39948742059584464 (-51) 7473299446962253 167, W (-14514577876506005) (-67) (-4891403068085081) 221);
  (W 8862225301488806 (-16) 7982382913091674 53, W (-67307369600274315) (-34) (-8736996093293672) 110, W 12385593432917413 (-50) 5792500826087577 165, W 20364014759133513 (-67) 6862659397941350 221);
  (W 8847970984309378 (-16) 7969543765584135 53, W (-9433146962897269) (-33) (-6122462417693605) 109, W (-5710654147870144) (-49) (-6676904309874182) 163, W 18260134111907352 (-66) 7692066278000630 218);
  (W 8833633386657316 (-16) 7956629605695492 53, W 15822643380255127 (-33) 5134741344813474 108, W (-7892132000758825) (-49) (-4613745536456255) 162, W (-14782321016179826) (-66) (-6227040409576690) 218);
  (W 881921264348355 (-15) 7943640554978737 53, W (-19843248405890562) (-33) (-6439502272564487) 108, W (-7041211400767383) (-49) (-8232593592811641) 163, W (-10636770169389118) (-66) (-8961461139920922) 219);
  (W 8804708890521608 (-16) 7930576735691761 53, W 1631109660299635 (-32) 5293253478187253 108, W (-5754136059472417) (-49) (-6727743417874982) 163, W (-4012861186216998) (-65) (-8452072153366337) 217);
  (W 8790122264286335 (-16) 7917438270796208 53, W (-4735683729111801) (-32) (-7684086171775532) 107, W 14388771297975192 (-49) 8411685124468258 162, W (-2908555430447914) (-65) (-6126132756509932) 217);
  (W 8775452902072612 (-16) 7904225283956311 53, W 5011331184649955 (-32) 8131349739729868 107, W 28382769008739543 (-50) 6637034140521224 164, W 1555064039316411 (-65) 6550694306870982 218);
  (W 8760700941954066 (-16) 7890937899537737 53, W 5872902423514768 (-33) 7623463201024326 110, W 27941144391738458 (-50) 6533764524387989 164, W (-18536073846509857) (-66) (-7808305661254243) 218);
  (W 8745866522781761 (-16) 7877576242606407 53, W (-57216617730397065) (-35) (-5941713289950576) 113, W (-29705811503689596) (-51) (-5557131795313346) 167, W 8738959396979377 (-67) 5890046981723973 222);
  (W 8730949784182901 (-16) 7864140438927325 53, W 784246729901299 (-32) 5090052289978408 109, W (-48685015839797165) (-50) (-5692258429067560) 163, W (-2281557058747757) (-65) (-4805520048585985) 217);
  (W 8715950866559511 (-16) 7850630614963393 53, W (-5527299803855105) (-32) (-8968556689917822) 107, W (-22104090204984907) (-49) (-6461032805259083) 161, W (-9774976318764323) (-65) (-5147125785674739) 215);
  (W 8700869911087115 (-16) 7837046897874218 53, W (-4188851086854997) (-32) (-6796799480983562) 107, W 70900185861878415 (-50) 8289659017936051 163, W 3760025111515731 (-65) 7919537224500878 217);
  (W 8685707059713409 (-16) 7823389415514919 53, W 27192781689782903 (-35) 5647719797707326 114, W (-16710140396932428) (-51) (-6252005772837378) 168, W (-12625514734637684) (-67) (-8509580097278913) 222);
  (W 8670462455156926 (-16) 7809658296434922 53, W 30267859550930567 (-34) 7857985603043508 111, W (-11559438782171572) (-50) (-5406124386166429) 165, W (-53580556397813034) (-68) (-7222644714406482) 223);
  (W 8655136240905691 (-16) 7795853669876749 53, W (-637231135496289) (-32) (-8271733057494906) 110, W 23725520321746832 (-50) 5547981887481697 164, W 15911880348395177 (-66) 6702866336981505 218);
  (W 8639728561215867 (-16) 7781975665774802 53, W 4148635595736161 (-32) 6731546115920822 107, W 22709976932210266 (-49) 6638133694034468 161, W (-8122838565947999) (-65) (-8554347442337205) 216);
  (W 8624239561110405 (-16) 7768024414754142 53, W 3700899252738313 (-32) 6005052363670948 107, W 5212841154270157 (-49) 6094860705689399 163, W 2694560008102689 (-65) 5675405789834804 217);
  (W 8608669386377673 (-16) 7754000048129257 53, W (-30050048898573656) (-33) (-4875899202965061) 107, W (-8870618309089211) (-49) (-5185769273148547) 162, W 15005320558097258 (-66) 6320978780778143 218);
  (W 8593018183570084 (-16) 7739902697902825 53, W 4243565581685069 (-32) 6885578824615594 107, W 76181814059912025 (-50) 8907187678671986 163, W (-39592127850658727) (-66) (-8339075431974756) 217);
  (W 8577286100002721 (-16) 7725732496764478 53, W (-4818344793633662) (-32) (-7818211417288033) 107, W (-11044130517687533) (-49) (-6456405933798609) 162, W 8365670800125491 (-65) 8810079633059479 216);
  (W 8561473283751945 (-16) 7711489578089543 53, W 9180692561660626 (-33) 5958610143385566 109, W 5632864978595147 (-49) 6585953111264567 163, W 2332664611321735 (-66) 7861064189197957 221);
  (W 8545579883654005 (-16) 7697174075937797 53, W (-12991124236396092) (-33) (-8431721695184386) 109, W 1289340772294808 (-49) 6029995679316329 165, W (-3650692574758651) (-67) (-4921123855682804) 223);
  (W 8529606049303636 (-16) 7682786125052197 53, W 2715298425198137 (-32) 8811647176963032 108, W 7433648328312072 (-49) 8691431362536178 163, W 42162417622350716 (-66) 8880441644193028 217);
  (W 8513551931052652 (-16) 7668325860857618 53, W (-5327987444601621) (-32) (-8645153897161875) 107, W 2228115638091994 (-48) 6512789306468078 161, W (-40281886404138467) (-66) (-8484355539904637) 217);
  (W 8497417680008524 (-16) 7653793419459571 53, W 51812347659974015 (-33) 8407034062131169 107, W 30810626087331275 (-49) 9005956094764978 161, W (-25931308201994965) (-66) (-5461770985431486) 217);
  (W 8481203448032972 (-16) 7639188937642932 53, W 1876256341523998 (-32) 6088799942438190 108, W 14048773307919617 (-49) 8212922076806082 162, W (-24915221509958706) (-66) (-5247758149286962) 217);
  (W 8464909387740521 (-16) 7624512552870645 53, W (-47969419958569345) (-33) (-7783483392394296) 107, W (-27518267097886703) (-49) (-8043598484014106) 161, W (-7351895972731335) (-65) (-7742450129971733) 216);
  (W 8448535652497071 (-16) 7609764403282432 53, W (-4363136029687964) (-32) (-7079592968846542) 107, W (-20307726853367547) (-49) (-5935955209333083) 161, W 4309722981985171 (-65) 4538668036895064 216);
  (W 8432082396418454 (-16) 7594944627693494 53, W 9653670700595908 (-34) 5012472405203384 112, W 28995142431556364 (-52) 8678696578736612 171, W 9671507681146747 (-68) 5214866625493081 225);
  (W 8415549774368984 (-16) 7580053365593204 53, W (-34095465391321557) (-33) (-5532305557551308) 107, W (-841302086075796) (-48) (-4918257505158720) 162, W (-4944728396056864) (-65) (-5207406790673374) 216);
  (W 8398937941959995 (-16) 7565090757143791 53, W (-1667369488151141) (-32) (-5410923347089996) 108, W (-1475918414175029) (-48) (-8628228715534538) 162, W (-7579509816191407) (-65) (-7982155484674417) 216);
  (W 8382247055548381 (-16) 7550056943179025 53, W (-35560085052855026) (-33) (-5769953684661576) 107, W 11689791577022643 (-49) 6833859811950236 162, W (-5862734735972339) (-65) (-6174180304901006) 216);
  (W 836547727223512 (-15) 7534952065202888 53, W (-20899059027066533) (-33) (-6782132408285718) 108, W (-9810409782100259) (-50) (-4588137587016523) 165, W (-31609177868229444) (-67) (-5326135934499651) 220);
  (W 83486287498638 (-14) 7519776265388244 53, W 4604843060915966 (-32) 7471785049762459 107, W (-5182742326523991) (-49) (-6059669116863189) 163, W (-7050534343550388) (-66) (-5940063433657263) 219);
  (W 8331701647019132 (-16) 7504529686575502 53, W 13275129507229764 (-34) 6892841323703210 112, W 4858916411537086 (-50) 4544841146313886 166, W 45422281300507203 (-67) 7653639258512425 220);
  (W 8314696123025452 (-16) 7489212472271267 53, W 14073856984728024 (-34) 7307564340927176 112, W 46951315383980835 (-51) 8783286311491533 167, W (-2023388151938547) (-67) (-5455043666320772) 224);
  (W 829761233794523 (-15) 7473824766646994 53, W (-29349109376485597) (-34) (-7619464420816061) 111, W 11496917934149818 (-50) 5376884603206074 165, W 35186665544980245 (-67) 5928941415547090 220);
  (W 8280450452577558 (-16) 7458366714537629 53, W (-4419659322587153) (-32) (-7171307255144825) 107, W 2796786485521125 (-48) 8175016055708132 161, W 10030777287393502 (-65) 5281820716761617 215);
  (W 8263210628456635 (-16) 7442838461440245 53, W (-539574854536129) (-31) (-8755102569226029) 107, W 6897689613013855 (-49) 8064787730576089 163, W 38106164274199186 (-66) 8026094972828837 217);
  (W 8245893027850253 (-16) 7427240153512674 53, W (-26512360488868275) (-33) (-8603752879918352) 108, W 16916964350914386 (-50) 7911734751209565 165, W 676939748135625 (-65) 5703206095815886 219);
  (W 8228497813758263 (-16) 7411571937572131 53, W 15193019034505495 (-33) 4930416562782670 108, W 9689054724652168 (-49) 5664227737707146 162, W 5699456292365327 (-65) 6002228034137709 216);
  (W 8211025149911046 (-16) 7395833961093832 53, W 3071513160969768 (-32) 4983815042703658 107, W (-1703716832585588) (-48) (-4979969880744113) 161, W (-1114986244328385) (-64) (-5871087828457002) 215);
  (W 819347520076797 (-15) 7380026372209606 53, W (-48200736995191133) (-33) (-7821016727474824) 107, W (-1557448964667278) (-50) (-5827108382516599) 168, W (-9564785361451192) (-68) (-5157322064549346) 225);
  (W 8175848131515837 (-16) 7364149319706498 53, W (-14883149812426772) (-33) (-4829858251010421) 108, W (-7827326277129892) (-49) (-4575860067979415) 162, W 41332149161031623 (-66) 8705566695469747 217);
  (W 8158144108067338 (-16) 7348202953025374 53, W 8265269378213087 (-33) 5364466528429990 109, W (-2302877813517947) (-49) (-5385055512047183) 164, W 15102071387249817 (-66) 6361734986933699 218);
  (W 8140363297059484 (-16) 7332187422259511 53, W (-52127351877042624) (-33) (-8458146418590874) 107, W (-1904767061131636) (-48) (-5567640357155716) 161, W (-1693726958594151) (-64) (-8918513373518276) 215);
  (W 8122505865852039 (-16) 7316102878153182 53, W 310545456092148 (-31) 5038888112811017 107, W 2264954192270725 (-49) 5296374816773052 164, W (-7422168415464942) (-66) (-6253164519860775) 219);
  (W 8104571982525948 (-16) 7299949472100244 53, W 235203673498405 (-31) 7632795593885122 108, W (-7753007090484634) (-49) (-4532413022792557) 162, W (-727926163571971) (-64) (-7665957245126528) 216);
  (W 808656181588175 (-15) 7283727356142706 53, W 9325159787972167 (-33) 6052374734052898 109, W (-7182330193306839) (-49) (-8397589869895301) 163, W 2392544084613215 (-65) 5039286009373361 217);
  (W 8068475535437992 (-16) 7267436682969301 53, W 49220603766095546 (-33) 7986499572183919 107, W 29796016899903487 (-49) 8709385497029640 161, W 15220754223615785 (-65) 8014662541064246 215);
  (W 8050313311429635 (-16) 7251077605914050 53, W 5136828956821215 (-32) 8334981517291728 107, W 6308280740225652 (-49) 7375650104466233 163, W 7327764608512981 (-66) 6173629469841999 219);
  (W 8032075314806449 (-16) 7234650278954817 53, W (-3306060980481491) (-32) (-5364390638462068) 107, W (-12242726252420433) (-49) (-7157105785322597) 162, W 2841367326863007 (-65) 5984618093282113 217);
  (W 8013761717231402 (-16) 7218154856711858 53, W (-20958013413495834) (-33) (-6801264200501575) 108, W (-4379816219800693) (-49) (-5120886861157727) 163, W 2023569049775252 (-65) 8524267759255858 218);
  (W 799537269107905 (-15) 7201591494446370 53, W 2035672382200543 (-32) 6606134571941243 108, W (-9744851369689636) (-49) (-5696846492939078) 162, W 5360810959969726 (-67) 7226358878673022 223);
  (W 7976908409433912 (-16) 7184960348059028 53, W (-46730759884788944) (-33) (-7582499304585468) 107, W 23075897077191757 (-49) 6745092272239030 161, W 3160556777464022 (-66) 5325527634933220 220);
  (W 7958369046088836 (-16) 7168261574088514 53, W (-3006272485191072) (-32) (-4877955993986654) 107, W (-22496210832042235) (-49) (-6575649792954184) 161, W (-6588177411718306) (-65) (-6938160611470784) 216);
  (W 7939754775543372 (-16) 7151495329710049 53, W (-7419463175992142) (-33) (-4815506917589854) 109, W 2412434130463107 (-49) 5641242290599654 164, W (-49956808616245025) (-67) (-8417705599718859) 220);
  (W 7921065773002124 (-16) 7134661772733911 53, W (-37087850202326467) (-33) (-6017847752979687) 107, W (-14874457267228264) (-49) (-8695617460185062) 162, W 2932309728915352 (-65) 6176165148681628 217);
  (W 79023022143731 (-14) 7117761061603948 53, W 23056905954954492 (-33) 7482393772340198 108, W 14481080533260193 (-49) 8465649163872175 162, W (-7672523705720347) (-65) (-8080110543307404) 216);
  (W 7883464276266062 (-16) 7100793355396091 53, W 3439699315405971 (-32) 5581231234277131 107, W 1771062374673717 (-48) 5176821120801589 161, W 17084159098417406 (-65) 8995859729422844 215);
  (W 7864552135990858 (-16) 7083758813816853 53, W (-9784142993930527) (-33) (-6350271866355127) 109, W 33906063272445472 (-50) 7928602718099880 164, W 5726950532038297 (-66) 4824946278411327 219);
  (W 7845565971555752 (-16) 7066657597201826 53, W (-8562796542317348) (-33) (-5557572698368406) 109, W (-2110683445900185) (-49) (-4935627699312564) 164, W (-1689032218246961) (-65) (-7115034144224564) 218);
  (W 7826505961665757 (-16) 7049489866514174 53, W 9074586697580882 (-33) 5889743500293894 109, W 6762384740427867 (-49) 7906589096317472 163, W (-17173237731987254) (-66) (-7234212083698053) 218);
  (W 7807372285720945 (-16) 7032255783343117 53, W (-991987820666788) (-32) (-6438369056191217) 109, W (-21265794012162715) (-52) (-6365182518869508) 171, W 30772165599031686 (-70) 5309542037648780 230);
  (W 778816512381476 (-15) 7014955509902409 53, W (-24891385579973807) (-33) (-8077716446967319) 108, W 6766549702480798 (-50) 6329167020324237 166, W (-6521859428169817) (-67) (-8791449117705592) 223);
  (W 7768884656732324 (-16) 6997589209028812 53, W 7741860257067286 (-33) 5024754586498263 109, W (-599865178721579) (-48) (-7013631527035059) 163, W 30566548232958976 (-66) 6438066485620794 217);
  (W 7749531065948739 (-16) 6980157044180565 53, W (-5220908318982643) (-32) (-8471408082297477) 107, W (-9665359339368661) (-49) (-5650375399951533) 162, W 37027750076562617 (-66) 7798954431786806 217);
  (W 773010453362737 (-15) 6962659179435841 53, W (-3256590703364977) (-32) (-5284120524567405) 107, W 1386080725152393 (-48) 8103036997132110 162, W (-3997132991758601) (-65) (-8418944709321888) 217);
  (W 7710605242618138 (-16) 6945095779491208 53, W (-44558442347769265) (-33) (-7230020631985237) 107, W (-29863565614083783) (-49) (-8729130008304460) 161, W (-6879526208359629) (-65) (-7244986705962526) 216);
  (W 7691033376455796 (-16) 6927467009660074 53, W 51546455184564817 (-33) 8363890541356943 107, W 2614282955352429 (-48) 7641557639387694 161, W (-16199023632773295) (-65) (-8529781507802360) 215);
  (W 7671389119358204 (-16) 6909773035871137 53, W (-18885903683750782) (-33) (-6128826147983157) 108, W (-13659359331495433) (-49) (-7985270411148689) 162, W (-22538834962921967) (-66) (-4747232722969425) 217);
  (W 765167265622459 (-15) 6892014024666815 53, W (-327072256125346) (-31) (-5307050774979789) 107, W 11177117747079528 (-49) 6534150355198809 162, W (-3700518228017568) (-65) (-7794201099075971) 217);
  (W 7631884172633813 (-16) 6874190143201685 53, W 2631474841675075 (-33) 6831699276871462 111, W 1404803906309591 (-49) 6569994269441010 165, W 8960188662663182 (-67) 6039155211825180 222);
  (W 7612023854842618 (-16) 6856301559240908 53, W 3531551088169055 (-32) 5730269256517324 107, W 12833566381864359 (-49) 7502511311955837 162, W (-8483550626500987) (-65) (-8934221579630430) 216);
  (W 7592091889783881 (-16) 6838348441158650 53, W (-3855884217552312) (-32) (-6256529846772154) 107, W 2972024120833276 (-49) 6949788990055632 164, W (-12521388928220154) (-66) (-5274624651616654) 218);
  (W 7572088465064846 (-16) 6820330957936494 53, W (-19909098777335502) (-33) (-6460871939863669) 108, W 3940928326615848 (-49) 4607738561562238 163, W 20744254207803002 (-66) 8738499798315378 218);
  (W 7552013768965365 (-16) 6802249279161855 53, W (-19402238001823017) (-33) (-6296386214088169) 108, W (-37756206444727573) (-50) (-8828921206139670) 164, W (-21212242308178273) (-66) (-8935639395611916) 218);
  (W 7531867990436125 (-16) 6784103575026380 53, W (-3793778983873654) (-32) (-6155758343732070) 107, W (-6700953992023156) (-49) (-7834764184816714) 163, W (-6712856211505067) (-66) (-5655570170200859) 219);
  (W 7511651319096864 (-16) 6765894016324346 53, W 4349976115864587 (-32) 7058239787845383 107, W 25227718971102212 (-49) 7374070516477953 161, W (-6596970921275714) (-65) (-6947421257903784) 216);
  (W 7491363945234594 (-16) 6747620774451057 53, W (-4472907844701189) (-32) (-7257707922049303) 107, W (-24206025249983768) (-49) (-7075429107224891) 161, W 11336681351116422 (-65) 5969459465011328 215);
  (W 7471006059801801 (-16) 6729284021401222 53, W 1187482487596543 (-32) 7707201987390816 109, W 21992523849833518 (-50) 5142737538491299 164, W 11025018564644497 (-66) 4644279882924396 218);
  (W 745057785441466 (-15) 6710883929767346 53, W 15078686911877863 (-33) 4893313667710853 108, W 8089898721294247 (-49) 4729360090805088 162, W 8267795876532348 (-65) 8707005308054691 216);
  (W 7430079521351217 (-16) 6692420672738099 53, W (-25144629669719265) (-33) (-8159898852694060) 108, W 7112898951252616 (-49) 8316410770739968 163, W 3018162907782123 (-65) 6356993048951432 217);
  (W 7409511253549591 (-16) 6673894424096687 53, W (-14708616952297345) (-33) (-4773219099675351) 108, W (-4955043382714203) (-49) (-5793443213505971) 163, W 31434132533735623 (-66) 6620801067481697 217);
  (W 7388873244606151 (-16) 6655305358219218 53, W 3432487480822509 (-32) 5569529363635887 107, W (-1370663944471761) (-48) (-8012910396303650) 162, W (-33520827530719466) (-67) (-5648248265418448) 220);
  (W 7368165688773699 (-16) 6636653650073061 53, W (-28932468101656295) (-33) (-4694561351059034) 107, W (-3464988712620238) (-49) (-8102538682924120) 164, W (-18484474476291473) (-66) (-7786569469548834) 218);
  (W 7347388780959635 (-16) 6617939475215195 53, W (-3450759597626394) (-32) (-5599177568223260) 107, W (-2371800067666641) (-48) (-6932779364632684) 161, W (-39696090387165364) (-66) (-8360972497909136) 217);
  (W 7326542716724128 (-16) 6599163009790561 53, W 1891867348157352 (-32) 6139460555376271 108, W (-15123719544119886) (-49) (-8841336350505836) 162, W (-9792215201162556) (-66) (-8249924986768884) 219);
  (W 7305627692278276 (-16) 6580324430530404 53, W (-2968995990447693) (-32) (-4817471423188767) 107, W (-11276871244239744) (-49) (-6592466314970465) 162, W (-30531520961538974) (-66) (-6430688881172520) 217);
  (W 7284643904482252 (-16) 6561423914750605 53, W 11924642323370718 (-35) 4953302629983138 115, W 5900189231661101 (-51) 8830091491978098 170, W 12178089069507088 (-68) 6566412636434425 225);
  (W 726359155084346 (-15) 6542461640350018 53, W (-3191750244346054) (-32) (-5178910864670558) 107, W 770479124120394 (-48) 4504226005724943 162, W 41455880160182123 (-66) 8731627485611706 217);
  (W 7242470829514669 (-16) 6523437785808790 53, W 29198471334403004 (-33) 4737722843238748 107, W 23027324968739464 (-49) 6730894629032702 161, W (-12928820533891935) (-67) (-8714007801572216) 222);
  (W 7221281939292153 (-16) 6504352530186687 53, W (-23871262053452047) (-33) (-7746667435587544) 108, W 10636125432862273 (-49) 6217885893994028 162, W (-44598638837802555) (-66) (-4696784861307305) 216);
  (W 7200025079613817 (-16) 6485206053121402 53, W (-25689658854462333) (-33) (-8336770935428512) 108, W (-9149256694856793) (-49) (-5348661455957571) 162, W 4440378080126777 (-65) 4676263914929791 216);
  (W 7178700450557317 (-16) 6465998534826869 53, W 27006476062511453 (-33) 8764102551217140 108, W (-2285495658021535) (-49) (-5344409034097828) 164, W 9172690389028812 (-66) 7727976365078188 219);
  (W 7157308252838187 (-16) 6446730156091567 53, W (-5158101847641026) (-32) (-8369498756096622) 107, W (-13736271349300261) (-50) (-6424186581703649) 165, W 8647506336626293 (-66) 7285509676227877 219);
  (W 7135848687807936 (-16) 6427401098276813 53, W (-42342504403133584) (-33) (-6870464143590238) 107, W (-4269036610161727) (-49) (-4991363196461545) 163, W (-26352370883066546) (-66) (-5550457137190996) 217);
  (W 7114321957452164 (-16) 6408011543315061 53, W 7964329861385681 (-33) 5169145614950999 109, W 2948823951072147 (-49) 6895537652308040 164, W 16985236437666341 (-66) 7155016695131692 218);
  (W 7092728264388657 (-16) 6388561673708188 53, W (-3759735911024573) (-32) (-6100520299916709) 107, W 1061312595464512 (-49) 4963552307172142 165, W 8946548018548639 (-66) 7537451794849173 219);
  (W 7071067811865476 (-16) 6369051672525773 53, W (-4833646656726457) (-32) (-7843040109683798) 107, W 20693376543497068 (-49) 6048680740045173 161, W 2467773495734176 (-65) 5197737643093850 217) ]%Z.
Strategy expand [wdec rq]. Strategy opaque [dec].
Lemma sines_rows : Q_SINES = map rq rows_s. Proof. reflexivity. Qed.
Lemma cosines_rows : Q_COSINES = map rq rows_c. Proof. reflexivity. Qed.
Strategy transparent [dec].
Lemma tables_checked : check (S1, C1, 1024%Z) rows_s rows_c = true.
Proof. vm_compute. reflexivity. Qed.
Lemma quad_tables_ok : length Q_SINES = 256%nat /\ length Q_COSINES = 256%nat /\ forall i, (i < 256)%nat ->
  approx (QV (nth i Q_SINES Q_ZERO)) (sin (INR (i + 1) * PI / 1024)) 1 (-210) /\
  approx (QV (nth i Q_COSINES Q_ZERO)) (cos (INR (i + 1) * PI / 1024)) 1 (-210).
Proof.
  split; [reflexivity|]. split; [reflexivity|]. intros i Hi. rewrite sines_rows, cosines_rows.
  replace (INR (i + 1) * PI / 1024) with (INR (i + 1) * th) by field.
  exact (check_ok rows_s rows_c 1 S1 C1 1024 near1 tables_checked i Hi).
Qed.
