(** * Accuracy of powi on Quads (lemmas) *)
From Coq Require Import ZArith Reals Lra Lia Psatz Bool.
From Flocq Require Import Core IEEE754.BinarySingleNaN.
From Verif Require Import RN F64 Prim DoubleM QuadM Spec F64Facts EFT DAddProofs DMulProofs PowProofs QuadSpec QAddAcc QAddThms QFallAcc QFallThms QSqrAcc FoldThms.
Local Open Scope R_scope.

Notation d8 := (bp (-198)).
Lemma d8_small : 0 < d8 <= / 9007199254740992.
Proof. split; [apply bpow_gt_0|]. change (/ 9007199254740992) with (bp (-53)). apply bpow_le. lia. Qed.

(** r is e up to n factors (1 + 2^-198) *)
Definition qnear (r e : R) (n : nat) : Prop := Rabs (r - e) <= ((1 + d8) ^ n - 1) * Rabs e.

Lemma qpow_ge1 n : 1 <= (1 + d8) ^ n.
Proof. apply pow_R1_Rle. generalize d8_small. lra. Qed.

Lemma qnear_step a A na b B nb r :
  qnear a A na -> qnear b B nb -> Rabs (r - a * b) <= d8 * Rabs (a * b) -> qnear r (A * B) (na + nb + 1).
Proof.
  unfold qnear. intros HA HB HR.
  assert (P1 := qpow_ge1 na). assert (P2 := qpow_ge1 nb).
  rewrite !pow_add, pow_1. set (p := (1 + d8) ^ na) in *. set (q := (1 + d8) ^ nb) in *.
  assert (D := proj1 d8_small). set (d := d8) in *.
  assert (KA := tri _ _ _ _ HA (Rle_refl _)). assert (KB := tri _ _ _ _ HB (Rle_refl _)).
  assert (PA := Rabs_pos A). assert (PB := Rabs_pos B). assert (Pa := Rabs_pos a). assert (Pb := Rabs_pos b).
  assert (Hab : Rabs (a * b) <= p * q * (Rabs A * Rabs B)).
  { rewrite Rabs_mult. apply Rle_trans with ((p * Rabs A) * (q * Rabs B)); [|lra]. apply Rmult_le_compat; auto; lra. }
  assert (E : Rabs (a * b - A * B) <= (p * q - 1) * (Rabs A * Rabs B)).
  { replace (a * b - A * B) with ((a - A) * b + A * (b - B)) by ring.
    eapply Rle_trans. { apply triP. rewrite Rabs_mult. apply Rmult_le_compat; [apply Rabs_pos|auto|exact HA|exact KB].
      rewrite Rabs_mult. apply Rmult_le_compat_l; [auto|exact HB]. }
    right. ring. }
  replace (r - A * B) with ((r - a * b) + (a * b - A * B)) by ring.
  eapply Rle_trans. { apply triP. exact HR. exact E. }
  rewrite (Rabs_mult A B). assert (d * Rabs (a * b) <= d * (p * q * (Rabs A * Rabs B))) by (apply Rmult_le_compat_l; lra). lra.
Qed.

Lemma qnear_refl r n : qnear r r n.
Proof.
  unfold qnear. rewrite Rminus_diag_eq by reflexivity. rewrite Rabs_R0.
  assert (K := qpow_ge1 n). apply Rmult_le_pos; [lra|apply Rabs_pos].
Qed.

Lemma qbern n : IZR (Z.of_nat n) * d8 <= / 10 -> (1 + d8) ^ n <= 1 + 2 * IZR (Z.of_nat n) * d8.
Proof.
  assert (D := proj1 d8_small). set (d := d8) in *. induction n as [|n IH]; intros H. { simpl. lra. }
  rewrite Nat2Z.inj_succ, <- Z.add_1_r, plus_IZR in *.
  assert (P0 : 0 <= IZR (Z.of_nat n)) by (apply IZR_le; lia).
  specialize (IH ltac:(lra)). simpl pow. set (k := IZR (Z.of_nat n)) in *.
  apply Rle_trans with ((1 + d) * (1 + 2 * k * d)). { apply Rmult_le_compat_l; lra. }
  assert (k * d * d <= / 10 * d). { apply Rmult_le_compat_r; lra. } lra.
Qed.
Lemma qbern_max n : (Z.of_nat n <= NMAX)%Z -> (1 + d8) ^ n <= 1 + 2 * IZR (Z.of_nat n) * d8 /\ (1 + d8) ^ n <= 1001 / 1000.
Proof.
  intros H. apply IZR_le in H. change (IZR NMAX) with 2147483648 in H.
  assert (D := d8_small). set (d := d8) in *.
  assert (P0 : 0 <= IZR (Z.of_nat n)) by (apply IZR_le; lia).
  assert (K : IZR (Z.of_nat n) * d <= 2147483648 * / 9007199254740992) by (apply Rmult_le_compat; lra).
  assert (B := qbern n). fold d in B. specialize (B ltac:(lra)). split; [auto|]. lra.
Qed.

Lemma qnear_abs r e n : (Z.of_nat n <= NMAX)%Z -> qnear r e n -> 99 / 100 * Rabs e <= Rabs r <= 101 / 100 * Rabs e.
Proof.
  intros H K. destruct (qbern_max n H) as [_ B]. unfold qnear in K. assert (P := Rabs_pos e).
  assert (K1 : Rabs (r - e) <= / 1000 * Rabs e). { eapply Rle_trans. exact K. apply Rmult_le_compat_r; lra. }
  assert (A1 := tri _ _ _ _ K1 (Rle_refl _)). assert (A2 := tri2 _ _ _ _ K1 (Rle_refl (Rabs r))). lra.
Qed.

Section Loop.
Variables (X : R) (N : nat).
Hypothesis HN : (Z.of_nat N <= NMAX)%Z.
Hypothesis W : forall j, (j <= N)%nat -> bp (-490) <= Rabs (X ^ j) <= bp 490.

Definition qst (s : Quad) (p a : nat) : Prop := QFall 52 s /\ qnear (QV s) (X ^ p) a.

Lemma qwin_prod s p a r q b : qst s p a -> qst r q b -> (p + q <= N)%nat -> (a <= N)%nat -> (b <= N)%nat ->
  bp (-500) <= Rabs (QV s * QV r) /\ Rabs (QV s) <= bp 498 /\ Rabs (QV r) <= bp 498.
Proof.
  intros [Ns Hs] [Nr Hr] L La Lb.
  assert (H1 := qnear_abs _ _ a ltac:(lia) Hs). assert (H2 := qnear_abs _ _ b ltac:(lia) Hr).
  assert (K := W (p + q) L). rewrite pow_add, Rabs_mult in K. rewrite Rabs_mult.
  assert (Kp := W p ltac:(lia)). assert (Kq := W q ltac:(lia)).
  set (A := Rabs (X ^ p)) in *. set (B := Rabs (X ^ q)) in *.
  set (c := Rabs (QV s)) in *. set (d := Rabs (QV r)) in *.
  assert (PA : 0 <= A) by apply Rabs_pos. assert (PB : 0 <= B) by apply Rabs_pos.
  assert (K1 : (99/100 * A) * (99/100 * B) <= c * d) by (apply Rmult_le_compat; lra).
  assert (G1 := bpow_gt_0 radix2 (-500)). assert (G2 := bpow_gt_0 radix2 490).
  assert (E1 : bp (-490) = 1024 * bp (-500)) by (apply (bp_split (-500) 10); lia).
  assert (E2 : bp 498 = 256 * bp 490) by (apply (bp_split 490 8); lia).
  assert (0 <= A * B) by (apply Rmult_le_pos; auto). split; [lra|]. split; lra.
Qed.

Lemma qst_mul s p a r q b : qst s p a -> qst r q b -> (p + q <= N)%nat -> (a <= N)%nat -> (b <= N)%nat ->
  qst (q_mul s r) (p + q) (a + b + 1).
Proof.
  intros Hs Hr L La Lb. destruct (qwin_prod _ _ _ _ _ _ Hs Hr L La Lb) as (K0 & K1 & K2). destruct Hs as [Ns Hs], Hr as [Nr Hr].
  assert (B : bp 498 <= bp 499) by (apply bpow_le; lia).
  destruct (q_mul_fall 52 s r) as [J1 J2]; try assumption; [lia|lra|lra|].
  split; auto. rewrite pow_add. eapply qnear_step; eauto.
Qed.
Lemma qst_sqr r q b : qst r q b -> (q + q <= N)%nat -> (b <= N)%nat -> qst (q_sqr r) (q + q) (b + b + 1).
Proof.
  intros Hr L Lb. destruct (qwin_prod _ _ _ _ _ _ Hr Hr L Lb Lb) as (K0 & K1 & _). destruct Hr as [Nr Hr].
  assert (E : Rabs (QV r * QV r) = QV r * QV r) by (apply Rabs_pos_eq, Rle_0_sqr).
  destruct (q_sqr_fall 52 r) as [J1 J2]; try assumption; [lia|rewrite <- E; exact K0|].
  split; auto. rewrite pow_add. eapply qnear_step; eauto. rewrite E. exact J2.
Qed.

Lemma q_powi_loop_ok i : forall s r p q a b, qst s p a -> qst r q b -> (p + q * Pos.to_nat i <= N)%nat ->
  (a + (b + 1) * Pos.to_nat i <= N)%nat ->
  qst (q_powi_loop s r i) (p + q * Pos.to_nat i) (a + (b + 1) * Pos.to_nat i).
Proof.
  induction i as [i IH|i IH|]; intros s r p q a b Hs Hr L1 L2; cbn [q_powi_loop].
  - rewrite Pos2Nat.inj_xI in *. assert (P := Pos2Nat.is_pos i).
    assert (M := qst_mul _ _ _ _ _ _ Hs Hr ltac:(nia) ltac:(nia) ltac:(nia)).
    assert (S := qst_sqr _ _ _ Hr ltac:(nia) ltac:(nia)).
    assert (K := IH _ _ _ _ _ _ M S ltac:(nia) ltac:(nia)).
    replace (p + q * Datatypes.S (2 * Pos.to_nat i))%nat with (p + q + (q + q) * Pos.to_nat i)%nat by ring.
    replace (a + (b + 1) * Datatypes.S (2 * Pos.to_nat i))%nat with (a + b + 1 + (b + b + 1 + 1) * Pos.to_nat i)%nat by ring. exact K.
  - rewrite Pos2Nat.inj_xO in *. assert (P := Pos2Nat.is_pos i).
    assert (S := qst_sqr _ _ _ Hr ltac:(nia) ltac:(nia)).
    assert (K := IH _ _ _ _ _ _ Hs S ltac:(nia) ltac:(nia)).
    replace (p + q * (2 * Pos.to_nat i))%nat with (p + (q + q) * Pos.to_nat i)%nat by ring.
    replace (a + (b + 1) * (2 * Pos.to_nat i))%nat with (a + (b + b + 1 + 1) * Pos.to_nat i)%nat by ring. exact K.
  - change (Pos.to_nat 1) with 1%nat in *. rewrite !Nat.mul_1_r in *.
    replace (a + (b + 1))%nat with (a + b + 1)%nat by ring. apply qst_mul; auto; lia.
Qed.
End Loop.

Lemma qwin_pow X n : bp (-490) <= Rabs X ^ n <= bp 490 -> forall j, (j <= n)%nat -> bp (-490) <= Rabs (X ^ j) <= bp 490.
Proof.
  intros [H1 H2] j L. rewrite <- RPow_abs. set (x := Rabs X) in *. assert (Px : 0 <= x) by apply Rabs_pos.
  destruct (Rle_or_lt 1 x) as [G|G].
  - split.
    + apply Rle_trans with 1. change 1 with (bp 0). apply bpow_le; lia. now apply pow_R1_Rle.
    + apply Rle_trans with (2 := H2). now apply Rle_pow.
  - assert (M : x ^ n <= x ^ j).
    { replace n with (j + (n - j))%nat by lia. rewrite pow_add. rewrite <- (Rmult_1_r (x ^ j)) at 2.
      apply Rmult_le_compat_l. now apply pow_le. destruct (n - j)%nat. simpl; lra. apply Rlt_le, pow_lt_1_compat; [lra|lia]. }
    split; [lra|]. apply Rle_trans with 1. destruct j. simpl; lra. apply Rlt_le, pow_lt_1_compat; [lra|lia]. change 1 with (bp 0). apply bpow_le; lia.
Qed.

Lemma q_powi_pos_ok dbg x n : QDec 53 x -> (1 <= n <= 2147483647)%Z -> bp (-490) <= Rabs (QV x) ^ Z.to_nat n <= bp 490 ->
  exists r, q_powi dbg x n = Val r /\ QFall 52 r /\
    Rabs (QV r - QV x ^ Z.to_nat n) <= IZR n * bp (-197) * Rabs (QV x ^ Z.to_nat n).
Proof.
  intros Hx Hn H. assert (HF := QDec_fall 53 x ltac:(lia) Hx). change (Z.min 53 52) with 52%Z in HF.
  assert (W := qwin_pow _ _ H).
  assert (NZ : V (q0 x) <> 0).
  { intros Z. destruct (QFall_le 52 x ltac:(lia) HF) as [K _]. rewrite Z, Rabs_R0, Rmult_0_r in K.
    assert (K1 := W 1%nat ltac:(lia)). rewrite pow_1 in K1. assert (G := bpow_gt_0 radix2 (-490)). lra. }
  unfold q_powi. rewrite q_pre_powi_fin by (apply Hx || exact NZ || lia). rewrite Z.abs_eq by lia. rewrite i32_chk_ok by lia. cbn [obind].
  destruct (Z.ltb_spec n 0); [lia|].
  eexists. split; [reflexivity|].
  set (N := Z.to_nat n) in *.
  assert (HN : (Z.of_nat N <= NMAX)%Z) by (unfold N, NMAX; lia).
  assert (EZ : IZR (Z.of_nat N) = IZR n) by (f_equal; unfold N; lia).
  assert (ST : qst (QV x) (if (n >? 1)%Z then q_powi_loop Q_ONE x (Z.to_pos n) else x) N N).
  { destruct (Z.gtb_spec n 1) as [G|G].
    - assert (EN : Pos.to_nat (Z.to_pos n) = N) by (unfold N; rewrite <- Z2Nat.inj_pos; f_equal; lia).
      destruct QFall_ONE as [F1 V1].
      assert (S0 : qst (QV x) Q_ONE 0 0). { split; [exact F1|]. rewrite V1. simpl pow. apply qnear_refl. }
      assert (S1 : qst (QV x) x 1 0). { split; auto. rewrite pow_1. apply qnear_refl. }
      assert (K := q_powi_loop_ok (QV x) N HN W (Z.to_pos n) Q_ONE x 0 1 0 0 S0 S1). rewrite EN in K.
      replace (0 + 1 * N)%nat with N in K by ring. replace (0 + (0 + 1) * N)%nat with N in K by ring. exact (K (Nat.le_refl _) (Nat.le_refl _)).
    - assert (n = 1%Z) by lia. assert (N = 1%nat) by (unfold N; lia). rewrite H2. split; auto. rewrite pow_1. apply qnear_refl. }
  destruct ST as [S1 S2]. split; [exact S1|].
  unfold qnear in S2. eapply Rle_trans; [exact S2|]. apply Rmult_le_compat_r; [apply Rabs_pos|].
  destruct (qbern_max N HN) as [B _]. rewrite EZ in B.
  assert (E : bp (-197) = 2 * d8) by (apply (bp_split (-198) 1); lia). rewrite E. lra.
Qed.
