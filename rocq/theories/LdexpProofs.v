(** * ldexp, trunc of a Quad *)
From Coq Require Import ZArith Reals Lra Lia Bool List.
From Flocq Require Import Core IEEE754.BinarySingleNaN.
From Verif Require Import RN F64 Prim DoubleM QuadM Spec F64Facts EFT Exact ExactProofs SingleProofs IntProofs RoundProofs FractProofs QRoundProofs RoundThms.
Local Open Scope R_scope.

Definition p2ok (n : Z) : bool := is_finite (fpowi f2 n) && Z.eqb (zv (fpowi f2 n)) (2 ^ (n + 1074)).
Fixpoint allfrom (k : nat) (z : Z) : bool := match k with O => true | S k => p2ok z && allfrom k (z + 1) end.
Lemma allfrom_ok k : forall z, allfrom k z = true -> forall n, (z <= n < z + Z.of_nat k)%Z -> p2ok n = true.
Proof.
  induction k as [|k IH]; intros z H n Hn. lia.
  cbn [allfrom] in H. apply andb_prop in H. destruct H as [H1 H2].
  destruct (Z.eq_dec n z) as [->|D]; auto. apply (IH (z + 1)%Z); auto. lia.
Qed.
Lemma all_p2 : allfrom 2047 (-1023) = true. Proof. vm_compute. reflexivity. Qed.
(** 2^n is exact in the whole normal range and down to the first subnormal *)
Lemma fpowi2 n : (-1023 <= n <= 1023)%Z -> FV (fpowi f2 n) (bp n).
Proof.
  intros H. assert (K := allfrom_ok 2047 _ all_p2 n ltac:(lia)). unfold p2ok in K. apply andb_prop in K. destruct K as [K1 K2].
  apply Z.eqb_eq in K2. replace (bp n) with (1 * bp n) by ring. apply (FV_zv _ 1); auto; lia.
Qed.

(** x * 2^n is a representable, finite f64 *)
Definition scales (a : f64) (n : Z) : Prop := RN (V a * bpow radix2 n) = V a * bpow radix2 n /\ Rabs (V a * bpow radix2 n) < bpow radix2 1024.
Lemma scale1 a n : (-1023 <= n <= 1023)%Z -> Fin a -> scales a n -> FV (fmul a (fpowi f2 n)) (V a * bp n).
Proof. intros H F [S1 S2]. apply FV_mul with (V a) (bp n); auto. now split. now apply fpowi2. Qed.


Lemma cexp_big x : bp (-1022) <= Rabs x -> cexp radix2 fexp64 x = (mag radix2 x - 53)%Z.
Proof. intros H. rewrite cexp64. assert (K := mag_ge_bpow radix2 x (-1021) H). lia. Qed.
(** in the normal range rounding commutes with scaling *)
Lemma rn_scale x n : bp (-1022) <= Rabs x -> bp (-1022) <= Rabs (x * bp n) -> rn (x * bp n) = rn x * bp n.
Proof.
  intros H1 H2. assert (N : x <> 0). { intros ->. rewrite Rabs_R0 in H1. assert (K := bpow_gt_0 radix2 (-1022)). lra. }
  unfold rn, round, scaled_mantissa. rewrite (cexp_big x H1), (cexp_big _ H2), mag_mult_bpow by easy.
  rewrite Rmult_assoc, <- bpow_plus. replace (n + - (mag radix2 x + n - 53))%Z with (- (mag radix2 x - 53))%Z by ring.
  unfold F2R. cbn [Fnum Fexp]. rewrite Rmult_assoc, <- bpow_plus. do 2 f_equal. ring.
Qed.
Lemma mult2_scale k n x : mult2 k (x * bp n) -> mult2 (k - n) x.
Proof.
  intros [m E]. exists m. assert (P := bpow_gt_0 radix2 n). apply Rmult_eq_reg_r with (bp n); [|lra]. rewrite E, Rmult_assoc, <- bpow_plus. do 2 f_equal. ring.
Qed.
Lemma fmt_m1074 x : fmt x -> mult2 (-1074) x.
Proof. intros F. apply mult2_le with (cexp radix2 fexp64 x). apply cexp_ge. now apply mult2_cexp. Qed.
Lemma norm_scale h t n : fmt h -> mult2 (-1074) t -> rn (h + t) = h -> fmt (h * bp n) -> mult2 (-1074) (t * bp n) -> rn (h * bp n + t * bp n) = h * bp n.
Proof.
  intros Fh Mt E Sh St. destruct (Req_dec t 0) as [Zt|Zt]. { rewrite Zt, Rmult_0_l, Rplus_0_r. now apply rn_id. }
  assert (Pn := bpow_gt_0 radix2 n).
  assert (M1 : mult2 (-1074) (h + t)) by (apply mult2_plus; auto; now apply fmt_m1074).
  assert (M2 : mult2 (-1074) ((h + t) * bp n)) by (rewrite Rmult_plus_distr_r; apply mult2_plus; auto; now apply fmt_m1074).
  assert (NF : ~ fmt (h + t)). { intros F. rewrite rn_id in E by easy. lra. }
  assert (B1 : bp (-1022) <= Rabs (h + t)).
  { apply Rnot_lt_le. intros Q. apply NF. apply fmt_mult2 with (-1074)%Z; auto. lia. apply Rle_trans with (bp (-1022)). lra. apply bpow_le. lia. }
  assert (B2 : bp (-1022) <= Rabs ((h + t) * bp n)).
  { apply Rnot_lt_le. intros Q. apply NF. rewrite Rabs_mult, (Rabs_pos_eq (bp n)) in Q by lra.
    assert (M3 := mult2_scale _ _ _ M2).
    destruct (Z_le_gt_dec (-1074) (-1074 - n)) as [L|L].
    - apply fmt_mult2 with (-1074 - n)%Z; auto. apply Rmult_le_reg_r with (bp n); auto. rewrite <- bpow_plus. apply Rle_trans with (bp (-1022)). lra. apply bpow_le. lia.
    - apply fmt_mult2 with (-1074)%Z; auto. lia. apply Rmult_le_reg_r with (bp n); auto. rewrite <- bpow_plus. apply Rle_trans with (bp (-1022)). lra. apply bpow_le. lia. }
  rewrite <- Rmult_plus_distr_r, rn_scale, E by easy. reflexivity.
Qed.

Lemma scales_fmt a n : scales a n -> fmt (V a * bp n).
Proof. intros [E _]. unfold RN in E. rewrite <- E. apply rn_fmt. Qed.

Lemma d_ldexp_ok x n : DNorm x -> (-1023 <= n <= 1023)%Z -> scales (d0 x) n -> scales (d1 x) n ->
  DNorm (d_ldexp x n) /\ DV (d_ldexp x n) = DV x * bp n.
Proof.
  intros [[F0 F1] N] Hn S0 S1. unfold DV in N. change RN with rn in N. symmetry in N.
  destruct (scale1 _ n Hn F0 S0) as [A0 B0]. destruct (scale1 _ n Hn F1 S1) as [A1 B1].
  assert (EV : DV (d_ldexp x n) = V (d0 x) * bp n + V (d1 x) * bp n) by (unfold DV, d_ldexp; cbn [d0 d1]; now rewrite B0, B1).
  split; [split; [now split|]|rewrite EV; unfold DV; ring].
  rewrite EV. cbn [d0 d_ldexp]. rewrite B0. symmetry. apply norm_scale; auto using V_fmt, fmt_m1074, scales_fmt.
Qed.
Lemma q_ldexp_ok x n : QNorm x -> (-1023 <= n <= 1023)%Z -> scales (q0 x) n -> scales (q1 x) n -> scales (q2 x) n -> scales (q3 x) n ->
  QNorm (q_ldexp x n) /\ QV (q_ldexp x n) = QV x * bp n.
Proof.
  intros [[F0 [F1 [F2 F3]]] [N0 [N1 N2]]] Hn S0 S1 S2 S3. unfold QV in N0. change RN with rn in *.
  destruct (scale1 _ n Hn F0 S0) as [A0 B0]. destruct (scale1 _ n Hn F1 S1) as [A1 B1]. destruct (scale1 _ n Hn F2 S2) as [A2 B2]. destruct (scale1 _ n Hn F3 S3) as [A3 B3].
  assert (M : forall y z, mult2 (-1074) (y * bp n) -> mult2 (-1074) (z * bp n) -> mult2 (-1074) ((y + z) * bp n)) by (intros; rewrite Rmult_plus_distr_r; now apply mult2_plus).
  split; [split; [now repeat split|]|unfold QV, q_ldexp; cbn [q0 q1 q2 q3]; rewrite B0, B1, B2, B3; ring].
  unfold QV, q_ldexp; cbn [q0 q1 q2 q3]; rewrite B0, B1, B2, B3. change RN with rn. refine (conj _ (conj _ _)).
  - symmetry. replace (_ + _) with (V (q0 x) * bp n + (V (q1 x) + V (q2 x) + V (q3 x)) * bp n) by ring. apply norm_scale; auto using V_fmt, fmt_m1074, scales_fmt.
    + repeat apply mult2_plus; auto using V_fmt, fmt_m1074.
    + rewrite N0 at 2. f_equal. ring.
  - symmetry. replace (_ + _) with (V (q1 x) * bp n + (V (q2 x) + V (q3 x)) * bp n) by ring. apply norm_scale; auto using V_fmt, fmt_m1074, scales_fmt.
    + apply mult2_plus; auto using V_fmt, fmt_m1074.
    + rewrite N1 at 2. f_equal. ring.
  - symmetry. apply norm_scale; auto using V_fmt, fmt_m1074, scales_fmt.
Qed.


(** outside that range the intermediate power of two is 0 or infinite *)
Lemma ldexp_refuted :
  (exists x n, DNorm x /\ scales (d0 x) n /\ scales (d1 x) n /\ DV x * bp n = bp (-130) /\ DV (d_ldexp x n) = 0) /\
  (exists x n, DNorm x /\ scales (d0 x) n /\ scales (d1 x) n /\ DV x * bp n = bp 130 /\ ~ Fin (d0 (d_ldexp x n))).
Proof.
  assert (S : forall k, (-1000 <= k <= 950)%Z -> V (f2pow 1 k) = bp k).
  { intros k Hk. destruct (f2pow_exact 1 k) as [_ E]; [lia|lia|lia|]. rewrite E. ring. }
  assert (b0 : forall n k m : Z, (n + k = m)%Z -> bp n * bp k = bp m). { intros n k m E. now rewrite <- bpow_plus, E. }
  assert (r1 : forall m, (-1074 <= m < 1024)%Z -> RN (bp m) = bp m /\ Rabs (bp m) < bpow radix2 1024).
  { intros m Hm. split. apply (rn_id (bp m)). apply fmt_bpow. lia. rewrite Rabs_pos_eq by apply bpow_ge_0. apply bpow_lt. lia. }
  assert (r0 : forall n, scales F64.f0 n).
  { intros n. unfold scales. change (V F64.f0) with 0. rewrite Rmult_0_l. split. apply rn_0. rewrite Rabs_R0. apply bpow_gt_0. }
  split.
  - exists (mkD (f2pow 1 900) F64.f0), (-1030)%Z. refine (conj _ (conj _ (conj (r0 _) (conj _ _)))).
    + apply dnormx_ok. vm_compute. reflexivity.
    + unfold scales. cbn [d0]. rewrite S, (b0 _ _ (-130)%Z) by lia. apply r1. lia.
    + unfold DV. cbn [d0 d1]. change (V F64.f0) with 0. rewrite Rplus_0_r, S by lia. apply b0. lia.
    + rewrite zd_ok. replace (zd _) with 0%Z by (vm_compute; reflexivity). ring.
  - exists (mkD (f2pow 1 (-900)) F64.f0), 1030%Z. refine (conj _ (conj _ (conj (r0 _) (conj _ _)))).
    + apply dnormx_ok. vm_compute. reflexivity.
    + unfold scales. cbn [d0]. rewrite S, (b0 _ _ 130%Z) by lia. apply r1. lia.
    + unfold DV. cbn [d0 d1]. change (V F64.f0) with 0. rewrite Rplus_0_r, S by lia. apply b0. lia.
    + unfold Fin. vm_compute. discriminate.
Qed.

(** ** trunc of a Quad *)
Lemma QV_sign x : QNorm x -> (0 <= V (q0 x) -> 0 <= QV x) /\ (V (q0 x) < 0 -> QV x < 0).
Proof.
  intros [_ [N0 [N1 N2]]]. change RN with rn in *. split; intros H.
  - apply Rnot_lt_le. intros Q. destruct (Req_dec (V (q0 x)) 0) as [Z|Z].
    + (* a zero leading component leaves nothing below it *)
      rewrite Z in N0. assert (Z1 : V (q1 x) = 0).
      { rewrite N1. rewrite N0. unfold QV. rewrite Z. f_equal. ring. }
      assert (Z2 : V (q2 x) = 0). { rewrite N2. rewrite <- Z1, N1, Z1. f_equal. ring. }
      assert (Z3 : V (q3 x) = 0). { rewrite Z2, Rplus_0_l, rn_id in N2 by apply V_fmt. now symmetry. }
      unfold QV in Q. rewrite Z, Z1, Z2, Z3 in Q. lra.
    + assert (V (q0 x) <= 0); [|lra]. rewrite N0. apply rn_le_0. lra.
  - apply Rnot_le_lt. intros Q. assert (0 <= V (q0 x)); [|lra]. rewrite N0. apply rn_ge_0. lra.
Qed.
Definition qtrunc_bad (h0 h1 h2 h3 : R) : Prop :=
  (0 <= h0 /\ qfloor_bad h0 h1 h2 h3) \/ (h0 < 0 /\ qfloor_bad (- h0) (- h1) (- h2) (- h3)).
Lemma q_trunc_ok x : QNorm x -> Rabs (V (q0 x)) <= bp 1000 -> ~ qtrunc_bad (V (q0 x)) (V (q1 x)) (V (q2 x)) (V (q3 x)) ->
  QFin (q_trunc x) /\ QV (q_trunc x) = IZR (Ztrunc (QV x)).
Proof.
  intros N B NB. destruct (QV_sign x N) as [S1 S2]. unfold q_trunc. change (fgeb (q0 x) F64.f0) with (fleb F64.f0 (q0 x)).
  assert (F0 := proj1 (proj1 N)). rewrite (fleb_ok F64.f0 (q0 x)) by (auto; reflexivity). change (V F64.f0) with 0.
  unfold qtrunc_bad in NB. case Rle_bool_spec; intros C.
  - rewrite Ztrunc_floor by auto. apply q_floor_ok; auto.
  - rewrite Ztrunc_ceil by (apply Rlt_le; auto). apply q_ceil_ok; auto.
Qed.
