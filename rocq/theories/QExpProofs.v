(** * Accuracy of Quad exp: series, squarings, reduction *)
From Coq Require Import ZArith Reals List Bool Lia Lra Psatz.
From Flocq Require Import Core IEEE754.BinarySingleNaN.
From Verif Require Import RN F64 F64Facts Prim DoubleM QuadM Spec EFT SpecialProofs DAddProofs DMulProofs ExactProofs QExactProofs LawProofs OrderProofs QuadSpec QAddAcc QAddThms QMulAcc QMulThms QGeoAcc QGeoMul QSqrAcc QGeoSqr
  LdexpProofs Exact BaseConst ConstM ConstSpec ConstProofs TableProofs AlgM TransM ExpProofs.
Import ListNotations.
Local Open Scope R_scope.

Definition dl : R := bp (-137).
Definition mu : R := bp (-146).
Lemma dl_mu : 0 < mu /\ dl = 512 * mu /\ mu <= / 10000000000000000000000000000000000000000000.
Proof.
  split; [apply bpow_gt_0|]. split; [exact (bp_split (-146) 9 ltac:(lia))|].
  unfold mu. change (bp (-146)) with (/ 89202980794122492566142873090593446023921664). lra.
Qed.

(** [p] is z up to a relative error of c 2^-146 *)
Definition rl (c : R) (p : Quad) (z : R) : Prop := QGeoS p /\ Rabs (QV p - z) <= c * mu * Rabs z.
Lemma rl_mono c d p z : c <= d -> rl c p z -> rl d p z.
Proof.
  intros H [G E]. split; [exact G|]. apply Rle_trans with (1 := E). apply Rmult_le_compat_r; [apply Rabs_pos|]. apply Rmult_le_compat_r; [apply Rlt_le, dl_mu|exact H].
Qed.
Lemma rl_self x : QGeoS x -> rl 0 x (QV x).
Proof. intros G. split; [exact G|]. rewrite Rminus_diag_eq, Rabs_R0 by reflexivity. lra. Qed.
Lemma rl_abs c p z : 0 <= c <= 1000 -> rl c p z -> (1 - / 1000000) * Rabs z <= Rabs (QV p) <= (1 + / 1000000) * Rabs z.
Proof.
  intros Hc [_ E]. destruct dl_mu as (Pm & _ & Hm). assert (P := Rabs_pos z).
  assert (K : c * mu * Rabs z <= / 1000000 * Rabs z) by (apply Rmult_le_compat_r; [exact P|]; nra).
  assert (T1 := tri _ _ _ _ E (Rle_refl _)). assert (T2 := tri2 _ _ _ _ E (Rle_refl _)). lra.
Qed.
Lemma rl_mul c d p q z y : 0 <= c <= 100 -> 0 <= d <= 100 -> rl c p z -> rl d q y -> Rabs z <= bp 400 -> Rabs y <= bp 400 -> bp (-480) <= Rabs (z * y) ->
  QGeo (q_mul p q) /\ rl (c + d + 1001 / 1000) (q_mul p q) (z * y).
Proof.
  intros Hc Hd Rp Rq Bz By Lo. assert (Ap := rl_abs c p z ltac:(lra) Rp). assert (Aq := rl_abs d q y ltac:(lra) Rq).
  destruct Rp as [Gp Ep], Rq as [Gq Eq]. destruct dl_mu as (Pm & _ & Hm).
  assert (Pz := Rabs_pos z). assert (Py := Rabs_pos y). assert (Pp := Rabs_pos (QV p)). assert (Pq := Rabs_pos (QV q)).
  assert (B4 : 2 * bp 400 <= bp 499) by (change 2 with (bp 1); rewrite <- bpow_plus; apply bpow_le; lia). assert (P4 := bpow_gt_0 radix2 400).
  rewrite Rabs_mult in Lo.
  assert (LL : (1 - / 1000000) * (1 - / 1000000) * (Rabs z * Rabs y) <= Rabs (QV p) * Rabs (QV q) <= (1 + / 1000000) * (1 + / 1000000) * (Rabs z * Rabs y)).
  { replace ((1 - / 1000000) * (1 - / 1000000) * (Rabs z * Rabs y)) with (((1 - / 1000000) * Rabs z) * ((1 - / 1000000) * Rabs y)) by ring.
    replace ((1 + / 1000000) * (1 + / 1000000) * (Rabs z * Rabs y)) with (((1 + / 1000000) * Rabs z) * ((1 + / 1000000) * Rabs y)) by ring.
    split; apply Rmult_le_compat; lra. }
  assert (L5 : 2 * bp (-500) <= bp (-480)) by (change 2 with (bp 1); rewrite <- bpow_plus; apply bpow_le; lia). assert (P5 := bpow_gt_0 radix2 (-500)).
  destruct (q_mul_geoS p q Gp Gq) as [G E]; [lra|lra|rewrite Rabs_mult; lra|]. fold mu in E.
  split; [exact G|]. split; [now apply QGeoS_of|].
  replace (QV (q_mul p q) - z * y) with ((QV (q_mul p q) - QV p * QV q) + ((QV p - z) * (QV q - y) + z * (QV q - y) + (QV p - z) * y)) by ring.
  rewrite Rabs_mult in E |- *. set (m := Rabs z * Rabs y) in *.
  assert (K1 : Rabs (z * (QV q - y)) <= d * mu * m). { rewrite Rabs_mult. unfold m. replace (d * mu * (Rabs z * Rabs y)) with (Rabs z * (d * mu * Rabs y)) by ring. apply Rmult_le_compat_l; lra. }
  assert (K2 : Rabs ((QV p - z) * y) <= c * mu * m). { rewrite Rabs_mult. unfold m. replace (c * mu * (Rabs z * Rabs y)) with ((c * mu * Rabs z) * Rabs y) by ring. apply Rmult_le_compat_r; lra. }
  assert (K3 : Rabs ((QV p - z) * (QV q - y)) <= / 1000000 * mu * m).
  { rewrite Rabs_mult. apply Rle_trans with ((c * mu * Rabs z) * (d * mu * Rabs y)); [apply Rmult_le_compat; auto using Rabs_pos|].
    replace ((c * mu * Rabs z) * (d * mu * Rabs y)) with ((c * d * mu) * mu * m) by (unfold m; ring). apply Rmult_le_compat_r; [unfold m; apply Rmult_le_pos; lra|]. apply Rmult_le_compat_r; [lra|].
    assert (c * d <= 10000) by nra. nra. }
  assert (K4 : mu * (Rabs (QV p) * Rabs (QV q)) <= mu * ((1 + / 1000000) * (1 + / 1000000) * m)) by (apply Rmult_le_compat_l; lra).
  assert (Pmm : 0 <= mu * m) by (apply Rmult_le_pos; [lra|unfold m; apply Rmult_le_pos; lra]).
  replace ((c + d + 1001 / 1000) * mu * m) with (c * mu * m + d * mu * m + 1001 / 1000 * (mu * m)) by ring.
  replace (/ 1000000 * mu * m) with (/ 1000000 * (mu * m)) in K3 by ring.
  replace (mu * ((1 + / 1000000) * (1 + / 1000000) * m)) with ((1 + / 1000000) * (1 + / 1000000) * (mu * m)) in K4 by ring.
  set (A := QV (q_mul p q) - QV p * QV q) in *. set (B := (QV p - z) * (QV q - y)) in *. set (C := z * (QV q - y)) in *. set (D := (QV p - z) * y) in *.
  set (c1 := c * mu * m) in *. set (d1 := d * mu * m) in *. clearbody A B C D c1 d1.
  assert (T1 := Rabs_triang A (B + C + D)). assert (T2 := Rabs_triang (B + C) D). assert (T3 := Rabs_triang B C). lra.
Qed.
Lemma rl_sqr c p z : 0 <= c <= 100 -> rl c p z -> Rabs z <= bp 400 -> bp (-480) <= z * z ->
  QGeo (q_sqr p) /\ rl (2 * c + 1001 / 1000) (q_sqr p) (z * z).
Proof.
  intros Hc Rp Bz Lo. assert (Ap := rl_abs c p z ltac:(lra) Rp).
  destruct Rp as [Gp Ep]. destruct dl_mu as (Pm & _ & Hm).
  assert (Pz := Rabs_pos z). assert (Pp := Rabs_pos (QV p)).
  assert (B4 : 2 * bp 400 <= bp 498) by (change 2 with (bp 1); rewrite <- bpow_plus; apply bpow_le; lia). assert (P4 := bpow_gt_0 radix2 400).
  assert (EZ : z * z = Rabs z * Rabs z) by (rewrite <- Rabs_mult, Rabs_pos_eq; [reflexivity|apply Rle_0_sqr]).
  assert (EP : QV p * QV p = Rabs (QV p) * Rabs (QV p)) by (rewrite <- Rabs_mult, Rabs_pos_eq; [reflexivity|apply Rle_0_sqr]).
  rewrite EZ in Lo.
  assert (LL : (1 - / 1000000) * (1 - / 1000000) * (Rabs z * Rabs z) <= Rabs (QV p) * Rabs (QV p) <= (1 + / 1000000) * (1 + / 1000000) * (Rabs z * Rabs z)).
  { replace ((1 - / 1000000) * (1 - / 1000000) * (Rabs z * Rabs z)) with (((1 - / 1000000) * Rabs z) * ((1 - / 1000000) * Rabs z)) by ring.
    replace ((1 + / 1000000) * (1 + / 1000000) * (Rabs z * Rabs z)) with (((1 + / 1000000) * Rabs z) * ((1 + / 1000000) * Rabs z)) by ring.
    split; apply Rmult_le_compat; lra. }
  assert (L5 : 2 * bp (-500) <= bp (-480)) by (change 2 with (bp 1); rewrite <- bpow_plus; apply bpow_le; lia). assert (P5 := bpow_gt_0 radix2 (-500)).
  destruct (q_sqr_geoS p Gp) as [G E]; [lra|rewrite EP; lra|]. fold mu in E.
  split; [exact G|]. split; [now apply QGeoS_of|].
  replace (QV (q_sqr p) - z * z) with ((QV (q_sqr p) - QV p * QV p) + ((QV p - z) * (QV p - z) + 2 * (z * (QV p - z)))) by ring.
  rewrite EP in E at 2. rewrite Rabs_mult. set (m := Rabs z * Rabs z) in *.
  assert (K1 : Rabs (z * (QV p - z)) <= c * mu * m). { rewrite Rabs_mult. unfold m. replace (c * mu * (Rabs z * Rabs z)) with (Rabs z * (c * mu * Rabs z)) by ring. apply Rmult_le_compat_l; lra. }
  assert (K3 : Rabs ((QV p - z) * (QV p - z)) <= / 1000000 * mu * m).
  { rewrite Rabs_mult. apply Rle_trans with ((c * mu * Rabs z) * (c * mu * Rabs z)); [apply Rmult_le_compat; auto using Rabs_pos|].
    replace ((c * mu * Rabs z) * (c * mu * Rabs z)) with ((c * c * mu) * mu * m) by (unfold m; ring). apply Rmult_le_compat_r; [unfold m; apply Rmult_le_pos; lra|]. apply Rmult_le_compat_r; [lra|].
    assert (c * c <= 10000) by nra. nra. }
  assert (K4 : mu * (Rabs (QV p) * Rabs (QV p)) <= mu * ((1 + / 1000000) * (1 + / 1000000) * m)) by (apply Rmult_le_compat_l; lra).
  assert (Pmm : 0 <= mu * m) by (apply Rmult_le_pos; [lra|unfold m; apply Rmult_le_pos; lra]).
  replace ((2 * c + 1001 / 1000) * mu * m) with (2 * (c * mu * m) + 1001 / 1000 * (mu * m)) by ring.
  replace (/ 1000000 * mu * m) with (/ 1000000 * (mu * m)) in K3 by ring.
  replace (mu * ((1 + / 1000000) * (1 + / 1000000) * m)) with ((1 + / 1000000) * (1 + / 1000000) * (mu * m)) in K4 by ring.
  set (A := QV (q_sqr p) - QV p * QV p) in *. set (B := (QV p - z) * (QV p - z)) in *. set (C := z * (QV p - z)) in *.
  set (c1 := c * mu * m) in *. clearbody A B C c1.
  assert (T1 := Rabs_triang A (B + 2 * C)). assert (T2 := Rabs_triang B (2 * C)). rewrite (Rabs_mult 2), (Rabs_pos_eq 2) in T2 by lra. lra.
Qed.

(** ** scalings *)
Lemma scaled_fmul n a f : FV f (bp n) -> Fin a -> Rabs (V a * bp n) <= bp 1023 -> scaled n a (fmul a f).
Proof.
  intros [Ff Vf] Fa B. destruct (fmul_ok a f Fa Ff) as (A1 & A2 & _).
  { rewrite Vf. apply Rle_lt_trans with (bp 1023); [|apply bpow_lt; lia]. apply rn_abs_le; [apply fmt_bpow; lia|exact B]. }
  split; [exact A1|]. rewrite A2, Vf. reflexivity.
Qed.
Lemma scale_geo n x f : (-1074 <= n)%Z -> FV f (bp n) -> QGeo x -> bp (-799) <= Rabs (QV x) * bp n -> Rabs (QV x) * bp n <= bp 1022 ->
  QGeoS (q_mul_pwr2 x f) /\ Rabs (QV (q_mul_pwr2 x f) - QV x * bp n) <= bp (-1073).
Proof.
  intros Hn Ff G Lo Hi. assert (I := QGeo_hi x G). assert (J := QGeo_le x G). assert (Pn := bpow_gt_0 radix2 n). assert (P0 := Rabs_pos (V (q0 x))).
  assert (B2 : 2 * bp 1022 = bp 1023) by (change 2 with (bp 1); rewrite <- bpow_plus; reflexivity). assert (P2 := bpow_gt_0 radix2 1022).
  assert (H0 : Rabs (V (q0 x)) * bp n <= bp 1023).
  { assert (K : Rabs (V (q0 x)) * bp n <= (1 + / 524288) * Rabs (QV x) * bp n) by (apply Rmult_le_compat_r; lra). lra. }
  assert (H1 : bp (-800) <= Rabs (V (q0 x)) * bp n).
  { assert (K : Rabs (QV x) * bp n <= (1 + / 524288) * Rabs (V (q0 x)) * bp n) by (apply Rmult_le_compat_r; lra).
    assert (2 * bp (-800) = bp (-799)) by (change 2 with (bp 1); rewrite <- bpow_plus; reflexivity). assert (P := bpow_gt_0 radix2 (-800)). lra. }
  assert (GG := G). destruct GG as ((F0 & F1 & F2 & F3) & C1 & C2 & C3 & _). change (bpow radix2 (-53)) with u in *.
  assert (S : forall a, Fin a -> Rabs (V a) <= Rabs (V (q0 x)) -> scaled n a (fmul a f)).
  { intros a Fa Ba. apply scaled_fmul; [exact Ff|exact Fa|]. rewrite Rabs_mult, (Rabs_pos_eq (bp n)) by lra. apply Rle_trans with (2 := H0). apply Rmult_le_compat_r; lra. }
  apply (QGeo_scaled n x (q_mul_pwr2 x f)); unfold q_mul_pwr2; cbn [q0 q1 q2 q3]; first [assumption|apply S; [assumption|lra]].
Qed.

(** ** comparison with the stopping threshold *)
Lemma q_abs_hi t : Fin (q0 t) -> Fin (q0 (q_abs t)) /\ V (q0 (q_abs t)) = Rabs (V (q0 t)).
Proof.
  intros F. unfold q_abs, q_is_sign_negative. destruct (fsign_neg (q0 t)) eqn:E.
  - destruct (fneg_ok _ F) as [A B]. cbn [q_neg q0]. split; [exact A|]. rewrite B, Rabs_left1; [reflexivity|now apply Fin_sign_V].
  - split; [exact F|]. rewrite Rabs_pos_eq; [reflexivity|now apply Fin_sign_V'].
Qed.
Lemma q_le_hi x y : Fin (q0 x) -> Fin (q0 y) -> if q_le x y then V (q0 x) <= V (q0 y) else V (q0 y) <= V (q0 x).
Proof.
  intros Fx Fy. unfold q_le, q_partial_cmp. rewrite (fcmp_ok _ _ Fx Fy).
  destruct (Rcompare_spec (V (q0 x)) (V (q0 y))) as [H|H|H]; [lra| |lra].
  repeat match goal with |- context [match ?e with _ => _ end] => destruct e end; lra.
Qed.
Definition q_exp_eps : Quad := q_mul_pwr2 Q_EPSILON (q0 Q_INV_K).
Lemma q_exp_eps_ok : Fin (q0 q_exp_eps) /\ bp (-226) <= V (q0 q_exp_eps) <= bp (-224).
Proof.
  split; [vm_compute; reflexivity|].
  assert (E : V (q0 q_exp_eps) = IZR (zv (q0 q_exp_eps)) * bp (-1074)) by apply zv_ok. rewrite E.
  assert (K : (2 ^ 848 <=? zv (q0 q_exp_eps))%Z && (zv (q0 q_exp_eps) <=? 2 ^ 850)%Z = true) by (vm_compute; reflexivity).
  apply andb_prop in K. destruct K as [K1 K2]. apply Z.leb_le, IZR_le in K1, K2.
  change (2 ^ 848)%Z with (radix2 ^ 848)%Z in K1. change (2 ^ 850)%Z with (radix2 ^ 850)%Z in K2. rewrite IZR_Zpower in K1, K2 by lia.
  assert (P := bpow_gt_0 radix2 (-1074)).
  change (bp (-226)) with (bp (848 + -1074)). change (bp (-224)) with (bp (850 + -1074)). rewrite !bpow_plus. split; apply Rmult_le_compat_r; lra.
Qed.

(** ** non-cancelling sums *)
Lemma add_nc x y : QGeoS x -> QGeoS y -> Rabs (QV x) <= bp 900 -> Rabs (QV y) <= 9 / 10 * Rabs (QV x) ->
  QGeo (q_add x y) /\ Rabs (QV (q_add x y) - (QV x + QV y)) <= dl * (Rabs (QV x) + Rabs (QV y)).
Proof.
  intros Gx Gy B H. assert (P := Rabs_pos (QV x)). assert (B9 : bp 900 <= bp 999) by (apply bpow_le; lia).
  apply q_add_geoS; auto; [lra|lra|]. change (bp (-30)) with (/ 1073741824).
  assert (T := Rabs_triang (QV x + QV y) (- QV y)). rewrite Rabs_Ropp in T. replace (QV x + QV y + - QV y) with (QV x) in T by ring. lra.
Qed.
Lemma b400 y : Rabs y <= 2000 -> Rabs y <= bp 400.
Proof. intros H. apply Rle_trans with (1 := H). apply Rle_trans with (bp 11); [cbn; lra|apply bpow_le; lia]. Qed.
Lemma b900 y : Rabs y <= 2000 -> Rabs y <= bp 900.
Proof. intros H. apply Rle_trans with (1 := H). apply Rle_trans with (bp 11); [cbn; lra|apply bpow_le; lia]. Qed.
Lemma norm_geoS x : QNorm x -> QGeoS x.
Proof. intros N. apply QGeoS_of, QGeo_dec, QNorm_dec, N. Qed.
Lemma rl_const x z : QNorm x -> approx (QV x) z 1 (-212) -> rl 1 x z.
Proof.
  intros N A. split; [now apply norm_geoS|]. unfold approx in A. apply Rle_trans with (1 := A). apply Rmult_le_compat_r; [apply Rabs_pos|].
  change (IZR 1) with 1. apply Rmult_le_compat_l; [lra|]. unfold mu. apply bpow_le. lia.
Qed.
Lemma q_inv_facts_norm i : (i < 15)%nat -> QNorm (nth i Q_INV_FACTS Q_ZERO).
Proof.
  intros H. apply qnormx_ok. assert (K : forallb qnormx Q_INV_FACTS = true) by (vm_compute; reflexivity).
  rewrite forallb_forall in K. apply K. apply nth_In. exact H.
Qed.
Lemma q_fact_rl i : (i < 10)%nat -> rl 1 (nth i Q_INV_FACTS Q_ZERO) (/ INR (fact (i + 3))) /\ / 500000000 <= / INR (fact (i + 3)) <= / 6.
Proof.
  intros H. split.
  - apply rl_const; [apply q_inv_facts_norm; lia|]. apply (proj2 q_inv_facts_ok). lia.
  - split.
    + apply Rle_trans with (/ 479001600); [lra|]. rewrite <- fz_12. apply Rinv_le_contravar; [apply INR_fact_lt_0|]. apply le_INR, fact_le. lia.
    + rewrite <- fz_3. apply Rinv_le_contravar; [apply INR_fact_lt_0|]. apply le_INR, fact_le. lia.
Qed.

(** ** the Taylor loop *)
Section Small.
Variable x : Quad.
Hypothesis Gx : QGeoS x.
Let X := QV x.
Let w := Rabs X.
Hypothesis Hw : bp (-100) <= w <= / 187000.
Lemma w_pos : 0 < w. Proof. assert (P := bpow_gt_0 radix2 (-100)). lra. Qed.
Lemma X_pow k : Rabs (X ^ k) = w ^ k. Proof. unfold w. now rewrite RPow_abs. Qed.
Lemma w_pow_pos k : 0 < w ^ k. Proof. apply pow_lt, w_pos. Qed.
Lemma w_pow_le1 k : w ^ k <= 1.
Proof. rewrite <- (pow1 k). apply pow_incr. assert (P := w_pos). lra. Qed.
Lemma term_abs k : Rabs (X ^ k / INR (fact k)) = w ^ k * / INR (fact k).
Proof. unfold Rdiv. rewrite Rabs_mult, X_pow, (Rabs_pos_eq (/ _)) by (left; apply Rinv_0_lt_compat, INR_fact_lt_0). reflexivity. Qed.
Lemma ifact_le1 k : 0 < / INR (fact k) <= 1.
Proof. assert (G := fact_ge1 k). split; [apply Rinv_0_lt_compat; lra|]. rewrite <- Rinv_1. apply Rinv_le_contravar; lra. Qed.
Lemma esum_near n : Rabs (esum (S n) X - 1 - X) <= w / 10000.
Proof.
  assert (P := w_pos). assert (K : forall m, Rabs (exp X - esum (S m) X) <= w / 20000).
  { intros m. apply Rle_trans with (1 := exp_tail (S m) X ltac:(fold w; lra)). fold w.
    change (w ^ S (S m)) with (w * (w * w ^ m)). assert (A := w_pow_le1 m). assert (B := w_pow_pos m). assert (C := ifact_le1 (S (S m))).
    unfold Rdiv. assert (D : w * (w * w ^ m) * / INR (fact (S (S m))) <= w * (/ 187000 * 1) * 1).
    { apply Rmult_le_compat; [apply Rmult_le_pos; [lra|apply Rmult_le_pos; lra]|lra| |lra]. apply Rmult_le_compat_l; [lra|]. apply Rmult_le_compat; lra. }
    lra. }
  assert (K1 := K n). assert (K0 := K 0%nat). cbn [esum pow] in K0. change (INR (fact 1)) with 1 in K0.
  replace (esum (S n) X - 1 - X) with (- (exp X - esum (S n) X) + (exp X - (1 + X * 1 / 1))) by field.
  eapply Rle_trans; [apply Rabs_triang|]. rewrite Rabs_Ropp. lra.
Qed.
Definition JQ (i : nat) (r p t : Quad) : Prop :=
  QGeoS r /\ rl (4 + 2 * INR i) p (X ^ (i + 3)) /\ rl 30 t (X ^ (i + 3) / INR (fact (i + 3))) /\
  Rabs (QV r - (esum (i + 2) X - 1)) <= INR (i + 1) * (101 / 100 * (dl * w)) /\ bp (-310) <= w ^ (i + 3).
Lemma p_nextQ c k p : 0 <= c <= 50 -> rl c p (X ^ k) -> bp (-330) <= w ^ k -> rl (c + 2) (q_mul p x) (X ^ S k).
Proof.
  intros Hc Rp Lo. assert (P := w_pos). assert (L1 := w_pow_le1 k).
  assert (L2 : bp (-480) <= w ^ k * w).
  { apply Rle_trans with (bp (-330) * bp (-100)); [rewrite <- bpow_plus; apply bpow_le; lia|]. apply Rmult_le_compat; try apply bpow_ge_0; lra. }
  destruct (rl_mul c 0 p x (X ^ k) X) as [_ R]; auto; [lra|lra|now apply rl_self|apply b400; rewrite X_pow; lra|apply b400; fold w; lra|rewrite Rabs_mult, X_pow; exact L2|].
  apply (rl_mono (c + 0 + 1001 / 1000)); [lra|]. replace (X ^ S k) with (X ^ k * X) by (cbn [pow]; ring). exact R.
Qed.
Lemma t_nextQ c i p : (i < 10)%nat -> 0 <= c <= 27 -> rl c p (X ^ (i + 3)) -> bp (-430) <= w ^ (i + 3) ->
  rl 30 (q_mul p (nth i Q_INV_FACTS Q_ZERO)) (X ^ (i + 3) / INR (fact (i + 3))).
Proof.
  intros Hi Hc Rp Lo. assert (L1 := w_pow_le1 (i + 3)). destruct (q_fact_rl i Hi) as [Rf Bf].
  set (g := / INR (fact (i + 3))) in *. unfold Rdiv. fold g.
  assert (L2 : bp (-480) <= w ^ (i + 3) * g).
  { apply Rle_trans with (bp (-430) * bp (-29)); [rewrite <- bpow_plus; apply bpow_le; lia|]. apply Rmult_le_compat; try apply bpow_ge_0; [lra|]. change (bp (-29)) with (/ 536870912). lra. }
  destruct (rl_mul c 1 p (nth i Q_INV_FACTS Q_ZERO) (X ^ (i + 3)) g) as [_ R]; auto; [lra|lra|apply b400; rewrite X_pow; lra|apply b400; rewrite Rabs_pos_eq; lra| |].
  { rewrite Rabs_mult, X_pow, (Rabs_pos_eq g) by lra. exact L2. }
  apply (rl_mono (c + 1 + 1001 / 1000)); [lra|exact R].
Qed.
Lemma r_nextQ i r t : (i <= 9)%nat -> QGeoS r -> Rabs (QV r - (esum (i + 2) X - 1)) <= INR (i + 1) * (101 / 100 * (dl * w)) ->
  rl 30 t (X ^ (i + 3) / INR (fact (i + 3))) ->
  QGeo (q_add r t) /\ Rabs (QV (q_add r t) - (esum (i + 3) X - 1)) <= INR (i + 2) * (101 / 100 * (dl * w)).
Proof.
  intros Hi Gr Hr Rt. assert (P := w_pos). destruct dl_mu as (Pm & Ed & Sm). assert (EN := esum_near (i + 1)). replace (S (i + 1)) with (i + 2)%nat in EN by lia.
  assert (I1 : INR (i + 2) = INR (i + 1) + 1) by (replace (i + 2)%nat with (S (i + 1)) by lia; apply S_INR).
  assert (I2 : INR (i + 1) <= 10) by (change 10 with (IZR (Z.of_nat 10)); rewrite <- INR_IZR_INZ; apply le_INR; lia).
  assert (I3 : 0 <= INR (i + 1)) by apply pos_INR.
  assert (Pdw : 0 < dl * w) by (apply Rmult_lt_0_compat; lra). assert (Sdw : dl * w <= / 1000000 * w) by (apply Rmult_le_compat_r; lra).
  assert (I4 : INR (i + 1) * (101 / 100 * (dl * w)) <= 10 * (101 / 100 * (dl * w))) by (apply Rmult_le_compat_r; lra).
  rewrite I1, Rmult_plus_distr_r, Rmult_1_l. set (e := INR (i + 1) * (101 / 100 * (dl * w))) in *. clearbody e.
  assert (ES : esum (i + 3) X = esum (i + 2) X + X ^ (i + 3) / INR (fact (i + 3))) by (replace (i + 3)%nat with (S (i + 2)) by lia; reflexivity).
  assert (TA := term_abs (i + 3)). rewrite ES. assert (RA := rl_abs 30 _ _ ltac:(lra) Rt). destruct Rt as [Gt Et].
  assert (TB : w ^ (i + 3) * / INR (fact (i + 3)) <= w / 10000).
  { replace (i + 3)%nat with (S (S (S i))) by lia. change (w ^ S (S (S i))) with (w * (w * (w * w ^ i))). assert (A := w_pow_le1 i). assert (B := w_pow_pos i). assert (C := ifact_le1 (S (S (S i)))).
    apply Rle_trans with (w * (/ 187000 * (1 * 1)) * 1); [|lra]. apply Rmult_le_compat; [apply Rmult_le_pos; [lra|]; apply Rmult_le_pos; [lra|apply Rmult_le_pos; lra]|lra| |lra].
    apply Rmult_le_compat_l; [lra|]. apply Rmult_le_compat; [lra|apply Rmult_le_pos; lra|lra|apply Rmult_le_compat; lra]. }
  rewrite <- TA in TB. set (T := X ^ (i + 3) / INR (fact (i + 3))) in *. set (E := esum (i + 2) X) in *. clearbody T E.
  assert (Br : Rabs (QV r - X) <= w / 1000).
  { replace (QV r - X) with ((QV r - (E - 1)) + (E - 1 - X)) by ring. eapply Rle_trans; [apply Rabs_triang|]. lra. }
  assert (R1 := tri _ _ _ w Br (Rle_refl _)). assert (R2 := tri2 _ _ _ _ Br (Rle_refl _)). fold w in R2. assert (PT := Rabs_pos T).
  destruct (add_nc r t Gr Gt) as [G A]; [apply b900; lra|lra|]. split; [exact G|].
  replace (QV (q_add r t) - (E + T - 1)) with ((QV (q_add r t) - (QV r + QV t)) + ((QV r - (E - 1)) + (QV t - T))) by ring.
  assert (K1 := Rabs_triang (QV (q_add r t) - (QV r + QV t)) ((QV r - (E - 1)) + (QV t - T))). assert (K2 := Rabs_triang (QV r - (E - 1)) (QV t - T)).
  assert (K3 : dl * (Rabs (QV r) + Rabs (QV t)) <= dl * (1002 / 1000 * w)) by (apply Rmult_le_compat_l; lra).
  assert (K4 : 30 * mu * Rabs T <= 30 * (dl / 512) * (w / 10000)) by (apply Rmult_le_compat; lra).
  replace (dl * (1002 / 1000 * w)) with (1002 / 1000 * (dl * w)) in K3 by ring. replace (30 * (dl / 512) * (w / 10000)) with (30 / 5120000 * (dl * w)) in K4 by field. lra.
Qed.
Definition postQ (r t : Quad) : Prop := QGeo (q_add r t) /\ Rabs (QV (q_add r t) - (exp X - 1)) <= 12 * (dl * w).
Lemma fin_stepQ i r t : (i <= 9)%nat -> QGeoS r -> Rabs (QV r - (esum (i + 2) X - 1)) <= INR (i + 1) * (101 / 100 * (dl * w)) ->
  rl 30 t (X ^ (i + 3) / INR (fact (i + 3))) -> Rabs (exp X - esum (i + 3) X) <= / 100 * (dl * w) -> postQ r t.
Proof.
  intros Hi Gr Hr Rt Hd. destruct (r_nextQ i r t Hi Gr Hr Rt) as [G E]. split; [exact G|]. assert (P := w_pos). destruct dl_mu as (Pm & Ed & _).
  assert (Pdw : 0 < dl * w) by (apply Rmult_lt_0_compat; lra).
  assert (I2 : INR (i + 2) <= 11) by (change 11 with (IZR (Z.of_nat 11)); rewrite <- INR_IZR_INZ; apply le_INR; lia).
  assert (I4 : INR (i + 2) * (101 / 100 * (dl * w)) <= 11 * (101 / 100 * (dl * w))) by (apply Rmult_le_compat_r; lra).
  replace (QV (q_add r t) - (exp X - 1)) with ((QV (q_add r t) - (esum (i + 3) X - 1)) - (exp X - esum (i + 3) X)) by ring.
  eapply Rle_trans; [apply Rabs_triang|]. rewrite Rabs_Ropp. lra.
Qed.
Lemma loop_okQ n : forall i r p t, (n + i = 9)%nat -> JQ i r p t ->
  let '(r', t') := q_exp_loop n i x q_exp_eps r p t in postQ r' t'.
Proof.
  assert (P := w_pos). destruct dl_mu as (Pm & Ed & Sm). assert (Pdw : 0 < dl * w) by (apply Rmult_lt_0_compat; lra).
  induction n as [|n IH]; intros i r p t Hn (Gr & Rp & Rt & Hr & Lo).
  - cbn [q_exp_loop]. assert (i = 9%nat) by lia. subst i. apply (fin_stepQ 9); auto.
    apply Rle_trans with (1 := exp_tail (9 + 3) X ltac:(fold w; lra)). fold w. change (S (9 + 3)) with 13%nat. unfold Rdiv.
    change (w ^ 13) with (w * w ^ 12). assert (C := ifact_le1 13).
    assert (W : w ^ 12 <= bp (-170)).
    { apply Rle_trans with ((/ 187000) ^ 12); [apply pow_incr; lra|]. change (bp (-170)) with (/ 1496577676626844588240573268701473812127674924007424). cbn [pow]. lra. }
    assert (W2 : bp (-170) <= / 1000 * dl). { apply Rle_trans with (bp (-10) * bp (-160)); [rewrite <- bpow_plus; apply bpow_le; lia|]. apply Rmult_le_compat; try apply bpow_ge_0; [change (bp (-10)) with (/ 1024); lra|unfold dl; apply bpow_le; lia]. }
    assert (K : w * w ^ 12 * / INR (fact 13) <= w * (/ 1000 * dl) * 1).
    { apply Rmult_le_compat; [apply Rmult_le_pos; [lra|apply Rlt_le, w_pow_pos]|lra| |lra]. apply Rmult_le_compat_l; lra. }
    lra.
  - cbn [q_exp_loop]. destruct (r_nextQ i r t ltac:(lia) Gr Hr Rt) as [Gr' Hr'].
    assert (Pi := pos_INR i). assert (Bi : INR i <= 8) by (change 8 with (IZR (Z.of_nat 8)); rewrite <- INR_IZR_INZ; apply le_INR; lia).
    assert (Rp' := p_nextQ (4 + 2 * INR i) (i + 3) p ltac:(lra) Rp).
    assert (L33 : bp (-330) <= bp (-310)) by (apply bpow_le; lia). specialize (Rp' ltac:(lra)).
    replace (S (i + 3)) with (S i + 3)%nat in Rp' by lia. apply (rl_mono _ (4 + 2 * INR (S i))) in Rp'; [|rewrite S_INR; lra].
    assert (Lo' : bp (-430) <= w ^ (S i + 3)).
    { replace (S i + 3)%nat with (S (i + 3)) by lia. change (w ^ S (i + 3)) with (w * w ^ (i + 3)). rewrite Rmult_comm.
      apply Rle_trans with (bp (-310) * bp (-100)); [rewrite <- bpow_plus; apply bpow_le; lia|]. apply Rmult_le_compat; try apply bpow_ge_0; lra. }
    assert (Rt' := t_nextQ (4 + 2 * INR (S i)) (S i) (q_mul p x) ltac:(lia) ltac:(rewrite S_INR; lra) Rp' Lo').
    replace (i + 3)%nat with (S i + 2)%nat in Hr' by lia. replace (i + 2)%nat with (S i + 1)%nat in Hr' by lia.
    set (t' := q_mul (q_mul p x) (nth (S i) Q_INV_FACTS Q_ZERO)) in *.
    assert (RA := rl_abs 30 _ _ ltac:(lra) Rt'). rewrite term_abs in RA.
    assert (Gt' := proj1 Rt'). assert (H1 := QGeoS_hi t' Gt'). assert (H2 := QGeoS_le t' Gt').
    destruct (q_abs_hi t' (proj1 (proj1 Gt'))) as [Fa Va]. destruct q_exp_eps_ok as [Fe Ve].
    assert (CMP := q_le_hi (q_abs t') q_exp_eps Fa Fe). rewrite Va in CMP. assert (C := ifact_le1 (S i + 3)).
    destruct (q_le (q_abs t') q_exp_eps).
    + apply (fin_stepQ (S i)); auto; [lia|now apply QGeoS_of|].
      apply Rle_trans with (1 := exp_tail (S i + 3) X ltac:(fold w; lra)). fold w.
      assert (BT : w ^ (S i + 3) * / INR (fact (S i + 3)) <= 2 * bp (-224)) by lra.
      change (fact (S (S i + 3))) with (S (S i + 3) * fact (S i + 3))%nat. rewrite mult_INR. change (w ^ S (S i + 3)) with (w * w ^ (S i + 3)).
      set (f := INR (fact (S i + 3))) in *. assert (Pf : 0 < f) by apply INR_fact_lt_0.
      assert (G : 1 <= INR (S (S i + 3))) by (apply (le_INR 1); lia). set (g := INR (S (S i + 3))) in *.
      replace (w * w ^ (S i + 3) / (g * f)) with (w * (w ^ (S i + 3) * / f) * / g) by (field; lra).
      assert (GI : 0 < / g <= 1) by (split; [apply Rinv_0_lt_compat; lra|rewrite <- Rinv_1; apply Rinv_le_contravar; lra]).
      assert (W2 : bp (-224) <= / 1000 * dl). { apply Rle_trans with (bp (-10) * bp (-160)); [rewrite <- bpow_plus; apply bpow_le; lia|]. apply Rmult_le_compat; try apply bpow_ge_0; [change (bp (-10)) with (/ 1024); lra|unfold dl; apply bpow_le; lia]. }
      assert (Pw := w_pow_pos (S i + 3)).
      assert (K : w * (w ^ (S i + 3) * / f) * / g <= w * (2 * (/ 1000 * dl)) * 1).
      { apply Rmult_le_compat; [apply Rmult_le_pos; [lra|apply Rmult_le_pos; lra]|lra| |lra]. apply Rmult_le_compat_l; lra. }
      lra.
    + apply IH; [lia|]. split; [now apply QGeoS_of|]. split; [exact Rp'|]. split; [exact Rt'|]. split; [exact Hr'|].
      assert (B26 : bp (-226) = 16 * bp (-230)) by exact (bp_split (-230) 4 ltac:(lia)). assert (B30 : bp (-310) <= bp (-230)) by (apply bpow_le; lia). assert (PB := bpow_gt_0 radix2 (-230)).
      assert (Pw := w_pow_pos (S i + 3)).
      assert (K : w ^ (S i + 3) * / INR (fact (S i + 3)) <= w ^ (S i + 3) * 1) by (apply Rmult_le_compat_l; lra). lra.
Qed.
Lemma half_fv : FV fhalf (bp (-1)).
Proof. split; [apply Fin_half|]. rewrite V_half. reflexivity. Qed.
Lemma exp_small_okQ : QGeo (q_exp_small x) /\ Rabs (QV (q_exp_small x) - (exp X - 1)) <= 12 * (dl * w).
Proof.
  unfold q_exp_small. fold q_exp_eps. assert (P := w_pos). destruct dl_mu as (Pm & Ed & Sm).
  assert (EX2 : X * X = w * w) by (unfold w; rewrite <- Rabs_mult, Rabs_pos_eq; [reflexivity|apply Rle_0_sqr]).
  assert (L2 : bp (-200) <= w * w) by (change (bp (-200)) with (bp (-100 + -100)); rewrite bpow_plus; apply Rmult_le_compat; try apply bpow_ge_0; lra).
  assert (L4 : bp (-480) <= bp (-200)) by (apply bpow_le; lia).
  destruct (rl_sqr 0 x X ltac:(lra) (rl_self x Gx)) as [Gp Rp]; [apply b400; fold w; lra|lra|]. set (p := q_sqr x) in *.
  assert (U2 : w * w <= / 187000 * w) by (apply Rmult_le_compat_r; lra). assert (PW : 0 < w * w) by (apply Rmult_lt_0_compat; lra).
  assert (RA := rl_abs (2 * 0 + 1001 / 1000) p (X * X) ltac:(lra) Rp). assert (Ep := proj2 Rp). rewrite EX2, (Rabs_pos_eq (w * w)) in Ep, RA by lra.
  assert (L7 : bp (-799) <= / 8 * bp (-200)). { replace (/ 8) with (bp (-3)) by (change (bp (-3)) with (/ 8); reflexivity). rewrite <- bpow_plus. apply bpow_le; lia. }
  destruct (scale_geo (-1) p fhalf ltac:(lia) half_fv Gp) as [Gh Eh]; [change (bp (-1)) with (/ 2); lra| |].
  { change (bp (-1)) with (/ 2). apply Rle_trans with 1; [lra|]. change 1 with (bp 0). apply bpow_le; lia. }
  change (bp (-1)) with (/ 2) in Eh. set (h := q_mul_pwr2 p fhalf) in *.
  assert (T73 : bp (-1073) <= / 1000 * mu * (w * w)).
  { apply Rle_trans with (bp (-10) * bp (-146) * bp (-200)); [rewrite <- !bpow_plus; apply bpow_le; lia|]. fold mu. change (bp (-10)) with (/ 1024). apply Rmult_le_compat; [apply Rmult_le_pos; lra|apply bpow_ge_0|apply Rmult_le_compat_r; lra|exact L2]. }
  assert (Pmw : 0 < mu * (w * w)) by (apply Rmult_lt_0_compat; lra).
  assert (Hh : Rabs (QV h - w * w / 2) <= mu * (w * w)).
  { replace (QV h - w * w / 2) with ((QV h - QV p * / 2) + (QV p - w * w) * / 2) by field. eapply Rle_trans; [apply Rabs_triang|].
    rewrite (Rabs_mult (QV p - w * w)), (Rabs_pos_eq (/ 2)) by lra. lra. }
  assert (SM : mu * (w * w) <= / 1000 * (w * w)) by (apply Rmult_le_compat_r; lra).
  assert (Bh : Rabs (QV h) <= w * w) by (assert (K := tri _ _ _ (w * w / 2) Hh); rewrite (Rabs_pos_eq (w * w / 2)) in K by lra; lra).
  destruct (add_nc x h Gx Gh) as [Gr Er]; [apply b900; fold X; fold w; lra|fold X; fold w; lra|]. fold X in Er. fold w in Er. set (r := q_add x h) in *.
  assert (Hr : Rabs (QV r - (esum (0 + 2) X - 1)) <= INR (0 + 1) * (101 / 100 * (dl * w))).
  { change (INR (0 + 1)) with 1. change (esum (0 + 2) X) with (1 + X ^ 1 / 1 + X ^ 2 / (1 + 1)).
    replace (QV r - (1 + X ^ 1 / 1 + X ^ 2 / (1 + 1) - 1)) with ((QV r - (X + QV h)) + (QV h - w * w / 2)) by (rewrite <- EX2; field).
    eapply Rle_trans; [apply Rabs_triang|].
    assert (K1 : dl * (w + Rabs (QV h)) <= dl * (1001 / 1000 * w)) by (apply Rmult_le_compat_l; lra).
    assert (K2 : mu * (w * w) <= mu * (/ 187000 * w)) by (apply Rmult_le_compat_l; lra).
    replace (mu * (/ 187000 * w)) with (/ 187000 * / 512 * (dl * w)) in K2 by (rewrite Ed; field).
    assert (0 < dl * w) by (apply Rmult_lt_0_compat; lra). lra. }
  assert (Rp2 : rl (1001 / 1000) p (X ^ 2)) by (replace (X ^ 2) with (X * X) by ring; apply (rl_mono (2 * 0 + 1001 / 1000)); [lra|exact Rp]).
  assert (Rp3 := p_nextQ (1001 / 1000) 2 p ltac:(lra) Rp2).
  assert (L33 : bp (-330) <= w ^ 2) by (replace (w ^ 2) with (w * w) by ring; apply Rle_trans with (2 := L2); apply bpow_le; lia). specialize (Rp3 L33).
  apply (rl_mono _ (4 + 2 * INR 0)) in Rp3; [|change (INR 0) with 0; lra].
  assert (L3 : bp (-310) <= w ^ 3). { replace (w ^ 3) with (w * w * w) by ring. apply Rle_trans with (bp (-200) * bp (-100)); [rewrite <- bpow_plus; apply bpow_le; lia|]. apply Rmult_le_compat; try apply bpow_ge_0; lra. }
  assert (L43 : bp (-430) <= bp (-310)) by (apply bpow_le; lia).
  assert (Rt := t_nextQ (4 + 2 * INR 0) 0 (q_mul p x) ltac:(lia) ltac:(change (INR 0) with 0; lra) Rp3 ltac:(cbn [Nat.add]; lra)).
  assert (L := loop_okQ 9 0 r (q_mul p x) (q_mul (q_mul p x) (nth 0 Q_INV_FACTS Q_ZERO)) eq_refl).
  destruct (q_exp_loop 9 0 x q_exp_eps r (q_mul p x) (q_mul (q_mul p x) (nth 0 Q_INV_FACTS Q_ZERO))) as [r' t'].
  apply L. split; [now apply QGeoS_of|]. split; [exact Rp3|]. split; [exact Rt|]. split; [exact Hr|exact L3].
Qed.
End Small.

(** ** squaring back up *)
Lemma two_fv : FV f2 (bp 1).
Proof. split; [apply Fin_2|]. rewrite V_2. reflexivity. Qed.
Lemma sq_stepQ r y c : QGeo r -> bp (-100) <= Rabs y <= 18 / 100 -> 0 <= c <= 1000 -> Rabs (QV r - (exp y - 1)) <= c * (dl * Rabs y) ->
  let r' := q_add (q_mul_pwr2 r f2) (q_sqr r) in
  QGeo r' /\ Rabs (QV r' - (exp (2 * y) - 1)) <= (c + 1001 / 1000) * (1 + 2 * Rabs y) * (dl * Rabs (2 * y)).
Proof.
  intros Gr Hy Hc Hr r'. destruct dl_mu as (Pm & Ed & Sm). rewrite (Rabs_mult 2 y), (Rabs_pos_eq 2) by lra. rewrite dbl.
  assert (EF := expm1_fine y ltac:(lra)). assert (ET := exp_tail0 1 y ltac:(lra)). cbn [esum fact pow Nat.mul Nat.add] in ET. change (INR 1) with 1 in ET.
  assert (P100 := bpow_gt_0 radix2 (-100)).
  assert (EL : 46 / 100 * Rabs y <= Rabs (exp y - 1)).
  { assert (K := Rabs_triang (exp y - 1) (- (exp y - (1 + y * 1 / 1)))). rewrite Rabs_Ropp in K. replace (exp y - 1 + - (exp y - (1 + y * 1 / 1))) with y in K by field.
    assert (K2 : Rabs y * (Rabs y * 1) <= 18 / 100 * Rabs y) by (rewrite Rmult_1_r; apply Rmult_le_compat_r; lra). lra. }
  set (E := exp y - 1) in *. clearbody E. set (s := Rabs y) in *. clearbody s. clear ET.
  assert (Ps : 0 < s) by lra. assert (Pss : 0 < s * s) by (apply Rmult_lt_0_compat; lra). assert (Sss : s * s <= 18 / 100 * s) by (apply Rmult_le_compat_r; lra).
  assert (S3 : s * (s * s) <= 18 / 100 * (s * s)) by (apply Rmult_le_compat_r; lra).
  assert (HE : Rabs E <= s + 77 / 100 * (s * s)) by lra. assert (HE' : Rabs E <= 114 / 100 * s) by lra.
  assert (Pds : 0 < dl * s) by (apply Rmult_lt_0_compat; lra). assert (Sds : c * (dl * s) <= / 1000000 * s).
  { apply Rle_trans with (1000 * (dl * s)); [apply Rmult_le_compat_r; lra|]. assert (dl * s <= / 1000000000 * s) by (apply Rmult_le_compat_r; lra). lra. }
  assert (R1 := tri _ _ _ _ Hr HE). assert (R2 := tri2 _ _ _ _ Hr (Rle_refl _)). assert (Pr := Rabs_pos (QV r)). assert (PE := Rabs_pos E).
  assert (R3 : 45 / 100 * s <= Rabs (QV r) <= 1141 / 1000 * s) by lra.
  assert (ER : QV r * QV r = Rabs (QV r) * Rabs (QV r)) by (rewrite <- Rabs_mult, Rabs_pos_eq; [reflexivity|apply Rle_0_sqr]).
  assert (R4 : Rabs (QV r) * Rabs (QV r) <= 1303 / 1000 * (s * s)).
  { apply Rle_trans with ((1141 / 1000 * s) * (1141 / 1000 * s)); [apply Rmult_le_compat; lra|]. assert (0 < s * s) by lra. lra. }
  assert (R5 : bp (-300) <= Rabs (QV r) * Rabs (QV r)).
  { replace (bp (-300)) with (bp (-150) * bp (-150)) by (rewrite <- bpow_plus; reflexivity).
    assert (bp (-150) <= Rabs (QV r)). { apply Rle_trans with (/ 4 * bp (-100)); [replace (/ 4) with (bp (-2)) by reflexivity; rewrite <- bpow_plus; apply bpow_le; lia|lra]. }
    apply Rmult_le_compat; try apply bpow_ge_0; lra. }
  destruct (scale_geo 1 r f2 ltac:(lia) two_fv Gr) as [Ga Ea].
  { change (bp 1) with 2. apply Rle_trans with (/ 4 * bp (-100)); [replace (/ 4) with (bp (-2)) by reflexivity; rewrite <- bpow_plus; apply bpow_le; lia|lra]. }
  { change (bp 1) with 2. apply Rle_trans with 1; [lra|]. change 1 with (bp 0). apply bpow_le; lia. }
  change (bp 1) with 2 in Ea. set (a := q_mul_pwr2 r f2) in *.
  destruct (q_sqr_geoS r (QGeoS_of r Gr)) as [Gb Eb].
  { apply Rle_trans with 1; [lra|]. change 1 with (bp 0). apply bpow_le; lia. }
  { rewrite ER. apply Rle_trans with (2 := R5). apply bpow_le. lia. }
  fold mu in Eb. set (b := q_sqr r) in *.
  assert (T73 : bp (-1073) <= / 1000000 * (dl * s)).
  { apply Rle_trans with (bp (-20) * (bp (-137) * bp (-100))); [rewrite <- !bpow_plus; apply bpow_le; lia|]. fold dl. change (bp (-20)) with (/ 1048576). apply Rmult_le_compat; [lra|apply Rmult_le_pos; lra|lra|]. apply Rmult_le_compat_l; lra. }
  assert (T74 : dl * s <= / 1000000 * s) by (apply Rmult_le_compat_r; lra).
  set (ra := Rabs (QV r)) in *. 
  assert (Bb : Rabs (QV b) <= 131 / 100 * (s * s)).
  { assert (K := tri _ _ _ (ra * ra) Eb). rewrite ER, (Rabs_pos_eq (ra * ra)) in K by (apply Rmult_le_pos; lra).
    assert (mu * (ra * ra) <= / 1000000 * (ra * ra)) by (apply Rmult_le_compat_r; [apply Rmult_le_pos; lra|lra]). lra. }
  assert (Ba : Rabs (QV a) <= 2 * ra + / 1000000 * s /\ 2 * ra <= Rabs (QV a) + / 1000000 * s).
  { assert (A2 : Rabs (QV r * 2) = 2 * ra) by (rewrite Rabs_mult, (Rabs_pos_eq 2) by lra; unfold ra; ring).
    assert (K1 := tri _ _ _ _ Ea (Rle_refl _)). assert (K2 := tri2 _ _ _ _ Ea (Rle_refl _)). lra. }
  destruct Ba as [Ba Ba'].
  destruct (add_nc a b Ga (QGeoS_of b Gb)) as [G A]; [apply b900; lra|lra|]. fold r' in G, A. split; [exact G|].
  replace (QV r' - (2 * E + E * E)) with ((QV r' - (QV a + QV b)) + ((QV a - QV r * 2) + ((QV b - QV r * QV r) + (QV r - E) * (2 + QV r + E)))) by ring.
  assert (K3 : Rabs ((QV r - E) * (2 + QV r + E)) <= c * (dl * s) * (2 + 23 / 10 * s)).
  { rewrite Rabs_mult. apply Rmult_le_compat; auto using Rabs_pos.
    assert (K1 := Rabs_triang (2 + QV r) E). assert (K2 := Rabs_triang 2 (QV r)). rewrite (Rabs_pos_eq 2) in K2 by lra. fold ra in K2. lra. }
  assert (K1 : dl * (Rabs (QV a) + Rabs (QV b)) <= dl * ((2 + / 100000) * s + 286 / 100 * (s * s))) by (apply Rmult_le_compat_l; lra).
  assert (K2 : mu * (QV r * QV r) <= mu * (1303 / 1000 * (s * s))) by (apply Rmult_le_compat_l; lra).
  replace (mu * (1303 / 1000 * (s * s))) with (1303 / 512000 * (dl * s * s)) in K2 by (rewrite Ed; field).
  set (A1 := QV r' - (QV a + QV b)) in *. set (A2 := QV a - QV r * 2) in *. set (A3 := QV b - QV r * QV r) in *. set (A4 := (QV r - E) * (2 + QV r + E)) in *.
  assert (TA := Rabs_triang A1 (A2 + (A3 + A4))). assert (TB := Rabs_triang A2 (A3 + A4)). assert (TC := Rabs_triang A3 A4).
  assert (Pdss : 0 < dl * s * s) by (apply Rmult_lt_0_compat; lra). assert (Pc1 : 0 <= c * (dl * s)) by (apply Rmult_le_pos; lra). assert (Pc2 : 0 <= c * (dl * s * s)) by (apply Rmult_le_pos; lra).
  replace (dl * ((2 + / 100000) * s + 286 / 100 * (s * s))) with ((2 + / 100000) * (dl * s) + 286 / 100 * (dl * s * s)) in K1 by ring.
  replace (c * (dl * s) * (2 + 23 / 10 * s)) with (2 * (c * (dl * s)) + 23 / 10 * (c * (dl * s * s))) in K3 by ring.
  replace ((c + 1001 / 1000) * (1 + 2 * s) * (dl * (2 * s))) with (2 * (c * (dl * s)) + 4 * (c * (dl * s * s)) + 1001 / 1000 * (2 * (dl * s) + 4 * (dl * s * s))) by ring.
  lra.
Qed.
Lemma exp_ge1 x : 0 <= x -> 1 + x <= exp x.
Proof. intros H. destruct (Req_dec x 0) as [->|N]; [rewrite exp_0; lra|]. assert (K := exp_ineq1 x N). lra. Qed.
Lemma exp_up n : forall r y c, QGeo r -> bp (-100) <= Rabs y -> 2 ^ n * Rabs y <= 36 / 100 -> 0 <= c ->
  (c + 1001 / 1000 * INR n) * exp (2 * Rabs y * (2 ^ n - 1)) <= 1000 ->
  Rabs (QV r - (exp y - 1)) <= c * (dl * Rabs y) ->
  QGeo (q_exp_square n r) /\
  Rabs (QV (q_exp_square n r) - (exp (2 ^ n * y) - 1)) <= (c + 1001 / 1000 * INR n) * exp (2 * Rabs y * (2 ^ n - 1)) * (dl * Rabs (2 ^ n * y)).
Proof.
  destruct dl_mu as (Pm & Ed & Sm).
  induction n as [|n IH]; intros r y c Gr Ly Hy Hc Hn Hr.
  - cbn [q_exp_square pow INR] in *. split; [exact Gr|]. rewrite Rmult_1_l. replace (2 * Rabs y * (1 - 1)) with 0 in * by ring. rewrite exp_0, Rmult_0_r, Rplus_0_r, Rmult_1_r. exact Hr.
  - cbn [q_exp_square]. rewrite S_INR in Hn |- *. assert (P2 : 1 <= 2 ^ n) by (apply pow_R1_Rle; lra). change (2 ^ S n) with (2 * 2 ^ n) in *. assert (Py := Rabs_pos y). assert (Pn := pos_INR n).
    assert (Ey : 2 ^ n * Rabs y <= 18 / 100) by lra. assert (Ey1 : Rabs y <= 18 / 100). { apply Rle_trans with (2 := Ey). rewrite <- (Rmult_1_l (Rabs y)) at 1. apply Rmult_le_compat_r; lra. }
    set (e2 := exp (2 * (2 * Rabs y) * (2 ^ n - 1))).
    assert (E21 : 1 <= e2). { assert (K : 0 <= 2 * (2 * Rabs y) * (2 ^ n - 1)) by (apply Rmult_le_pos; lra). assert (K2 := exp_ge1 _ K). unfold e2. lra. }
    assert (EE : exp (2 * Rabs y * (2 * 2 ^ n - 1)) = exp (2 * Rabs y) * e2) by (unfold e2; rewrite <- exp_plus; f_equal; ring). rewrite EE in Hn |- *.
    assert (X1 := exp_ge1 (2 * Rabs y) ltac:(lra)). set (ey := exp (2 * Rabs y)) in *. clearbody ey.
    assert (A2 : Rabs (2 * y) = 2 * Rabs y) by (rewrite Rabs_mult, (Rabs_pos_eq 2) by lra; reflexivity).
    assert (MON : ((c + 1001 / 1000) * (1 + 2 * Rabs y) + 1001 / 1000 * INR n) * e2 <= (c + 1001 / 1000 * (INR n + 1)) * (ey * e2)).
    { rewrite <- Rmult_assoc. apply Rmult_le_compat_r; [lra|].
      assert (M1 : (c + 1001 / 1000) * (1 + 2 * Rabs y) <= (c + 1001 / 1000) * ey) by (apply Rmult_le_compat_l; lra).
      assert (M2 : 1001 / 1000 * INR n * 1 <= 1001 / 1000 * INR n * ey) by (apply Rmult_le_compat_l; lra). lra. }
    assert (C1 : c <= 1000). { apply Rle_trans with (2 := Hn). rewrite <- (Rmult_1_r c) at 1. apply Rmult_le_compat; try lra. replace 1 with (1 * 1) by ring. apply Rmult_le_compat; lra. }
    destruct (sq_stepQ r y c Gr ltac:(lra) ltac:(lra) Hr) as [G1 E1].
    destruct (IH _ (2 * y) ((c + 1001 / 1000) * (1 + 2 * Rabs y)) G1) as [G2 E2].
    + rewrite A2. assert (P := bpow_gt_0 radix2 (-100)). lra.
    + rewrite A2. lra.
    + apply Rmult_le_pos; lra.
    + rewrite A2. fold e2. lra.
    + exact E1.
    + split; [exact G2|]. rewrite A2 in E2. fold e2 in E2. replace (2 * 2 ^ n * y) with (2 ^ n * (2 * y)) by ring.
      apply Rle_trans with (1 := E2). apply Rmult_le_compat_r; [apply Rmult_le_pos; [lra|apply Rabs_pos]|exact MON].
Qed.
