(** * Accuracy of Double exp: Taylor series, squarings, reduction *)
From Coq Require Import ZArith Reals Lra Lia Psatz List Bool.
From Flocq Require Import Core IEEE754.BinarySingleNaN.
From Verif Require Import RN F64 Prim DoubleM Spec F64Facts EFT DAddProofs DMulProofs DDivProofs MulAny LdexpProofs LawProofs OrderProofs AbsOps Exact ConstM BaseConst ConstProofs TableProofs AlgM TransM.
Local Open Scope R_scope.

(** ** the exponential series *)
Lemma exp_tail0 n x : Rabs x <= 1 -> Rabs (exp x - esum n x) <= 3 * (Rabs x ^ S n / INR (fact n)).
Proof.
  intros Hx.
  set (f := fun c => exp (- c) * esum n c). set (f' := fun c => - (exp (- c) * (c ^ n / INR (fact n)))).
  assert (DER : forall c, derivable_pt_lim f c (f' c)).
  { intros c. unfold f, f'.
    assert (D1 : derivable_pt_lim (fun c => exp (- c)) c (exp (- c) * -1)).
    { apply (derivable_pt_lim_comp (fun c => - c) exp); [|apply derivable_pt_lim_exp].
      apply (derivable_pt_lim_opp (fun c => c)). apply derivable_pt_lim_id. }
    assert (K := derivable_pt_lim_mult _ _ c _ _ D1 (esum_der n c)).
    replace (- (exp (- c) * (c ^ n / INR (fact n)))) with (exp (- c) * -1 * esum n c + exp (- c) * match n with O => 0 | S m => esum m c end); [exact K|].
    destruct n as [|n]; [cbn; field|]. cbn [esum]. ring. }
  assert (F0 : f 0 = 1).
  { unfold f. rewrite Ropp_0, exp_0, Rmult_1_l. clear. induction n as [|n IH]; [reflexivity|]. cbn [esum]. rewrite IH. cbn [pow]. unfold Rdiv. ring. }
  assert (EX : exists c, f x - 1 = f' c * x /\ Rabs (x - c) <= Rabs x /\ Rabs c <= Rabs x).
  { destruct (Rtotal_order x 0) as [L|[->|G]].
    - destruct (MVT_cor2 f f' x 0 L ltac:(intros; apply DER)) as (c & E & Hc). exists c. rewrite F0 in E. split; [lra|].
      rewrite !(Rabs_left x), Rabs_left1, (Rabs_left c) by lra. lra.
    - exists 0. rewrite F0. split; [lra|]. rewrite Rminus_0_r. split; lra.
    - destruct (MVT_cor2 f f' 0 x G ltac:(intros; apply DER)) as (c & E & Hc). exists c. rewrite F0 in E. split; [lra|].
      rewrite !(Rabs_pos_eq x), Rabs_pos_eq, (Rabs_pos_eq c) by lra. lra. }
  destruct EX as (c & E & Hxc & Hc).
  assert (EE : exp x * exp (- x) = 1) by (rewrite <- exp_plus, Rplus_opp_r; apply exp_0).
  assert (Q : exp x - esum n x = exp (x - c) * (c ^ n / INR (fact n) * x)).
  { unfold Rminus at 2. rewrite exp_plus. unfold f, f' in E.
    replace (exp x * exp (- c) * (c ^ n / INR (fact n) * x)) with (exp x * - (- (exp (- c) * (c ^ n / INR (fact n))) * x)) by ring.
    rewrite <- E. replace (exp x * - (exp (- x) * esum n x - 1)) with (exp x - (exp x * exp (- x)) * esum n x) by ring. rewrite EE. ring. }
  rewrite Q. assert (PF := INR_fact_lt_0 n). assert (IF := Rinv_0_lt_compat _ PF).
  assert (PE : 0 < exp (x - c) <= 3).
  { split; [apply exp_pos|]. apply Rle_trans with (exp 1); [|apply exp_le_3]. assert (K := Rabs_def2' _ _ Hxc).
    destruct (Req_dec (x - c) 1) as [->|N]; [lra|]. left. apply exp_increasing. lra. }
  rewrite Rabs_mult, (Rabs_pos_eq (exp _)) by lra. unfold Rdiv. rewrite !Rabs_mult, <- RPow_abs, (Rabs_pos_eq (/ _)) by lra.
  cbn [pow]. assert (PC : 0 <= Rabs c ^ n <= Rabs x ^ n) by (split; [apply pow_le, Rabs_pos|apply pow_incr; split; [apply Rabs_pos|exact Hc]]).
  assert (PX := Rabs_pos x).
  apply Rmult_le_compat; [lra| |lra|].
  - apply Rmult_le_pos; [apply Rmult_le_pos; lra|lra].
  - rewrite (Rmult_comm (Rabs x) (Rabs x ^ n)), !Rmult_assoc, (Rmult_comm (Rabs x)). apply Rmult_le_compat_r; [|lra]. apply Rmult_le_pos; lra.
Qed.
Lemma exp_tail n x : Rabs x <= / 1000 -> Rabs (exp x - esum n x) <= 101 / 100 * (Rabs x ^ S n / INR (fact (S n))).
Proof.
  intros Hx. assert (K := exp_tail0 (S n) x ltac:(lra)). cbn [esum] in K.
  assert (PF := INR_fact_lt_0 (S n)). assert (IF := Rinv_0_lt_compat _ PF). assert (PX := Rabs_pos x).
  assert (PP : 0 <= Rabs x ^ S n) by (apply pow_le, PX).
  change (Rabs x ^ S (S n)) with (Rabs x * Rabs x ^ S n) in K.
  set (w := Rabs x ^ S n / INR (fact (S n))). assert (W0 : 0 <= w) by (unfold w, Rdiv; apply Rmult_le_pos; lra).
  replace (3 * (Rabs x * Rabs x ^ S n / INR (fact (S n)))) with (3 * (Rabs x * w)) in K by (unfold w, Rdiv; ring).
  assert (K2 : Rabs (x ^ S n / INR (fact (S n))) = w) by (unfold w, Rdiv; rewrite Rabs_mult, <- RPow_abs, (Rabs_pos_eq (/ _)) by lra; reflexivity).
  replace (exp x - esum n x) with ((exp x - (esum n x + x ^ S n / INR (fact (S n)))) + x ^ S n / INR (fact (S n))) by ring.
  assert (T := Rabs_triang (exp x - (esum n x + x ^ S n / INR (fact (S n)))) (x ^ S n / INR (fact (S n)))).
  assert (Rabs x * w <= / 1000 * w) by (apply Rmult_le_compat_r; lra). lra.
Qed.
Lemma fact_ge1 n : 1 <= INR (fact n).
Proof. apply (le_INR 1). apply Nat.le_succ_l, lt_O_fact. Qed.
Lemma esum_small n x : Rabs x <= / 2 -> Rabs (esum n x - 1) <= 2 * Rabs x * (1 - (/ 2) ^ n).
Proof.
  intros Hx. induction n as [|n IH]; [cbn; rewrite Rminus_diag_eq, Rabs_R0 by reflexivity; lra|].
  cbn [esum]. replace (esum n x + x ^ S n / INR (fact (S n)) - 1) with ((esum n x - 1) + x ^ S n / INR (fact (S n))) by ring.
  eapply Rle_trans; [apply Rabs_triang|].
  assert (K : Rabs (x ^ S n / INR (fact (S n))) <= Rabs x * (/ 2) ^ n).
  { unfold Rdiv. assert (G := fact_ge1 (S n)). assert (0 < / INR (fact (S n)) <= 1).
    { split; [apply Rinv_0_lt_compat; lra|]. rewrite <- Rinv_1. apply Rinv_le_contravar; lra. }
    rewrite Rabs_mult, <- RPow_abs, (Rabs_pos_eq (/ _)) by lra. cbn [pow].
    assert (P1 : 0 <= Rabs x ^ n <= (/ 2) ^ n) by (split; [apply pow_le, Rabs_pos|apply pow_incr; split; [apply Rabs_pos|exact Hx]]).
    assert (PX := Rabs_pos x). rewrite <- (Rmult_1_r (Rabs x * (/ 2) ^ n)). apply Rmult_le_compat; [nra|lra|nra|lra]. }
  change ((/ 2) ^ S n) with (/ 2 * (/ 2) ^ n). set (h := (/ 2) ^ n) in *. clearbody h. lra.
Qed.
Lemma esum_small' n x : Rabs x <= / 2 -> Rabs (esum n x - 1) <= 2 * Rabs x.
Proof. intros H. assert (K := esum_small n x H). assert (P : 0 < (/ 2) ^ n) by (apply pow_lt; lra). assert (PX := Rabs_pos x). nra. Qed.
Lemma expm1_bound y : Rabs y <= / 2 -> Rabs (exp y - 1) <= Rabs y * (1 + 3 * Rabs y).
Proof.
  intros H. assert (K := exp_tail0 1 y ltac:(lra)). cbn [esum fact pow Nat.mul Nat.add] in K. change (INR 1) with 1 in K.
  replace (exp y - 1) with ((exp y - (1 + y * 1 / 1)) + y) by field. assert (T := Rabs_triang (exp y - (1 + y * 1 / 1)) y). lra.
Qed.

(** ** the constants used *)
Lemma tiny_le : 0 < tiny /\ tiny <= vv * / 1000000000000000000000000000000.
Proof.
  split; [apply bpow_gt_0|]. apply Rle_trans with (bp (-206)); [apply bpow_le; lia|]. change (-206)%Z with (-106 + -100)%Z. rewrite bpow_plus, vv_bp.
  apply Rmult_le_compat_l; [lra|]. change (bp (-100)) with (/ 1267650600228229401496703205376). apply Rinv_le_contravar; lra.
Qed.
Lemma inv_facts_norm i : (i < 15)%nat -> DNorm (nth i D_INV_FACTS D_ZERO).
Proof.
  intros H. apply dnormx_ok. assert (K : forallb dnormx D_INV_FACTS = true) by (vm_compute; reflexivity).
  rewrite forallb_forall in K. apply K. apply nth_In. exact H.
Qed.
Lemma inv_facts_abs i : (i < 15)%nat -> DNorm (nth i D_INV_FACTS D_ZERO) /\ Rabs (DV (nth i D_INV_FACTS D_ZERO) - / INR (fact (i + 3))) <= vv /\ 0 < / INR (fact (i + 3)) <= / 6.
Proof.
  intros H. split; [now apply inv_facts_norm|]. assert (K := proj2 d_inv_facts_ok i H). unfold approx in K.
  assert (G : 0 < / INR (fact (i + 3)) <= / 6).
  { split; [apply Rinv_0_lt_compat, INR_fact_lt_0|]. apply Rinv_le_contravar; [lra|].
    change 6 with (IZR (Z.of_nat (fact 3))). rewrite <- INR_IZR_INZ. apply le_INR. apply fact_le. lia. }
  split; [|exact G]. apply Rle_trans with (1 := K). rewrite Rabs_pos_eq by lra. change (IZR 1) with 1. rewrite Rmult_1_l.
  change (-104)%Z with (-106 + 2)%Z. rewrite bpow_plus. rewrite vv_bp. change (bp 2) with 4. lra.
Qed.
Definition d_exp_eps : Double := d_mul_pwr2 D_EPSILON (d0 D_INV_K).
Lemma exp_eps_ok : DNorm d_exp_eps /\ DV d_exp_eps <= vv / 64.
Proof.
  split; [apply dnormx_ok; vm_compute; reflexivity|]. rewrite zd_ok.
  assert (K : (zd d_exp_eps * 64 <=? 2 ^ 968)%Z = true) by (vm_compute; reflexivity). apply Z.leb_le in K. apply IZR_le in K. rewrite mult_IZR in K.
  change (2 ^ 968)%Z with (radix2 ^ 968)%Z in K. rewrite IZR_Zpower in K by lia.
  assert (E : bp 968 * bp (-1074) = vv) by (rewrite <- bpow_plus; apply vv_bp).
  assert (P := bpow_gt_0 radix2 (-1074)).
  apply Rmult_le_reg_r with 64; [lra|]. replace (IZR (zd d_exp_eps) * bp (-1074) * 64) with (IZR (zd d_exp_eps) * 64 * bp (-1074)) by ring.
  replace (vv / 64 * 64) with vv by lra. rewrite <- E. apply Rmult_le_compat_r; lra.
Qed.
Lemma d_le_abs t e : DNorm t -> DNorm e -> d_le (d_abs t) e = true -> Rabs (DV t) <= DV e.
Proof.
  intros Nt Ne H. assert (F : fis_nan (d0 t) = false) by (apply Fin_nan; apply Nt).
  destruct (d_abs_ok t F) as (_ & _ & _ & K). destruct (K Nt) as [Na Va]. rewrite <- Va.
  apply (proj1 (proj1 (proj2 (proj2 (proj2 (d_ord_ok _ _ Na Ne)))))). exact H.
Qed.

(** ** the Taylor loop *)
Section Small.
Variable x : Double.
Hypothesis Nx : DNorm x.
Let X := DV x.
Hypothesis HX : Rabs X <= / 1400.
Lemma b100 y : Rabs y <= 2000 -> Rabs y <= bp 100.
Proof. intros H. apply Rle_trans with (1 := H). apply Rle_trans with (bp 11); [cbn; lra|apply bpow_le; lia]. Qed.
Definition e1 := vv / 64.
Definition e2 := vv / 16384.
Definition J (i : nat) (r p t : Double) : Prop :=
  DNorm r /\ DNorm p /\ DNorm t /\ Rabs (DV r - (esum (i + 2) X - 1)) <= INR (i + 1) * e1 /\
  Rabs (DV p - X ^ (i + 3)) <= e2 /\ Rabs (DV t - X ^ (i + 3) / INR (fact (i + 3))) <= e2.
Lemma pow3 k : Rabs (X ^ (k + 3)) <= / 2744000000.
Proof.
  rewrite pow_add, Rabs_mult, <- !RPow_abs. assert (P := Rabs_pos X).
  assert (0 <= Rabs X ^ k <= 1) by (split; [now apply pow_le|rewrite <- (pow1 k); apply pow_incr; lra]).
  assert (0 <= Rabs X ^ 3 <= (/ 1400) ^ 3) by (split; [now apply pow_le|apply pow_incr; lra]).
  replace (/ 2744000000) with (1 * (/ 1400) ^ 3) by lra. apply Rmult_le_compat; lra.
Qed.
Lemma p_next k p : DNorm p -> Rabs (DV p - X ^ k) <= e2 -> Rabs (X ^ k) <= / 1000000 ->
  DNorm (d_mul p x) /\ Rabs (DV (d_mul p x) - X ^ S k) <= e2.
Proof.
  intros Np Hp Hk. assert (T := tiny_le). assert (PX := Rabs_pos X). unfold e2 in *.
  assert (BP : Rabs (DV p) <= 2 / 1000000).
  { assert (K := tri _ _ _ _ Hp Hk). lra. }
  destruct (mul_abs p x Np Nx) as [N E]; [apply b100; lra|apply b100; fold X; lra|]. split; [exact N|]. fold X in E.
  assert (M : Rabs (DV p * X) <= 2 / 1000000 * / 1400).
  { rewrite Rabs_mult. apply Rmult_le_compat; auto using Rabs_pos. }
  replace (DV (d_mul p x) - X ^ S k) with ((DV (d_mul p x) - DV p * X) + (DV p - X ^ k) * X) by (cbn [pow]; ring).
  assert (K : Rabs ((DV p - X ^ k) * X) <= vv / 16384 * / 1400) by (rewrite Rabs_mult; apply Rmult_le_compat; auto using Rabs_pos).
  eapply Rle_trans; [apply Rabs_triang|]. lra.
Qed.
Lemma t_next i p : (i < 15)%nat -> DNorm p -> Rabs (DV p - X ^ (i + 3)) <= e2 ->
  DNorm (d_mul p (nth i D_INV_FACTS D_ZERO)) /\ Rabs (DV (d_mul p (nth i D_INV_FACTS D_ZERO)) - X ^ (i + 3) / INR (fact (i + 3))) <= e2.
Proof.
  intros Hi Np Hp. assert (T := tiny_le). assert (P3 := pow3 i). destruct (inv_facts_abs i Hi) as [Nf [Ef Bf]]. unfold e2 in *.
  set (F := DV (nth i D_INV_FACTS D_ZERO)) in *. unfold Rdiv. set (G := / INR (fact (i + 3))) in *.
  assert (BP : Rabs (DV p) <= 2 / 2744000000) by (assert (K := tri _ _ _ _ Hp P3); lra).
  assert (BF : Rabs F <= / 5). { assert (K := tri F G _ (/ 6) Ef). rewrite (Rabs_pos_eq G) in K by lra. lra. }
  destruct (mul_abs p (nth i D_INV_FACTS D_ZERO) Np Nf) as [N E]; [apply b100; lra|apply b100; fold F; lra|]. split; [exact N|]. fold F in E.
  set (R := DV (d_mul p (nth i D_INV_FACTS D_ZERO))) in *.
  assert (M : Rabs (DV p * F) <= 2 / 2744000000 * / 5) by (rewrite Rabs_mult; apply Rmult_le_compat; auto using Rabs_pos).
  replace (R - X ^ (i + 3) * G) with ((R - DV p * F) + ((DV p - X ^ (i + 3)) * F + X ^ (i + 3) * (F - G))) by ring.
  assert (K1 : Rabs ((DV p - X ^ (i + 3)) * F) <= vv / 16384 * / 5) by (rewrite Rabs_mult; apply Rmult_le_compat; auto using Rabs_pos).
  assert (K2 : Rabs (X ^ (i + 3) * (F - G)) <= / 2744000000 * vv) by (rewrite Rabs_mult; apply Rmult_le_compat; auto using Rabs_pos).
  eapply Rle_trans; [apply Rabs_triang|]. assert (K3 := Rabs_triang ((DV p - X ^ (i + 3)) * F) (X ^ (i + 3) * (F - G))). lra.
Qed.
Lemma term_small k : Rabs (X ^ (k + 3) / INR (fact (k + 3))) <= / 2744000000.
Proof.
  unfold Rdiv. rewrite Rabs_mult. assert (P := pow3 k). assert (G := fact_ge1 (k + 3)).
  assert (0 < / INR (fact (k + 3)) <= 1) by (split; [apply Rinv_0_lt_compat; lra|rewrite <- Rinv_1; apply Rinv_le_contravar; lra]).
  rewrite (Rabs_pos_eq (/ _)) by lra. replace (/ 2744000000) with (/ 2744000000 * 1) by ring. apply Rmult_le_compat; auto using Rabs_pos; lra.
Qed.
Lemma esum_S3 i : esum (i + 3) X = esum (i + 2) X + X ^ (i + 3) / INR (fact (i + 3)).
Proof. replace (i + 3)%nat with (S (i + 2)) by lia. reflexivity. Qed.
Lemma r_next i r t : (i <= 5)%nat -> DNorm r -> DNorm t -> Rabs (DV r - (esum (i + 2) X - 1)) <= INR (i + 1) * e1 -> Rabs (DV t - X ^ (i + 3) / INR (fact (i + 3))) <= e2 ->
  DNorm (d_add r t) /\ Rabs (DV (d_add r t) - (esum (i + 3) X - 1)) <= INR (i + 2) * e1 /\ Rabs (DV r) <= / 600 /\ Rabs (DV t) <= / 600.
Proof.
  intros Hi Nr Nt Hr Ht. assert (T3 := term_small i). assert (S2 := esum_small' (i + 2) X ltac:(lra)).
  assert (I1 : INR (i + 2) = INR (i + 1) + 1) by (replace (i + 2)%nat with (S (i + 1)) by lia; apply S_INR).
  assert (I2 : INR (i + 1) <= 6) by (change 6 with (IZR (Z.of_nat 6)); rewrite <- INR_IZR_INZ; apply le_INR; lia).
  assert (I3 : 0 <= INR (i + 1)) by apply pos_INR.
  rewrite I1. assert (I4 : INR (i + 1) * e1 <= 6 * e1) by (apply Rmult_le_compat_r; unfold e1; lra). rewrite Rmult_plus_distr_r, Rmult_1_l.
  unfold e2 in *. set (q := INR (i + 1) * e1) in *. assert (E1 : e1 = vv / 64) by reflexivity. clearbody q.
  assert (Br : Rabs (DV r) <= / 600) by (assert (K := tri _ _ _ _ Hr S2); lra).
  assert (Bt : Rabs (DV t) <= / 1000000) by (assert (K := tri _ _ _ _ Ht T3); lra).
  destruct (add_abs r t Nr Nt) as [N E]; [apply b100; lra|apply b100; lra|].
  split; [exact N|]. split; [|split; lra].
  rewrite esum_S3. set (w := X ^ (i + 3) / INR (fact (i + 3))) in *.
  replace (DV (d_add r t) - (esum (i + 2) X + w - 1)) with ((DV (d_add r t) - (DV r + DV t)) + ((DV r - (esum (i + 2) X - 1)) + (DV t - w))) by ring.
  assert (BS : Rabs (DV r + DV t) <= / 590) by (assert (K := Rabs_triang (DV r) (DV t)); lra).
  eapply Rle_trans; [apply Rabs_triang|]. assert (K := Rabs_triang (DV r - (esum (i + 2) X - 1)) (DV t - w)). lra.
Qed.
Definition post (r t : Double) : Prop :=
  DNorm r /\ DNorm t /\ Rabs (DV r) <= / 600 /\ Rabs (DV t) <= / 600 /\ Rabs (DV (d_add r t) - (exp X - 1)) <= vv / 4 /\ DNorm (d_add r t).
Lemma fin_step i r t : (i <= 5)%nat -> DNorm r -> DNorm t -> Rabs (DV r - (esum (i + 2) X - 1)) <= INR (i + 1) * e1 -> Rabs (DV t - X ^ (i + 3) / INR (fact (i + 3))) <= e2 ->
  Rabs (exp X - esum (i + 3) X) <= vv / 9 -> post r t.
Proof.
  intros Hi Nr Nt Hr Ht Hd. destruct (r_next i r t Hi Nr Nt Hr Ht) as (N & E & Br & Bt).
  split; [exact Nr|]. split; [exact Nt|]. split; [exact Br|]. split; [exact Bt|]. split; [|exact N].
  assert (I2 : INR (i + 2) <= 7) by (change 7 with (IZR (Z.of_nat 7)); rewrite <- INR_IZR_INZ; apply le_INR; lia).
  assert (I4 : INR (i + 2) * e1 <= 7 * e1) by (apply Rmult_le_compat_r; unfold e1; lra). set (q := INR (i + 2) * e1) in *. assert (E1 : e1 = vv / 64) by reflexivity. clearbody q.
  replace (DV (d_add r t) - (exp X - 1)) with ((DV (d_add r t) - (esum (i + 3) X - 1)) - (exp X - esum (i + 3) X)) by ring.
  eapply Rle_trans; [apply Rabs_triang|]. rewrite Rabs_Ropp. lra.
Qed.
Lemma loop_ok n : forall i r p t, (n + i = 5)%nat -> J i r p t ->
  let '(r', t') := d_exp_loop n i x d_exp_eps r p t in post r' t'.
Proof.
  induction n as [|n IH]; intros i r p t Hn (Nr & Np & Nt & Hr & Hp & Ht).
  - cbn [d_exp_loop]. assert (i = 5%nat) by lia. subst i. apply (fin_step 5); auto; try lia.
    apply Rle_trans with (1 := exp_tail (5 + 3) X ltac:(lra)).
    assert (PX := Rabs_pos X). assert (0 <= Rabs X ^ 9 <= (/ 1400) ^ 9) by (split; [now apply pow_le|apply pow_incr; lra]).
    change (S (5 + 3)) with 9%nat. unfold Rdiv. rewrite fz_9. 
    apply Rle_trans with (101 * / 100 * ((/ 1400) ^ 9 * / 362880)); [apply Rmult_le_compat_l; [lra|]; apply Rmult_le_compat_r; lra|].
    cbn [pow]. lra.
  - cbn [d_exp_loop]. destruct (r_next i r t ltac:(lia) Nr Nt Hr Ht) as (Nr' & Hr' & _ & _).
    destruct (p_next (i + 3) p Np Hp) as [Np' Hp']; [assert (K := pow3 i); lra|].
    replace (S (i + 3)) with (S i + 3)%nat in Hp' by lia.
    destruct (t_next (S i) (d_mul p x) ltac:(lia) Np' Hp') as [Nt' Ht'].
    replace (i + 3)%nat with (S i + 2)%nat in Hr' by lia. replace (i + 2)%nat with (S i + 1)%nat in Hr' by lia.
    destruct (d_le (d_abs _) d_exp_eps) eqn:LE.
    + apply (fin_step (S i)); auto; try lia.
      apply d_le_abs in LE; [|exact Nt'|apply exp_eps_ok]. assert (EP := proj2 exp_eps_ok).
      apply Rle_trans with (1 := exp_tail (S i + 3) X ltac:(lra)).
      assert (BT : Rabs (X ^ (S i + 3) / INR (fact (S i + 3))) <= vv / 32).
      { unfold e2 in Ht'. assert (K := tri2 _ _ _ _ Ht' LE). lra. }
      unfold Rdiv in BT. rewrite Rabs_mult, <- RPow_abs, (Rabs_pos_eq (/ _)) in BT by (left; apply Rinv_0_lt_compat, INR_fact_lt_0).
      change (fact (S (S i + 3))) with (S (S i + 3) * fact (S i + 3))%nat. rewrite mult_INR. change (Rabs X ^ S (S i + 3)) with (Rabs X * Rabs X ^ (S i + 3)).
      set (w := Rabs X ^ (S i + 3)) in *. set (f := INR (fact (S i + 3))) in *. assert (Pf : 0 < f) by apply INR_fact_lt_0.
      assert (G : 1 <= INR (S (S i + 3))) by (apply (le_INR 1); lia). set (g := INR (S (S i + 3))) in *.
      replace (Rabs X * w / (g * f)) with ((w * / f) * (Rabs X * / g)) by (field; lra).
      assert (GI : 0 < / g <= 1) by (split; [apply Rinv_0_lt_compat; lra|rewrite <- Rinv_1; apply Rinv_le_contravar; lra]).
      assert (PX := Rabs_pos X). assert (Pw : 0 <= w) by (now apply pow_le).
      assert (K : w * / f * (Rabs X * / g) <= vv / 32 * (/ 1400 * 1)).
      { apply Rmult_le_compat; [apply Rmult_le_pos; [lra|left; now apply Rinv_0_lt_compat]|apply Rmult_le_pos; lra|exact BT|]. apply Rmult_le_compat; lra. }
      lra.
    + apply IH; [lia|]. unfold J. auto 7.
Qed.
Lemma exp_small_ok : bp (-440) <= Rabs (V (d0 x)) ->
  DNorm (d_exp_small x) /\ Rabs (DV (d_exp_small x) - (exp X - 1)) <= vv / 4.
Proof.
  intros LX. unfold d_exp_small. fold d_exp_eps. assert (T := tiny_le). assert (PX := Rabs_pos X).
  assert (X2 : X * X <= / 1960000). { replace (X * X) with (Rabs X * Rabs X) by (rewrite <- Rabs_mult; apply Rabs_pos_eq; nra). nra. }
  assert (X20 : 0 <= X * X) by nra.
  destruct (sqr_abs x Nx) as [Np Ep]; [apply b100; fold X; lra|]. fold X in Ep. set (p := d_sqr x) in *.
  assert (Hp : Rabs (DV p - X * X) <= e2) by (unfold e2; lra).
  assert (LP : bp (-890) <= Rabs (V (d0 p))).
  { assert (HR := DNorm_hi_rel p Np). 
    assert (LX' : bp (-441) <= Rabs X).
    { assert (K := DNorm_hi_rel x Nx). fold X in K. assert (bp (-440) = 2 * bp (-441)) by exact (bp_split (-441) 1 ltac:(lia)). lra. }
    assert (PW : bp (-882) <= X * X).
    { replace (X * X) with (Rabs X * Rabs X) by (rewrite <- Rabs_mult; apply Rabs_pos_eq; nra). replace (bp (-882)) with (bp (-441) * bp (-441)) by (rewrite <- bpow_plus; reflexivity).
      assert (0 < bp (-441)) by apply bpow_gt_0. nra. }
    assert (E82 : bp (-882) = 256 * tiny) by exact (bp_split (-890) 8 ltac:(lia)).
    assert (LV : X * X / 2 <= DV p) by (apply Rabs_def2' in Ep; lra).
    assert (V0 := DNorm_val_rel p Np). assert (K := tri _ _ _ _ V0 (Rle_refl _)). rewrite (Rabs_pos_eq (DV p)) in K by lra. lra. }
  assert (UP : Rabs (V (d0 p)) <= bp 1015).
  { apply Rle_trans with (bp 101); [|apply bpow_le; lia]. apply hi100; [exact Np|]. apply b100. apply Rabs_def2' in Hp. unfold e2 in Hp. apply Rabs_le. lra. }
  destruct (half_any p Np LP UP) as [Nh [_ Eh]]. set (h := d_mul_pwr2 p fhalf) in *.
  assert (T75 : bp (-1075) <= tiny) by (apply bpow_le; lia).
  assert (Hh : Rabs (DV h - X * X / 2) <= e2).
  { replace (DV h - X * X / 2) with ((DV h - DV p / 2) + (DV p - X * X) / 2) by field. eapply Rle_trans; [apply Rabs_triang|].
    replace (Rabs ((DV p - X * X) / 2)) with (Rabs (DV p - X * X) * / 2) by (unfold Rdiv; rewrite (Rabs_mult (_ - _)), (Rabs_pos_eq (/ 2)) by lra; reflexivity). unfold e2 in *. lra. }
  assert (Bh : Rabs (DV h) <= / 1900000). { unfold e2 in Hh. apply Rabs_def2' in Hh. apply Rabs_le. lra. }
  destruct (add_abs x h Nx Nh) as [Nr Er]; [apply b100; fold X; lra|apply b100; lra|]. fold X in Er. set (r := d_add x h) in *.
  assert (Hr : Rabs (DV r - (esum (0 + 2) X - 1)) <= INR (0 + 1) * e1).
  { change (INR (0 + 1)) with 1. change (esum (0 + 2) X) with (1 + X ^ 1 / 1 + X ^ 2 / (1 + 1)).
    replace (DV r - (1 + X ^ 1 / 1 + X ^ 2 / (1 + 1) - 1)) with ((DV r - (X + DV h)) + (DV h - X * X / 2)) by field.
    eapply Rle_trans; [apply Rabs_triang|]. assert (K := Rabs_triang X (DV h)). unfold e1, e2 in *. lra. }
  destruct (p_next 2 p Np) as [Np1 Hp1]; [replace (X ^ 2) with (X * X) by ring; exact Hp|replace (X ^ 2) with (X * X) by ring; rewrite Rabs_pos_eq; lra|].
  destruct (t_next 0 (d_mul p x) ltac:(lia) Np1 Hp1) as [Nt Ht].
  assert (L := loop_ok 5 0 r (d_mul p x) (d_mul (d_mul p x) (nth 0 D_INV_FACTS D_ZERO)) eq_refl).
  destruct (d_exp_loop 5 0 x d_exp_eps r (d_mul p x) (d_mul (d_mul p x) (nth 0 D_INV_FACTS D_ZERO))) as [r' t'].
  destruct L as (_ & _ & _ & _ & L1 & L2); [unfold J; auto 7|]. split; [exact L2|exact L1].
Qed.
End Small.

(** ** squaring back up *)
Lemma sq_step r E B e e' : DNorm r -> Rabs (DV r - E) <= e -> Rabs E <= B -> 0 <= e <= B / 1000000 -> / 10000 <= B <= / 4 ->
  e <= / 1000 -> e * ((2 + 2 * B) * (1001 / 1000)) + 22 * vv * B <= e' ->
  let r' := d_add (d_mul_pwr2 r f2) (d_sqr r) in DNorm r' /\ Rabs (DV r' - (2 * E + E * E)) <= e'.
Proof.
  intros Nr Hr HE He HB He3 Hs r'. assert (T := tiny_le).
  assert (Br : Rabs (DV r) <= 1001 / 1000 * B) by (assert (K := tri _ _ _ _ Hr HE); lra).
  assert (PB := Rabs_pos (DV r)).
  assert (S0 : 0 <= DV r * DV r <= 3 / 10 * B).
  { split; [nra|]. replace (DV r * DV r) with (Rabs (DV r) * Rabs (DV r)) by (rewrite <- Rabs_mult; apply Rabs_pos_eq; nra).
    apply Rle_trans with (1001 / 1000 * B * (1001 / 1000 * / 4)); [apply Rmult_le_compat; lra|lra]. }
  destruct (twice_abs r Nr) as [N2 E2]; [apply b100; lra|].
  destruct (sqr_abs r Nr) as [Ns Es]; [apply b100; lra|].
  set (a := d_mul_pwr2 r f2) in *. set (b := d_sqr r) in *.
  assert (Bb : Rabs (DV b) <= 31 / 100 * B).
  { assert (K := tri _ _ _ (3 / 10 * B) Es). rewrite (Rabs_pos_eq (DV r * DV r)) in K by lra. lra. }
  assert (Ba : Rabs (DV a) <= 2002 / 1000 * B). { rewrite E2, Rabs_mult, (Rabs_pos_eq 2) by lra. lra. }
  destruct (add_abs a b N2 Ns) as [N E']; [apply b100; lra|apply b100; lra|]. fold r' in N, E'. split; [exact N|].
  assert (Bs : Rabs (DV a + DV b) <= 2313 / 1000 * B) by (assert (K := Rabs_triang (DV a) (DV b)); lra).
  replace (DV r' - (2 * E + E * E)) with ((DV r' - (DV a + DV b)) + ((DV b - DV r * DV r) + (DV r - E) * (2 + DV r + E))) by (rewrite E2; ring).
  assert (K3 : Rabs ((DV r - E) * (2 + DV r + E)) <= e * ((2 + 2 * B) * (1001 / 1000))).
  { rewrite Rabs_mult. apply Rmult_le_compat; auto using Rabs_pos.
    assert (K1 := Rabs_triang (2 + DV r) E). assert (K2 := Rabs_triang 2 (DV r)). rewrite (Rabs_pos_eq 2) in K2 by lra. lra. }
  eapply Rle_trans; [apply Rabs_triang|]. assert (K := Rabs_triang (DV b - DV r * DV r) ((DV r - E) * (2 + DV r + E))).
  assert (PP : tiny <= vv * / 1000000 * B).
  { apply Rle_trans with (1 := proj2 T). rewrite Rmult_assoc. apply Rmult_le_compat_l; [lra|]. lra. }
  lra.
Qed.
Lemma expm1_fine y : Rabs y <= / 2 -> Rabs (exp y - 1) <= Rabs y * (1 + Rabs y / 2 + 3 / 2 * (Rabs y * Rabs y)).
Proof.
  intros H. assert (K := exp_tail0 2 y ltac:(lra)). cbn [esum] in K. change (INR (fact 1)) with 1 in K. change (INR (fact 2)) with (1 + 1) in K. replace (1 + 1) with 2 in K by ring. cbn [pow] in K.
  replace (exp y - 1) with ((exp y - (1 + y * 1 / 1 + y * (y * 1) / 2)) + (y + y * y / 2)) by field.
  assert (T := Rabs_triang (exp y - (1 + y * 1 / 1 + y * (y * 1) / 2)) (y + y * y / 2)). assert (T2 := Rabs_triang y (y * y / 2)).
  replace (Rabs (y * y / 2)) with (Rabs y * Rabs y / 2) in T2 by (unfold Rdiv; rewrite !Rabs_mult, (Rabs_pos_eq (/ 2)) by lra; reflexivity). lra.
Qed.
Lemma dbl y : exp (2 * y) - 1 = 2 * (exp y - 1) + (exp y - 1) * (exp y - 1).
Proof. replace (2 * y) with (y + y) by ring. rewrite exp_plus. ring. Qed.
Lemma exp_square_ok r X : DNorm r -> Rabs X <= / 1400 -> Rabs (DV r - (exp X - 1)) <= vv / 4 ->
  DNorm (d_exp_square 9 r) /\ Rabs (DV (d_exp_square 9 r) - (exp (512 * X) - 1)) <= 63803 / 250 * vv.
Proof.
  intros N0 HX E0'. assert (PX := Rabs_pos X).
  assert (Bk : forall c B, 0 < c <= 256 -> c * (12 / 10) * / 1400 <= B -> Rabs (exp (c * X) - 1) <= B).
  { intros c B Hc HB. assert (AC : Rabs (c * X) = c * Rabs X) by (rewrite Rabs_mult, (Rabs_pos_eq c) by lra; reflexivity).
    assert (HC : c * Rabs X <= 256 * / 1400) by (apply Rmult_le_compat; lra).
    assert (K := expm1_fine (c * X)). rewrite AC in K.
    assert (HC2 : c * Rabs X <= c * / 1400) by (apply Rmult_le_compat_l; lra).
    assert (P0 : 0 <= c * Rabs X) by (apply Rmult_le_pos; lra). set (y := c * Rabs X) in *.
    apply Rle_trans with (1 := K ltac:(lra)). apply Rle_trans with (y * (12 / 10)); [apply Rmult_le_compat_l; [lra|]; nra|lra]. }
  assert (E0 : Rabs (DV r - (exp (1 * X) - 1)) <= 1 / 4 * vv) by (rewrite Rmult_1_l; lra).
  destruct (sq_step r (exp (1 * X) - 1) (3 / 3500) (1 / 4 * vv) (13 / 25 * vv)) as [N1 E1]; [exact N0|exact E0|apply Bk; lra|lra|lra|lra|lra|].
  rewrite <- dbl in E1. replace (2 * (1 * X)) with (2 * X) in E1 by ring.
  cbn [d_exp_square]. set (r1 := d_add (d_mul_pwr2 r f2) (d_sqr r)) in *. clearbody r1.
  destruct (sq_step r1 (exp (2 * X) - 1) (3 / 1750) (13 / 25 * vv) (1081 / 1000 * vv)) as [N2 E2]; [exact N1|exact E1|apply Bk; lra|lra|lra|lra|lra|].
  rewrite <- dbl in E2. replace (2 * (2 * X)) with (4 * X) in E2 by ring.
  cbn [d_exp_square]. set (r2 := d_add (d_mul_pwr2 r1 f2) (d_sqr r1)) in *. clearbody r2.
  destruct (sq_step r2 (exp (4 * X) - 1) (3 / 875) (1081 / 1000 * vv) (281 / 125 * vv)) as [N3 E3]; [exact N2|exact E2|apply Bk; lra|lra|lra|lra|lra|].
  rewrite <- dbl in E3. replace (2 * (4 * X)) with (8 * X) in E3 by ring.
  cbn [d_exp_square]. set (r3 := d_add (d_mul_pwr2 r2 f2) (d_sqr r2)) in *. clearbody r3.
  destruct (sq_step r3 (exp (8 * X) - 1) (6 / 875) (281 / 125 * vv) (4683 / 1000 * vv)) as [N4 E4]; [exact N3|exact E3|apply Bk; lra|lra|lra|lra|lra|].
  rewrite <- dbl in E4. replace (2 * (8 * X)) with (16 * X) in E4 by ring.
  cbn [d_exp_square]. set (r4 := d_add (d_mul_pwr2 r3 f2) (d_sqr r3)) in *. clearbody r4.
  destruct (sq_step r4 (exp (16 * X) - 1) (12 / 875) (4683 / 1000 * vv) (4903 / 500 * vv)) as [N5 E5]; [exact N4|exact E4|apply Bk; lra|lra|lra|lra|lra|].
  rewrite <- dbl in E5. replace (2 * (16 * X)) with (32 * X) in E5 by ring.
  cbn [d_exp_square]. set (r5 := d_add (d_mul_pwr2 r4 f2) (d_sqr r4)) in *. clearbody r5.
  destruct (sq_step r5 (exp (32 * X) - 1) (24 / 875) (4903 / 500 * vv) (10387 / 500 * vv)) as [N6 E6]; [exact N5|exact E5|apply Bk; lra|lra|lra|lra|lra|].
  rewrite <- dbl in E6. replace (2 * (32 * X)) with (64 * X) in E6 by ring.
  cbn [d_exp_square]. set (r6 := d_add (d_mul_pwr2 r5 f2) (d_sqr r5)) in *. clearbody r6.
  destruct (sq_step r6 (exp (64 * X) - 1) (48 / 875) (10387 / 500 * vv) (22539 / 500 * vv)) as [N7 E7]; [exact N6|exact E6|apply Bk; lra|lra|lra|lra|lra|].
  rewrite <- dbl in E7. replace (2 * (64 * X)) with (128 * X) in E7 by ring.
  cbn [d_exp_square]. set (r7 := d_add (d_mul_pwr2 r6 f2) (d_sqr r6)) in *. clearbody r7.
  destruct (sq_step r7 (exp (128 * X) - 1) (96 / 875) (22539 / 500 * vv) (51281 / 500 * vv)) as [N8 E8]; [exact N7|exact E7|apply Bk; lra|lra|lra|lra|lra|].
  rewrite <- dbl in E8. replace (2 * (128 * X)) with (256 * X) in E8 by ring.
  cbn [d_exp_square]. set (r8 := d_add (d_mul_pwr2 r7 f2) (d_sqr r7)) in *. clearbody r8.
  destruct (sq_step r8 (exp (256 * X) - 1) (192 / 875) (51281 / 500 * vv) (63803 / 250 * vv)) as [N9 E9]; [exact N8|exact E8|apply Bk; lra|lra|lra|lra|lra|].
  rewrite <- dbl in E9. replace (2 * (256 * X)) with (512 * X) in E9 by ring.
  cbn [d_exp_square]. set (r9 := d_add (d_mul_pwr2 r8 f2) (d_sqr r8)) in *. clearbody r9.
  split; [exact N9|exact E9].
Qed.
