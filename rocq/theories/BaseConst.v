(** * Rational enclosures of pi, ln 2, ln 10 and e, 260 bits, by series in
    fixed point.  Only small divisions, so that plain kernel reduction is enough. *)
From Coq Require Import Reals ZArith List Lra Lia Arith Machin Ratan Factorial.
Local Open Scope R_scope.

(** sum of t/k + (t/q)/(k+2) + (t/q^2)/(k+4) + ... , n terms, in integers *)
Fixpoint ser (q : Z) (n : nat) (k t acc : Z) : Z :=
  match n with O => acc | S n => ser q n (k + 2) (t / q) (acc + t / k) end.
Fixpoint rsum (Q : R) (n : nat) (k t : R) : R :=
  match n with O => 0 | S n => t / k + rsum Q n (k + 2) (t / Q) end.

Lemma div_err t T d : (d <> 0)%Z -> Rabs (IZR (t / d) - T / IZR d) <= 1 + Rabs (IZR t - T) / Rabs (IZR d).
Proof.
  intros Hd. assert (E := Z.div_mod t d Hd). assert (ND : IZR d <> 0) by now apply not_0_IZR.
  assert (M : (Z.abs (t mod d) <= Z.abs d)%Z).
  { destruct (Z.lt_trichotomy d 0) as [H|[H|H]]; [|easy|].
    - assert (B := Z.mod_neg_bound t d H). lia.
    - assert (B := Z.mod_pos_bound t d H). lia. }
  apply IZR_le in M. rewrite !abs_IZR in M.
  apply (f_equal IZR) in E. rewrite plus_IZR, mult_IZR in E.
  set (q := IZR (t / d)) in *. set (m := IZR (t mod d)) in *. set (t' := IZR t) in *. set (d' := IZR d) in *.
  replace (q - T / d') with (- (m / d') + (t' - T) / d') by (rewrite E; field; exact ND).
  eapply Rle_trans; [apply Rabs_triang|]. rewrite Rabs_Ropp. unfold Rdiv. rewrite !Rabs_mult, Rabs_inv.
  assert (P := Rabs_pos_lt _ ND). apply Rplus_le_compat_r.
  apply Rmult_le_reg_r with (Rabs d'); [exact P|]. rewrite Rmult_assoc, Rinv_l by lra. lra.
Qed.

Lemma ser_ok q : (2 <= Z.abs q)%Z -> forall n k t acc T, (1 <= k)%Z -> Rabs (IZR t - T) <= 2 ->
  Rabs (IZR (ser q n k t acc) - (IZR acc + rsum (IZR q) n (IZR k) T)) <= 3 * INR n.
Proof.
  intros Hq. induction n as [|n IH]; intros k t acc T Hk HT.
  - cbn [ser rsum INR]. rewrite Rplus_0_r, Rminus_diag_eq by reflexivity. rewrite Rabs_R0. lra.
  - cbn [ser rsum]. rewrite S_INR.
    assert (K1 := div_err t T q ltac:(lia)). assert (K2 := div_err t T k ltac:(lia)).
    assert (Q2 : 2 <= Rabs (IZR q)) by (rewrite <- abs_IZR; now apply IZR_le).
    assert (Q3 : 1 <= Rabs (IZR k)) by (rewrite <- abs_IZR; apply IZR_le; lia).
    assert (D1 : Rabs (IZR t - T) / Rabs (IZR q) <= 1).
    { apply Rmult_le_reg_r with (Rabs (IZR q)); [lra|]. unfold Rdiv. rewrite Rmult_assoc, Rinv_l by lra. lra. }
    assert (D2 : Rabs (IZR t - T) / Rabs (IZR k) <= 2).
    { apply Rmult_le_reg_r with (Rabs (IZR k)); [lra|]. unfold Rdiv. rewrite Rmult_assoc, Rinv_l by lra. lra. }
    specialize (IH (k + 2)%Z (t / q)%Z (acc + t / k)%Z (T / IZR q) ltac:(lia) ltac:(lra)).
    rewrite !plus_IZR in IH.
    set (A := IZR (ser q n (k + 2) (t / q) (acc + t / k))) in *. set (B := rsum _ n _ _) in *.
    replace (A - (IZR acc + (T / IZR k + B))) with ((A - (IZR acc + IZR (t / k) + B)) + (IZR (t / k) - T / IZR k)) by ring.
    eapply Rle_trans; [apply Rabs_triang|]. lra.
Qed.

(** ** arctangents and pi *)
Lemma rsum_scale Q n : forall k t c, rsum Q n k (c * t) = c * rsum Q n k t.
Proof.
  induction n as [|n IH]; intros; cbn [rsum]; [ring|].
  replace (c * t / Q) with (c * (t / Q)) by (unfold Rdiv; ring). rewrite IH. unfold Rdiv. ring.
Qed.
Lemma rsum_last Q n : Q <> 0 -> forall k t, rsum Q (S n) k t = rsum Q n k t + t / Q ^ n / (k + 2 * INR n).
Proof.
  intros HQ. induction n as [|n IH]; intros k t.
  - cbn [rsum pow INR]. rewrite Rplus_0_l, Rplus_0_r, Rmult_0_r, Rplus_0_r. unfold Rdiv. rewrite Rinv_1. ring.
  - change (rsum Q (S (S n)) k t) with (t / k + rsum Q (S n) (k + 2) (t / Q)). rewrite IH.
    change (rsum Q (S n) k t) with (t / k + rsum Q n (k + 2) (t / Q)). rewrite S_INR.
    replace (k + 2 + 2 * INR n) with (k + 2 * (INR n + 1)) by ring. cbn [pow].
    replace (t / Q / Q ^ n) with (t / (Q * Q ^ n)); [ring|]. unfold Rdiv. rewrite Rinv_mult. ring.
Qed.

Lemma tg_last x n : x <> 0 -> rsum (- / (x * x)) (S n) 1 x = sum_f_R0 (fun i => (-1) ^ i * Ratan_seq x i) n.
Proof.
  intros Hx. assert (HQ : - / (x * x) <> 0).
  { apply Ropp_neq_0_compat, Rinv_neq_0_compat. now apply Rmult_integral_contrapositive. }
  assert (T : forall n, x / (- / (x * x)) ^ n / (1 + 2 * INR n) = (-1) ^ n * Ratan_seq x n).
  { intros m. unfold Ratan_seq. rewrite plus_INR, mult_INR. change (INR 2) with 2. change (INR 1) with 1.
    replace (2 * INR m + 1) with (1 + 2 * INR m) by ring. unfold Rdiv. rewrite <- Rmult_assoc. f_equal.
    replace (- / (x * x)) with (-1 * / (x * x)) by ring. rewrite Rpow_mult_distr, Rinv_mult.
    rewrite pow_inv, Rinv_inv.
    rewrite pow_add, pow_mult, pow_1. replace (x ^ 2) with (x * x) by ring.
    rewrite <- pow_inv. replace (/ -1) with (-1) by lra. ring. }
  induction n as [|n IH].
  - rewrite rsum_last by exact HQ. rewrite T. cbn [rsum sum_f_R0]. ring.
  - rewrite rsum_last by exact HQ. rewrite IH, T. reflexivity.
Qed.

Lemma PI_bounds N : let s n := 2 * rsum (-9) (S n) 1 (/ 3) + rsum (-49) (S n) 1 (/ 7) in
  s (S (2 * N)) <= PI / 4 <= s (2 * N)%nat.
Proof.
  intros s. assert (K := PI_2_3_7_ineq N).
  assert (E : forall n, sum_f_R0 (tg_alt PI_2_3_7_tg) n = s n).
  { intros n. unfold s.
    replace (-9) with (- / (/ 3 * / 3)) by field. replace (-49) with (- / (/ 7 * / 7)) by field.
    rewrite !tg_last by (apply Rinv_neq_0_compat; lra).
    rewrite scal_sum, <- plus_sum. apply sum_eq. intros i _. unfold tg_alt, PI_2_3_7_tg. ring. }
  rewrite !E in K. exact K.
Qed.

(** ** logarithms *)
Fixpoint geo (n : nat) (x : R) : R := match n with O => 0 | S n => geo n x + x ^ (2 * n) end.
Fixpoint ath (n : nat) (x : R) : R := match n with O => 0 | S n => ath n x + x ^ (2 * n + 1) / (2 * INR n + 1) end.
Lemma geo_ok n x : (1 - x * x) * geo n x = 1 - x ^ (2 * n).
Proof.
  induction n as [|n IH]; [cbn; ring|]. cbn [geo]. rewrite Rmult_plus_distr_l, IH.
  replace (2 * S n)%nat with (2 + 2 * n)%nat by lia. rewrite pow_add. ring.
Qed.
Lemma ath_der n x : derivable_pt_lim (ath n) x (geo n x).
Proof.
  induction n as [|n IH]; [apply derivable_pt_lim_const|].
  cbn [ath geo]. apply (derivable_pt_lim_plus (ath n) (fun x => x ^ (2 * n + 1) / (2 * INR n + 1))); [exact IH|].
  assert (P : 2 * INR n + 1 <> 0) by (assert (Q := pos_INR n); lra).
  assert (D := derivable_pt_lim_pow x (2 * n + 1)). replace (pred (2 * n + 1)) with (2 * n)%nat in D by lia.
  assert (K := derivable_pt_lim_scal _ (/ (2 * INR n + 1)) x _ D).
  replace (/ (2 * INR n + 1) * (INR (2 * n + 1) * x ^ (2 * n))) with (x ^ (2 * n)) in K
    by (rewrite plus_INR, mult_INR; change (INR 2) with 2; change (INR 1) with 1; field; exact P).
  intros eps He. destruct (K eps He) as [d Hd]. exists d. intros h H0 H1. specialize (Hd h H0 H1).
  unfold mult_real_fct, Rdiv in *. rewrite (Rmult_comm ((x + h) ^ (2 * n + 1))), (Rmult_comm (x ^ (2 * n + 1))). exact Hd.
Qed.
Lemma ath_ln n x : 0 < x < 1 -> 0 <= ln ((1 + x) / (1 - x)) - 2 * ath n x <= 2 * x * x ^ (2 * n) / (1 - x * x).
Proof.
  intros Hx.
  set (f := fun c => ln (1 + c) - ln (1 - c) - 2 * ath n c).
  set (f' := fun c => / (1 + c) + / (1 - c) - 2 * geo n c).
  destruct (MVT_cor2 f f' 0 x ltac:(lra)) as (c & E & Hc).
  { intros c Hc. unfold f, f'.
    assert (D1 : derivable_pt_lim (fun c => ln (1 + c)) c (/ (1 + c))).
    { replace (/ (1 + c)) with (/ (1 + c) * 1) by ring. apply (derivable_pt_lim_comp (fun c => 1 + c) ln).
      - replace (derivable_pt_lim (fun c => 1 + c) c 1) with (derivable_pt_lim (fun c => 1 + c) c (0 + 1)) by (now rewrite Rplus_0_l). apply (derivable_pt_lim_plus (fun _ => 1) (fun c => c)); [apply derivable_pt_lim_const|apply derivable_pt_lim_id].
      - apply derivable_pt_lim_ln. lra. }
    assert (D2 : derivable_pt_lim (fun c => ln (1 - c)) c (- / (1 - c))).
    { replace (- / (1 - c)) with (/ (1 - c) * (0 - 1)) by ring. apply (derivable_pt_lim_comp (fun c => 1 - c) ln).
      - apply (derivable_pt_lim_minus (fun _ => 1) (fun c => c)); [apply derivable_pt_lim_const|apply derivable_pt_lim_id].
      - apply derivable_pt_lim_ln. lra. }
    replace (/ (1 + c) + / (1 - c) - 2 * geo n c) with (/ (1 + c) - - / (1 - c) - 2 * geo n c) by ring.
    apply (derivable_pt_lim_minus (fun c => ln (1 + c) - ln (1 - c)) (fun c => 2 * ath n c)).
    - now apply (derivable_pt_lim_minus (fun c => ln (1 + c)) (fun c => ln (1 - c))).
    - apply (derivable_pt_lim_scal (ath n) 2). apply ath_der. }
  assert (F0 : f 0 = 0).
  { unfold f. rewrite Rplus_0_r, Rminus_0_r, ln_1. replace (ath n 0) with 0; [ring|].
    clear. induction n as [|n IH]; [reflexivity|]. cbn [ath]. rewrite <- IH. replace (2 * n + 1)%nat with (S (2 * n)) by lia. cbn [pow]. unfold Rdiv. ring. }
  assert (FX : ln ((1 + x) / (1 - x)) - 2 * ath n x = f x).
  { unfold f. unfold Rdiv. rewrite ln_mult, ln_Rinv by (try apply Rinv_0_lt_compat; lra). ring. }
  rewrite FX. replace (f x) with (f x - f 0) by lra. rewrite E, Rminus_0_r.
  assert (PC : 0 < 1 - c * c) by nra. assert (PX : 0 < 1 - x * x) by nra.
  assert (EF : f' c = 2 * c ^ (2 * n) / (1 - c * c)).
  { unfold f'. assert (G := geo_ok n c). replace (geo n c) with ((1 - c ^ (2 * n)) / (1 - c * c)) by (rewrite <- G; field; lra). field. split; lra. }
  rewrite EF.
  assert (PW : 0 <= c ^ (2 * n) <= x ^ (2 * n)) by (split; [apply pow_le; lra|apply pow_incr; lra]).
  assert (IC : 0 < / (1 - c * c) <= / (1 - x * x)).
  { split; [now apply Rinv_0_lt_compat|]. apply Rinv_le_contravar; [exact PX|]. nra. }
  unfold Rdiv. split.
  - apply Rmult_le_pos; [|lra]. apply Rmult_le_pos; lra.
  - replace (2 * x * x ^ (2 * n) * / (1 - x * x)) with (2 * x ^ (2 * n) * / (1 - x * x) * x) by ring.
    apply Rmult_le_compat_r; [lra|]. apply Rmult_le_compat; lra.
Qed.
Lemma ath_rsum n x : x <> 0 -> rsum (/ (x * x)) n 1 x = ath n x.
Proof.
  intros Hx. induction n as [|n IH]; [reflexivity|].
  rewrite rsum_last, IH.
  - cbn [ath]. f_equal. rewrite (Rplus_comm 1). unfold Rdiv. f_equal.
    rewrite pow_inv, Rinv_inv, pow_add, pow_mult, pow_1. replace (x ^ 2) with (x * x) by ring. ring.
  - apply Rinv_neq_0_compat. now apply Rmult_integral_contrapositive.
Qed.

(** ** e *)
Fixpoint eser (n : nat) (k t acc : Z) : Z := match n with O => acc | S n => eser n (k + 1) (t / k) (acc + t / k) end.
Fixpoint esum (n : nat) (x : R) : R := match n with O => 1 | S m => esum m x + x ^ n / INR (fact n) end.
Lemma esum_der n x : derivable_pt_lim (esum n) x (match n with O => 0 | S m => esum m x end).
Proof.
  induction n as [|n IH]; [apply derivable_pt_lim_const|].
  change (derivable_pt_lim (fun x => esum n x + x ^ S n / INR (fact (S n))) x (esum n x)).
  assert (K : derivable_pt_lim (fun x => x ^ S n / INR (fact (S n))) x (x ^ n / INR (fact n))).
  { assert (K := derivable_pt_lim_scal (fun x => x ^ S n) (/ INR (fact (S n))) x (INR (S n) * x ^ n) (derivable_pt_lim_pow x (S n))).
    replace (x ^ n / INR (fact n)) with (/ INR (fact (S n)) * (INR (S n) * x ^ n)).
    - intros eps He. destruct (K eps He) as [d Hd]. exists d. intros h H0 H1. specialize (Hd h H0 H1).
      unfold mult_real_fct, Rdiv in *. rewrite <- !(Rmult_comm (/ INR (fact (S n)))). exact Hd.
    - change (fact (S n)) with (S n * fact n)%nat. rewrite mult_INR. field. split; [apply INR_fact_neq_0|now apply not_0_INR]. }
  destruct n as [|n].
  - replace (esum 0 x) with (0 + x ^ 0 / INR (fact 0)) by (cbn; field). apply (derivable_pt_lim_plus (esum 0) _ x _ _ IH K).
  - change (esum (S n) x) with (esum n x + x ^ S n / INR (fact (S n))). apply (derivable_pt_lim_plus (esum (S n)) _ x _ _ IH K).
Qed.
Lemma exp_bounds n : 0 <= exp 1 - esum n 1 <= 3 / INR (fact n).
Proof.
  set (f := fun c => exp (- c) * esum n c). set (f' := fun c => - (exp (- c) * (c ^ n / INR (fact n)))).
  destruct (MVT_cor2 f f' 0 1 ltac:(lra)) as (c & E & Hc).
  { intros c Hc. unfold f, f'.
    assert (D1 : derivable_pt_lim (fun c => exp (- c)) c (exp (- c) * -1)).
    { apply (derivable_pt_lim_comp (fun c => - c) exp); [|apply derivable_pt_lim_exp].
      apply (derivable_pt_lim_opp (fun c => c)). apply derivable_pt_lim_id. }
    assert (K := derivable_pt_lim_mult _ _ c _ _ D1 (esum_der n c)).
    replace (- (exp (- c) * (c ^ n / INR (fact n)))) with (exp (- c) * -1 * esum n c + exp (- c) * match n with O => 0 | S m => esum m c end); [exact K|].
    destruct n as [|n]; [cbn; field|]. cbn [esum]. ring. }
  assert (F0 : f 0 = 1).
  { unfold f. rewrite Ropp_0, exp_0, Rmult_1_l. clear. induction n as [|n IH]; [reflexivity|]. cbn [esum]. rewrite IH. cbn [pow]. unfold Rdiv. ring. }
  rewrite F0, Rminus_0_r, Rmult_1_r in E. unfold f in E.
  assert (EE : exp 1 * exp (- (1)) = 1) by (rewrite <- exp_plus, Rplus_opp_r; apply exp_0).
  assert (P1 := exp_pos 1). assert (P2 : exp 1 <= 3) by apply exp_le_3.
  assert (Q : exp 1 - esum n 1 = exp 1 * (exp (- c) * (c ^ n / INR (fact n)))).
  { unfold f' in E. replace (exp (- c) * (c ^ n / INR (fact n))) with (1 - exp (- (1)) * esum n 1) by lra.
    rewrite Rmult_minus_distr_l, <- Rmult_assoc, EE. ring. }
  rewrite Q. assert (PF := INR_fact_lt_0 n). assert (IF := Rinv_0_lt_compat _ PF).
  assert (PC : 0 <= c ^ n <= 1) by (split; [apply pow_le; lra|rewrite <- (pow1 n); apply pow_incr; lra]).
  assert (PE : 0 < exp (- c) <= 1).
  { split; [apply exp_pos|]. rewrite <- exp_0. left. apply exp_increasing. lra. }
  unfold Rdiv. split.
  - apply Rmult_le_pos; [lra|]. apply Rmult_le_pos; [lra|]. apply Rmult_le_pos; lra.
  - apply Rmult_le_compat; [lra|apply Rmult_le_pos; [lra|apply Rmult_le_pos; lra]|lra|].
    replace (/ INR (fact n)) with (1 * (1 * / INR (fact n))) at 2 by ring.
    apply Rmult_le_compat; [lra|apply Rmult_le_pos; lra|lra|]. apply Rmult_le_compat_r; lra.
Qed.
Lemma eser_ok n : forall j t acc T, Rabs (IZR t - T / INR (fact j)) <= 2 ->
  Rabs (IZR (eser n (Z.of_nat (S j)) t acc) - (IZR acc + T * (esum (j + n) 1 - esum j 1))) <= 3 * INR n.
Proof.
  induction n as [|n IH]; intros j t acc T HT.
  - cbn [eser INR]. rewrite Nat.add_0_r. replace (IZR acc - (IZR acc + T * (esum j 1 - esum j 1))) with 0 by ring. rewrite Rabs_R0. lra.
  - cbn [eser]. rewrite S_INR.
    assert (K := div_err t (T / INR (fact j)) (Z.of_nat (S j)) ltac:(lia)).
    rewrite <- INR_IZR_INZ in K.
    assert (PJ : 1 <= INR (S j)) by (rewrite S_INR; assert (Q := pos_INR j); lra).
    rewrite (Rabs_pos_eq (INR (S j))) in K by lra.
    assert (EF : T / INR (fact j) / INR (S j) = T / INR (fact (S j))).
    { change (fact (S j)) with (S j * fact j)%nat. rewrite mult_INR. field. split; [apply INR_fact_neq_0|lra]. }
    rewrite EF in K. set (d := Rabs (IZR t - T / INR (fact j))) in *.
    destruct (Nat.eq_dec j 0) as [->|NJ].
    + (* first step: exact up to 2+1 would not do, but division by 1 is exact *)
      change (Z.of_nat 1) with 1%Z in *. rewrite Z.div_1_r in *. 
      specialize (IH 1%nat t (acc + t)%Z T). change (Z.of_nat 2) with (1 + 1)%Z in IH.
      assert (H1 : Rabs (IZR t - T / INR (fact 1)) <= 2) by exact HT.
      specialize (IH H1). rewrite plus_IZR in IH. cbn [Nat.add] in *.
      set (A := IZR (eser n (1 + 1) t (acc + t))) in *. 
      assert (X : esum 1 1 = esum 0 1 + 1) by (cbn; field).
      replace (A - (IZR acc + T * (esum (S n) 1 - esum 0 1))) with ((A - (IZR acc + IZR t + T * (esum (S n) 1 - esum 1 1))) + (IZR t - T)) by (rewrite X; ring).
      eapply Rle_trans; [apply Rabs_triang|]. replace (T / INR (fact 1)) with T in H1 by (cbn; field). lra.
    + assert (PJ2 : 2 <= INR (S j)) by (apply (le_INR 2); lia).
      assert (D1 : d / INR (S j) <= 1).
      { apply Rmult_le_reg_r with (INR (S j)); [lra|]. unfold Rdiv. rewrite Rmult_assoc, Rinv_l by lra. assert (0 <= d) by apply Rabs_pos. lra. }
      specialize (IH (S j) (t / Z.of_nat (S j))%Z (acc + t / Z.of_nat (S j))%Z T ltac:(lra)).
      replace (Z.of_nat (S (S j))) with (Z.of_nat (S j) + 1)%Z in IH by lia.
      rewrite plus_IZR in IH. set (A := IZR (eser n _ _ _)) in *.
      replace (S j + n)%nat with (j + S n)%nat in IH by lia.
      assert (X : T * esum (S j) 1 = T * esum j 1 + T / INR (fact (S j))) by (cbn [esum]; rewrite pow1; unfold Rdiv; ring).
      replace (A - (IZR acc + T * (esum (j + S n) 1 - esum j 1))) with
        ((A - (IZR acc + IZR (t / Z.of_nat (S j)) + T * (esum (j + S n) 1 - esum (S j) 1))) + (IZR (t / Z.of_nat (S j)) - T / INR (fact (S j)))) by (rewrite (Rmult_minus_distr_l T _ (esum (S j) 1)), X; ring).
      eapply Rle_trans; [apply Rabs_triang|]. lra.
Qed.

(** ** The enclosures.  T260 = 2^260. *)
Definition T260 : Z := 1852673427797059126777135760139006525652319754650249024631321344126610074238976.
Definition pi_lo : Z := 5820345230268261188483759084443677802454294037254278879340354417887022311454584.
Definition pi_hi : Z := 5820345230268261188483759084443677802454294037254278879340354417887022311462584.
Definition ln2_lo : Z := 1284175362975860941795742467300961128543850681785439145697965880086719311614664.
Definition ln2_hi : Z := 1284175362975860941795742467300961128543850681785439145697965880086719311622664.
Definition ln10_lo : Z := 4265938217031688771556055350642921398878627607048311552576027894778327519153110.
Definition ln10_hi : Z := 4265938217031688771556055350642921398878627607048311552576027894778327519161110.
Definition e_lo : Z := 5036088512849676805868687906378405242893424791670267521431526141298124281147190.
Definition e_hi : Z := 5036088512849676805868687906378405242893424791670267521431526141298124281155190.

Lemma ser_start q n d : (2 <= Z.abs q)%Z -> (2 <= d)%Z ->
  Rabs (IZR (ser q n 1 (T260 / d) 0) - IZR T260 * rsum (IZR q) n 1 (/ IZR d)) <= 3 * INR n.
Proof.
  intros Hq Hd. assert (K := div_err T260 (IZR T260) d ltac:(lia)).
  replace (IZR T260 - IZR T260) with 0 in K by ring. rewrite Rabs_R0 in K. unfold Rdiv at 2 in K. rewrite Rmult_0_l in K.
  assert (K2 := ser_ok q Hq n 1 (T260 / d) 0 (IZR T260 / IZR d) ltac:(lia) ltac:(lra)).
  unfold Rdiv in K2. rewrite rsum_scale, Rplus_0_l in K2. exact K2.
Qed.
Lemma abs_le x y e : Rabs (x - y) <= e -> x - e <= y <= x + e.
Proof. intros H. destruct (Rcase_abs (x - y)) as [G|G]; [rewrite (Rabs_left _ G) in H|rewrite (Rabs_right _ G) in H]; lra. Qed.
Lemma inr_z n z : Z.of_nat n = z -> INR n = IZR z.
Proof. intros <-. apply INR_IZR_INZ. Qed.

Lemma pi_enc : IZR pi_lo <= IZR T260 * PI <= IZR pi_hi.
Proof.
  assert (K : 2 * rsum (-9) 84 1 (/ 3) + rsum (-49) 84 1 (/ 7) <= PI / 4 <= 2 * rsum (-9) 83 1 (/ 3) + rsum (-49) 83 1 (/ 7)) by exact (PI_bounds 41).
  assert (A1 := ser_start (-9) 83 3 ltac:(lia) ltac:(lia)). assert (A2 := ser_start (-9) 84 3 ltac:(lia) ltac:(lia)).
  assert (B1 := ser_start (-49) 83 7 ltac:(lia) ltac:(lia)). assert (B2 := ser_start (-49) 84 7 ltac:(lia) ltac:(lia)).
  rewrite (inr_z 83 83 eq_refl) in *. rewrite (inr_z 84 84 eq_refl) in *.
  assert (EA1 : ser (-9) 83 1 (T260 / 3) 0 = 596098702509631225669224019170902301246057144740722764504024315647259583150513%Z) by (vm_compute; reflexivity).
  assert (EA2 : ser (-9) 84 1 (T260 / 3) 0 = 596098702509631225669224019170902301246057144740722764504024315647259583150513%Z) by (vm_compute; reflexivity).
  assert (EB1 : ser (-49) 83 1 (T260 / 7) 0 = 262888902547802845782491732769114848121459219832124190827039973177236411563620%Z) by (vm_compute; reflexivity).
  assert (EB2 : ser (-49) 84 1 (T260 / 7) 0 = 262888902547802845782491732769114848121459219832124190827039973177236411563620%Z) by (vm_compute; reflexivity).
  rewrite EA1 in A1. rewrite EA2 in A2. rewrite EB1 in B1. rewrite EB2 in B2.
  apply abs_le in A1, A2, B1, B2. unfold pi_lo, pi_hi, T260 in *.
  generalize dependent (rsum (-9) 83 1 (/ 3)). generalize dependent (rsum (-9) 84 1 (/ 3)).
  generalize dependent (rsum (-49) 83 1 (/ 7)). generalize dependent (rsum (-49) 84 1 (/ 7)). intros. lra.
Qed.

Lemma ath_enc q n x d v eps r : (2 <= Z.abs q)%Z -> (2 <= d)%Z -> / (x * x) = IZR q -> x = / IZR d -> 0 < x < 1 ->
  ser q n 1 (T260 / d) 0 = v -> IZR T260 * (2 * x * x ^ (2 * n) / (1 - x * x)) <= eps ->
  (1 + x) / (1 - x) = r ->
  2 * IZR v - 6 * INR n <= IZR T260 * ln r <= 2 * IZR v + 6 * INR n + eps.
Proof.
  intros Hq Hd Eq Ex Hx Ev He Er. assert (K := ath_ln n x Hx). assert (G := ser_start q n d Hq Hd).
  rewrite Ev, <- Eq, <- Ex, ath_rsum in G by lra. apply abs_le in G. rewrite Er in K.
  assert (P : 0 < IZR T260) by (apply IZR_lt; reflexivity).
  assert (K1 := Rmult_le_compat_l _ _ _ (Rlt_le _ _ P) (proj1 K)). assert (K2 := Rmult_le_compat_l _ _ _ (Rlt_le _ _ P) (proj2 K)).
  rewrite Rmult_minus_distr_l in K1, K2. lra.
Qed.
Lemma ath_rem n d p m : (d ^ (2 * Z.of_nat n) = p)%Z -> (2 * Z.of_nat n = Z.of_nat m)%Z ->
  (/ IZR d) ^ m = / IZR p.
Proof. intros Hp Hm. rewrite pow_inv, pow_IZR. f_equal. f_equal. rewrite <- Hm. exact Hp. Qed.
Lemma L3_enc : 2 * IZR 642087681487930470897871233650480564271925340892719572848982940043359655809332 - 6 * 83 <= IZR T260 * ln 2 <= 2 * IZR 642087681487930470897871233650480564271925340892719572848982940043359655809332 + 6 * 83 + 1.
Proof.
  assert (R0 : IZR T260 * (2 * / 3 * (/ 3) ^ (2 * 83) / (1 - / 3 * / 3)) <= 1).
  { rewrite (ath_rem 83 3 15926791088519786003064148590679881418931379526481396121112548658575277686941529 (2 * 83)) by (vm_compute; reflexivity). unfold T260, Rdiv. replace (/ (1 - / 3 * / 3)) with (9 / 8) by field. lra. }
  assert (K := ath_enc 9 83 (/ 3) 3 642087681487930470897871233650480564271925340892719572848982940043359655809332 1 2 ltac:(lia) ltac:(lia) ltac:(field) eq_refl ltac:(lra) ltac:(vm_compute; reflexivity) R0 ltac:(field)).
  rewrite (inr_z 83 83 eq_refl) in K. exact K.
Qed.
Lemma L9_enc : 2 * IZR 206706064052052973084413974370019006623537780845997057741065127259084792150559 - 6 * 42 <= IZR T260 * ln (5 / 4) <= 2 * IZR 206706064052052973084413974370019006623537780845997057741065127259084792150559 + 6 * 42 + 1.
Proof.
  assert (R0 : IZR T260 * (2 * / 9 * (/ 9) ^ (2 * 42) / (1 - / 9 * / 9)) <= 1).
  { rewrite (ath_rem 42 9 143341119796678074027577337316118932770382415738332565090012937927177499182473761 (2 * 42)) by (vm_compute; reflexivity). unfold T260, Rdiv. replace (/ (1 - / 9 * / 9)) with (81 / 80) by field. lra. }
  assert (K := ath_enc 81 42 (/ 9) 9 206706064052052973084413974370019006623537780845997057741065127259084792150559 1 (5 / 4) ltac:(lia) ltac:(lia) ltac:(field) eq_refl ltac:(lra) ltac:(vm_compute; reflexivity) R0 ltac:(field)).
  rewrite (inr_z 42 42 eq_refl) in K. exact K.
Qed.
Lemma ln2_enc : IZR ln2_lo <= IZR T260 * ln 2 <= IZR ln2_hi.
Proof. assert (K := L3_enc). unfold ln2_lo, ln2_hi. lra. Qed.
Lemma ln10_enc : IZR ln10_lo <= IZR T260 * ln 10 <= IZR ln10_hi.
Proof.
  assert (K3 := L3_enc). assert (K9 := L9_enc).
  assert (E : ln 10 = 3 * ln 2 + ln (5 / 4)).
  { replace 10 with (2 * (2 * (2 * (5 / 4)))) by field. rewrite !ln_mult by lra. ring. }
  rewrite E. unfold ln10_lo, ln10_hi in *. lra.
Qed.
Lemma fact_z n : Z.of_nat (fact n) = (fix go (n : nat) : Z := match n with O => 1%Z | S m => (Z.of_nat n * go m)%Z end) n.
Proof. induction n as [|n IH]; [reflexivity|]. change (fact (S n)) with (S n * fact n)%nat. rewrite Nat2Z.inj_mul, IH. reflexivity. Qed.
Lemma e_enc : IZR e_lo <= IZR T260 * exp 1 <= IZR e_hi.
Proof.
  assert (K := exp_bounds 60).
  assert (G := eser_ok 60 0 T260 T260 (IZR T260)).
  assert (H0 : Rabs (IZR T260 - IZR T260 / INR (fact 0)) <= 2).
  { change (INR (fact 0)) with 1. replace (IZR T260 - IZR T260 / 1) with 0 by field. rewrite Rabs_R0. lra. }
  specialize (G H0). change (Z.of_nat 1) with 1%Z in G. change (0 + 60)%nat with 60%nat in G. change (esum 0 1) with 1 in G.
  assert (EV : eser 60 1 T260 T260 = 5036088512849676805868687906378405242893424791670267521431526141298124281151190%Z) by (vm_compute; reflexivity).
  rewrite EV in G. rewrite (inr_z 60 60 eq_refl) in G. apply abs_le in G.
  assert (F : INR (fact 60) = 8320987112741390144276341183223364380754172606361245952449277696409600000000000000) by (apply inr_z; rewrite fact_z; vm_compute; reflexivity).
  rewrite F in K. revert G K. generalize (esum 60 1). intros s G K. unfold e_lo, e_hi, T260 in *. lra.
Qed.
