(** * Exact integer products and quotients, floored remainder, iterator folds (lemmas) *)
From Coq Require Import ZArith Reals Lra Lia Psatz List Bool.
From Flocq Require Import Core IEEE754.BinarySingleNaN.
From Verif Require Import RN F64 Prim DoubleM QuadM Spec F64Facts EFT DAddProofs DMulProofs ExactProofs SingleProofs DDivProofs RoundProofs RoundThms ParseNum.
Local Open Scope R_scope.

(** finite, on the grid 2^k, at most 2^m *)
Definition Gr (k m : Z) (a : f64) : Prop := Bd (bp m) a /\ mult2 k (V a).
Lemma Gr_up k m n a : (m <= n)%Z -> Gr k m a -> Gr k n a.
Proof. intros H [B M]. split; auto. eapply Bd_bp; eauto. Qed.
Lemma Gr_add k m a b : (-1074 <= k)%Z -> (-1074 <= m < 1023)%Z -> Gr k m a -> Gr k m b -> Gr k (m + 1) (fadd a b).
Proof. intros Hk Hm [Ba Ma] [Bb Mb]. destruct (Bd_add m a b Hm Ba Bb) as [B E]. split; auto. rewrite E. apply mult2_rn; auto using mult2_plus. Qed.
Lemma Gr_sub k m a b : (-1074 <= k)%Z -> (-1074 <= m < 1023)%Z -> Gr k m a -> Gr k m b -> Gr k (m + 1) (fsub a b).
Proof. intros Hk Hm [Ba Ma] [Bb Mb]. destruct (Bd_sub m a b Hm Ba Bb) as [B E]. split; auto. rewrite E. apply mult2_rn; auto using mult2_minus. Qed.
Lemma Gr_mul k l m n a b : (-1074 <= k + l)%Z -> (-1074 <= m + n < 1024)%Z -> Gr k m a -> Gr l n b -> Gr (k + l) (m + n) (fmul a b).
Proof. intros Hk Hm [Ba Ma] [Bb Mb]. destruct (Bd_mul m n a b Hm Ba Bb) as [B E]. split; auto. rewrite E. apply mult2_rn; auto using mult2_mul. Qed.
Lemma Gr_quick k m a b : (-1074 <= k)%Z -> (-1074 <= m < 1000)%Z -> Gr k m a -> Gr k m b -> Gr k (m + 3) (fst (quick_two_sum a b)) /\ Gr k (m + 3) (snd (quick_two_sum a b)).
Proof.
  intros Hk Hm A B. unfold quick_two_sum. cbn [fst snd].
  assert (S := Gr_add k m a b Hk ltac:(lia) A B). assert (D := Gr_sub k (m + 1) _ _ Hk ltac:(lia) S (Gr_up k m (m + 1) a ltac:(lia) A)).
  assert (T := Gr_sub k (m + 1 + 1) b _ Hk ltac:(lia) (Gr_up k m (m + 1 + 1) b ltac:(lia) B) D).
  split; eapply Gr_up; [|exact S| |exact T]; lia.
Qed.
Lemma Gr_D k m x : (-1074 <= k)%Z -> (-1074 <= m < 1000)%Z -> DNorm x -> mult2 k (DV x) -> Rabs (V (d0 x)) <= bp m -> Gr k m (d0 x) /\ Gr k m (d1 x).
Proof.
  intros Hk Hm N M B. destruct (DNorm_grid k x Hk N M) as [M0 M1]. assert (L := DNorm_lo x N). assert (P := Rabs_pos (V (d0 x))).
  destruct N as [[F0 F1] _]. split; split; try split; auto. lra.
Qed.
Lemma DV_Gr k m x : Gr k m (d0 x) -> Gr k m (d1 x) -> mult2 k (DV x).
Proof. intros [_ A] [_ B]. unfold DV. now apply mult2_plus. Qed.

Lemma d_mul_mult2 k l m n x y : (-1074 <= k + l)%Z -> (-1074 <= k)%Z -> (-1074 <= l)%Z -> (-1074 <= m < 1000)%Z -> (-1074 <= n < 1000)%Z -> (-1074 <= m + n < 990)%Z ->
  DNorm x -> DNorm y -> mult2 k (DV x) -> mult2 l (DV y) -> Rabs (V (d0 x)) <= bp m -> Rabs (V (d0 y)) <= bp n ->
  mult2 (k + l) (DV (d_mul x y)).
Proof.
  intros Hkl Hk Hl Hm Hn Hmn Nx Ny Mx My Bx By.
  destruct (Gr_D k m x Hk Hm Nx Mx Bx) as [X0 X1], (Gr_D l n y Hl Hn Ny My By) as [Y0 Y1].
  destruct (Req_dec (V (d0 x)) 0) as [Z0|NZ].
  - unfold d_mul. rewrite d_pre_mul_zero by (try apply X0; try apply Y0; auto). cbn [from_pre].
    destruct (Bool.eqb _ _); unfold DV; cbn; rewrite Rplus_0_r; apply mult2_0.
  - unfold d_mul. rewrite d_pre_mul_fin by (try apply X0; try apply Y0; auto). cbn [from_pre].
    destruct (two_prod_gen m n (d0 x) (d0 y) ltac:(lia) (proj1 X0) (proj1 Y0)) as [Fp [Fe [Ep Ee]]].
    assert (BP : Rabs (V (d0 x) * V (d0 y)) <= bp (m + n)) by (rewrite bpow_plus; apply Rabs_mult_le; auto).
    assert (MP : mult2 (k + l) (V (d0 x) * V (d0 y))) by (apply mult2_mul; [apply X0|apply Y0]).
    destruct (two_prod (d0 x) (d0 y)) as [p e]. cbn [fst snd] in *.
    assert (GP : Gr (k + l) (m + n) p).
    { split; [split; auto; rewrite Ep; apply rn_abs_le; [apply fmt_bpow; lia|auto]|rewrite Ep; apply mult2_rn; auto]. }
    assert (GE : Gr (k + l) (m + n + 1) e).
    { split; [split; auto|]; rewrite Ee.
      - apply rn_abs_le; [apply fmt_bpow; lia|]. rewrite bp_S. destruct GP as [[_ K] _]. rewrite Ep in K.
        assert (T := Rabs_triang (V (d0 x) * V (d0 y)) (- rn (V (d0 x) * V (d0 y)))). rewrite Rabs_Ropp in T. unfold Rminus. lra.
      - apply mult2_rn; auto. apply mult2_minus; auto. apply mult2_rn; auto. }
    assert (C1 := Gr_mul k l m n _ _ Hkl ltac:(lia) X0 Y1). assert (C2 := Gr_mul k l m n _ _ Hkl ltac:(lia) X1 Y0).
    assert (D1 := Gr_add (k + l) (m + n + 1) _ _ Hkl ltac:(lia) GE (Gr_up _ (m + n) (m + n + 1) _ ltac:(lia) C1)).
    assert (D2 := Gr_add (k + l) (m + n + 1 + 1) _ _ Hkl ltac:(lia) D1 (Gr_up _ (m + n) (m + n + 1 + 1) _ ltac:(lia) C2)).
    destruct (Gr_quick (k + l) (m + n + 1 + 1 + 1) p _ Hkl ltac:(lia) (Gr_up _ (m + n) (m + n + 1 + 1 + 1) _ ltac:(lia) GP) D2) as [Q1 Q2].
    unfold renorm2. destruct (quick_two_sum p _) as [a b]. cbn [fst snd] in *. now apply (DV_Gr (k + l) (m + n + 1 + 1 + 1 + 3)).
Qed.

Lemma IZR_abs_bp z k : (0 <= k)%Z -> (Z.abs z <= 2 ^ k)%Z -> Rabs (IZR z) <= bp k.
Proof. intros Hk H. rewrite <- abs_IZR. rewrite <- IZR_Zpower by auto. apply IZR_le. exact H. Qed.
Lemma DInt_hi x z k : (0 <= k)%Z -> DInt x z -> (Z.abs z <= 2 ^ k)%Z -> Rabs (V (d0 x)) <= bp k.
Proof. intros Hk [N E] H. apply DNorm_hi_le; auto. apply fmt_bpow; lia. rewrite E. now apply IZR_abs_bp. Qed.
Lemma DInt_nz x z : DInt x z -> (z <> 0)%Z -> V (d0 x) <> 0 /\ 1 <= Rabs (V (d0 x)).
Proof.
  intros [N E] NZ. assert (M := mult2_IZR z). rewrite <- E in M. destruct (DNorm_grid 0 x ltac:(lia) N M) as [[p Hp] _].
  change (bp 0) with 1 in Hp. rewrite Rmult_1_r in Hp.
  assert (K : V (d0 x) <> 0). { intros H0. assert (H1 := DNorm_zero x H0 N). apply NZ. apply eq_IZR. rewrite <- E. unfold DV. rewrite H0, H1. ring. }
  split; auto. rewrite Hp in *. rewrite <- abs_IZR. apply IZR_le. destruct (Z.eq_dec p 0) as [->|]; [now destruct K|lia].
Qed.
Lemma DInt_zero_hi x : DInt x 0 -> V (d0 x) = 0.
Proof. intros [[F N] E]. rewrite N, E. apply rn_0. Qed.

(** products of integer-valued Doubles are exact up to 2^102 *)
Lemma d_mul_int x y a b : DInt x a -> DInt y b -> (Z.abs (a * b) <= 2 ^ 102)%Z -> DInt (d_mul x y) (a * b).
Proof.
  intros X Y B.
  assert (MW : mul_window (V (d0 x)) (V (d0 y))).
  { destruct (Z.eq_dec a 0) as [->|Na]. { left. rewrite (DInt_zero_hi x X). ring. }
    destruct (Z.eq_dec b 0) as [->|Nb]. { left. rewrite (DInt_zero_hi y Y). ring. }
    destruct (DInt_nz x a X Na) as [_ A1]. destruct (DInt_nz y b Y Nb) as [_ B1].
    right. rewrite Rabs_mult. split.
    - apply Rle_trans with 1; [change 1 with (bp 0); apply bpow_le; lia|]. nra.
    - assert (KX := DNorm_hi_rel x (proj1 X)). assert (KY := DNorm_hi_rel y (proj1 Y)).
      assert (E : Rabs (DV x) * Rabs (DV y) <= bp 102).
      { rewrite <- Rabs_mult, (proj2 X), (proj2 Y), <- mult_IZR. apply IZR_abs_bp; [lia|exact B]. }
      assert (P1 := Rabs_pos (DV x)). assert (P2 := Rabs_pos (DV y)). assert (P3 := Rabs_pos (V (d0 x))). assert (P4 := Rabs_pos (V (d0 y))).
      apply Rle_trans with (4 * bp 102). 2: { replace (4 * bp 102) with (bp 104) by exact (bp_split 102 2 ltac:(lia)). apply bpow_le; lia. }
      apply Rle_trans with ((2 * Rabs (DV x)) * (2 * Rabs (DV y))); [|lra]. apply Rmult_le_compat; auto; lra. }
  destruct (d_mul_ok x y (proj1 X) (proj1 Y) MW) as [N A]. split; auto.
  assert (EQ : DV x * DV y = IZR (a * b)) by (rewrite (proj2 X), (proj2 Y), mult_IZR; reflexivity).
  rewrite EQ in A. destruct (Z.eq_dec (a * b) 0) as [H0|NZ].
  { unfold approx in A. rewrite H0, Rabs_R0, Rmult_0_r in A. rewrite H0. destruct (Req_dec (DV (d_mul x y)) 0); auto.
    exfalso. assert (0 < Rabs (DV (d_mul x y) - 0)) by (apply Rabs_pos_lt; lra). lra. }
  rewrite Z.abs_mul in B. assert (1 <= Z.abs a)%Z by nia. assert (1 <= Z.abs b)%Z by nia.
  assert (BA : (Z.abs a <= 2 ^ 102)%Z) by (generalize dependent (2 ^ 102)%Z; intros; nia). assert (BB : (Z.abs b <= 2 ^ 102)%Z) by (generalize dependent (2 ^ 102)%Z; intros; nia).
  rewrite <- Z.abs_mul in B.
  apply (grid_exact 0 _ _ 9); auto using mult2_IZR.
  - apply (d_mul_mult2 0 0 102 102); try lia; try apply X; try apply Y; eauto using DInt_mult2; eapply DInt_hi; eauto; lia.
  - apply Rle_lt_trans with (9 * bp 102). { apply Rmult_le_compat_l; [lra|]. apply IZR_abs_bp; [lia|exact B]. }
    change (bp (0 + 106)) with (bp 106). replace (bp 106) with (16 * bp 102) by (symmetry; exact (bp_split 102 4 ltac:(lia))). assert (P := bpow_gt_0 radix2 102). lra.
Qed.
Lemma p103 : IZR (2 ^ 103) = bp 103. Proof. reflexivity. Qed.
Lemma DInt_D15' x z : DInt x z -> (Z.abs z <= 2 ^ 110)%Z -> D15 x.
Proof. intros X B. unfold D15. eapply Rle_trans; [eapply DInt_hi; [|exact X|exact B]; lia|]. apply bpow_le; lia. Qed.
Lemma d_add_int' x y a b : DInt x a -> DInt y b -> (Z.abs a <= 2 ^ 110)%Z -> (Z.abs b <= 2 ^ 110)%Z -> (Z.abs (a + b) <= 2 ^ 103)%Z ->
  DInt (d_add x y) (a + b).
Proof.
  intros X Y A B C. destruct (d_add_exact 0 x y) as [N E]; eauto using DInt_D15', DInt_mult2; try apply X; try apply Y; try lia.
  - rewrite (proj2 X), (proj2 Y), <- plus_IZR. apply IZR_abs_bp; [lia|exact C].
  - split; auto. rewrite E, (proj2 X), (proj2 Y), plus_IZR. reflexivity.
Qed.
Lemma d_sub_int x y a b : DInt x a -> DInt y b -> (Z.abs a <= 2 ^ 110)%Z -> (Z.abs b <= 2 ^ 110)%Z -> (Z.abs (a - b) <= 2 ^ 103)%Z ->
  DInt (d_sub x y) (a - b).
Proof.
  intros X Y A B C. destruct (d_sub_exact 0 x y) as [N E]; eauto using DInt_D15', DInt_mult2; try apply X; try apply Y; try lia.
  - rewrite (proj2 X), (proj2 Y), <- minus_IZR. apply IZR_abs_bp; [lia|exact C].
  - split; auto. rewrite E, (proj2 X), (proj2 Y), minus_IZR. reflexivity.
Qed.

(** a small integer Double is one f64 *)
Lemma DInt_single y b : DInt y b -> (Z.abs b <= 2 ^ 53)%Z -> DFV y (IZR b) 0.
Proof.
  intros [[[F0 F1] N] E] B.
  assert (K : V (d0 y) = IZR b).
  { rewrite N, E. apply rn_id. apply (fmt_mult2 0); [lia|apply mult2_IZR|]. apply (IZR_abs_bp b 53); [lia|exact B]. }
  split; [split; auto|split; auto]. unfold DV in E. lra.
Qed.
Lemma DIs_DInt x z : DIs x (IZR z) -> DInt x z.
Proof. intros H. destruct (DIs_ok _ _ H) as [? [? _]]. now split. Qed.
Lemma rn_rel1 x : bp (-1000) <= Rabs x -> Rabs (rn x - x) <= u * Rabs x.
Proof. intros H. apply rn_rel. eapply Rle_trans; [|exact H]. apply bpow_le; lia. Qed.

(** division is exact when an integer-valued dividend is a multiple of a small integer divisor *)
Lemma d_div_int x y q b : DInt x (q * b) -> DInt y b -> (b <> 0)%Z -> (Z.abs b <= 2 ^ 50)%Z -> (Z.abs (q * b) <= 2 ^ 100)%Z ->
  DInt (d_div x y) q.
Proof.
  intros X Y NB BB BX. destruct (DInt_single y b Y ltac:(lia)) as [Y0 Y1].
  assert (NZb : IZR b <> 0) by now apply IZR_neq.
  assert (NZy : V (d0 y) <> 0) by (rewrite (proj2 Y0); auto).
  destruct (Z.eq_dec q 0) as [->|NQ].
  { destruct (d_div_zero x y (proj1 X) (proj1 Y) NZy (DInt_zero_hi x X)) as [A B]. apply DIs_DInt. unfold DIs. change (IZR 0) with 0. rewrite rn_0, Rminus_0_r. now split. }
  assert (Fx : Fin (d0 x)) by apply X. assert (Fy : Fin (d0 y)) by apply Y.
  unfold d_div. rewrite d_pre_div_fin by auto. cbn [from_pre].
  assert (AQ : 1 <= Rabs (IZR q)). { rewrite <- abs_IZR. apply IZR_le. lia. }
  assert (AB : 1 <= Rabs (IZR b)). { rewrite <- abs_IZR. apply IZR_le. lia. }
  assert (BQB : Rabs (IZR q * IZR b) <= bp 100). { rewrite <- mult_IZR. apply IZR_abs_bp; [lia|exact BX]. }
  assert (BB' : Rabs (IZR b) <= bp 50) by (apply IZR_abs_bp; [lia|exact BB]).
  assert (b100 : bp 100 < bp 1010) by (apply bpow_lt; lia). assert (l1 : bp (-1000) <= 1) by (change 1 with (bp 0); apply bpow_le; lia).
  set (Q := IZR q) in *. set (B := IZR b) in *.
  (* x0 *)
  assert (EX : V (d0 x) = rn (Q * B)). { destruct X as [[_ N] E]. rewrite N, E, mult_IZR. reflexivity. }
  assert (RX : Rabs (V (d0 x) - Q * B) <= u * Rabs (Q * B)).
  { rewrite EX. apply rn_rel1. rewrite Rabs_mult. nra. }
  assert (RXB : Rabs (V (d0 x) / B - Q) <= u * Rabs Q).
  { replace (V (d0 x) / B - Q) with ((V (d0 x) - Q * B) / B) by (field; auto). 
    apply Rmult_le_reg_r with (Rabs B); [lra|]. rewrite <- Rabs_mult. replace ((V (d0 x) - Q * B) / B * B) with (V (d0 x) - Q * B) by (field; auto). rewrite Rmult_assoc, <- Rabs_mult. exact RX. }
  assert (BQ : Rabs Q <= bp 100) by (rewrite Rabs_mult in BQB; nra).
  assert (HXB := tri _ _ _ _ RXB (Rle_refl _)).
  assert (LXB : / 2 <= Rabs (V (d0 x) / B)). { assert (T := tri2 _ _ _ _ RXB (Rle_refl _)). lra. }
  rewrite <- (proj2 Y0) in RXB, HXB, LXB.
  destruct (fdiv_B (d0 x) (d0 y) (bp 101) Fx Fy NZy) as [Fq1 [Eq1 Bq1]].
  { replace (bp 101) with (2 * bp 100) by (symmetry; exact (bp_split 100 1 ltac:(lia))). lra. } { apply fmt_bpow; lia. } { apply bpow_lt; lia. }
  set (q1 := fdiv (d0 x) (d0 y)) in *. rewrite (proj2 Y0) in *.
  assert (R1 : Rabs (V q1 - V (d0 x) / B) <= u * Rabs (V (d0 x) / B)).
  { rewrite Eq1. apply rn_rel1. apply Rle_trans with (bp (-1)); [apply bpow_le; lia|]. change (bp (-1)) with (/ 2). exact LXB. }
  assert (RD : Rabs (Q - V q1) <= 201 / 100 * u * Rabs Q).
  { replace (Q - V q1) with (- (V q1 - V (d0 x) / B) + - (V (d0 x) / B - Q)) by ring.
    eapply Rle_trans. { apply triP; rewrite Rabs_Ropp; eauto. } lra. }
  (* the grid *)
  set (M := mag radix2 Q : Z).
  assert (MQ : bp (M - 1) <= Rabs Q < bp M).
  { unfold M. destruct (mag radix2 Q) as [e He]. cbn. apply He. intros Z0. rewrite Z0, Rabs_R0 in AQ. lra. }
  assert (M1 : (1 <= M)%Z). { destruct (Z_lt_le_dec M 1); auto. exfalso. assert (bp M <= bp 0) by (apply bpow_le; lia). change (bp 0) with 1 in *. lra. }
  assert (M101 : (M <= 101)%Z). { destruct (Z_le_gt_dec M 101); auto. exfalso. assert (bp 101 <= bp (M - 1)) by (apply bpow_le; lia). assert (bp 101 = 2 * bp 100) by exact (bp_split 100 1 ltac:(lia)). assert (P := bpow_gt_0 radix2 100). lra. }
  set (k := Z.min 0 (M - 54)%Z).
  assert (Mq1 : mult2 k (V q1)).
  { assert (K := mult2_cexp (V q1) (V_fmt q1)). eapply mult2_le; [|exact K]. rewrite cexp64.
    assert ((M - 1 <= mag radix2 (V q1))%Z); [|lia]. apply mag_ge_bpow.
    assert (T := tri2 _ _ _ _ RD (Rle_refl _)). assert (E2 : bp (M - 1) = 2 * bp (M - 1 - 1)) by (rewrite <- bp_S; f_equal; ring).
    assert (T' := Rabs_triang (Q - V q1) (V q1)). replace (Q - V q1 + V q1) with Q in T' by ring. lra. }
  assert (MQk : mult2 k Q) by (apply (mult2_le k 0); [lia|apply mult2_IZR]).
  set (d := Q - V q1) in *.
  assert (Md : mult2 k d) by (apply mult2_minus; auto).
  assert (MBd : mult2 k (B * d)). { replace k with (0 + k)%Z by lia. apply mult2_mul; [apply mult2_IZR|auto]. }
  assert (SBd : Rabs (B * d) <= bp (k + 53)).
  { unfold k. destruct (Z.min_spec 0 (M - 54)) as [[_ ->]|[L ->]].
    - change (0 + 53)%Z with 53%Z. rewrite Rabs_mult in *. apply Rle_trans with (201/100 * u * (Rabs Q * Rabs B)).
      { assert (PB := Rabs_pos B). apply Rle_trans with (Rabs B * (201 / 100 * u * Rabs Q)); [apply Rmult_le_compat_l; auto|right; ring]. }
      apply Rle_trans with (201/100 * u * bp 100); [apply Rmult_le_compat_l; lra|].
      replace (bp 100) with (bp 53 * bp 47) by (rewrite <- bpow_plus; reflexivity). change (bp 53) with 9007199254740992.
      replace (bp 47) with 140737488355328 by reflexivity. lra.
    - replace (M - 54 + 53)%Z with (50 + (M - 54 + 3))%Z by ring. rewrite bpow_plus, Rabs_mult.
      apply Rmult_le_compat; auto using Rabs_pos.
      assert (E1 : bp M = 9007199254740992 * 2 * bp (M - 54)). { replace M with (M - 54 + 54)%Z at 1 by ring. rewrite (bp_split (M - 54) 54) by lia. f_equal. rewrite <- mult_IZR. reflexivity. }
      rewrite (bp_split (M - 54) 3) by lia. change (IZR (2 ^ 3)) with 8. assert (P := bpow_gt_0 radix2 (M - 54)).
      eapply Rle_trans; [exact RD|]. lra. }
  assert (K1074 : (-1074 <= k)%Z) by (unfold k; lia).
  assert (FBd : fmt (B * d)) by (apply (fmt_mult2 k); auto).
  assert (SD : Rabs d <= bp (k + 53)). { eapply Rle_trans; [|exact SBd]. rewrite Rabs_mult. assert (P := Rabs_pos d). nra. }
  assert (Fd : fmt d) by (apply (fmt_mult2 k); auto).
  assert (kb : bp (k + 53) <= bp 53) by (apply bpow_le; unfold k; lia).
  assert (l53 : bp 53 < bp 1000) by (apply bpow_lt; lia). assert (l1000 : bp 1000 < bp 1024) by (apply bpow_lt; lia).
  (* first product *)
  assert (HBq1 : B * V q1 = Q * B - B * d) by (unfold d; ring).
  assert (SQ1 : Rabs (B * V q1) <= bp 101).
  { rewrite HBq1. eapply Rle_trans. { unfold Rminus. apply triP; [exact BQB|rewrite Rabs_Ropp; exact SBd]. }
    assert (bp 53 < bp 100) by (apply bpow_lt; lia). replace (bp 101) with (2 * bp 100) by (symmetry; exact (bp_split 100 1 ltac:(lia))). lra. }
  assert (LQ1 : / 2 <= Rabs (V q1)).
  { assert (T := tri2 _ _ _ _ RD (Rle_refl _)). assert (T' := Rabs_triang d (V q1)). replace (d + V q1) with Q in T' by (unfold d; ring). lra. }
  assert (PW : prod_window (V (d0 y)) (V q1)).
  { rewrite (proj2 Y0). right. split.
    - apply Rle_trans with (bp (-1)); [apply bpow_le; lia|]. change (bp (-1)) with (/ 2). rewrite Rabs_mult. nra.
    - eapply Rle_trans; [exact SQ1|]. apply bpow_le; lia. }
  assert (M1' : DIs (d_mul_f64 y q1) (B * V q1)).
  { unfold d_mul_f64. pose proof (two_prod_FV (d0 y) q1 Fy Fq1 PW) as K. rewrite (proj2 Y0) in K.
    destruct (two_prod (d0 y) q1) as [p e]. destruct K as [P E]. cbn [fst snd] in *.
    assert (N := rn_split (B * V q1)). assert (FQ1 := FV_self q1 Fq1).
    unfold renorm2, DIs. repeat fvstep. split; fvs. }
  set (m1 := d_mul_f64 y q1) in *.
  destruct (DIs_ok _ _ M1') as [Nm1 [Vm1 Hm1]].
  destruct (d_sub_exact k x m1 K1074 (proj1 X) Nm1) as [Nr1 Vr1].
  { eapply DInt_D15'; [exact X|lia]. }
  { unfold D15. apply DNorm_hi_le; auto. apply fmt_bpow; lia. rewrite Vm1. eapply Rle_trans; [exact SQ1|]. apply bpow_le; lia. }
  { rewrite (proj2 X). apply (mult2_le k 0); [unfold k; lia|apply mult2_IZR]. }
  { rewrite Vm1. replace k with (0 + k)%Z by lia. apply mult2_mul; [apply mult2_IZR|auto]. }
  { rewrite (proj2 X), Vm1, mult_IZR. fold Q B. rewrite HBq1. replace (Q * B - (Q * B - B * d)) with (B * d) by ring.
    eapply Rle_trans; [exact SBd|]. apply bpow_le; lia. }
  rewrite (proj2 X), Vm1, mult_IZR in Vr1. fold Q B in Vr1. rewrite HBq1 in Vr1. replace (Q * B - (Q * B - B * d)) with (B * d) in Vr1 by ring.
  set (r1 := d_sub x m1) in *.
  assert (R10 : DFV r1 (B * d) 0).
  { destruct Nr1 as [[F0 F1] N]. assert (H0 : V (d0 r1) = B * d) by (rewrite N, Vr1; now apply rn_id).
    split; split; auto. unfold DV in Vr1. lra. }
  assert (Q2 : FV (fdiv (d0 r1) (d0 y)) d).
  { eapply FV_div; [apply R10|exact Y0|auto| |lra]. replace (B * d / B) with d by (field; auto). now apply rn_id. }
  set (q2 := fdiv (d0 r1) (d0 y)) in *.
  assert (M2 : DFV (d_mul_f64 y q2) (B * d) 0).
  { unfold d_mul_f64. assert (K := two_prod_exact (d0 y) q2 B d Y0 Q2 FBd ltac:(lra)).
    destruct (two_prod (d0 y) q2) as [p e]. destruct K as [P E]. cbn [fst snd] in *.
    assert (N : rn (B * d + 0) = B * d) by (rewrite Rplus_0_r; now apply rn_id).
    unfold renorm2. repeat fvstep. split; fvs. }
  assert (R2 := DFV_sub_self _ _ _ _ R10 M2).
  assert (Q3 : FV (fdiv (d0 (d_sub r1 (d_mul_f64 y q2))) (d0 y)) 0) by (eapply FV_div_0l; [apply R2|exact Y0|auto]).
  set (q3 := fdiv (d0 (d_sub r1 (d_mul_f64 y q2))) (d0 y)) in *.
  apply DIs_DInt. fold Q.
  assert (QQ : V q1 + V q2 = Q) by (rewrite (proj2 Q2); unfold d; ring).
  destruct (quick_FV q1 q2) as [U1 U2].
  { split; auto. eapply Rle_trans; [exact Bq1|]. apply bpow_le; lia. }
  { split; [apply Q2|]. rewrite (proj2 Q2). assert (bp 1000 < bp 1018) by (apply bpow_lt; lia). lra. }
  { left. rewrite (proj2 Q2). fold d. assert (T' := Rabs_triang d (V q1)). replace (d + V q1) with Q in T' by (unfold d; ring). lra. }
  rewrite QQ in U1, U2. assert (N := rn_split Q).
  unfold renorm3. destruct (quick_two_sum q1 q2) as [uu vv]. cbn [fst snd] in *. unfold DIs. repeat fvstep. split; fvs.
Qed.

(** floor of a computed quotient *)
Lemma floor_DInt v n : DNorm v -> Rfloor (DV v) = n ->
  ~ ((0 < V (d0 v) < bp (-52) \/ V (d0 v) = -1 + bp (-53)) /\ V (d1 v) < 0) -> DInt (d_floor v) n.
Proof. intros N E NB. destruct (d_floor_iff v N) as [K1 [K2 _]]. split; auto. rewrite (proj2 K2 NB). now rewrite E. Qed.
Lemma rn_ge x y : fmt x -> x <= y -> x <= rn y. Proof. intros F H. rewrite <- (rn_id x F). now apply rn_le. Qed.
Lemma rn_le' x y : fmt y -> x <= y -> rn x <= y. Proof. intros F H. rewrite <- (rn_id y F). now apply rn_le. Qed.
Lemma fmt_IZR n : (Z.abs n <= 2 ^ 53)%Z -> fmt (IZR n).
Proof. intros H. apply (fmt_mult2 0); [lia|apply mult2_IZR|]. apply (IZR_abs_bp n 53); [lia|exact H]. Qed.
Lemma bm53 : bp (-50) = 8 * bp (-53) /\ bp (-51) = 4 * bp (-53) /\ bp (-52) = 2 * bp (-53) /\ 0 < bp (-53) /\ bp (-53) < / 100.
Proof. repeat split; try exact (bp_split (-53) 3 ltac:(lia)); try exact (bp_split (-53) 2 ltac:(lia)); try exact (bp_split (-53) 1 ltac:(lia)); [apply bpow_gt_0|change (bp (-53)) with u; lra]. Qed.
Lemma floor_away v n : DNorm v -> IZR n + bp (-51) <= DV v <= IZR (n + 1) - bp (-51) -> DInt (d_floor v) n.
Proof.
  intros N [H1 H2]. destruct bm53 as [b50 [b51 [b52 [P53 S53]]]]. apply floor_DInt; auto.
  - unfold Rfloor. apply Zfloor_imp. split; [lra|]. rewrite plus_IZR in *. lra.
  - intros [[[A B]|A] _]; destruct N as [_ N]; rewrite N in A; try rewrite N in B; rewrite RN_rn in *.
    + destruct (Z.lt_trichotomy n 0) as [L|[L|L]].
      * assert (rn (DV v) <= 0); [|lra]. apply rn_le_0. assert (IZR (n + 1) <= 0) by (apply IZR_le; lia). lra.
      * subst n. assert (bp (-51) <= rn (DV v)); [|lra]. apply rn_ge; [apply fmt_bpow; lia|lra].
      * assert (1 <= rn (DV v)); [|lra]. apply rn_ge; [apply (fmt_IZR 1); lia|]. assert (1 <= IZR n) by (apply IZR_le; lia). lra.
    + destruct (Z.lt_trichotomy n (-1)) as [L|[L|L]].
      * assert (rn (DV v) <= -1); [|lra]. apply rn_le'; [apply (fmt_IZR (-1)); lia|]. assert (IZR (n + 1) <= -1) by (apply IZR_le; lia). lra.
      * subst n. assert (-1 + bp (-51) <= rn (DV v)); [|lra]. apply rn_ge; [|lra]. apply (fmt_mult2 (-51)); [lia| |].
        { exists (- 2 ^ 51 + 1)%Z. rewrite plus_IZR, opp_IZR, Rmult_plus_distr_r. change (IZR (2 ^ 51)) with (bp 51). rewrite <- Ropp_mult_distr_l, <- bpow_plus. change (bp (51 + -51)) with 1. ring. }
        { rewrite Rabs_left by lra. change (bp (-51 + 53)) with 4. lra. }
      * assert (0 <= rn (DV v)); [|lra]. apply rn_ge_0. assert (0 <= IZR n) by (apply IZR_le; lia). lra.
Qed.
Lemma floor_int v n : DInt v n -> DInt (d_floor v) n.
Proof.
  intros [N E]. destruct bm53 as [b50 [b51 [b52 [P53 S53]]]]. apply floor_DInt; auto. { rewrite E. apply Zfloor_IZR. }
  assert (M := mult2_IZR n). rewrite <- E in M. destruct (DNorm_grid 0 v ltac:(lia) N M) as [[p Hp] _].
  change (bp 0) with 1 in Hp. rewrite Rmult_1_r in Hp. rewrite Hp. intros [[[A B]|A] _].
  - assert (IZR p < 1) by lra. apply (lt_IZR 0) in A. apply (lt_IZR p 1) in H. lia.
  - assert (-1 < IZR p < 0) by lra. destruct H as [K1 K2]. apply (lt_IZR (-1)) in K1. apply (lt_IZR p 0) in K2. lia.
Qed.

(** the remainder of integer-valued operands is the floored modulus *)
Lemma d_rem_int x y a b : DInt x a -> DInt y b -> (b <> 0)%Z -> (Z.abs a <= 2 ^ 100)%Z -> (Z.abs b <= 2 ^ 50)%Z ->
  DInt (d_rem x y) (a mod b).
Proof.
  intros X Y NB BA BB. set (n := (a / b)%Z). assert (DM := Z.div_mod a b NB). fold n in DM.
  assert (RB := Z.mod_bound_or a b NB).
  assert (FL : DInt (d_floor (d_div x y)) n).
  { destruct (Z.eq_dec (a mod b) 0) as [R0|R0].
    - apply floor_int. apply (d_div_int x y n b); auto.
      + replace (n * b)%Z with a by (rewrite DM, R0; ring). exact X.
      + replace (n * b)%Z with a by (rewrite DM, R0; ring). exact BA.
    - destruct (DInt_single y b Y ltac:(lia)) as [Y0 Y1].
      assert (NZa : (a <> 0)%Z). { intros ->. rewrite Z.mod_0_l in R0; auto. }
      assert (NZy : V (d0 y) <> 0). { rewrite (proj2 Y0). now apply IZR_neq. }
      destruct (DInt_nz x a X NZa) as [_ AX]. destruct (DInt_nz y b Y NB) as [_ AY].
      assert (BX := DInt_hi x a 100 ltac:(lia) X BA). assert (BY := DInt_hi y b 50 ltac:(lia) Y BB).
      assert (l0 : bp (-900) <= 1) by (change 1 with (bp 0); apply bpow_le; lia).
      assert (l1 : bp 100 < bp 1010) by (apply bpow_lt; lia).
      destruct (d_div_ok x y (proj1 X) (proj1 Y) NZy) as [Nq Aq].
      { right. split; [split; lra|]. unfold Rdiv. rewrite Rabs_mult, Rabs_inv. set (X0 := Rabs (V (d0 x))) in *. set (Y' := Rabs (V (d0 y))) in *.
        assert (I1 : / Y' <= 1) by (rewrite <- Rinv_1; apply Rinv_le; lra). assert (I2 : 0 < / Y') by (apply Rinv_0_lt_compat; lra).
        assert (I3 : bp (-50) <= / Y'). { change (-50)%Z with (- (50))%Z. rewrite bpow_opp. apply Rinv_le; lra. }
        assert (I4 : bp (-900) <= bp (-50)) by (apply bpow_le; lia). assert (P50 := bpow_gt_0 radix2 (-50)). split; nra. }
      apply floor_away; auto. set (v := DV (d_div x y)) in *. rewrite (proj2 X), (proj2 Y) in Aq. unfold approx in Aq.
      (* a/b = n + r/b *)
      set (r := (a mod b)%Z) in *. set (A := IZR a) in *. set (B := IZR b) in *.
      assert (NB' : B <> 0) by now apply IZR_neq.
      assert (EA : A / B = IZR n + IZR r / B). { unfold A. rewrite DM at 1. rewrite plus_IZR, mult_IZR. fold B. field. auto. }
      assert (PB : 1 <= Rabs B). { unfold B. rewrite <- abs_IZR. apply IZR_le. lia. }
      assert (BB' : Rabs B <= bp 50) by (apply IZR_abs_bp; [lia|exact BB]).
      assert (IB : bp (-50) <= / Rabs B). { change (-50)%Z with (- (50))%Z. rewrite bpow_opp. apply Rinv_le; lra. }
      assert (HR : / Rabs B <= IZR r / B <= 1 - / Rabs B).
      { destruct RB as [RB|RB].
        - assert (PB' : 0 < B) by (apply (IZR_lt 0); lia). rewrite (Rabs_pos_eq B) in * by lra.
          assert (H1 : 1 <= IZR r <= B - 1). { split; [apply IZR_le; lia|]. unfold B. rewrite <- minus_IZR. apply IZR_le. lia. }
          assert (PI : 0 < / B) by (apply Rinv_0_lt_compat; auto). unfold Rdiv. assert (BI : B * / B = 1) by (field; auto). split; nra.
        - assert (PB' : B < 0) by (apply (IZR_lt b 0); lia). rewrite (Rabs_left B) in * by lra.
          assert (H1 : B + 1 <= IZR r <= -1). { split; [unfold B; rewrite <- plus_IZR; apply IZR_le; lia|apply IZR_le; lia]. }
          assert (PI : / B < 0) by (apply Rinv_lt_0_compat; auto). unfold Rdiv. assert (BI : B * / B = 1) by (field; auto).
          assert (EI : / - B = - / B) by (field; auto). rewrite EI. split; nra. }
      assert (ERR : Rabs (v - A / B) <= / 4 * / Rabs B).
      { eapply Rle_trans; [exact Aq|]. unfold Rdiv. rewrite Rabs_mult, Rabs_inv.
        assert (BA' : Rabs A <= bp 100) by (apply IZR_abs_bp; [lia|exact BA]).
        assert (K : IZR 16 * bp (-106) * bp 100 = / 4). { rewrite Rmult_assoc, <- bpow_plus. change (bp (-106 + 100)) with (/ 64). lra. }
        rewrite <- Rmult_assoc. apply Rmult_le_compat_r. { left. apply Rinv_0_lt_compat; lra. }
        rewrite <- K. apply Rmult_le_compat_l; auto. assert (P := bpow_ge_0 radix2 (-106)). lra. }
      apply Rabs_le_inv in ERR. destruct bm53 as [b50 [b51 [b52 [P53 S53]]]]. rewrite plus_IZR. lra. }
  unfold d_rem.
  assert (EN : (a - b * n = a mod b)%Z) by lia. rewrite <- EN. 
  assert (BM : (Z.abs (b * n) <= 2 ^ 101)%Z) by lia.
  apply d_sub_int; auto; try lia. apply d_mul_int; auto. lia.
Qed.
Lemma d_rem_range x y a b : DInt x a -> DInt y b -> (b <> 0)%Z -> (Z.abs a <= 2 ^ 100)%Z -> (Z.abs b <= 2 ^ 50)%Z ->
  DInt (d_rem x y) (a mod b) /\ ((0 < b -> 0 <= a mod b < b) /\ (b < 0 -> b < a mod b <= 0))%Z.
Proof.
  intros X Y NB BA BB. split; [now apply d_rem_int|]. split; intros; [now apply Z.mod_pos_bound|now apply Z.mod_neg_bound].
Qed.

(** sums and products *)
Lemma d_sum_int l : forall ns acc a, DInt acc a -> Forall2 DInt l ns ->
  (forall k, Z.abs (a + fold_left Z.add (firstn k ns) 0) <= 2 ^ 103)%Z ->
  DInt (fold_left d_add l acc) (a + fold_left Z.add ns 0)%Z.
Proof.
  assert (FA : forall ns c, fold_left Z.add ns c = (c + fold_left Z.add ns 0)%Z).
  { induction ns as [|n ns IH]; intros c; cbn; [lia|]. rewrite IH, (IH n). lia. }
  induction l as [|x l IH]; intros ns acc a A F P; inversion F as [|? n ? ns' Hx Hl]; subst; cbn [fold_left].
  - now rewrite Z.add_0_r.
  - assert (P0 := P 0%nat). assert (P1 := P 1%nat). cbn [firstn fold_left] in P0, P1. rewrite Z.add_0_l in P1.
    rewrite (FA ns' (0 + n)%Z), Z.add_0_l, Z.add_assoc. apply IH; auto.
    + apply d_add_int'; auto; lia.
    + intros k. assert (Pk := P (S k)). cbn [firstn fold_left] in Pk. rewrite Z.add_0_l in Pk. rewrite FA in Pk. lia.
Qed.
Lemma d_product_int l : forall ns acc a, DInt acc a -> Forall2 DInt l ns -> (a <> 0)%Z -> (forall n, In n ns -> n <> 0)%Z ->
  (Z.abs (a * fold_left Z.mul ns 1) <= 2 ^ 102)%Z ->
  DInt (fold_left d_mul l acc) (a * fold_left Z.mul ns 1)%Z.
Proof.
  assert (FA : forall ns c, fold_left Z.mul ns c = (c * fold_left Z.mul ns 1)%Z).
  { induction ns as [|n ns IH]; intros c; cbn [fold_left]; [lia|]. rewrite IH, (IH (1 * n)%Z). lia. }
  assert (NZ : forall ns, (forall n, In n ns -> n <> 0)%Z -> (fold_left Z.mul ns 1 <> 0)%Z).
  { induction ns as [|n ns IH]; intros H; cbn [fold_left]; [lia|]. rewrite FA. assert (n <> 0)%Z by (apply H; now left). assert (fold_left Z.mul ns 1 <> 0)%Z by (apply IH; intros; apply H; now right). lia. }
  induction l as [|x l IH]; intros ns acc a A F Na B P; inversion F as [|? n ? ns' Hx Hl]; subst; cbn [fold_left] in *.
  - now rewrite Z.mul_1_r.
  - rewrite (FA ns' (1 * n)%Z) in *. replace (a * (1 * n * fold_left Z.mul ns' 1))%Z with ((a * n) * fold_left Z.mul ns' 1)%Z in * by ring.
    assert (Nn : (n <> 0)%Z) by (apply B; now left). assert (NN := NZ ns' (fun m Hm => B m (or_intror Hm))).
    apply IH; auto; try lia.
    + apply d_mul_int; auto. rewrite Z.abs_mul in P. assert (1 <= Z.abs (fold_left Z.mul ns' 1))%Z by lia.
      set (t := Z.abs (fold_left Z.mul ns' 1%Z)) in *. set (w := Z.abs (a * n)) in *. assert (0 <= w)%Z by lia. generalize dependent (2 ^ 102)%Z. intros. nia.
    + intros m Hm. apply B. now right.
Qed.

Lemma d_add_nan x y : d_is_nan x || d_is_nan y = true -> d_is_nan (d_add x y) = true.
Proof. intros H. unfold d_add, d_pre_add. rewrite H. reflexivity. Qed.
Lemma d_mul_nan x y : d_is_nan x || d_is_nan y = true -> d_is_nan (d_mul x y) = true.
Proof. intros H. unfold d_mul, d_pre_mul. rewrite H. reflexivity. Qed.
Lemma q_add_nan x y : q_is_nan x || q_is_nan y = true -> q_is_nan (q_add x y) = true.
Proof. intros H. unfold q_add, q_pre_add. rewrite H. reflexivity. Qed.
Lemma q_mul_nan x y : q_is_nan x || q_is_nan y = true -> q_is_nan (q_mul x y) = true.
Proof. intros H. unfold q_mul, q_pre_mul. rewrite H. reflexivity. Qed.
Lemma fold_nan {A} (op : A -> A -> A) (nan : A -> bool) : (forall x y, nan x || nan y = true -> nan (op x y) = true) ->
  forall l acc, nan acc || existsb nan l = true -> nan (fold_left op l acc) = true.
Proof.
  intros H. induction l as [|x l IH]; intros acc K; cbn [fold_left existsb] in *.
  - now rewrite orb_false_r in K.
  - apply IH. rewrite orb_assoc in K. apply orb_true_iff in K. apply orb_true_iff. destruct K as [K|K]; auto.
Qed.
Lemma sums_nan l m : (existsb d_is_nan l = true -> d_is_nan (d_sum l) = true /\ d_is_nan (d_product l) = true) /\
  (existsb q_is_nan m = true -> q_is_nan (q_sum m) = true /\ q_is_nan (q_product m) = true).
Proof.
  split; intros H; split; unfold d_sum, d_product, q_sum, q_product;
    [apply (fold_nan d_add d_is_nan d_add_nan)|apply (fold_nan d_mul d_is_nan d_mul_nan)|apply (fold_nan q_add q_is_nan q_add_nan)|apply (fold_nan q_mul q_is_nan q_mul_nan)]; rewrite H; apply orb_true_r.
Qed.
Lemma D_ONE_int : DInt D_ONE 1. Proof. exact (digit_DInt 1 ltac:(lia)). Qed.
Lemma D_ZERO_int : DInt D_ZERO 0. Proof. exact (digit_DInt 0 ltac:(lia)). Qed.
