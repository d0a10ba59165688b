(** * Value of a parsed Double *)
From Coq Require Import ZArith Reals Lra Lia Psatz List Bool.
From Flocq Require Import Core IEEE754.BinarySingleNaN.
From Verif Require Import RN F64 Prim DoubleM QuadM Spec F64Facts EFT DAddProofs DMulProofs ExactProofs DDivProofs PowProofs ParseM ParseSpec ParseProofs ParseThms.
Import ListNotations.
Local Open Scope R_scope.

Lemma FV_lift a x : FV a x -> Fin a /\ V a = x. Proof. exact (fun H => H). Qed.
Definition DInt (x : Double) (z : Z) : Prop := DNorm x /\ DV x = IZR z.
Lemma DInt_mult2 x z : DInt x z -> mult2 0 (DV x). Proof. intros [_ ->]. apply mult2_IZR. Qed.

Lemma p30 : IZR (10 ^ 30) <= bp 100. Proof. change (bp 100) with (IZR (2 ^ 100)). apply IZR_le. lia. Qed.
Lemma p31 : IZR (10 ^ 31) <= bp 103. Proof. change (bp 103) with (IZR (2 ^ 103)). apply IZR_le. lia. Qed.

Lemma ten_DInt : DInt (mkD (fofZ 10) f0) 10.
Proof.
  destruct (fofZ_exact 10 ltac:(lia)) as [F E]. split; [|unfold DV; cbn [d0 d1]; rewrite E, V_0; ring].
  split; [split; [exact F|reflexivity]|]. unfold DV; cbn [d0 d1]. rewrite V_0, Rplus_0_r. symmetry. apply rn_id. apply V_fmt.
Qed.
Lemma digit_DInt d : (Z.abs d <= 2 ^ 53)%Z -> DInt (mkD (fofZ d) f0) d.
Proof.
  intros H. destruct (fofZ_exact d H) as [F E]. split; [|unfold DV; cbn [d0 d1]; rewrite E, V_0; ring].
  split; [split; [exact F|reflexivity]|]. unfold DV; cbn [d0 d1]. rewrite V_0, Rplus_0_r. symmetry. apply rn_id. apply V_fmt.
Qed.
Lemma d_mul_ten x z : DInt x z -> (Z.abs z <= 10 ^ 30)%Z -> DInt (d_mul x (mkD (fofZ 10) f0)) (10 * z).
Proof.
  intros [N E] B. assert (NN := N). destruct N as [[F0 F1] Nh].
  destruct (fofZ_exact 10 ltac:(lia)) as [Ft Et].
  assert (P := p30). assert (BX : Rabs (DV x) <= bp 100).
  { rewrite E, <- abs_IZR. eapply Rle_trans; [|exact P]. now apply IZR_le. }
  assert (Bh : Rabs (V (d0 x)) <= bp 100) by (apply DNorm_hi_le; auto; apply fmt_bpow; lia).
  assert (Bl := DNorm_lo x NN).
  destruct (DNorm_grid 0 x ltac:(lia) NN) as [G0 G1]. { rewrite E. apply mult2_IZR. }
  destruct (Req_dec (V (d0 x)) 0) as [Z0|NZ].
  - assert (Z1 := DNorm_zero x Z0 NN). assert (z = 0%Z) as ->. { apply eq_IZR. rewrite <- E. unfold DV. rewrite Z0, Z1. ring. }
    unfold d_mul. rewrite d_pre_mul_zero by auto. cbn [from_pre].
    destruct (Bool.eqb _ _); split; try apply DNorm_const; unfold DV; cbn; ring.
  - set (h := V (d0 x)) in *. set (l := V (d1 x)) in *.
    assert (b104 : bp 104 = 16 * bp 100) by exact (bp_split 100 4 ltac:(lia)).
    assert (b47 : u * bp 100 = bp 47) by (change (/ 9007199254740992) with (bp (-53)); rewrite <- bpow_plus; reflexivity).
    assert (b51 : u * bp 104 = bp 51) by (change (/ 9007199254740992) with (bp (-53)); rewrite <- bpow_plus; reflexivity).
    assert (b51' : bp 51 = 16 * bp 47) by exact (bp_split 47 4 ltac:(lia)).
    assert (b53 : bp 53 = 4 * bp 51) by exact (bp_split 51 2 ltac:(lia)).
    assert (P47 := bpow_gt_0 radix2 47). assert (P100 := bpow_gt_0 radix2 100).
    assert (Bl' : Rabs l <= bp 47). { eapply Rle_trans; [exact Bl|]. rewrite <- b47. apply Rmult_le_compat_l; [lra|auto]. }
    unfold d_mul. rewrite d_pre_mul_fin by auto. cbn [from_pre d0 d1].
    assert (Bp : Rabs (h * V (fofZ 10)) <= bp 104). { rewrite Et, Rabs_mult, (Rabs_pos_eq (IZR 10)) by lra. rewrite b104. lra. }
    destruct (two_prod_m 104 (d0 x) (fofZ 10) ltac:(lia) F0 Ft Bp) as [Fp [Fe [Ep Ee]]].
    destruct (two_prod (d0 x) (fofZ 10)) as [p e]. cbn [fst snd] in *. fold h in Ep, Ee. rewrite Et in *.
    assert (G10 : mult2 0 (h * 10)). { apply (mult2_mul 0 0 h 10 G0). apply (mult2_IZR 10). }
    assert (Gp : mult2 0 (V p)) by (rewrite Ep; apply mult2_rn; [lia|auto]).
    assert (Err : Rabs (h * 10 - rn (h * 10)) <= bp 51).
    { assert (NZ' : bp 0 <= Rabs (h * 10)).
      { destruct G0 as [n Hn]. change (bp 0) with 1 in *. rewrite Rmult_1_r in Hn. rewrite Rabs_mult, (Rabs_pos_eq 10) by lra.
        assert (1 <= Rabs h). { rewrite Hn, <- abs_IZR. apply IZR_le. destruct (Z.eq_dec n 0) as [->|]; [|lia]. rewrite Hn in NZ. lra. } lra. }
      rewrite Rabs_minus_sym. eapply Rle_trans. { apply rn_rel. eapply Rle_trans; [|exact NZ']. apply bpow_le; lia. }
      rewrite <- b51. apply Rmult_le_compat_l; [lra|auto]. }
    assert (Ee' : V e = h * 10 - rn (h * 10)).
    { rewrite Ee. apply rn_id. apply (fmt_mult2 0); [lia| |change (0 + 53)%Z with 53%Z; lra].
      apply mult2_minus; auto. apply mult2_rn; [lia|auto]. }
    assert (Ge : mult2 0 (V e)). { rewrite Ee'. apply mult2_minus; auto. apply mult2_rn; [lia|auto]. }
    assert (A1 : FV (fadd e (fmul (d0 x) f0)) (V e)).
    { apply FV_add_0r; [now split|]. apply FV_mul_0r with (x := h); [now split|apply FV_0]. }
    assert (G2 : mult2 0 (l * 10)). { apply (mult2_mul 0 0 l 10 G1). apply (mult2_IZR 10). }
    assert (B2 : Rabs (l * 10) <= bp 51). { rewrite Rabs_mult, (Rabs_pos_eq 10) by lra. lra. }
    assert (BB : bp 51 < bp 1024) by (apply bpow_lt; lia).
    assert (BB' : bp 53 < bp 1018) by (apply bpow_lt; lia).
    assert (BB'' : bp 104 < bp 1018) by (apply bpow_lt; lia).
    assert (A2 : FV (fmul (d1 x) (fofZ 10)) (l * 10)).
    { apply FV_mul with (x := l) (y := IZR 10); [now split|now split| |lra]. apply rn_id. apply (fmt_mult2 0); [lia|auto|change (0 + 53)%Z with 53%Z; lra]. }
    assert (T := Rabs_triang (V e) (l * 10)).
    assert (A3 : FV (fadd (fadd e (fmul (d0 x) f0)) (fmul (d1 x) (fofZ 10))) (V e + l * 10)).
    { apply FV_add with (x := V e) (y := l * 10); auto; [|rewrite Ee' in *; assert (bp 1018 < bp 1024) by (apply bpow_lt; lia); lra].
      apply rn_id. apply (fmt_mult2 0); [lia|auto using mult2_plus|change (0 + 53)%Z with 53%Z; rewrite Ee' in *; lra]. }
    set (w := fadd (fadd e (fmul (d0 x) f0)) (fmul (d1 x) (fofZ 10))) in *. destruct A3 as [Fw Ew].
    destruct (quick_ok_gen p w) as [Fa [Fb [Ea Eb]]].
    { split; auto. rewrite Ep. apply Rle_trans with (bp 104); [|lra]. apply rn_abs_le; auto. apply fmt_bpow; lia. }
    { split; auto. rewrite Ew. rewrite Ee' in *. lra. }
    { apply (fast_two_sum_grid 0); auto with fmt; [lia|rewrite Ew; auto using mult2_plus|].
      change (bp (0 + 53)) with (bp 53). change (bp 0) with 1. rewrite Ew. rewrite Ee' in *. assert (1 <= bp 47) by (apply (bpow_le radix2 0); lia). lra. }
    unfold renorm2. destruct (quick_two_sum p w) as [a b]. cbn [fst snd] in *. split.
    + apply (DNorm_mk a b (V p + V w)); auto.
    + unfold DV; cbn [d0 d1]. rewrite Ea, Eb, Ew, Ee', Ep. rewrite mult_IZR, <- E. unfold DV. fold h l. ring.
Qed.
Lemma DInt_D15 x z : DInt x z -> (Z.abs z <= 10 ^ 31)%Z -> D15 x.
Proof.
  intros [N E] B. unfold D15. apply DNorm_hi_le; auto. apply fmt_bpow; lia. rewrite E, <- abs_IZR.
  apply Rle_trans with (IZR (10 ^ 31)); [now apply IZR_le|]. eapply Rle_trans; [apply p31|]. apply bpow_le; lia.
Qed.
Lemma d_add_int x y a b : DInt x a -> DInt y b -> (Z.abs a <= 10 ^ 31)%Z -> (Z.abs b <= 10 ^ 31)%Z -> (Z.abs (a + b) <= 10 ^ 31)%Z ->
  DInt (d_add x y) (a + b).
Proof.
  intros X Y A B C. destruct (d_add_exact 0 x y) as [N E]; eauto using DInt_D15, DInt_mult2; try apply X; try apply Y; try lia.
  - rewrite (proj2 X), (proj2 Y), <- plus_IZR, <- abs_IZR. eapply Rle_trans; [apply IZR_le; exact C|]. apply p31.
  - split; auto. rewrite E, (proj2 X), (proj2 Y), plus_IZR. reflexivity.
Qed.
Lemma d_assign_id x r : d_assign x r = r. Proof. now destruct r. Qed.

Lemma dec_val_snoc l d : dec_val (l ++ [d]) = (10 * dec_val l + d)%Z.
Proof. unfold dec_val. now rewrite fold_left_app. Qed.
Lemma accumulate_exact l : Forall (fun d => (0 <= d <= 9)%Z) l -> (dec_val l < 10 ^ 31)%Z -> DInt (accumulate_digits d_ops l) (dec_val l).
Proof.
  induction l as [|d l IH] using rev_ind; intros F B.
  - split; [apply DNorm_const|]. unfold DV; cbn. ring.
  - apply Forall_app in F. destruct F as [F Fd]. inversion Fd as [|? ? Hd _]; subst.
    rewrite dec_val_snoc in *.
    assert (NN : (0 <= dec_val l)%Z). { apply dec_val_nonneg. eapply Forall_impl; [|exact F]. cbn; intros; lia. }
    rewrite facc_snoc. cbn [n_add n_mul n_ten n_digit d_ops]. unfold d_add_assign, d_mul_assign. rewrite !d_assign_id.
    apply d_add_int; [apply d_mul_ten; [apply IH; auto; lia|lia]|apply digit_DInt; lia|lia|lia|lia].
Qed.
Lemma DInt_neg x z : DInt x z -> DInt (d_neg x) (- z).
Proof.
  intros [[[F0 F1] N] E]. assert (E0 := proj2 (fneg_ok (d0 x) F0)). assert (E1 := proj2 (fneg_ok (d1 x) F1)).
  assert (EV : DV (d_neg x) = - DV x). { unfold DV, d_neg; cbn [d0 d1]. rewrite E0, E1. ring. }
  split; [|now rewrite EV, E, opp_IZR].
  split; [split; cbn [d_neg d0 d1]; [apply (fneg_ok (d0 x) F0)|apply (fneg_ok (d1 x) F1)]|]. rewrite EV. cbn [d_neg d0]. rewrite E0, RN_rn, rn_opp. now rewrite N.
Qed.
Definition sgn_of (m : text) : Z := if negative m then (-1)%Z else 1%Z.

(** exact integer literals *)
Lemma parse_int_exact dbg s m e : short (normal_text s) -> number (normal_text s) m e -> (e - frac m = 0)%Z -> (dec_val (digs m) < 10 ^ 31)%Z ->
  exists r, from_str d_ops dbg s = Val (POk r) /\ DNorm r /\ DV r = IZR (sgn_of m * dec_val (digs m)).
Proof.
  intros S Nu E B. rewrite (from_str_number d_ops dbg s m e S Nu) by (unfold i32_min; lia).
  assert (A := accumulate_exact (digs m) (digs_nonneg m) B).
  unfold number_value, apply_exp. rewrite E. cbn [Z.eqb obind].
  unfold sgn_of. destruct (negative m).
  - eexists. split; [reflexivity|]. replace (-1 * dec_val (digs m))%Z with (- dec_val (digs m))%Z by ring. exact (DInt_neg _ _ A).
  - eexists. split; [reflexivity|]. rewrite Z.mul_1_l. exact A.
Qed.

(** accuracy with an exponent *)
Lemma pow10_win n : (1 <= n <= 260)%Z -> bp 0 <= Rabs 10 ^ Z.to_nat n <= bp 864.
Proof.
  intros H. rewrite Rabs_pos_eq by lra. rewrite <- (Z2Nat.id n) in H by lia. set (k := Z.to_nat n) in *. split.
  - change (bp 0) with 1. apply pow_R1_Rle. lra.
  - apply Rle_trans with (10 ^ 260). { apply Rle_pow; [lra|lia]. }
    replace 10 with (IZR 10) by reflexivity. rewrite pow_IZR. change (bp 864) with (IZR (2 ^ 864)). apply IZR_le. vm_compute. discriminate.
Qed.
Lemma powi10 dbg E : (E <> 0)%Z -> (Z.abs E <= 260)%Z -> exists r, d_powi dbg (mkD (fofZ 10) f0) E = Val r /\ DNorm r /\
  approx (DV r) (powerRZ 10 E) (10 * Z.abs E + 17) (-106) /\ bp (-864) <= powerRZ 10 E <= bp 864.
Proof.
  intros NZ B. destruct ten_DInt as [Nt Et].
  assert (PB := bpow_gt_0 radix2 (-106)).
  assert (WEAK : forall a z n m k, (n <= m)%Z -> approx a z n k -> approx a z m k).
  { unfold approx. intros a z n m k Hnm H. eapply Rle_trans; [exact H|]. apply Rmult_le_compat_r; [apply Rabs_pos|]. apply Rmult_le_compat_r; [apply bpow_ge_0|]. now apply IZR_le. }
  destruct (Z.lt_trichotomy E 0) as [L|[L|L]]; [|lia|].
  - destruct (pow10_win (- E) ltac:(lia)) as [W1 W2].
    destruct (powi_neg_ok dbg _ (- E) Nt ltac:(lia)) as [r [K1 [K2 K3]]].
    { rewrite Et. split; [eapply Rle_trans; [|exact W1]; apply bpow_le; lia|eapply Rle_trans; [exact W2|]; apply bpow_le; lia]. }
    rewrite Z.opp_involutive in K1. exists r. split; auto. split; auto.
    assert (PE : powerRZ 10 E = / 10 ^ Z.to_nat (- E)).
    { destruct E as [|p|p]; try lia. cbn [powerRZ Z.opp Z.to_nat]. reflexivity. }
    rewrite Rabs_pos_eq in W1, W2 by lra. rewrite PE. split.
    + rewrite Et in K3. eapply WEAK; [|exact K3]. lia.
    + change (bp 0) with 1 in W1. replace (bp (-864)) with (/ bp 864) by (symmetry; exact (bpow_opp radix2 864)). split.
      * apply Rinv_le; [lra|exact W2].
      * apply Rle_trans with 1; [rewrite <- Rinv_1; apply Rinv_le; lra|]. apply (bpow_le radix2 0); lia.
  - destruct (pow10_win E ltac:(lia)) as [W1 W2].
    destruct (powi_pos_ok dbg _ E Nt ltac:(lia)) as [r [K1 [K2 K3]]].
    { rewrite Et. split; [eapply Rle_trans; [|exact W1]; apply bpow_le; lia|eapply Rle_trans; [exact W2|]; apply bpow_le; lia]. }
    exists r. split; auto. split; auto.
    assert (PE : powerRZ 10 E = 10 ^ Z.to_nat E). { destruct E as [|p|p]; try lia. reflexivity. }
    rewrite Rabs_pos_eq in W1, W2 by lra. rewrite PE. split.
    + rewrite Et in K3. eapply WEAK; [|exact K3]. lia.
    + split; [|exact W2]. eapply Rle_trans; [|exact W1]. apply bpow_le; lia.
Qed.
Lemma approx_mul_exact a b p P n : (0 <= n <= 10000)%Z -> approx p P n (-106) -> approx b (a * p) 9 (-106) -> approx b (a * P) (n + 10) (-106).
Proof.
  unfold approx. intros Hn H1 H2. set (d := bp (-106)) in *.
  assert (D : 0 < d <= / 9007199254740992).
  { split; [apply bpow_gt_0|]. unfold d. change (-106)%Z with (-53 + -53)%Z. rewrite bpow_plus. change (bp (-53)) with (/ 9007199254740992). lra. }
  assert (In : 0 <= IZR n <= 10000) by (split; apply IZR_le; lia).
  assert (Pa := Rabs_pos a). assert (PP := Rabs_pos P).
  assert (E1 : Rabs (a * p - a * P) <= IZR n * d * Rabs (a * P)).
  { replace (a * p - a * P) with (a * (p - P)) by ring. rewrite !Rabs_mult. 
    apply Rle_trans with (Rabs a * (IZR n * d * Rabs P)); [apply Rmult_le_compat_l; auto|right; ring]. }
  assert (E2 : Rabs (a * p) <= (IZR n * d + 1) * Rabs (a * P)).
  { replace (a * p) with ((a * p - a * P) + a * P) by ring. eapply Rle_trans; [apply Rabs_triang|]. lra. }
  replace (b - a * P) with ((b - a * p) + (a * p - a * P)) by ring. eapply Rle_trans; [apply Rabs_triang|].
  assert (PX := Rabs_pos (a * P)). set (X := Rabs (a * P)) in *.
  assert (9 * d * Rabs (a * p) <= 9 * d * ((IZR n * d + 1) * X)) by (apply Rmult_le_compat_l; lra).
  rewrite plus_IZR.
  assert (IZR n * d <= / 9). { apply Rle_trans with (10000 * / 9007199254740992); [apply Rmult_le_compat; lra|lra]. }
  assert (9 * d * ((IZR n * d + 1) * X) <= 10 * d * X).
  { apply Rle_trans with (d * X * (9 * (IZR n * d + 1))); [right; ring|]. apply Rle_trans with (d * X * 10); [|right; ring].
    apply Rmult_le_compat_l; [apply Rmult_le_pos; lra|lra]. }
  change (IZR 10) with 10. lra.
Qed.
Lemma parse_accurate dbg s m e : short (normal_text s) -> number (normal_text s) m e -> (Z.abs (e - frac m) <= 260)%Z -> (dec_val (digs m) < 10 ^ 31)%Z ->
  exists r, from_str d_ops dbg s = Val (POk r) /\ DNorm r /\
    approx (DV r) (IZR (sgn_of m * dec_val (digs m)) * powerRZ 10 (e - frac m)) (10 * Z.abs (e - frac m) + 27) (-106).
Proof.
  intros S Nu E B. destruct (Z.eq_dec (e - frac m) 0) as [E0|NE].
  { destruct (parse_int_exact dbg s m e S Nu E0 B) as [r [K1 [K2 K3]]]. exists r. split; auto. split; auto.
    rewrite E0, K3. unfold approx. cbn [powerRZ]. rewrite Rmult_1_r, Rminus_diag_eq by reflexivity. rewrite Rabs_R0.
    apply Rmult_le_pos; [|apply Rabs_pos]. apply Rmult_le_pos; [apply IZR_le; lia|apply bpow_ge_0]. }
  rewrite (from_str_number d_ops dbg s m e S Nu) by (unfold i32_min; lia).
  assert (A := accumulate_exact (digs m) (digs_nonneg m) B).
  unfold number_value, apply_exp. rewrite (proj2 (Z.eqb_neq _ _) NE). rewrite (proj2 (Z.ltb_ge _ _)) by lia.
  destruct (powi10 dbg _ NE E) as [p [K1 [K2 [K3 K4]]]]. cbn [n_powi d_ops n_ten n_mul n_neg]. rewrite K1. cbn [obind].
  unfold d_mul_assign. rewrite d_assign_id. set (acc := accumulate_digits d_ops (digs m)) in *. set (D := dec_val (digs m)) in *.
  set (X := powerRZ 10 (e - frac m)) in *. set (n := (10 * Z.abs (e - frac m))%Z) in *.
  assert (M : DNorm (d_mul acc p) /\ approx (DV (d_mul acc p)) (DV acc * DV p) 9 (-106)).
  { apply d_mul_ok; auto; [apply A|]. 
    assert (DN : (0 <= D)%Z) by apply dec_digs_nonneg.
    destruct A as [NA EA]. destruct (Z.eq_dec D 0) as [D0|D0].
    - left. assert (V (d0 acc) = 0) as ->; [|ring]. destruct NA as [_ ->]. rewrite EA, D0. apply rn_0.
    - right. assert (HD : 1 <= IZR D <= bp 103). { split; [apply IZR_le; lia|]. eapply Rle_trans; [|apply p31]. apply IZR_le. lia. }
      assert (PX : 0 < X) by (assert (Q := bpow_gt_0 radix2 (-864)); lra).
      assert (HP : / 2 * X <= Rabs (DV p) <= 2 * X).
      { unfold approx in K3. rewrite (Rabs_pos_eq X) in K3 by lra.
        assert (SM : IZR (n + 17) * bp (-106) <= / 2).
        { apply Rle_trans with (IZR 2617 * bp (-106)). { apply Rmult_le_compat_r; [apply bpow_ge_0|]. apply IZR_le. unfold n. lia. }
          change (-106)%Z with (-53 + -53)%Z. rewrite bpow_plus. change (bp (-53)) with (/ 9007199254740992). lra. }
        assert (Rabs (DV p - X) <= / 2 * X). { eapply Rle_trans; [exact K3|]. apply Rmult_le_compat_r; lra. }
        assert (T1 := Rabs_triang_inv (DV p) X). assert (T2 := Rabs_triang_inv X (DV p)). rewrite (Rabs_minus_sym X (DV p)) in T2.
        rewrite (Rabs_pos_eq X) in T1, T2 by lra. lra. }
      assert (H1 : forall y, DNorm y -> / 2 * Rabs (DV y) <= Rabs (V (d0 y)) <= 2 * Rabs (DV y)).
      { intros y Ny. assert (R1 := DNorm_hi_rel y Ny). assert (R2 := DNorm_val_rel y Ny). assert (Rabs_pos (DV y) = Rabs_pos (DV y)) by reflexivity.
        assert (Q1 := Rabs_pos (DV y)). assert (Q2 := Rabs_pos (V (d0 y))). 
        assert (T := Rabs_triang_inv (DV y) (V (d0 y))). lra. }
      destruct (H1 acc NA) as [A1 A2]. destruct (H1 p K2) as [P1 P2]. rewrite EA, (Rabs_pos_eq (IZR D)) in A1, A2 by lra.
      rewrite Rabs_mult. 
      assert (b0 : bp 1010 = bp 967 * IZR (2 ^ 43)) by (rewrite Rmult_comm; exact (bp_split 967 43 ltac:(lia))).
      assert (b1 : bp 967 = bp 103 * bp 864) by (rewrite <- bpow_plus; reflexivity).
      assert (b2 : bp (-864) = IZR (2 ^ 36) * bp (-900)) by exact (bp_split (-900) 36 ltac:(lia)).
      assert (P9 := bpow_gt_0 radix2 (-900)). assert (P0 := bpow_gt_0 radix2 967).
      assert (P103 := bpow_gt_0 radix2 103). assert (P864 := bpow_gt_0 radix2 864).
      assert (b3 : bp 1014 = 16 * bp 1010) by exact (bp_split 1010 4 ltac:(lia)).
      split.
      + apply Rle_trans with (/ 2 * (/ 2 * (/ 2 * X))).
        { rewrite b2 in K4. destruct K4 as [K4 _]. change (2 ^ 36)%Z with 68719476736%Z in K4. lra. }
        apply Rmult_le_compat; try lra.
      + apply Rle_trans with ((2 * bp 103) * (2 * (2 * bp 864))).
        { apply Rmult_le_compat; try apply Rabs_pos; try lra. }
        apply Rle_trans with (8 * bp 967); [rewrite b1; right; ring|]. assert (bp 970 = 8 * bp 967) by exact (bp_split 967 3 ltac:(lia)). assert (bp 970 <= bp 1010) by (apply bpow_le; lia). assert (bp 970 <= bp 1015) by (apply bpow_le; lia). lra. }
  destruct M as [M1 M2].
  assert (F : approx (DV (d_mul acc p)) (IZR D * X) (n + 27) (-106)).
  { rewrite <- (proj2 A). replace (n + 27)%Z with (n + 17 + 10)%Z by ring. apply (approx_mul_exact (DV acc) _ (DV p)); auto. unfold n; lia. }
  unfold sgn_of. destruct (negative m).
  - eexists. split; [reflexivity|].
    assert (NG : DNorm (d_neg (d_mul acc p)) /\ DV (d_neg (d_mul acc p)) = - DV (d_mul acc p)).
    { destruct M1 as [[F0 F1] N]. assert (E0 := proj2 (fneg_ok _ F0)). assert (E1 := proj2 (fneg_ok _ F1)).
      assert (EV : DV (d_neg (d_mul acc p)) = - DV (d_mul acc p)). { unfold DV, d_neg; cbn [d0 d1]. rewrite E0, E1. ring. }
      split; auto. split; [split; cbn [d_neg d0 d1]; [apply (fneg_ok _ F0)|apply (fneg_ok _ F1)]|]. rewrite EV. cbn [d_neg d0]. rewrite E0, RN_rn, rn_opp. now rewrite N. }
    split; [apply NG|]. rewrite (proj2 NG). unfold approx in *. rewrite mult_IZR.
    replace (- DV (d_mul acc p) - IZR (-1) * IZR D * X) with (- (DV (d_mul acc p) - IZR D * X)) by ring.
    replace (IZR (-1) * IZR D * X) with (- (IZR D * X)) by ring. rewrite !Rabs_Ropp. exact F.
  - eexists. split; [reflexivity|]. split; auto. rewrite Z.mul_1_l. exact F.
Qed.
