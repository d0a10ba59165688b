(** * trunc and fract of a Double *)
From Coq Require Import ZArith Reals Lra Lia Bool.
From Flocq Require Import Core IEEE754.BinarySingleNaN.
From Verif Require Import RN F64 Prim DoubleM QuadM Spec F64Facts EFT SpecialProofs OrderProofs ExactProofs QExactProofs SingleProofs IntProofs RoundProofs.
Local Open Scope R_scope.

Lemma two_diff_FV a b x y : FV a x -> FV b y -> Rabs x <= bp 1018 -> Rabs y <= bp 1018 ->
  FV2 (two_diff a b) (rn (x - y)) (x - y - rn (x - y)).
Proof.
  intros [Fa <-] [Fb <-] A B. destruct (two_diff_ok a b (conj Fa A) (conj Fb B)) as [? [? [? ?]]]. split; (split; assumption).
Qed.
Lemma err_le x y : fmt y -> Rabs (x - rn x) <= Rabs (x - y).
Proof.
  intros F. assert (N := proj2 (round_N_pt radix2 fexp64 (fun x => negb (Z.even x)) x) y F).
  change (round _ _ _ _) with (rn x) in N. rewrite Rabs_minus_sym, (Rabs_minus_sym x y). exact N.
Qed.
Lemma two_diff_same a b x : FV a x -> FV b x -> FV2 (two_diff a b) 0 0.
Proof.
  intros A B. unfold two_diff.
  assert (S : FV (fsub a b) 0). { apply FV_sub_self with x; auto. }
  assert (T : FV (fsub (fsub a b) a) (- x)). { apply FV_sub_0l; auto. }
  assert (U : FV (fsub (fsub a b) (fsub (fsub a b) a)) x). { replace x with (- - x) by ring. apply FV_sub_0l; auto. }
  assert (W : FV (fadd b (fsub (fsub a b) a)) 0). { apply FV_add_opp with x; auto. }
  split; [exact S|]. cbn [snd]. apply FV_sub_self with 0; auto. apply FV_sub_self with x; auto.
Qed.
(** subtraction is exact under conditions that keep every step exact *)
Lemma d_sub_exact x y h l h' m' :
  FV (d0 x) h -> FV (d1 x) l -> FV (d0 y) h' -> FV (d1 y) m' ->
  h' = h \/ Rabs h <= bp 1018 /\ Rabs h' <= bp 1018 -> Rabs l <= bp 1018 -> Rabs m' <= bp 1018 ->
  Rabs (h - h') <= bp 1000 -> Rabs (l - m') <= bp 1000 ->
  fmt (h - h') ->
  let t1 := rn (l - m') in let t2 := l - m' - t1 in
  (Rabs t1 <= Rabs (h - h') \/ h - h' = 0) ->
  let s := rn (h - h' + t1) in let e := h - h' + t1 - s in
  e = 0 \/ t2 = 0 ->
  Rabs (t2 + e) <= Rabs s \/ s = 0 ->
  DNorm (d_sub x y) /\ DV (d_sub x y) = h + l - (h' + m').
Proof.
  intros X0 X1 Y0 Y1 B0 B1 B3 B4 B5 Fd t1 t2 A s e B C.
  assert (PN : d_pre_sub x y = None).
  { destruct X0 as [F0 _], Y0 as [G0 _]. unfold d_pre_sub, d_is_nan, d_is_infinite.
    destruct (d0 x) as [?|?| |? ? ? ?]; try discriminate; destruct (d0 y) as [?|?| |? ? ? ?]; try discriminate; reflexivity. }
  unfold d_sub. rewrite PN. unfold from_pre.
  assert (P : FV2 (two_diff (d0 x) (d0 y)) (h - h') 0).
  { destruct B0 as [B0|[B0 B2]].
    - rewrite B0. replace (h - h) with 0 by ring. rewrite B0 in Y0. now apply two_diff_same with h.
    - assert (P := two_diff_FV _ _ _ _ X0 Y0 B0 B2). rewrite (rn_id (h - h')) in P by easy. replace (h - h' - (h - h')) with 0 in P by ring. exact P. }
  assert (Q := two_diff_FV _ _ _ _ X1 Y1 B1 B3). fold t1 in Q. fold t2 in Q.
  destruct (two_diff (d0 x) (d0 y)) as [s0 e0]. destruct (two_diff (d1 x) (d1 y)) as [s1 e1].
  destruct P as [P1 P2]. destruct Q as [Q1 Q2]. cbn [fst snd] in *.
  assert (R1 := FV_add_0r _ _ _ Q1 P2).
  assert (T1 : Rabs t1 <= bp 1000) by (apply rn_B; [lia|easy]).
  assert (S1 := quick_FV' _ _ _ _ P1 R1 ltac:(eapply Rabs_bp_up; [|exact B4]; lia) ltac:(eapply Rabs_bp_up; [|exact T1]; lia) A).
  fold s in S1. fold e in S1.
  destruct (sum_B (h - h') t1 1000 ltac:(lia) B4 T1) as [U1 U2]. fold s in U1. fold s in U2. fold e in U2.
  destruct (quick_two_sum s0 (fadd s1 e0)) as [a b]. destruct S1 as [S1 S2]. cbn [fst snd] in *.
  assert (Z : FV (fadd e1 b) (t2 + e)).
  { destruct B as [B|B]; rewrite B in *. rewrite Rplus_0_r. now apply FV_add_0r. rewrite Rplus_0_l. now apply FV_add_0l. }
  assert (T2 : Rabs t2 <= bp 1001).
  { unfold t2. assert (K := err_le (l - m') 0 fmt_0). fold t1 in K. rewrite Rminus_0_r in K. eapply Rabs_bp_up; [|apply Rle_trans with (1 := K); exact B5]. lia. }
  assert (Z2 : Rabs (t2 + e) <= bp 1003).
  { assert (T := Rabs_triang t2 e). change 1003%Z with (1002 + 1)%Z. rewrite bp_S. assert (bp 1001 <= bp 1002) by (apply bpow_le; lia). change (1000 + 2)%Z with 1002%Z in U2. lra. }
  assert (W := quick_FV' _ _ _ _ S1 Z ltac:(eapply Rabs_bp_up; [|exact U1]; lia) ltac:(eapply Rabs_bp_up; [|exact Z2]; lia) C).
  rewrite renorm2_quick. apply DNorm_FV2 in W; [|f_equal; ring].
  destruct W as [W1 W2]. split; [exact W1|]. rewrite W2. unfold t2, e. ring.
Qed.

Lemma pred_step H : fmt H -> 0 < H -> (1 <= cexp radix2 fexp64 H)%Z ->
  exists j, (cexp radix2 fexp64 H - 1 <= j <= cexp radix2 fexp64 H)%Z /\ pred radix2 fexp64 H = H - bp j.
Proof.
  intros F P K. rewrite pred_eq_pos by lra. unfold pred_pos. assert (K' := K). rewrite cexp64 in K'.
  case Req_bool_spec; intros E.
  - exists (cexp radix2 fexp64 H - 1)%Z. split; [lia|]. f_equal. f_equal. rewrite cexp64. unfold fexp64, FLT_exp. lia.
  - exists (cexp radix2 fexp64 H). split; [lia|]. now rewrite ulp_neq_0 by lra.
Qed.

Lemma big_absorb H y : fmt H -> bp 1000 <= H -> Rabs y <= bp 52 -> rn (H + y) = H.
Proof.
  intros F B Y. assert (K := err_le (H + y) H F). replace (H + y - H) with y in K by ring.
  destruct (Req_dec (rn (H + y) - H) 0) as [Z|Z]; [lra|exfalso].
  assert (B53 : bp 53 = 2 * bp 52) by (change 53%Z with (52 + 1)%Z; apply bp_S).
  assert (D : Rabs (rn (H + y) - H) <= bp 53).
  { replace (rn (H + y) - H) with (y - (H + y - rn (H + y))) by ring. assert (T := Rabs_triang y (- (H + y - rn (H + y)))). rewrite Rabs_Ropp in T. unfold Rminus at 1. lra. }
  assert (B1 : bp 1000 = 2 * bp 999) by (change 1000%Z with (999 + 1)%Z; apply bp_S).
  assert (B2 : bp 53 <= bp 999) by (apply bpow_le; lia).
  assert (P : 0 < bp 999) by apply bpow_gt_0.
  assert (C : forall z, fmt z -> bp 999 <= z -> mult2 900 z).
  { intros z Fz Bz. apply mult2_le with (cexp radix2 fexp64 z); [|now apply mult2_cexp]. rewrite cexp64.
    assert (1000 <= mag radix2 z)%Z; [|lia]. apply mag_ge_bpow. change (1000 - 1)%Z with 999%Z. rewrite Rabs_pos_eq; lra. }
  apply Rabs_le_inv in D. assert (M : mult2 900 (rn (H + y) - H)) by (apply mult2_minus; apply C; auto using rn_fmt; lra).
  assert (G := mult2_ge 900 _ M Z). apply Rabs_le in D. assert (bp 53 < bp 900) by (apply bpow_lt; lia). lra.
Qed.

(** real-number core: H >= 0 leading part, L low part, N = floor(H + L) *)
Lemma fract_core H L : fmt H -> fmt L -> rn (H + L) = H -> 0 <= H -> H < bp 1024 -> 0 <= H + L ->
  let N := IZR (Zfloor (H + L)) in let H' := rn N in let M' := N - H' in
  (~ isint H -> Zfloor (H + L) = Zfloor H) ->
  fmt M' /\ (H' = H \/ Rabs H <= bp 1018 /\ Rabs H' <= bp 1018) /\ Rabs M' <= bp 1018 /\ Rabs (H - H') <= bp 1000 /\ Rabs (L - M') <= bp 1000 /\ fmt (H - H') /\
  let t1 := rn (L - M') in let t2 := L - M' - t1 in
  (Rabs t1 <= Rabs (H - H') \/ H - H' = 0) /\
  let s := rn (H - H' + t1) in let e := H - H' + t1 - s in
  (e = 0 \/ t2 = 0) /\ (Rabs (t2 + e) <= Rabs s \/ s = 0).
Proof.
  intros FH FL E PH BH PV N H' M' NI.
  assert (NL := norm_lo H L FH FL E). assert (U := u01).
  assert (BL : Rabs L <= bp 971).
  { apply Rle_trans with (1 := NL). rewrite (Rabs_pos_eq H) by easy. rewrite <- u_bp. change 971%Z with (-53 + 1024)%Z. rewrite bpow_plus. apply Rmult_le_compat_l. apply bpow_ge_0. lra. }
  (* finishing move when the low parts subtract exactly and M' = 0 *)
  assert (fin0 : forall d, fmt N -> d = H - N -> fmt d -> Rabs d <= bp 999 -> 
     Rabs L <= Rabs d \/ d = 0 -> (N = H \/ Rabs H <= bp 1018 /\ Rabs N <= bp 1018) ->
     fmt M' /\ (H' = H \/ Rabs H <= bp 1018 /\ Rabs H' <= bp 1018) /\ Rabs M' <= bp 1018 /\ Rabs (H - H') <= bp 1000 /\ Rabs (L - M') <= bp 1000 /\ fmt (H - H') /\
     let t1 := rn (L - M') in let t2 := L - M' - t1 in
     (Rabs t1 <= Rabs (H - H') \/ H - H' = 0) /\
     let s := rn (H - H' + t1) in let e := H - H' + t1 - s in
     (e = 0 \/ t2 = 0) /\ (Rabs (t2 + e) <= Rabs s \/ s = 0)).
  { intros d FN Ed Fd Bd LD BN. assert (EH : H' = N) by (unfold H'; now apply rn_id).
    assert (EM : M' = 0) by (unfold M'; rewrite EH; ring). rewrite EM, EH, <- Ed. rewrite Rminus_0_r, (rn_id L) by easy.
    cbv zeta. replace (L - L) with 0 by ring. rewrite Rplus_0_l.
    repeat split; auto; try (rewrite Rabs_R0; apply bpow_ge_0); try apply fmt_0.
    - eapply Rabs_bp_up; [|exact Bd]. lia.
    - eapply Rabs_bp_up; [|exact BL]. lia.
    - destruct (Req_dec (rn (d + L)) 0) as [Z|Z]; auto. left.
      assert (K := err_le (d + L) 0 fmt_0). 
      (* |err| <= |rn| : the error is at most half an ulp *)
      assert (K2 := error_le_half_ulp_round radix2 fexp64 (fun x => negb (Z.even x)) (d + L)).
      change (round radix2 _ _ _) with (rn (d + L)) in K2. rewrite Rabs_minus_sym in K2. apply Rle_trans with (1 := K2).
      assert (K3 := ulp_le_abs radix2 fexp64 (rn (d + L)) Z (rn_fmt _)). assert (0 <= ulp radix2 fexp64 (rn (d + L))) by apply ulp_ge_0. lra. }
  destruct (int_dec H) as [[n I]|I].
  - (* H integer *)
    assert (EN : N = H + IZR (Zfloor L)).
    { unfold N. rewrite I at 1. rewrite Zfloor_add_int, plus_IZR, <- I. reflexivity. }
    destruct (Req_dec H 0) as [HZ|HZ].
    { assert (L = 0) by (apply lo_zero; auto; now rewrite HZ in E). apply (fin0 0); rewrite ?EN, ?H0, ?HZ, ?Zfloor_IZR; auto using fmt_0.
      rewrite Rplus_0_r; apply fmt_0. ring. rewrite Rabs_R0; apply bpow_ge_0. left. ring. }
    assert (BF : Rabs (IZR (Zfloor L)) <= bp 971).
    { rewrite bp_IZR by lia. rewrite bp_IZR in BL by lia. apply Rabs_le. apply Rabs_le_inv in BL. split.
      rewrite <- opp_IZR. apply IZR_le, Zfloor_lub. rewrite opp_IZR. lra. apply Rle_trans with (2 := proj2 BL). apply Zfloor_lb. }
    assert (PN : 0 <= N). { unfold N. apply IZR_le. apply Zfloor_lub. exact PV. }
    assert (UN : N <= H + L) by apply Zfloor_lb.
    destruct (Req_dec H' H) as [HH|HH].
    + (* the leading parts cancel *)
      assert (EM : M' = IZR (Zfloor L)) by (unfold M'; rewrite HH, EN; ring). rewrite EM, HH.
      assert (FM : fmt M').
      { unfold M', H'. rewrite EN. assert (FI : fmt (IZR (Zfloor L))).
        { destruct (int_dec L) as [[q IL]|IL]. rewrite IL, Zfloor_IZR, <- IL. exact FL.
          assert (SL := nonint_small L FL IL). apply fmt_mult2 with 0%Z. lia. apply mult2_IZR. apply Rle_trans with (bp 52); [|apply bpow_le; lia].
          rewrite bp_IZR in * by lia. apply Rabs_le. apply Rabs_lt_inv in SL. split.
          rewrite <- opp_IZR. apply IZR_le, Zfloor_lub. rewrite opp_IZR. lra. apply Rle_trans with L. apply Zfloor_lb. lra. }
        now apply plus_err_fmt. }
      rewrite EM in FM.
      cbv zeta. replace (H - H) with 0 by ring. rewrite !Rplus_0_l, (rn_id (rn _)) by apply rn_fmt.
      replace (rn (L - IZR (Zfloor L)) - rn (L - IZR (Zfloor L))) with 0 by ring. rewrite Rplus_0_r.
      repeat split; auto; try (rewrite Rabs_R0; apply bpow_ge_0); try apply fmt_0.
      * eapply Rabs_bp_up; [|exact BF]. lia.
      * assert (T := Rabs_triang L (- IZR (Zfloor L))). rewrite Rabs_Ropp in T. unfold Rminus. eapply Rabs_bp_up with 972%Z; [lia|].
        change 972%Z with (971 + 1)%Z. rewrite bp_S. lra.
      * destruct (Req_dec (rn (L - IZR (Zfloor L))) 0) as [Z|Z]; auto. left.
        assert (K2 := error_le_half_ulp_round radix2 fexp64 (fun x => negb (Z.even x)) (L - IZR (Zfloor L))).
        change (round radix2 _ _ _) with (rn (L - IZR (Zfloor L))) in K2. rewrite Rabs_minus_sym in K2. apply Rle_trans with (1 := K2).
        assert (K3 := ulp_le_abs radix2 fexp64 _ Z (rn_fmt _)). assert (0 <= ulp radix2 fexp64 (rn (L - IZR (Zfloor L)))) by apply ulp_ge_0. lra.
    + assert (LI : ~ isint L). { intros [q IL]. apply HH. unfold H'. rewrite EN, IL, Zfloor_IZR, <- IL. exact E. }
      assert (SL := nonint_small L FL LI).
      assert (LN : L < 0).
      { apply Rnot_le_lt. intros S. apply HH. unfold H'. apply Rle_antisym. rewrite <- E. apply rn_le. exact UN.
        rewrite <- (rn_id H FH) at 1. apply rn_le. rewrite EN. assert (0 <= Zfloor L)%Z by (apply Zfloor_lub; simpl; lra). apply IZR_le in H0. lra. }
      assert (UF : IZR (Zfloor L) < L).
      { destruct (Rle_lt_or_eq_dec _ _ (Zfloor_lb L)) as [Q|Q]; auto. exfalso. apply LI. exists (Zfloor L). now symmetry. }
      assert (LB := Zfloor_ub L).
      assert (FB : Rabs (IZR (Zfloor L)) <= bp 52).
      { rewrite bp_IZR in * by lia. apply Rabs_le. apply Rabs_lt_inv in SL. split.
          rewrite <- opp_IZR. apply IZR_le, Zfloor_lub. rewrite opp_IZR. lra. lra. }
      assert (FZ : fmt (- IZR (Zfloor L))).
      { apply fmt_opp. apply fmt_mult2 with 0%Z. lia. apply mult2_IZR. apply Rle_trans with (1 := FB). apply bpow_le; lia. }
      assert (SH : H < bp 1000).
      { apply Rnot_le_lt. intros Q. apply HH. unfold H'. rewrite EN. now apply big_absorb. }
      assert (U6 : bp 1000 <= bp 1018) by (apply bpow_le; lia).
      assert (BN : Rabs H <= bp 1018 /\ Rabs N <= bp 1018) by (split; rewrite Rabs_pos_eq; lra).
      assert (DN : fmt N \/ ~ fmt N).
      { destruct (Req_dec (rn N) N) as [Q|Q]. left. rewrite <- Q. apply rn_fmt. right. intros Q'. apply Q. now apply rn_id. }
      destruct DN as [FN|FN].
      * apply (fin0 (- IZR (Zfloor L))); auto. rewrite EN; ring. rewrite Rabs_Ropp. eapply Rabs_bp_up; [|exact FB]. lia.
        left. rewrite Rabs_left, Rabs_Ropp, Rabs_left by lra. lra.
      * assert (Hp : 0 < H) by lra.
        assert (HI : mult2 0 H) by (rewrite I; apply mult2_IZR).
        assert (K1 : (1 <= cexp radix2 fexp64 H)%Z).
        { apply Znot_gt_le. intros G. apply FN. apply fmt_mult2 with 0%Z. lia. unfold N. apply mult2_IZR.
          rewrite Rabs_pos_eq by easy. apply Rle_trans with H. rewrite EN. lra.
          apply Rle_trans with (bp (mag radix2 H)). rewrite <- (Rabs_pos_eq H) at 1 by easy. apply Rlt_le, bpow_mag_gt. apply bpow_le. rewrite cexp64 in G. lia. }
        destruct (pred_step H FH Hp K1) as [j [Hj EP]].
        set (P := pred radix2 fexp64 H) in *.
        assert (FP : fmt P) by (apply generic_format_pred; auto; apply FLT_exp_valid; red; lia).
        assert (SP : succ radix2 fexp64 P = H) by (apply succ_pred; auto; apply FLT_exp_valid; red; lia).
        assert (G1 : (P + H) / 2 <= H + L).
        { apply Rnot_lt_le. intros Q. assert (rn (H + L) <= P). { apply (round_N_le_midp radix2 fexp64 (fun x => negb (Z.even x))); auto. rewrite SP. exact Q. }
          rewrite E in H0. assert (0 < bp j) by apply bpow_gt_0. lra. }
        assert (G2 : N <= (P + H) / 2).
        { apply Rnot_lt_le. intros Q. apply HH. apply Rle_antisym. rewrite <- E. apply rn_le. exact UN.
          apply (round_N_ge_midp radix2 fexp64 (fun x => negb (Z.even x))); auto. fold P. lra. }
        assert (Pj : 0 < bp j) by apply bpow_gt_0.
        destruct (Z_le_gt_dec j 0) as [J|J].
        { exfalso. assert (j = 0)%Z by lia. subst j. change (bp 0) with 1 in *. apply FN.
          assert (EF : Zfloor L = (-1)%Z). { assert (-2 < Zfloor L < 0)%Z; [|lia]. split; apply lt_IZR; simpl; lra. }
          rewrite EN, EF. replace (H + -1) with P by lra. exact FP. }
        assert (BJ : bp j = 2 * bp (j - 1)) by (replace j with (j - 1 + 1)%Z at 1 by ring; apply bp_S).
        assert (IJ : bp (j - 1) = IZR (2 ^ (j - 1))) by (apply bp_IZR; lia).
        assert (EF : IZR (Zfloor L) = - bp (j - 1)).
        { rewrite IJ, <- opp_IZR. f_equal. assert (- 2 ^ (j - 1) - 1 < Zfloor L < - 2 ^ (j - 1) + 1)%Z; [|lia].
          split; apply lt_IZR; rewrite ?plus_IZR, ?minus_IZR, opp_IZR, <- IJ; lra. }
        assert (E1 : 1 <= bp (j - 1)) by (apply (bpow_le radix2 0); lia).
        assert (EH : H' = P).
        { assert (H' <= P). { apply Rnot_lt_le. intros Q. assert (H <= H').
            { rewrite <- SP. apply succ_le_lt; auto. apply FLT_exp_valid; red; lia. apply rn_fmt. }
            assert (H' <= H); [|lra]. rewrite <- E. apply rn_le. exact UN. }
          assert (P <= H'); [|lra]. unfold H'. rewrite <- (rn_id P FP). apply rn_le. rewrite EN, EF. lra. }
        assert (EM : M' = bp (j - 1)) by (unfold M'; rewrite EH, EP, EN, EF, BJ; ring).
        assert (Ed : H - H' = bp j) by (rewrite EH, EP; ring).
        rewrite Ed, EM. cbv zeta.
        set (y := L - bp (j - 1)). assert (Ly : - bp j < y <= - bp (j - 1)) by (unfold y; lra).
        assert (T1 : - bp j <= rn y <= - bp (j - 1)).
        { split. rewrite <- (rn_id (- bp j)). apply rn_le. lra. apply fmt_opp, fmt_bpow. lia.
          rewrite <- (rn_id (- bp (j - 1))). apply rn_le. lra. apply fmt_opp, fmt_bpow. lia. }
        assert (FS : fmt (bp j + rn y)).
        { replace (bp j + rn y) with (bp j - - rn y) by ring. apply sterbenz_R. apply fmt_bpow; lia. apply fmt_opp, rn_fmt. lra. }
        rewrite (rn_id (bp j + rn y)) by easy. replace (bp j + rn y - (bp j + rn y)) with 0 by ring. rewrite Rplus_0_r.
        assert (JB : bp (j - 1) <= bp 52). { rewrite EF, Rabs_Ropp, Rabs_pos_eq in FB by lra. exact FB. }
        assert (UJ : bp 53 = 2 * bp 52) by (change 53%Z with (52 + 1)%Z; apply bp_S).
        assert (U3 : bp 53 <= bp 1000) by (apply bpow_le; lia).
        assert (U4 : bp 53 <= bp 1018) by (apply bpow_le; lia).
        assert (U5 : bp 1017 <= bp 1018) by (apply bpow_le; lia).
        assert (PP : 0 <= P). { rewrite <- EH. unfold H'. now apply rn_ge_0. }
        repeat split; auto.
        -- apply fmt_bpow. lia.
        -- right. split; [tauto|]. rewrite EH, Rabs_pos_eq by easy. lra.
        -- rewrite Rabs_pos_eq by lra. lra.
        -- rewrite Rabs_pos_eq by lra. lra.
        -- rewrite Rabs_left1 by lra. lra.
        -- apply fmt_bpow. lia.
        -- left. rewrite Rabs_left1, Rabs_pos_eq by lra. lra.
        -- destruct (Req_dec (bp j + rn y) 0) as [Z|Z]; [now right|left].
           assert (Zy : rn y <> 0) by lra.
           assert (K2 := error_le_half_ulp_round radix2 fexp64 (fun x => negb (Z.even x)) y).
           change (round radix2 _ _ _) with (rn y) in K2. rewrite Rabs_minus_sym, ulp_k in K2 by easy.
           assert (CJ : (cexp radix2 fexp64 (rn y) <= j)%Z).
           { rewrite cexp64. assert (mag radix2 (rn y) <= j + 1)%Z; [|lia]. apply mag_le_bpow; auto. rewrite Rabs_left1 by lra. apply Rle_lt_trans with (bp j). lra. apply bpow_lt; lia. }
           assert (G := mult2_ge (cexp radix2 fexp64 (rn y)) (bp j + rn y)).
           specialize (G ltac:(apply mult2_plus; [apply mult2_le with j; [lia|exists 1%Z; ring]|apply mult2_cexp, rn_fmt]) Z).
           assert (0 < bp (cexp radix2 fexp64 (rn y))) by apply bpow_gt_0. lra.
  - (* H not an integer *)
    assert (Hz : H <> 0) by (intros Q; apply I; exists 0%Z; exact Q). assert (Hp : 0 < H) by lra.
    specialize (NI I). assert (EN : N = IZR (Zfloor H)) by (unfold N; now rewrite NI).
    assert (Kk := nonint_k H FH I). assert (Lh := lo_half H L Hz E). set (k := cexp radix2 fexp64 H) in *.
    assert (SH := nonint_small H FH I). rewrite Rabs_pos_eq in SH by easy.
    assert (lb := Zfloor_lb H). assert (ub := Zfloor_ub H).
    assert (F0 : 0 <= IZR (Zfloor H)) by (apply IZR_le, Zfloor_lub; exact PH).
    assert (G : bp k <= Rabs (H - IZR (Zfloor H))).
    { apply gap; auto. fold k. apply mult2_le with 0%Z. lia. apply mult2_IZR. intros Q. apply I. now exists (Zfloor H). }
    assert (bp 52 <= bp 999) by (apply bpow_le; lia). assert (bp 52 <= bp 1018) by (apply bpow_le; lia).
    apply (fin0 (H - IZR (Zfloor H))); rewrite ?EN; auto.
    + apply fmt_mult2 with 0%Z. lia. apply mult2_IZR. rewrite Rabs_pos_eq by easy. assert (bp 52 <= bp (0 + 53)) by (apply bpow_le; lia). lra.
    + apply fmt_mult2 with k. apply cexp_ge. apply mult2_minus. now apply mult2_cexp. apply mult2_le with 0%Z. lia. apply mult2_IZR.
      rewrite Rabs_pos_eq by lra. apply Rle_trans with H. lra. apply Rle_trans with (bp (mag radix2 H)).
      rewrite <- (Rabs_pos_eq H) at 1 by easy. apply Rlt_le, bpow_mag_gt. apply bpow_le. unfold k. rewrite cexp64. lia.
    + rewrite Rabs_pos_eq by lra. lra.
    + left. assert (0 < bp k) by apply bpow_gt_0. lra.
    + right. split; rewrite Rabs_pos_eq; lra.
Qed.

(** ** trunc and fract *)
(** the inputs on which trunc is wrong: tiny, with components of opposite signs *)
Definition trunc_bad (h l : R) : Prop := 0 < Rabs h < bp (-52) /\ h * l < 0.

Lemma Hf_floor : forall a, Fin a -> FV (ffloor a) (IZR 1 * IZR (Zfloor (IZR 1 * V a))).
Proof. intros a F. rewrite !Rmult_1_l. now apply ffloor_ok. Qed.
Lemma Hf_ceil : forall a, Fin a -> FV (fceil a) (IZR (-1) * IZR (Zfloor (IZR (-1) * V a))).
Proof.
  intros a F. replace (IZR (-1) * V a) with (- V a) by (simpl; ring).
  replace (IZR (-1) * IZR (Zfloor (- V a))) with (IZR (Zceil (V a))). now apply fceil_ok.
  unfold Zceil. rewrite opp_IZR. simpl. ring.
Qed.

Lemma Ztrunc_s s x : (s = 1 \/ s = -1)%Z -> 0 <= IZR s * x -> IZR (Ztrunc x) = IZR s * IZR (Zfloor (IZR s * x)).
Proof.
  intros [-> | ->] P.
  - rewrite !Rmult_1_l. rewrite Ztrunc_floor by lra. reflexivity.
  - replace (IZR (-1) * x) with (- x) in * by (simpl; ring). rewrite Ztrunc_ceil by lra. unfold Zceil. rewrite opp_IZR. simpl. ring.
Qed.

Lemma d_trunc_like x : DNorm x ->
  exists (f : f64 -> f64) (s : Z), (s = 1 \/ s = -1)%Z /\ (forall a, Fin a -> FV (f a) (IZR s * IZR (Zfloor (IZR s * V a)))) /\
   d_trunc x = d_floor_like f x /\ 0 <= IZR s * V (d0 x) /\ 0 <= IZR s * DV x.
Proof.
  intros [[F0 F1] N]. change RN with rn in N.
  unfold d_trunc. change (fgeb (d0 x) F64.f0) with (fleb F64.f0 (d0 x)).
  rewrite (fleb_ok F64.f0 (d0 x)) by (auto; reflexivity). change (V F64.f0) with 0.
  assert (S : forall s, (s = 1 \/ s = -1)%Z -> 0 <= IZR s * V (d0 x) -> 0 <= IZR s * DV x).
  { intros s Hs P. destruct (Req_dec (V (d0 x)) 0) as [Z|Z].
    - assert (K : V (d1 x) = 0). { apply lo_zero. apply V_fmt. unfold DV in N. rewrite Z in N. now symmetry. }
      unfold DV. rewrite K, Z. rewrite Rplus_0_r, Rmult_0_r. lra.
    - apply Rnot_lt_le. intros Q. assert (IZR s * V (d0 x) <= 0); [|destruct Hs as [-> | ->]; simpl in *; nra].
      assert (R : rn (IZR s * DV x) <= 0) by (rewrite <- rn_0; apply rn_le; lra).
      destruct Hs as [-> | ->]; rewrite N. rewrite Rmult_1_l in *. exact R.
      replace (IZR (-1) * DV x) with (- DV x) in R by (simpl; ring). rewrite rn_opp in R. simpl; lra. }
  case Rle_bool_spec; intros C.
  - exists ffloor, 1%Z. split; [auto|]. split; [exact Hf_floor|]. split; [apply d_floor_like_floor|].
    assert (P : 0 <= IZR 1 * V (d0 x)) by (rewrite Rmult_1_l; exact C). split; auto.
  - exists fceil, (-1)%Z. split; [auto|]. split; [exact Hf_ceil|]. split; [apply d_floor_like_ceil|].
    assert (P : 0 <= IZR (-1) * V (d0 x)) by (simpl; lra). split; auto.
Qed.

Lemma d_trunc_ok x : DNorm x ->
  DNorm (d_trunc x) /\
  (~ trunc_bad (V (d0 x)) (V (d1 x)) -> DV (d_trunc x) = IZR (Ztrunc (DV x))) /\
  (trunc_bad (V (d0 x)) (V (d1 x)) -> Ztrunc (DV x) = 0%Z /\ Rabs (DV (d_trunc x)) = 1 /\ DV (d_trunc x) * V (d0 x) < 0).
Proof.
  intros NX. destruct (d_trunc_like x NX) as [f [s [Hs [Hf [E [P0 PV]]]]]].
  destruct (d_floor_like_ok f s Hs Hf x NX) as [A [B C]]. rewrite E. split; [exact A|].
  assert (S2 : IZR s * IZR s = 1) by (destruct Hs as [-> | ->]; simpl; ring).
  assert (bp1 : bp (-53) < 1) by (apply (bpow_lt radix2 _ 0); lia).
  assert (bp2 : bp (-52) < 1) by (apply (bpow_lt radix2 _ 0); lia).
  assert (EQ : trunc_bad (V (d0 x)) (V (d1 x)) <-> floor_bad (IZR s * V (d0 x)) (IZR s * V (d1 x))).
  { unfold trunc_bad, floor_bad. set (h := V (d0 x)) in *. set (l := V (d1 x)) in *.
    assert (EH : Rabs h = IZR s * h). { destruct Hs as [-> | ->]. rewrite Rmult_1_l in *. now apply Rabs_pos_eq. simpl in *. rewrite Rabs_left1 by lra. ring. }
    rewrite EH. assert (EM : h * l = (IZR s * h) * (IZR s * l)) by (replace (IZR s * h * (IZR s * l)) with (IZR s * IZR s * (h * l)) by ring; rewrite S2; ring).
    rewrite EM. split.
    - intros [Q1 Q2]. split; [now left|]. nra.
    - intros [[Q1|Q1] Q2]. split; [exact Q1|]. nra. lra. }
  split.
  - intros Q. rewrite B by tauto. symmetry. now apply Ztrunc_s.
  - intros Q. specialize (C (proj1 EQ Q)). assert (ZV : Zfloor (IZR s * DV x) = 0%Z).
    { destruct NX as [[F0 F1] N]. unfold DV in N. change RN with rn in N. symmetry in N.
      assert (NL := norm_lo _ _ (V_fmt (d0 x)) (V_fmt (d1 x)) N). destruct Q as [Q1 Q2].
      assert (U := u01). apply Zfloor_imp. simpl. split; [exact PV|]. unfold DV. assert (T := Rabs_triang (V (d0 x)) (V (d1 x))).
      assert (bp3 : bp (-52) <= bp (-1)) by (apply bpow_le; lia). change (bp (-1)) with (/ 2) in bp3. apply Rle_lt_trans with (Rabs (V (d0 x) + V (d1 x))).
      destruct Hs as [-> | ->]. rewrite Rmult_1_l. apply Rle_abs. simpl. rewrite <- Rabs_Ropp. replace (-1 * (V (d0 x) + V (d1 x))) with (- (V (d0 x) + V (d1 x))) by ring. apply Rle_abs.
      nra. }
    assert (TZ := Ztrunc_s s (DV x) Hs PV). rewrite ZV, Rmult_0_r in TZ. apply (eq_IZR _ 0) in TZ.
    rewrite ZV in C. simpl in C. split; [exact TZ|]. rewrite C. destruct Q as [Q1 Q2].
    split. { destruct Hs as [-> | ->]; simpl; [rewrite Rabs_left1|rewrite Rabs_pos_eq]; lra. }
    assert (V (d0 x) <> 0) by (intros Z; rewrite Z, Rabs_R0 in Q1; lra). destruct Hs as [-> | ->]; simpl in *; nra.
Qed.

Lemma d_fract_ok x : DNorm x -> ~ trunc_bad (V (d0 x)) (V (d1 x)) ->
  DNorm (d_fract x) /\ DV (d_fract x) = DV x - IZR (Ztrunc (DV x)).
Proof.
  intros NX NB. destruct (d_trunc_ok x NX) as [[[T0 T1] TN] [TV _]]. specialize (TV NB).
  destruct (d_trunc_like x NX) as [f [s [Hs [Hf [E [P0 PV]]]]]].
  assert (ET := Ztrunc_s s (DV x) Hs PV).
  destruct NX as [[F0 F1] N]. change RN with rn in *.
  assert (S2 : IZR s * IZR s = 1) by (destruct Hs as [-> | ->]; simpl; ring).
  assert (RS : forall z, rn (IZR s * z) = IZR s * rn z).
  { intros z. destruct Hs as [-> | ->]. now rewrite !Rmult_1_l. replace (IZR (-1) * z) with (- z) by (simpl; ring). rewrite rn_opp. simpl; ring. }
  assert (AS : forall z, Rabs (IZR s * z) = Rabs z).
  { intros z. destruct Hs as [-> | ->]. now rewrite !Rmult_1_l. replace (IZR (-1) * z) with (- z) by (simpl; ring). apply Rabs_Ropp. }
  assert (FS : forall z, fmt z -> fmt (IZR s * z)).
  { intros z. destruct Hs as [-> | ->]. now rewrite !Rmult_1_l. replace (IZR (-1) * z) with (- z) by (simpl; ring). apply fmt_opp. }
  set (h := V (d0 x)) in *. set (l := V (d1 x)) in *.
  assert (C := fract_core (IZR s * h) (IZR s * l) (FS _ (V_fmt _)) (FS _ (V_fmt _))).
  assert (EV : IZR s * h + IZR s * l = IZR s * DV x) by (unfold DV; fold h l; ring).
  rewrite EV in C. specialize (C ltac:(rewrite RS, <- N; reflexivity) P0).
  specialize (C ltac:(rewrite <- (Rabs_pos_eq (IZR s * h)) by easy; rewrite AS; apply V_lt_1024) PV).
  set (NN := IZR (Zfloor (IZR s * DV x))) in *. cbv zeta in C.
  specialize (C ltac:(intros I; rewrite <- EV; apply floor_nonint; auto; [apply FS, V_fmt|rewrite EV, RS, <- N; reflexivity])).
  set (H' := rn NN) in *. set (M' := NN - H') in *.
  assert (Y0 : V (d0 (d_trunc x)) = IZR s * H') by (rewrite TN, TV, ET; unfold H'; now rewrite RS).
  assert (Y1 : V (d1 (d_trunc x)) = IZR s * M').
  { unfold M'. assert (TV' : V (d0 (d_trunc x)) + V (d1 (d_trunc x)) = IZR s * NN) by (rewrite <- ET, <- TV; reflexivity). rewrite Y0 in TV'. lra. }
  destruct C as [C0 [C1 [C2 [C3 [C4 [C5 [C6 [C7 C8]]]]]]]].
  assert (D1 : forall a b, IZR s * a - IZR s * b = IZR s * (a - b)) by (intros; ring).
  assert (D2 : forall a b, IZR s * a + IZR s * b = IZR s * (a + b)) by (intros; ring).
  assert (Z0 : forall a, IZR s * a = 0 <-> a = 0).
  { intros a. split; [|intros ->; ring]. intros Q. replace a with (IZR s * IZR s * a) by (rewrite S2; ring). rewrite Rmult_assoc, Q. ring. }
  assert (hS : h = IZR s * (IZR s * h)) by (rewrite <- Rmult_assoc, S2; ring).
  assert (lS : l = IZR s * (IZR s * l)) by (rewrite <- Rmult_assoc, S2; ring).
  destruct (d_sub_exact x (d_trunc x) h l (IZR s * H') (IZR s * M')) as [R1 R2].
  - now split.
  - now split.
  - now split.
  - now split.
  - rewrite AS. rewrite <- (AS h). destruct C1 as [C1|C1]; [left|right; exact C1]. rewrite hS. now rewrite C1.
  - apply Rle_trans with (u * Rabs h). { apply norm_lo; try apply V_fmt. unfold DV in N. fold h l in N. now symmetry. }
    assert (Bh := V_lt_1024 (d0 x)). fold h in Bh. rewrite <- u_bp. apply Rle_trans with (bp (-53) * bp 1024).
    apply Rmult_le_compat_l; [apply bpow_ge_0|lra]. rewrite <- bpow_plus. apply bpow_le. lia.
  - rewrite AS. exact C2.
  - rewrite hS, D1, AS. exact C3.
  - rewrite lS, D1, AS. exact C4.
  - rewrite hS, D1. now apply FS.
  - rewrite hS, lS, !D1, RS, !AS, Z0. exact C6.
  - rewrite hS, lS, !D1, !RS, !D2, !RS, !D1, !Z0. exact C7.
  - rewrite hS, lS, !D1, !RS, !D2, !RS, !D1, !D2, !AS, !Z0. exact C8.
  - split; [exact R1|]. rewrite ET. change (d_fract x) with (d_sub x (d_trunc x)). rewrite R2. fold NN. unfold DV, M'. fold h l. ring.
Qed.
