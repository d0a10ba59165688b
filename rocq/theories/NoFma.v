(** * The [cfg(no_fma)] product on its whole range, including the scaled branch of [split] *)
From Coq Require Import ZArith Reals Lra Lia List Bool.
From Flocq Require Import Core IEEE754.BinarySingleNaN Pff.Pff2Flocq.
From Verif Require Import RN F64 Prim DoubleM Spec F64Facts EFT DAddProofs DMulProofs ExactProofs SingleProofs LdexpProofs.
Local Open Scope R_scope.

Notation C27 := (bp 27 + 1).
Lemma C27v : C27 = 134217729. Proof. change (bp 27) with (IZR 134217728). lra. Qed.

(** sizes of the two halves *)
Lemma sp_bounds x : fmt x ->
  Rabs (sp_p x) <= 134217731 * Rabs x /\ Rabs (rn (x - sp_p x)) <= 134217733 * Rabs x /\
  Rabs (sp_h x) <= 2 * Rabs x /\ Rabs (sp_t x) <= Rabs x.
Proof.
  intros F. assert (P0 := Rabs_pos x).
  assert (T : bp (-1075) <= / 2 * Rabs x \/ x = 0).
  { destruct (Req_dec x 0) as [->|NZ]; auto. left. destruct (mult2_emin x F) as [n ->].
    assert (n <> 0%Z) by (intros ->; rewrite Rmult_0_l in NZ; now apply NZ).
    assert (Q := bpow_gt_0 radix2 (-1074)). rewrite Rabs_mult, (Rabs_pos_eq (bp (-1074))), <- abs_IZR by lra.
    replace (bp (-1075)) with (/ 2 * bp (-1074)) by (symmetry; exact (bpow_plus radix2 (-1) (-1074))).
    assert (1 <= IZR (Z.abs n)) by (apply IZR_le; lia). assert (bp (-1074) <= IZR (Z.abs n) * bp (-1074)) by (rewrite <- (Rmult_1_l (bp (-1074))) at 1; apply Rmult_le_compat_r; lra). lra. }
  destruct T as [T| ->].
  2: { unfold sp_t, sp_h, sp_p. rewrite Rmult_0_l, rn_0, Rminus_0_r, rn_0, Rplus_0_r, rn_0, Rminus_0_r, rn_0, Rabs_R0. lra. }
  assert (E1 := rn_err (x * C27)). fold (sp_p x) in E1. rewrite C27v, Rabs_mult, (Rabs_pos_eq 134217729) in E1 by lra.
  assert (E1' : Rabs (sp_p x) <= 134217730 * Rabs x).
  { replace (sp_p x) with ((sp_p x - x * 134217729) + x * 134217729) by ring. eapply Rle_trans; [apply Rabs_triang|]. rewrite Rabs_mult, (Rabs_pos_eq 134217729) by lra. lra. }
  assert (Fp : fmt (sp_p x)) by apply rn_fmt.
  assert (B2 : Rabs (x - sp_p x) <= 134217731 * Rabs x) by (assert (K := Rabs_triang x (- sp_p x)); rewrite Rabs_Ropp in K; unfold Rminus; lra).
  assert (E2 := plus_rel x (- sp_p x) _ F (fmt_opp _ Fp) B2). fold (x - sp_p x) in E2. set (q := rn (x - sp_p x)) in *.
  assert (Fq : fmt q) by apply rn_fmt.
  assert (B2' : Rabs q <= 134217732 * Rabs x). { replace q with ((q - (x - sp_p x)) + (x - sp_p x)) by ring. eapply Rle_trans; [apply Rabs_triang|]. lra. }
  assert (B3 : Rabs (q + sp_p x - x) <= / 1000 * Rabs x). { replace (q + sp_p x - x) with (q - (x - sp_p x)) by ring. lra. }
  assert (B3' : Rabs (q + sp_p x) <= 11 / 10 * Rabs x). { replace (q + sp_p x) with ((q + sp_p x - x) + x) by ring. eapply Rle_trans; [apply Rabs_triang|]. lra. }
  assert (E3 := plus_rel q (sp_p x) _ Fq Fp B3'). fold (sp_h x) in E3. unfold q in E3. change (rn (rn (x - sp_p x) + sp_p x)) with (sp_h x) in E3. fold q in E3.
  assert (B4 : Rabs (sp_h x) <= 12 / 10 * Rabs x). { replace (sp_h x) with ((sp_h x - (q + sp_p x)) + (q + sp_p x)) by ring. eapply Rle_trans; [apply Rabs_triang|]. lra. }
  assert (Fh : fmt (sp_h x)) by apply rn_fmt.
  assert (B5 : Rabs (x - sp_h x) <= / 100 * Rabs x).
  { rewrite Rabs_minus_sym. replace (sp_h x - x) with ((sp_h x - (q + sp_p x)) + (q + sp_p x - x)) by ring. eapply Rle_trans; [apply Rabs_triang|]. lra. }
  assert (E4 := plus_rel x (- sp_h x) _ F (fmt_opp _ Fh) B5). fold (x - sp_h x) in E4. fold (sp_t x) in E4. change (rn (x - sp_h x)) with (sp_t x) in E4.
  assert (B6 : Rabs (sp_t x) <= / 10 * Rabs x). { replace (sp_t x) with ((sp_t x - (x - sp_h x)) + (x - sp_h x)) by ring. eapply Rle_trans; [apply Rabs_triang|]. lra. }
  split; [lra|]. split; [lra|]. split; lra.
Qed.

(** one unscaled split *)
Definition vel (s : f64) : f64 * f64 :=
  let t := fmul split_factor s in
  let hi := fsub t (fsub t s) in (hi, fsub s hi).
Lemma vel_FV s : Fin s -> Rabs (V s) <= bp 996 -> FV2 (vel s) (sp_h (V s)) (sp_t (V s)).
Proof.
  intros F B. assert (A := FV_self s F). assert (SB := sp_bounds (V s) (V_fmt s)). destruct SB as [B1 [B2 [B3 B4]]].
  assert (P := bpow_gt_0 radix2 996). set (x := V s) in *.
  assert (LIM : 134217733 * bp 996 < bp 1024). { rewrite (bp_split 996 28 ltac:(lia)) || replace (bp 1024) with (IZR (2 ^ 28) * bp 996) by (symmetry; exact (bp_split 996 28 ltac:(lia))). change (2 ^ 28)%Z with 268435456%Z. lra. }
  unfold vel. 
  assert (Pf : FV (fmul split_factor s) (sp_p x)).
  { apply FV_mul with (x := C27) (y := x); auto using V_split_factor. unfold sp_p. now rewrite Rmult_comm. lra. }
  assert (E : rn (sp_p x - x) = - rn (x - sp_p x)) by (rewrite <- rn_opp; f_equal; ring).
  assert (Qf : FV (fsub (fmul split_factor s) s) (- rn (x - sp_p x))).
  { apply FV_sub with (x := sp_p x) (y := x); auto. rewrite Rabs_Ropp. lra. }
  assert (Hf : FV (fsub (fmul split_factor s) (fsub (fmul split_factor s) s)) (sp_h x)).
  { apply FV_sub with (x := sp_p x) (y := - rn (x - sp_p x)); auto. unfold sp_h. f_equal; ring. lra. }
  split; [exact Hf|]. cbn [snd]. apply FV_sub with (x := x) (y := sp_h x); auto. lra.
Qed.

(** scaling by 2^28 commutes with the split of large numbers *)
Lemma rn_sc k y : (-900 <= k)%Z -> mult2 k y -> rn (y * bp 28) = rn y * bp 28.
Proof.
  intros Hk M. destruct (Req_dec y 0) as [->|NZ]; [rewrite !Rmult_0_l, rn_0; ring|].
  assert (L : bp k <= Rabs y).
  { destruct M as [n ->]. assert (n <> 0%Z) by (intros ->; rewrite Rmult_0_l in NZ; now apply NZ).
    assert (Q := bpow_gt_0 radix2 k). rewrite Rabs_mult, (Rabs_pos_eq (bp k)), <- abs_IZR by lra.
    rewrite <- (Rmult_1_l (bp k)) at 1. apply Rmult_le_compat_r; [lra|]. apply IZR_le. lia. }
  assert (bp (-1022) <= bp k) by (apply bpow_le; lia). assert (1 <= bp 28) by (apply (bpow_le radix2 0); lia).
  apply rn_scale; [lra|]. rewrite Rabs_mult, (Rabs_pos_eq (bp 28)) by lra.
  assert (Rabs y * 1 <= Rabs y * bp 28) by (apply Rmult_le_compat_l; [apply Rabs_pos|lra]). lra.
Qed.
Lemma sp_scale k x : (-900 <= k)%Z -> mult2 k x -> sp_h (x * bp 28) = sp_h x * bp 28 /\ sp_t (x * bp 28) = sp_t x * bp 28.
Proof.
  intros Hk M.
  assert (Mp' : mult2 k (x * C27)). { rewrite C27v. rewrite <- (Z.add_0_r k). apply mult2_mul; auto. apply (mult2_IZR 134217729). }
  assert (Ep : sp_p (x * bp 28) = sp_p x * bp 28). { unfold sp_p. rewrite <- (rn_sc k) by auto. f_equal. ring. }
  assert (Mp : mult2 k (sp_p x)) by (apply mult2_rn; [lia|auto]).
  assert (Mq : mult2 k (rn (x - sp_p x))) by (apply mult2_rn; [lia|auto using mult2_minus]).
  assert (Eh : sp_h (x * bp 28) = sp_h x * bp 28).
  { unfold sp_h. rewrite Ep. replace (x * bp 28 - sp_p x * bp 28) with ((x - sp_p x) * bp 28) by ring. rewrite (rn_sc k) by auto using mult2_minus.
    replace (rn (x - sp_p x) * bp 28 + sp_p x * bp 28) with ((rn (x - sp_p x) + sp_p x) * bp 28) by ring. rewrite (rn_sc k) by auto using mult2_plus. reflexivity. }
  assert (Mh : mult2 k (sp_h x)) by (apply mult2_rn; [lia|auto using mult2_plus]).
  split; auto. unfold sp_t. rewrite Eh. replace (x * bp 28 - sp_h x * bp 28) with ((x - sp_h x) * bp 28) by ring. rewrite (rn_sc k) by auto using mult2_minus. reflexivity.
Qed.
Lemma FV_up : FV split_shift_up (bp 28).
Proof. destruct (fofZ_exact 268435456) as [F E]; [lia|]. split; [exact F|]. unfold split_shift_up. rewrite E. reflexivity. Qed.
Lemma FV_down : FV split_shift_down (bp (-28)).
Proof.
  assert (H : feqb split_shift_down (f2pow 1 (-28)) = true) by (vm_compute; reflexivity).
  destruct (f2pow_exact 1 (-28)) as [F E]; try lia. split; [vm_compute; reflexivity|].
  assert (EE : V split_shift_down = V (f2pow 1 (-28))). { apply feqb_V; auto. } rewrite EE, E. ring.
Qed.
Lemma thr996 : Fin split_threshold /\ bp 995 <= V split_threshold <= bp 996.
Proof.
  assert (F : Fin split_threshold) by (vm_compute; reflexivity). split; auto.
  assert (H : fleb (f2pow (2 ^ 53) 942) split_threshold = true) by (vm_compute; reflexivity).
  assert (H' : fleb split_threshold (f2pow (2 ^ 53) 943) = true) by (vm_compute; reflexivity).
  destruct (f2pow_exact (2 ^ 53) 942) as [F1 E1]; try lia. destruct (f2pow_exact (2 ^ 53) 943) as [F2 E2]; try lia.
  rewrite fleb_ok in H by auto. rewrite fleb_ok in H' by auto.
  assert (RL : forall x y, Rle_bool x y = true -> x <= y) by (intros x y; destruct (Rle_bool_spec x y); [auto|discriminate]).
  apply RL in H as K. apply RL in H' as K'. clear RL H H'.
  rewrite E1 in K. rewrite E2 in K'. replace (IZR (2 ^ 53)) with (bp 53) in K, K' by reflexivity. rewrite <- bpow_plus in K, K'. split; assumption.
Qed.
Lemma split_any a : Fin a -> Rabs (V a) <= bp 1022 ->
  FV2 (split a) (sp_h (V a)) (sp_t (V a)).
Proof.
  intros F B. destruct thr996 as [FT [T1 T2]]. destruct (fneg_ok split_threshold FT) as [FN EN].
  unfold split. assert (GT : fgtb a split_threshold || fltb a (fneg split_threshold) = Rlt_bool (V split_threshold) (Rabs (V a))).
  { unfold fgtb. change Bltb with fltb. rewrite !fltb_ok by auto. rewrite EN.
    assert (P := bpow_gt_0 radix2 995). unfold Rabs. destruct (Rcase_abs (V a)).
    - rewrite (Rlt_bool_false (V split_threshold) (V a)) by lra. cbn [orb]. destruct (Rlt_bool_spec (V a) (- V split_threshold)), (Rlt_bool_spec (V split_threshold) (- V a)); auto; lra.
    - rewrite (Rlt_bool_false (V a)) by lra. now rewrite orb_false_r. }
  rewrite GT. destruct (Rlt_bool_spec (V split_threshold) (Rabs (V a))) as [L|L].
  - set (x := V a) in *.
    assert (MX : mult2 940 x).
    { assert (Fx : fmt x) by apply V_fmt. apply mult2_cexp in Fx. eapply mult2_le; [|exact Fx]. rewrite cexp64.
      assert (996 <= mag radix2 x)%Z; [|lia]. apply mag_ge_bpow. change (996 - 1)%Z with 995%Z. lra. }
    assert (MS : mult2 912 (x * bp (-28))). { change 912%Z with (940 + -28)%Z. apply mult2_mul; auto. exists 1%Z. ring. }
    assert (BS : Rabs (x * bp (-28)) <= bp 994). { rewrite Rabs_mult, (Rabs_pos_eq (bp (-28))) by apply bpow_ge_0. change 994%Z with (1022 + -28)%Z. rewrite bpow_plus. apply Rmult_le_compat_r; [apply bpow_ge_0|auto]. }
    assert (XS : x * bp (-28) * bp 28 = x) by (rewrite Rmult_assoc, <- bpow_plus; change (bp (-28 + 28)) with 1; ring).
    assert (l1024 : bp 994 < bp 1024) by (apply bpow_lt; lia).
    assert (l1023 : bp 1023 < bp 1024) by (apply bpow_lt; lia).
    assert (S : FV (fmul a split_shift_down) (x * bp (-28))).
    { apply FV_mul with (x := x) (y := bp (-28)); [exact (FV_self a F)|exact FV_down| |lra].
      assert (Fx : fmt x) by apply V_fmt.
      destruct (Req_dec x 0) as [->|NZ]; [rewrite Rmult_0_l; apply rn_0|].
      rewrite rn_scale. { rewrite rn_id; auto. } { assert (bp (-1022) <= bp 995) by (apply bpow_le; lia). lra. }
      rewrite Rabs_mult, (Rabs_pos_eq (bp (-28))) by apply bpow_ge_0. apply Rle_trans with (bp 995 * bp (-28)).
      rewrite <- bpow_plus. apply bpow_le; lia. apply Rmult_le_compat_r; [apply bpow_ge_0|lra]. }
    set (s := fmul a split_shift_down) in *. destruct S as [FS ES].
    destruct (vel_FV s FS) as [VH VL]. { rewrite ES. apply Rle_trans with (1 := BS). apply bpow_le; lia. }
    unfold vel in VH, VL. cbn [fst snd] in VH, VL.
    destruct (sp_scale 912 (x * bp (-28)) ltac:(lia) MS) as [SH ST]. rewrite XS in SH, ST. rewrite ES in VH, VL.
    assert (SB := sp_bounds x (V_fmt a)). destruct SB as [_ [_ [S3 S4]]].
    assert (b1023 : bp 1023 = 2 * bp 1022) by exact (bp_split 1022 1 ltac:(lia)).
    assert (P22 := bpow_gt_0 radix2 1022).
    split; cbn [fst snd].
    + eapply FV_mul; [exact VH|exact FV_up| |]; [rewrite <- SH; apply rn_id; apply rn_fmt|lra].
    + eapply FV_mul; [exact VL|exact FV_up| |]; [rewrite <- ST; apply rn_id; apply rn_fmt|lra].
  - destruct (vel_FV a F) as [VH VL]. lra. split; [exact VH|exact VL].
Qed.
Lemma two_prod_nofma_any k l a b : (-1070 <= k <= 1022)%Z -> (-1070 <= l <= 1022)%Z -> (-960 <= k + l <= 1015)%Z ->
  Fin a -> Fin b -> Rabs (V a) <= bp k -> Rabs (V b) <= bp l ->
  (V a * V b = 0 \/ bp (-969) <= Rabs (V a * V b)) ->
  FV2 (two_prod_nofma a b) (rn (V a * V b)) (V a * V b - rn (V a * V b)).
Proof.
  intros Hk Hl Hkl Fa Fb Ba Bb W. unfold two_prod_nofma.
  assert (SA := split_any a Fa ltac:(eapply Rabs_up; [|exact Ba]; lia)). destruct (split a) as [ahi alo]. destruct SA as [A1 A2]. cbn [fst snd] in *.
  assert (SB := split_any b Fb ltac:(eapply Rabs_up; [|exact Bb]; lia)). destruct (split b) as [bhi blo]. destruct SB as [B1 B2]. cbn [fst snd] in *.
  assert (BB : forall x j, fmt x -> Rabs x <= bp j -> Rabs (sp_h x) <= bp (j + 1) /\ Rabs (sp_t x) <= bp (j + 1)).
  { intros x j Fx Bx. destruct (sp_bounds x Fx) as [_ [_ [H1 H2]]]. rewrite bp_S. assert (P := Rabs_pos x). split; lra. }
  destruct (BB _ k (V_fmt a) Ba) as [BA1 BA2]. destruct (BB _ l (V_fmt b) Bb) as [BB1 BB2].
  destruct (FV_mul' k l _ _ _ _ ltac:(lia) (FV_self a Fa) (FV_self b Fb) Ba Bb) as [P BP].
  destruct (FV_mul' (k + 1) (l + 1) _ _ _ _ ltac:(lia) A1 B1 BA1 BB1) as [P11 L11].
  destruct (FV_mul' (k + 1) (l + 1) _ _ _ _ ltac:(lia) A1 B2 BA1 BB2) as [P12 L12].
  destruct (FV_mul' (k + 1) (l + 1) _ _ _ _ ltac:(lia) A2 B1 BA2 BB1) as [P21 L21].
  destruct (FV_mul' (k + 1) (l + 1) _ _ _ _ ltac:(lia) A2 B2 BA2 BB2) as [P22 L22].
  destruct (FV_sub' (k + l + 2) _ _ _ _ ltac:(lia) P11 P) as [S1 T1]; [eapply Rabs_up; [|eassumption]; lia..|].
  destruct (FV_add' (k + l + 3) _ _ _ _ ltac:(lia) S1 P12) as [S2 T2]; [eapply Rabs_up; [|eassumption]; lia..|].
  destruct (FV_add' (k + l + 4) _ _ _ _ ltac:(lia) S2 P21) as [S3 T3]; [eapply Rabs_up; [|eassumption]; lia..|].
  destruct (FV_add' (k + l + 5) _ _ _ _ ltac:(lia) S3 P22) as [S4 T4]; [eapply Rabs_up; [|eassumption]; lia..|].
  rewrite dekker_R in S4 by auto with fmt.
  split; assumption.
Qed.
Lemma d_mul_nofma_any k l a b : (-1070 <= k <= 1022)%Z -> (-1070 <= l <= 1022)%Z -> (-960 <= k + l <= 1015)%Z ->
  Fin a -> Fin b -> Rabs (V a) <= bp k -> Rabs (V b) <= bp l ->
  (V a * V b = 0 \/ bp (-969) <= Rabs (V a * V b)) ->
  let r := d_mul_nofma (d_new a f0) (d_new b f0) in
  DNorm r /\ DV r = V a * V b /\ V (d0 r) = RN (V a * V b).
Proof.
  intros Hk Hl Hkl Fa Fb Ba Bb W. cbv zeta. apply DIs_ok. unfold d_mul_nofma, d_new. destruct (Req_dec (V a) 0) as [Z0|Z0].
  - rewrite d_pre_mul_zero by easy. rewrite Z0, Rmult_0_l. cbn [from_pre d0]. apply DIs_zero.
  - rewrite d_pre_mul_fin by easy. cbn [from_pre d0 d1].
    pose proof (two_prod_nofma_any k l a b Hk Hl Hkl Fa Fb Ba Bb W) as K. destruct (two_prod_nofma a b) as [p e]. destruct K as [P E]. cbn [fst snd] in *.
    assert (N := rn_split (V a * V b)). assert (FA := FV_self a Fa). assert (FB := FV_self b Fb).
    unfold renorm2, DIs. repeat fvstep. split; fvs.
Qed.
