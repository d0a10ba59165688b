(** * Operations on values that are a single f64 are exact (lemmas) *)
From Coq Require Import ZArith Reals Lra Lia List Bool.
From Flocq Require Import Core IEEE754.BinarySingleNaN Pff.Pff2Flocq.
From Verif Require Import RN F64 Prim DoubleM QuadM Spec F64Facts EFT DAddProofs DMulProofs Check SpecialProofs OrderProofs ExactProofs QExactProofs.
Import ListNotations.
Local Open Scope R_scope.

Lemma two_sum_FV a b : Bd M18 a -> Bd M18 b ->
  FV2 (two_sum a b) (rn (V a + V b)) (V a + V b - rn (V a + V b)).
Proof. intros A B. destruct (two_sum_ok a b A B) as [? [? [? ?]]]. split; now split. Qed.
Lemma two_diff_FV a b : Bd M18 a -> Bd M18 b ->
  FV2 (two_diff a b) (rn (V a - V b)) (V a - V b - rn (V a - V b)).
Proof. intros A B. destruct (two_diff_ok a b A B) as [? [? [? ?]]]. split; now split. Qed.
Lemma quick_FV a b : Bd M18 a -> Bd M18 b -> Rabs (V b) <= Rabs (V a) \/ V a = 0 ->
  FV2 (quick_two_sum a b) (rn (V a + V b)) (V a + V b - rn (V a + V b)).
Proof. intros A B H. destruct (quick_ok a b A B H) as [? [? [? ?]]]. split; now split. Qed.
Lemma rn_split z : rn (rn z + (z - rn z)) = rn z.
Proof. f_equal. ring. Qed.

(** what a result exactly equal to [z] looks like *)
Definition DIs (x : Double) (z : R) : Prop := DFV x (rn z) (z - rn z).
Lemma DIs_ok x z : DIs x z -> DNorm x /\ DV x = z /\ V (d0 x) = RN z.
Proof.
  intros [[F0 E0] [F1 E1]]. assert (D : DV x = z) by (unfold DV; rewrite E0, E1; ring).
  split; [|split]; auto. split; [now split|]. now rewrite D.
Qed.
Lemma DFV_single a : Fin a -> DFV (mkD a f0) (V a) 0.
Proof. intros F. split; [now apply FV_self|apply FV_0]. Qed.

Lemma d_add_single a b : Bd M18 a -> Bd M18 b -> DIs (d_add (mkD a f0) (mkD b f0)) (V a + V b).
Proof.
  intros A B. unfold d_add. rewrite d_pre_add_fin by (apply A || apply B). cbn [from_pre d0 d1].
  pose proof (two_sum_FV a b A B) as K. destruct (two_sum a b) as [s e]. destruct K as [S E]. cbn [fst snd] in *.
  assert (N := rn_split (V a + V b)). unfold renorm2, DIs. repeat fvstep. split; fvs.
Qed.
Lemma d_sub_single a b : Bd M18 a -> Bd M18 b -> DIs (d_sub (mkD a f0) (mkD b f0)) (V a - V b).
Proof.
  intros A B. unfold d_sub. rewrite d_pre_sub_fin by (apply A || apply B). cbn [from_pre d0 d1].
  pose proof (two_diff_FV a b A B) as K. destruct (two_diff a b) as [s e]. destruct K as [S E]. cbn [fst snd] in *.
  assert (N := rn_split (V a - V b)). unfold renorm2, DIs. repeat fvstep. split; fvs.
Qed.

(** exact product window *)
Definition prod_window (a b : R) : Prop := a * b = 0 \/ bp (-969) <= Rabs (a * b) <= bp 1015.
Lemma two_prod_FV a b : Fin a -> Fin b -> prod_window (V a) (V b) ->
  FV2 (two_prod a b) (rn (V a * V b)) (V a * V b - rn (V a * V b)).
Proof.
  intros Fa Fb W. assert (B : Rabs (V a * V b) <= bp 1015).
  { destruct W as [W|W]; [|apply W]. rewrite W, Rabs_R0. apply bpow_ge_0. }
  destruct (two_prod_m 1015 a b ltac:(lia) Fa Fb B) as [? [? [E1 E2]]].
  split; split; auto. rewrite E2. apply rn_id, mul_err_fmt; auto with fmt.
  intros N. destruct W as [W|W]; [easy|apply W].
Qed.
Lemma DIs_zero (c : bool) : DIs (if c then D_ZERO else D_NEG_ZERO) 0.
Proof. unfold DIs. rewrite rn_0, Rminus_0_r. destruct c; split; apply FV_zero_is. Qed.
Lemma d_mul_single a b : Fin a -> Fin b -> prod_window (V a) (V b) -> DIs (d_mul (mkD a f0) (mkD b f0)) (V a * V b).
Proof.
  intros Fa Fb W. unfold d_mul. destruct (Req_dec (V a) 0) as [Z|Z].
  - rewrite d_pre_mul_zero by easy. rewrite Z, Rmult_0_l. cbn [from_pre d0]. apply DIs_zero.
  - rewrite d_pre_mul_fin by easy. cbn [from_pre d0 d1].
    pose proof (two_prod_FV a b Fa Fb W) as K. destruct (two_prod a b) as [p e]. destruct K as [P E]. cbn [fst snd] in *.
    assert (N := rn_split (V a * V b)). assert (FA := FV_self a Fa). assert (FB := FV_self b Fb).
    unfold renorm2, DIs. repeat fvstep. split; fvs.
Qed.

(** ** the [cfg(no_fma)] product: Veltkamp splitting and Dekker's product *)
Lemma V_split_factor : FV split_factor (bp 27 + 1).
Proof.
  destruct (fofZ_exact 134217729) as [F E]; [lia|]. split; [exact F|]. unfold split_factor. rewrite E.
  replace (bp 27) with (IZR 134217728) by reflexivity. rewrite <- plus_IZR. reflexivity.
Qed.
Lemma FV_add' k a b x y : (-1074 <= k < 1023)%Z -> FV a x -> FV b y -> Rabs x <= bp k -> Rabs y <= bp k -> FV (fadd a b) (rn (x + y)) /\ Rabs (rn (x + y)) <= bp (k + 1).
Proof.
  intros Hk [Fa <-] [Fb <-] A B. destruct (Bd_add k a b Hk (conj Fa A) (conj Fb B)) as [[F1 F2] F3].
  split; [now split|]. now rewrite <- F3.
Qed.
Lemma FV_sub' k a b x y : (-1074 <= k < 1023)%Z -> FV a x -> FV b y -> Rabs x <= bp k -> Rabs y <= bp k -> FV (fsub a b) (rn (x - y)) /\ Rabs (rn (x - y)) <= bp (k + 1).
Proof.
  intros Hk [Fa <-] [Fb <-] A B. destruct (Bd_sub k a b Hk (conj Fa A) (conj Fb B)) as [[F1 F2] F3].
  split; [now split|]. now rewrite <- F3.
Qed.
Lemma FV_mul' k l a b x y : (-1074 <= k + l < 1024)%Z -> FV a x -> FV b y -> Rabs x <= bp k -> Rabs y <= bp l -> FV (fmul a b) (rn (x * y)) /\ Rabs (rn (x * y)) <= bp (k + l).
Proof.
  intros Hk [Fa <-] [Fb <-] A B. destruct (Bd_mul k l a b Hk (conj Fa A) (conj Fb B)) as [[F1 F2] F3].
  split; [now split|]. now rewrite <- F3.
Qed.
Lemma fgtb_le a b : Fin a -> Fin b -> V a <= V b -> fgtb a b = false.
Proof. intros Fa Fb H. unfold fgtb. change Bltb with fltb. rewrite fltb_ok by easy. now rewrite Rlt_bool_false. Qed.
Lemma thr : exists x, FV split_threshold x /\ bp 990 <= x.
Proof.
  exists (V split_threshold). split. split; [vm_compute; reflexivity|reflexivity].
  assert (H : fleb (f2pow (2 ^ 53) 937) split_threshold = true) by (vm_compute; reflexivity).
  destruct (f2pow_exact (2 ^ 53) 937) as [F E]; try lia.
  rewrite fleb_ok in H; [|exact F|vm_compute; reflexivity].
  destruct (Rle_bool_spec (V (f2pow (2 ^ 53) 937)) (V split_threshold)) as [K|K]; [|easy]. rewrite E in K.
  replace (IZR (2 ^ 53)) with (bp 53) in K by reflexivity. rewrite <- bpow_plus in K. exact K.
Qed.
(** the R-level split of Flocq's Dekker *)
Definition sp_p x := rn (x * (bp 27 + 1)).
Definition sp_h x := rn (rn (x - sp_p x) + sp_p x).
Definition sp_t x := rn (x - sp_h x).
Lemma split_FV a k : (-1000 <= k <= 990)%Z -> Fin a -> Rabs (V a) <= bp k ->
  FV2 (split a) (sp_h (V a)) (sp_t (V a)) /\ Rabs (sp_h (V a)) <= bp (k + 30) /\ Rabs (sp_t (V a)) <= bp (k + 31).
Proof.
  intros Hk F B. assert (A := FV_self a F).
  destruct thr as [tx [T TL]].
  assert (BK : Rabs (V a) <= bp 990) by (apply Rle_trans with (1 := B); apply bpow_le; lia).
  unfold split. rewrite (fgtb_le a split_threshold); [|easy|apply T|rewrite (proj2 T); apply Rabs_def2b in BK || idtac; assert (K := Rle_abs (V a)); lra].
  assert (NT := FV_neg _ _ T).
  replace (fltb a (fneg split_threshold)) with false.
  2: { rewrite fltb_ok; [|easy|apply NT]. rewrite Rlt_bool_false; auto. rewrite (proj2 NT).
       assert (K := Rle_abs (- V a)). rewrite Rabs_Ropp in K. lra. }
  cbn [orb]. 
  assert (BF : Rabs (bp 27 + 1) <= bp 28).
  { rewrite Rabs_pos_eq. change (bp 27) with (IZR 134217728). change (bp 28) with (IZR 268435456). lra.
    change (bp 27) with (IZR 134217728). lra. }
  destruct (FV_mul' 28 k split_factor a _ _ ltac:(lia) V_split_factor A BF B) as [P BP].
  rewrite Rmult_comm in P, BP. fold (sp_p (V a)) in P, BP.
  assert (B' : Rabs (V a) <= bp (28 + k)) by (apply Rle_trans with (1 := B); apply bpow_le; lia).
  destruct (FV_sub' (28 + k) _ _ _ _ ltac:(lia) P A BP B') as [Q BQ].
  assert (BP' : Rabs (sp_p (V a)) <= bp (28 + k + 1)) by (apply Rle_trans with (1 := BP); apply bpow_le; lia).
  destruct (FV_sub' (28 + k + 1) _ _ _ _ ltac:(lia) P Q BP' BQ) as [H BH].
  assert (E : rn (sp_p (V a) - rn (sp_p (V a) - V a)) = sp_h (V a)).
  { unfold sp_h. f_equal. replace (sp_p (V a) - V a) with (- (V a - sp_p (V a))) by ring. rewrite rn_opp. ring. }
  rewrite E in H, BH.
  assert (B'' : Rabs (V a) <= bp (28 + k + 1 + 1)) by (apply Rle_trans with (1 := B); apply bpow_le; lia).
  destruct (FV_sub' (28 + k + 1 + 1) _ _ _ _ ltac:(lia) A H B'' BH) as [L BL].
  split; [split; cbn [fst snd]; assumption|].
  split.
  - apply Rle_trans with (1 := BH). apply bpow_le; lia.
  - unfold sp_t. apply Rle_trans with (1 := BL). apply bpow_le; lia.
Qed.
Lemma dekker_R x y : fmt x -> fmt y -> (x * y = 0 \/ bp (-969) <= Rabs (x * y)) ->
  rn (rn (rn (rn (rn (sp_h x * sp_h y) - rn (x * y)) + rn (sp_h x * sp_t y)) + rn (sp_t x * sp_h y)) + rn (sp_t x * sp_t y))
  = x * y - rn (x * y).
Proof.
  intros Fx Fy H.
  destruct (Dekker radix2 (-1074) 53 (fun x => negb (Z.even x)) ltac:(lia) ltac:(lia) x y Fx Fy) as [K _]; [now left|].
  specialize (K H). change (53 - Z.div2 53)%Z with 27%Z in K.
  fold (sp_p x) (sp_p y) in K. fold (sp_h x) (sp_h y) in K. fold (sp_t x) (sp_t y) in K.
  change (round radix2 (FLT_exp (-1074) 53) (Znearest (fun x0 : Z => negb (Z.even x0)))) with rn in K.
  rewrite (Rplus_comm (- rn (x * y))) in K. unfold Rminus. unfold sp_h, sp_t, sp_p in *. lra.
Qed.
Lemma Rabs_up x k l : (k <= l)%Z -> Rabs x <= bp k -> Rabs x <= bp l.
Proof. intros H K. apply Rle_trans with (1 := K). now apply bpow_le. Qed.
Lemma two_prod_nofma_FV k l a b : (-900 <= k <= 990)%Z -> (-900 <= l <= 990)%Z -> (-900 <= k + l <= 950)%Z ->
  Fin a -> Fin b -> Rabs (V a) <= bp k -> Rabs (V b) <= bp l ->
  (V a * V b = 0 \/ bp (-969) <= Rabs (V a * V b)) ->
  FV2 (two_prod_nofma a b) (rn (V a * V b)) (V a * V b - rn (V a * V b)).
Proof.
  intros Hk Hl Hkl Fa Fb Ba Bb W. unfold two_prod_nofma.
  destruct (split_FV a k ltac:(lia) Fa Ba) as [SA [BA1 BA2]]. destruct (split a) as [ahi alo]. destruct SA as [A1 A2]. cbn [fst snd] in *.
  destruct (split_FV b l ltac:(lia) Fb Bb) as [SB [BB1 BB2]]. destruct (split b) as [bhi blo]. destruct SB as [B1 B2]. cbn [fst snd] in *.
  destruct (FV_mul' k l _ _ _ _ ltac:(lia) (FV_self a Fa) (FV_self b Fb) Ba Bb) as [P BP].
  destruct (FV_mul' (k + 30) (l + 30) _ _ _ _ ltac:(lia) A1 B1 BA1 BB1) as [P11 L11].
  destruct (FV_mul' (k + 30) (l + 31) _ _ _ _ ltac:(lia) A1 B2 BA1 BB2) as [P12 L12].
  destruct (FV_mul' (k + 31) (l + 30) _ _ _ _ ltac:(lia) A2 B1 BA2 BB1) as [P21 L21].
  destruct (FV_mul' (k + 31) (l + 31) _ _ _ _ ltac:(lia) A2 B2 BA2 BB2) as [P22 L22].
  destruct (FV_sub' (k + l + 62) _ _ _ _ ltac:(lia) P11 P) as [S1 T1]; [eapply Rabs_up; [|eassumption]; lia..|].
  destruct (FV_add' (k + l + 63) _ _ _ _ ltac:(lia) S1 P12) as [S2 T2]; [eapply Rabs_up; [|eassumption]; lia..|].
  destruct (FV_add' (k + l + 64) _ _ _ _ ltac:(lia) S2 P21) as [S3 T3]; [eapply Rabs_up; [|eassumption]; lia..|].
  destruct (FV_add' (k + l + 65) _ _ _ _ ltac:(lia) S3 P22) as [S4 T4]; [eapply Rabs_up; [|eassumption]; lia..|].
  rewrite dekker_R in S4 by auto with fmt.
  split; assumption.
Qed.
Lemma d_mul_nofma_single k l a b : (-900 <= k <= 990)%Z -> (-900 <= l <= 990)%Z -> (-900 <= k + l <= 950)%Z ->
  Fin a -> Fin b -> Rabs (V a) <= bp k -> Rabs (V b) <= bp l ->
  (V a * V b = 0 \/ bp (-969) <= Rabs (V a * V b)) ->
  DIs (d_mul_nofma (mkD a f0) (mkD b f0)) (V a * V b).
Proof.
  intros Hk Hl Hkl Fa Fb Ba Bb W. unfold d_mul_nofma. destruct (Req_dec (V a) 0) as [Z|Z].
  - rewrite d_pre_mul_zero by easy. rewrite Z, Rmult_0_l. cbn [from_pre d0]. apply DIs_zero.
  - rewrite d_pre_mul_fin by easy. cbn [from_pre d0 d1].
    pose proof (two_prod_nofma_FV k l a b Hk Hl Hkl Fa Fb Ba Bb W) as K. destruct (two_prod_nofma a b) as [p e]. destruct K as [P E]. cbn [fst snd] in *.
    assert (N := rn_split (V a * V b)). assert (FA := FV_self a Fa). assert (FB := FV_self b Fb).
    unfold renorm2, DIs. repeat fvstep. split; fvs.
Qed.

(** ** Quad sum of two f64 *)
Lemma q_add_single a b : Bd M18 a -> Bd M18 b ->
  QFV (q_add (mkQ a f0 f0 f0) (mkQ b f0 f0 f0)) (rn (V a + V b)) (V a + V b - rn (V a + V b)) 0 0.
Proof.
  intros A B. assert (FA := FV_self a (proj1 A)). assert (FB := FV_self b (proj1 B)). assert (Z := FV_0).
  unfold q_add. rewrite q_pre_add_fin by (apply A || apply B). cbn [from_pre].
  unfold q_add_core, q_list. cbn [q0 q1 q2 q3].
  assert (N := rn_split (V a + V b)).
  assert (Fe : fmt (V a + V b - rn (V a + V b))) by (apply plus_err_fmt; auto with fmt).
  assert (C : chain4 (rn (V a + V b)) (V a + V b - rn (V a + V b)) 0 0).
  { refine (conj _ (conj _ _)); auto. rewrite Rplus_0_r. now apply rn_id. rewrite Rplus_0_r. apply rn_0. }
  destruct (Rlt_or_le (Rabs (V b)) (Rabs (V a))) as [L|L].
  - cbn [qa_take]. erewrite (FV_abs_gt a b) by eauto. cbn [qa_take].
    erewrite (FV_abs_ngt f0 b) by (eauto; rewrite Rabs_R0; apply Rabs_pos).
    unfold renorm2. pose proof (quick_FV a b A B ltac:(left; lra)) as K.
    destruct (quick_two_sum a b) as [s e]. destruct K as [S E]. cbn [fst snd] in *.
    repeat qstep. unfold qa_finish. cbn [fold_left nth]. apply renorm4_id; auto; fvs.
  - cbn [qa_take]. erewrite (FV_abs_ngt a b) by eauto. cbn [qa_take].
    destruct (Req_dec (V a) 0) as [Za|Za].
    + rewrite Za in *. erewrite (FV_abs_ngt a f0) by (eauto; lra).
      unfold renorm2. assert (Eb : rn (V b) = V b) by (apply rn_id; auto with fmt).
      rewrite Rplus_0_l, Eb in *. replace (V b - V b) with 0 in * by ring.
      repeat qstep. unfold qa_finish. cbn [fold_left nth]. apply renorm4_id; auto; fvs.
    + erewrite (FV_abs_gt a f0) by (eauto; rewrite Rabs_R0; now apply Rabs_pos_lt).
      unfold renorm2. pose proof (quick_FV b a B A ltac:(left; lra)) as K. rewrite (Rplus_comm (V b)) in K.
      destruct (quick_two_sum b a) as [s e]. destruct K as [S E]. cbn [fst snd] in *.
      repeat qstep. unfold qa_finish. cbn [fold_left nth]. apply renorm4_id; auto; fvs.
Qed.
