(** * Digit extraction of Double (double/display.rs:229-261) *)
From Coq Require Import ZArith Reals Lra Lia Psatz Bool List.
From Flocq Require Import Core IEEE754.BinarySingleNaN.
From Verif Require Import RN F64 Prim DoubleM Spec F64Facts EFT DWAdd DAddProofs DMulProofs ExactProofs RoundProofs DDivProofs MulAny
  ParseM ParseSpec ParseNum DisplayM DisplaySpec DisplayProofs DisplayText.
Import ListNotations.
Local Open Scope R_scope.

Definition v106 : R := bp (-106).
Definition tiny : R := bp (-1072).
Lemma v_pos : 0 < v106. Proof. apply bpow_gt_0. Qed.
Lemma v_small : v106 <= u / 1000000000000000.
Proof. unfold v106. change (-106)%Z with (-53 + -53)%Z. rewrite bpow_plus, u_bp. lra. Qed.
Lemma t_pos : 0 < tiny. Proof. apply bpow_gt_0. Qed.
Lemma t_small : tiny <= v106 / 1000000000000000.
Proof.
  apply Rle_trans with (bp (-106 + -53)); [apply bpow_le; lia|]. rewrite bpow_plus, u_bp. assert (P := v_pos). unfold v106 in *. lra.
Qed.

Definition next (w : Double) : Double := d_mul_assign (d_sub_assign w (mkD (ftrunc (d0 w)) f0)) (mkD (fofZ 10) f0).

Lemma sat_trunc a d : Fin a -> V a = IZR d -> sat 0 255 a = Z.max 0 (Z.min 255 d).
Proof.
  intros F E. assert (T : Btrunc a = d).
  { apply eq_IZR. rewrite (Btrunc_correct prec emax _ a). change (B2R a) with (V a). rewrite E.
    unfold round, F2R, scaled_mantissa, cexp, FIX_exp. cbn [Fnum Fexp Z.opp bpow]. rewrite Rmult_1_r, Rmult_1_r. now rewrite Ztrunc_IZR. }
  destruct a; try easy; unfold sat; now rewrite T.
Qed.

Lemma step w : DNorm w -> Rabs (DV w) <= 11 ->
  let h := V (d0 w) in let d := Ztrunc h in
  DNorm (next w) /\ as_u8 (ftrunc (d0 w)) = Z.max 0 d /\ Rabs (DV w - h) <= 12 * u /\ (Z.abs d <= 11)%Z /\
  Rabs (DV (next w) - 10 * (DV w - IZR d)) <= 175 * v106 * Rabs (DV w - IZR d) + tiny.
Proof.
  intros N B h d. assert (P := v_pos). assert (S := v_small).
  assert (H1 := DNorm_hi_rel w N). assert (H2 := DNorm_val_rel w N). fold h in H1, H2.
  assert (Bh : Rabs h <= 11 + 22 * u) by (assert (K := Rabs_pos (DV w)); lra).
  assert (F0 : Fin (d0 w)) by apply N.
  destruct (fnearby_ok mode_ZR (d0 w) F0) as [Ft Vt]. change (Bnearbyint mode_ZR (d0 w)) with (ftrunc (d0 w)) in *.
  change (round_mode mode_ZR (V (d0 w))) with d in Vt.
  assert (Bd' : (Z.abs d <= 11)%Z).
  { unfold d. rewrite <- Ztrunc_abs. rewrite Ztrunc_floor by apply Rabs_pos. apply Zlt_succ_le, lt_IZR. apply Rle_lt_trans with (1 := Zfloor_lb _). cbn. lra. }
  destruct (DNorm_single _ _ (conj Ft Vt)) as [Nd Vd].
  assert (Bd2 : Rabs (IZR d) <= 11) by (rewrite <- abs_IZR; now apply IZR_le).
  assert (L4 : 16 <= bp 1015) by (change 16 with (bp 4); apply bpow_le; lia).
  destruct (d_sub_ok w (mkD (ftrunc (d0 w)) f0) N Nd) as [Ns As].
  { unfold D15. fold h. lra. } { unfold D15. cbn [d0]. rewrite Vt. lra. }
  rewrite Vd in As. set (r := d_sub w (mkD (ftrunc (d0 w)) f0)) in *. unfold approx in As.
  set (R := DV w - IZR d) in *. change (bpow radix2 (-106)) with v106 in As.
  assert (PR := Rabs_pos R).
  assert (BR : Rabs R <= 22) by (unfold R; assert (K := Rabs_triang (DV w) (- IZR d)); rewrite Rabs_Ropp in K; unfold Rminus; lra).
  assert (Br : Rabs (DV r) <= (1 + 6 * v106) * Rabs R).
  { assert (K := Rabs_triang (DV r - R) R). replace (DV r - R + R) with (DV r) in K by ring. lra. }
  assert (Br2 : Rabs (DV r) <= 23) by nra.
  destruct ten_DInt as [Nt Et].
  assert (V10 : V (d0 (mkD (fofZ 10) f0)) = 10) by (cbn [d0]; apply fofZ_exact; now compute).
  destruct (d_mul_any r (mkD (fofZ 10) f0) Ns Nt) as [Nm Am].
  { rewrite V10, Rabs_mult, (Rabs_pos_eq 10) by lra. assert (K := DNorm_hi_rel r Ns).
    apply Rle_trans with 256; [lra|]. change 256 with (bp 8). apply bpow_le; lia. }
  unfold next, d_sub_assign, d_mul_assign. rewrite !d_assign_id. fold r.
  split; [exact Nm|]. split.
  { unfold as_u8. rewrite (sat_trunc _ d Ft Vt). lia. }
  split; [lra|]. split; [exact Bd'|].
  rewrite Et in Am. change (bpow radix2 (-106)) with v106 in Am.
  replace (bp (-1073)) with (tiny / 2) in Am by (unfold tiny; change (-1072)%Z with (-1073 + 1)%Z; rewrite bp_S; lra).
  rewrite Rabs_mult, (Rabs_pos_eq 10) in Am by lra.
  replace (DV (d_mul r (mkD (fofZ 10) f0)) - 10 * R) with ((DV (d_mul r (mkD (fofZ 10) f0)) - DV r * 10) + 10 * (DV r - R)) by ring.
  assert (T := t_pos).
  eapply Rle_trans; [apply Rabs_triang|]. rewrite Rabs_mult, (Rabs_pos_eq 10) by lra.
  assert (v106 * Rabs (DV r) <= v106 * ((1 + 6 * v106) * Rabs R)) by nra.
  assert (v106 * (v106 * Rabs R) <= / 1000000 * (v106 * Rabs R)). { apply Rmult_le_compat_r; [nra|lra]. }
  nra.
Qed.

(** ** the loop *)
Notation loop := (extract_loop d_disp).
Lemma loop_S n w : loop (S n) w = as_u8 (ftrunc (d0 w)) :: loop n (next w). Proof. reflexivity. Qed.
Lemma loop_len n : forall w, length (loop n w) = n. Proof. induction n; intros w; [reflexivity|]. rewrite loop_S. cbn [length]. now rewrite IHn. Qed.

Definition inv (w : Double) : Prop := DNorm w /\ Rabs (DV w) <= 10 + / 1000000000.
(** everything known about one step, ready for linear arithmetic *)
Record stepped (w : Double) (d : Z) : Prop := {
  sp_next : inv (next w);
  sp_dig : as_u8 (ftrunc (d0 w)) = Z.max 0 d;
  sp_h : Rabs (DV w - V (d0 w)) <= 12 * u;
  sp_d : (Z.abs d <= 10)%Z;
  sp_t : d = Ztrunc (V (d0 w));
  sp_r : Rabs (DV w - IZR d) <= 1 + 12 * u;
  sp_e : Rabs (DV (next w) - 10 * (DV w - IZR d)) <= 175 * v106 * Rabs (DV w - IZR d) + tiny }.
Lemma trunc_frac h : Rabs (h - IZR (Ztrunc h)) < 1.
Proof.
  destruct (Rle_or_lt 0 h) as [H|H].
  - rewrite Ztrunc_floor by auto. assert (A := Zfloor_lb h). assert (B := Zfloor_ub h). apply Rabs_def1; lra.
  - rewrite Ztrunc_ceil by lra. assert (A := Zceil_ub h). assert (B := Zceil_lb h). apply Rabs_def1; lra.
Qed.
Lemma step_inv w : inv w -> stepped w (Ztrunc (V (d0 w))).
Proof.
  intros [N B]. assert (P := v_pos). assert (S := v_small). assert (T := t_pos). assert (T' := t_small).
  destruct (step w N ltac:(lra)) as [N' [D [H [Bd E]]]].
  set (h := V (d0 w)) in *. set (d := Ztrunc h) in *.
  assert (TF := trunc_frac h). fold d in TF.
  assert (BR : Rabs (DV w - IZR d) <= 1 + 12 * u).
  { replace (DV w - IZR d) with ((DV w - h) + (h - IZR d)) by ring. eapply Rle_trans; [apply Rabs_triang|]. lra. }
  constructor; auto.
  - split; auto. set (r := DV w - IZR d) in *. assert (PR := Rabs_pos r).
    assert (K := Rabs_triang (DV (next w) - 10 * r) (10 * r)). replace (DV (next w) - 10 * r + 10 * r) with (DV (next w)) in K by ring.
    rewrite (Rabs_mult 10), (Rabs_pos_eq 10) in K by lra. nra.
  - unfold d. rewrite <- Ztrunc_abs, Ztrunc_floor by apply Rabs_pos. apply Zlt_succ_le, lt_IZR. apply Rle_lt_trans with (1 := Zfloor_lb _). cbn.
    assert (K := Rabs_triang (h - DV w) (DV w)). replace (h - DV w + DV w) with h in K by ring. rewrite Rabs_minus_sym in K. lra.
Qed.

Lemma loop_digits n : forall w, inv w -> Forall (fun d => 0 <= d <= 10)%Z (loop n w).
Proof.
  induction n; intros w I; [constructor|]. rewrite loop_S. destruct (step_inv w I) as [I' D _ Bd _ _ _].
  constructor; [rewrite D; lia|]. now apply IHn.
Qed.
(** a digit 10 is followed by a digit 0 *)
Fixpoint tens (k : Z) (l : list Z) : Prop :=
  match l with
  | d :: l' => (d = 10%Z -> match l' with [] => True | d' :: _ => (0 <= d' <= k)%Z end) /\ tens k l'
  | [] => True
  end.
Lemma trunc_ge h (z : Z) : (0 < z)%Z -> (z <= Ztrunc h)%Z -> IZR z <= h.
Proof.
  intros Hz H. destruct (Rle_or_lt 0 h) as [P|P].
  - rewrite Ztrunc_floor in H by auto. apply Rle_trans with (2 := Zfloor_lb h). now apply IZR_le.
  - rewrite Ztrunc_ceil in H by lra. assert (K : (Zceil h <= 0)%Z) by (apply Zceil_glb; cbn; lra). lia.
Qed.
Lemma trunc_le0 h : h < 1 -> (Ztrunc h <= 0)%Z.
Proof.
  intros H. destruct (Z.le_gt_cases (Ztrunc h) 0) as [|G]; auto. assert (K : IZR 1 <= h) by (apply trunc_ge; lia). cbn in K. lra.
Qed.
Lemma loop_tens n : forall w, inv w -> tens 0 (loop n w).
Proof.
  induction n; intros w I; [exact Logic.I|]. rewrite loop_S. assert (I0 := I). destruct (step_inv w I) as [I' D H Bd Ht R E]. cbn [tens]. split; [|now apply IHn].
  intros E10. destruct n; [exact Logic.I|]. rewrite loop_S. destruct (step_inv _ I') as [_ D' H' _ _ _ _].
  rewrite D' . rewrite D in E10. set (d := Ztrunc (V (d0 w))) in *. assert (d = 10%Z) as Ed by lia. rewrite Ed in *.
  assert (P := v_pos). assert (S := v_small). assert (T := t_pos). assert (T' := t_small).
  destruct I0 as [_ B]. apply Rabs_le_inv in B.
  assert (TG : 10 <= V (d0 w)) by (apply (trunc_ge _ 10); lia).
  apply Rabs_le_inv in H. apply Rabs_le_inv in E. assert (BR := R). apply Rabs_le_inv in R. assert (PR := Rabs_pos (DV w - 10)).
  assert (v106 * Rabs (DV w - 10) <= v106 * 2) by nra.
  assert (V (d0 (next w)) < 1). { apply Rabs_le_inv in H'. lra. }
  assert (K := trunc_le0 _ H1). lia.
Qed.

Fixpoint sdig (l : list Z) : R := match l with [] => 0 | d :: l' => IZR d + sdig l' / 10 end.
Lemma sdig_range l : Forall (fun d => 0 <= d <= 10)%Z l -> 0 <= sdig l <= 11.2.
Proof.
  induction 1 as [|d l [D1 D2] F IH]; cbn [sdig]; [lra|]. apply IZR_le in D1, D2. lra.
Qed.

Lemma L46 n : (n <= 32)%nat -> forall w, inv w -> Rabs (sdig (loop n w) - DV w) <= (46 + INR n) * Rabs (DV w) + 10 * tiny.
Proof.
  assert (P := v_pos). assert (S := v_small). assert (T := t_pos). assert (T' := t_small).
  induction n as [|n IH]; intros Hn w I.
  { cbn [loop sdig]. rewrite Rminus_0_l, Rabs_Ropp. assert (K := Rabs_pos (DV w)). cbn [INR]. lra. }
  specialize (IH ltac:(lia)). assert (NI : 0 <= INR n <= 32). { split; [apply pos_INR|]. replace 32 with (INR 32) by (cbn; lra). apply le_INR. lia. }
  rewrite S_INR.
  assert (SR := sdig_range _ (loop_digits (Datatypes.S n) w I)).
  destruct (Rle_or_lt (/2) (Rabs (DV w))) as [G|G].
  { destruct I as [_ B]. apply Rabs_le_inv in B.
    apply Rle_trans with 22. { apply Rabs_le. lra. } nra. }
  destruct (step_inv w I) as [I' D H Bd Ht R E].
  assert (d0' : Ztrunc (V (d0 w)) = 0%Z).
  { apply Ztrunc_imp || idtac. assert (A : (Z.abs (Ztrunc (V (d0 w))) < 1)%Z).
    { rewrite <- Ztrunc_abs, Ztrunc_floor by apply Rabs_pos. apply lt_IZR. apply Rle_lt_trans with (1 := Zfloor_lb _).
      assert (K := Rabs_triang (V (d0 w) - DV w) (DV w)). replace (V (d0 w) - DV w + DV w) with (V (d0 w)) in K by ring. rewrite Rabs_minus_sym in K. cbn. lra. }
    lia. }
  rewrite d0' in *. rewrite Rminus_0_r in *. rewrite loop_S, D. change (Z.max 0 0) with 0%Z. cbn [sdig].
  specialize (IH _ I'). set (S' := sdig (loop n (next w))) in *. set (W := DV w) in *. set (W' := DV (next w)) in *. set (a := Rabs W) in *. assert (A0 : 0 <= a) by apply Rabs_pos.
  assert (B' : Rabs W' <= 10 * a + (175 * v106 * a + tiny)).
  { assert (K := Rabs_triang (W' - 10 * W) (10 * W)). replace (W' - 10 * W + 10 * W) with W' in K by ring. rewrite (Rabs_mult 10), (Rabs_pos_eq 10) in K by lra. fold a in K. lra. }
  replace (0 + S' / 10 - W) with (((S' - W') + (W' - 10 * W)) / 10) by field.
  unfold Rdiv. rewrite Rabs_mult, (Rabs_pos_eq (/ 10)) by lra.
  assert (Rabs (S' - W' + (W' - 10 * W)) <= (46 + INR n) * (10 * a + (175 * v106 * a + tiny)) + 10 * tiny + (175 * v106 * a + tiny)).
  { eapply Rle_trans; [apply Rabs_triang|]. assert (K : (46 + INR n) * Rabs W' <= (46 + INR n) * (10 * a + (175 * v106 * a + tiny))) by (apply Rmult_le_compat_l; lra). lra. }
  assert (INR n * (175 * v106 * a + tiny) <= 32 * (175 * v106 * a + tiny)) by (apply Rmult_le_compat_r; nra).
  assert (v106 * a <= a / 1000000) by (assert (v106 <= / 1000000) by lra; nra).
  nra.
Qed.
Lemma L80 n w : (n <= 32)%nat -> inv w -> Rabs (sdig (loop n w) - DV w) <= 80 * Rabs (DV w) + 10 * tiny.
Proof.
  intros Hn I. eapply Rle_trans; [now apply L46|]. assert (INR n <= 32). { replace 32 with (INR 32) by (cbn; lra). now apply le_INR. }
  assert (K := Rabs_pos (DV w)). nra.
Qed.

(** ** negative remainders print as zeros *)
Lemma trunc_0 h : Rabs h < 1 -> Ztrunc h = 0%Z.
Proof.
  intros H. assert (A : (Z.abs (Ztrunc h) < 1)%Z); [|lia].
  rewrite <- Ztrunc_abs, Ztrunc_floor by apply Rabs_pos. apply lt_IZR. apply Rle_lt_trans with (1 := Zfloor_lb _). exact H.
Qed.
Lemma Lneg n : (n <= 32)%nat -> forall w, inv w -> DV w <= 0 -> sdig (loop n w) <= (2000 + INR n) * u * - DV w + 20 * tiny.
Proof.
  assert (P := v_pos). assert (S := v_small). assert (T := t_pos). assert (T' := t_small).
  induction n as [|n IH]; intros Hn w I W0.
  { cbn [loop sdig INR]. nra. }
  specialize (IH ltac:(lia)). assert (NI : 0 <= INR n <= 32). { split; [apply pos_INR|]. replace 32 with (INR 32) by (cbn; lra). apply le_INR. lia. }
  rewrite S_INR.
  destruct (step_inv w I) as [I' D H Bd Ht R E].
  specialize (IH _ I'). assert (L := L80 n _ ltac:(lia) I').
  set (S' := sdig (loop n (next w))) in *. set (W := DV w) in *. set (W' := DV (next w)) in *. set (h := V (d0 w)) in *.
  apply Rabs_le_inv in H. apply Rabs_le_inv in L.
  assert (POS : forall c, W' <= c -> 0 < W' -> S' <= 81 * c + 10 * tiny).
  { intros c C1 C2. rewrite (Rabs_pos_eq W') in L by lra. lra. }
  destruct (Rle_or_lt h (-1)) as [G|G].
  - assert (Hd : h <= IZR (Ztrunc h)) by (rewrite Ztrunc_ceil by lra; apply Zceil_ub).
    assert (Hd1 : (Ztrunc h <= -1)%Z). { rewrite Ztrunc_ceil by lra. apply Zceil_glb. exact G. }
    rewrite loop_S, D. replace (Z.max 0 (Ztrunc h)) with 0%Z by lia. cbn [sdig]. fold S'.
    apply IZR_le in Hd1. set (d := IZR (Ztrunc h)) in *.
    assert (PR := Rabs_pos (W - d)). apply Rabs_le_inv in E.
    assert (v106 * Rabs (W - d) <= v106 * 2) by nra.
    assert (WU : W' <= 121 * u) by lra.
    destruct (Rle_or_lt W' 0) as [N|N].
    + specialize (IH N). assert (- W' <= 10 * (- W - 1) + 360 * v106) by lra.
      assert ((2000 + INR n) * - W' <= (2000 + INR n) * (10 * (- W - 1) + 360 * v106)) by (apply Rmult_le_compat_l; lra).
      assert (INR n * v106 <= 32 * v106) by nra. assert (0 <= - W - 1 + 12 * u) by lra. nra.
    + specialize (POS _ WU N). assert (0 <= INR n * - W) by nra. nra.
  - assert (Z0 : Ztrunc h = 0%Z) by (apply trunc_0, Rabs_def1; lra).
    rewrite loop_S, D, Z0. change (Z.max 0 0) with 0%Z. cbn [sdig]. fold S'.
    rewrite Z0, Rminus_0_r in E. rewrite (Rabs_left1 W) in E by lra. apply Rabs_le_inv in E.
    assert (v106 * - W <= / 1000000 * - W) by (apply Rmult_le_compat_r; lra).
    destruct (Rle_or_lt W' 0) as [N|N].
    + specialize (IH N). set (a := - W) in *. assert (A0 : 0 <= a) by (unfold a; lra).
      assert (- W' <= 10 * a + 175 * v106 * a + tiny) by (unfold a in *; lra).
      assert ((2000 + INR n) * - W' <= (2000 + INR n) * (10 * a + 175 * v106 * a + tiny)) by (apply Rmult_le_compat_l; lra).
      assert (INR n * (v106 * a) <= 32 * (v106 * a)) by (apply Rmult_le_compat_r; nra). assert (INR n * tiny <= 32 * tiny) by nra. nra.
    + specialize (POS tiny ltac:(lra) N). assert (0 <= INR n * - W) by nra. nra.
Qed.
Lemma Lneg' n w : (n <= 32)%nat -> inv w -> DV w <= 0 -> Rabs (sdig (loop n w) - DV w) <= (1 + 2040 * u) * - DV w + 20 * tiny.
Proof.
  intros Hn I W0. assert (K := Lneg n Hn w I W0). assert (NI : 0 <= INR n <= 32). { split; [apply pos_INR|]. replace 32 with (INR 32) by (cbn; lra). now apply le_INR. }
  assert (SR := sdig_range _ (loop_digits n w I)). assert (T := t_pos). rewrite Rabs_pos_eq by lra. nra.
Qed.

Definition ten_m (n : nat) : R := / 10 ^ n.
Lemma ten_m_S n : ten_m (S n) = ten_m n / 10.
Proof. unfold ten_m. cbn [pow]. rewrite Rinv_mult. field. apply Rgt_not_eq, pw_pos. Qed.
Lemma ten_m_pos n : 0 < ten_m n. Proof. apply Rinv_0_lt_compat, pw_pos. Qed.

(** adding one digit *)
Lemma one_digit S' W W' d B : Rabs (W - d) <= 1 + 12 * u -> Rabs (W' - 10 * (W - d)) <= 175 * v106 * Rabs (W - d) + tiny ->
  Rabs (S' - W') <= B -> Rabs (d + S' / 10 - W) <= (B + 177 * v106) / 10.
Proof.
  intros R E H. assert (P := v_pos). assert (S := v_small). assert (T := t_pos). assert (T' := t_small).
  replace (d + S' / 10 - W) with (((S' - W') + (W' - 10 * (W - d))) / 10) by field.
  unfold Rdiv. rewrite Rabs_mult, (Rabs_pos_eq (/ 10)) by lra. apply Rmult_le_compat_r; [lra|].
  eapply Rle_trans; [apply Rabs_triang|]. assert (v106 * Rabs (W - d) <= v106 * (1 + 12 * u)) by (apply Rmult_le_compat_l; lra). nra.
Qed.
Lemma err_abs W W' d : Rabs (W - d) <= 1 + 12 * u -> Rabs (W' - 10 * (W - d)) <= 175 * v106 * Rabs (W - d) + tiny -> Rabs (W' - 10 * (W - d)) <= 177 * v106.
Proof.
  intros R E. assert (P := v_pos). assert (S := v_small). assert (T := t_pos). assert (T' := t_small).
  assert (v106 * Rabs (W - d) <= v106 * (1 + 12 * u)) by (apply Rmult_le_compat_l; lra). nra.
Qed.

Lemma hi_neg w : DNorm w -> V (d0 w) < 0 -> DV w <= 0.
Proof. intros N H. assert (K := DNorm_val_rel w N). rewrite (Rabs_left (V (d0 w))) in K by lra. apply Rabs_le_inv in K. lra. Qed.
Lemma Lnn n : (n <= 32)%nat -> forall w, inv w -> - 150 * u <= DV w -> Rabs (sdig (loop n w) - DV w) <= 151 * u + 11 * ten_m n + 20 * v106.
Proof.
  assert (P := v_pos). assert (S := v_small). assert (T := t_pos). assert (T' := t_small).
  induction n as [|n IH]; intros Hn w I W0.
  { cbn [loop sdig]. rewrite Rminus_0_l, Rabs_Ropp. destruct I as [_ B]. unfold ten_m. cbn [pow]. lra. }
  destruct (Rle_or_lt 0 (V (d0 w))) as [G|G].
  2:{ assert (W1 := hi_neg w (proj1 I) G). eapply Rle_trans; [apply Lneg'; auto; lia|]. assert (K := ten_m_pos (Datatypes.S n)). nra. }
  destruct (step_inv w I) as [I' D H Bd Ht R E].
  assert (D0 : (0 <= Ztrunc (V (d0 w)))%Z). { rewrite Ztrunc_floor by auto. now apply Zfloor_lub. }
  assert (Dle : IZR (Ztrunc (V (d0 w))) <= V (d0 w)). { rewrite Ztrunc_floor by auto. apply Zfloor_lb. }
  rewrite loop_S, D, Z.max_r by lia. cbn [sdig].
  assert (EA := err_abs _ _ _ R E). apply Rabs_le_inv in EA. apply Rabs_le_inv in H.
  specialize (IH ltac:(lia) _ I' ltac:(lra)).
  eapply Rle_trans; [apply (one_digit _ _ _ _ _ R E IH)|]. rewrite ten_m_S. lra.
Qed.

(** a value within u/4 below an integer rounds to it *)
Lemma rn_near F x : (1 <= F <= 11)%Z -> IZR F - u / 4 <= x -> IZR F <= rn x.
Proof.
  intros HF H. set (z := IZR F - u / 4) in *. apply Rle_trans with (rn z); [|now apply rn_le].
  assert (B1 : 1 <= IZR F) by (apply IZR_le; lia). assert (B2 : IZR F <= 11) by (apply IZR_le; lia).
  assert (FF : generic_format radix2 fexp64 (IZR F)). { apply (fmt_mult2 0); [lia|apply mult2_IZR|]. rewrite Rabs_pos_eq by lra. apply Rle_trans with (1 := B2). change 11 with (IZR 11). change (bp (0 + 53)) with (IZR (2 ^ 53)). apply IZR_le. lia. }
  destruct (round_N_pt radix2 fexp64 (fun x => negb (Z.even x)) z) as [_ NP]. specialize (NP _ FF).
  change (Znearest (fun x => negb (Z.even x))) with ZnearestE in NP.
  replace (IZR F - z) with (u / 4) in NP by (unfold z; ring). rewrite (Rabs_pos_eq (u / 4)) in NP by lra.
  assert (U : rn z <= IZR F). { rewrite <- (rn_id (IZR F)) by exact FF. apply rn_le. unfold z. lra. }
  apply Rabs_le_inv in NP.
  assert (M : mult2 (-53) (rn z)).
  { apply mult2_le with (2 := mult2_cexp _ (rn_fmt z)). rewrite cexp64.
    assert (0 <= mag radix2 (rn z))%Z; [|lia]. 
    assert (-1 < mag radix2 (rn z))%Z; [|lia]. apply mag_gt_bpow. change (bp (-1)) with (/ 2). rewrite Rabs_pos_eq; unfold z in *; lra. }
  destruct M as [k Hk].
  assert (EF : IZR F = IZR (F * 2 ^ 53) * bp (-53)). { rewrite mult_IZR. change (IZR (2 ^ 53)) with (bp 53). rewrite Rmult_assoc, <- bpow_plus. change (bp (53 + -53)) with 1. ring. }
  rewrite Hk, EF in *. rewrite u_bp in *. apply Rmult_le_compat_r; [lra|]. apply IZR_le.
  assert (IZR (F * 2 ^ 53) - 1 < IZR k); [|assert (F * 2 ^ 53 - 1 < k)%Z by (apply lt_IZR; rewrite minus_IZR; exact H0); lia].
  unfold z in NP. nra.
Qed.
Lemma hi_below w F : DNorm w -> (1 <= F <= 11)%Z -> V (d0 w) < IZR F -> DV w < IZR F - u / 4.
Proof.
  intros [_ N] HF H. destruct (Rle_or_lt (IZR F - u / 4) (DV w)) as [K|K]; auto. exfalso. apply (rn_near F _ HF) in K. unfold RN in N. lra.
Qed.

(** a remainder just below ten *)
Lemma Ltop m : forall n w, (n <= 32)%nat -> inv w -> DV w < 10 -> 10 ^ m * (10 - DV w + 30 * v106) <= / 8 ->
  (forall k, (k <= m)%nat -> nth k (loop n w) 0%Z <> 10%Z) ->
  Rabs (sdig (loop n w) - DV w) <= ten_m m * (151 * u) + 11 * ten_m n + 20 * v106.
Proof.
  assert (P := v_pos). assert (S := v_small). assert (T := t_pos). assert (T' := t_small).
  induction m as [|m IH]; intros n w Hn I W0 HM NT.
  { cbn [pow] in HM. unfold ten_m at 1. cbn [pow]. rewrite Rinv_1, Rmult_1_l. apply Lnn; auto. lra. }
  destruct n as [|n].
  { cbn [loop sdig]. rewrite Rminus_0_l, Rabs_Ropp. destruct I as [_ B]. assert (K := ten_m_pos (Datatypes.S m)). unfold ten_m at 2. cbn [pow]. nra. }
  assert (P1 : 1 <= 10 ^ m) by (apply pow_R1_Rle; lra).
  cbn [pow] in HM.
  assert (H10 : 10 - DV w <= / 80). { nra. }
  destruct (step_inv w I) as [I' D H Bd Ht R E]. apply Rabs_le_inv in H.
  assert (NT0 := NT 0%nat ltac:(lia)). rewrite loop_S in NT0. cbn [nth] in NT0. rewrite D in NT0.
  assert (H9 : 9 <= V (d0 w)) by lra.
  assert (Ht9 : Ztrunc (V (d0 w)) = 9%Z).
  { rewrite Ztrunc_floor in NT0, Bd |- * by lra. assert (9 <= Zfloor (V (d0 w)))%Z by (now apply Zfloor_lub). lia. }
  assert (HL : V (d0 w) < 10). { rewrite Ztrunc_floor in Ht9 by lra. assert (K := Zfloor_ub (V (d0 w))). rewrite Ht9 in K. lra. }
  assert (WB := hi_below w 10 (proj1 I) ltac:(lia) HL).
  rewrite loop_S, D, Ht9. change (Z.max 0 9) with 9%Z. cbn [sdig]. rewrite Ht9 in R, E.
  assert (EA := err_abs _ _ _ R E). apply Rabs_le_inv in EA.
  assert (B : Rabs (sdig (loop n (next w)) - DV (next w)) <= ten_m m * (151 * u) + 11 * ten_m n + 20 * v106).
  { apply IH; auto; [lia|lra| |]. 
    - apply Rle_trans with (10 ^ m * (10 * (10 - DV w + 30 * v106))); [|nra]. apply Rmult_le_compat_l; lra.
    - intros k Hk. specialize (NT (Datatypes.S k) ltac:(lia)). rewrite loop_S in NT. exact NT. }
  eapply Rle_trans; [apply (one_digit _ _ _ _ _ R E B)|]. rewrite !ten_m_S. lra.
Qed.

(** the exact value [y] stays clear of the next integer at each of the next [m] positions *)
Definition clear (m : nat) (q y : R) : Prop :=
  forall k, (k <= m)%nat -> 10 ^ k * y - IZR (Zfloor (10 ^ k * y)) <= 1 - (bp (-48) + 10 ^ k * q).
Lemma clear_S m q y : clear (S m) q y -> clear m (10 * q) (10 * (y - IZR (Zfloor y))).
Proof.
  intros C k Hk. specialize (C (S k) ltac:(lia)). cbn [pow] in C.
  set (F := Zfloor y) in *. assert (K : (10 ^ k * (10 * (y - IZR F)))%R = 10 * 10 ^ k * y + IZR (- (10 ^ Z.of_nat (S k) * F))).
  { rewrite opp_IZR, mult_IZR, IZR_p10. cbn [pow]. ring. }
  rewrite K. rewrite Zfloor_plus_IZR || idtac. 
  replace (Zfloor (10 * 10 ^ k * y + IZR (- (10 ^ Z.of_nat (S k) * F)))) with (Zfloor (10 * 10 ^ k * y) + - (10 ^ Z.of_nat (S k) * F))%Z.
  - rewrite plus_IZR. lra.
  - symmetry. apply Zfloor_imp. rewrite !plus_IZR. assert (A := Zfloor_lb (10 * 10 ^ k * y)). assert (B := Zfloor_ub (10 * 10 ^ k * y)). lra.
Qed.
Lemma Lmain m : forall n w y E q, (n <= 32)%nat -> inv w -> 0 <= y -> Rabs (DV w - y) <= E -> E + 30 * v106 <= q -> 10 ^ m * q <= / 100 ->
  clear m q y -> (forall k, (k <= m)%nat -> nth k (loop n w) 0%Z <> 10%Z) ->
  Rabs (sdig (loop n w) - DV w) <= (1 + 2040 * u) * E + ten_m m * (151 * u) + 11 * ten_m n + 60 * v106.
Proof.
  assert (P := v_pos). assert (S := v_small). assert (T := t_pos). assert (T' := t_small).
  induction m as [|m IH]; intros n w y E q Hn I Y0 HE Hq Hm C NT.
  all: assert (E0 : 0 <= E) by (apply Rle_trans with (2 := HE), Rabs_pos).
  all: destruct (Rle_or_lt 0 (DV w)) as [W0|W0].
  2, 4: (eapply Rle_trans; [apply Lneg'; auto; lra|]; apply Rabs_le_inv in HE;
    assert (K := ten_m_pos n)).
  2: { assert (K1 := ten_m_pos 0). nra. }
  2: { assert (K1 := ten_m_pos (Datatypes.S m)). nra. }
  { eapply Rle_trans; [apply Lnn; auto; lra|]. unfold ten_m at 2. cbn [pow]. assert (0 <= u * E) by nra. lra. }
  destruct n as [|n].
  { cbn [loop sdig]. rewrite Rminus_0_l, Rabs_Ropp. destruct I as [_ B]. assert (K := ten_m_pos (Datatypes.S m)). unfold ten_m at 2. cbn [pow]. nra. }
  assert (P1 : 1 <= 10 ^ m) by (apply pow_R1_Rle; lra). cbn [pow] in Hm.
  assert (Q0 : 0 <= q) by lra. assert (Q1 : q <= / 1000) by nra.
  set (F := Zfloor y). assert (FL := Zfloor_lb y). assert (FU := Zfloor_ub y). fold F in FL, FU.
  assert (F0 : (0 <= F)%Z) by (now apply Zfloor_lub).
  assert (C0 := C 0%nat ltac:(lia)). cbn [pow] in C0. rewrite !Rmult_1_l in C0. fold F in C0.
  assert (B48 : bp (-48) = 32 * u). { change (-48)%Z with (-53 + 5)%Z. rewrite bpow_plus, u_bp. change (bp 5) with 32. ring. }
  destruct (step_inv w I) as [I' D H Bd Ht R Er]. assert (HE' := HE). apply Rabs_le_inv in HE'. apply Rabs_le_inv in H.
  assert (HU : V (d0 w) < IZR F + 1) by lra.
  assert (HL0 : IZR F - 1 < V (d0 w)) by lra.
  assert (H0 : 0 <= V (d0 w)). { destruct I as [[_ N] _]. unfold RN in N. rewrite N. now apply rn_ge_0. }
  assert (EA : Rabs (DV (next w) - 10 * (DV w - IZR (Ztrunc (V (d0 w))))) <= 177 * v106) by (now apply err_abs).
  apply Rabs_le_inv in EA.
  assert (NT' : forall k, (k <= m)%nat -> nth k (loop n (next w)) 0%Z <> 10%Z).
  { intros k Hk. specialize (NT (Datatypes.S k) ltac:(lia)). rewrite loop_S in NT. exact NT. }
  rewrite loop_S, D. 
  assert (Tf : Ztrunc (V (d0 w)) = Zfloor (V (d0 w))) by (now apply Ztrunc_floor).
  destruct (Rle_or_lt (IZR F) (V (d0 w))) as [G|G].
  - assert (EF : Ztrunc (V (d0 w)) = F) by (rewrite Tf; apply Zfloor_imp; rewrite plus_IZR; split; auto).
    rewrite EF in *. rewrite Z.max_r by lia. cbn [sdig].
    assert (B : Rabs (sdig (loop n (next w)) - DV (next w)) <= (1 + 2040 * u) * (10 * E + 177 * v106) + ten_m m * (151 * u) + 11 * ten_m n + 60 * v106).
    { apply (IH n (next w) (10 * (y - IZR F)) (10 * E + 177 * v106) (10 * q)); [lia|exact I'|lra|apply Rabs_le; lra|lra|lra|now apply clear_S|exact NT']. }
    eapply Rle_trans; [apply (one_digit _ _ _ _ _ R Er B)|]. rewrite !ten_m_S. lra.
  - assert (F1 : (1 <= F)%Z). { apply lt_IZR in HU || idtac. assert (0 < IZR F) by lra. apply (lt_IZR 0) in H1. lia. }
    assert (F11 : (F <= 11)%Z). { apply le_IZR. destruct I as [_ B]. apply Rabs_le_inv in B. assert (IZR F < IZR 12) by (cbn; lra). apply lt_IZR in H1. apply IZR_le. lia. }
    assert (WB := hi_below w F (proj1 I) ltac:(lia) G).
    assert (EF : Ztrunc (V (d0 w)) = (F - 1)%Z). { rewrite Tf; apply Zfloor_imp; rewrite plus_IZR, minus_IZR. split; lra. }
    rewrite EF in *. rewrite Z.max_r by lia. rewrite minus_IZR in *. cbn [sdig]. rewrite minus_IZR.
    assert (B : Rabs (sdig (loop n (next w)) - DV (next w)) <= ten_m m * (151 * u) + 11 * ten_m n + 20 * v106).
    { apply Ltop; auto; [lia|lra|]. apply Rle_trans with (10 ^ m * (10 * q)); [|nra]. apply Rmult_le_compat_l; [lra|]. lra. }
    eapply Rle_trans; [apply (one_digit _ _ _ _ _ R Er B)|]. rewrite !ten_m_S. assert (0 <= u * E) by nra. lra.
Qed.
