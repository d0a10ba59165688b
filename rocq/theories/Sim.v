(** * Numeric values with the sign of zero erased; sign symmetry (lemmas) *)
From Coq Require Import ZArith Reals Lra Lia List Bool.
From Flocq Require Import Core IEEE754.BinarySingleNaN.
From Verif Require Import RN F64 Prim DoubleM QuadM Spec F64Facts EFT DAddProofs DMulProofs Check SpecialProofs OrderProofs.
Import ListNotations.
Local Open Scope R_scope.

Definition eopp (a : ext) : ext :=
  match a with ENan => ENan | ENinf => EPinf | EPinf => ENinf | EFin r => EFin (- r) end.
(** negate when [n] *)
Definition esg (n : bool) (a : ext) : ext := if n then eopp a else a.
Definition eround (r : R) : ext :=
  if Rlt_bool (Rabs (rn r)) (bp 1024) then EFin (rn r) else if Rlt_bool r 0 then ENinf else EPinf.
Definition eadd (a b : ext) : ext :=
  match a, b with
  | ENan, _ | _, ENan => ENan
  | ENinf, EPinf | EPinf, ENinf => ENan
  | ENinf, _ | _, ENinf => ENinf
  | EPinf, _ | _, EPinf => EPinf
  | EFin x, EFin y => eround (x + y)
  end.
Definition esgnr (r : R) : ext := match Rcompare r 0 with Lt => ENinf | Eq => ENan | Gt => EPinf end.
Definition emul (a b : ext) : ext :=
  match a, b with
  | ENan, _ | _, ENan => ENan
  | ENinf, ENinf | EPinf, EPinf => EPinf
  | ENinf, EPinf | EPinf, ENinf => ENinf
  | EPinf, EFin r | EFin r, EPinf => esgnr r
  | ENinf, EFin r | EFin r, ENinf => esgnr (- r)
  | EFin x, EFin y => eround (x * y)
  end.
Definition efma (a b c : ext) : ext :=
  match a, b, c with
  | EFin x, EFin y, EFin z => eround (x * y + z)
  | EFin x, EFin y, _ => c
  | _, _, _ => eadd (emul a b) (match c with EFin _ => EFin 0 | _ => c end)
  end.

Lemma to_ext_fin a : Fin a -> to_ext a = EFin (V a).
Proof. destruct a; easy. Qed.
Lemma to_ext_sf a (s : bool) :
  B2SF a = binary_overflow 53 1024 mode_NE s -> to_ext a = if s then ENinf else EPinf.
Proof. destruct a, s; simpl; intros H; try discriminate; inversion H; reflexivity. Qed.

Lemma ovf_sgn x y : fmt x -> Rabs x < bp 1024 -> bp 1024 <= Rabs (rn (x + y)) -> Rabs y < bp 1024 -> fmt y ->
  x <> 0 /\ y <> 0.
Proof.
  intros Fx Bx H By Fy. split; intros E; rewrite E in H.
  - rewrite Rplus_0_l, rn_id in H by easy. lra.
  - rewrite Rplus_0_r, rn_id in H by easy. lra.
Qed.
Lemma Bsign_R a : Fin a -> V a <> 0 -> Bsign a = Rlt_bool (V a) 0.
Proof.
  destruct a as [s|s| |s m e h]; try easy. unfold V, B2R. intros _ _. cbn [Bsign].
  destruct s; symmetry.
  - apply Rlt_bool_true. apply F2R_lt_0. easy.
  - apply Rlt_bool_false. apply F2R_ge_0. easy.
Qed.

Lemma ext_add a b : to_ext (fadd a b) = eadd (to_ext a) (to_ext b).
Proof.
  destruct (is_finite a) eqn:Fa, (is_finite b) eqn:Fb.
  - rewrite (to_ext_fin a Fa), (to_ext_fin b Fb). cbn [eadd]. unfold eround.
    assert (K := Bplus_correct prec emax _ _ mode_NE a b Fa Fb).
    change (round radix2 _ _ _) with (rn (V a + V b)) in K.
    destruct (Rlt_bool_spec (Rabs (rn (V a + V b))) (bp 1024)) as [H|H].
    + rewrite to_ext_fin by apply K. f_equal. apply K.
    + destruct K as [K1 K2].
      rewrite (to_ext_sf (fadd a b) _ K1).
      destruct (ovf_sgn (V a) (V b)) as [Na Nb]; auto using V_lt_1024 with fmt.
      rewrite (Bsign_R a), (Bsign_R b) in K2 by easy. rewrite (Bsign_R a) by easy.
      destruct (Rlt_bool_spec (V a) 0), (Rlt_bool_spec (V b) 0); try discriminate.
      * now rewrite Rlt_bool_true by lra.
      * now rewrite Rlt_bool_false by lra.
  - destruct b as [s'|[]| |s' m' e' h']; try easy; destruct a as [s|[]| |[] m e h]; easy.
  - destruct a as [s'|[]| |s' m' e' h']; try easy; destruct b as [s|[]| |[] m e h]; easy.
  - destruct a as [s'|[]| |s' m' e' h']; try easy; destruct b as [s|[]| |[] m e h]; easy.
Qed.
Lemma ext_neg a : to_ext (fneg a) = eopp (to_ext a).
Proof.
  destruct a as [s|[]| |s m e h]; try reflexivity.
  - cbn. now rewrite Ropp_0.
  - change (EFin (V (fneg (B754_finite s m e h))) = EFin (- V (B754_finite s m e h))). f_equal.
    now apply fneg_ok.
Qed.
Lemma fsub_fadd a b : to_ext (fsub a b) = to_ext (fadd a (fneg b)).
Proof.
  destruct (is_finite a) eqn:Fa, (is_finite b) eqn:Fb.
  - rewrite ext_add, ext_neg, (to_ext_fin a Fa), (to_ext_fin b Fb). cbn [eopp eadd]. unfold eround.
    assert (K := Bminus_correct prec emax _ _ mode_NE a b Fa Fb).
    change (round radix2 _ _ _) with (rn (V a - V b)) in K. change (V a + - V b) with (V a - V b).
    destruct (Rlt_bool_spec (Rabs (rn (V a - V b))) (bp 1024)) as [H|H].
    + rewrite to_ext_fin by apply K. f_equal. apply K.
    + destruct K as [K1 K2].
      rewrite (to_ext_sf (fsub a b) _ K1).
      destruct (ovf_sgn (V a) (- V b)) as [Na Nb]; rewrite ?Rabs_Ropp; auto using V_lt_1024, fmt_opp with fmt.
      assert (Nb' : V b <> 0) by lra.
      rewrite (Bsign_R a), (Bsign_R b) in K2 by easy. rewrite (Bsign_R a) by easy.
      destruct (Rlt_bool_spec (V a) 0), (Rlt_bool_spec (V b) 0); try discriminate.
      * now rewrite Rlt_bool_true by lra.
      * now rewrite Rlt_bool_false by lra.
  - destruct b as [s'|[]| |s' m' e' h']; try easy; destruct a as [s|[]| |[] m e h]; easy.
  - destruct a as [s'|[]| |s' m' e' h']; try easy; destruct b as [s|[]| |[] m e h]; easy.
  - destruct a as [s'|[]| |s' m' e' h']; try easy; destruct b as [s|[]| |[] m e h]; easy.
Qed.
Lemma ext_sub a b : to_ext (fsub a b) = eadd (to_ext a) (eopp (to_ext b)).
Proof. now rewrite fsub_fadd, ext_add, ext_neg. Qed.

Lemma rn_0_not_ovf x : bp 1024 <= Rabs (rn x) -> x <> 0.
Proof. intros H E. rewrite E, rn_0, Rabs_R0 in H. assert (K := bpow_gt_0 radix2 1024). lra. Qed.

Lemma esgnr_sign s m e h : esgnr (V (B754_finite s m e h)) = if s then ENinf else EPinf.
Proof.
  unfold esgnr, V, B2R. destruct s.
  - rewrite Rcompare_Lt; auto. apply F2R_lt_0. easy.
  - rewrite Rcompare_Gt; auto. apply F2R_gt_0. easy.
Qed.
Lemma esgnr_opp r : esgnr (- r) = eopp (esgnr r).
Proof.
  unfold esgnr. destruct (Rcompare_spec r 0); [rewrite Rcompare_Gt by lra|rewrite Rcompare_Eq by lra|rewrite Rcompare_Lt by lra]; reflexivity.
Qed.
Lemma esgnr_zero s : esgnr (V (B754_zero s)) = ENan.
Proof. unfold esgnr. now rewrite Rcompare_Eq. Qed.

Lemma ext_mul a b : to_ext (fmul a b) = emul (to_ext a) (to_ext b).
Proof.
  destruct (is_finite a) eqn:Fa, (is_finite b) eqn:Fb.
  - rewrite (to_ext_fin a Fa), (to_ext_fin b Fb). cbn [emul]. unfold eround.
    assert (K := Bmult_correct prec emax _ _ mode_NE a b).
    change (round radix2 _ _ _) with (rn (V a * V b)) in K.
    destruct (Rlt_bool_spec (Rabs (rn (V a * V b))) (bp 1024)) as [H|H].
    + rewrite Fa, Fb in K. rewrite to_ext_fin by apply K. f_equal. apply K.
    + rewrite (to_ext_sf (fmul a b) _ K).
      assert (N := rn_0_not_ovf _ H).
      assert (Na : V a <> 0) by (intros E; apply N; rewrite E; ring).
      assert (Nb : V b <> 0) by (intros E; apply N; rewrite E; ring).
      rewrite (Bsign_R a), (Bsign_R b) by easy.
      destruct (Rlt_bool_spec (V a) 0), (Rlt_bool_spec (V b) 0), (Rlt_bool_spec (V a * V b) 0); simpl; try reflexivity; exfalso; nra.
  - destruct b as [s'|[]| |s' m' e' h']; try easy; destruct a as [s|[]| |[] m e h]; try easy;
    cbn [to_ext emul]; rewrite ?esgnr_opp, ?esgnr_sign, ?esgnr_zero; reflexivity.
  - destruct a as [s'|[]| |s' m' e' h']; try easy; destruct b as [s|[]| |[] m e h]; try easy;
    cbn [to_ext emul]; rewrite ?esgnr_opp, ?esgnr_sign, ?esgnr_zero; reflexivity.
  - destruct a as [s'|[]| |s' m' e' h']; try easy; destruct b as [s|[]| |[] m e h]; easy.
Qed.

Lemma ext_abs a : to_ext (fabs a) = match to_ext a with ENinf => EPinf | EFin r => EFin (Rabs r) | e => e end.
Proof.
  destruct a as [s|[]| |s m e h]; try reflexivity.
  - cbn. now rewrite Rabs_R0.
  - change (EFin (V (fabs (B754_finite s m e h))) = EFin (Rabs (V (B754_finite s m e h)))). f_equal.
    now apply fabs_ok.
Qed.

Lemma ext_fma a b c : to_ext (fma a b c) = efma (to_ext a) (to_ext b) (to_ext c).
Proof.
  destruct (is_finite a) eqn:Fa, (is_finite b) eqn:Fb.
  2:{ destruct b as [s'|[]| |s' m' e' h']; try easy; destruct a as [s|[]| |[] m e h]; try easy;
      destruct c as [sc|[]| |[] mc ec hc]; cbn [to_ext efma emul];
      rewrite ?esgnr_opp, ?esgnr_sign, ?esgnr_zero; reflexivity. }
  2:{ destruct a as [s'|[]| |s' m' e' h']; try easy; destruct b as [s|[]| |[] m e h]; try easy;
      destruct c as [sc|[]| |[] mc ec hc]; cbn [to_ext efma emul];
      rewrite ?esgnr_opp, ?esgnr_sign, ?esgnr_zero; reflexivity. }
  2:{ destruct a as [s'|[]| |s' m' e' h']; try easy; destruct b as [s|[]| |[] m e h]; try easy;
      destruct c as [sc|[]| |[] mc ec hc]; cbn [to_ext efma emul]; reflexivity. }
  rewrite (to_ext_fin a Fa), (to_ext_fin b Fb).
  destruct (is_finite c) eqn:Fc.
  2:{ destruct c as [sc|[]| |[] mc ec hc]; try easy;
      destruct a as [s'|[]| |s' m' e' h']; try easy; destruct b as [s|[]| |[] m e h]; easy. }
  rewrite (to_ext_fin c Fc). cbn [efma]. unfold eround.
  assert (K := Bfma_correct prec emax _ _ mode_NE a b c Fa Fb Fc). cbv zeta in K.
  change (round radix2 _ _ _) with (rn (V a * V b + V c)) in K. change (B2R a * B2R b + B2R c) with (V a * V b + V c) in K.
  destruct (Rlt_bool_spec (Rabs (rn (V a * V b + V c))) (bp 1024)) as [H|H].
  - rewrite to_ext_fin by apply K. f_equal. apply K.
  -
    rewrite (to_ext_sf (fma a b c) _ K). reflexivity.
Qed.

(** ** symmetry of the ext operations *)
Lemma eround_opp r : eround (- r) = eopp (eround r).
Proof.
  unfold eround. rewrite rn_opp, Rabs_Ropp.
  destruct (Rlt_bool_spec (Rabs (rn r)) (bp 1024)) as [H|H]; [reflexivity|].
  assert (N := rn_0_not_ovf _ H).
  destruct (Rlt_bool_spec r 0); [rewrite Rlt_bool_false by lra|rewrite Rlt_bool_true by lra]; reflexivity.
Qed.
Lemma eopp_eopp a : eopp (eopp a) = a.
Proof. destruct a; try reflexivity. cbn. now rewrite Ropp_involutive. Qed.
Lemma esg_esg n m a : esg n (esg m a) = esg (xorb n m) a.
Proof. destruct n, m; cbn; auto using eopp_eopp. Qed.
Lemma esg_opp n a : esg n (eopp a) = eopp (esg n a).
Proof. now destruct n. Qed.
Lemma eadd_opp a b : eadd (eopp a) (eopp b) = eopp (eadd a b).
Proof. destruct a, b; try reflexivity. cbn. rewrite <- eround_opp. f_equal. ring. Qed.
Lemma eadd_comm a b : eadd a b = eadd b a.
Proof. destruct a, b; try reflexivity. cbn. f_equal. ring. Qed.
Lemma emul_oppl a b : emul (eopp a) b = eopp (emul a b).
Proof.
  destruct a, b; try reflexivity; cbn [emul eopp]; rewrite ?esgnr_opp, ?eopp_eopp; auto.
  rewrite <- eround_opp. f_equal. ring.
Qed.
Lemma emul_comm a b : emul a b = emul b a.
Proof. destruct a, b; try reflexivity. cbn. f_equal. ring. Qed.
Lemma emul_oppr a b : emul a (eopp b) = eopp (emul a b).
Proof. rewrite emul_comm, emul_oppl. now rewrite emul_comm. Qed.
Lemma efma_oppl a b c : efma (eopp a) b (eopp c) = eopp (efma a b c).
Proof.
  destruct a, b, c; try reflexivity; cbn [efma emul eopp]; rewrite ?esgnr_opp, ?eopp_eopp; auto;
  try (unfold esgnr; destruct (Rcompare _ _); reflexivity).
  - rewrite <- eround_opp. f_equal. ring.
Qed.
Lemma efma_comm a b c : efma a b c = efma b a c.
Proof.
  destruct a, b, c; try reflexivity. cbn. f_equal. ring.
Qed.

Lemma efma_opp2 a b c : efma (eopp a) (eopp b) c = efma a b c.
Proof.
  rewrite <- (eopp_eopp c) at 1. rewrite efma_oppl, efma_comm, efma_oppl, eopp_eopp. apply efma_comm.
Qed.

(** [Rel n a a']: a' has the value of a, negated when n *)
Definition Rel (n : bool) (a a' : f64) : Prop := to_ext a' = esg n (to_ext a).

Lemma Rel_refl a : Rel false a a. Proof. reflexivity. Qed.
Lemma Rel_neg_self a : Rel true a (fneg a). Proof. apply ext_neg. Qed.
Lemma Rel_add n a a' b b' : Rel n a a' -> Rel n b b' -> Rel n (fadd a b) (fadd a' b').
Proof. unfold Rel. intros Ha Hb. rewrite !ext_add, Ha, Hb. destruct n; cbn; auto using eadd_opp. Qed.
Lemma Rel_neg n a a' : Rel n a a' -> Rel n (fneg a) (fneg a').
Proof. unfold Rel. intros Ha. rewrite !ext_neg, Ha. now rewrite esg_opp. Qed.
Lemma Rel_sub n a a' b b' : Rel n a a' -> Rel n b b' -> Rel n (fsub a b) (fsub a' b').
Proof. unfold Rel. intros Ha Hb. rewrite !ext_sub, Ha, Hb. destruct n; cbn; auto using eadd_opp. Qed.
Lemma Rel_mul n m a a' b b' : Rel n a a' -> Rel m b b' -> Rel (xorb n m) (fmul a b) (fmul a' b').
Proof.
  unfold Rel. intros Ha Hb. rewrite !ext_mul, Ha, Hb.
  destruct n, m; cbn; rewrite ?emul_oppl, ?emul_oppr, ?eopp_eopp; auto.
Qed.
Lemma Rel_fma n m a a' b b' c c' : Rel n a a' -> Rel m b b' -> Rel (xorb n m) c c' ->
  Rel (xorb n m) (fma a b c) (fma a' b' c').
Proof.
  unfold Rel. intros Ha Hb Hc. rewrite !ext_fma, Ha, Hb, Hc.
  destruct n, m; cbn; auto.
  - apply efma_opp2.
  - apply efma_oppl.
  - rewrite efma_comm, efma_oppl. now rewrite efma_comm.
Qed.

(** ** division (nonzero divisor) *)
Definition ediv (a b : ext) : ext :=
  match a, b with
  | ENan, _ | _, ENan => ENan
  | ENinf, ENinf | EPinf, EPinf | ENinf, EPinf | EPinf, ENinf => ENan
  | EPinf, EFin r => esgnr r
  | ENinf, EFin r => esgnr (- r)
  | EFin _, (ENinf | EPinf) => EFin 0
  | EFin x, EFin y => eround (x / y)
  end.
Lemma ext_div a b : fne0 b = true -> to_ext (fdiv a b) = ediv (to_ext a) (to_ext b).
Proof.
  intros N.
  destruct (is_finite a) eqn:Fa, (is_finite b) eqn:Fb.
  - rewrite (to_ext_fin a Fa), (to_ext_fin b Fb). cbn [ediv]. unfold eround.
    assert (Nb : V b <> 0). { rewrite fne0_ok in N by easy. destruct (Req_bool_spec (V b) 0); easy. }
    assert (K := Bdiv_correct prec emax _ _ mode_NE a b Nb).
    change (round radix2 _ _ _) with (rn (V a / V b)) in K.
    destruct (Rlt_bool_spec (Rabs (rn (V a / V b))) (bp 1024)) as [H|H].
    + rewrite Fa in K. rewrite to_ext_fin by apply K. f_equal. apply K.
    + rewrite (to_ext_sf (fdiv a b) _ K).
      assert (N' := rn_0_not_ovf _ H).
      assert (Na : V a <> 0) by (intros E; apply N'; rewrite E; unfold Rdiv; ring).
      rewrite (Bsign_R a), (Bsign_R b) by easy.
      assert (P : V a / V b * (V b * V b) = V a * V b) by now field.
      assert (P2 : 0 < V b * V b) by nra.
      destruct (Rlt_bool_spec (V a) 0), (Rlt_bool_spec (V b) 0), (Rlt_bool_spec (V a / V b) 0); simpl; try reflexivity; exfalso; nra.
  - destruct b as [s'|[]| |s' m' e' h']; try easy; destruct a as [s|[]| |[] m e h]; easy.
  - destruct b as [s|[]| |[] m e h]; try (now destruct s); destruct a as [s'|[]| |s' m' e' h']; try easy;
    cbn [to_ext ediv]; rewrite ?esgnr_opp, ?esgnr_sign, ?esgnr_zero; reflexivity.
  - destruct a as [s'|[]| |s' m' e' h']; try easy; destruct b as [s|[]| |[] m e h]; easy.
Qed.
Lemma ediv_oppl a b : ediv (eopp a) b = eopp (ediv a b).
Proof.
  destruct a, b; try reflexivity; cbn [ediv eopp]; rewrite ?esgnr_opp, ?eopp_eopp, ?Ropp_0; auto.
  rewrite <- eround_opp. f_equal. unfold Rdiv. ring.
Qed.
Lemma ediv_oppr a b : ediv a (eopp b) = eopp (ediv a b).
Proof.
  destruct a, b; try reflexivity; cbn [ediv eopp]; rewrite ?esgnr_opp, ?eopp_eopp, ?Ropp_0; auto.
  rewrite <- eround_opp. f_equal. unfold Rdiv. rewrite Rinv_opp. ring.
Qed.
Lemma fne0_ext a : fne0 a = match to_ext a with EFin r => negb (Req_bool r 0) | _ => true end.
Proof.
  destruct (is_finite a) eqn:F; [rewrite fne0_ok, to_ext_fin by easy; reflexivity|].
  destruct a as [s|[]| |s m e h]; easy.
Qed.
Lemma Rel_ne0 n a a' : Rel n a a' -> fne0 a' = fne0 a.
Proof.
  unfold Rel. intros H. rewrite !fne0_ext, H. destruct n, (to_ext a); try reflexivity. cbn.
  f_equal. destruct (Req_bool_spec (- r) 0), (Req_bool_spec r 0); auto; lra.
Qed.
Lemma Rel_div n m a a' b b' : fne0 b = true -> Rel n a a' -> Rel m b b' -> Rel (xorb n m) (fdiv a b) (fdiv a' b').
Proof.
  intros N Ha Hb. assert (N' := Rel_ne0 _ _ _ Hb). rewrite N in N'.
  unfold Rel in *. rewrite !ext_div, Ha, Hb by easy.
  destruct n, m; cbn; rewrite ?ediv_oppl, ?ediv_oppr, ?eopp_eopp; auto.
Qed.
Lemma Rel_0 n : Rel n f0 f0.
Proof. unfold Rel. destruct n; cbn; auto. now rewrite Ropp_0. Qed.
Lemma Rel_abs n a a' : Rel n a a' -> to_ext (fabs a') = to_ext (fabs a).
Proof. unfold Rel. rewrite !ext_abs. intros ->. destruct n, (to_ext a); try reflexivity. cbn. now rewrite Rabs_Ropp. Qed.
Lemma fltb_ext a b : fltb a b = match ecmp (to_ext a) (to_ext b) with Some Lt => true | _ => false end.
Proof. rewrite <- fcmp_ext. reflexivity. Qed.
Lemma feqb_ext a b : feqb a b = match ecmp (to_ext a) (to_ext b) with Some Eq => true | _ => false end.
Proof. rewrite <- fcmp_ext. reflexivity. Qed.
Lemma fleb_ext a b : fleb a b = match ecmp (to_ext a) (to_ext b) with Some (Lt | Eq) => true | _ => false end.
Proof. rewrite <- fcmp_ext. reflexivity. Qed.
Lemma Rel_abs_gt n a a' b b' : Rel n a a' -> Rel n b b' -> abs_gt a' b' = abs_gt a b.
Proof. intros Ha Hb. unfold abs_gt, fgtb. change Bltb with fltb. rewrite !fltb_ext. now rewrite (Rel_abs _ _ _ Ha), (Rel_abs _ _ _ Hb). Qed.
Lemma ext_nan a : fis_nan a = match to_ext a with ENan => true | _ => false end.
Proof. now destruct a as [|[]| |]. Qed.
Lemma ext_inf a : fis_infinite a = match to_ext a with ENinf | EPinf => true | _ => false end.
Proof. now destruct a as [|[]| |]. Qed.
Lemma Rel_nan n a a' : Rel n a a' -> fis_nan a' = fis_nan a.
Proof. unfold Rel. rewrite !ext_nan. intros ->. now destruct n, (to_ext a). Qed.
Lemma Rel_inf n a a' : Rel n a a' -> fis_infinite a' = fis_infinite a.
Proof. unfold Rel. rewrite !ext_inf. intros ->. now destruct n, (to_ext a). Qed.

(** pairs *)
Definition Rel2 n (p p' : f64 * f64) := Rel n (fst p) (fst p') /\ Rel n (snd p) (snd p').

Ltac rel := repeat first [ eassumption | apply Rel_add | apply Rel_sub | apply Rel_neg ].
Lemma Rel_two_sum n a a' b b' : Rel n a a' -> Rel n b b' -> Rel2 n (two_sum a b) (two_sum a' b').
Proof. intros. split; cbn [two_sum fst snd]; rel. Qed.
Lemma Rel_two_diff n a a' b b' : Rel n a a' -> Rel n b b' -> Rel2 n (two_diff a b) (two_diff a' b').
Proof. intros. split; cbn [two_diff fst snd]; rel. Qed.
Lemma Rel_quick n a a' b b' : Rel n a a' -> Rel n b b' -> Rel2 n (quick_two_sum a b) (quick_two_sum a' b').
Proof. intros. split; cbn [quick_two_sum fst snd]; rel. Qed.
Lemma Rel_two_prod n m a a' b b' : Rel n a a' -> Rel m b b' -> Rel2 (xorb n m) (two_prod a b) (two_prod a' b').
Proof.
  intros. split; cbn [two_prod fst snd].
  - now apply Rel_mul.
  - apply Rel_fma; auto. apply Rel_neg. now apply Rel_mul.
Qed.
Definition DRel n (x x' : Double) := Rel n (d0 x) (d0 x') /\ Rel n (d1 x) (d1 x').
Definition QRel n (x x' : Quad) := Rel n (q0 x) (q0 x') /\ Rel n (q1 x) (q1 x') /\ Rel n (q2 x) (q2 x') /\ Rel n (q3 x) (q3 x').
Lemma DRel_neg x : DRel true x (d_neg x).
Proof. split; apply ext_neg. Qed.
Lemma QRel_neg x : QRel true x (q_neg x).
Proof. repeat split; apply ext_neg. Qed.
Lemma DRel_refl x : DRel false x x. Proof. now split. Qed.
Lemma QRel_refl x : QRel false x x. Proof. repeat split. Qed.
