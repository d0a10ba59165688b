(** * Quad addition: a class of values closed under addition

    As long as the two operands do not almost cancel, the components of a
    computed sum again fall off by about 52 bits each, so sums can be chained. *)
From Coq Require Import ZArith Reals List Bool Lia Lra.
From Flocq Require Import Core IEEE754.BinarySingleNaN.
From Verif Require Import F64 F64Facts Prim DoubleM QuadM RN Spec EFT SpecialProofs QuadSpec QAddAcc QAddThms QFallAcc.
Import ListNotations.
Local Open Scope R_scope.

Definition geo4 (t : f64 * f64 * f64 * f64) : Prop := let '(a, b, c, d) := t in
  Rabs (V b) <= 2 * u * Rabs (V a) /\ Rabs (V c) <= 8 * u * u * Rabs (V a) /\
  Rabs (V d) <= 48 * u * u * u * Rabs (V a) /\ Rabs (V c) <= 32 * Rabs (V b) + 16 * u * u * u * Rabs (V a).

(** a nonzero second output means that the inputs did not cancel *)
Lemma quick_nz a b s e : Fin a -> Fin b -> Rabs (V a) <= M18 -> Rabs (V b) <= M18 ->
  quick_two_sum a b = (s, e) -> V e <> 0 ->
  Rabs (V a) <= (2 + / 1024) * Rabs (V s) /\ Rabs (V b) <= (2 + / 1024) * Rabs (V s).
Proof.
  intros Fa Fb Ha Hb E Ne.
  assert (Fa' : fmt (V a)) by auto with fmt. assert (Fb' : fmt (V b)) by auto with fmt.
  destruct (fadd_b a b Fa Fb Ha Hb) as [_ K].
  change (fadd a b) with (fst (quick_two_sum a b)) in K. rewrite E in K. cbn [fst] in K.
  assert (T : Rabs (V a + V b) <= Rabs (V s) + Rabs (V s - (V a + V b))).
  { replace (V a + V b) with (V s + - (V s - (V a + V b))) at 1 by ring.
    eapply Rle_trans; [apply Rabs_triang|]. rewrite Rabs_Ropp. lra. }
  assert (Pa := Rabs_pos (V a)). assert (Pb := Rabs_pos (V b)).
  assert (NS : ~ fmt (V a + V b)).
  { intros FS. apply Ne.
    destruct (quick_ok_gen a b) as (F1 & F2 & E1 & E2); [split; assumption..| |].
    { rewrite (rn_id (V a + V b) FS). replace (V a + V b - V a) with (V b) by ring.
      rewrite (rn_id (V b)) by exact Fb'. replace (V b - V b) with 0 by ring. rewrite rn_0. ring. }
    rewrite E in E1, E2. cbn [fst snd] in *. rewrite E2, (rn_id (V a + V b) FS). ring. }
  assert (M : forall x y, fmt x -> fmt y -> ~ fmt (x + y) -> / 2 * Rabs x <= Rabs (x + y)).
  { intros x y Fx Fy N. destruct (Rle_lt_dec (/ 2 * Rabs x) (Rabs (x + y))) as [L|L]; [exact L|]. exfalso. apply N.
    destruct (Rle_dec 0 x) as [B|B].
    - rewrite (Rabs_pos_eq x) in L by lra. apply Rabs_def2 in L.
      replace (x + y) with (- (- y - x)) by ring. apply fmt_opp. apply sterbenz_R; [now apply fmt_opp|exact Fx|]. lra.
    - rewrite (Rabs_left x) in L by lra. apply Rabs_def2 in L.
      replace (x + y) with (y - - x) by ring. apply sterbenz_R; [exact Fy|now apply fmt_opp|]. lra. }
  assert (M1 := M (V a) (V b) Fa' Fb' NS).
  rewrite (Rplus_comm (V a)) in NS. assert (M2 := M (V b) (V a) Fb' Fa' NS). rewrite (Rplus_comm (V b)) in M2. lra.
Qed.

(** the error of an ordered sum of doubles is zero or at least the last place of the smaller one *)
Lemma err_grid a b : fmt a -> fmt b -> Rabs b <= Rabs a -> a + b - rn (a + b) <> 0 -> u * Rabs b <= Rabs (a + b - rn (a + b)).
Proof.
  intros Fa Fb H N.
  destruct (Req_dec b 0) as [->|Nb]; [rewrite Rabs_R0, Rmult_0_r; apply Rabs_pos|].
  assert (Na : a <> 0). { intros ->. rewrite Rabs_R0 in H. apply Nb. assert (K := Rabs_pos b). destruct (Req_dec b 0) as [|X]; auto. assert (K2 := Rabs_pos_lt _ X). lra. }
  set (c := cexp radix2 fexp64 b).
  assert (Mb : mult2 c b) by now apply mult2_cexp.
  assert (Ma : mult2 c a).
  { apply mult2_le with (2 := mult2_cexp _ Fa). unfold c. rewrite !cexp64.
    assert (L : (mag radix2 b <= mag radix2 a)%Z) by (apply mag_le_abs; assumption). lia. }
  assert (Ms : mult2 c (a + b)) by now apply mult2_plus.
  assert (Hc : (-1074 <= c)%Z) by (unfold c; rewrite cexp64; lia).
  assert (Mr : mult2 c (rn (a + b))) by (apply mult2_rn; assumption).
  destruct (mult2_minus _ _ _ Ms Mr) as [n En]. rewrite En in *.
  assert (Hn : (n <> 0)%Z) by (intros ->; apply N; ring).
  rewrite Rabs_mult, (Rabs_pos_eq (bp c)) by apply bpow_ge_0. rewrite <- abs_IZR.
  apply Rle_trans with (bp c).
  - apply Rle_trans with (u * bp (mag radix2 b)).
    + apply Rmult_le_compat_l; [lra|]. apply Rlt_le, bpow_mag_gt.
    + change u with (bp (-53)). rewrite <- bpow_plus. apply bpow_le. unfold c. rewrite cexp64. lia.
  - rewrite <- (Rmult_1_l (bp c)) at 1. apply Rmult_le_compat_r; [apply bpow_ge_0|]. apply IZR_le. lia.
Qed.

Lemma fne0_nV a : Fin a -> fne0 a = true -> V a <> 0.
Proof.
  intros F. unfold fne0. rewrite negb_true_iff. intros H E.
  rewrite (feqb_refl_V a f0) in H; [discriminate|exact F|apply Fin_0|]. now rewrite V_0.
Qed.

Lemma renorm4_geo M0 M1 M2 M3 a b c d : Scales M0 M1 M2 M3 ->
  Fin a -> Fin b -> Fin c -> Fin d ->
  Rabs (V a) <= 16 * M0 -> Rabs (V b) <= 64 * M1 -> Rabs (V c) <= 128 * M2 -> Rabs (V d) <= 64 * M2 ->
  1048576 * M1 <= Rabs (V a) -> 2048 * M2 <= u * Rabs (V a) -> 2048 * M3 <= u * u * Rabs (V a) ->
  geo4 (renorm4 a b c d).
Proof.
  intros (P0 & P1 & P2 & P3 & P4 & P5 & P6 & P7) Fa Fb Fc Fd Ha Hb Hc Hd L1 L2 L3.
  assert (G := big18). unfold renorm4.
  destruct (qs c d (128 * M2) (64 * M2)) as (s1 & e1 & E1 & Fs1 & Fe1 & H11 & H12 & H13); [assumption|assumption|lra|lra|lra|lra|]. rewrite E1.
  assert (X1 := quick_rel c d s1 e1 Fc Fd ltac:(lra) ltac:(lra) E1).
  destruct (qs b s1 (64 * M1) (193 * M2)) as (s2 & e2 & E2 & Fs2 & Fe2 & H21 & H22 & H23); [assumption|assumption|lra|lra|lra|lra|]. rewrite E2.
  assert (X2 := quick_rel b s1 s2 e2 Fb Fs1 ltac:(lra) ltac:(lra) E2).
  assert (N2 := quick_nz b s1 s2 e2 Fb Fs1 ltac:(lra) ltac:(lra) E2).
  destruct (qs_ord a s2 (16 * M0) (65 * M1)) as (s3 & e3 & E3 & Fs3 & Fe3 & H31 & H32 & H33); [assumption|assumption|lra|lra|lra|lra|lra|]. rewrite E3.
  assert (O3 : Rabs (V s2) <= Rabs (V a)) by lra.
  destruct (quick_b a s2) as (s3' & e3' & E3' & _ & _ & _ & _ & X3 & _); [assumption|assumption|lra|lra|now left|].
  rewrite E3 in E3'. injection E3' as <- <-.
  destruct (quick_ok a s2) as (_ & _ & V3 & V4); [split; auto; lra..|now left|]. rewrite E3 in V3, V4. cbn [fst snd] in V3, V4.
  assert (GR := err_grid (V a) (V s2) ltac:(auto with fmt) ltac:(auto with fmt) O3).
  rewrite <- V4 in GR.
  (* the leading part does not shrink much *)
  assert (BS3 : (1 - / 1024) * Rabs (V a) <= Rabs (V s3)).
  { assert (T : Rabs (V a) <= Rabs (V s3) + Rabs (V e3) + Rabs (V s2)).
    { replace (V a) with (V s3 + V e3 + - V s2) by lra. eapply Rle_trans; [apply Rabs_triang|]. rewrite Rabs_Ropp.
      apply Rplus_le_compat_r. apply Rabs_triang. }
    lra. }
  assert (PA := Rabs_pos (V s3)). assert (PE1 := Rabs_pos (V e1)). assert (PE2 := Rabs_pos (V e2)).
  assert (Q1 : Rabs (V e1) <= / 4 * u * u * Rabs (V s3)) by lra.
  assert (Q2 : Rabs (V e2) <= / 2048 * u * Rabs (V s3)) by lra.
  destruct (fne0 e3) eqn:Z1.
  - apply fne0_nV in Z1; [|assumption]. specialize (GR Z1).
    destruct (qs_lo e3 e2 (u * Rabs (V s3)) (/ 2048 * u * Rabs (V s3))) as (s4 & e4 & E4 & Fs4 & Fe4 & H41 & (H42 & H43 & H44) & H45); [assumption|assumption|lra|lra|lra|lra|]. rewrite E4.
    assert (N4 := quick_nz e3 e2 s4 e4 Fe3 Fe2 ltac:(lra) ltac:(lra) E4).
    assert (PS4 := Rabs_pos (V s4)).
    destruct (fne0 e4) eqn:Z2.
    + apply fne0_nV in Z2; [|assumption]. destruct (N4 Z2) as [N4a N4b].
      assert (NZ2 : V e2 <> 0).
      { intros Z. apply Z2. destruct (quick_ok e3 e2) as (_ & _ & _ & W); [split; auto; lra..|left; rewrite Z, Rabs_R0; apply Rabs_pos|].
        rewrite E4 in W. cbn [snd] in W. rewrite W, Z, Rplus_0_r, rn_id by auto with fmt. ring. }
      destruct (N2 NZ2) as [_ N2b].
      destruct (qs_lo e4 e1 (6 * u * Rabs (V s4)) (26 * Rabs (V s4))) as (s5 & e5 & E5 & Fs5 & Fe5 & H51 & (H52 & H53 & H54) & H55); [assumption|assumption|lra|lra|lra|lra|]. rewrite E5.
      cbn [geo4]. lra.
    + apply fne0_V in Z2; [|assumption].
      destruct (qs_lo s4 e1 ((1 + / 1024) * u * Rabs (V s3)) (/ 4 * u * u * Rabs (V s3))) as (s5 & e5 & E5 & Fs5 & Fe5 & H51 & (H52 & H53 & H54) & H55); [assumption|assumption|lra|lra|lra|lra|]. rewrite E5.
      cbn [geo4]. rewrite V_0, Rabs_R0. assert (P55 := Rabs_pos (V e5)). lra.
  - apply fne0_V in Z1; [|assumption].
    destruct (qs_lo s3 e2 (17 * M0) (/ 2048 * u * Rabs (V s3))) as (s4 & e4 & E4 & Fs4 & Fe4 & H41 & (H42 & H43 & H44) & H45); [assumption|assumption|lra|lra|lra|lra|]. rewrite E4.
    assert (BS4 : (1 - / 512) * Rabs (V s3) <= Rabs (V s4)) by lra.
    destruct (quick_b s3 e2) as (s4' & e4' & E4' & _ & _ & _ & _ & X4 & _); [assumption|assumption|lra|lra|left; lra|].
    rewrite E4 in E4'. injection E4' as <- <-.
    destruct (fne0 e4) eqn:Z2.
    + destruct (qs_lo e4 e1 (u * Rabs (V s4)) (/ 2 * u * u * Rabs (V s4))) as (s5 & e5 & E5 & Fs5 & Fe5 & H51 & (H52 & H53 & H54) & H55); [assumption|assumption|lra|lra|lra|lra|]. rewrite E5.
      cbn [geo4]. rewrite V_0, Rabs_R0. assert (P55 := Rabs_pos (V e5)). assert (P56 := Rabs_pos (V s5)). lra.
    + destruct (qs_lo s4 e1 (18 * M0) (/ 2 * u * u * Rabs (V s4))) as (s5 & e5 & E5 & Fs5 & Fe5 & H51 & (H52 & H53 & H54) & H55); [assumption|assumption|lra|lra|lra|lra|]. rewrite E5.
      destruct (quick_b s4 e1) as (s5' & e5' & E5' & _ & _ & _ & _ & X5 & _); [assumption|assumption|lra|lra|left; lra|].
      rewrite E5 in E5'. injection E5' as <- <-.
      cbn [geo4]. rewrite !V_0, !Rabs_R0. assert (P55 := Rabs_pos (V e5)). assert (P56 := Rabs_pos (V s5)). lra.
Qed.

Lemma geo_bounds W M0 M1 M2 M3 x0 x1 x2 x3 y0 y1 y2 y3 :
  Fin x0 -> Fin x1 -> Fin x2 -> Fin x3 -> Fin y0 -> Fin y1 -> Fin y2 -> Fin y3 ->
  0 <= W -> M1 <= M0 -> M2 <= M1 -> M3 <= M2 ->
  Rabs (V x0) <= M0 -> Rabs (V x1) <= M1 -> Rabs (V x2) <= M2 -> 32 * Rabs (V x3) + W <= M3 ->
  Rabs (V y0) <= M0 -> Rabs (V y1) <= M1 -> Rabs (V y2) <= M2 -> 32 * Rabs (V y3) + W <= M3 ->
  Rabs (V x1) <= Rabs (V x0) -> Rabs (V x2) <= 32 * Rabs (V x1) + W -> Rabs (V x3) <= Rabs (V x0) -> Rabs (V x2) <= Rabs (V x0) ->
  Rabs (V y1) <= Rabs (V y0) -> Rabs (V y2) <= 32 * Rabs (V y1) + W -> Rabs (V y3) <= Rabs (V y0) -> Rabs (V y2) <= Rabs (V y0) ->
  exists t0 t1 t2 t3 t4 t5 t6 t7,
    mrg [x0; x1; x2; x3] [y0; y1; y2; y3] = [t0; t1; t2; t3; t4; t5; t6; t7] /\
    (Fin t0 /\ Fin t1 /\ Fin t2 /\ Fin t3 /\ Fin t4 /\ Fin t5 /\ Fin t6 /\ Fin t7) /\
    Rabs (V t1) <= Rabs (V t0) /\ Rabs (V t0) <= M0 /\
    Rabs (V t2) <= M1 /\ Rabs (V t3) <= M1 /\ Rabs (V t4) <= M2 /\ Rabs (V t5) <= M2 /\
    Rabs (V t6) <= M3 /\ Rabs (V t7) <= M3.
Proof.
  intros. cbn [mrg]. assert (P := Rabs_pos (V x3)). assert (P' := Rabs_pos (V y3)).
  repeat match goal with
  | |- context [if abs_gt ?a ?b then _ else _] =>
      let G := fresh "G" in
      assert (G := abs_gt_V a b ltac:(assumption) ltac:(assumption)); destruct (abs_gt a b)
  end;
  (do 8 eexists; split; [reflexivity|]; split; [auto 20|]; lra).
Qed.

Lemma QGeo_dec x : QDec 53 x -> QGeo x.
Proof.
  intros (F & H1 & H2 & H3). change (bp (- (53))) with u in *.
  assert (P0 := Rabs_pos (V (q0 x))). assert (P1 := Rabs_pos (V (q1 x))). assert (P2 := Rabs_pos (V (q2 x))).
  unfold QGeo. change (bpow radix2 (-53)) with u. split; [exact F|]. lra.
Qed.

(** [QGeo] with a little more room in the last inequality: what is left of it after a
    scaling whose low components round *)
Definition QGeoS (x : Quad) : Prop :=
  QFin x /\
  Rabs (V (q1 x)) <= 2 * u * Rabs (V (q0 x)) /\
  Rabs (V (q2 x)) <= 8 * u * u * Rabs (V (q0 x)) /\
  Rabs (V (q3 x)) <= 48 * u * u * u * Rabs (V (q0 x)) /\
  Rabs (V (q2 x)) <= 32 * Rabs (V (q1 x)) + 17 * u * u * u * Rabs (V (q0 x)).
Lemma QGeoS_of x : QGeo x -> QGeoS x.
Proof.
  intros (F & H1 & H2 & H3 & H4). change (bpow radix2 (-53)) with u in *. assert (P0 := Rabs_pos (V (q0 x))).
  split; [exact F|]. lra.
Qed.

Lemma QGeoS_hi x : QGeoS x -> Rabs (V (q0 x)) <= (1 + / 524288) * Rabs (QV x).
Proof.
  intros (F & H1 & H2 & H3 & H4).
  assert (Q0 := Rabs_pos (V (q0 x))). assert (Q1 := Rabs_pos (V (q1 x))). assert (Q2 := Rabs_pos (V (q2 x))).
  assert (T : Rabs (V (q0 x)) <= Rabs (QV x) + Rabs (V (q1 x)) + Rabs (V (q2 x)) + Rabs (V (q3 x))).
  { replace (V (q0 x)) with (QV x + - V (q1 x) + - V (q2 x) + - V (q3 x)) by (unfold QV; ring).
    eapply Rle_trans; [apply Rabs_triang|]. rewrite Rabs_Ropp. apply Rplus_le_compat_r.
    eapply Rle_trans; [apply Rabs_triang|]. rewrite Rabs_Ropp. apply Rplus_le_compat_r.
    eapply Rle_trans; [apply Rabs_triang|]. rewrite Rabs_Ropp. lra. }
  lra.
Qed.

Lemma QGeo_hi x : QGeo x -> Rabs (V (q0 x)) <= (1 + / 524288) * Rabs (QV x).
Proof. intros H. apply QGeoS_hi, QGeoS_of, H. Qed.

Lemma q_add_geoS x y : QGeoS x -> QGeoS y -> Rabs (QV x) <= bp 999 -> Rabs (QV y) <= bp 999 ->
  bp (-30) * (Rabs (QV x) + Rabs (QV y)) <= Rabs (QV x + QV y) ->
  QGeo (q_add x y) /\ Rabs (QV (q_add x y) - (QV x + QV y)) <= bp (-137) * (Rabs (QV x) + Rabs (QV y)).
Proof.
  intros Gx Gy Bx By HC.
  assert (Ix := QGeoS_hi x Gx). assert (Iy := QGeoS_hi y Gy).
  rewrite q_add_fin by (apply Gx || apply Gy).
  set (A := Rabs (QV x) + Rabs (QV y)) in *.
  set (M0 := Rmax (Rabs (V (q0 x))) (Rabs (V (q0 y)))).
  assert (Mx : Rabs (V (q0 x)) <= M0) by apply Rmax_l. assert (My : Rabs (V (q0 y)) <= M0) by apply Rmax_r.
  assert (PA := Rabs_pos (QV x)). assert (PB := Rabs_pos (QV y)). assert (PC := Rabs_pos (V (q0 x))).
  assert (MA : M0 <= (1 + / 524288) * A) by (unfold M0, A; apply Rmax_lub; lra).
  assert (MB : M0 <= bp 1000).
  { assert (B1000 : 2 * bp 999 = bp 1000) by (change 2 with (bp 1); rewrite <- bpow_plus; reflexivity).
    assert (0 < bp 999) by apply bpow_gt_0. apply Rmax_lub; lra. }
  assert (PM : 0 <= M0) by lra.
  change (bp (-30)) with (/ 1073741824) in HC.
  clearbody M0.
  assert (HS : Scales M0 (2 * u * M0) (8 * u * u * M0) (1600 * u * u * u * M0)).
  { unfold Scales. repeat split; lra. }
  destruct (q_add_core_shape _ _ _ _ x y HS) as (a & b & c & d & E & [G0 O0] & [G1 O1] & [G2 O2] & [G3 O3] & D).
  { destruct x as [x0 x1 x2 x3], y as [y0 y1 y2 y3]. unfold QGeoS, QFin in Gx, Gy. cbn [q0 q1 q2 q3] in *.
    destruct Gx as ((? & ? & ? & ?) & ? & ? & ? & ?), Gy as ((? & ? & ? & ?) & ? & ? & ? & ?).
    assert (Rabs (V x0) <= M0) by assumption. 
    assert (P2 := Rabs_pos (V x2)). assert (P2' := Rabs_pos (V y2)). assert (P0' := Rabs_pos (V y0)).
    apply (geo_bounds (17 * u * u * u * M0)); cbn [q0 q1 q2 q3]; first [assumption|lra]. }
  rewrite E. destruct (renorm4_any _ _ _ _ a b c d HS) as (R1 & R2 & R3); [assumption..|].
  destruct (QV_mkQ4 (renorm4 a b c d)) as [Q1 Q2].
  assert (K : / 2147483648 * M0 <= Rabs (V a)).
  { assert (K3 : Rabs (QV x + QV y) <= Rabs (V a) + 66 * (2 * u * M0)).
    { replace (QV x + QV y) with (V a + ((QV x + QV y) - V a)) by ring.
      eapply Rle_trans; [apply Rabs_triang|]. apply Rplus_le_compat_l.
      apply abs_le in O1, O2, O3, D. apply Rabs_le. lra. }
    lra. }
  assert (GG := renorm4_geo _ _ _ _ a b c d HS G0 G1 G2 G3 O0 O1 O2 O3 ltac:(lra) ltac:(lra) ltac:(lra)).
  apply Q2 in R1. specialize (R3 ltac:(lra)). split.
  - destruct (renorm4 a b c d) as [[[w0 w1] w2] w3]. cbn [geo4 mkQ4] in *. split; [exact R1|]. exact GG.
  - rewrite Q1. change (bp (-137)) with (/ 174224571863520493293247799005065324265472).
    apply abs_le in R3, D. apply Rabs_le. lra.
Qed.
Lemma q_add_geo x y : QGeo x -> QGeo y -> Rabs (QV x) <= bp 999 -> Rabs (QV y) <= bp 999 ->
  bp (-30) * (Rabs (QV x) + Rabs (QV y)) <= Rabs (QV x + QV y) ->
  QGeo (q_add x y) /\ Rabs (QV (q_add x y) - (QV x + QV y)) <= bp (-137) * (Rabs (QV x) + Rabs (QV y)).
Proof. intros Hx Hy. apply q_add_geoS; now apply QGeoS_of. Qed.
