(** * Quad multiplication: what the result looks like, so that results can be multiplied again *)
From Coq Require Import ZArith Reals List Bool Lia Lra.
From Flocq Require Import Core IEEE754.BinarySingleNaN.
From Verif Require Import F64 F64Facts Prim DoubleM QuadM RN Spec EFT SpecialProofs QuadSpec QAddAcc QAddThms QMulAcc QMulThms QMulFine.
Local Open Scope R_scope.

(** whatever the order of its arguments, the second result of [quick_two_sum]
    is negligible against the first *)
Lemma quick_rel a b s e : Fin a -> Fin b -> Rabs (V a) <= M18 -> Rabs (V b) <= M18 ->
  quick_two_sum a b = (s, e) -> Rabs (V e) <= 6 * u * Rabs (V s).
Proof.
  intros Fa Fb Ha Hb E.
  assert (Ps := Rabs_pos (V s)).
  destruct (Rle_dec (Rabs (V b)) (Rabs (V a))) as [H|H].
  { destruct (quick_b a b Fa Fb Ha Hb (or_introl H)) as (s' & e' & E' & _ & _ & _ & _ & K & _).
    rewrite E in E'. injection E' as <- <-. lra. }
  destruct (Rle_lt_dec (/ 2 * Rabs (V b)) (Rabs (V a + V b))) as [L|L].
  - destruct (quick_any a b Fa Fb Ha Hb) as (s' & e' & E' & F1 & F2 & H1 & H2 & H3).
    rewrite E in E'. injection E' as <- <-.
    destruct (fadd_b a b Fa Fb Ha Hb) as [_ K].
    change (fadd a b) with (fst (quick_two_sum a b)) in K. rewrite E in K. cbn [fst] in K.
    assert (T : Rabs (V a + V b) <= Rabs (V s) + Rabs (V s - (V a + V b))).
    { replace (V a + V b) with (V s + - (V s - (V a + V b))) at 1 by ring.
      eapply Rle_trans; [apply Rabs_triang|]. rewrite Rabs_Ropp. lra. }
    lra.
  - assert (FS : fmt (V a + V b)).
    { assert (Fa' : fmt (V a)) by auto with fmt. assert (Fb' : fmt (V b)) by auto with fmt.
      destruct (Rle_dec 0 (V b)) as [B|B].
      - replace (V a + V b) with (V b - - V a) by ring. apply sterbenz_R; [exact Fb'|now apply fmt_opp|].
        rewrite (Rabs_pos_eq (V b)) in * by lra. apply Rabs_def2 in L.
        assert (- V b <= V a) by (assert (K := Rle_abs (- V a)); rewrite Rabs_Ropp in K; lra). lra.
      - replace (V a + V b) with (V a - - V b) by ring. apply sterbenz_R; [exact Fa'|now apply fmt_opp|].
        rewrite (Rabs_left (V b)) in * by lra. apply Rabs_def2 in L.
        assert (V a <= - V b) by (assert (K := Rle_abs (V a)); lra). lra. }
    destruct (quick_ok_gen a b) as (F1 & F2 & E1 & E2); [split; assumption..| |].
    { rewrite (rn_id (V a + V b) FS). replace (V a + V b - V a) with (V b) by ring.
      rewrite (rn_id (V b)) by auto with fmt. replace (V b - V b) with 0 by ring. rewrite rn_0. ring. }
    rewrite E in E1, E2. cbn [fst snd] in *. rewrite E2, (rn_id (V a + V b) FS).
    replace (V a + V b - (V a + V b)) with 0 by ring. rewrite Rabs_R0. lra.
Qed.

(** ** fall-off of a renormalised result *)
Definition fall4 (t : f64 * f64 * f64 * f64) : Prop := let '(a, b, c, d) := t in
  Rabs (V b) <= 2 * u * Rabs (V a) /\ Rabs (V c) <= 4 * u * u * Rabs (V a) /\ Rabs (V d) <= 8 * u * u * u * Rabs (V a) /\
  Rabs (V c) <= 8 * u * Rabs (V b) + 8 * u * u * u * Rabs (V a).

Lemma qs_lo a b A B : Fin a -> Fin b -> Rabs (V a) <= A -> Rabs (V b) <= B -> A <= M18 -> B <= M18 ->
  exists s e, quick_two_sum a b = (s, e) /\ Fin s /\ Fin e /\
    Rabs (V a) <= Rabs (V s) + u * A + (1 + 5 * u) * B /\
    (Rabs (V e) <= u * A + 3 * u * B /\ Rabs (V s) <= (1 + u) * (A + B) /\ Rabs (V s) <= (1 + u) * (Rabs (V a) + Rabs (V b))) /\
    Rabs (V e) <= 6 * u * Rabs (V s).
Proof.
  intros Fa Fb Ha Hb HA HB.
  destruct (qs a b A B Fa Fb Ha Hb HA HB) as (s & e & E & F1 & F2 & H1 & H2 & H3).
  exists s, e. split; [exact E|]. split; [exact F1|]. split; [exact F2|]. split; [|split; [split; [assumption|split; [assumption|]]|]].
  - replace (V a) with (V s + V e + - V b + - (V s + V e - (V a + V b))) by ring.
    eapply Rle_trans; [apply Rabs_triang|]. rewrite Rabs_Ropp.
    assert (T1 := Rabs_triang (V s + V e) (- V b)). rewrite Rabs_Ropp in T1. assert (T2 := Rabs_triang (V s) (V e)). lra.
  - destruct (quick_any a b) as (s' & e' & E' & _ & _ & _ & _ & K); [assumption|assumption|lra|lra|].
    rewrite E in E'. injection E' as <- <-. assert (T := Rabs_triang (V a) (V b)). lra.
  - apply (quick_rel a b); auto; lra.
Qed.

Ltac sc5 := cbn [fall4]; rewrite ?V_0, ?Rabs_R0; repeat (split; [lra|]); lra.

(** a sum of two multiples of 2^c that is not a double is at least 2^(c+53) *)
Lemma inexact_big c x y : (-1074 <= c)%Z -> mult2 c x -> mult2 c y -> rn (x + y) <> x + y -> bp (c + 53) <= Rabs (rn (x + y)).
Proof.
  intros Hc Mx My N. destruct (Rle_lt_dec (bp (c + 53)) (Rabs (x + y))) as [H|H].
  - apply rn_abs_ge; [apply fmt_bpow; lia|exact H].
  - exfalso. apply N. apply rn_id. destruct (mult2_plus _ _ _ Mx My) as [n En]. rewrite En in *.
    apply (fmt_mult2 c); [exact Hc|now exists n|lra].
Qed.

Lemma crit k a b s2 s3 e3 s4 e4 s5 e5 : Fin a -> Fin b -> Fin s2 ->
  Rabs (V a) <= bp 1010 -> Rabs (V b) <= bp 1010 -> Rabs (V s2) <= bp 1010 ->
  (-1074 <= k)%Z -> mult2 k (V b) -> Rabs (V s2) <= bp (k + 52) ->
  quick_two_sum b s2 = (s3, e3) -> quick_two_sum a s3 = (s4, e4) -> quick_two_sum e4 e3 = (s5, e5) ->
  Rabs (V s3) <= Rabs (V a) -> Rabs (V s2) <= Rabs (V a) -> V e5 <> 0 ->
  Rabs (V s2) <= Rabs (V s5) /\ Rabs (V e5) <= u * Rabs (V s5).
Proof.
  intros Fa Fb Fs2 Ba Bb Bs2 Hk Mb Hs2 E3 E4 E5 O3 O2 N5.
  assert (G18 : 256 * bp 1010 = M18) by (change 256 with (bp 8); rewrite <- bpow_plus; reflexivity).
  assert (P10 := bpow_gt_0 radix2 1010).
    destruct (quick_grid k b s2 (bp 1010) (bp 1010)) as (s3' & e3' & E3' & F1 & F2 & H31 & H32 & H33 & H34); [assumption|assumption|lra|lra|lra|lra|assumption..|].
  rewrite E3 in E3'. injection E3' as <- <-.
  destruct (quick_ok a s3) as (F3 & F4 & H41 & H42); [split; [assumption|lra]|split; [assumption|lra]|now left|].
  rewrite E4 in *. cbn [fst snd] in *.
  assert (B4 : Rabs (V e4) <= M18).
  { destruct (plus_ex (V a) (V s3)) as [K _]; auto with fmt. rewrite H42, <- Rabs_Ropp.
    replace (- (V a + V s3 - rn (V a + V s3))) with (rn (V a + V s3) - (V a + V s3)) by ring.
    assert (T := Rabs_triang (V a) (V s3)). lra. }
  destruct (quick_ok e4 e3) as (F5 & F6 & H51 & H52); [split; [assumption|lra]|split; [assumption|lra]| |].
  { rewrite H42, H32, H31. apply err_order; auto with fmt. now rewrite <- H31. }
  rewrite E5 in *. cbn [fst snd] in *.
  assert (K5 : Rabs (V e5) <= u * Rabs (V s5)).
  { destruct (plus_ex (V e4) (V e3)) as [_ K]; auto with fmt. rewrite H52, H51, <- Rabs_Ropp.
    replace (- (V e4 + V e3 - rn (V e4 + V e3))) with (rn (V e4 + V e3) - (V e4 + V e3)) by ring. exact K. }
  split; [|exact K5]. clear K5.
  destruct (Req_dec (V s2) 0) as [Z|NZ]; [rewrite Z, Rabs_R0; apply Rabs_pos|].
  set (c := cexp radix2 fexp64 (V s2)).
  assert (Kc : (-1074 <= c)%Z) by (unfold c; rewrite cexp64; lia).
  assert (Ck : (c <= k)%Z) by (apply cexp_le; auto).
  assert (Ms2 : mult2 c (V s2)) by (apply mult2_cexp; auto with fmt).
  assert (Mb' : mult2 c (V b)) by now apply (mult2_le _ k).
  assert (Ma : mult2 c (V a)).
  { apply (mult2_le _ (cexp radix2 fexp64 (V a))); [|apply mult2_cexp; auto with fmt].
    unfold c. rewrite !cexp64. assert (mag radix2 (V s2) <= mag radix2 (V a))%Z by (apply mag_le_abs; assumption). lia. }
  assert (Ms3 : mult2 c (V s3)) by (rewrite H31; apply mult2_rn; [exact Kc|now apply mult2_plus]).
  assert (Me3 : mult2 c (V e3)) by (rewrite H32; apply mult2_minus; [now apply mult2_plus|exact Ms3]).
  assert (Me4 : mult2 c (V e4)) by (rewrite H42; apply mult2_minus; [now apply mult2_plus|apply mult2_rn; [exact Kc|now apply mult2_plus]]).
  rewrite H51. eapply Rle_trans; [|apply (inexact_big c); auto].
  - apply Rlt_le. eapply Rlt_le_trans; [apply bpow_mag_gt|]. apply bpow_le. unfold c. rewrite cexp64. lia.
  - intros Q. apply N5. rewrite H52, Q. ring.
Qed.

Lemma fne0_nz a : Fin a -> fne0 a = true -> V a <> 0.
Proof.
  intros F. unfold fne0. rewrite negb_true_iff. intros H E.
  assert (feqb a f0 = true); [|congruence]. apply f_zero_iff; now split.
Qed.

Lemma renorm5_fall N0 N1 N2 N3 N4 N5 a b c d e : Scales5 N0 N1 N2 N3 N4 N5 ->
  Fin a -> Fin b -> Fin c -> Fin d -> Fin e ->
  16 * N1 <= Rabs (V a) -> Rabs (V a) <= 2 * N0 -> N0 <= 3 * Rabs (V a) ->
  Rabs (V b) <= 8 * N1 -> Rabs (V c) <= 32 * N2 -> Rabs (V d) <= 128 * N3 -> Rabs (V e) <= 2048 * N4 ->
  ((exists k, (-1074 <= k)%Z /\ mult2 k (V b) /\ Rabs (V c) + Rabs (V d) + Rabs (V e) <= / 2 * bp (k + 52)) \/
   Rabs (V c) + Rabs (V d) + Rabs (V e) <= 200 * N3) ->
  fall4 (renorm5 a b c d e).
Proof.
  intros (P0 & P1 & P2 & P3 & P4 & P5 & P6 & P7 & P8 & P9 & P10 & P11) Fa Fb Fc Fd Fe Ho Ha Ha' Hb Hc Hd He HG.
  assert (G := big18). assert (G0 := bpow_gt_0 radix2 1000).
  assert (G10 : 131072 * bp 1000 <= bp 1018) by exact G.
  assert (G11 : 1024 * bp 1000 = bp 1010) by (change 1024 with (bp 10); rewrite <- bpow_plus; reflexivity).
  unfold renorm5.
  destruct (qs_lo d e (Rabs (V d)) (Rabs (V e))) as (s1 & e1 & E1 & F1 & F2 & _ & (H12 & H13 & _) & _); [assumption|assumption|lra|lra|lra|lra|]. rewrite E1; clear E1.
  assert (Pd := Rabs_pos (V d)). assert (Pe := Rabs_pos (V e)). assert (Pc := Rabs_pos (V c)). assert (Ps1 := Rabs_pos (V s1)).
  destruct (qs_lo c s1 (Rabs (V c)) (Rabs (V s1))) as (s2 & e2 & E2 & F3 & F4 & _ & (H22 & H23 & _) & H24); [assumption|assumption|lra|lra|lra|lra|]. rewrite E2; clear E2.
  assert (B1 : Rabs (V s1) <= 129 * N3) by lra.
  assert (B2 : Rabs (V s2) <= 33 * N2) by lra.
  destruct (qs_lo b s2 (8 * N1) (33 * N2)) as (s3 & e3 & E3 & F5 & F6 & _ & (H32 & H33 & _) & _); [assumption|assumption|lra|lra|lra|lra|].
  assert (B3 : Rabs (V s3) <= 9 * N1) by lra.
  destruct (qs_lo a s3 (Rabs (V a)) (9 * N1)) as (s4 & e4 & E4 & F7 & F8 & H41 & (H42 & H43 & _) & _); [assumption|assumption|lra|lra|lra|lra|].
  rewrite E3, E4.
  assert (CR : forall s5 e5, quick_two_sum e4 e3 = (s5, e5) -> V e5 <> 0 -> (Rabs (V e2) <= 6 * u * Rabs (V s5) /\ Rabs (V e5) <= u * Rabs (V s5)) \/ Rabs (V e2) <= 6 * u * (202 * N3)).
  { intros s5 e5 E5 N5'. destruct HG as [(k & Hk & Mb & Hs)|Hs].
    - left. assert (W : Rabs (V s2) <= Rabs (V s5) /\ Rabs (V e5) <= u * Rabs (V s5)).
      { apply (crit k a b s2 s3 e3 s4 e4 s5 e5); auto; lra. }
      lra.
    - right. assert (Rabs (V s2) <= 202 * N3) by lra. lra. }
  clear E3 E4 HG.
  set (M := Rabs (V a)) in *. 
  assert (PM : 0 <= M) by lra.
  assert (BM : M <= 2 * bp 1000) by lra.
  assert (L0 : Rabs (V s4) <= 1025/1024 * M) by lra.
  assert (K0 : 1023/1024 * M <= Rabs (V s4)) by lra.
  assert (L1 : Rabs (V e4) <= 1025/1024 * u * M) by lra.
  assert (L2 : Rabs (V e3) <= / 1073741824 * u * M) by lra.
  assert (L3 : Rabs (V e2) <= / 524288 * u * u * M) by lra.
  assert (L4 : Rabs (V e1) <= / 32 * u * u * u * M) by lra.
  assert (L5 : 6 * u * (202 * N3) <= / 2 * u * u * u * M) by lra.
  clear H12 H13 H22 H23 H24 H32 H33 H41 H42 H43 Ho Ha Ha' Hb Hc Hd He P0 P1 P2 P3 P4 P5 P6 P7 P8 P9 P10 P11 Pd Pe Pc Ps1 B1 B2 B3.
  Ltac stq a b A B s e H1 H2 H3 H4 H5 :=
    let E := fresh "E" in let F1 := fresh "F" in let F2 := fresh "F" in
    destruct (qs_lo a b A B) as (s & e & E & F1 & F2 & H1 & (H2 & H3 & H4) & H5);
    [assumption|assumption|lra|lra|lra|lra| rewrite E]; pose proof (Rabs_pos (V s)).
  destruct (fne0 e4) eqn:Z1.
  - stq e4 e3 (1025/1024 * u * M) (/ 1073741824 * u * M) s5 e5 H51 H52 H53 H54 H55.
    assert (Rabs (V s5) <= 1027/1024 * u * M) by lra. assert (Rabs (V e5) <= 1027/1024 * u * u * M) by lra. clear H51 H52 H53 H54.
    destruct (fne0 e5) eqn:Z2.
    + assert (Ps5 := Rabs_pos (V s5)).
      assert (C2 : Rabs (V e5) + Rabs (V e2) <= 7 * u * Rabs (V s5) + / 2 * u * u * u * M).
      { destruct (CR s5 e5 E) as [K|K]; [now apply fne0_nz|lra|lra]. }
      stq e5 e2 (1027/1024 * u * u * M) (/ 524288 * u * u * M) s6 e6 H61 H62 H63 H64 H65.
      assert (Rabs (V s6) <= 1029/1024 * u * u * M) by lra. assert (Rabs (V e6) <= 1029/1024 * u * u * u * M) by lra.
      assert (Rabs (V s6) <= 15/2 * u * Rabs (V s5) + 5/8 * u * u * u * M) by lra. clear H61 H62 H63 H64 H55.
      destruct (fne0 e6) eqn:Z3.
      * sf e6 e1 (1029/1024 * u * u * u * M) (/ 32 * u * u * u * M) H71 H72. sc5.
      * stq s6 e1 (1029/1024 * u * u * M) (/ 32 * u * u * u * M) s7 e7 H71 H72 H73 H74 H75. sc5.
    + stq s5 e2 (1027/1024 * u * M) (/ 524288 * u * u * M) s6 e6 H61 H62 H63 H64 H65.
      assert (Rabs (V s6) <= 1029/1024 * u * M) by lra. assert (Rabs (V e6) <= 1029/1024 * u * u * M) by lra. clear H61 H62 H63 H64.
      destruct (fne0 e6) eqn:Z3.
      * stq e6 e1 (1029/1024 * u * u * M) (/ 32 * u * u * u * M) s7 e7 H71 H72 H73 H74 H75. sc5.
      * stq s6 e1 (1029/1024 * u * M) (/ 32 * u * u * u * M) s7 e7 H71 H72 H73 H74 H75. sc5.
  - clear CR. stq s4 e3 (1025/1024 * M) (/ 1073741824 * u * M) s5 e5 H51 H52 H53 H54 H55.
    assert (Rabs (V s5) <= 1027/1024 * M) by lra. assert (1021/1024 * M <= Rabs (V s5)) by lra. assert (Rabs (V e5) <= 1027/1024 * u * M) by lra. clear H51 H52 H53 H54 H55 K0.
    destruct (fne0 e5) eqn:Z2.
    + stq e5 e2 (1027/1024 * u * M) (/ 524288 * u * u * M) s6 e6 H61 H62 H63 H64 H65.
      assert (Rabs (V s6) <= 1029/1024 * u * M) by lra. assert (Rabs (V e6) <= 1029/1024 * u * u * M) by lra. clear H61 H62 H63 H64.
      destruct (fne0 e6) eqn:Z3.
      * stq e6 e1 (1029/1024 * u * u * M) (/ 32 * u * u * u * M) s7 e7 H71 H72 H73 H74 H75. sc5.
      * stq s6 e1 (1029/1024 * u * M) (/ 32 * u * u * u * M) s7 e7 H71 H72 H73 H74 H75. sc5.
    + stq s5 e2 (1027/1024 * M) (/ 524288 * u * u * M) s6 e6 H61 H62 H63 H64 H65.
      assert (Rabs (V s6) <= 1029/1024 * M) by lra. assert (1019/1024 * M <= Rabs (V s6)) by lra. assert (Rabs (V e6) <= 1029/1024 * u * M) by lra. clear H61 H62 H63 H64.
      destruct (fne0 e6) eqn:Z3.
      * stq e6 e1 (1029/1024 * u * M) (/ 32 * u * u * u * M) s7 e7 H71 H72 H73 H74 H75. sc5.
      * stq s6 e1 (1029/1024 * M) (/ 32 * u * u * u * M) s7 e7 H71 H72 H73 H74 H75. assert (Pe7 := Rabs_pos (V e7)). sc5.
Qed.
