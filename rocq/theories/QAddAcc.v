(** * Quad addition: how far the computed sum is from the exact one

    All magnitudes are tracked against four scales M0 >= M1 >= M2 >= M3,
    where every operand component number i is at most Mi and rounding a value
    of size Mi makes an error of at most M(i+1). *)
From Coq Require Import ZArith Reals List Bool Lia Lra.
From Flocq Require Import Core IEEE754.BinarySingleNaN.
From Verif Require Import F64 F64Facts Prim DoubleM QuadM RN Spec EFT SpecialProofs.
Import ListNotations.
Local Open Scope R_scope.

Lemma tri3 a b : Rabs (a + b) <= Rabs a + Rabs b. Proof. apply Rabs_triang. Qed.

Lemma Bd18 a A : Fin a -> Rabs (V a) <= A -> A <= M18 -> Bd M18 a.
Proof. intros F H K. split; auto. lra. Qed.

Lemma two_sum_b a b : Fin a -> Fin b -> Rabs (V a) <= M18 -> Rabs (V b) <= M18 ->
  exists s e, two_sum a b = (s, e) /\ Fin s /\ Fin e /\ V s + V e = V a + V b /\
    Rabs (V e) <= u * Rabs (V a + V b) /\ Rabs (V e) <= u * Rabs (V s) /\
    Rabs (V s) <= Rabs (V a + V b) + u * Rabs (V a + V b).
Proof.
  intros Fa Fb Ha Hb. destruct (two_sum_ok a b) as (F1 & F2 & E1 & E2); [split; auto..|].
  destruct (two_sum a b) as [s e]. cbn [fst snd] in *. exists s, e.
  split; [reflexivity|]. split; [auto|]. split; [auto|].
  destruct (plus_ex (V a) (V b)) as [K1 K2]; auto with fmt.
  rewrite E1, E2. split; [ring|].
  rewrite <- (Rabs_Ropp (V a + V b - _)).
  replace (- (V a + V b - rn (V a + V b))) with (rn (V a + V b) - (V a + V b)) by ring.
  split; [exact K1|]. split; [exact K2|].
  assert (T := Rabs_triang (rn (V a + V b) - (V a + V b)) (V a + V b)).
  replace (rn (V a + V b) - (V a + V b) + (V a + V b)) with (rn (V a + V b)) in T by ring. lra.
Qed.

Lemma quick_b a b : Fin a -> Fin b -> Rabs (V a) <= M18 -> Rabs (V b) <= M18 ->
  Rabs (V b) <= Rabs (V a) \/ V a = 0 ->
  exists s e, quick_two_sum a b = (s, e) /\ Fin s /\ Fin e /\ V s + V e = V a + V b /\
    Rabs (V e) <= u * Rabs (V a + V b) /\ Rabs (V e) <= u * Rabs (V s) /\
    Rabs (V s) <= Rabs (V a + V b) + u * Rabs (V a + V b).
Proof.
  intros Fa Fb Ha Hb Ho. destruct (quick_ok a b) as (F1 & F2 & E1 & E2); [split; auto..|auto|].
  destruct (quick_two_sum a b) as [s e]. cbn [fst snd] in *. exists s, e.
  split; [reflexivity|]. split; [auto|]. split; [auto|].
  destruct (plus_ex (V a) (V b)) as [K1 K2]; auto with fmt.
  rewrite E1, E2. split; [ring|].
  rewrite <- (Rabs_Ropp (V a + V b - _)).
  replace (- (V a + V b - rn (V a + V b))) with (rn (V a + V b) - (V a + V b)) by ring.
  split; [exact K1|]. split; [exact K2|].
  assert (T := Rabs_triang (rn (V a + V b) - (V a + V b)) (V a + V b)).
  replace (rn (V a + V b) - (V a + V b) + (V a + V b)) with (rn (V a + V b)) in T by ring. lra.
Qed.

(** one-step rounding facts on finite f64, results as existentials *)
Lemma fadd_b a b : Fin a -> Fin b -> Rabs (V a) <= M18 -> Rabs (V b) <= M18 ->
  Fin (fadd a b) /\ Rabs (V (fadd a b) - (V a + V b)) <= u * Rabs (V a + V b).
Proof.
  intros Fa Fb Ha Hb. destruct (Bd_add 1018 a b) as [[F _] E]; [lia|split; auto..|].
  split; [exact F|]. rewrite E. apply plus_ex; auto with fmt.
Qed.

(** the unordered case *)
Lemma quick_any_R a b : fmt a -> fmt b -> Rabs a <= Rabs b ->
  Rabs (rn (a + b) + rn (b - rn (rn (a + b) - a)) - (a + b)) <= 2 * u * Rabs b.
Proof.
  intros Fa Fb Hab.
  destruct (plus_ex a b Fa Fb) as [K1 _]. set (s := rn (a + b)) in *.
  assert (Fs : fmt s) by apply rn_fmt.
  destruct (plus_ex s (- a) Fs (fmt_opp _ Fa)) as [K2 _].
  change (s + - a) with (s - a) in K2. set (d := rn (s - a)) in *.
  assert (Fd : fmt d) by apply rn_fmt.
  destruct (plus_ex b (- d) Fb (fmt_opp _ Fd)) as [K3 _].
  change (b + - d) with (b - d) in K3. set (e := rn (b - d)) in *.
  assert (T1 := Rabs_triang a b).
  assert (T2 : Rabs (s - a) <= Rabs b + Rabs (s - (a + b))).
  { replace (s - a) with (b + (s - (a + b))) by ring. apply Rabs_triang. }
  assert (T3 : Rabs (b - d) <= Rabs (d - (s - a)) + Rabs (s - (a + b))).
  { replace (b - d) with (- ((d - (s - a)) + (s - (a + b)))) by ring. rewrite Rabs_Ropp. apply Rabs_triang. }
  replace (s + e - (a + b)) with ((e - (b - d)) - (d - (s - a))) by ring.
  assert (T4 := Rabs_triang (e - (b - d)) (- (d - (s - a)))). rewrite Rabs_Ropp in T4.
  change (e - (b - d) + - (d - (s - a))) with (e - (b - d) - (d - (s - a))) in T4.
  assert (P1 := Rabs_pos b). lra.
Qed.

Lemma quick_any a b : Fin a -> Fin b -> Rabs (V a) <= M18 -> Rabs (V b) <= M18 ->
  exists s e, quick_two_sum a b = (s, e) /\ Fin s /\ Fin e /\
    Rabs (V s + V e - (V a + V b)) <= 2 * u * Rabs (V b) /\
    Rabs (V e) <= u * Rabs (V a + V b) + 2 * u * Rabs (V b) /\
    Rabs (V s) <= Rabs (V a + V b) + u * Rabs (V a + V b).
Proof.
  intros Fa Fb Ha Hb.
  destruct (Rle_dec (Rabs (V b)) (Rabs (V a))) as [H|H].
  - destruct (quick_b a b Fa Fb Ha Hb (or_introl H)) as (s & e & E & Fs & Fe & E1 & E2 & _ & E3).
    exists s, e. split; [exact E|]. split; [exact Fs|]. split; [exact Fe|]. rewrite E1.
    assert (K := Rabs_pos (V b)).
    split; [|split; lra]. replace (V a + V b - (V a + V b)) with 0 by ring. rewrite Rabs_R0. lra.
  - assert (H' : Rabs (V a) <= Rabs (V b)) by lra. clear H.
    destruct (Bd_add 1018 a b) as [Bs Es]; [lia|split; auto..|].
    destruct (Bd_sub 1019 (fadd a b) a) as [Bd_ Ed]; [lia|exact Bs|eapply Bd_bp; [|split; [exact Fa|exact Ha]]; lia|].
    destruct (Bd_sub 1020 b (fsub (fadd a b) a)) as [Be Ee]; [lia|eapply Bd_bp; [|split; [exact Fb|exact Hb]]; lia|exact Bd_|].
    exists (fadd a b), (fsub b (fsub (fadd a b) a)). split; [reflexivity|].
    split; [apply Bs|]. split; [apply Be|].
    rewrite Ee, Ed, Es.
    assert (Q := quick_any_R (V a) (V b) ltac:(auto with fmt) ltac:(auto with fmt) H').
    destruct (plus_ex (V a) (V b)) as [K1 _]; auto with fmt.
    split; [exact Q|].
    set (s := rn (V a + V b)) in *. set (e := rn (V b - rn (s - V a))) in *.
    split.
    + replace e with ((s + e - (V a + V b)) + - (s - (V a + V b))) by ring.
      eapply Rle_trans; [apply Rabs_triang|]. rewrite Rabs_Ropp. lra.
    + replace s with ((s - (V a + V b)) + (V a + V b)) at 1 by ring.
      eapply Rle_trans; [apply Rabs_triang|]. lra.
Qed.

(** scales *)
Definition Scales (M0 M1 M2 M3 : R) : Prop :=
  0 <= M3 /\ M0 <= bp 1000 /\
  u * M0 <= M1 /\ u * M1 <= M2 /\ u * M2 <= M3 /\
  M1 <= / 1099511627776 * M0 /\ M2 <= / 1099511627776 * M1 /\ M3 <= / 1099511627776 * M2.

Lemma big18 : 131072 * bp 1000 <= M18.
Proof. change (IZR 131072) with (bp 17). rewrite <- bpow_plus. apply bpow_le. lia. Qed.

(** [|a + b|] from bounds on both *)
Lemma sumb a b A B : Rabs a <= A -> Rabs b <= B -> Rabs (a + b) <= A + B.
Proof. intros. eapply Rle_trans; [apply Rabs_triang|lra]. Qed.

Lemma fne0_V a : Fin a -> fne0 a = false -> V a = 0.
Proof.
  intros F. unfold fne0. rewrite negb_false_iff. intros H.
  rewrite (feqb_V a f0 F Fin_0 H). apply V_0.
Qed.

Lemma abs_le x A : Rabs x <= A -> - A <= x <= A.
Proof. intros H. apply Rabs_le_inv in H. exact H. Qed.

(** the unordered step, with given bounds [A], [B] *)
Lemma qs a b A B : Fin a -> Fin b -> Rabs (V a) <= A -> Rabs (V b) <= B -> A <= M18 -> B <= M18 ->
  exists s e, quick_two_sum a b = (s, e) /\ Fin s /\ Fin e /\
    Rabs (V s + V e - (V a + V b)) <= 2 * u * B /\
    Rabs (V e) <= u * A + 3 * u * B /\
    Rabs (V s) <= (1 + u) * (A + B).
Proof.
  intros Fa Fb Ha Hb HA HB.
  destruct (quick_any a b) as (s & e & E & F1 & F2 & H1 & H2 & H3); [assumption|assumption|lra|lra|].
  exists s, e. split; [exact E|]. split; [exact F1|]. split; [exact F2|].
  assert (K := sumb _ _ _ _ Ha Hb). lra.
Qed.
(** the ordered step *)
Lemma qs_ord a b A B : Fin a -> Fin b -> Rabs (V a) <= A -> Rabs (V b) <= B -> A <= M18 -> B <= M18 ->
  Rabs (V b) <= Rabs (V a) \/ V a = 0 ->
  exists s e, quick_two_sum a b = (s, e) /\ Fin s /\ Fin e /\
    V s + V e = V a + V b /\
    Rabs (V e) <= u * A + u * B /\
    Rabs (V s) <= (1 + u) * (A + B).
Proof.
  intros Fa Fb Ha Hb HA HB Ho.
  destruct (quick_b a b) as (s & e & E & F1 & F2 & H1 & H2 & H3 & H4); [assumption|assumption|lra|lra|exact Ho|].
  exists s, e. split; [exact E|]. split; [exact F1|]. split; [exact F2|].
  assert (K := sumb _ _ _ _ Ha Hb). split; [exact H1|]. lra.
Qed.
(** [two_sum] *)
Lemma tsb a b A B : Fin a -> Fin b -> Rabs (V a) <= A -> Rabs (V b) <= B -> A <= M18 -> B <= M18 ->
  exists s e, two_sum a b = (s, e) /\ Fin s /\ Fin e /\
    V s + V e = V a + V b /\
    Rabs (V e) <= u * A + u * B /\
    Rabs (V s) <= (1 + u) * (A + B) /\ Rabs (V e) <= u * Rabs (V s).
Proof.
  intros Fa Fb Ha Hb HA HB.
  destruct (two_sum_b a b) as (s & e & E & F1 & F2 & H1 & H2 & H3 & H4); [assumption|assumption|lra|lra|].
  exists s, e. split; [exact E|]. split; [exact F1|]. split; [exact F2|].
  assert (K := sumb _ _ _ _ Ha Hb). split; [exact H1|]. lra.
Qed.
Lemma fa a b A B : Fin a -> Fin b -> Rabs (V a) <= A -> Rabs (V b) <= B -> A <= M18 -> B <= M18 ->
  Fin (fadd a b) /\ Rabs (V (fadd a b) - (V a + V b)) <= u * (A + B) /\ Rabs (V (fadd a b)) <= (1 + u) * (A + B).
Proof.
  intros Fa Fb Ha Hb HA HB. destruct (fadd_b a b) as [F H]; [assumption|assumption|lra|lra|].
  split; [exact F|]. assert (K := sumb _ _ _ _ Ha Hb).
  split; [lra|].
  replace (V (fadd a b)) with ((V (fadd a b) - (V a + V b)) + (V a + V b)) by ring.
  eapply Rle_trans; [apply Rabs_triang|lra].
Qed.

Ltac step L a b A B s e H1 H2 H3 :=
  let E := fresh "E" in let F1 := fresh "F" in let F2 := fresh "F" in
  destruct (L a b A B) as (s & e & E & F1 & F2 & H1 & H2 & H3);
  [assumption|assumption|lra|lra|lra|lra| rewrite E; clear E].

(** ** renorm4 *)
Definition qsum4 (t : f64 * f64 * f64 * f64) : R := let '(a, b, c, d) := t in V a + V b + V c + V d.
Definition qfin4 (t : f64 * f64 * f64 * f64) : Prop := let '(a, b, c, d) := t in Fin a /\ Fin b /\ Fin c /\ Fin d.

Lemma renorm4_any M0 M1 M2 M3 a b c d : Scales M0 M1 M2 M3 ->
  Fin a -> Fin b -> Fin c -> Fin d ->
  Rabs (V a) <= 16 * M0 -> Rabs (V b) <= 64 * M1 -> Rabs (V c) <= 128 * M2 -> Rabs (V d) <= 64 * M2 ->
  qfin4 (renorm4 a b c d) /\
  Rabs (qsum4 (renorm4 a b c d) - (V a + V b + V c + V d)) <= 256 * M2 /\
  (128 * M1 <= Rabs (V a) -> Rabs (qsum4 (renorm4 a b c d) - (V a + V b + V c + V d)) <= 2048 * M3).
Proof.
  intros (P0 & P1 & P2 & P3 & P4 & P5 & P6 & P7) Fa Fb Fc Fd Ha Hb Hc Hd.
  assert (G := big18). unfold renorm4.
  step qs c d (128 * M2) (64 * M2) s1 e1 H11 H12 H13.
  step qs b s1 (64 * M1) (193 * M2) s2 e2 H21 H22 H23.
  destruct (qs a s2 (16 * M0) (65 * M1)) as (s3 & e3 & E3 & F3 & F4 & H5 & H6 & H7); [assumption|assumption|lra|lra|lra|lra|].
  assert (X : exists Q, 0 <= Q <= 130 * M2 /\ (128 * M1 <= Rabs (V a) -> Q = 0) /\ Rabs (V s3 + V e3 - (V a + V s2)) <= Q).
  { destruct (Rle_dec (128 * M1) (Rabs (V a))) as [Ho|Ho].
    - exists 0. split; [lra|]. split; [auto|].
      destruct (qs_ord a s2 (16 * M0) (65 * M1)) as (s3' & e3' & E3' & _ & _ & H8 & _); [assumption|assumption|lra|lra|lra|lra|lra|].
      rewrite E3 in E3'. injection E3' as <- <-. rewrite H8.
      replace (V a + V s2 - (V a + V s2)) with 0 by ring. rewrite Rabs_R0. lra.
    - exists (2 * u * (65 * M1)). split; [lra|]. split; [lra|]. exact H5. }
  clear H5. destruct X as (Q & Q0 & Q1 & H5). rewrite E3. clear E3.
  destruct (fne0 e3) eqn:Z1.
  - step qs e3 e2 (17 * M1) (66 * M2) s4 e4 H41 H42 H43.
    destruct (fne0 e4) eqn:Z2.
    + step qs e4 e1 (18 * M2) (400 * M3) s5 e5 H51 H52 H53.
      cbn [qfin4 qsum4]. split; [auto|].
      apply abs_le in H11, H21, H5, H41, H51.
      split; [|intros Ho; specialize (Q1 Ho)]; apply Rabs_le; lra.
    + apply fne0_V in Z2; [|assumption].
      step qs s4 e1 (18 * M1) (400 * M3) s5 e5 H51 H52 H53.
      cbn [qfin4 qsum4]. split; [split; [auto|split; [auto|split; [auto|apply Fin_0]]]|]. rewrite V_0.
      apply abs_le in H11, H21, H5, H41, H51.
      split; [|intros Ho; specialize (Q1 Ho)]; apply Rabs_le; lra.
  - apply fne0_V in Z1; [|assumption].
    step qs s3 e2 (17 * M0) (66 * M2) s4 e4 H41 H42 H43.
    destruct (fne0 e4) eqn:Z2.
    + step qs e4 e1 (18 * M1) (400 * M3) s5 e5 H51 H52 H53.
      cbn [qfin4 qsum4]. split; [split; [auto|split; [auto|split; [auto|apply Fin_0]]]|]. rewrite V_0.
      apply abs_le in H11, H21, H5, H41, H51.
      split; [|intros Ho; specialize (Q1 Ho)]; apply Rabs_le; lra.
    + apply fne0_V in Z2; [|assumption].
      step qs s4 e1 (18 * M0) (400 * M3) s5 e5 H51 H52 H53.
      cbn [qfin4 qsum4]. split; [split; [auto|split; [auto|split; apply Fin_0]]|]. rewrite V_0.
      apply abs_le in H11, H21, H5, H41, H51.
      split; [|intros Ho; specialize (Q1 Ho)]; apply Rabs_le; lra.
Qed.

(** ** one accumulation *)
Lemma accumulate_b x y t U W T : Fin x -> Fin y -> Fin t ->
  Rabs (V x) <= U -> Rabs (V y) <= W -> Rabs (V t) <= T -> U <= bp 1015 -> W <= bp 1015 -> T <= bp 1015 ->
  exists s a b, Fin s /\ Fin a /\ Fin b /\
    Rabs (V s) <= (1 + u) * (U + (1 + u) * (W + T)) /\
    V s + V a + V b = V x + V y + V t /\
    ((accumulate x y t = (s, a, b) /\ fne0 s = true /\
      Rabs (V a) <= u * (U + (1 + u) * (W + T)) /\ Rabs (V b) <= u * (W + T)) \/
     (accumulate x y t = (f0, s, a) /\ V b = 0 /\ Rabs (V a) <= u * (U + (1 + u) * (W + T)))).
Proof.
  intros Fx Fy Ft HU HW HT BU BW BT.
  assert (P1 := Rabs_pos (V x)). assert (P2 := Rabs_pos (V y)). assert (P3 := Rabs_pos (V t)).
  assert (B18 : 8 * bp 1015 = M18) by (change 8 with (bp 3); rewrite <- bpow_plus; reflexivity).
  assert (B0 := bpow_gt_0 radix2 1015).
  unfold accumulate.
  destruct (tsb y t W T) as (s1 & b & E1 & Fs1 & Fb & S1 & S2 & S3 & S4); [assumption..|lra|lra|]. rewrite E1.
  destruct (tsb x s1 U ((1 + u) * (W + T))) as (s & a & E2 & Fs & Fa & S5 & S6 & S7 & S8); [assumption..|lra|lra|]. rewrite E2.
  destruct (feqb a f0) eqn:Za; [|destruct (feqb b f0) eqn:Zb]; cbn [orb negb].
  - apply feqb_V in Za; [|assumption|apply Fin_0]. rewrite V_0 in Za.
    destruct (feqb b f0) eqn:Zb.
    + apply feqb_V in Zb; [|assumption|apply Fin_0]. rewrite V_0 in Zb.
      exists s, a, b. do 4 (split; [assumption|]). split; [lra|]. right. split; [reflexivity|]. split; [lra|]. lra.
    + exists s, b, a. do 4 (split; [assumption|]). split; [lra|]. right. split; [reflexivity|]. split; [lra|]. lra.
  - apply feqb_V in Zb; [|assumption|apply Fin_0]. rewrite V_0 in Zb.
    exists s, a, b. do 4 (split; [assumption|]). split; [lra|]. right. split; [reflexivity|]. split; [lra|]. lra.
  - exists s, a, b. do 4 (split; [assumption|]). split; [lra|]. left. split; [reflexivity|].
    split; [|split; lra].
    unfold fne0. destruct (feqb s f0) eqn:Zs; [exfalso|reflexivity].
    apply feqb_V in Zs; [|assumption|apply Fin_0]. rewrite V_0 in Zs. rewrite Zs, Rabs_R0 in S8.
    assert (V a = 0). { assert (K := Rabs_pos (V a)). destruct (Req_dec (V a) 0) as [|N]; [auto|].
      assert (K2 := Rabs_pos_lt _ N). lra. }
    rewrite (feqb_refl_V a f0) in Za; [discriminate|assumption|apply Fin_0|now rewrite V_0].
Qed.

(** ** merging the components by size *)
Fixpoint mrg (rx : list f64) : list f64 -> list f64 :=
  fix inner (ry : list f64) :=
    match rx, ry with
    | [], _ => ry
    | _, [] => rx
    | a :: rx', b :: ry' => if abs_gt a b then a :: mrg rx' ry else b :: inner ry'
    end.

Fixpoint loop1 (ts : list f64) (x y : f64) (out : list f64) : list f64 * list f64 :=
  if Nat.ltb (length out) 4 then
    match ts with
    | [] => (if Nat.ltb (length out) 3 then out ++ [x; y] else out ++ [x], [])
    | t :: ts' => let '(s, y, z) := accumulate x y t in loop1 ts' y z (qa_push s out)
    end
  else (out, ts).

Lemma mrg_nil_r rx : mrg rx [] = rx. Proof. destruct rx; reflexivity. Qed.
Lemma mrg_nil_l ry : mrg [] ry = ry. Proof. destruct ry; reflexivity. Qed.
Lemma mrg_cons a rx b ry : mrg (a :: rx) (b :: ry) = if abs_gt a b then a :: mrg rx (b :: ry) else b :: mrg (a :: rx) ry.
Proof. reflexivity. Qed.

Lemma qa_loop_mrg : forall rx ry x y out,
  let '(o, rx', ry') := qa_loop rx ry x y out in
  loop1 (mrg rx ry) x y out = (o, mrg rx' ry').
Proof.
  induction rx as [|a rx IHx].
  - intros ry. rewrite mrg_nil_l. induction ry as [|b ry IHy]; intros x y out; cbn [qa_loop loop1].
    + destruct (Nat.ltb (length out) 4); reflexivity.
    + destruct (Nat.ltb (length out) 4); [|reflexivity].
      destruct (accumulate x y b) as [[s y'] z]. apply IHy.
  - induction ry as [|b ry IHy]; intros x y out.
    + rewrite mrg_nil_r. cbn [qa_loop loop1].
      destruct (Nat.ltb (length out) 4); [|reflexivity].
      destruct (accumulate x y a) as [[s y'] z]. specialize (IHx [] y' z (qa_push s out)).
      rewrite mrg_nil_r in IHx. exact IHx.
    + rewrite mrg_cons. cbn [qa_loop].
      destruct (abs_gt a b) eqn:G; cbn [loop1]; destruct (Nat.ltb (length out) 4) eqn:L.
      * destruct (accumulate x y a) as [[s y'] z]. apply IHx.
      * rewrite mrg_cons, G. reflexivity.
      * destruct (accumulate x y b) as [[s y'] z]. apply IHy.
      * rewrite mrg_cons, G. reflexivity.
Qed.

Lemma qa_take_mrg rx ry t rx' ry' : (0 < length rx + length ry)%nat ->
  qa_take rx ry = (t, rx', ry') -> mrg rx ry = t :: mrg rx' ry' /\ (length rx + length ry = S (length rx' + length ry'))%nat.
Proof.
  unfold qa_take. destruct rx as [|a rx], ry as [|b ry]; cbn [length]; intros L.
  - lia.
  - intros [= <- <- <-]. rewrite !mrg_nil_l. cbn [length]. split; [reflexivity|lia].
  - intros [= <- <- <-]. rewrite !mrg_nil_r. cbn [length]. split; [reflexivity|lia].
  - rewrite mrg_cons. destruct (abs_gt a b); intros [= <- <- <-]; cbn [length]; split; auto; lia.
Qed.

Lemma abs_gt_V a b : Fin a -> Fin b -> if abs_gt a b then Rabs (V b) <= Rabs (V a) else Rabs (V a) <= Rabs (V b).
Proof.
  intros Fa Fb. unfold abs_gt, fgtb.
  destruct (fabs_ok a Fa) as [F1 E1]. destruct (fabs_ok b Fb) as [F2 E2].
  rewrite fltb_ok by auto. rewrite E1, E2.
  destruct (Rlt_bool_spec (Rabs (V b)) (Rabs (V a))); lra.
Qed.

Definition allfin (l : list f64) : Prop := Forall Fin l.
Fixpoint lsum (l : list f64) : R := match l with [] => 0 | a :: l' => V a + lsum l' end.
Definition lbd (B : R) (l : list f64) : Prop := Forall (fun a => Fin a /\ Rabs (V a) <= B) l.

Lemma mrg_sum : forall rx ry, lsum (mrg rx ry) = lsum rx + lsum ry.
Proof.
  induction rx as [|a rx IHx].
  - intros ry. rewrite mrg_nil_l. cbn. ring.
  - induction ry as [|b ry IHy].
    + rewrite mrg_nil_r. cbn. ring.
    + rewrite mrg_cons. destruct (abs_gt a b); cbn [lsum]; [rewrite IHx|rewrite IHy]; cbn [lsum]; ring.
Qed.
Lemma mrg_len : forall rx ry, length (mrg rx ry) = (length rx + length ry)%nat.
Proof.
  induction rx as [|a rx IHx].
  - intros ry. now rewrite mrg_nil_l.
  - induction ry as [|b ry IHy].
    + rewrite mrg_nil_r. cbn. lia.
    + rewrite mrg_cons. destruct (abs_gt a b); cbn [length]; [rewrite IHx|rewrite IHy]; cbn [length]; lia.
Qed.
Lemma mrg_Forall P : forall rx ry, Forall P (mrg rx ry) -> Forall P rx /\ Forall P ry.
Proof.
  induction rx as [|a rx IHx].
  - intros ry. rewrite mrg_nil_l. auto.
  - induction ry as [|b ry IHy].
    + rewrite mrg_nil_r. auto.
    + rewrite mrg_cons. destruct (abs_gt a b); intros H; inversion_clear H as [|? ? H1 H2].
      * apply IHx in H2 as [K1 K2]. auto.
      * apply IHy in H2 as [K1 K2]. auto.
Qed.

Lemma mrg_bounds M0 M1 M2 M3 x0 x1 x2 x3 y0 y1 y2 y3 :
  Fin x0 -> Fin x1 -> Fin x2 -> Fin x3 -> Fin y0 -> Fin y1 -> Fin y2 -> Fin y3 ->
  M1 <= M0 -> M2 <= M1 -> M3 <= M2 ->
  Rabs (V x0) <= M0 -> Rabs (V x1) <= M1 -> Rabs (V x2) <= M2 -> Rabs (V x3) <= M3 ->
  Rabs (V y0) <= M0 -> Rabs (V y1) <= M1 -> Rabs (V y2) <= M2 -> Rabs (V y3) <= M3 ->
  Rabs (V x1) <= Rabs (V x0) -> Rabs (V x2) <= Rabs (V x1) -> Rabs (V x3) <= Rabs (V x2) ->
  Rabs (V y1) <= Rabs (V y0) -> Rabs (V y2) <= Rabs (V y1) -> Rabs (V y3) <= Rabs (V y2) ->
  exists t0 t1 t2 t3 t4 t5 t6 t7,
    mrg [x0; x1; x2; x3] [y0; y1; y2; y3] = [t0; t1; t2; t3; t4; t5; t6; t7] /\
    (Fin t0 /\ Fin t1 /\ Fin t2 /\ Fin t3 /\ Fin t4 /\ Fin t5 /\ Fin t6 /\ Fin t7) /\
    Rabs (V t1) <= Rabs (V t0) /\ Rabs (V t0) <= M0 /\
    Rabs (V t2) <= M1 /\ Rabs (V t3) <= M1 /\ Rabs (V t4) <= M2 /\ Rabs (V t5) <= M2 /\
    Rabs (V t6) <= M3 /\ Rabs (V t7) <= M3.
Proof.
  intros. cbn [mrg].
  repeat match goal with
  | |- context [if abs_gt ?a ?b then _ else _] =>
      let G := fresh "G" in
      assert (G := abs_gt_V a b ltac:(assumption) ltac:(assumption)); destruct (abs_gt a b)
  end;
  (do 8 eexists; split; [reflexivity|]; split; [auto 20|]; lra).
Qed.

(** ** the loop *)
Definition Mof (M1 M2 M3 : R) (r : Z) : R := if (r <? 2)%Z then M1 else if (r <? 4)%Z then M2 else M3.
Fixpoint TB (M1 M2 M3 : R) (r : Z) (ts : list f64) : Prop :=
  match ts with
  | [] => r = 6%Z
  | t :: ts' => (r < 6)%Z /\ Fin t /\ Rabs (V t) <= Mof M1 M2 M3 r /\ TB M1 M2 M3 (r + 1) ts'
  end.
Definition fb (B : R) (a : f64) : Prop := Fin a /\ Rabs (V a) <= B.
Definition Inv (M0 M1 M2 M3 : R) (r : Z) (x y : f64) (out : list f64) : Prop :=
  match out with
  | [] => (0 <= r)%Z /\ fb ((3 + 2 * IZR r) * M0) x /\ fb (16 * M1) y
  | [a] => (1 <= r)%Z /\ fb (16 * M0) a /\ fb ((18 + 2 * IZR r) * M1) x /\ fb (40 * M2) y
  | [a; b] => (2 <= r)%Z /\ fb (16 * M0) a /\ fb (64 * M1) b /\ fb ((40 + 4 * IZR r) * M2) x /\ fb (2 * M2) y
  | [a; b; c] => (3 <= r)%Z /\ fb (16 * M0) a /\ fb (64 * M1) b /\ fb (128 * M2) c /\ fb ((4 + 4 * IZR r) * M2) x /\ fb (64 * M3) y
  | _ => False
  end.
Definition OutB (M0 M1 M2 M3 : R) (o : list f64) : Prop :=
  fb (16 * M0) (nth 0 o f0) /\ fb (64 * M1) (nth 1 o f0) /\ fb (128 * M2) (nth 2 o f0) /\ fb (40 * M2) (nth 3 o f0).
Definition osum (o : list f64) : R := V (nth 0 o f0) + V (nth 1 o f0) + V (nth 2 o f0) + V (nth 3 o f0).

Lemma TB_M3 M1 M2 M3 : forall ts r, (4 <= r)%Z -> TB M1 M2 M3 r ts -> lbd M3 ts /\ (Z.of_nat (length ts) + r <= 6)%Z.
Proof.
  induction ts as [|t ts IH]; cbn [TB]; intros r Hr H.
  - split; [constructor|]. cbn [length]. lia.
  - destruct H as (H1 & H2 & H3 & H4). apply IH in H4 as [K1 K2]; [|lia].
    unfold Mof in H3. rewrite (proj2 (Z.ltb_ge r 2)), (proj2 (Z.ltb_ge r 4)) in H3 by lia.
    split; [constructor; auto|]. cbn [length]. lia.
Qed.

Lemma bp1015 : 128 * bp 1000 <= bp 1015.
Proof. change 128 with (bp 7). rewrite <- bpow_plus. apply bpow_le. lia. Qed.

Lemma fb_0 B : 0 <= B -> fb B f0.
Proof. intros H. split; [apply Fin_0|]. rewrite V_0, Rabs_R0. exact H. Qed.

Lemma loop1_ok M0 M1 M2 M3 : Scales M0 M1 M2 M3 ->
  forall ts r x y out, TB M1 M2 M3 r ts -> (r <= 6)%Z -> Inv M0 M1 M2 M3 r x y out ->
  let '(o, l) := loop1 ts x y out in
  OutB M0 M1 M2 M3 o /\ lbd M3 l /\ (length l <= 2)%nat /\
  Rabs (osum o + lsum l - (osum out + V x + V y + lsum ts)) <= 64 * M3.
Proof.
  intros (P0 & P1 & P2 & P3 & P4 & P5 & P6 & P7). assert (G := bp1015).
  induction ts as [|t ts IH]; intros r x y out HT Hr HI.
  - cbn [TB] in HT. subst r.
    destruct out as [|a [|b [|c [|d out]]]]; cbn [Inv] in HI; [..|contradiction]; cbn [loop1 length Nat.ltb Nat.leb app].
    + destruct HI as (_ & [Fx Hx] & [Fy Hy]). split.
      { unfold OutB; cbn [nth]. split; [split; [assumption|lra]|]. split; [split; [assumption|lra]|].
        split; apply fb_0; lra. }
      split; [constructor|]. split; [cbn; lia|]. unfold osum; cbn [nth lsum]. rewrite V_0. apply Rabs_le; lra.
    + destruct HI as (_ & Ba & [Fx Hx] & [Fy Hy]). split.
      { unfold OutB; cbn [nth]. split; [assumption|]. split; [split; [assumption|lra]|]. split; [split; [assumption|lra]|].
        apply fb_0; lra. }
      split; [constructor|]. split; [cbn; lia|]. unfold osum; cbn [nth lsum]. rewrite V_0. apply Rabs_le; lra.
    + destruct HI as (_ & Ba & Bb & [Fx Hx] & [Fy Hy]). split.
      { unfold OutB; cbn [nth]. split; [assumption|]. split; [assumption|]. split; [split; [assumption|lra]|].
        split; [assumption|lra]. }
      split; [constructor|]. split; [cbn; lia|]. unfold osum; cbn [nth lsum]. rewrite V_0. apply Rabs_le; lra.
    + destruct HI as (_ & Ba & Bb & Bc & [Fx Hx] & [Fy Hy]). split.
      { unfold OutB; cbn [nth]. split; [assumption|]. split; [assumption|]. split; [assumption|]. split; [assumption|lra]. }
      split; [constructor|]. split; [cbn; lia|]. unfold osum; cbn [nth lsum]. rewrite V_0. apply abs_le in Hy. apply Rabs_le; lra.
  - cbn [TB] in HT. destruct HT as (Hr6 & Ft & Ht & HT).
    assert (R6 : 0 <= IZR r -> IZR r <= 5) by (intros _; apply IZR_le; lia).
    destruct out as [|a [|b [|c [|d out]]]]; cbn [Inv] in HI; [..|contradiction]; cbn [loop1 length Nat.ltb Nat.leb].
    + destruct HI as (Hr0 & [Fx Hx] & [Fy Hy]). assert (R0 : 0 <= IZR r) by (apply IZR_le; lia). specialize (R6 R0).
      assert (Ht1 : Rabs (V t) <= M1).
      { eapply Rle_trans; [exact Ht|]. unfold Mof. destruct (r <? 2)%Z; [|destruct (r <? 4)%Z]; lra. }
      assert (Gm : IZR r * M0 <= 5 * M0) by (apply Rmult_le_compat_r; lra).
      destruct (accumulate_b x y t ((3 + 2 * IZR r) * M0) (16 * M1) M1) as (s & a & b & Fs & Fa & Fb & Hs & ES & [(E & Zs & Ha & Hb)|(E & Zb & Ha)]); [assumption..|lra|lra|lra| |]; rewrite E.
      * unfold qa_push. rewrite Zs. cbn [app].
        specialize (IH (r + 1)%Z a b [s] HT ltac:(lia)).
        destruct (loop1 ts a b [s]) as [o l]. destruct IH as (K1 & K2 & K3 & K4).
        { cbn [Inv]. rewrite plus_IZR. split; [lia|]. split; [split; [assumption|lra]|]. split; (split; [assumption|]); [|lra].
          assert (0 <= IZR r * M1) by (apply Rmult_le_pos; lra). lra. }
        split; [exact K1|]. split; [exact K2|]. split; [exact K3|].
        replace (osum o + lsum l - _) with (osum o + lsum l - (osum [s] + V a + V b + lsum ts)); [exact K4|].
        unfold osum; cbn [nth lsum]; rewrite ?V_0. lra.
      * change (qa_push f0 []) with (@nil f64).
        specialize (IH (r + 1)%Z s a [] HT ltac:(lia)).
        destruct (loop1 ts s a []) as [o l]. destruct IH as (K1 & K2 & K3 & K4).
        { cbn [Inv]. rewrite plus_IZR. split; [lia|]. split; (split; [assumption|]); lra. }
        split; [exact K1|]. split; [exact K2|]. split; [exact K3|].
        replace (osum o + lsum l - _) with (osum o + lsum l - (osum [] + V s + V a + lsum ts)); [exact K4|].
        unfold osum; cbn [nth lsum]; rewrite ?V_0. lra.
    + destruct HI as (Hr0 & Ba0 & [Fx Hx] & [Fy Hy]). rename a into a0. assert (R0 : 1 <= IZR r) by (apply IZR_le; lia). specialize (R6 ltac:(lra)).
      assert (Ht1 : Rabs (V t) <= M1).
      { eapply Rle_trans; [exact Ht|]. unfold Mof. destruct (r <? 2)%Z; [|destruct (r <? 4)%Z]; lra. }
      assert (Gm : IZR r * M1 <= 5 * M1) by (apply Rmult_le_compat_r; lra).
      destruct (accumulate_b x y t ((18 + 2 * IZR r) * M1) (40 * M2) M1) as (s & a & b & Fs & Fa & Fb & Hs & ES & [(E & Zs & Ha & Hb)|(E & Zb & Ha)]); [assumption..|lra|lra|lra| |]; rewrite E.
      * unfold qa_push. rewrite Zs. cbn [app].
        specialize (IH (r + 1)%Z a b [a0; s] HT ltac:(lia)).
        destruct (loop1 ts a b [a0; s]) as [o l]. destruct IH as (K1 & K2 & K3 & K4).
        { cbn [Inv]. rewrite plus_IZR. split; [lia|]. split; [exact Ba0|]. split; [split; [assumption|lra]|]. split; (split; [assumption|]); [|lra].
          assert (0 <= IZR r * M2) by (apply Rmult_le_pos; lra). lra. }
        split; [exact K1|]. split; [exact K2|]. split; [exact K3|].
        replace (osum o + lsum l - _) with (osum o + lsum l - (osum [a0; s] + V a + V b + lsum ts)); [exact K4|].
        unfold osum; cbn [nth lsum]; rewrite ?V_0. lra.
      * change (qa_push f0 [a0]) with [a0].
        specialize (IH (r + 1)%Z s a [a0] HT ltac:(lia)).
        destruct (loop1 ts s a [a0]) as [o l]. destruct IH as (K1 & K2 & K3 & K4).
        { cbn [Inv]. rewrite plus_IZR. split; [lia|]. split; [exact Ba0|]. split; (split; [assumption|]); lra. }
        split; [exact K1|]. split; [exact K2|]. split; [exact K3|].
        replace (osum o + lsum l - _) with (osum o + lsum l - (osum [a0] + V s + V a + lsum ts)); [exact K4|].
        unfold osum; cbn [nth lsum]; rewrite ?V_0. lra.
    + destruct HI as (Hr0 & Ba0 & Bb0 & [Fx Hx] & [Fy Hy]). rename a into a0. rename b into b0. assert (R0 : 2 <= IZR r) by (apply IZR_le; lia). specialize (R6 ltac:(lra)).
      assert (Ht1 : Rabs (V t) <= M2).
      { eapply Rle_trans; [exact Ht|]. unfold Mof. rewrite (proj2 (Z.ltb_ge r 2)) by lia. destruct (r <? 4)%Z; lra. }
      assert (Gm : IZR r * M2 <= 5 * M2) by (apply Rmult_le_compat_r; lra).
      destruct (accumulate_b x y t ((40 + 4 * IZR r) * M2) (2 * M2) M2) as (s & a & b & Fs & Fa & Fb & Hs & ES & [(E & Zs & Ha & Hb)|(E & Zb & Ha)]); [assumption..|lra|lra|lra| |]; rewrite E.
      * unfold qa_push. rewrite Zs. cbn [app].
        specialize (IH (r + 1)%Z a b [a0; b0; s] HT ltac:(lia)).
        destruct (loop1 ts a b [a0; b0; s]) as [o l]. destruct IH as (K1 & K2 & K3 & K4).
        { cbn [Inv]. rewrite plus_IZR. split; [lia|]. split; [exact Ba0|]. split; [exact Bb0|]. split; [split; [assumption|lra]|].
          split; (split; [assumption|]); [|lra].
          assert (0 <= IZR r * M2) by (apply Rmult_le_pos; lra). lra. }
        split; [exact K1|]. split; [exact K2|]. split; [exact K3|].
        replace (osum o + lsum l - _) with (osum o + lsum l - (osum [a0; b0; s] + V a + V b + lsum ts)); [exact K4|].
        unfold osum; cbn [nth lsum]; rewrite ?V_0. lra.
      * change (qa_push f0 [a0; b0]) with [a0; b0].
        specialize (IH (r + 1)%Z s a [a0; b0] HT ltac:(lia)).
        destruct (loop1 ts s a [a0; b0]) as [o l]. destruct IH as (K1 & K2 & K3 & K4).
        { cbn [Inv]. rewrite plus_IZR. split; [lia|]. split; [exact Ba0|]. split; [exact Bb0|]. split; (split; [assumption|]); lra. }
        split; [exact K1|]. split; [exact K2|]. split; [exact K3|].
        replace (osum o + lsum l - _) with (osum o + lsum l - (osum [a0; b0] + V s + V a + lsum ts)); [exact K4|].
        unfold osum; cbn [nth lsum]; rewrite ?V_0. lra.
    + destruct HI as (Hr0 & Ba0 & Bb0 & Bc0 & [Fx Hx] & [Fy Hy]). rename a into a0. rename b into b0. assert (R0 : 3 <= IZR r) by (apply IZR_le; lia). specialize (R6 ltac:(lra)).
      assert (Ht1 : Rabs (V t) <= M2).
      { eapply Rle_trans; [exact Ht|]. unfold Mof. rewrite (proj2 (Z.ltb_ge r 2)) by lia. destruct (r <? 4)%Z; lra. }
      assert (Gm : IZR r * M2 <= 5 * M2) by (apply Rmult_le_compat_r; lra).
      destruct (accumulate_b x y t ((4 + 4 * IZR r) * M2) (64 * M3) M2) as (s & a & b & Fs & Fa & Fb & Hs & ES & [(E & Zs & Ha & Hb)|(E & Zb & Ha)]); [assumption..|lra|lra|lra| |]; rewrite E.
      * unfold qa_push. rewrite Zs. cbn [app].
        destruct (TB_M3 M1 M2 M3 ts (r + 1)%Z ltac:(lia) HT) as [K1 K2].
        assert (EL : loop1 ts a b [a0; b0; c; s] = ([a0; b0; c; s], ts)) by (destruct ts; reflexivity).
        rewrite EL. split.
        { unfold OutB; cbn [nth]. split; [exact Ba0|]. split; [exact Bb0|]. split; [exact Bc0|]. split; [assumption|lra]. }
        split; [exact K1|]. split; [lia|].
        unfold osum; cbn [nth lsum]; rewrite ?V_0.
        apply abs_le in Ha, Hb. apply Rabs_le. lra.
      * change (qa_push f0 [a0; b0; c]) with [a0; b0; c].
        specialize (IH (r + 1)%Z s a [a0; b0; c] HT ltac:(lia)).
        destruct (loop1 ts s a [a0; b0; c]) as [o l]. destruct IH as (K1 & K2 & K3 & K4).
        { cbn [Inv]. rewrite plus_IZR. split; [lia|]. split; [exact Ba0|]. split; [exact Bb0|]. split; [exact Bc0|]. split; (split; [assumption|]); lra. }
        split; [exact K1|]. split; [exact K2|]. split; [exact K3|].
        replace (osum o + lsum l - _) with (osum o + lsum l - (osum [a0; b0; c] + V s + V a + lsum ts)); [exact K4|].
        unfold osum; cbn [nth lsum]; rewrite ?V_0. lra.
Qed.

Lemma fold_ok M0 M1 M2 M3 : Scales M0 M1 M2 M3 -> forall l a, (length l <= 2)%nat -> lbd M3 l -> fb (40 * M2) a ->
  fb (64 * M2) (fold_left fadd l a) /\ Rabs (V (fold_left fadd l a) - (V a + lsum l)) <= 84 * M3.
Proof.
  intros (P0 & P1 & P2 & P3 & P4 & P5 & P6 & P7) l a Hl Hb [Fa Ha]. assert (G := big18).
  destruct l as [|b [|c [|d l]]]; cbn [length] in Hl; [| | |lia]; cbn [fold_left lsum].
  - split; [split; [assumption|lra]|]. apply Rabs_le. lra.
  - inversion_clear Hb as [|? ? [Fb Hb1] _].
    destruct (fa a b (40 * M2) M3) as (F & H1 & H2); [assumption..|lra|lra|].
    split; [split; [assumption|lra]|]. apply abs_le in H1. apply Rabs_le. lra.
  - inversion_clear Hb as [|? ? [Fb Hb1] Hb2]. inversion_clear Hb2 as [|? ? [Fc Hb3] _].
    destruct (fa a b (40 * M2) M3) as (F & H1 & H2); [assumption..|lra|lra|].
    destruct (fa (fadd a b) c (41 * M2) M3) as (F' & H3 & H4); [assumption..|lra|lra|lra|lra|].
    split; [split; [assumption|lra]|]. apply abs_le in H1, H3. apply Rabs_le. lra.
Qed.

Lemma QV_mkQ4 t : QV (mkQ4 t) = qsum4 t /\ (qfin4 t <-> QFin (mkQ4 t)).
Proof. destruct t as [[[a b] c] d]. split; reflexivity. Qed.

(** the components decrease at least as fast as the scales *)
Definition QScale (M0 M1 M2 M3 : R) (x : Quad) : Prop :=
  QFin x /\ Rabs (V (q0 x)) <= M0 /\ Rabs (V (q1 x)) <= M1 /\ Rabs (V (q2 x)) <= M2 /\ Rabs (V (q3 x)) <= M3 /\
  Rabs (V (q1 x)) <= Rabs (V (q0 x)) /\ Rabs (V (q2 x)) <= Rabs (V (q1 x)) /\ Rabs (V (q3 x)) <= Rabs (V (q2 x)).

(** the eight components, merged by size, decrease with the scales *)
Definition Merged (M0 M1 M2 M3 : R) (x y : Quad) : Prop :=
  exists t0 t1 t2 t3 t4 t5 t6 t7,
    mrg (q_list x) (q_list y) = [t0; t1; t2; t3; t4; t5; t6; t7] /\
    (Fin t0 /\ Fin t1 /\ Fin t2 /\ Fin t3 /\ Fin t4 /\ Fin t5 /\ Fin t6 /\ Fin t7) /\
    Rabs (V t1) <= Rabs (V t0) /\ Rabs (V t0) <= M0 /\
    Rabs (V t2) <= M1 /\ Rabs (V t3) <= M1 /\ Rabs (V t4) <= M2 /\ Rabs (V t5) <= M2 /\
    Rabs (V t6) <= M3 /\ Rabs (V t7) <= M3.

(** what reaches the final renormalisation *)
Lemma q_add_core_shape M0 M1 M2 M3 x y : Scales M0 M1 M2 M3 -> Merged M0 M1 M2 M3 x y ->
  exists a b c d, q_add_core x y = mkQ4 (renorm4 a b c d) /\ fb (16 * M0) a /\ fb (64 * M1) b /\ fb (128 * M2) c /\ fb (64 * M2) d /\
    Rabs (V a + V b + V c + V d - (QV x + QV y)) <= 148 * M3.
Proof.
  intros HS HM. assert (S := HS). destruct S as (P0 & P1 & P2 & P3 & P4 & P5 & P6 & P7).
  assert (G := big18).
  destruct x as [x0 x1 x2 x3], y as [y0 y1 y2 y3].
  destruct HM as (t0 & t1 & t2 & t3 & t4 & t5 & t6 & t7 & EM & (F0 & F1 & F2 & F3 & F4 & F5 & F6 & F7) & B1 & B0 & B2 & B3 & B4 & B5 & B6 & B7).
  change (q_list (mkQ x0 x1 x2 x3)) with [x0; x1; x2; x3] in EM. change (q_list (mkQ y0 y1 y2 y3)) with [y0; y1; y2; y3] in EM.
  assert (SM := mrg_sum [x0; x1; x2; x3] [y0; y1; y2; y3]). rewrite EM in SM. cbn [lsum] in SM.
  unfold q_add_core. change (q_list (mkQ x0 x1 x2 x3)) with [x0; x1; x2; x3]. change (q_list (mkQ y0 y1 y2 y3)) with [y0; y1; y2; y3].
  destruct (qa_take [x0; x1; x2; x3] [y0; y1; y2; y3]) as [[a rx] ry] eqn:T1.
  apply qa_take_mrg in T1 as [T1 L1]; [|cbn; lia]. rewrite EM in T1. injection T1 as <- T1. cbn [length Nat.add] in L1.
  destruct (qa_take rx ry) as [[b rx'] ry'] eqn:T2.
  apply qa_take_mrg in T2 as [T2 L2]; [|lia]. rewrite <- T1 in T2. injection T2 as <- T2.
  unfold renorm2.
  destruct (qs_ord t0 t1 M0 M0) as (s & e & E & Fs & Fe & H1' & H2' & H3'); [assumption..|lra|lra|lra|left; exact B1|]. rewrite E.
  assert (QL := qa_loop_mrg rx' ry' s e []). rewrite <- T2 in QL.
  assert (LO := loop1_ok M0 M1 M2 M3 HS [t2; t3; t4; t5; t6; t7] 0%Z s e []).
  destruct (qa_loop rx' ry' s e []) as [[o lx] ly]. rewrite QL in LO. clear QL.
  destruct LO as (OB & LB & LL & LE).
  { cbn [TB]. unfold Mof. cbn. repeat split; assumption || lia. }
  { lia. }
  { cbn [Inv]. split; [lia|]. split; (split; [assumption|]); lra. }
  rewrite mrg_len in LL. apply mrg_Forall in LB as [LB1 LB2]. rewrite mrg_sum in LE. unfold osum in LE. cbn [nth lsum] in LE. rewrite V_0 in LE.
  unfold qa_finish. rewrite <- fold_left_app.
  destruct OB as ([G0 O0] & [G1 O1] & [G2 O2] & [G3 O3]).
  destruct (fold_ok M0 M1 M2 M3 HS (lx ++ ly) (nth 3 o f0)) as [[F8 F9] F10].
  { rewrite app_length. exact LL. }
  { apply Forall_app. split; assumption. }
  { split; assumption. }
  assert (LS : lsum (lx ++ ly) = lsum lx + lsum ly).
  { clear. induction lx as [|a l IH]; cbn [app lsum]; [ring|rewrite IH; ring]. }
  rewrite LS in F10. set (x3' := fold_left fadd (lx ++ ly) (nth 3 o f0)) in *.
  exists (nth 0 o f0), (nth 1 o f0), (nth 2 o f0), x3'. split; [reflexivity|].
  do 4 (split; [split; assumption|]).
  unfold QV. cbn [q0 q1 q2 q3].
  apply abs_le in LE, F10. apply Rabs_le. lra.
Qed.

Lemma q_add_core_ok M0 M1 M2 M3 x y : Scales M0 M1 M2 M3 -> QScale M0 M1 M2 M3 x -> QScale M0 M1 M2 M3 y ->
  QFin (q_add_core x y) /\ Rabs (QV (q_add_core x y) - (QV x + QV y)) <= 512 * M2 /\
  (256 * M1 <= Rabs (QV x + QV y) -> Rabs (QV (q_add_core x y) - (QV x + QV y)) <= 2400 * M3).
Proof.
  intros HS Hx Hy. assert (S := HS). destruct S as (P0 & P1 & P2 & P3 & P4 & P5 & P6 & P7).
  destruct (q_add_core_shape M0 M1 M2 M3 x y HS) as (a & b & c & d & E & [G0 O0] & [G1 O1] & [G2 O2] & [G3 O3] & D).
  { clear HS. destruct x as [x0 x1 x2 x3], y as [y0 y1 y2 y3]. unfold QScale, QFin in *. cbn [q0 q1 q2 q3] in *.
    destruct Hx as ((? & ? & ? & ?) & ? & ? & ? & ? & ? & ? & ?), Hy as ((? & ? & ? & ?) & ? & ? & ? & ? & ? & ? & ?).
    apply mrg_bounds; first [assumption|lra]. }
  rewrite E. destruct (renorm4_any M0 M1 M2 M3 a b c d HS) as (R1 & R2 & R3); [assumption..|].
  destruct (QV_mkQ4 (renorm4 a b c d)) as [Q1 Q2].
  split; [apply Q2; exact R1|]. rewrite Q1.
  set (w := QV x + QV y) in *. apply abs_le in D. split.
  - apply abs_le in R2. apply Rabs_le. lra.
  - intros K. assert (K2 : 128 * M1 <= Rabs (V a)).
    { assert (K3 : Rabs w <= Rabs (V a) + 66 * M1).
      { replace w with (V a + (w - V a)) by ring.
        eapply Rle_trans; [apply Rabs_triang|]. apply Rplus_le_compat_l.
        apply abs_le in O1, O2, O3. apply Rabs_le. lra. }
      lra. }
    specialize (R3 K2). apply abs_le in R3. apply Rabs_le. lra.
Qed.
