(** * Quad operations on two scales

    A coarse analysis that needs no ordering of the low components: the leading
    component of an operand is at most M0 and each of the other three at most M1,
    where u M0 <= M1 <= M0.  Every error is a small multiple of u M1. *)
From Coq Require Import ZArith Reals List Bool Lia Lra.
From Flocq Require Import Core IEEE754.BinarySingleNaN.
From Verif Require Import F64 F64Facts Prim DoubleM QuadM RN Spec EFT SpecialProofs QuadSpec QAddAcc QAddThms QMulAcc.
Import ListNotations.
Local Open Scope R_scope.

Definition Sc2 (M0 M1 : R) : Prop := 0 <= M1 /\ M0 <= bp 1000 /\ u * M0 <= M1 /\ M1 <= M0.

(** bounds on the four components of a result *)
Definition lb4 (B0 B1 B2 B3 : R) (t : f64 * f64 * f64 * f64) : Prop :=
  let '(a, b, c, d) := t in fb B0 a /\ fb B1 b /\ fb B2 c /\ fb B3 d.

Ltac fin4 := cbn [lb4 qsum4]; rewrite ?V_0; split;
  [repeat (split; [first [apply fb_0; lra | split; [assumption|lra]]|]); first [apply fb_0; lra | split; [assumption|lra]]
  |absall; apply Rabs_le; lra].

Lemma renorm4_L M0 M1 a b c d : Sc2 M0 M1 ->
  fb (16 * M0) a -> fb (42 * M1) b -> fb (42 * M1) c -> fb (43 * M1) d ->
  lb4 (17 * M0 + 130 * M1) (17 * (u * M0) + 900 * (u * M1)) (600 * (u * M1)) (600 * (u * M1)) (renorm4 a b c d) /\
  Rabs (qsum4 (renorm4 a b c d) - (V a + V b + V c + V d)) <= 520 * (u * M1).
Proof.
  intros (P0 & P1 & P2 & P3) [Fa Ha] [Fb Hb] [Fc Hc] [Fd Hd].
  assert (G := big18). unfold renorm4.
  step qs c d (42 * M1) (43 * M1) s1 e1 H11 H12 H13.
  step qs b s1 (42 * M1) (86 * M1) s2 e2 H21 H22 H23.
  step qs a s2 (16 * M0) (129 * M1) s3 e3 H31 H32 H33.
  assert (L1 : Rabs (V e1) <= 172 * (u * M1)) by lra.
  assert (L2 : Rabs (V e2) <= 301 * (u * M1)) by lra.
  assert (L3 : Rabs (V e3) <= 16 * (u * M0) + 388 * (u * M1)) by lra.
  assert (L4 : Rabs (V s3) <= (1 + u) * (16 * M0 + 129 * M1)) by lra.
  clear H12 H13 H22 H23 H32 H33 Ha Hb Hc Hd.
  destruct (fne0 e3) eqn:Z1.
  - step qs e3 e2 (16 * (u * M0) + 388 * (u * M1)) (301 * (u * M1)) s4 e4 H41 H42 H43.
    destruct (fne0 e4) eqn:Z2.
    + step qs e4 e1 (u * (16 * (u * M0) + 388 * (u * M1)) + 3 * u * (301 * (u * M1))) (172 * (u * M1)) s5 e5 H51 H52 H53. fin4.
    + apply fne0_V in Z2; [|assumption].
      step qs s4 e1 ((1 + u) * (16 * (u * M0) + 690 * (u * M1))) (172 * (u * M1)) s5 e5 H51 H52 H53. fin4.
  - apply fne0_V in Z1; [|assumption].
    step qs s3 e2 ((1 + u) * (16 * M0 + 129 * M1)) (301 * (u * M1)) s4 e4 H41 H42 H43.
    destruct (fne0 e4) eqn:Z2.
    + step qs e4 e1 (u * ((1 + u) * (16 * M0 + 129 * M1)) + 3 * u * (301 * (u * M1))) (172 * (u * M1)) s5 e5 H51 H52 H53. fin4.
    + apply fne0_V in Z2; [|assumption].
      step qs s4 e1 ((1 + u) * ((1 + u) * (16 * M0 + 129 * M1) + 301 * (u * M1))) (172 * (u * M1)) s5 e5 H51 H52 H53. fin4.
Qed.

(** a quick sum that comes out as zero has no error term *)
Lemma qz a b A B s e : Fin a -> Fin b -> Rabs (V a) <= A -> Rabs (V b) <= B -> A <= M18 -> B <= M18 ->
  quick_two_sum a b = (s, e) -> V s = 0 -> V e = 0.
Proof.
  intros Fa Fb Ha Hb HA HB E Z.
  destruct (two_sum_b a b Fa Fb ltac:(lra) ltac:(lra)) as (s' & e' & E' & F1 & F2 & S1 & _ & S2 & _).
  assert (ES : s' = s). { unfold two_sum, quick_two_sum in *. injection E' as <- _. injection E as <- _. reflexivity. }
  subst s'. rewrite Z, Rabs_R0, Rmult_0_r in S2. assert (Z2 : V e' = 0). { destruct (Req_dec (V e') 0) as [K|K]; [exact K|]. apply Rabs_pos_lt in K. lra. }
  destruct (quick_b a b Fa Fb ltac:(lra) ltac:(lra)) as (s2 & e2 & E2 & _ & _ & S3 & _).
  { left. replace (V b) with (- V a) by lra. rewrite Rabs_Ropp. apply Rle_refl. }
  rewrite E in E2. injection E2 as <- <-. lra.
Qed.
Lemma fne0_0 a : Fin a -> V a = 0 -> fne0 a = false.
Proof. intros F H. unfold fne0. rewrite feqb_ok by (exact F || apply Fin_0). rewrite V_0, Req_bool_true by exact H. reflexivity. Qed.
Lemma renorm4_Z M0 M1 a b c d : Sc2 M0 M1 ->
  fb (16 * M0) a -> fb (42 * M1) b -> fb (42 * M1) c -> fb (43 * M1) d ->
  let '(s0, s1, s2, s3) := renorm4 a b c d in V s0 = 0 -> V s0 + V s1 + V s2 + V s3 = 0.
Proof.
  intros (P0 & P1 & P2 & P3) [Fa Ha] [Fb Hb] [Fc Hc] [Fd Hd].
  assert (G := big18). unfold renorm4.
  step qs c d (42 * M1) (43 * M1) s1 e1 H11 H12 H13.
  step qs b s1 (42 * M1) (86 * M1) s2 e2 H21 H22 H23.
  destruct (qs a s2 (16 * M0) (129 * M1)) as (s3 & e3 & E3 & Fs3 & Fe3 & H31 & H32 & H33); [assumption|assumption|lra|lra|lra|lra|]. rewrite E3.
  assert (L1 : Rabs (V e1) <= 172 * (u * M1)) by lra.
  assert (L2 : Rabs (V e2) <= 301 * (u * M1)) by lra.
  assert (L3 : Rabs (V e3) <= 16 * (u * M0) + 388 * (u * M1)) by lra.
  assert (L4 : Rabs (V s3) <= (1 + u) * (16 * M0 + 129 * M1)) by lra.
  assert (Z3 : V s3 = 0 -> V e3 = 0) by (apply (qz a s2 (16 * M0) (129 * M1)); first [assumption|lra]).
  destruct (fne0 e3) eqn:Z1.
  - assert (N : V s3 <> 0). { intros K. rewrite (fne0_0 e3 Fe3 (Z3 K)) in Z1. discriminate. }
    step qs e3 e2 (16 * (u * M0) + 388 * (u * M1)) (301 * (u * M1)) s4 e4 H41 H42 H43.
    destruct (fne0 e4) eqn:Z2.
    + destruct (quick_two_sum e4 e1) as [? ?]. intros K. now elim N.
    + destruct (quick_two_sum s4 e1) as [? ?]. intros K. now elim N.
  - destruct (qs s3 e2 ((1 + u) * (16 * M0 + 129 * M1)) (301 * (u * M1))) as (s4 & e4 & E4 & Fs4 & Fe4 & H41 & H42 & H43); [assumption|assumption|lra|lra|lra|lra|]. rewrite E4.
    assert (Z4 : V s4 = 0 -> V e4 = 0) by (apply (qz s3 e2 ((1 + u) * (16 * M0 + 129 * M1)) (301 * (u * M1))); first [assumption|lra]).
    destruct (fne0 e4) eqn:Z2.
    + assert (N : V s4 <> 0). { intros K. rewrite (fne0_0 e4 Fe4 (Z4 K)) in Z2. discriminate. }
      destruct (quick_two_sum e4 e1) as [? ?]. intros K. now elim N.
    + destruct (quick_two_sum s4 e1) as [s5 e5] eqn:E5. intros K.
      assert (Z5 : V e5 = 0). { apply (qz s4 e1 ((1 + u) * ((1 + u) * (16 * M0 + 129 * M1) + 301 * (u * M1))) (172 * (u * M1)) s5 e5); first [assumption|lra]. }
      rewrite V_0, K, Z5. ring.
Qed.

(** the merged components *)
Definition Merged2 (M0 M1 : R) (x y : Quad) : Prop :=
  exists t0 t1 t2 t3 t4 t5 t6 t7,
    mrg (q_list x) (q_list y) = [t0; t1; t2; t3; t4; t5; t6; t7] /\
    fb M0 t0 /\ fb M0 t1 /\ (Rabs (V t1) <= Rabs (V t0) \/ Rabs (V t1) <= M1) /\
    fb M1 t2 /\ fb M1 t3 /\ fb M1 t4 /\ fb M1 t5 /\ fb M1 t6 /\ fb M1 t7.

(** leading component at most M0, the others at most M1 *)
Definition QB (M0 M1 : R) (x : Quad) : Prop :=
  fb M0 (q0 x) /\ fb M1 (q1 x) /\ fb M1 (q2 x) /\ fb M1 (q3 x).

Lemma QB_merged M0 M1 x y : M1 <= M0 -> QB M0 M1 x -> QB M0 M1 y -> Merged2 M0 M1 x y.
Proof.
  intros HM. destruct x as [x0 x1 x2 x3], y as [y0 y1 y2 y3].
  intros ([Fx0 X0] & [Fx1 X1] & [Fx2 X2] & [Fx3 X3]) ([Fy0 Y0] & [Fy1 Y1] & [Fy2 Y2] & [Fy3 Y3]). cbn [q0 q1 q2 q3] in *.
  unfold Merged2. change (q_list (mkQ x0 x1 x2 x3)) with [x0; x1; x2; x3]. change (q_list (mkQ y0 y1 y2 y3)) with [y0; y1; y2; y3].
  cbn [mrg].
  repeat match goal with
  | |- context [if abs_gt ?a ?b then _ else _] =>
      let G := fresh "G" in
      assert (G := abs_gt_V a b ltac:(assumption) ltac:(assumption)); destruct (abs_gt a b)
  end;
  (do 8 eexists; split; [reflexivity|]; unfold fb; split; [split; [assumption|lra]|]; split; [split; [assumption|lra]|];
   split; [first [left; lra|right; lra]|]; repeat (split; [split; [assumption|lra]|]); split; [assumption|lra]).
Qed.

Definition Inv2 (M0 M1 : R) (r : Z) (x y : f64) (out : list f64) : Prop :=
  (Z.of_nat (length out) <= r)%Z /\
  match out with
  | [] => fb ((3 + 2 * IZR r) * M0) x /\ fb (20 * (u * M0)) y
  | a :: out' => fb (16 * M0) a /\ lbd (40 * M1) out' /\ (length out' <= 2)%nat /\ fb ((20 + 3 * IZR r) * M1) x /\ fb (64 * (u * M1)) y
  end.
Definition OutB2 (M0 M1 : R) (o : list f64) : Prop :=
  fb (16 * M0) (nth 0 o f0) /\ fb (40 * M1) (nth 1 o f0) /\ fb (40 * M1) (nth 2 o f0) /\ fb (40 * M1) (nth 3 o f0).

Lemma nth_lbd B l n : 0 <= B -> lbd B l -> fb B (nth n l f0).
Proof.
  intros P H. destruct (nth_in_or_default n l f0) as [I|E].
  - unfold lbd in H. rewrite Forall_forall in H. exact (H _ I).
  - rewrite E. now apply fb_0.
Qed.
Lemma osum_lsum o : (length o <= 4)%nat -> osum o = lsum o.
Proof.
  intros H. destruct o as [|a [|b [|c [|d [|e o]]]]]; cbn [length] in H; try lia; unfold osum; cbn [nth lsum]; rewrite ?V_0; ring.
Qed.
Lemma lsum_app a b : lsum (a ++ b) = lsum a + lsum b.
Proof. induction a as [|c a IH]; cbn [app lsum]; [ring|rewrite IH; ring]. Qed.

Lemma loop1_L M0 M1 : Sc2 M0 M1 ->
  forall ts r x y out, lbd M1 ts -> (Z.of_nat (length ts) + r = 6)%Z -> Inv2 M0 M1 r x y out ->
  let '(o, l) := loop1 ts x y out in
  OutB2 M0 M1 o /\ (length o <= 4)%nat /\ lbd M1 l /\ (length l <= 2)%nat /\
  Rabs (lsum o + lsum l - (lsum out + V x + V y + lsum ts)) <= 64 * (u * M1).
Proof.
  intros (P0 & P1 & P2 & P3). assert (G := bp1015). assert (PM : 0 <= M0) by lra.
  induction ts as [|t ts IH]; intros r x y out HT Hr HI.
  - cbn [length] in Hr. replace r with 6%Z in * by lia. clear r Hr. destruct HI as [HL HI].
    destruct out as [|a out].
    + destruct HI as ([Fx Hx] & [Fy Hy]). cbn [loop1 length Nat.ltb Nat.leb app]. split.
      { unfold OutB2; cbn [nth]. split; [split; [assumption|lra]|]. split; [split; [assumption|lra]|]. split; apply fb_0; lra. }
      split; [cbn; lia|]. split; [constructor|]. split; [cbn; lia|]. cbn [lsum]. apply Rabs_le; lra.
    + destruct HI as (Ba & Bl & Ln & [Fx Hx] & [Fy Hy]).
      assert (Bx : fb (40 * M1) x) by (split; [assumption|lra]).
      assert (By : fb (40 * M1) y) by (split; [assumption|lra]).
      assert (OK : forall o', lbd (40 * M1) o' -> OutB2 M0 M1 (a :: o')).
      { intros o' K. unfold OutB2. split; [exact Ba|]. cbn [nth]. split; [|split]; apply nth_lbd; [lra|exact K|lra|exact K|lra|exact K]. }
      destruct out as [|b [|c [|d out]]]; cbn [length] in Ln; [..|lia]; cbn [loop1 length Nat.ltb Nat.leb app].
      * split; [apply OK; constructor; [assumption|constructor; [assumption|constructor]]|]. split; [cbn; lia|]. split; [constructor|]. split; [cbn; lia|]. cbn [lsum]. apply Rabs_le; lra.
      * inversion_clear Bl as [|? ? Bb _].
        split; [apply OK; constructor; [assumption|constructor; [assumption|constructor; [assumption|constructor]]]|]. split; [cbn; lia|]. split; [constructor|]. split; [cbn; lia|]. cbn [lsum]. apply Rabs_le; lra.
      * inversion_clear Bl as [|? ? Bb Bl']. inversion_clear Bl' as [|? ? Bc _].
        split; [apply OK; constructor; [assumption|constructor; [assumption|constructor; [assumption|constructor]]]|]. split; [cbn; lia|]. split; [constructor|]. split; [cbn; lia|]. cbn [lsum]. apply abs_le in Hy. apply Rabs_le; lra.
  - inversion_clear HT as [|? ? [Ft Ht] HT']. cbn [length] in Hr. destruct HI as [HL HI].
    assert (R0 : 0 <= IZR r) by (apply IZR_le; lia). assert (R5 : IZR r <= 5) by (apply IZR_le; lia).
    assert (Gm0 : IZR r * M0 <= 5 * M0) by (apply Rmult_le_compat_r; lra).
    assert (Gm1 : IZR r * M1 <= 5 * M1) by (apply Rmult_le_compat_r; lra).
    assert (Gn1 : 0 <= IZR r * M1) by (apply Rmult_le_pos; lra).
    destruct out as [|a0 out].
    + destruct HI as ([Fx Hx] & [Fy Hy]). cbn [loop1 length Nat.ltb Nat.leb].
      destruct (accumulate_b x y t ((3 + 2 * IZR r) * M0) (20 * (u * M0)) M1) as (s & a & b & Fs & Fa & Fb & Hs & ES & [(E & Zs & Ha & Hb)|(E & Zb & Ha)]); [assumption..|lra|lra|lra| |]; rewrite E.
      * unfold qa_push. rewrite Zs. cbn [app].
        specialize (IH (r + 1)%Z a b [s] HT' ltac:(lia)).
        destruct (loop1 ts a b [s]) as [o l]. destruct IH as (K1 & K2 & K3 & K4 & K5).
        { split; [cbn [length]; lia|]. rewrite plus_IZR. split; [split; [assumption|]|].
          - lra.
          - split; [constructor|]. split; [cbn; lia|]. split; (split; [assumption|]); lra. }
        split; [exact K1|]. split; [exact K2|]. split; [exact K3|]. split; [exact K4|].
        replace (lsum o + lsum l - _) with (lsum o + lsum l - (lsum [s] + V a + V b + lsum ts)); [exact K5|].
        cbn [lsum]. lra.
      * change (qa_push f0 []) with (@nil f64).
        specialize (IH (r + 1)%Z s a [] HT' ltac:(lia)).
        destruct (loop1 ts s a []) as [o l]. destruct IH as (K1 & K2 & K3 & K4 & K5).
        { split; [cbn [length]; lia|]. rewrite plus_IZR. split; (split; [assumption|]); [|lra]. lra. }
        split; [exact K1|]. split; [exact K2|]. split; [exact K3|]. split; [exact K4|].
        replace (lsum o + lsum l - _) with (lsum o + lsum l - (lsum [] + V s + V a + lsum ts)); [exact K5|].
        cbn [lsum]. lra.
    + destruct HI as (Ba & Bl & Ln & [Fx Hx] & [Fy Hy]).
      cbn [loop1]. assert (LT : Nat.ltb (length (a0 :: out)) 4 = true) by (apply Nat.ltb_lt; cbn [length]; lia). rewrite LT.
      destruct (accumulate_b x y t ((20 + 3 * IZR r) * M1) (64 * (u * M1)) M1) as (s & a & b & Fs & Fa & Fb & Hs & ES & [(E & Zs & Ha & Hb)|(E & Zb & Ha)]); [assumption..|lra|lra|lra| |]; rewrite E.
      * unfold qa_push. rewrite Zs.
        assert (Bs : fb (40 * M1) s) by (split; [assumption|lra]).
        assert (Bl2 : lbd (40 * M1) (out ++ [s])) by (apply Forall_app; split; [exact Bl|constructor; [exact Bs|constructor]]).
        assert (ES' : lsum ((a0 :: out) ++ [s]) = lsum (a0 :: out) + V s) by (rewrite lsum_app; cbn [lsum]; ring).
        destruct (Nat.eq_dec (length out) 2) as [L2|L2].
        -- assert (EL : loop1 ts a b ((a0 :: out) ++ [s]) = ((a0 :: out) ++ [s], ts)).
           { destruct out as [|o1 [|o2 [|o3 out]]]; cbn [length] in L2; try lia. destruct ts; reflexivity. }
           rewrite EL. split.
           { unfold OutB2. cbn [app nth]. split; [exact Ba|]. split; [|split]; apply nth_lbd; [lra|exact Bl2|lra|exact Bl2|lra|exact Bl2]. }
           split; [cbn [app length]; rewrite app_length; cbn [length]; lia|]. split; [exact HT'|]. cbn [length] in HL. split; [lia|].
           rewrite ES'. cbn [lsum]. apply abs_le in Ha, Hb. apply Rabs_le. lra.
        -- specialize (IH (r + 1)%Z a b ((a0 :: out) ++ [s]) HT' ltac:(lia)).
           destruct (loop1 ts a b ((a0 :: out) ++ [s])) as [o l]. destruct IH as (K1 & K2 & K3 & K4 & K5).
           { split; [cbn [app length] in *; rewrite app_length; cbn [length]; lia|]. cbn [app]. rewrite plus_IZR. split; [exact Ba|]. split; [exact Bl2|].
             split; [rewrite app_length; cbn [length]; lia|]. split; (split; [assumption|]); lra. }
           split; [exact K1|]. split; [exact K2|]. split; [exact K3|]. split; [exact K4|].
           replace (lsum o + lsum l - _) with (lsum o + lsum l - (lsum ((a0 :: out) ++ [s]) + V a + V b + lsum ts)); [exact K5|].
           rewrite ES'. cbn [lsum]. lra.
      * change (qa_push f0 (a0 :: out)) with (a0 :: out).
        specialize (IH (r + 1)%Z s a (a0 :: out) HT' ltac:(lia)).
        destruct (loop1 ts s a (a0 :: out)) as [o l]. destruct IH as (K1 & K2 & K3 & K4 & K5).
        { split; [lia|]. rewrite plus_IZR. split; [exact Ba|]. split; [exact Bl|]. split; [exact Ln|]. split; (split; [assumption|]); lra. }
        split; [exact K1|]. split; [exact K2|]. split; [exact K3|]. split; [exact K4|].
        replace (lsum o + lsum l - _) with (lsum o + lsum l - (lsum (a0 :: out) + V s + V a + lsum ts)); [exact K5|].
        cbn [lsum]. lra.
Qed.

Lemma fold_L M0 M1 : Sc2 M0 M1 -> forall l a, (length l <= 2)%nat -> lbd M1 l -> fb (40 * M1) a ->
  fb (43 * M1) (fold_left fadd l a) /\ Rabs (V (fold_left fadd l a) - (V a + lsum l)) <= 84 * (u * M1).
Proof.
  intros (P0 & P1 & P2 & P3) l a Hl Hb [Fa Ha]. assert (G := big18).
  destruct l as [|b [|c [|d l]]]; cbn [length] in Hl; [| | |lia]; cbn [fold_left lsum].
  - split; [split; [assumption|lra]|]. apply Rabs_le. lra.
  - inversion_clear Hb as [|? ? [Fb Hb1] _].
    destruct (fa a b (40 * M1) M1) as (F & H1 & H2); [assumption..|lra|lra|].
    split; [split; [assumption|lra]|]. apply abs_le in H1. apply Rabs_le. lra.
  - inversion_clear Hb as [|? ? [Fb Hb1] Hb2]. inversion_clear Hb2 as [|? ? [Fc Hb3] _].
    destruct (fa a b (40 * M1) M1) as (F & H1 & H2); [assumption..|lra|lra|].
    destruct (fa (fadd a b) c ((1 + u) * (41 * M1)) M1) as (F' & H3 & H4); [assumption..|lra|lra|lra|lra|].
    split; [split; [assumption|lra]|]. apply abs_le in H1, H3. apply Rabs_le. lra.
Qed.

Definition lbQ (B0 B1 B2 B3 : R) (x : Quad) : Prop := fb B0 (q0 x) /\ fb B1 (q1 x) /\ fb B2 (q2 x) /\ fb B3 (q3 x).
Lemma lbQ_mkQ4 B0 B1 B2 B3 t : lb4 B0 B1 B2 B3 t -> lbQ B0 B1 B2 B3 (mkQ4 t).
Proof. destruct t as [[[a b] c] d]. exact (fun H => H). Qed.
Lemma lbQ_fin B0 B1 B2 B3 x : lbQ B0 B1 B2 B3 x -> QFin x.
Proof. intros ([F0 _] & [F1 _] & [F2 _] & [F3 _]). split; [|split; [|split]]; assumption. Qed.

Lemma q_add_core_LZ M0 M1 x y : Sc2 M0 M1 -> QB M0 M1 x -> QB M0 M1 y ->
  lbQ (17 * M0 + 130 * M1) (17 * (u * M0) + 900 * (u * M1)) (600 * (u * M1)) (600 * (u * M1)) (q_add_core x y) /\
  Rabs (QV (q_add_core x y) - (QV x + QV y)) <= 672 * (u * M1) /\
  (V (q0 (q_add_core x y)) = 0 -> QV (q_add_core x y) = 0).
Proof.
  intros HS Hx Hy. assert (S := HS). destruct S as (P0 & P1 & P2 & P3).
  assert (G := big18). assert (HM := QB_merged M0 M1 x y P3 Hx Hy). clear Hx Hy.
  destruct x as [x0 x1 x2 x3], y as [y0 y1 y2 y3].
  destruct HM as (t0 & t1 & t2 & t3 & t4 & t5 & t6 & t7 & EM & [F0 B0] & [F1 B1] & Or & B2 & B3 & B4 & B5 & B6 & B7).
  change (q_list (mkQ x0 x1 x2 x3)) with [x0; x1; x2; x3] in EM. change (q_list (mkQ y0 y1 y2 y3)) with [y0; y1; y2; y3] in EM.
  assert (SM := mrg_sum [x0; x1; x2; x3] [y0; y1; y2; y3]). rewrite EM in SM. cbn [lsum] in SM.
  unfold q_add_core. change (q_list (mkQ x0 x1 x2 x3)) with [x0; x1; x2; x3]. change (q_list (mkQ y0 y1 y2 y3)) with [y0; y1; y2; y3].
  destruct (qa_take [x0; x1; x2; x3] [y0; y1; y2; y3]) as [[a rx] ry] eqn:T1.
  apply qa_take_mrg in T1 as [T1 L1]; [|cbn; lia]. rewrite EM in T1. injection T1 as <- T1. cbn [length Nat.add] in L1.
  destruct (qa_take rx ry) as [[b rx'] ry'] eqn:T2.
  apply qa_take_mrg in T2 as [T2 L2]; [|lia]. rewrite <- T1 in T2. injection T2 as <- T2.
  unfold renorm2.
  assert (X : exists s e, quick_two_sum t0 t1 = (s, e) /\ Fin s /\ Fin e /\ Rabs (V s + V e - (V t0 + V t1)) <= 2 * (u * M1) /\
     Rabs (V e) <= 8 * (u * M0) /\ Rabs (V s) <= (1 + u) * (2 * M0)).
  { destruct Or as [Or|Or].
    - destruct (qs_ord t0 t1 M0 M0) as (s & e & E & Fs & Fe & H1' & H2' & H3'); [assumption..|lra|lra|left; exact Or|].
      exists s, e. split; [exact E|]. split; [exact Fs|]. split; [exact Fe|]. rewrite H1'.
      replace (V t0 + V t1 - (V t0 + V t1)) with 0 by ring. rewrite Rabs_R0. lra.
    - destruct (qs t0 t1 M0 M1) as (s & e & E & Fs & Fe & H1' & H2' & H3'); [assumption..|lra|lra|].
      exists s, e. split; [exact E|]. split; [exact Fs|]. split; [exact Fe|]. lra. }
  destruct X as (s & e & E & Fs & Fe & H1' & H2' & H3'). rewrite E.
  assert (QL := qa_loop_mrg rx' ry' s e []). rewrite <- T2 in QL.
  assert (LO := loop1_L M0 M1 HS [t2; t3; t4; t5; t6; t7] 0%Z s e []).
  destruct (qa_loop rx' ry' s e []) as [[o lx] ly]. rewrite QL in LO. clear QL.
  destruct LO as (OB & OL & LB & LL & LE).
  { repeat (constructor; [assumption|]). constructor. }
  { reflexivity. }
  { split; [cbn; lia|]. split; (split; [assumption|]); lra. }
  rewrite mrg_len in LL. apply mrg_Forall in LB as [LB1 LB2]. rewrite mrg_sum, <- (osum_lsum o OL) in LE. unfold osum in LE. cbn [nth lsum] in LE.
  unfold qa_finish. rewrite <- fold_left_app.
  destruct OB as (O0 & O1 & O2 & O3).
  destruct (fold_L M0 M1 HS (lx ++ ly) (nth 3 o f0)) as [F8 F10].
  { rewrite app_length. exact LL. }
  { apply Forall_app. split; assumption. }
  { exact O3. }
  rewrite lsum_app in F10. set (x3' := fold_left fadd (lx ++ ly) (nth 3 o f0)) in *.
  destruct (renorm4_L M0 M1 (nth 0 o f0) (nth 1 o f0) (nth 2 o f0) x3' HS) as [R1 R2].
  { exact O0. } { destruct O1 as [? ?]; split; [assumption|lra]. } { destruct O2 as [? ?]; split; [assumption|lra]. } { exact F8. }
  destruct (QV_mkQ4 (renorm4 (nth 0 o f0) (nth 1 o f0) (nth 2 o f0) x3')) as [Q1 _].
  split; [apply lbQ_mkQ4; exact R1|]. split.
  - rewrite Q1. unfold QV. cbn [q0 q1 q2 q3]. clearbody x3'.
    apply abs_le in LE, F10, R2, H1'. apply Rabs_le. lra.
  - assert (Z := renorm4_Z M0 M1 (nth 0 o f0) (nth 1 o f0) (nth 2 o f0) x3' HS).
    destruct (renorm4 (nth 0 o f0) (nth 1 o f0) (nth 2 o f0) x3') as [[[s0 s1] s2] s3]. unfold QV, mkQ4. cbn [q0 q1 q2 q3].
    apply Z; [exact O0|destruct O1 as [? ?]; split; [assumption|lra]|destruct O2 as [? ?]; split; [assumption|lra]|exact F8].
Qed.
Lemma q_add_core_L M0 M1 x y : Sc2 M0 M1 -> QB M0 M1 x -> QB M0 M1 y ->
  lbQ (17 * M0 + 130 * M1) (17 * (u * M0) + 900 * (u * M1)) (600 * (u * M1)) (600 * (u * M1)) (q_add_core x y) /\
  Rabs (QV (q_add_core x y) - (QV x + QV y)) <= 672 * (u * M1).
Proof. intros H1 H2 H3. destruct (q_add_core_LZ M0 M1 x y H1 H2 H3) as (A & B & _). split; assumption. Qed.

Lemma renorm5_L M0 M1 Bb Bc Bd Be a b c d e : Sc2 M0 M1 -> 0 <= Bb -> 0 <= Bc -> 0 <= Bd -> 0 <= Be -> Bb + Bc + Bd + Be <= M1 ->
  fb M0 a -> fb Bb b -> fb Bc c -> fb Bd d -> fb Be e ->
  lb4 (M0 + M1 + 32 * (u * M0)) (u * M0 + 24 * (u * M1)) (9 * (u * M1)) (9 * (u * M1)) (renorm5 a b c d e) /\
  Rabs (qsum4 (renorm5 a b c d e) - (V a + V b + V c + V d + V e)) <= 9 * (u * M1).
Proof.
  intros (P0 & P1 & P2 & P3) Pb Pc Pd Pe PS [Fa Ha] [Fb Hb] [Fc Hc] [Fd Hd] [Fe He].
  assert (G := big18). unfold renorm5.
  step qs d e Bd Be s1 e1 H11 H12 H13.
  step qs c s1 Bc ((1 + u) * (Bd + Be)) s2 e2 H21 H22 H23.
  step qs b s2 Bb ((1 + u) * (Bc + (1 + u) * (Bd + Be))) s3 e3 H31 H32 H33.
  assert (L3 : Rabs (V s3) <= (1 + 4 * u) * M1) by lra.
  step qs a s3 M0 ((1 + 4 * u) * M1) s4 e4 H41 H42 H43.
  assert (K1 : Rabs (V e1) <= 3 * (u * M1)) by lra.
  assert (K2 : Rabs (V e2) <= (3 + / 1000) * (u * M1)) by lra.
  assert (K3 : Rabs (V e3) <= (3 + / 1000) * (u * M1)) by lra.
  assert (K4 : Rabs (V e4) <= u * M0 + (3 + / 1000) * (u * M1)) by lra.
  assert (K5 : Rabs (V s4) <= (1 + u) * (M0 + (1 + 4 * u) * M1)) by lra.
  assert (D1 : Rabs (V s4 + V e4 + V e3 + V e2 + V e1 - (V a + V b + V c + V d + V e)) <= (8 + / 1000) * (u * M1)).
  { absall. apply Rabs_le. lra. }
  set (T := V a + V b + V c + V d + V e) in *. clearbody T.
  clear H11 H12 H13 H21 H22 H23 H31 H32 H33 H41 H42 H43 L3 Ha Hb Hc Hd He PS Pb Pc Pd Pe.
  destruct (fne0 e4) eqn:Z1.
  - step qs e4 e3 (u * M0 + (3 + / 1000) * (u * M1)) ((3 + / 1000) * (u * M1)) s5 e5 H51 H52 H53.
    destruct (fne0 e5) eqn:Z2.
    + step qs e5 e2 ((1 + / 1000) * (u * M1)) ((3 + / 1000) * (u * M1)) s6 e6 H61 H62 H63.
      destruct (fne0 e6) eqn:Z3.
      * sf e6 e1 (/ 1000 * (u * M1)) (3 * (u * M1)) H71 H72. fin4.
      * apply fne0_V in Z3; [|assumption]. step qs s6 e1 ((4 + / 100) * (u * M1)) (3 * (u * M1)) s7 e7 H71 H72 H73. fin4.
    + apply fne0_V in Z2; [|assumption]. step qs s5 e2 (u * M0 + (7 + / 50) * (u * M1)) ((3 + / 1000) * (u * M1)) s6 e6 H61 H62 H63.
      destruct (fne0 e6) eqn:Z3.
      * step qs e6 e1 ((1 + / 1000) * (u * M1)) (3 * (u * M1)) s7 e7 H71 H72 H73. fin4.
      * apply fne0_V in Z3; [|assumption]. step qs s6 e1 (u * M0 + (11 + / 5) * (u * M1)) (3 * (u * M1)) s7 e7 H71 H72 H73. fin4.
  - apply fne0_V in Z1; [|assumption]. step qs s4 e3 ((1 + u) * (M0 + (1 + 4 * u) * M1)) ((3 + / 1000) * (u * M1)) s5 e5 H51 H52 H53.
    destruct (fne0 e5) eqn:Z2.
    + step qs e5 e2 (u * M0 + (2 + / 100) * (u * M1)) ((3 + / 1000) * (u * M1)) s6 e6 H61 H62 H63.
      destruct (fne0 e6) eqn:Z3.
      * step qs e6 e1 ((1 + / 1000) * (u * M1)) (3 * (u * M1)) s7 e7 H71 H72 H73. fin4.
      * apply fne0_V in Z3; [|assumption]. step qs s6 e1 (u * M0 + 7 * (u * M1)) (3 * (u * M1)) s7 e7 H71 H72 H73. fin4.
    + apply fne0_V in Z2; [|assumption]. step qs s5 e2 (M0 + M1 + 12 * (u * M0)) ((3 + / 1000) * (u * M1)) s6 e6 H61 H62 H63.
      destruct (fne0 e6) eqn:Z3.
      * step qs e6 e1 (u * M0 + 14 * (u * M1)) (3 * (u * M1)) s7 e7 H71 H72 H73. fin4.
      * apply fne0_V in Z3; [|assumption]. step qs s6 e1 (M0 + M1 + 20 * (u * M0)) (3 * (u * M1)) s7 e7 H71 H72 H73. fin4.
Qed.
Lemma q_mul_f64_L M0 M1 a b : Sc2 M0 M1 -> 5 * M1 <= M0 -> 2 * M0 <= bp 1000 -> M1 <= bp 90 -> eta <= / 1024 * (u * (u * M1)) ->
  Q500 a -> fb (bp 500) b ->
  Rabs (V (q0 a) * V b) <= M0 -> Rabs (V (q1 a) * V b) <= M1 -> Rabs (V (q2 a) * V b) <= M1 -> Rabs (V (q3 a) * V b) <= M1 ->
  lbQ (M0 + 5 * M1 + 64 * (u * M0)) (2 * (u * M0) + 128 * (u * M1)) (45 * (u * M1)) (45 * (u * M1)) (q_mul_f64 a b) /\
  Rabs (QV (q_mul_f64 a b) - QV a * V b) <= 53 * (u * M1).
Proof.
  intros HS HG HG2 HB He. assert (S := HS). destruct S as (P0 & P1 & P2 & P3).
  assert (Pe := bpow_gt_0 radix2 (-1073)).
  destruct a as [a0 a1 a2 a3]. unfold Q500. cbn [q0 q1 q2 q3].
  intros ((Fx0 & Bx0) & (Fx1 & Bx1) & (Fx2 & Bx2) & (Fx3 & Bx3)) (Fb & Bb) C0 C1 C2 C3.
  assert (G : 2 * bp 1000 = bp 1001) by (change 2 with (bp 1); rewrite <- bpow_plus; reflexivity).
  assert (G18 := big18). assert (G10 : bp 1000 <= bp 1010) by (apply bpow_le; lia).
  unfold q_mul_f64. cbn [q0 q1 q2 q3].
  tp a0 b M0 h0 l0 ea0 eb0 ec0. tp a1 b M1 h1 l1 ea1 eb1 ec1. tp a2 b M1 h2 l2 ea2 eb2 ec2. fm a3 b M1 ea3 ec3.
  set (h3 := fmul a3 b) in *. clearbody h3.
  st h1 l0 ((101/100) * M1) ((101/100) * M1) s1 t0 S1 S2 S3.
  destruct (sum33 t0 h2 l1 M1 (/100) (101/100) (/100)) as (s2 & t1 & t2 & E1 & Fs2 & Ft1 & Ft2 & S4 & S5 & S6 & S7); [assumption..|lra|lra|lra|lra|lra|lra|lra|lra|].
  rewrite E1; clear E1. unfold three_two_sum.
  st t1 h3 (u * (3 * M1)) ((101/100) * M1) w0 w1 X1 X2 X3.
  st l2 w0 (2 * (u * M1)) ((102/100) * M1) s3 w2 X4 X5 X6.
  sf w1 w2 (2 * (u * M1)) (2 * (u * M1)) X7 X8. set (t3 := fadd w1 w2) in *. clearbody t3.
  assert (T2 : Rabs (V t2) <= u * (u * (3 * M1))) by lra.
  assert (T3 : Rabs (V t3) <= 5 * (u * M1)) by lra.
  assert (B90 : bp 90 <= bp 500) by (apply bpow_le; lia).
  assert (PR : Rabs (V t2 * V t3) <= / 1024 * (u * M1)).
  { rewrite Rabs_mult. eapply Rle_trans; [apply Rmult_le_compat; [apply Rabs_pos|apply Rabs_pos|exact T2|exact T3]|].
    assert (Hk : u * (u * (3 * M1)) * 5 <= / 1024).
    { assert (Hu : u * (u * bp 90) = bp (-16)) by (rewrite <- u_bp, <- !bpow_plus; reflexivity).
      assert (H16 : bp (-16) = / 65536) by reflexivity. rewrite H16 in Hu. lra. }
    assert (PU : 0 <= u * M1) by lra. nra. }
  destruct (fmb t2 t3 (/ 1024 * (u * M1))) as (F4z & Y1 & Y2); [assumption|assumption|lra|lra|exact PR|].
  set (s4 := fmul t2 t3) in *. clearbody s4.
  destruct (renorm5_L ((1 + 2 * u) * M0) (5 * M1) ((205/100) * M1) ((12/10) * M1) ((12/10) * M1) ((1/10) * M1) h0 s1 s2 s3 s4) as [W1 W2].
  { repeat split; lra. } 1-5: lra. 1-5: split; [assumption|lra].
  split.
  - apply lbQ_mkQ4. destruct (renorm5 h0 s1 s2 s3 s4) as [[[? ?] ?] ?]. cbn [lb4] in *.
    destruct W1 as ([? ?] & [? ?] & [? ?] & [? ?]). repeat split; first [assumption|lra].
  - destruct (QV_mkQ4 (renorm5 h0 s1 s2 s3 s4)) as [Q1 _]. rewrite Q1. set (q := qsum4 (renorm5 h0 s1 s2 s3 s4)) in *. clearbody q.
    replace (QV (mkQ a0 a1 a2 a3) * V b) with (V a0 * V b + V a1 * V b + V a2 * V b + V a3 * V b) by (unfold QV; cbn [q0 q1 q2 q3]; ring).
    set (m0 := V a0 * V b) in *. set (m1 := V a1 * V b) in *. set (m2 := V a2 * V b) in *. set (m3 := V a3 * V b) in *. clearbody m0 m1 m2 m3.
    clear ec0 ec1 ec2 eb0 eb1 S2 S3 S5 X2 X3 X5 X6. clear PR. set (z := V t2 * V t3) in *. clear Y1. clearbody z. absall. apply Rabs_le. lra.
Qed.

Lemma q_mul_core_L N0 N1 N2 x y : Sc2 N0 N1 -> 130 * N1 <= N0 -> 2 * N0 <= bp 1000 -> 0 <= N2 -> N2 <= N1 -> eta <= / 1024 * (u * (u * N1)) ->
  Q500 x -> Q500 y -> QProd N0 N1 N1 N1 N2 N2 x y ->
  lbQ (N0 + 140 * N1 + 64 * (u * N0)) (2 * (u * N0) + 4000 * (u * N1)) (1260 * (u * N1)) (1260 * (u * N1)) (q_mul_core x y) /\
  Rabs (QV (q_mul_core x y) - QV x * QV y) <= 1270 * (u * N1) + 4 * N2.
Proof.
  intros HS HG HG2 PN2 P4 He. assert (S := HS). destruct S as (P0 & P1 & P2 & P3).
  assert (Pe := bpow_gt_0 radix2 (-1073)).
  destruct x as [x0 x1 x2 x3], y as [y0 y1 y2 y3].
  unfold Q500, QProd. cbn [q0 q1 q2 q3].
  intros ((Fx0 & Bx0) & (Fx1 & Bx1) & (Fx2 & Bx2) & (Fx3 & Bx3)) ((Fy0 & By0) & (Fy1 & By1) & (Fy2 & By2) & (Fy3 & By3))
    (M00 & M01 & M10 & M02 & M11 & M20 & M03 & M12 & M21 & M30 & M13 & M22 & M31 & M23 & M32 & M33).
  assert (G : 2 * bp 1000 = bp 1001) by (change 2 with (bp 1); rewrite <- bpow_plus; reflexivity).
  assert (G18 := big18). assert (G10 : bp 1000 <= bp 1010) by (apply bpow_le; lia).
  unfold q_mul_core. cbn [q0 q1 q2 q3].
  tp x0 y0 N0 h0 l0 ea0 eb0 ec0. tp x0 y1 N1 h1 l1 ea1 eb1 ec1. tp x1 y0 N1 h2 l2 ea2 eb2 ec2.
  tp x0 y2 N1 h3 l3 ea3 eb3 ec3. tp x1 y1 N1 h4 l4 ea4 eb4 ec4. tp x2 y0 N1 h5 l5 ea5 eb5 ec5.
  tp x0 y3 N1 h6 l6 ea6 eb6 ec6. tp x1 y2 N1 h7 l7 ea7 eb7 ec7. tp x2 y1 N1 h8 l8 ea8 eb8 ec8. tp x3 y0 N1 h9 l9 ea9 eb9 ec9.
  fm x1 y3 N2 ea10 eb10. fm x2 y2 N2 ea11 eb11. fm x3 y1 N2 ea12 eb12.
  set (ha := fmul x1 y3) in *. set (hb := fmul x2 y2) in *. set (hc := fmul x3 y1) in *. clearbody ha hb hc.
  destruct (sum33 h1 h2 l0 N1 (101/100) (101/100) (101/100)) as (r1 & t0 & t1 & E1 & Fr1 & Ft0 & Ft1 & S1 & S2 & S3 & S4); [assumption|assumption|assumption|lra|lra|lra|lra|lra|lra|lra|lra|].
  rewrite E1; clear E1.
  destruct (sum63 t0 h3 h4 h5 l1 l2 N1) as (r2 & t2 & t3 & E1 & Fr2 & Ft2 & Ft3 & S5 & S6 & S7 & S8); [assumption|assumption|assumption|assumption|assumption|assumption|lra|lra|lra|lra|lra|lra|lra|lra|].
  rewrite E1; clear E1.
  destruct (sum92 t1 t2 h6 h7 h8 h9 l3 l4 l5 N1) as (r3 & t4 & E1 & Fr3 & Ft4 & S9 & S10 & S11); [assumption|assumption|assumption|assumption|assumption|assumption|assumption|assumption|assumption|lra|lra|lra|lra|lra|lra|lra|lra|lra|lra|lra|].
  rewrite E1; clear E1.
  assert (K3 : Rabs (V t3) <= u * N1) by lra. assert (K4 : Rabs (V t4) <= 400 * (u * N1)) by lra.
  assert (J0 : Rabs (V ha) <= (11/10) * N1) by lra. assert (J1 : Rabs (V hb) <= (11/10) * N1) by lra. assert (J2 : Rabs (V hc) <= (11/10) * N1) by lra.
  assert (J6 : Rabs (V l6) <= 2 * (u * N1)) by lra. assert (J7 : Rabs (V l7) <= 2 * (u * N1)) by lra.
  assert (J8 : Rabs (V l8) <= 2 * (u * N1)) by lra. assert (J9 : Rabs (V l9) <= 2 * (u * N1)) by lra.
  assert (R1 : Rabs (V r1) <= 4 * N1) by lra. assert (R2 : Rabs (V r2) <= 21 * N1) by lra. assert (R3 : Rabs (V r3) <= 100 * N1) by lra.
  assert (R0 : Rabs (V h0) <= (1 + 2 * u) * N0) by lra.
  assert (Z0 : Rabs (V ha - V x1 * V y3 + (V hb - V x2 * V y2) + (V hc - V x3 * V y1)) <= 4 * (u * N1)) by (absall; apply Rabs_le; lra).
  clear ec0 ec1 ec2 ec3 ec4 ec5 ec6 ec7 ec8 ec9 eb0 eb1 eb2 eb3 eb4 eb5 eb6 eb7 eb8 eb9 eb10 eb11 eb12 S2 S3 S4 S6 S7 S8 S10 S11 ea10 ea11 ea12.
  clear Bx0 Bx1 Bx2 Bx3 By0 By1 By2 By3 M00 M01 M10 M02 M11 M20 M03 M12 M21 M30 M13 M22 M31.
  sf t3 t4 (u * N1) (400 * (u * N1)) Z1 Z1'.
  sf (fadd t3 t4) ha (402 * (u * N1)) ((11/10) * N1) Z2 Z2'. set (g1 := fadd t3 t4) in *.
  sf (fadd g1 ha) hb ((12/10) * N1) ((11/10) * N1) Z3 Z3'. set (g2 := fadd g1 ha) in *.
  sf (fadd g2 hb) hc ((24/10) * N1) ((11/10) * N1) Z4 Z4'. set (g3 := fadd g2 hb) in *.
  sf (fadd g3 hc) l6 ((36/10) * N1) (2 * (u * N1)) Z5 Z5'. set (g4 := fadd g3 hc) in *.
  sf (fadd g4 l6) l7 ((37/10) * N1) (2 * (u * N1)) Z6 Z6'. set (g5 := fadd g4 l6) in *.
  sf (fadd g5 l7) l8 ((38/10) * N1) (2 * (u * N1)) Z7 Z7'. set (g6 := fadd g5 l7) in *.
  sf (fadd g6 l8) l9 ((39/10) * N1) (2 * (u * N1)) Z8 Z8'. set (g7 := fadd g6 l8) in *.
  set (r4 := fadd g7 l9) in *.
  assert (Q4 : Rabs (V r4) <= 4 * N1) by lra.
  assert (D4 : Rabs (V r4 - (V t3 + V t4 + V ha + V hb + V hc + V l6 + V l7 + V l8 + V l9)) <= 30 * (u * N1)) by (absall; apply Rabs_le; lra).
  clear Z1 Z2 Z3 Z4 Z5 Z6 Z7 Z8 Z1' Z2' Z3' Z4' Z5' Z6' Z7' Z8'.
  clearbody r4.
  destruct (renorm5_L ((1 + 2 * u) * N0) (130 * N1) (4 * N1) (21 * N1) (100 * N1) (4 * N1) h0 r1 r2 r3 r4) as [W1 W2].
  { repeat split; lra. } 1-5: lra. 1-5: split; [assumption|lra].
  split.
  - apply lbQ_mkQ4. destruct (renorm5 h0 r1 r2 r3 r4) as [[[? ?] ?] ?]. cbn [lb4] in *.
    destruct W1 as ([? ?] & [? ?] & [? ?] & [? ?]). repeat split; first [assumption|lra].
  - destruct (QV_mkQ4 (renorm5 h0 r1 r2 r3 r4)) as [Q1 Q2]. rewrite Q1.
  replace (QV (mkQ x0 x1 x2 x3) * QV (mkQ y0 y1 y2 y3)) with
    (V x0 * V y0 + V x0 * V y1 + V x1 * V y0 + V x0 * V y2 + V x1 * V y1 + V x2 * V y0 + V x0 * V y3 + V x1 * V y2 + V x2 * V y1 + V x3 * V y0 +
     V x1 * V y3 + V x2 * V y2 + V x3 * V y1 + V x2 * V y3 + V x3 * V y2 + V x3 * V y3) by (unfold QV; cbn [q0 q1 q2 q3]; ring).
  set (m00 := V x0 * V y0) in *. set (m01 := V x0 * V y1) in *. set (m10 := V x1 * V y0) in *.
  set (m02 := V x0 * V y2) in *. set (m11 := V x1 * V y1) in *. set (m20 := V x2 * V y0) in *.
  set (m03 := V x0 * V y3) in *. set (m12 := V x1 * V y2) in *. set (m21 := V x2 * V y1) in *. set (m30 := V x3 * V y0) in *.
  set (m13 := V x1 * V y3) in *. set (m22 := V x2 * V y2) in *. set (m31 := V x3 * V y1) in *.
  set (m23 := V x2 * V y3) in *. set (m32 := V x3 * V y2) in *. set (m33 := V x3 * V y3) in *.
  clearbody m00 m01 m10 m02 m11 m20 m03 m12 m21 m30 m13 m22 m31 m23 m32 m33.
  set (q := qsum4 (renorm5 h0 r1 r2 r3 r4)) in *. clearbody q.
  clear K3 K4 J0 J1 J2 J6 J7 J8 J9 R0 R1 R2 R3 Q4.
  absall. apply Rabs_le. split; lra.
Qed.
