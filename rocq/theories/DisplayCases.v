(** * Instances of the display theorems for Double and Quad *)
From Coq Require Import ZArith Reals Lra Lia List Bool String.
From Flocq Require Import Core IEEE754.BinarySingleNaN.
From Verif Require Import RN F64 Prim DoubleM QuadM Spec F64Facts SpecialProofs Exact ExactProofs ParseM ParseSpec ParseNum DisplayM DisplaySpec DisplayProofs DisplayText DisplayThms DisplayDigits DisplayNum DisplayMore DisplayLog DisplayWit.
Import ListNotations.
Local Open Scope Z_scope.
Local Open Scope string_scope.

Lemma padded_keeps f signed s :
  (forall w, f_width f = Some w -> (w <= List.length s)%nat -> padded f signed s = s) /\
  ((exists a b, padded f signed s = (a ++ s ++ b)%list) \/
   (signed = true /\ exists c r k, s = c :: r /\ padded f signed s = c :: (repeat 48 k ++ r)%list)).
Proof.
  unfold padded. split.
  - intros w -> L. replace (w - List.length s)%nat with 0%nat by lia. cbn [repeat Nat.div Nat.sub app].
    destruct (f_align f) as [[]|]; [apply app_nil_r|reflexivity| |].
    { change (0 / 2)%nat with 0%nat. cbn [repeat Nat.sub app]. now rewrite app_nil_r. }
    destruct (f_zero f); [|reflexivity]. destruct s; [reflexivity|]. now destruct signed.
  - destruct (f_width f) as [w|]; [|left; exists [], []; now rewrite app_nil_r].
    destruct (f_align f) as [[]|].
    + left. exists [], (repeat (f_fill f) (w - List.length s)). reflexivity.
    + left. exists (repeat (f_fill f) (w - List.length s)), []. now rewrite app_nil_r.
    + left. eexists. eexists. reflexivity.
    + destruct (f_zero f).
      * destruct s as [|c s]; [left; exists (repeat 48 (w - 0)), []; cbn; now rewrite app_nil_r|].
        destruct signed; [right; split; [auto|]; eauto|left; eexists; exists []; now rewrite app_nil_r].
      * left. eexists. exists []. now rewrite app_nil_r.
Qed.

Lemma dz_class x : d_is_zero x = true -> d_is_nan x = false /\ d_is_infinite x = false /\ d_is_finite x = true.
Proof. unfold d_is_zero, d_is_nan, d_is_infinite, d_is_finite. intros H. destruct (feqb_0 _ H) as [s ->]. auto. Qed.
Lemma qz_class x : q_is_zero x = true -> q_is_nan x = false /\ q_is_infinite x = false /\ q_is_finite x = true.
Proof. unfold q_is_zero, q_is_nan, q_is_infinite, q_is_finite. intros H. destruct (feqb_0 _ H) as [s ->]. auto. Qed.
Lemma zero_prec lm dbg f p : f_prec f = Some p -> f_width f = None ->
  (forall x, d_is_zero x = true -> d_display lm dbg x f = Val (sign_text (d_is_sign_negative x) f ++ fixed_text [0] (repeat 0 p))%list) /\
  (forall x, q_is_zero x = true -> q_display lm dbg x f = Val (sign_text (q_is_sign_negative x) f ++ fixed_text [0] (repeat 0 p))%list).
Proof.
  intros Hp Hw. split; intros x Z.
  - destruct (dz_class x Z) as [A [B _]]. unfold d_display. rewrite (display_zero d_disp lm dbg x f A B Z), Hp. unfold padded. now rewrite Hw.
  - destruct (qz_class x Z) as [A [B _]]. unfold q_display. rewrite (display_zero q_disp lm dbg x f A B Z), Hp. unfold padded. now rewrite Hw.
Qed.

Lemma fin_nn a : fis_nan a = false -> fis_infinite a = false -> is_finite a = true. Proof. destruct a; easy. Qed.
Lemma d_fin x : d_is_nan x = false -> d_is_infinite x = false -> d_is_finite x = true.
Proof. unfold d_is_nan, d_is_infinite, d_is_finite. destruct (d0 x); easy. Qed.
Lemma q_fin x : q_is_nan x = false -> q_is_infinite x = false -> q_is_finite x = true.
Proof. unfold q_is_nan, q_is_infinite, q_is_finite. destruct (q0 x); easy. Qed.
Lemma d_abs_hi x : d_is_nan x = false -> d_is_infinite x = false -> fabs (d0 x) = d0 (d_abs x).
Proof. unfold d_is_nan, d_is_infinite. intros A B. symmetry. apply abs_hi. exact (fin_nn _ A B). Qed.
Lemma q_abs_hi x : q_is_nan x = false -> q_is_infinite x = false -> fabs (q0 x) = q0 (q_abs x).
Proof.
  unfold q_is_nan, q_is_infinite, q_abs, q_is_sign_negative, q_neg. destruct x as [a b c d]; cbn. destruct a as [s|s| |s m e h]; try easy; destruct s; reflexivity.
Qed.

Lemma prec_gen {T} (N : dispops T) lm dbg f p x ds : f_prec f = Some p -> f_width f = None -> s_nan N x = false -> s_infinite N x = false -> s_zero N x = false ->
  s_finite N x = true -> fabs (s_hi N x) = s_hi N (s_abs N x) ->
  let e := dec_exp lm (s_hi N (s_abs N x)) in
  extract_digits N dbg (s_abs N x) e = Val ds -> decimals ds -> hd 0 ds <> 0 -> i32_min < e < i32_max ->
    (exists ip fp, display N lm dbg x f = Val (sign_text (s_neg N x) f ++ fixed_text ip fp)%list /\
      decimals ip /\ decimals fp /\ List.length fp = p /\ fixed_val ip fp = half_up p (digits_val ds e)) /\
    (exists ip fp et, display_exp N lm dbg c_e x f = Val (sign_text (s_neg N x) f ++ fixed_text ip fp ++ 101 :: et)%list /\ int_text e et /\
      decimals ip /\ decimals fp /\ List.length fp = p /\ fixed_val ip fp = half_up p (digits_val ds 0)).
Proof.
  intros Hp Hw H1 H2 H3 H4 Hs e He D Hd Hr. split.
  - destruct (display_fixed N lm dbg x f ds H1 H2 H3 He D Hd Hr) as [ip [fp [K1 [K2 [K3 [K4 [K5 K6]]]]]]].
    unfold padded in K1. rewrite Hw in K1. rewrite Hp in K6. exists ip, fp. tauto.
  - assert (Hr' : i32_min <= dec_exp lm (s_hi N (s_abs N x)) <= i32_max) by (fold e; lia).
    destruct (display_exp_digits N lm dbg x f ds H1 H2 H3 H4 Hs He D Hd Hr') as [ip [fp [et [K1 [K2 [K3 [K4 [K5 [K6 K7]]]]]]]]].
    specialize (K1 c_e). unfold padded in K1. rewrite Hw in K1. rewrite Hp in K7. exists ip, fp, et. tauto.
Qed.
Lemma prec_both lm dbg f p : f_prec f = Some p -> f_width f = None ->
  (forall x ds, d_is_nan x = false -> d_is_infinite x = false -> d_is_zero x = false ->
    let e := dec_exp lm (d0 (d_abs x)) in
    extract_digits d_disp dbg (d_abs x) e = Val ds -> decimals ds -> hd 0 ds <> 0 -> i32_min < e < i32_max ->
    (exists ip fp, d_display lm dbg x f = Val (sign_text (d_is_sign_negative x) f ++ fixed_text ip fp)%list /\
      decimals ip /\ decimals fp /\ List.length fp = p /\ fixed_val ip fp = half_up p (digits_val ds e)) /\
    (exists ip fp et, d_lower_exp lm dbg x f = Val (sign_text (d_is_sign_negative x) f ++ fixed_text ip fp ++ 101 :: et)%list /\ int_text e et /\
      decimals ip /\ decimals fp /\ List.length fp = p /\ fixed_val ip fp = half_up p (digits_val ds 0))) /\
  (forall x ds, q_is_nan x = false -> q_is_infinite x = false -> q_is_zero x = false ->
    let e := dec_exp lm (q0 (q_abs x)) in
    extract_digits q_disp dbg (q_abs x) e = Val ds -> decimals ds -> hd 0 ds <> 0 -> i32_min < e < i32_max ->
    (exists ip fp, q_display lm dbg x f = Val (sign_text (q_is_sign_negative x) f ++ fixed_text ip fp)%list /\
      decimals ip /\ decimals fp /\ List.length fp = p /\ fixed_val ip fp = half_up p (digits_val ds e)) /\
    (exists ip fp et, q_lower_exp lm dbg x f = Val (sign_text (q_is_sign_negative x) f ++ fixed_text ip fp ++ 101 :: et)%list /\ int_text e et /\
      decimals ip /\ decimals fp /\ List.length fp = p /\ fixed_val ip fp = half_up p (digits_val ds 0))).
Proof.
  intros Hp Hw. split; intros x ds H1 H2 H3 e He D Hd Hr.
  - exact (prec_gen d_disp lm dbg f p x ds Hp Hw H1 H2 H3 (d_fin x H1 H2) (d_abs_hi x H1 H2) He D Hd Hr).
  - exact (prec_gen q_disp lm dbg f p x ds Hp Hw H1 H2 H3 (q_fin x H1 H2) (q_abs_hi x H1 H2) He D Hd Hr).
Qed.

Lemma exp_gen {T} (N : dispops T) lm dbg f x ds : f_width f = None -> s_nan N x = false -> s_infinite N x = false -> s_zero N x = false ->
  s_finite N x = true -> fabs (s_hi N x) = s_hi N (s_abs N x) ->
  let e := dec_exp lm (s_hi N (s_abs N x)) in
  extract_digits N dbg (s_abs N x) e = Val ds -> decimals ds -> hd 0 ds <> 0 -> i32_min < e < i32_max ->
  exists ip fp et, display_exp N lm dbg c_e x f = Val (sign_text (s_neg N x) f ++ fixed_text ip fp ++ 101 :: et)%list /\
    display_exp N lm dbg c_E x f = Val (sign_text (s_neg N x) f ++ fixed_text ip fp ++ 69 :: et)%list /\
    int_text e et /\ decimals ip /\ decimals fp /\ hd 0 ip <> 0 /\ (List.length ip = 1%nat \/ (f_prec f <> None /\ List.length ip = 2%nat)).
Proof.
  intros Hw H1 H2 H3 H4 Hs e He D Hd Hr.
  assert (Hr' : i32_min <= dec_exp lm (s_hi N (s_abs N x)) <= i32_max) by (fold e; lia).
  destruct (display_exp_digits N lm dbg x f ds H1 H2 H3 H4 Hs He D Hd Hr') as [ip [fp [et [K1 [K2 [K3 [K4 [K5 [K6 _]]]]]]]]].
  exists ip, fp, et. assert (KE := K1 c_E). specialize (K1 c_e). unfold padded in K1, KE. rewrite Hw in K1, KE.
  split; [exact K1|]. split; [exact KE|]. tauto.
Qed.
Lemma exp_both lm dbg f : f_width f = None ->
  (forall x ds, d_is_nan x = false -> d_is_infinite x = false -> d_is_zero x = false ->
    let e := dec_exp lm (d0 (d_abs x)) in
    extract_digits d_disp dbg (d_abs x) e = Val ds -> decimals ds -> hd 0 ds <> 0 -> i32_min < e < i32_max ->
    exists ip fp et, d_lower_exp lm dbg x f = Val (sign_text (d_is_sign_negative x) f ++ fixed_text ip fp ++ 101 :: et)%list /\
      d_upper_exp lm dbg x f = Val (sign_text (d_is_sign_negative x) f ++ fixed_text ip fp ++ 69 :: et)%list /\
      int_text e et /\ decimals ip /\ decimals fp /\ hd 0 ip <> 0 /\ (List.length ip = 1%nat \/ (f_prec f <> None /\ List.length ip = 2%nat))) /\
  (forall x ds, q_is_nan x = false -> q_is_infinite x = false -> q_is_zero x = false ->
    let e := dec_exp lm (q0 (q_abs x)) in
    extract_digits q_disp dbg (q_abs x) e = Val ds -> decimals ds -> hd 0 ds <> 0 -> i32_min < e < i32_max ->
    exists ip fp et, q_lower_exp lm dbg x f = Val (sign_text (q_is_sign_negative x) f ++ fixed_text ip fp ++ 101 :: et)%list /\
      q_upper_exp lm dbg x f = Val (sign_text (q_is_sign_negative x) f ++ fixed_text ip fp ++ 69 :: et)%list /\
      int_text e et /\ decimals ip /\ decimals fp /\ hd 0 ip <> 0 /\ (List.length ip = 1%nat \/ (f_prec f <> None /\ List.length ip = 2%nat))).
Proof.
  intros Hw. split; intros x ds H1 H2 H3 e He D Hd Hr.
  - exact (exp_gen d_disp lm dbg f x ds Hw H1 H2 H3 (d_fin x H1 H2) (d_abs_hi x H1 H2) He D Hd Hr).
  - exact (exp_gen q_disp lm dbg f x ds Hw H1 H2 H3 (q_fin x H1 H2) (q_abs_hi x H1 H2) He D Hd Hr).
Qed.

Lemma value_default lm dbg x : DNorm x -> DV x <> 0%R -> let e := dec_exp lm (fabs (d0 x)) in
  Z.abs e <= 260 -> decade e (Rabs (DV x)) -> (powerRZ 10 e <= Rabs (DV x))%R ->
  exists ds, extract_digits d_disp dbg (d_abs x) e = Val ds /\ List.length ds = 31%nat /\
  (Rabs (digits_val ds e - Rabs (DV x)) <= bpow radix2 (-45) * powerRZ 10 e)%R /\
  (decimals ds -> clear_of_carry (Rabs (DV x)) e ->
     (Rabs (digits_val ds e - Rabs (DV x)) <= (210 * IZR (Z.abs e) + 900) * bpow radix2 (-106) * powerRZ 10 e)%R) /\
  (decimals ds -> exists ip fp,
     d_display lm dbg x f_default = Val (sign_text (d_is_sign_negative x) f_default ++ fixed_text ip fp)%list /\
     decimals ip /\ decimals fp /\ fixed_val ip fp = digits_val ds e /\
     (hd 0 ip <> 0 \/ ip = [0]) /\ (fp <> [] -> last fp 0 <> 0)).
Proof.
  intros N Z e He De Hp. destruct (show_value lm dbg x f_default N Z He De Hp) as [ds [A [B [C [D E]]]]]. exists ds.
  split; [exact A|]. split; [exact B|]. split; [exact C|]. split; [exact D|]. intros Dd. destruct (E Dd) as [ip [fp [K1 [K2 [K3 [K4 [K5 [K6 [K7 K8]]]]]]]]].
  exists ip, fp. tauto.
Qed.

Lemma f2pow_V m e : (Z.abs m <= 2 ^ 53)%Z -> (-1074 <= e)%Z -> (e + 53 < 1024)%Z -> V (f2pow m e) = (IZR m * bpow radix2 e)%R.
Proof. intros. now apply f2pow_exact. Qed.
Lemma w_11_val : (109 / 100 < DV w_11)%R.
Proof.
  unfold DV, w_11. cbn [d0 d1]. rewrite !f2pow_V by (vm_compute; congruence). change (bpow radix2 (-52)) with (/ 4503599627370496)%R. change (bpow radix2 (-105)) with (/ 40564819207303340847894502572032)%R. lra.
Qed.
Lemma w_1000_val : (999 < DV w_1000)%R.
Proof.
  unfold DV, w_1000. cbn [d0 d1]. rewrite f2pow_V by (vm_compute; congruence). destruct (fofZ_exact 1000 ltac:(lia)) as [_ ->]. change (bpow radix2 (-44)) with (/ 17592186044416)%R. lra.
Qed.
Lemma one_pos e : (-1074 <= e)%Z -> (e + 53 < 1024)%Z -> (0 < DV (mkD (f2pow 1 e) f0))%R.
Proof. intros A B. unfold DV. cbn [d0 d1]. rewrite f2pow_V by (auto; vm_compute; congruence). rewrite V_0. assert (K := bpow_gt_0 radix2 e). lra. Qed.
Lemma w_1030_norm : DNorm w_1030. Proof. apply dnormx_ok; vm_compute; reflexivity. Qed.
Lemma value_wrong :
  (exists x, DNorm x /\ (109 / 100 < DV x)%R /\ forall lm dbg, dec_exp lm (fabs (d0 x)) = 0 -> d_display lm dbg x f_default = Val (txt "1.010")) /\
  (exists x, DNorm x /\ (999 < DV x)%R /\ forall lm dbg, dec_exp lm (fabs (d0 x)) = 3 -> d_display lm dbg x f_default = Val (txt "0100.0")) /\
  (exists x, DNorm x /\ (0 < DV x)%R /\ forall lm dbg, dec_exp lm (fabs (d0 x)) = -311 ->
     exists t, d_display lm dbg x f_default = Val t /\ forallb (fun c => (c =? 48) || (c =? 46))%Z t = true).
Proof.
  split; [|split].
  - exists w_11. split; [exact w_11_norm|]. split; [exact w_11_val|]. exact w_11_text.
  - exists w_1000. split; [exact w_1000_norm|]. split; [exact w_1000_val|]. exact w_1000_text.
  - exists w_1030. split; [exact w_1030_norm|]. split; [apply one_pos; lia|]. exact w_1030_zero.
Qed.
Lemma min_panics : exists x, DNorm x /\ (0 < DV x)%R /\ forall lm dbg f, dec_exp lm (fabs (d0 x)) = -324 -> d_display lm dbg x f = Panicked.
Proof. exists w_min. split; [exact w_min_norm|]. split; [apply one_pos; lia|]. exact w_min_panic. Qed.
Lemma feqb_fofZ a n : (Z.abs n <= 2 ^ 53)%Z -> feqb a (fofZ n) = true -> V a = IZR n.
Proof.
  intros H E. destruct (fofZ_exact n H) as [F Vn]. rewrite <- Vn. apply feqb_V; auto.
  unfold Fin. destruct a as [s|s| |s m e h]; try reflexivity; exfalso; unfold feqb in E; unfold Fin in F; destruct (fofZ n) as [z|z| |z k l o]; try discriminate F; try discriminate E; destruct s; discriminate E.
Qed.
Lemma from_double_wrong :
  (exists x, DNorm x /\ (999 < DV x)%R /\ forall lm dbg, dec_exp lm (fabs (d0 x)) = 3 -> exists q, q_from_double lm dbg x = Val q /\ V (q0 q) = 100%R) /\
  (exists x, DNorm x /\ forall lm dbg, dec_exp lm (fabs (d0 x)) = -324 -> q_from_double lm dbg x = Panicked).
Proof.
  split.
  - exists w_1000. split; [exact w_1000_norm|]. split; [exact w_1000_val|]. intros lm dbg H. destruct (w_1000_quad lm dbg H) as [q [E K]]. exists q. split; auto. apply (feqb_fofZ _ 100); [lia|exact K].
  - exists w_min. split; [exact w_min_norm|]. intros lm dbg H. unfold q_from_double. now rewrite (w_min_panic lm dbg f_default H).
Qed.
Lemma round_trip_wrong : exists x, DNorm x /\ (999 < DV x)%R /\ forall lm dbg, dec_exp lm (fabs (d0 x)) = 3 ->
  exists t r, d_display lm dbg x f_default = Val t /\ from_str d_ops dbg t = Val (POk r) /\ V (d0 r) = 100%R.
Proof.
  exists w_1000. split; [exact w_1000_norm|]. split; [exact w_1000_val|]. intros lm dbg H. destruct (w_1000_back dbg) as [r [E K]]. exists (txt "0100.0"), r.
  split; [now apply w_1000_text|]. split; auto. apply (feqb_fofZ _ 100); [lia|exact K].
Qed.

Lemma show_of lm x :
  (d_is_nan x = true \/ d_is_infinite x = true \/ d_is_zero x = true \/
   (DNorm x /\ log10_close lm /\ (powerRZ 10 (-259) <= Rabs (DV x) <= powerRZ 10 259)%R)) -> showable lm x.
Proof.
  intros [H|[H|[H|[N [L R]]]]]; [left; auto|right; left; auto|right; right; left; auto|]. right. right. right.
  destruct (log10_decade lm x L N R) as [A B]. split; auto. split; [|auto]. intros E. rewrite E, Rabs_R0 in R. assert (K := pz_pos (-259)). lra.
Qed.
Lemma no_panic lm dbg x f :
  (d_is_nan x = true \/ d_is_infinite x = true \/ d_is_zero x = true \/
   (DNorm x /\ log10_close lm /\ (powerRZ 10 (-259) <= Rabs (DV x) <= powerRZ 10 259)%R)) ->
  (exists t, d_display lm dbg x f = Val t) /\ (exists t, d_lower_exp lm dbg x f = Val t) /\ (exists t, d_upper_exp lm dbg x f = Val t).
Proof. intros H. apply show_of in H. split; [now apply show_total|]. split; now apply show_exp_total. Qed.
Lemma from_double_no_panic lm dbg x :
  (d_is_nan x = true \/ d_is_infinite x = true \/ d_is_zero x = true \/
   (DNorm x /\ log10_close lm /\ (powerRZ 10 (-259) <= Rabs (DV x) <= powerRZ 10 259)%R)) ->
  exists q, q_from_double lm dbg x = Val q.
Proof. intros H. apply show_of in H. now apply from_double_total. Qed.
Lemma no_panic_quad lm dbg x f : q_is_nan x = true \/ q_is_infinite x = true \/ q_is_zero x = true ->
  (exists t, q_display lm dbg x f = Val t) /\ (exists t, q_lower_exp lm dbg x f = Val t) /\ (exists t, q_upper_exp lm dbg x f = Val t).
Proof.
  intros H. unfold q_display, q_lower_exp, q_upper_exp. rewrite display_body, !display_exp_body. unfold body_fixed, body_exp. cbn [s_nan s_infinite s_zero q_disp].
  destruct (q_is_nan x); [cbn; split; [|split]; eexists; reflexivity|]. destruct (q_is_infinite x); [cbn; split; [|split]; eexists; reflexivity|]. destruct (q_is_zero x); [cbn; split; [|split]; eexists; reflexivity|].
  destruct H as [H|[H|H]]; discriminate H.
Qed.

Lemma v1001 : DV (mkD (f2pow 1001 (-3)) f0) = 125.125%R.
Proof. unfold DV. cbn [d0 d1]. rewrite f2pow_V by (vm_compute; congruence). rewrite V_0. change (bpow radix2 (-3)) with (/ 8)%R. lra. Qed.
Lemma case_1001 : DNorm (mkD (f2pow 1001 (-3)) f0) /\ decade 2 (Rabs (DV (mkD (f2pow 1001 (-3)) f0))) /\ (powerRZ 10 2 <= Rabs (DV (mkD (f2pow 1001 (-3)) f0)))%R /\
  clear_of_carry (Rabs (DV (mkD (f2pow 1001 (-3)) f0))) 2.
Proof.
  split; [apply dnormx_ok; vm_compute; reflexivity|]. rewrite v1001, (Rabs_pos_eq 125.125) by lra. split; [|split].
  - unfold decade. change (powerRZ 10 2) with (10 * (10 * 1))%R. change (powerRZ 10 (2 + 1)) with (10 * (10 * (10 * 1)))%R. change (bpow radix2 (-40)) with (/ 1099511627776)%R. lra.
  - change (powerRZ 10 2) with (10 * (10 * 1))%R. lra.
  - intros k Hk. cbn zeta. unfold Zminus. rewrite pz_add, pz_nat. change (powerRZ 10 (- (2))) with (/ (10 * (10 * 1)))%R.
    assert (B : (bpow radix2 (-48) + 10 ^ k * bpow radix2 (-88) <= / 4)%R).
    { change (bpow radix2 (-48)) with (/ 281474976710656)%R. assert (10 ^ k <= 10 ^ 17)%R by (apply Rle_pow; [lra|lia]).
      apply Rle_trans with (/ 281474976710656 + 10 ^ 17 * bpow radix2 (-88))%R; [apply Rplus_le_compat_l, Rmult_le_compat_r; [apply bpow_ge_0|auto]|].
      change (bpow radix2 (-88)) with (/ 309485009821345068724781056)%R. simpl pow. lra. }
    assert (F : forall t z, (IZR z <= t <= IZR z + 3 / 4)%R -> (t - IZR (Zfloor t) <= 1 - (bpow radix2 (-48) + 10 ^ k * bpow radix2 (-88)))%R).
    { intros t z Ht. rewrite (Zfloor_imp z t) by (rewrite plus_IZR; lra). lra. }
    clear B Hk. destruct k as [|[|[|[|[|k]]]]]; [apply (F _ 1%Z); simpl pow; lra|apply (F _ 12%Z); simpl pow; lra|apply (F _ 125%Z); simpl pow; lra|apply (F _ 1251%Z); simpl pow; lra|apply (F _ 12512%Z); simpl pow; lra|].
    apply (F _ (125125 * 10 ^ Z.of_nat k)%Z). rewrite mult_IZR, IZR_p10. assert (P := pw_pos k). change (10 ^ S (S (S (S (S k)))))%R with (10 * (10 * (10 * (10 * (10 * 10 ^ k)))))%R. lra.
Qed.
