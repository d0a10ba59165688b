(** * What Double prints: digits, accuracy, absence of panics *)
From Coq Require Import ZArith Reals Lra Lia Psatz Bool List.
From Flocq Require Import Core IEEE754.BinarySingleNaN.
From Verif Require Import RN F64 Prim DoubleM Spec F64Facts EFT DWAdd DAddProofs DMulProofs ExactProofs LawProofs RoundProofs DDivProofs PowProofs MulAny
  ParseM ParseSpec ParseNum DisplayM DisplaySpec DisplayProofs DisplayText DisplayThms ExtractProofs DisplayDigits.
Import ListNotations.
Local Open Scope R_scope.

(** [e] is the decimal exponent of [X], or misses it only because [X] is within
    one part in 2^40 of a power of ten *)
Definition decade (e : Z) (X : R) : Prop :=
  powerRZ 10 e * (1 - bp (-40)) <= X <= powerRZ 10 (e + 1) * (1 + bp (-40)).

Lemma b40 : bp (-40) = / 1099511627776. Proof. reflexivity. Qed.
Lemma v_num : v106 = / 81129638414606681695789005144064. Proof. reflexivity. Qed.
Lemma p_num n z : (10 ^ Z.of_nat n)%Z = z -> 10 ^ n = IZR z. Proof. intros <-. symmetry. apply IZR_p10. Qed.
Lemma ten32 : 11 * ten_m 32 <= 9 * v106.
Proof. unfold ten_m. rewrite (p_num 32 100000000000000000000000000000000) by reflexivity. rewrite v_num. lra. Qed.
Lemma ten31 : 5 * ten_m 31 <= 41 * v106.
Proof. unfold ten_m. rewrite (p_num 31 10000000000000000000000000000000) by reflexivity. rewrite v_num. lra. Qed.
Lemma ten17 : ten_m 17 * (151 * u) <= 14 * v106.
Proof. unfold ten_m. rewrite (p_num 17 100000000000000000) by reflexivity. rewrite v_num. lra. Qed.
Lemma q88 : bp (-88) = 262144 * v106.
Proof. unfold v106. change (-88)%Z with (-106 + 18)%Z. rewrite bpow_plus. change (bp 18) with 262144. ring. Qed.
Lemma sdig_val l : l <> [] -> sdig l = IZR (dec_val l) * powerRZ 10 (1 - Z.of_nat (length l)).
Proof.
  induction l as [|d l IH]; [easy|]. intros _. cbn [sdig length]. rewrite dec_val_cons, plus_IZR, mult_IZR, IZR_p10.
  destruct l as [|d' l]; [cbn; unfold dec_val; cbn; lra|]. rewrite IH by easy. set (n := length (d' :: l)).
  replace (1 - Z.of_nat (S n))%Z with (- Z.of_nat n)%Z by lia. replace (1 - Z.of_nat n)%Z with (1 + - Z.of_nat n)%Z by lia.
  rewrite pz_add, pz_neg. assert (P := pw_pos n). change (powerRZ 10 1) with (10 ^ 1). field. lra.
Qed.

(** the scaled value *)
Lemma scaled dbg x e : DNorm x -> 0 < DV x -> (Z.abs e <= 260)%Z -> decade e (DV x) ->
  exists p, d_powi dbg (mkD (fofZ 10) f0) e = Val p /\ inv (d_div x p) /\
    Rabs (DV (d_div x p) - DV x / powerRZ 10 e) <= (10 * IZR (Z.abs e) + 34) * v106 * (DV x / powerRZ 10 e) /\
    1 - bp (-40) <= DV x / powerRZ 10 e <= 10 * (1 + bp (-40)).
Proof.
  intros N X0 He [D1 D2]. rewrite pz_add in D2. change (powerRZ 10 1) with (10 ^ 1) in D2. rewrite pow_1 in D2.
  set (T := powerRZ 10 e) in *. assert (T0 : 0 < T) by apply pz_pos.
  assert (P := v_pos). assert (S := v_small).
  assert (EX : exists p, d_powi dbg (mkD (fofZ 10) f0) e = Val p /\ DNorm p /\ Rabs (DV p - T) <= (10 * IZR (Z.abs e) + 17) * v106 * T /\ bp (-864) <= T <= bp 864).
  { destruct (Z.eq_dec e 0) as [E0|E0].
    - unfold T. subst e. exists D_ONE. rewrite d_powi_zero_exp. destruct (fofZ_exact 1 ltac:(lia)) as [F1 V1].
      destruct (DNorm_single f1 1) as [A B]; [split; [reflexivity|exact V1]|]. change (mkD f1 F64.f0) with D_ONE in *.
      split; [reflexivity|]. split; [exact A|]. rewrite B. cbn [powerRZ]. rewrite Rminus_diag_eq, Rabs_R0 by reflexivity.
      split; [cbn; nra|]. split; [apply Rle_trans with (bp 0); [apply bpow_le; lia|cbn; lra]|apply Rle_trans with (bp 0); [cbn; lra|apply bpow_le; lia]].
    - destruct (powi10 dbg e E0 He) as [p [A [B [C D]]]]. exists p. split; auto. split; auto. split; auto.
      unfold approx in C. fold T in C. rewrite (Rabs_pos_eq T) in C by lra. rewrite plus_IZR, mult_IZR in C. exact C. }
  destruct EX as [p [Ep [Np [Ap [T1 T2]]]]]. exists p. split; [exact Ep|].
  set (X := DV x) in *. set (n := 10 * IZR (Z.abs e) + 17) in *.
  assert (N0 : 17 <= n <= 2617). { unfold n. assert (0 <= IZR (Z.abs e) <= 260) by (split; apply IZR_le; lia). lra. }
  assert (nv : n * v106 <= u / 100000). { apply Rle_trans with (2617 * v106); [nra|lra]. }
  rewrite b40 in *.
  assert (Y : 1 - / 1099511627776 <= X / T <= 10 * (1 + / 1099511627776)).
  { split; apply Rmult_le_reg_r with T; auto; unfold Rdiv; rewrite Rmult_assoc, Rinv_l, Rmult_1_r by lra; lra. }
  set (y := X / T) in *. assert (EX : X = y * T) by (unfold y; field; lra).
  apply Rabs_le_inv in Ap. assert (nvT : n * v106 * T <= u / 100000 * T) by (apply Rmult_le_compat_r; lra).
  assert (Pp : 0 < DV p) by lra.
  assert (Hx := DNorm_val_rel x N). assert (Hp := DNorm_val_rel p Np). fold X in Hx.
  assert (hx0 : 0 <= V (d0 x)). { destruct N as [_ K]. unfold RN in K. rewrite K. apply rn_ge_0. fold X; lra. }
  assert (hp0 : 0 <= V (d0 p)). { destruct Np as [_ K]. unfold RN in K. rewrite K. apply rn_ge_0. lra. }
  rewrite (Rabs_pos_eq (V (d0 x))) in Hx by lra. rewrite (Rabs_pos_eq (V (d0 p))) in Hp by lra.
  apply Rabs_le_inv in Hx. apply Rabs_le_inv in Hp.
  set (hx := V (d0 x)) in *. set (hp := V (d0 p)) in *.
  assert (Bx : (1 - 2 * u) * X <= hx <= (1 + 2 * u) * X) by lra.
  assert (Bp : (1 - 2 * u) * DV p <= hp <= (1 + 2 * u) * DV p) by lra.
  assert (Bp' : T / 2 <= hp <= 2 * T) by lra.
  assert (Bx' : T / 2 <= hx <= 11 * T) by (rewrite EX in Bx; nra).
  destruct (d_div_ok x p N Np) as [Nd Ad].
  { fold hp. lra. }
  { fold hx hp. right. assert (HQ : 0 <= hx / hp) by (apply Rmult_le_pos; [exact hx0|left; apply Rinv_0_lt_compat; lra]). rewrite (Rabs_pos_eq hx hx0), (Rabs_pos_eq _ HQ). split; split.
    - apply Rle_trans with (bp (-865)); [apply bpow_le; lia|]. change (-864)%Z with (-865 + 1)%Z in T1. rewrite bp_S in T1. lra.
    - apply Rle_trans with (16 * bp 864); [lra|]. change 16 with (bp 4). rewrite <- bpow_plus. apply bpow_le; lia.
    - apply Rle_trans with (bp (-2)); [apply bpow_le; lia|]. change (bp (-2)) with (/ 4). apply Rmult_le_reg_r with hp; [lra|]. unfold Rdiv. rewrite Rmult_assoc, Rinv_l by lra. lra.
    - apply Rle_trans with (bp 5); [|apply bpow_le; lia]. change (bp 5) with 32. apply Rmult_le_reg_r with hp; [lra|]. unfold Rdiv. rewrite Rmult_assoc, Rinv_l by lra. lra. }
  unfold approx in Ad. change (bpow radix2 (-106)) with v106 in Ad. fold X in Ad. set (W := DV (d_div x p)) in *.
  assert (Q : Rabs (X / DV p - y) <= (n + 1 / 2) * v106 * y).
  { replace (X / DV p - y) with (y * (T - DV p) / DV p) by (unfold y; field; lra). unfold Rdiv at 1. rewrite !Rabs_mult, (Rabs_pos_eq y), (Rabs_pos_eq (/ DV p)) by (try (left; apply Rinv_0_lt_compat; lra); lra).
    apply Rmult_le_reg_r with (DV p); [lra|]. rewrite Rmult_assoc, Rinv_l, Rmult_1_r by lra.
    apply Rle_trans with (y * (n * v106 * T)). { apply Rmult_le_compat_l; [lra|]. apply Rabs_le. lra. }
    replace ((n + 1 / 2) * v106 * y * DV p) with (y * ((n + 1 / 2) * v106 * DV p)) by ring. apply Rmult_le_compat_l; [lra|].
    replace (n * v106 * T) with (v106 * (n * T)) by ring. replace ((n + 1 / 2) * v106 * DV p) with (v106 * ((n + 1 / 2) * DV p)) by ring. apply Rmult_le_compat_l; [lra|].
    assert (DV p >= T - u / 100000 * T) by lra. assert ((n + 1/2) * DV p >= (n + 1/2) * (T - u / 100000 * T)) by nra. nra. }
  assert (Q0 : 0 <= X / DV p) by (apply Rmult_le_pos; [lra|left; apply Rinv_0_lt_compat; lra]). rewrite (Rabs_pos_eq (X / DV p)) in Ad by lra.
  apply Rabs_le_inv in Q.
  assert (QB : X / DV p <= y * (1 + / 1000)). { assert ((n + 1 / 2) * v106 <= / 1000) by nra. nra. }
  assert (F : Rabs (W - y) <= (n + 17) * v106 * y).
  { replace (W - y) with ((W - X / DV p) + (X / DV p - y)) by ring. eapply Rle_trans; [apply Rabs_triang|].
    assert (Rabs (X / DV p - y) <= (n + 1 / 2) * v106 * y) by (apply Rabs_le; lra).
    assert (16 * v106 * (X / DV p) <= 16 * v106 * (y * (1 + / 1000))) by (apply Rmult_le_compat_l; lra). assert (0 <= v106 * y) by nra. nra. }
  split; [split; [exact Nd|]|].
  - fold W. apply Rabs_le_inv in F. assert ((n + 17) * v106 * y <= / 10000000000). { assert ((n + 17) * v106 <= / 1000000000000) by nra. nra. }
    apply Rabs_le. lra.
  - split; [|exact Y]. replace (10 * IZR (Z.abs e) + 34) with (n + 17) by (unfold n; ring). exact F.
Qed.

(** positions where the exact decimal expansion is within a hair of the next digit *)
Definition clear_of_carry (X : R) (e : Z) : Prop :=
  forall k, (k <= 17)%nat -> let t := X * powerRZ 10 (Z.of_nat k - e) in t - IZR (Zfloor t) <= 1 - (bp (-48) + 10 ^ k * bp (-88)).

Lemma sd_gen n (a : Z) l : length l = S (S n) -> (Z.abs (10 * a - dec_val l) <= 5)%Z -> Rabs (IZR a * ten_m n - sdig l) <= 5 * ten_m (S n).
Proof.
  intros Ll H. rewrite sdig_val by (intros K; rewrite K in Ll; discriminate). rewrite Ll.
  replace (1 - Z.of_nat (S (S n)))%Z with (- Z.of_nat (S n))%Z by lia. rewrite pz_neg. fold (ten_m (S n)). rewrite (ten_m_S n).
  replace (IZR a * ten_m n - IZR (dec_val l) * (ten_m n / 10)) with (IZR (10 * a - dec_val l) * (ten_m n / 10)) by (rewrite minus_IZR, mult_IZR; field).
  assert (K := ten_m_pos n). rewrite Rabs_mult, (Rabs_pos_eq (ten_m n / 10)) by lra. apply Rmult_le_compat_r; [lra|]. rewrite <- abs_IZR. now apply IZR_le.
Qed.
Lemma fin_gen Q S W Y E T c b : 0 < T -> Rabs (Q - S) <= c -> Rabs (S - W) <= b -> Rabs (W - Y) <= E -> Rabs (Q * T - Y * T) <= (c + (b + E)) * T.
Proof.
  intros T0 H1 H2 H3. replace (Q * T - Y * T) with (((Q - S) + ((S - W) + (W - Y))) * T) by ring.
  rewrite Rabs_mult, (Rabs_pos_eq T) by lra. apply Rmult_le_compat_r; [lra|]. apply triP; [lra|]. apply triP; lra.
Qed.
Lemma extract_gen {T} (N : dispops T) dbg x e p : s_powi N dbg (s_ten N) e = Val p -> i32_chk dbg (324 + e) = Val (324 + e)%Z ->
  extract_digits N dbg x e = round_and_trunc dbg (extract_loop N (s_acc N + 1) (s_div N x p)) (Z.min (324 + e) (Z.of_nat (s_acc N))).
Proof. intros H1 H2. unfold extract_digits. rewrite H1. cbn [obind]. rewrite H2. reflexivity. Qed.
Lemma extract_ok dbg x e : DNorm x -> 0 < DV x -> (Z.abs e <= 260)%Z -> decade e (DV x) ->
  exists ds, extract_digits d_disp dbg x e = Val ds /\ length ds = 31%nat /\ dig10 ds /\ tens 1 ds /\
    Rabs (digits_val ds e - DV x) <= bp (-45) * powerRZ 10 e /\
    (decimals ds -> powerRZ 10 e <= DV x -> hd 0%Z ds <> 0%Z) /\
    (decimals ds -> clear_of_carry (DV x) e -> Rabs (digits_val ds e - DV x) <= (210 * IZR (Z.abs e) + 900) * bp (-106) * powerRZ 10 e).
Proof.
  intros N X0 He D. destruct (scaled dbg x e N X0 He D) as [p [Ep [I [A Y]]]].
  set (X := DV x) in *. set (T := powerRZ 10 e) in *. assert (T0 : 0 < T) by apply pz_pos.
  set (w := d_div x p) in *. set (y := X / T) in *. assert (EX : X = y * T) by (unfold y; field; lra).
  rewrite (extract_gen d_disp dbg x e p Ep) by (apply chk_in; unfold i32_min, i32_max; lia).
  replace (s_acc d_disp + 1)%nat with 32%nat by reflexivity. replace (s_div d_disp x p) with w by reflexivity. replace (Z.of_nat (s_acc d_disp)) with 31%Z by reflexivity.
  replace (Z.min (324 + e) 31) with (Z.of_nat 31) by lia.
  set (l := loop 32 w).
  assert (Ll : length l = 32%nat) by apply loop_len.
  assert (Dl : dig10 l) by (now apply loop_digits). assert (Tl : tens 0 l) by (now apply loop_tens).
  assert (Hl : l = loop 32 w) by reflexivity. clearbody l.
  destruct (round_any dbg 0 l 31 ltac:(lia) Dl Tl ltac:(lia)) as [ds [d [Er [Lr [Dr [Tr [Ir [Nd [Bd' Vr]]]]]]]]].
  exists ds. split; [exact Er|]. split; [exact Lr|]. split; [exact Dr|]. split; [exact Tr|].
  assert (P := v_pos). assert (S := v_small). rewrite b40 in Y.
  assert (EV : digits_val ds e = IZR (dec_val ds) * ten_m 30 * T).
  { unfold digits_val. rewrite Lr. replace (e + 1 - Z.of_nat 31)%Z with (- Z.of_nat 30 + e)%Z by lia. rewrite pz_add, pz_neg. fold T. unfold ten_m. ring. }
  assert (El : l = firstn 31 l ++ [d]).
  { rewrite <- (firstn_skipn 31 l) at 1. f_equal. assert (Ls : length (skipn 31 l) = 1%nat) by (rewrite skipn_length, Ll; reflexivity).
    destruct (skipn 31 l) as [|z [|]] eqn:Es; try discriminate Ls. f_equal. rewrite <- Nd.
    assert (L31 : length (firstn 31 l) = 31%nat) by (rewrite firstn_length, Ll; reflexivity).
    assert (K : nth 31 (firstn 31 l ++ [z]) 0%Z = z) by (rewrite app_nth2; rewrite L31; [reflexivity|lia]).
    rewrite <- Es, firstn_skipn in K. now symmetry. }
  assert (Vl : dec_val l = (10 * dec_val (firstn 31 l) + d)%Z) by (rewrite El at 1; apply dec_val_snoc).
  assert (RND : (Z.abs (10 * dec_val ds - dec_val l) <= 5)%Z). { rewrite Vl, Vr. destruct (Z.leb_spec 5 d); lia. }
  assert (SD : Rabs (IZR (dec_val ds) * ten_m 30 - sdig l) <= 5 * ten_m 31).
  { apply (sd_gen 30); [exact Ll|exact RND]. }
  assert (K31 := ten31). assert (K32 := ten32). assert (K17 := ten17).
  set (n := 10 * IZR (Z.abs e) + 34) in *. assert (E0 : 0 <= IZR (Z.abs e) <= 260) by (split; apply IZR_le; lia).
  assert (Bn : 34 <= n <= 2634) by (unfold n; lra).
  set (E := n * v106 * (10.1)).
  assert (AE : Rabs (DV w - y) <= E). { eapply Rle_trans; [exact A|]. unfold E. apply Rmult_le_compat_l; [nra|lra]. }
  assert (EB : E <= 26604 * v106). { unfold E. nra. }
  assert (W0 : 0 <= DV w) by (apply Rabs_le_inv in AE; lra).
  set (Q := IZR (dec_val ds) * ten_m 30) in *. clearbody Q.
  assert (SD' : Rabs (Q - sdig l) <= 41 * v106) by (eapply Rle_trans; [exact SD|exact K31]). clear SD.
  assert (FIN : forall b, Rabs (sdig l - DV w) <= b -> Rabs (digits_val ds e - X) <= (41 * v106 + (b + E)) * T).
  { intros b Hb. rewrite EV, EX. exact (fin_gen Q (sdig l) (DV w) y E T (41 * v106) b T0 SD' Hb AE). }
  split; [|split].
  - eapply Rle_trans; [apply FIN; rewrite Hl; apply (Lnn 32 ltac:(lia) w I); lra|]. apply Rmult_le_compat_r; [lra|].
    replace (bp (-45)) with (256 * u) by (change (-45)%Z with (-53 + 8)%Z; rewrite bpow_plus, u_bp; change (bp 8) with 256; ring). lra.
  - intros Dd XT HZ. assert (Y1 : 1 <= y) by (apply Rmult_le_reg_r with T; auto; rewrite <- EX; lra).
    assert (h1 : 1 <= V (d0 w)). { destruct I as [[_ K] _]. unfold RN in K. rewrite K. apply (rn_near 1); [lia|]. apply Rabs_le_inv in AE. lra. }
    assert (d1' : (1 <= hd 0 l)%Z).
    { rewrite Hl, loop_S. cbn [hd]. destruct (step_inv w I) as [_ Dg _ _ _ _ _]. rewrite Dg. rewrite Ztrunc_floor by lra. assert (1 <= Zfloor (V (d0 w)))%Z by (now apply Zfloor_lub). lia. }
    destruct l as [|d0' l'] eqn:El'; [discriminate Ll|]. cbn [hd] in d1'. 
    assert (G : (10 ^ 31 <= dec_val (d0' :: l'))%Z).
    { rewrite dec_val_cons. injection Ll as Ll'. rewrite Ll'. assert (0 <= dec_val l')%Z.
      { inversion_clear Dl as [|? ? _ DL]. clear - DL. induction DL as [|a b A B IH]; [unfold dec_val; cbn; lia|]. rewrite dec_val_cons. assert (0 <= 10 ^ Z.of_nat (length b))%Z by (apply Z.pow_nonneg; lia). nia. }
      change (Z.of_nat 31) with 31%Z. assert (0 < 10 ^ 31)%Z by lia. nia. }
    destruct ds as [|z ds']; [discriminate Lr|]. cbn [hd] in HZ. subst z. rewrite dec_val_cons in RND.
    assert (RR := dec_val_range ds' ltac:(now inversion Dd)). injection Lr as Lr'. rewrite Lr' in RR. change (Z.of_nat 30) with 30%Z in RR.
    assert (10 ^ 31 = 10 * 10 ^ 30)%Z by reflexivity. lia.
  - intros Dd C.
    assert (DF : decimals (firstn 31 l)).
    { apply decimals_dig10; [rewrite El in Dl; now apply dig10_app in Dl|]. intros K. apply Ir in K.
      clear - Dd K. induction Dd as [|a b Ha Hb IH]; [easy|]. destruct K as [->|K]; [lia|auto]. }
    assert (NT : forall k, (k <= 17)%nat -> nth k (loop 32 w) 0%Z <> 10%Z).
    { intros k Hk. rewrite <- Hl. rewrite <- (nth_firstn_lt l 31) by lia. unfold decimals in DF. rewrite Forall_forall in DF.
      assert (K : In (nth k (firstn 31 l) 0%Z) (firstn 31 l)) by (apply nth_In; rewrite firstn_length, Ll; lia). apply DF in K. lia. }
    assert (CL : clear 17 (bp (-88)) y).
    { intros k Hk. specialize (C k Hk). cbn zeta in C. replace (10 ^ k * y) with (X * powerRZ 10 (Z.of_nat k - e)); [exact C|].
      unfold Zminus. rewrite pz_add, pz_nat. rewrite powerRZ_neg'. fold T. unfold y. field. lra. }
    eapply Rle_trans; [apply FIN; rewrite Hl; apply (Lmain 17 32 w y E (bp (-88))); auto; try lra; [rewrite q88; lra|]|].
    + rewrite q88, v_num. rewrite (p_num 17 100000000000000000) by reflexivity. lra.
    + apply Rmult_le_compat_r; [lra|]. change (bp (-106)) with v106. 
      apply Rle_trans with (41 * v106 + ((1 + 2040 * u) * E + 14 * v106 + 9 * v106 + 60 * v106 + E)); [lra|].
      unfold E, n. assert (0 <= IZR (Z.abs e) * v106) by nra. nra.
Qed.
