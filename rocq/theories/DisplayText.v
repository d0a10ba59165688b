(** * From extracted digits to the text *)
From Coq Require Import ZArith Reals Lra Lia List Bool.
From Flocq Require Import Core.Raux.
From Verif Require Import F64 ParseM ParseSpec DisplayM DisplaySpec DisplayProofs.
Import ListNotations.
Local Open Scope Z_scope.

Lemma IZR_p10 n : IZR (10 ^ Z.of_nat n) = (10 ^ n)%R.
Proof. induction n; [reflexivity|]. rewrite Nat2Z.inj_succ, Z.pow_succ_r, mult_IZR, IHn by lia. reflexivity. Qed.
Lemma pw_pos n : (0 < 10 ^ n)%R. Proof. apply pow_lt; lra. Qed.
Lemma pz_pos n : (0 < powerRZ 10 n)%R. Proof. apply powerRZ_lt; lra. Qed.
Lemma pz_nat n : powerRZ 10 (Z.of_nat n) = (10 ^ n)%R. Proof. symmetry. apply pow_powerRZ. Qed.
Lemma pz_add a b : powerRZ 10 (a + b) = (powerRZ 10 a * powerRZ 10 b)%R. Proof. apply powerRZ_add. lra. Qed.
Lemma pz_neg n : powerRZ 10 (- Z.of_nat n) = (/ 10 ^ n)%R.
Proof. rewrite powerRZ_neg'. now rewrite pz_nat. Qed.

(** value of a digit list with the point after [k] digits *)
Definition pv (l : list Z) (k : Z) : R := (IZR (dec_val l) * powerRZ 10 (k - Z.of_nat (length l)))%R.
Lemma pv_fixed pos l : (0 < pos)%nat -> (pos <= length l)%nat -> fixed_val (firstn pos l) (skipn pos l) = pv l (Z.of_nat pos).
Proof.
  intros Hp Hl. unfold fixed_val, pv. rewrite firstn_skipn, skipn_length.
  replace (Z.of_nat pos - Z.of_nat (length l)) with (- Z.of_nat (length l - pos)) by lia. rewrite pz_neg. reflexivity.
Qed.
Lemma pv_zeros_r l n k : pv (l ++ repeat 0 n) k = pv l k.
Proof.
  unfold pv. rewrite dec_val_app, dec_val_zeros, app_length, repeat_length, Z.add_0_r, mult_IZR, IZR_p10.
  replace (k - Z.of_nat (length l)) with (Z.of_nat n + (k - Z.of_nat (length l + n))) by lia.
  rewrite pz_add, pz_nat. ring.
Qed.
Lemma pv_zeros_l l n k : pv (repeat 0 n ++ l) k = pv l (k - Z.of_nat n).
Proof.
  unfold pv. rewrite dec_val_app, dec_val_zeros, app_length, repeat_length. cbn [Z.mul Z.add]. do 2 f_equal. lia.
Qed.
(** half up on digit lists and on reals *)
Lemma pv_round l n k : (n < length l)%nat -> (k <= Z.of_nat n) ->
  (IZR ((dec_val l + 5 * 10 ^ Z.of_nat (length l - n - 1)) / 10 ^ Z.of_nat (length l - n)) * powerRZ 10 (k - Z.of_nat n))%R =
  half_up (Z.to_nat (Z.of_nat n - k)) (pv l k).
Proof.
  intros Hn Hk. unfold half_up, pv.
  set (p := Z.to_nat (Z.of_nat n - k)). replace (k - Z.of_nat n) with (- Z.of_nat p) by lia. rewrite pz_neg.
  unfold Rdiv. f_equal. f_equal.
  set (L := length l) in *. set (A := dec_val l).
  assert (E : (IZR A * powerRZ 10 (k - Z.of_nat L) * 10 ^ p + / 2)%R = (IZR (A + 5 * 10 ^ Z.of_nat (L - n - 1)) / IZR (10 ^ Z.of_nat (L - n)))%R).
  { replace (k - Z.of_nat L) with (- Z.of_nat p + - Z.of_nat (L - n)) by lia. rewrite pz_add, !pz_neg, plus_IZR, mult_IZR, !IZR_p10.
    set (d := (L - n - 1)%nat). replace (L - n)%nat with (S d) by (unfold d; lia).
    cbn [pow]. assert (P1 := pw_pos p). assert (P2 := pw_pos d). field. lra. }
  rewrite E. symmetry. apply Zfloor_div. assert (0 < 10 ^ Z.of_nat (L - n)) by (apply Z.pow_pos_nonneg; lia). lia.
Qed.
Lemma half_up_id p l k : k - Z.of_nat (length l) + Z.of_nat p >= 0 -> half_up p (pv l k) = pv l k.
Proof.
  intros H. unfold half_up. assert (P := pw_pos p).
  assert (E : (pv l k * 10 ^ p)%R = IZR (dec_val l * 10 ^ (k - Z.of_nat (length l) + Z.of_nat p))).
  { unfold pv. rewrite <- (Z2Nat.id (k - Z.of_nat (length l) + Z.of_nat p)) by lia. rewrite mult_IZR, IZR_p10, <- !pz_nat, Z2Nat.id, pz_add by lia. ring. }
  rewrite E. replace (Zfloor _) with (dec_val l * 10 ^ (k - Z.of_nat (length l) + Z.of_nat p)).
  - rewrite <- E. field. lra.
  - symmetry. apply Zfloor_imp. rewrite plus_IZR. lra.
Qed.

Lemma hd_firstn n (l : list Z) : (0 < n)%nat -> hd 0 (firstn n l) = hd 0 l.
Proof. destruct n, l; try easy. Qed.
Lemma last_skipn n (l : list Z) : (n < length l)%nat -> last (skipn n l) 0 = last l 0.
Proof.
  intros H. rewrite <- (firstn_skipn n l) at 2. assert (skipn n l <> []). { intros E. apply (f_equal (@length Z)) in E. rewrite skipn_length in E. cbn in E. lia. }
  symmetry. destruct (exists_last H0) as [a [b ->]]. rewrite app_assoc, !last_last. reflexivity.
Qed.
Lemma last_nth (l : list Z) : last l 0 = nth (length l - 1) l 0.
Proof.
  destruct l as [|a l]; [reflexivity|]. destruct (@exists_last _ (a :: l)) as [b [c E]]; [easy|]. rewrite E, last_last, app_length. cbn [length].
  replace (length b + 1 - 1)%nat with (length b) by lia. now rewrite nth_middle.
Qed.
Lemma nth_firstn_lt (l : list Z) n i : (i < n)%nat -> nth i (firstn n l) 0 = nth i l 0.
Proof. revert n l. induction i; intros [|n] [|a l] H; cbn; auto; try lia. apply IHi. lia. Qed.

(** the digits as one number, before any carry *)
Definition fix_chain (dbg : bool) (ds : list Z) (e : Z) (prec : option nat) : outcome text :=
  let* d := adjust_zeros dbg ds e in
  let* d := adjust_prec dbg d e prec in
  place_decimal d e.

Lemma fix_chain_ok dbg ds e prec : decimals ds -> hd 0 ds <> 0 -> i32_min < e < i32_max ->
  exists ip fp, fix_chain dbg ds e prec = Val (fixed_text ip fp) /\ decimals ip /\ decimals fp /\
    (Z.of_nat (length ip) = Z.max 0 e + 1 \/ (prec <> None /\ Z.of_nat (length ip) = Z.max 0 e + 2)) /\
    (hd 0 ip <> 0 \/ ip = [0]) /\
    match prec with
    | None => fixed_val ip fp = digits_val ds e /\ (fp <> [] -> last fp 0 <> 0)
    | Some p => length fp = p /\ fixed_val ip fp = half_up p (digits_val ds e)
    end.
Proof.
  intros D H0 He. assert (NE : ds <> []) by (intros ->; now apply H0).
  destruct (adjust_zeros_ok dbg ds e NE He) as [m [Hm [Es [Ea [M1 M2]]]]].
  unfold fix_chain. rewrite Ea. cbn [obind]. clear Ea.
  set (L := length ds) in *. set (l := repeat 0 (Z.to_nat (- e)) ++ firstn m ds ++ repeat 0 (Z.to_nat (e + 1 - Z.of_nat L))).
  set (pos := (Z.to_nat (Z.max 0 e) + 1)%nat).
  assert (Lm : length (firstn m ds) = m) by (rewrite firstn_length; fold L; lia).
  assert (Ll : length l = (Z.to_nat (- e) + (m + Z.to_nat (e + 1 - Z.of_nat L)))%nat) by (unfold l; rewrite !app_length, !repeat_length, Lm; reflexivity).
  assert (Pl : (pos <= length l)%nat) by (rewrite Ll; unfold pos; lia).
  assert (Dl : decimals l).
  { unfold l. rewrite !decimals_app. split; [apply decimals_zeros|]. split; [now apply decimals_firstn|apply decimals_zeros]. }
  assert (NEl : l <> []) by (intros E; rewrite E in Pl; cbn in Pl; unfold pos in Pl; lia).
  assert (Vl : pv l (Z.of_nat pos) = digits_val ds e).
  { assert (EQ : pv ds (e + 1) = pv (firstn m ds) (e + 1)) by (rewrite Es at 1; apply pv_zeros_r).
    unfold l. rewrite pv_zeros_l, pv_zeros_r. change (digits_val ds e) with (pv ds (e + 1)). rewrite EQ. f_equal. unfold pos. lia. }
  assert (Hd : hd 0 l <> 0 \/ (e < 0 /\ hd 0 l = 0)).
  { destruct (Z.lt_ge_cases e 0) as [N|N].
    - right. split; auto. unfold l. destruct (Z.to_nat (- e)) eqn:E; [lia|reflexivity].
    - left. unfold l. replace (Z.to_nat (- e)) with 0%nat by lia. cbn [repeat app].
      destruct m; [lia|]. destruct ds; [easy|]. exact H0. }
  destruct prec as [p|].
  - destruct (adjust_prec_ok dbg l e p Dl NEl) as [r [Er [Lr [Rr Vr]]]]. rewrite Er. cbn [obind].
    set (n := (Z.to_nat (Z.max 0 e) + 1 + p)%nat) in *.
    assert (VAL : pv r (Z.of_nat pos) = half_up p (digits_val ds e)).
    { unfold pv. rewrite Vr, Lr. rewrite <- Vl. destruct (Nat.leb_spec (length l) n) as [B|B].
      - rewrite half_up_id by (unfold pos, n in *; lia). unfold pv. rewrite mult_IZR, IZR_p10, Rmult_assoc. f_equal.
        rewrite <- pz_nat, <- pz_add. f_equal. lia.
      - rewrite pv_round by (unfold pos, n in *; lia). f_equal. unfold pos, n. lia. }
    assert (0 < n)%nat by (unfold n; lia).
    destruct Rr as [Rd|Rt].
    + rewrite place_decimal_ok by (auto; intros ->; cbn in Lr; lia). fold pos.
      exists (firstn pos r), (skipn pos r). split; [reflexivity|]. split; [now apply decimals_firstn|]. split; [now apply decimals_skipn|].
      assert (LF : length (firstn pos r) = pos) by (rewrite firstn_length, Lr; unfold pos, n; lia).
      split; [left; rewrite LF; unfold pos; lia|].
      split.
      { rewrite hd_firstn by (unfold pos; lia). destruct (Z.eq_dec (hd 0 r) 0) as [Z0|Z0]; [|now left]. right.
        destruct Hd as [Hn|[Hn _]].
        - exfalso. destruct l as [|d l']; [easy|]. destruct r as [|d' r']; [cbn in Lr; lia|]. cbn [hd] in *. subst d'.
          assert (R1 := dec_val_range l' ltac:(now inversion Dl)). assert (R2 := dec_val_range r' ltac:(now inversion Rd)).
          assert (1 <= d) by (inversion_clear Dl; lia).
          rewrite !dec_val_cons, Z.mul_0_l, Z.add_0_l in Vr. cbn [length] in Lr, Vr, Pl, Ll.
          assert (Q : dec_val r' >= 10 ^ Z.of_nat (length r')); [|lia]. rewrite Vr.
          destruct (Nat.leb_spec (S (length l')) n) as [B|B].
          + replace (Z.of_nat (length r')) with (Z.of_nat (length l') + Z.of_nat (n - S (length l'))) by lia. rewrite Z.pow_add_r by lia.
            assert (0 < 10 ^ Z.of_nat (length l')) by (apply Z.pow_pos_nonneg; lia). assert (0 < 10 ^ Z.of_nat (n - S (length l'))) by (apply Z.pow_pos_nonneg; lia). nia.
          + apply Z.le_ge, Z.div_le_lower_bound; [apply Z.pow_pos_nonneg; lia|]. rewrite <- Z.pow_add_r by lia.
            replace (Z.of_nat (S (length l') - n) + Z.of_nat (length r')) with (Z.of_nat (length l')) by lia.
            assert (0 < 10 ^ Z.of_nat (length l')) by (apply Z.pow_pos_nonneg; lia). assert (0 < 10 ^ Z.of_nat (S (length l') - n - 1)) by (apply Z.pow_pos_nonneg; lia). nia.
        - unfold pos. replace (Z.to_nat (Z.max 0 e) + 1)%nat with 1%nat by lia. destruct r as [|d' r']; [cbn in Lr; lia|]. cbn in Z0 |- *. now subst. }
      split; [rewrite skipn_length, Lr; unfold pos, n; lia|]. rewrite pv_fixed by (rewrite ?Lr; unfold pos, n; lia). exact VAL.
    + rewrite Rt. rewrite place_decimal_top. set (pos2 := (Z.to_nat (Z.max 0 e) + 2)%nat). set (r2 := 1 :: 0 :: repeat 0 (n - 1)).
      exists (firstn pos2 r2), (skipn pos2 r2). split; [reflexivity|].
      assert (D2 : decimals r2). { constructor; [lia|]. constructor; [lia|apply decimals_zeros]. }
      assert (L2 : length r2 = S n) by (unfold r2; cbn [length]; rewrite repeat_length; lia).
      split; [now apply decimals_firstn|]. split; [now apply decimals_skipn|].
      assert (LF : length (firstn pos2 r2) = pos2) by (rewrite firstn_length, L2; unfold pos2, n; lia).
      split; [right; split; [easy|]; rewrite LF; unfold pos2; lia|].
      split; [left; rewrite hd_firstn by (unfold pos2; lia); cbn; lia|].
      split; [rewrite skipn_length, L2; unfold pos2, n; lia|]. rewrite pv_fixed by (rewrite ?L2; unfold pos2, n; lia).
      rewrite <- VAL, Rt. unfold pv, r2. cbn [length]. rewrite repeat_length.
      rewrite !dec_val_cons, dec_val_zeros. cbn [length]. rewrite repeat_length. 
      replace (1 * 10 ^ Z.of_nat (S (n - 1)) + (0 * 10 ^ Z.of_nat (n - 1) + 0)) with (10 * 10 ^ Z.of_nat (n - 1) + 0)
        by (rewrite Nat2Z.inj_succ, Z.pow_succ_r by lia; lia).
      f_equal. f_equal. unfold pos2, pos. lia.
  - cbn [adjust_prec obind]. rewrite place_decimal_ok by auto. fold pos.
    exists (firstn pos l), (skipn pos l). split; [reflexivity|]. split; [now apply decimals_firstn|]. split; [now apply decimals_skipn|].
    split; [left; rewrite firstn_length; unfold pos in *; lia|].
    split.
    { destruct Hd as [Hn|[Hn Hz]]; [left; rewrite hd_firstn by (unfold pos; lia); exact Hn|].
      right. unfold pos. replace (Z.to_nat (Z.max 0 e) + 1)%nat with 1%nat by lia. destruct l; [easy|]. cbn in Hz |- *. now subst. }
    split; [rewrite pv_fixed by (unfold pos in *; lia); exact Vl|].
    intros NF. assert (PL : (pos < length l)%nat). { destruct (Nat.lt_ge_cases pos (length l)); auto. exfalso. apply NF. apply skipn_all2. auto. }
    rewrite last_skipn by auto.
    assert (Z.to_nat (e + 1 - Z.of_nat L) = 0%nat) as E0. { rewrite Ll in PL. unfold pos in PL. lia. }
    unfold l. rewrite E0. cbn [repeat]. rewrite app_nil_r.
    assert (F : last (repeat 0 (Z.to_nat (- e)) ++ firstn m ds) 0 = last (firstn m ds) 0).
    { destruct (@exists_last _ (firstn m ds)) as [a [b E]]; [intros E; rewrite E in Lm; cbn in Lm; lia|]. rewrite E, app_assoc, !last_last. reflexivity. }
    rewrite F, last_nth, Lm, nth_firstn_lt by lia.
    destruct M2 as [M2|[M2|M2]]; auto.
    + rewrite M2. destruct ds; [easy|]. exact H0.
    + rewrite Ll in PL. unfold pos in PL. destruct ds; [easy|]. assert (m = 1%nat) by lia. subst m. exact H0.
Qed.

(** exponents *)
Lemma nat_text_ok fuel : forall n, 0 <= n < 10 ^ Z.of_nat fuel -> exists ds, decimals ds /\ (hd 0 ds <> 0 \/ ds = [0] \/ fuel = O) /\ (fuel <> O -> ds <> []) /\ dec_val ds = n /\ nat_text fuel n = map digit_char ds.
Proof.
  induction fuel as [|k IH]; intros n Hn.
  - exists []. change (10 ^ Z.of_nat 0) with 1 in Hn. repeat split; auto. constructor. unfold dec_val. cbn. lia.
  - cbn [nat_text]. destruct (Z.ltb_spec n 10) as [L|L].
    + exists [n]. repeat split; try easy. constructor; [lia|constructor]. destruct (Z.eq_dec n 0) as [->|N]; auto.
    + rewrite Nat2Z.inj_succ, Z.pow_succ_r in Hn by lia.
      destruct (IH (n / 10)) as [ds [D [H [NE [V T]]]]]. { split; [apply Z.div_pos; lia|apply Z.div_lt_upper_bound; lia]. }
      assert (M := Z.mod_pos_bound n 10 ltac:(lia)). assert (DM := Z.div_mod n 10 ltac:(lia)).
      destruct k as [|k]; [change (10 ^ Z.of_nat 0) with 1 in Hn; lia|]. specialize (NE ltac:(easy)).
      exists (ds ++ [n mod 10]). split; [apply decimals_app; split; auto; constructor; [lia|constructor]|]. 
      assert (H' : hd 0 ds <> 0). { destruct H as [H|[->|H]]; auto; [|easy]. assert (V' : dec_val [0] = 0) by reflexivity. rewrite V' in V. assert (1 <= n / 10) by (apply Z.div_le_lower_bound; lia). lia. }
      split; [left; destruct ds; [easy|exact H']|]. split; [intros _ E; now apply app_eq_nil in E|].
      split; [rewrite dec_val_app; cbn [length]; rewrite V; unfold dec_val; cbn; lia|]. rewrite T, map_app. reflexivity.
Qed.
Lemma i32_text_ok n : i32_min <= n <= i32_max -> int_text n (i32_text n).
Proof.
  unfold i32_min, i32_max. intros H. destruct (nat_text_ok 10 (Z.abs n)) as [ds [D [Hh [NE [V T]]]]].
  { change (10 ^ Z.of_nat 10) with 10000000000. lia. }
  exists ds. split; auto. split; auto. split; [destruct Hh as [|[|]]; auto; easy|]. split; auto. unfold i32_text. rewrite T. reflexivity.
Qed.
