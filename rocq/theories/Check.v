(** * Boolean checkers used only in the non-vacuity examples (lemmas) *)
From Coq Require Import ZArith Reals Lra Lia Psatz Bool.
From Flocq Require Import Core IEEE754.BinarySingleNaN.
From Verif Require Import RN F64 Prim DoubleM Spec F64Facts EFT DAddProofs DMulProofs.
Local Open Scope R_scope.

Definition dnormb (x : Double) : bool :=
  is_finite (d0 x) && is_finite (d1 x) && is_finite (fadd (d0 x) (d1 x)) && feqb (fadd (d0 x) (d1 x)) (d0 x).

(** a finite sum is the rounded sum *)
Lemma fadd_fin_ok a b : Fin a -> Fin b -> Fin (fadd a b) -> V (fadd a b) = rn (V a + V b).
Proof.
  intros Fa Fb F. assert (K := Bplus_correct prec emax _ _ mode_NE a b Fa Fb).
  change (round radix2 _ _ _) with (rn (V a + V b)) in K.
  destruct (Rlt_bool_spec (Rabs (rn (V a + V b))) (bp 1024)) as [H|H]; [apply K|].
  exfalso. destruct K as [K _]. unfold Fin, fadd in F. destruct (Bplus mode_NE a b); try easy;
  simpl in K; destruct (Bsign a); discriminate.
Qed.

Lemma dnormb_ok x : dnormb x = true -> DNorm x.
Proof.
  unfold dnormb. rewrite !andb_true_iff. intros [[[F0 F1] FS] E].
  split; [now split|]. unfold DV, RN. rewrite <- (fadd_fin_ok _ _ F0 F1 FS).
  symmetry. now apply feqb_V.
Qed.

Definition in_range (lo hi : Z) (a : f64) : bool :=
  fleb (f2pow 1 lo) (fabs a) && fleb (fabs a) (f2pow 1 hi).

Lemma in_range_ok lo hi a : (-1074 <= lo <= 970)%Z -> (-1074 <= hi <= 970)%Z -> Fin a ->
  in_range lo hi a = true -> bp lo <= Rabs (V a) <= bp hi.
Proof.
  intros Hl Hh F. unfold in_range. rewrite andb_true_iff.
  destruct (f2pow_exact 1 lo) as [F1 E1]; try lia. destruct (f2pow_exact 1 hi) as [F2 E2]; try lia.
  destruct (fabs_ok a F) as [F3 E3].
  rewrite !fleb_ok by easy. rewrite E1, E2, E3, !Rmult_1_l.
  destruct (Rle_bool_spec (bp lo) (Rabs (V a))); destruct (Rle_bool_spec (Rabs (V a)) (bp hi)); easy.
Qed.

Lemma D15_check x : Fin (d0 x) -> fleb (fabs (d0 x)) (f2pow 1 900) = true -> D15 x.
Proof.
  intros F. destruct (f2pow_exact 1 900) as [F2 E2]; try lia. destruct (fabs_ok (d0 x) F) as [F3 E3].
  rewrite fleb_ok by easy. rewrite E2, E3, Rmult_1_l.
  destruct (Rle_bool_spec (Rabs (V (d0 x))) (bp 900)) as [H|]; [intros _|easy].
  apply Rle_trans with (1 := H). apply bpow_le. lia.
Qed.

Lemma mul_window_check a b : Fin a -> Fin b -> in_range (-440) 500 a = true -> in_range (-440) 500 b = true ->
  mul_window (V a) (V b).
Proof.
  intros Fa Fb Ha Hb. apply in_range_ok in Ha, Hb; try easy; try lia. right. rewrite Rabs_mult.
  split.
  - apply Rle_trans with (bp (-440) * bp (-440)). rewrite <- bpow_plus. apply bpow_le; lia.
    apply Rmult_le_compat; try lra; apply bpow_ge_0.
  - apply Rle_trans with (bp 500 * bp 500). apply Rmult_le_compat; try lra; apply Rabs_pos.
    rewrite <- bpow_plus. apply bpow_le; lia.
Qed.
