(** * Double::from(f64), Quad::from(f64) *)
From Coq Require Import ZArith Reals Lra Lia List Bool.
From Flocq Require Import Core IEEE754.BinarySingleNaN.
From Verif Require Import RN F64 Prim DoubleM QuadM Spec F64Facts EFT DAddProofs DMulProofs SpecialProofs PowProofs ParseM ParseSpec ParseProofs ParseThms ParseNum TransProofs.
Import ListNotations.
Local Open Scope R_scope.

Lemma ffract_int a : Fin a -> (exists z, V a = IZR z) -> feqb (ffract a) f0 = true.
Proof.
  intros F [z E]. unfold ffract. destruct (fnearbyint_ok mode_ZR a F) as [Ft Vt]. fold (ftrunc a) in *. cbn [round_mode] in Vt.
  rewrite E, Ztrunc_IZR, <- E in Vt.
  destruct (fsub_ok a (ftrunc a) F Ft) as [Fs [Vs _]].
  - rewrite Vt. replace (V a - V a) with 0 by ring. rewrite rn_0, Rabs_R0. apply bpow_gt_0.
  - apply feqb_refl_V; auto; [reflexivity|]. rewrite Vs, Vt. replace (V a - V a) with 0 by ring. now rewrite rn_0.
Qed.
Lemma d_from_f64_int lm dbg a : Fin a -> (exists z, V a = IZR z) -> V a <> 0 -> d_from_f64 lm dbg a = Val (mkD a f0).
Proof.
  intros F I N. unfold d_from_f64.
  replace (feqb a f0) with false by (symmetry; rewrite feqb_ok by easy; apply Req_bool_false; exact N).
  replace (fis_nan a) with false by (symmetry; now apply fin_not_nan).
  replace (fis_infinite a) with false by (symmetry; now destruct a).
  unfold is_dyadic. rewrite (ffract_int a F I). reflexivity.
Qed.
Lemma q_from_f64_int lm dbg a : Fin a -> (exists z, V a = IZR z) -> V a <> 0 -> q_from_f64 lm dbg a = Val (mkQ a f0 f0 f0).
Proof.
  intros F I N. unfold q_from_f64.
  replace (feqb a f0) with false by (symmetry; rewrite feqb_ok by easy; apply Req_bool_false; exact N).
  replace (fis_nan a) with false by (symmetry; now apply fin_not_nan).
  replace (fis_infinite a) with false by (symmetry; now destruct a).
  unfold is_dyadic. rewrite (ffract_int a F I). reflexivity.
Qed.

(** What is used of [f64::to_string], for values that are not integers: plain
    decimal notation with at most 17 significant digits that reads back as the
    same f64, and at least two characters. *)
Definition prints_ok (lm : libm) (a : f64) : Prop :=
  exists m, number (normal_text (lm_to_string lm a)) m 0 /\ short (normal_text (lm_to_string lm a)) /\
    (dec_val (digs m) <= 10 ^ 17)%Z /\
    RN (IZR ((if negative m then -1 else 1) * dec_val (digs m)) / IZR (10 ^ frac m)) = V a.
Definition printer (lm : libm) : Prop :=
  forall a, Fin a -> (forall z, V a <> IZR z) -> prints_ok lm a /\ (2 <= length (lm_to_string lm a))%nat.
