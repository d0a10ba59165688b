(** * floor, ceil, round, trunc, fract, ldexp *)
From Coq Require Import ZArith Reals Lra Lia Bool.
From Flocq Require Import Core IEEE754.BinarySingleNaN.
From Verif Require Import F64 Prim DoubleM QuadM Spec Exact RoundProofs FractProofs QRoundProofs RoundThms LdexpProofs.
Local Open Scope R_scope.

(** C19.  The exact set of normalised Doubles on which floor is right; it is
    always normalised, and on the other Doubles it is one too small. *)
Theorem C19_double_floor_partial x : DNorm x ->
  let bad := (0 < V (d0 x) < bpow radix2 (-52) \/ V (d0 x) = -1 + bpow radix2 (-53)) /\ V (d1 x) < 0 in
  DNorm (d_floor x) /\ (DV (d_floor x) = IZR (Rfloor (DV x)) <-> ~ bad).
Proof. exact (fun N => conj (proj1 (d_floor_iff x N)) (proj1 (proj2 (d_floor_iff x N)))). Qed.
Print Assumptions C19_double_floor_partial.
Theorem C19_double_floor_refuted x : DNorm x ->
  (0 < V (d0 x) < bpow radix2 (-52) \/ V (d0 x) = -1 + bpow radix2 (-53)) /\ V (d1 x) < 0 ->
  DV (d_floor x) = IZR (Rfloor (DV x) - 1).
Proof. exact (fun N => proj2 (proj2 (d_floor_iff x N))). Qed.
Print Assumptions C19_double_floor_refuted.
(** Quad: right (as a value) unless leading integers are followed by a component
    just above 0 (or just above -1) and then by a negative one *)
Theorem C19_quad_floor_partial x : QNorm x -> Rabs (V (q0 x)) <= bpow radix2 1000 ->
  ~ qfloor_bad (V (q0 x)) (V (q1 x)) (V (q2 x)) (V (q3 x)) ->
  QFin (q_floor x) /\ QV (q_floor x) = IZR (Rfloor (QV x)).
Proof. exact (q_floor_ok x). Qed.
Print Assumptions C19_quad_floor_partial.
Theorem C19_quad_floor_refuted :
  (exists x, QNorm x /\ QV (q_floor x) = IZR (Rfloor (QV x) - 1)) /\
  (exists x, QNorm x /\ QV x = IZR (Rfloor (QV x)) /\ ~ QNorm (q_floor x)).
Proof. exact q_floor_refuted. Qed.
Print Assumptions C19_quad_floor_refuted.

(** C20 *)
Theorem C20_double_ceil_partial x : DNorm x ->
  let bad := (0 < - V (d0 x) < bpow radix2 (-52) \/ - V (d0 x) = -1 + bpow radix2 (-53)) /\ - V (d1 x) < 0 in
  DNorm (d_ceil x) /\ (DV (d_ceil x) = IZR (Rceil (DV x)) <-> ~ bad).
Proof. exact (fun N => conj (proj1 (d_ceil_iff x N)) (proj1 (proj2 (d_ceil_iff x N)))). Qed.
Print Assumptions C20_double_ceil_partial.
Theorem C20_double_ceil_refuted x : DNorm x ->
  (0 < - V (d0 x) < bpow radix2 (-52) \/ - V (d0 x) = -1 + bpow radix2 (-53)) /\ - V (d1 x) < 0 ->
  DV (d_ceil x) = IZR (Rceil (DV x) + 1).
Proof. exact (fun N => proj2 (proj2 (d_ceil_iff x N))). Qed.
Print Assumptions C20_double_ceil_refuted.
Theorem C20_quad_ceil_partial x : QNorm x -> Rabs (V (q0 x)) <= bpow radix2 1000 ->
  ~ qfloor_bad (- V (q0 x)) (- V (q1 x)) (- V (q2 x)) (- V (q3 x)) ->
  QFin (q_ceil x) /\ QV (q_ceil x) = IZR (Rceil (QV x)).
Proof. exact (q_ceil_ok x). Qed.
Print Assumptions C20_quad_ceil_partial.
Theorem C20_quad_ceil_refuted :
  (exists x, QNorm x /\ QV (q_ceil x) = IZR (Rceil (QV x) + 1)) /\
  (exists x, QNorm x /\ QV x = IZR (Rceil (QV x)) /\ ~ QNorm (q_ceil x)).
Proof. exact q_ceil_refuted. Qed.
Print Assumptions C20_quad_ceil_refuted.

(** C21.  The exact set of normalised Doubles on which round is right. *)
Theorem C21_double_round_partial x : DNorm x ->
  let h := V (d0 x) in let l := V (d1 x) in
  let integer r := exists n : Z, r = IZR n in
  let half r := exists n : Z, r = IZR n + / 2 in
  let bad := (integer h /\ half l /\ h * l < 0) \/ (half h /\ h < 0 /\ l <> 0) \/
             (0 < Rabs (Rabs h - / 2) < bpow radix2 (-52) /\ l < 0) in
  DNorm (d_round x) /\ (DV (d_round x) = IZR (Rround_away (DV x)) <-> ~ bad).
Proof. exact (d_round_ok x). Qed.
Print Assumptions C21_double_round_partial.
Theorem C21_round_refuted :
  (exists x, DNorm x /\ IZR (Rround_away (DV x)) <> DV (d_round x)) /\
  (exists x, QNorm x /\ IZR (Rround_away (QV x)) <> QV (q_round x)).
Proof.
  refine (conj _ q_round_refuted). exists (mkD (f2pow (-5) (-1)) (f2pow 1 (-70))).
  split; [apply dnormx_ok; vm_compute; reflexivity|]. rewrite !zd_ok, round_z. intros E. symmetry in E. rewrite int_z in E. revert E. vm_compute. discriminate.
Qed.
Print Assumptions C21_round_refuted.

(** C22.  trunc and fract; wrong exactly for nonzero |hi| < 2^-52 with a low part of the other sign *)
Theorem C22_double_trunc_fract_partial x : DNorm x ->
  ~ (0 < Rabs (V (d0 x)) < bpow radix2 (-52) /\ V (d0 x) * V (d1 x) < 0) ->
  DNorm (d_trunc x) /\ DV (d_trunc x) = IZR (Ztrunc (DV x)) /\
  DNorm (d_fract x) /\ DV (d_fract x) = DV x - IZR (Ztrunc (DV x)) /\
  DV (d_trunc x) + DV (d_fract x) = DV x.
Proof.
  intros N B. destruct (d_trunc_ok x N) as [T1 [T2 _]]. specialize (T2 B). destruct (d_fract_ok x N B) as [R1 R2].
  refine (conj T1 (conj T2 (conj R1 (conj R2 _)))). rewrite T2, R2. ring.
Qed.
Print Assumptions C22_double_trunc_fract_partial.
Theorem C22_double_trunc_refuted x : DNorm x ->
  0 < Rabs (V (d0 x)) < bpow radix2 (-52) /\ V (d0 x) * V (d1 x) < 0 ->
  Ztrunc (DV x) = 0%Z /\ Rabs (DV (d_trunc x)) = 1 /\ DV (d_trunc x) * V (d0 x) < 0.
Proof. exact (fun N => proj2 (proj2 (d_trunc_ok x N))). Qed.
Print Assumptions C22_double_trunc_refuted.
Theorem C22_quad_trunc_partial x : QNorm x -> Rabs (V (q0 x)) <= bpow radix2 1000 ->
  ~ qtrunc_bad (V (q0 x)) (V (q1 x)) (V (q2 x)) (V (q3 x)) ->
  QFin (q_trunc x) /\ QV (q_trunc x) = IZR (Ztrunc (QV x)).
Proof. exact (q_trunc_ok x). Qed.
Print Assumptions C22_quad_trunc_partial.

(** C23.  For -1023 <= n <= 1023, and components whose scaled value is a finite f64 *)
Theorem C23_double_ldexp_partial x n : DNorm x -> (-1023 <= n <= 1023)%Z ->
  (forall c, c = d0 x \/ c = d1 x -> RN (V c * bpow radix2 n) = V c * bpow radix2 n /\ Rabs (V c * bpow radix2 n) < bpow radix2 1024) ->
  DNorm (d_ldexp x n) /\ DV (d_ldexp x n) = DV x * bpow radix2 n.
Proof. intros N H S. apply d_ldexp_ok; auto; apply S; auto. Qed.
Print Assumptions C23_double_ldexp_partial.
Theorem C23_quad_ldexp_partial x n : QNorm x -> (-1023 <= n <= 1023)%Z ->
  (forall c, c = q0 x \/ c = q1 x \/ c = q2 x \/ c = q3 x -> RN (V c * bpow radix2 n) = V c * bpow radix2 n /\ Rabs (V c * bpow radix2 n) < bpow radix2 1024) ->
  QNorm (q_ldexp x n) /\ QV (q_ldexp x n) = QV x * bpow radix2 n.
Proof. intros N H S. apply q_ldexp_ok; auto; apply S; auto. Qed.
Print Assumptions C23_quad_ldexp_partial.
(** outside: 2^900 scaled by 2^-1030 gives 0, 2^-900 scaled by 2^1030 infinity *)
Theorem C23_ldexp_refuted :
  (exists x n, DNorm x /\ (RN (V (d0 x) * bpow radix2 n) = V (d0 x) * bpow radix2 n /\ Rabs (V (d0 x) * bpow radix2 n) < bpow radix2 1024) /\
     (RN (V (d1 x) * bpow radix2 n) = V (d1 x) * bpow radix2 n /\ Rabs (V (d1 x) * bpow radix2 n) < bpow radix2 1024) /\
     DV x * bpow radix2 n = bpow radix2 (-130) /\ DV (d_ldexp x n) = 0) /\
  (exists x n, DNorm x /\ (RN (V (d0 x) * bpow radix2 n) = V (d0 x) * bpow radix2 n /\ Rabs (V (d0 x) * bpow radix2 n) < bpow radix2 1024) /\
     (RN (V (d1 x) * bpow radix2 n) = V (d1 x) * bpow radix2 n /\ Rabs (V (d1 x) * bpow radix2 n) < bpow radix2 1024) /\
     DV x * bpow radix2 n = bpow radix2 130 /\ ~ Fin (d0 (d_ldexp x n))).
Proof. exact ldexp_refuted. Qed.
Print Assumptions C23_ldexp_refuted.

(** ** concrete cases *)
Definition ex_x : Double := mkD (f2pow 1 60) (f2pow (-5) (-2)).                  (* 2^60 - 1.25 *)
Definition ex_q : Quad := mkQ (f2pow 1 120) (f2pow 1 60) (f2pow (-5) (-2)) f0.  (* 2^120 + 2^60 - 1.25 *)
Example round_ex :
  dnormx ex_x = true /\
  zd (d_floor ex_x) = ((2 ^ 60 - 2) * 2 ^ 1074)%Z /\ zd (d_ceil ex_x) = ((2 ^ 60 - 1) * 2 ^ 1074)%Z /\
  zd (d_round ex_x) = ((2 ^ 60 - 1) * 2 ^ 1074)%Z /\ zd (d_trunc ex_x) = ((2 ^ 60 - 2) * 2 ^ 1074)%Z /\
  zd (d_fract ex_x) = (3 * 2 ^ 1072)%Z /\ zd (d_ldexp ex_x 7) = ((2 ^ 67 - 160) * 2 ^ 1074)%Z /\
  qnormx ex_q = true /\ zq (q_floor ex_q) = ((2 ^ 120 + 2 ^ 60 - 2) * 2 ^ 1074)%Z /\ zq (q_ldexp ex_q 7) = ((2 ^ 127 + 2 ^ 67 - 160) * 2 ^ 1074)%Z.
Proof. repeat split; vm_compute; reflexivity. Qed.
(** the hypotheses of the partial theorems hold there *)
Example round_ex_hyp : ~ floor_bad (V (d0 ex_x)) (V (d1 ex_x)) /\ ~ qfloor_bad (V (q0 ex_q)) (V (q1 ex_q)) (V (q2 ex_q)) (V (q3 ex_q)).
Proof.
  assert (E : bpow radix2 (-52) < 1 /\ bpow radix2 (-53) < 1) by (split; apply (bpow_lt radix2 _ 0); lia).
  assert (P : 0 < bpow radix2 (-53)) by apply bpow_gt_0.
  assert (B : forall k, (0 <= k)%Z -> 1 <= bpow radix2 k) by (intros; now apply (bpow_le radix2 0)).
  assert (V60 : V (f2pow 1 60) = bpow radix2 60) by (destruct (F64Facts.f2pow_exact 1 60) as [_ Q]; [lia..|rewrite Q; ring]).
  assert (V120 : V (f2pow 1 120) = bpow radix2 120) by (destruct (F64Facts.f2pow_exact 1 120) as [_ Q]; [lia..|rewrite Q; ring]).
  assert (V5 : V (f2pow (-5) (-2)) = -5 * bpow radix2 (-2)) by (destruct (F64Facts.f2pow_exact (-5) (-2)) as [_ Q]; [lia..|exact Q]).
  assert (B2 : bpow radix2 (-2) = / 4) by (simpl; lra).
  assert (B60 := B 60%Z ltac:(lia)). assert (B120 := B 120%Z ltac:(lia)).
  split; unfold ex_x, ex_q; cbn [d0 d1 q0 q1 q2 q3]; rewrite ?V60, ?V120, V5, B2.
  - intros [[K|K] _]; lra.
  - intros [[[K|K] _]|[[_ [[K|K] _]]|[_ [_ [[K|K] _]]]]]; lra.
Qed.
Definition ex_bad : Double := mkD (f2pow 1 (-60)) (f2pow (-1) (-130)).
Example floor_bad_ex : dnormx ex_bad = true /\ zd (d_floor ex_bad) = (-1 * 2 ^ 1074)%Z /\ zd (d_trunc ex_bad) = (-1 * 2 ^ 1074)%Z.
Proof. repeat split; vm_compute; reflexivity. Qed.
