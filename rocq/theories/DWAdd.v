(** * Real-level analysis of the double-double addition (lemmas) *)
From Coq Require Import ZArith Reals Lra Lia Psatz Bool.
From Flocq Require Import Core.
From Verif Require Import RN.
Local Open Scope R_scope.

Lemma fmt_max x : fmt x -> Rabs x <= bp (cexp radix2 fexp64 x + 53) - bp (cexp radix2 fexp64 x).
Proof.
  intros F. set (j := cexp radix2 fexp64 x).
  destruct (mult2_cexp x F) as [n Hn]. fold j in Hn.
  assert (Hlt : Rabs x < bp (j + 53)).
  { destruct (Req_dec x 0) as [Hx|Hx]. { rewrite Hx, Rabs_R0. apply bpow_gt_0. }
    apply Rlt_le_trans with (bp (mag radix2 x)).
    - now apply bpow_mag_gt.
    - apply bpow_le. unfold j. rewrite cexp64. lia. }
  assert (Hp := bpow_gt_0 radix2 j).
  rewrite Hn in Hlt |- *. rewrite Rabs_mult, (Rabs_pos_eq (bp j)) in Hlt |- * by lra.
  rewrite Z.add_comm, bpow_plus in Hlt |- *.
  apply Rmult_lt_reg_r in Hlt; [|easy].
  rewrite <- (IZR_Zpower radix2 53), <- abs_IZR in Hlt |- * by lia. apply lt_IZR in Hlt.
  replace (IZR (Zpower radix2 53) * bp j - bp j) with (IZR (Zpower radix2 53 - 1) * bp j)
    by (rewrite minus_IZR; ring).
  apply Rmult_le_compat_r; [lra|]. apply IZR_le. lia.
Qed.

Lemma mult2_ge k x : mult2 k x -> x <> 0 -> bp k <= Rabs x.
Proof.
  intros [n ->] Hx. assert (Hp := bpow_gt_0 radix2 k).
  rewrite Rabs_mult, (Rabs_pos_eq (bp k)) by lra.
  rewrite <- (Rmult_1_l (bp k)) at 1. apply Rmult_le_compat_r; [lra|].
  rewrite <- abs_IZR. apply IZR_le. destruct (Z.eq_dec n 0) as [->|]; [|lia].
  elim Hx. simpl. ring.
Qed.

Lemma cexp_mono x y : x <> 0 -> Rabs x <= Rabs y -> (cexp radix2 fexp64 x <= cexp radix2 fexp64 y)%Z.
Proof.
  intros Hx H. rewrite !cexp64.
  assert (mag radix2 x <= mag radix2 y)%Z by (now apply mag_le_abs). lia.
Qed.

Lemma fmt_minus_opp x y : fmt x -> fmt y -> x * y <= 0 -> Rabs x / 2 <= Rabs y <= Rabs x -> fmt (x + y).
Proof.
  intros Fx Fy Hs Ha.
  destruct (Rle_lt_dec 0 x) as [Hx|Hx].
  - destruct (Rle_lt_dec y 0) as [Hy|Hy].
    + rewrite (Rabs_pos_eq x), (Rabs_left1 y) in Ha by lra.
      replace (x + y) with (x - (- y)) by ring.
      apply sterbenz_R; [easy|now apply fmt_opp|lra].
    + assert (x = 0) by nra. subst x. now rewrite Rplus_0_l.
  - destruct (Rle_lt_dec y 0) as [Hy|Hy].
    + assert (y = 0) by nra. subst y. now rewrite Rplus_0_r.
    + rewrite (Rabs_left x), (Rabs_pos_eq y) in Ha by lra.
      replace (x + y) with (y - (- x)) by ring.
      apply sterbenz_R; [easy|now apply fmt_opp|lra].
Qed.

(** the operands' leading parts: either no cancellation, or Sterbenz *)
Lemma cancel_cases x y : Rabs y <= Rabs x ->
  (Rabs x + Rabs y <= 3 * Rabs (x + y)) \/ (x * y <= 0 /\ Rabs x / 2 <= Rabs y <= Rabs x).
Proof.
  intros H. destruct (Rle_lt_dec (x * y) 0) as [Hs|Hs].
  - destruct (Rle_lt_dec (Rabs x / 2) (Rabs y)) as [K|K]; [right; lra|left].
    assert (K1 := Rabs_triang_inv x (- y)). rewrite Rabs_Ropp in K1.
    replace (x - - y) with (x + y) in K1 by ring. lra.
  - left. assert (E : Rabs (x + y) = Rabs x + Rabs y).
    { destruct (Rle_lt_dec 0 x); destruct (Rle_lt_dec 0 y); try nra.
      - rewrite !Rabs_pos_eq; lra.
      - rewrite !Rabs_left; lra. }
    rewrite E. assert (K := Rabs_pos x). assert (K' := Rabs_pos y). lra.
Qed.

Ltac abs2 H := apply Rabs_le_inv in H.

Section DW.
Variables xh xl yh yl : R.
Hypothesis Fxh : fmt xh.
Hypothesis Fxl : fmt xl.
Hypothesis Fyh : fmt yh.
Hypothesis Fyl : fmt yl.
Hypothesis Nx : rn (xh + xl) = xh.
Hypothesis Ny : rn (yh + yl) = yh.
Let sh := rn (xh + yh).
Let sl := xh + yh - sh.
Let th := rn (xl + yl).
Let tl := xl + yl - th.
Let c := rn (th + sl).
Let vh := rn (sh + c).
Let vl := sh + c - vh.
Let w := rn (tl + vl).

Definition dw_concl : Prop :=
  rn (c - rn (vh - sh)) = vl /\
  (Rabs w <= Rabs vh \/ vh = 0) /\
  Rabs (vh + w - (xh + xl + (yh + yl))) <= 6 * u * u * Rabs (xh + xl + (yh + yl)) /\
  Rabs w <= 3 * u * (Rabs xh + Rabs yh) /\
  Rabs c <= 4 * u * (Rabs xh + Rabs yh).

Lemma dw_aux : Rabs yh <= Rabs xh -> dw_concl.
Proof.
  intros Hxy.
  assert (Lx := norm_lo _ _ Fxh Fxl Nx). assert (Ly := norm_lo _ _ Fyh Fyl Ny).
  destruct (plus_ex xh yh Fxh Fyh) as [Es Es']. fold sh in Es, Es'.
  destruct (plus_ex xl yl Fxl Fyl) as [Et Et']. fold th in Et, Et'.
  assert (Fsh : fmt sh) by apply rn_fmt. assert (Fth : fmt th) by apply rn_fmt.
  assert (Fsl : fmt sl) by now apply plus_err_fmt.
  assert (Ftl : fmt tl) by now apply plus_err_fmt.
  destruct (plus_ex th sl Fth Fsl) as [Ec Ec']. fold c in Ec, Ec'.
  assert (Fc : fmt c) by apply rn_fmt.
  destruct (plus_ex sh c Fsh Fc) as [Ev Ev']. fold vh in Ev, Ev'.
  assert (Fvh : fmt vh) by apply rn_fmt.
  assert (Fvl : fmt vl) by now apply plus_err_fmt.
  destruct (plus_ex tl vl Ftl Fvl) as [Ew Ew']. fold w in Ew, Ew'.
  assert (Fw : fmt w) by apply rn_fmt.
  assert (Px := Rabs_pos xh). assert (Py := Rabs_pos yh).
  assert (Tl : Rabs (xl + yl) <= u * (Rabs xh + Rabs yh)).
  { assert (K := Rabs_triang xl yl). lra. }
  assert (Esl : Rabs sl <= u * Rabs (xh + yh)).
  { unfold sl. rewrite <- Rabs_Ropp. replace (- (xh + yh - sh)) with (sh - (xh + yh)) by ring. easy. }
  assert (Etl : Rabs tl <= u * Rabs (xl + yl)).
  { unfold tl. rewrite <- Rabs_Ropp. replace (- (xl + yl - th)) with (th - (xl + yl)) by ring. easy. }
  assert (Etl' : Rabs tl <= u * Rabs th).
  { unfold tl. rewrite <- Rabs_Ropp. replace (- (xl + yl - th)) with (th - (xl + yl)) by ring. easy. }
  assert (Evl : Rabs vl <= u * Rabs (sh + c)).
  { unfold vl. rewrite <- Rabs_Ropp. replace (- (sh + c - vh)) with (vh - (sh + c)) by ring. easy. }
  assert (Evl' : Rabs vl <= u * Rabs vh).
  { unfold vl. rewrite <- Rabs_Ropp. replace (- (sh + c - vh)) with (vh - (sh + c)) by ring. easy. }
  assert (Hth : Rabs th <= u * (1 + u) * (Rabs xh + Rabs yh)).
  { assert (K := Rabs_triang (th - (xl + yl)) (xl + yl)).
    replace (th - (xl + yl) + (xl + yl)) with th in K by ring. lra. }
  assert (Hxyt := Rabs_triang xh yh).
  assert (Hc : Rabs c <= 3 * u * (Rabs xh + Rabs yh)).
  { assert (K := Rabs_triang th sl). assert (K' := Rabs_triang (c - (th + sl)) (th + sl)).
    replace (c - (th + sl) + (th + sl)) with c in K' by ring. lra. }
  assert (Hc4 : Rabs c <= 4 * u * (Rabs xh + Rabs yh)) by lra.
  assert (Hsh : Rabs sh <= (1 + u) * (Rabs xh + Rabs yh)).
  { assert (K' := Rabs_triang (sh - (xh + yh)) (xh + yh)).
    replace (sh - (xh + yh) + (xh + yh)) with sh in K' by ring. lra. }
  assert (Hw : Rabs w <= 3 * u * (Rabs xh + Rabs yh)).
  { assert (K := Rabs_triang sh c). assert (K1 := Rabs_triang tl vl).
    assert (K' := Rabs_triang (w - (tl + vl)) (tl + vl)).
    replace (w - (tl + vl) + (tl + vl)) with w in K' by ring. lra. }
  destruct (cancel_cases xh yh Hxy) as [HC|[HC1 HC2]].
  - (* no heavy cancellation *)
    set (S := Rabs (xh + yh)) in *.
    assert (PS : 0 <= S) by apply Rabs_pos.
    assert (Tl' : Rabs (xl + yl) <= 3 * u * S) by lra.
    assert (Hth' : Rabs th <= 3 * u * (1 + u) * S) by lra.
    assert (Hts : Rabs (th + sl) <= u * (4 + 3 * u) * S).
    { assert (K := Rabs_triang th sl). lra. }
    assert (Hc' : Rabs c <= u * (4 + 8 * u) * S).
    { assert (K' := Rabs_triang (c - (th + sl)) (th + sl)).
      replace (c - (th + sl) + (th + sl)) with c in K' by ring. lra. }
    assert (Hsh' : (1 - u) * S <= Rabs sh).
    { assert (K' := Rabs_triang (xh + yh - sh) sh).
      replace (xh + yh - sh + sh) with (xh + yh) in K' by ring. fold S in K'.
      rewrite <- (Rabs_Ropp (xh + yh - sh)) in K'.
      replace (- (xh + yh - sh)) with (sh - (xh + yh)) in K' by ring. lra. }
    assert (Hsh2 : Rabs sh <= (1 + u) * S).
    { assert (K' := Rabs_triang (sh - (xh + yh)) (xh + yh)).
      replace (sh - (xh + yh) + (xh + yh)) with sh in K' by ring. fold S in K'. lra. }
    assert (Hcs : Rabs c <= Rabs sh) by lra.
    assert (Hsc : Rabs (sh + c) <= (1 + 6 * u) * S).
    { assert (K := Rabs_triang sh c). lra. }
    assert (Hvh : (1 - 7 * u) * S <= Rabs vh).
    { assert (K' := Rabs_triang (sh + c - vh) (vh + - c)).
      replace (sh + c - vh + (vh + - c)) with sh in K' by ring.
      assert (K2 := Rabs_triang vh (- c)). rewrite Rabs_Ropp in K2.
      rewrite <- (Rabs_Ropp (sh + c - vh)) in K'.
      replace (- (sh + c - vh)) with (vh - (sh + c)) in K' by ring. lra. }
    assert (Htv : Rabs (tl + vl) <= u * (1 + 10 * u) * S).
    { assert (K := Rabs_triang tl vl). lra. }
    assert (Hxy' : (1 - 4 * u) * S <= Rabs (xh + xl + (yh + yl))).
    { assert (K' := Rabs_triang (xh + xl + (yh + yl)) (- (xl + yl))).
      replace (xh + xl + (yh + yl) + - (xl + yl)) with (xh + yh) in K' by ring.
      rewrite Rabs_Ropp in K'. fold S in K'. lra. }
    split; [|split; [|split; [|split]]]; auto.
    + now apply fast_two_sum_R.
    + left. lra.
    + assert (E : vh + w - (xh + xl + (yh + yl)) = (w - (tl + vl)) + (c - (th + sl)))
        by (unfold vl, tl, sl; ring).
      rewrite E. assert (K := Rabs_triang (w - (tl + vl)) (c - (th + sl))). nra.
  - (* cancellation: the leading sum is exact *)
    assert (Es0 : sh = xh + yh) by (apply rn_id, fmt_minus_opp; auto).
    assert (sl0 : sl = 0) by (unfold sl; lra).
    assert (c0 : c = th) by (unfold c; rewrite sl0, Rplus_0_r; now apply rn_id).
    destruct (Req_dec th 0) as [Ht0|Ht0].
    { (* the low parts cancel too *)
      assert (tl0 : tl = 0).
      { rewrite Ht0, Rabs_R0 in Etl'. destruct (Req_dec tl 0); auto.
        assert (0 < Rabs tl) by now apply Rabs_pos_lt. lra. }
      assert (vh0 : vh = sh) by (unfold vh; rewrite c0, Ht0, Rplus_0_r; now apply rn_id).
      assert (vl0 : vl = 0) by (unfold vl; lra).
      assert (w0 : w = 0) by (unfold w; rewrite tl0, vl0, Rplus_0_r; apply rn_0).
      split; [|split; [|split; [|split]]]; auto.
      - rewrite vh0, vl0, c0, Ht0. replace (sh - sh) with 0 by ring. rewrite rn_0, Rminus_0_r. apply rn_0.
      - left. rewrite w0, Rabs_R0. apply Rabs_pos.
      - rewrite w0, vh0. replace (sh + 0 - _) with (- (tl + th)) by (unfold tl; lra).
        rewrite tl0, Ht0, Rplus_0_r, Ropp_0, Rabs_R0.
        assert (K := Rabs_pos (xh + xl + (yh + yl))). nra. }
    set (j := cexp radix2 fexp64 th).
    assert (Hj : (-1074 <= j)%Z) by (unfold j; rewrite cexp64; lia).
    assert (Hyh : Rabs th <= Rabs yh) by nra.
    assert (yh <> 0). { intros E. rewrite E, Rabs_R0 in Hyh. assert (0 < Rabs th) by now apply Rabs_pos_lt. lra. }
    assert (Mt : mult2 j th) by now apply mult2_cexp.
    assert (My : mult2 j yh) by (apply mult2_le with (2 := mult2_cexp _ Fyh); now apply cexp_mono).
    assert (Mx : mult2 j xh).
    { apply mult2_le with (2 := mult2_cexp _ Fxh). apply cexp_mono; auto. lra. }
    assert (Ms : mult2 j sh) by (rewrite Es0; now apply mult2_plus).
    assert (Hm := fmt_max th Fth). fold j in Hm.
    assert (Q : rn (c - rn (vh - sh)) = vl).
    { unfold vl, vh. apply fast_two_sum_grid with j; auto; rewrite ?c0; auto. }
    assert (Hpj := bpow_gt_0 radix2 j).
    assert (Hb53 : bp (j + 53) = 9007199254740992 * bp j).
    { rewrite Z.add_comm, bpow_plus. f_equal. }
    assert (Exy : xh + xl + (yh + yl) = sh + th + tl) by (unfold tl; lra).
    destruct (Rle_lt_dec (Rabs (sh + th)) (bp (j + 53))) as [Hrep|Hrep].
    + (* exact *)
      assert (vh0 : vh = sh + th).
      { unfold vh. rewrite c0. apply rn_id, (fmt_mult2 j); auto. now apply mult2_plus. }
      assert (vl0 : vl = 0) by (unfold vl; lra).
      assert (w0 : w = tl) by (unfold w; rewrite vl0, Rplus_0_r; now apply rn_id).
      split; [|split; [|split; [|split]]]; auto.
      * destruct (Req_dec vh 0) as [Hv0|Hv0]; [now right|left].
        assert (Mv : mult2 j vh) by (rewrite vh0; now apply mult2_plus).
        assert (K := mult2_ge j vh Mv Hv0). rewrite w0. nra.
      * rewrite w0, vh0, Exy. replace (sh + th + tl - (sh + th + tl)) with 0 by ring.
        rewrite Rabs_R0. assert (K := Rabs_pos (sh + th + tl)). nra.
    + (* |sh + th| is large compared with th *)
      assert (Hts : Rabs th <= Rabs (sh + th)) by lra.
      set (S := Rabs (sh + th)) in *.
      assert (PS : 0 <= S) by apply Rabs_pos.
      rewrite c0 in Evl, Ev. fold S in Evl, Ev.
      assert (Htv : Rabs (tl + vl) <= 2 * u * S).
      { assert (K := Rabs_triang tl vl). lra. }
      assert (Hvh : (1 - u) * S <= Rabs vh).
      { assert (K' := Rabs_triang (sh + th - vh) vh).
        replace (sh + th - vh + vh) with (sh + th) in K' by ring. fold S in K'.
        rewrite <- (Rabs_Ropp (sh + th - vh)) in K'.
        replace (- (sh + th - vh)) with (vh - (sh + th)) in K' by ring. lra. }
      assert (Hw' : Rabs w <= 3 * u * S).
      { assert (K' := Rabs_triang (w - (tl + vl)) (tl + vl)).
        replace (w - (tl + vl) + (tl + vl)) with w in K' by ring. lra. }
      split; [|split; [|split; [|split]]]; auto.
      * left. lra.
      * assert (E : vh + w - (xh + xl + (yh + yl)) = w - (tl + vl))
          by (rewrite Exy; unfold vl; rewrite c0; ring).
        rewrite E, Exy.
        assert (K' := Rabs_triang (sh + th + tl) (- tl)).
        replace (sh + th + tl + - tl) with (sh + th) in K' by ring. fold S in K'.
        rewrite Rabs_Ropp in K'. nra.
Qed.
End DW.

Lemma dw_add_R xh xl yh yl : fmt xh -> fmt xl -> fmt yh -> fmt yl ->
  rn (xh + xl) = xh -> rn (yh + yl) = yh -> dw_concl xh xl yh yl.
Proof.
  intros Fxh Fxl Fyh Fyl Nx Ny.
  destruct (Rle_lt_dec (Rabs yh) (Rabs xh)) as [H|H].
  - now apply dw_aux.
  - assert (K := dw_aux yh yl xh xl Fyh Fyl Fxh Fxl Ny Nx ltac:(lra)).
    unfold dw_concl in *. rewrite (Rplus_comm yh xh), (Rplus_comm yl xl) in K.
    rewrite (Rplus_comm (yh + yl) (xh + xl)), (Rplus_comm (Rabs yh)) in K. exact K.
Qed.
