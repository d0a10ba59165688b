(** * Published constants against the exact real numbers.
    Everything follows from the 260-bit enclosures of BaseConst.v by linear arithmetic. *)
From Coq Require Import Reals ZArith List Lra.
From Flocq Require Import Core.
From Verif Require Import F64 Prim DoubleM QuadM Spec Exact ConstM ConstSpec BaseConst.
Import ListNotations.
Local Open Scope R_scope.

Lemma scale_z z n d : (0 < d)%Z -> (z * d =? n * 2 ^ 1074)%Z = true -> IZR z * bpow radix2 (-1074) = IZR n / IZR d.
Proof.
  intros Hd H. apply Z.eqb_eq, (f_equal IZR) in H. rewrite !mult_IZR in H.
  assert (T : bpow radix2 (-1074) * IZR (2 ^ 1074) = 1) by exact (bp_neg_pow 1074 ltac:(easy)).
  assert (D : IZR d <> 0) by (apply not_0_IZR; intros ->; discriminate Hd).
  set (b := bpow radix2 (-1074)) in *. set (T2 := IZR (2 ^ 1074)) in *.
  apply Rmult_eq_reg_r with (IZR d); [|exact D].
  replace (IZR n / IZR d * IZR d) with (IZR n * (b * T2)) by (rewrite T; field; exact D).
  replace (IZR z * b * IZR d) with (b * (IZR z * IZR d)) by ring. rewrite H. ring.
Qed.
Lemma approx_of v r n d k : v = IZR n / IZR d ->
  Rabs (IZR n / IZR d - r) <= 1 / IZR (2 ^ k) * Rabs r -> (0 <= k)%Z -> approx v r 1 (- k).
Proof.
  intros -> H Hk. unfold approx. rewrite Rmult_1_l.
  replace (bpow radix2 (- k)) with (1 / IZR (2 ^ k)); [exact H|].
  assert (E := bp_neg_pow k Hk). change (bpow radix2 (- k) * IZR (2 ^ k) = 1) in E.
  assert (N : IZR (2 ^ k) <> 0) by (apply not_0_IZR, Z.pow_nonzero; easy).
  rewrite <- E. field. exact N.
Qed.
Lemma approx_d c n d r : (0 < d)%Z -> (zd c * d =? n * 2 ^ 1074)%Z = true ->
  Rabs (IZR n / IZR d - r) <= 1 / IZR 20282409603651670423947251286016 * Rabs r -> approx (DV c) r 1 (-104).
Proof. intros Hd H K. apply (approx_of _ r n d 104); [|exact K|easy]. rewrite zd_ok. now apply scale_z. Qed.
Lemma approx_q c n d r : (0 < d)%Z -> (zq c * d =? n * 2 ^ 1074)%Z = true ->
  Rabs (IZR n / IZR d - r) <= 1 / IZR 6582018229284824168619876730229402019930943462534319453394436096 * Rabs r -> approx (QV c) r 1 (-212).
Proof. intros Hd H K. apply (approx_of _ r n d 212); [|exact K|easy]. rewrite zq_ok. now apply scale_z. Qed.

Lemma rel_lin v r e : 0 <= r -> v - r <= e * r -> r - v <= e * r -> Rabs (v - r) <= e * Rabs r.
Proof. intros H1 H2 H3. rewrite (Rabs_pos_eq r) by exact H1. apply Rabs_le. lra. Qed.
Lemma rel_div v a b e : 0 < a -> 0 < b -> v * b - a <= e * a -> a - v * b <= e * a -> Rabs (v - a / b) <= e * Rabs (a / b).
Proof.
  intros Ha Hb H1 H2. assert (P : 0 < a / b) by (apply Rdiv_lt_0_compat; assumption).
  assert (E : a / b * b = a) by (field; lra).
  apply rel_lin; [lra| |]; apply Rmult_le_reg_r with b; try exact Hb.
  - replace ((v - a / b) * b) with (v * b - a / b * b) by ring. rewrite Rmult_assoc, E. exact H1.
  - replace ((a / b - v) * b) with (a / b * b - v * b) by ring. rewrite Rmult_assoc, E. exact H2.
Qed.
Lemma sq_le x y : 0 <= y -> x * x <= y * y -> x <= y.
Proof. intros Hy H. apply Rnot_lt_le. intros G. nra. Qed.
Lemma rel_sq v r e : 0 <= v -> 0 <= r -> 0 <= e <= 1 -> (1 - e) * (1 - e) * (r * r) <= v * v <= (1 + e) * (1 + e) * (r * r) ->
  Rabs (v - r) <= e * Rabs r.
Proof.
  intros Hv Hr He [H1 H2]. apply rel_lin; [exact Hr| |].
  - assert (v <= (1 + e) * r); [|lra]. apply sq_le; [apply Rmult_le_pos; lra|]. replace ((1 + e) * r * ((1 + e) * r)) with ((1 + e) * (1 + e) * (r * r)) by ring. exact H2.
  - assert ((1 - e) * r <= v); [|lra]. apply sq_le; [exact Hv|]. replace ((1 - e) * r * ((1 - e) * r)) with ((1 - e) * (1 - e) * (r * r)) by ring. exact H1.
Qed.
Lemma rel_sqrt2 v e : 0 <= v -> 0 <= e <= 1 -> (1 - e) * (1 - e) * 2 <= v * v <= (1 + e) * (1 + e) * 2 -> Rabs (v - sqrt 2) <= e * Rabs (sqrt 2).
Proof. intros Hv He H. apply rel_sq; [exact Hv|apply sqrt_pos|exact He|]. rewrite sqrt_sqrt by lra. exact H. Qed.
Lemma rel_sqrtdiv v a b e : 0 <= v -> 0 <= a -> 0 < b -> 0 <= e <= 1 ->
  (1 - e) * (1 - e) * (a * a) <= v * v * b <= (1 + e) * (1 + e) * (a * a) -> Rabs (v - a / sqrt b) <= e * Rabs (a / sqrt b).
Proof.
  intros Hv Ha Hb He [H1 H2]. assert (PB := sqrt_lt_R0 b Hb). assert (SB := sqrt_sqrt b (Rlt_le _ _ Hb)).
  assert (E : a / sqrt b * (a / sqrt b) * (sqrt b * sqrt b) = a * a) by (field; lra). rewrite SB in E.
  apply rel_sq; [exact Hv| |exact He|].
  - apply Rmult_le_pos; [exact Ha|]. left. now apply Rinv_0_lt_compat.
  - split; apply Rmult_le_reg_r with b; try exact Hb; rewrite <- E in H1, H2; lra.
Qed.
Ltac consts := generalize pi_enc ln2_enc ln10_enc e_enc; unfold pi_lo, pi_hi, ln2_lo, ln2_hi, ln10_lo, ln10_hi, e_lo, e_hi, T260;
  intros; lra.

Lemma d_PI_ok : DNorm D_PI /\ approx (DV D_PI) (PI) 1 (-104).
Proof.
  split; [apply dnormx_ok; vm_compute; reflexivity|].
  apply (approx_d _ 127438138015862315638027235646471 40564819207303340847894502572032); [reflexivity|vm_compute; reflexivity|].
  apply rel_lin; consts.
Qed.
Lemma d_TAU_ok : DNorm D_TAU /\ approx (DV D_TAU) (2 * PI) 1 (-104).
Proof.
  split; [apply dnormx_ok; vm_compute; reflexivity|].
  apply (approx_d _ 63719069007931157819013617823233 10141204801825835211973625643008); [reflexivity|vm_compute; reflexivity|].
  apply rel_lin; consts.
Qed.
Lemma d_FRAC_PI_2_ok : DNorm D_FRAC_PI_2 /\ approx (DV D_FRAC_PI_2) (PI / 2) 1 (-104).
Proof.
  split; [apply dnormx_ok; vm_compute; reflexivity|].
  apply (approx_d _ 63719069007931157819013617823233 40564819207303340847894502572032); [reflexivity|vm_compute; reflexivity|].
  apply rel_lin; consts.
Qed.
Lemma d_FRAC_PI_3_ok : DNorm D_FRAC_PI_3 /\ approx (DV D_FRAC_PI_3) (PI / 3) 1 (-104).
Proof.
  split; [apply dnormx_ok; vm_compute; reflexivity|].
  apply (approx_d _ 10619844834655192969835602970539 10141204801825835211973625643008); [reflexivity|vm_compute; reflexivity|].
  apply rel_lin; consts.
Qed.
Lemma d_FRAC_PI_4_ok : DNorm D_FRAC_PI_4 /\ approx (DV D_FRAC_PI_4) (PI / 4) 1 (-104).
Proof.
  split; [apply dnormx_ok; vm_compute; reflexivity|].
  apply (approx_d _ 15929767251982789454753404455809 20282409603651670423947251286016); [reflexivity|vm_compute; reflexivity|].
  apply rel_lin; consts.
Qed.
Lemma d_FRAC_PI_6_ok : DNorm D_FRAC_PI_6 /\ approx (DV D_FRAC_PI_6) (PI / 6) 1 (-104).
Proof.
  split; [apply dnormx_ok; vm_compute; reflexivity|].
  apply (approx_d _ 42479379338620771879342411882157 81129638414606681695789005144064); [reflexivity|vm_compute; reflexivity|].
  apply rel_lin; consts.
Qed.
Lemma d_FRAC_PI_8_ok : DNorm D_FRAC_PI_8 /\ approx (DV D_FRAC_PI_8) (PI / 8) 1 (-104).
Proof.
  split; [apply dnormx_ok; vm_compute; reflexivity|].
  apply (approx_d _ 31859534503965578909506808911617 81129638414606681695789005144064); [reflexivity|vm_compute; reflexivity|].
  apply rel_lin; consts.
Qed.
Lemma d_FRAC_PI_16_ok : DNorm D_FRAC_PI_16 /\ approx (DV D_FRAC_PI_16) (PI / 16) 1 (-104).
Proof.
  split; [apply dnormx_ok; vm_compute; reflexivity|].
  apply (approx_d _ 31859534503965578909506808911617 162259276829213363391578010288128); [reflexivity|vm_compute; reflexivity|].
  apply rel_lin; consts.
Qed.
Lemma d_FRAC_3_PI_2_ok : DNorm D_FRAC_3_PI_2 /\ approx (DV D_FRAC_3_PI_2) (3 * PI / 2) 1 (-104).
Proof.
  split; [apply dnormx_ok; vm_compute; reflexivity|].
  apply (approx_d _ 23894650877974184182130106683713 5070602400912917605986812821504); [reflexivity|vm_compute; reflexivity|].
  apply rel_lin; consts.
Qed.
Lemma d_FRAC_3_PI_4_ok : DNorm D_FRAC_3_PI_4 /\ approx (DV D_FRAC_3_PI_4) (3 * PI / 4) 1 (-104).
Proof.
  split; [apply dnormx_ok; vm_compute; reflexivity|].
  apply (approx_d _ 23894650877974184182130106683713 10141204801825835211973625643008); [reflexivity|vm_compute; reflexivity|].
  apply rel_lin; consts.
Qed.
Lemma d_FRAC_5_PI_4_ok : DNorm D_FRAC_5_PI_4 /\ approx (DV D_FRAC_5_PI_4) (5 * PI / 4) 1 (-104).
Proof.
  split; [apply dnormx_ok; vm_compute; reflexivity|].
  apply (approx_d _ 79648836259913947273767022279043 20282409603651670423947251286016); [reflexivity|vm_compute; reflexivity|].
  apply rel_lin; consts.
Qed.
Lemma d_FRAC_7_PI_4_ok : DNorm D_FRAC_7_PI_4 /\ approx (DV D_FRAC_7_PI_4) (7 * PI / 4) 1 (-104).
Proof.
  split; [apply dnormx_ok; vm_compute; reflexivity|].
  apply (approx_d _ 13938546345484940772909228898833 2535301200456458802993406410752); [reflexivity|vm_compute; reflexivity|].
  apply rel_lin; consts.
Qed.
Lemma d_FRAC_1_PI_ok : DNorm D_FRAC_1_PI /\ approx (DV D_FRAC_1_PI) (1 / PI) 1 (-104).
Proof.
  split; [apply dnormx_ok; vm_compute; reflexivity|].
  apply (approx_d _ 25824365969885544311261708133355 81129638414606681695789005144064); [reflexivity|vm_compute; reflexivity|].
  apply rel_div; consts.
Qed.
Lemma d_FRAC_2_PI_ok : DNorm D_FRAC_2_PI /\ approx (DV D_FRAC_2_PI) (2 / PI) 1 (-104).
Proof.
  split; [apply dnormx_ok; vm_compute; reflexivity|].
  apply (approx_d _ 51648731939771088622523416266709 81129638414606681695789005144064); [reflexivity|vm_compute; reflexivity|].
  apply rel_div; consts.
Qed.
Lemma d_FRAC_2_SQRT_PI_ok : DNorm D_FRAC_2_SQRT_PI /\ approx (DV D_FRAC_2_SQRT_PI) (2 / sqrt PI) 1 (-104).
Proof.
  split; [apply dnormx_ok; vm_compute; reflexivity|].
  apply (approx_d _ 2860781056907312147149134929883 2535301200456458802993406410752); [reflexivity|vm_compute; reflexivity|].
  apply rel_sqrtdiv; [consts..|]; split; consts.
Qed.
Lemma d_SQRT_2_ok : DNorm D_SQRT_2 /\ approx (DV D_SQRT_2) (sqrt 2) 1 (-104).
Proof.
  split; [apply dnormx_ok; vm_compute; reflexivity|].
  apply (approx_d _ 114734634956362014553563009489833 81129638414606681695789005144064); [reflexivity|vm_compute; reflexivity|].
  apply rel_sqrt2; [consts..|]; split; consts.
Qed.
Lemma d_FRAC_1_SQRT_2_ok : DNorm D_FRAC_1_SQRT_2 /\ approx (DV D_FRAC_1_SQRT_2) (1 / sqrt 2) 1 (-104).
Proof.
  split; [apply dnormx_ok; vm_compute; reflexivity|].
  apply (approx_d _ 57367317478181007276781504744917 81129638414606681695789005144064); [reflexivity|vm_compute; reflexivity|].
  apply rel_sqrtdiv; [consts..|]; split; consts.
Qed.
Lemma d_E_ok : DNorm D_E /\ approx (DV D_E) (exp 1) 1 (-104).
Proof.
  split; [apply dnormx_ok; vm_compute; reflexivity|].
  apply (approx_d _ 13783326365742390411360726294567 5070602400912917605986812821504); [reflexivity|vm_compute; reflexivity|].
  apply rel_lin; consts.
Qed.
Lemma d_LOG2_10_ok : DNorm D_LOG2_10 /\ approx (DV D_LOG2_10) (ln 10 / ln 2) 1 (-104).
Proof.
  split; [apply dnormx_ok; vm_compute; reflexivity|].
  apply (approx_d _ 33688353147191867788851562806939 10141204801825835211973625643008); [reflexivity|vm_compute; reflexivity|].
  apply rel_div; consts.
Qed.
Lemma d_LOG2_E_ok : DNorm D_LOG2_E /\ approx (DV D_LOG2_E) (1 / ln 2) 1 (-104).
Proof.
  split; [apply dnormx_ok; vm_compute; reflexivity|].
  apply (approx_d _ 14630665876233475379537622519913 10141204801825835211973625643008); [reflexivity|vm_compute; reflexivity|].
  apply rel_div; consts.
Qed.
Lemma d_LOG10_2_ok : DNorm D_LOG10_2 /\ approx (DV D_LOG10_2) (ln 2 / ln 10) 1 (-104).
Proof.
  split; [apply dnormx_ok; vm_compute; reflexivity|].
  apply (approx_d _ 195379637601355292797111719608507 649037107316853453566312041152512); [reflexivity|vm_compute; reflexivity|].
  apply rel_div; consts.
Qed.
Lemma d_LOG10_E_ok : DNorm D_LOG10_E /\ approx (DV D_LOG10_E) (1 / ln 10) 1 (-104).
Proof.
  split; [apply dnormx_ok; vm_compute; reflexivity|].
  apply (approx_d _ 281873234258158126566988866845397 649037107316853453566312041152512); [reflexivity|vm_compute; reflexivity|].
  apply rel_div; consts.
Qed.
Lemma d_LN_2_ok : DNorm D_LN_2 /\ approx (DV D_LN_2) (ln 2) 1 (-104).
Proof.
  split; [apply dnormx_ok; vm_compute; reflexivity|].
  apply (approx_d _ 56234780126932452711568866435089 81129638414606681695789005144064); [reflexivity|vm_compute; reflexivity|].
  apply rel_lin; consts.
Qed.
Lemma d_LN_10_ok : DNorm D_LN_10 /\ approx (DV D_LN_10) (ln 10) 1 (-104).
Proof.
  split; [apply dnormx_ok; vm_compute; reflexivity|].
  apply (approx_d _ 46701974003367606807073264283147 20282409603651670423947251286016); [reflexivity|vm_compute; reflexivity|].
  apply rel_lin; consts.
Qed.
Lemma q_PI_ok : QNorm Q_PI /\ approx (QV Q_PI) (PI) 1 (-212).
Proof.
  split; [apply qnormx_ok; vm_compute; reflexivity|].
  apply (approx_q _ 82712080459661211598412351754116085124540717817670254125635472319 26328072917139296674479506920917608079723773850137277813577744384); [reflexivity|vm_compute; reflexivity|].
  apply rel_lin; consts.
Qed.
Lemma q_TAU_ok : QNorm Q_TAU /\ approx (QV Q_TAU) (2 * PI) 1 (-212).
Proof.
  split; [apply qnormx_ok; vm_compute; reflexivity|].
  apply (approx_q _ 82712080459661211598412351754116085124540717817670254125635472319 13164036458569648337239753460458804039861886925068638906788872192); [reflexivity|vm_compute; reflexivity|].
  apply rel_lin; consts.
Qed.
Lemma q_FRAC_PI_2_ok : QNorm Q_FRAC_PI_2 /\ approx (QV Q_FRAC_PI_2) (PI / 2) 1 (-212).
Proof.
  split; [apply qnormx_ok; vm_compute; reflexivity|].
  apply (approx_q _ 82712080459661211598412351754116085124540717817670254125635472319 52656145834278593348959013841835216159447547700274555627155488768); [reflexivity|vm_compute; reflexivity|].
  apply rel_lin; consts.
Qed.
Lemma q_FRAC_PI_3_ok : QNorm Q_FRAC_PI_3 /\ approx (QV Q_FRAC_PI_3) (PI / 3) 1 (-212).
Proof.
  split; [apply qnormx_ok; vm_compute; reflexivity|].
  apply (approx_q _ 110282773946214948797883135672154780166054290423560338834180629759 105312291668557186697918027683670432318895095400549111254310977536); [reflexivity|vm_compute; reflexivity|].
  apply rel_lin; consts.
Qed.
Lemma q_FRAC_PI_4_ok : QNorm Q_FRAC_PI_4 /\ approx (QV Q_FRAC_PI_4) (PI / 4) 1 (-212).
Proof.
  split; [apply qnormx_ok; vm_compute; reflexivity|].
  apply (approx_q _ 165424160919322423196824703508232170249081435635340508251270944637 210624583337114373395836055367340864637790190801098222508621955072); [reflexivity|vm_compute; reflexivity|].
  apply rel_lin; consts.
Qed.
Lemma q_FRAC_PI_6_ok : QNorm Q_FRAC_PI_6 /\ approx (QV Q_FRAC_PI_6) (PI / 6) 1 (-212).
Proof.
  split; [apply qnormx_ok; vm_compute; reflexivity|].
  apply (approx_q _ 27570693486553737199470783918038695041513572605890084708545157439 52656145834278593348959013841835216159447547700274555627155488768); [reflexivity|vm_compute; reflexivity|].
  apply rel_lin; consts.
Qed.
Lemma q_FRAC_PI_8_ok : QNorm Q_FRAC_PI_8 /\ approx (QV Q_FRAC_PI_8) (PI / 8) 1 (-212).
Proof.
  split; [apply qnormx_ok; vm_compute; reflexivity|].
  apply (approx_q _ 165424160919322423196824703508232170249081435635340508251270944637 421249166674228746791672110734681729275580381602196445017243910144); [reflexivity|vm_compute; reflexivity|].
  apply rel_lin; consts.
Qed.
Lemma q_FRAC_PI_16_ok : QNorm Q_FRAC_PI_16 /\ approx (QV Q_FRAC_PI_16) (PI / 16) 1 (-212).
Proof.
  split; [apply qnormx_ok; vm_compute; reflexivity|].
  apply (approx_q _ 165424160919322423196824703508232170249081435635340508251270944637 842498333348457493583344221469363458551160763204392890034487820288); [reflexivity|vm_compute; reflexivity|].
  apply rel_lin; consts.
Qed.
Lemma q_FRAC_3_PI_2_ok : QNorm Q_FRAC_3_PI_2 /\ approx (QV Q_FRAC_3_PI_2) (3 * PI / 2) 1 (-212).
Proof.
  split; [apply qnormx_ok; vm_compute; reflexivity|].
  apply (approx_q _ 3877128771546619293675578988474191490212846147703293162139162765 822752278660603021077484591278675252491367932816789931674304512); [reflexivity|vm_compute; reflexivity|].
  apply rel_lin; consts.
Qed.
Lemma q_FRAC_3_PI_4_ok : QNorm Q_FRAC_3_PI_4 /\ approx (QV Q_FRAC_3_PI_4) (3 * PI / 4) 1 (-212).
Proof.
  split; [apply qnormx_ok; vm_compute; reflexivity|].
  apply (approx_q _ 3877128771546619293675578988474191490212846147703293162139162765 1645504557321206042154969182557350504982735865633579863348609024); [reflexivity|vm_compute; reflexivity|].
  apply rel_lin; consts.
Qed.
Lemma q_FRAC_5_PI_4_ok : QNorm Q_FRAC_5_PI_4 /\ approx (QV Q_FRAC_5_PI_4) (5 * PI / 4) 1 (-212).
Proof.
  split; [apply qnormx_ok; vm_compute; reflexivity|].
  apply (approx_q _ 6461881285911032156125964980790319150354743579505488603565271275 1645504557321206042154969182557350504982735865633579863348609024); [reflexivity|vm_compute; reflexivity|].
  apply rel_lin; consts.
Qed.
Lemma q_FRAC_7_PI_4_ok : QNorm Q_FRAC_7_PI_4 /\ approx (QV Q_FRAC_7_PI_4) (7 * PI / 4) 1 (-212).
Proof.
  split; [apply qnormx_ok; vm_compute; reflexivity|].
  apply (approx_q _ 1157969126435256962377772924557625191743570049447383557758896612455 210624583337114373395836055367340864637790190801098222508621955072); [reflexivity|vm_compute; reflexivity|].
  apply rel_lin; consts.
Qed.
Lemma q_FRAC_1_PI_ok : QNorm Q_FRAC_1_PI /\ approx (QV Q_FRAC_1_PI) (1 / PI) 1 (-212).
Proof.
  split; [apply qnormx_ok; vm_compute; reflexivity|].
  apply (approx_q _ 16760971787386302344620184700433850277317552656256267870328034393 52656145834278593348959013841835216159447547700274555627155488768); [reflexivity|vm_compute; reflexivity|].
  apply rel_div; consts.
Qed.
Lemma q_FRAC_2_PI_ok : QNorm Q_FRAC_2_PI /\ approx (QV Q_FRAC_2_PI) (2 / PI) 1 (-212).
Proof.
  split; [apply qnormx_ok; vm_compute; reflexivity|].
  apply (approx_q _ 16760971787386302344620184700433850277317552656256267870328034393 26328072917139296674479506920917608079723773850137277813577744384); [reflexivity|vm_compute; reflexivity|].
  apply rel_div; consts.
Qed.
Lemma q_FRAC_2_SQRT_PI_ok : QNorm Q_FRAC_2_SQRT_PI /\ approx (QV Q_FRAC_2_SQRT_PI) (2 / sqrt PI) 1 (-212).
Proof.
  split; [apply qnormx_ok; vm_compute; reflexivity|].
  apply (approx_q _ 475328783831544985832908530392211820341487641143794514362794576581 421249166674228746791672110734681729275580381602196445017243910144); [reflexivity|vm_compute; reflexivity|].
  apply rel_sqrtdiv; [consts..|]; split; consts.
Qed.
Lemma q_SQRT_2_ok : QNorm Q_SQRT_2 /\ approx (QV Q_SQRT_2) (sqrt 2) 1 (-212).
Proof.
  split; [apply qnormx_ok; vm_compute; reflexivity|].
  apply (approx_q _ 37233517790566169250064923081927021625009471095492352588654218199 26328072917139296674479506920917608079723773850137277813577744384); [reflexivity|vm_compute; reflexivity|].
  apply rel_sqrt2; [consts..|]; split; consts.
Qed.
Lemma q_FRAC_1_SQRT_2_ok : QNorm Q_FRAC_1_SQRT_2 /\ approx (QV Q_FRAC_1_SQRT_2) (1 / sqrt 2) 1 (-212).
Proof.
  split; [apply qnormx_ok; vm_compute; reflexivity|].
  apply (approx_q _ 37233517790566169250064923081927021625009471095492352588654218199 52656145834278593348959013841835216159447547700274555627155488768); [reflexivity|vm_compute; reflexivity|].
  apply rel_sqrtdiv; [consts..|]; split; consts.
Qed.
Lemma q_E_ok : QNorm Q_E /\ approx (QV Q_E) (exp 1) 1 (-212).
Proof.
  split; [apply qnormx_ok; vm_compute; reflexivity|].
  apply (approx_q _ 71567122189004476323769493808106364595196066484138946200225833271 26328072917139296674479506920917608079723773850137277813577744384); [reflexivity|vm_compute; reflexivity|].
  apply rel_lin; consts.
Qed.
Lemma q_LOG2_10_ok : QNorm Q_LOG2_10 /\ approx (QV Q_LOG2_10) (ln 10 / ln 2) 1 (-212).
Proof.
  split; [apply qnormx_ok; vm_compute; reflexivity|].
  apply (approx_q _ 43729982553844052166503971545829403017179748211410368205725162327 13164036458569648337239753460458804039861886925068638906788872192); [reflexivity|vm_compute; reflexivity|].
  apply rel_div; consts.
Qed.
Lemma q_LOG2_E_ok : QNorm Q_LOG2_E /\ approx (QV Q_LOG2_E) (1 / ln 2) 1 (-212).
Proof.
  split; [apply qnormx_ok; vm_compute; reflexivity|].
  apply (approx_q _ 607734083739518203376012485246055919514316638499189321558683887797 421249166674228746791672110734681729275580381602196445017243910144); [reflexivity|vm_compute; reflexivity|].
  apply rel_div; consts.
Qed.
Lemma q_LOG10_2_ok : QNorm Q_LOG10_2 /\ approx (QV Q_LOG10_2) (ln 2 / ln 10) 1 (-212).
Proof.
  split; [apply qnormx_ok; vm_compute; reflexivity|].
  apply (approx_q _ 253617269634797542893398463645501891707706704393448275990844897725 842498333348457493583344221469363458551160763204392890034487820288); [reflexivity|vm_compute; reflexivity|].
  apply rel_div; consts.
Qed.
Lemma q_LOG10_E_ok : QNorm Q_LOG10_E /\ approx (QV Q_LOG10_E) (1 / ln 10) 1 (-212).
Proof.
  split; [apply qnormx_ok; vm_compute; reflexivity|].
  apply (approx_q _ 182946188592960749358181798300302702190803306012765196151027957335 421249166674228746791672110734681729275580381602196445017243910144); [reflexivity|vm_compute; reflexivity|].
  apply rel_div; consts.
Qed.
Lemma q_LN_2_ok : QNorm Q_LN_2 /\ approx (QV Q_LN_2) (ln 2) 1 (-212).
Proof.
  split; [apply qnormx_ok; vm_compute; reflexivity|].
  apply (approx_q _ 72996918048367032372183443118328860267857333030033211440352595223 105312291668557186697918027683670432318895095400549111254310977536); [reflexivity|vm_compute; reflexivity|].
  apply rel_lin; consts.
Qed.
Lemma q_LN_10_ok : QNorm Q_LN_10 /\ approx (QV Q_LN_10) (ln 10) 1 (-212).
Proof.
  split; [apply qnormx_ok; vm_compute; reflexivity|].
  apply (approx_q _ 30311314113132601530907488656246481176585146549828035862901941007 13164036458569648337239753460458804039861886925068638906788872192); [reflexivity|vm_compute; reflexivity|].
  apply rel_lin; consts.
Qed.

Lemma double_consts_ok : Forall (fun '(c, r) => DNorm c /\ approx (DV c) r 1 (-104)) double_consts.
Proof.
  unfold double_consts. repeat (apply Forall_cons; [solve [exact d_PI_ok|exact d_TAU_ok|exact d_FRAC_PI_2_ok|exact d_FRAC_PI_3_ok|exact d_FRAC_PI_4_ok|exact d_FRAC_PI_6_ok|exact d_FRAC_PI_8_ok|exact d_FRAC_PI_16_ok|exact d_FRAC_3_PI_2_ok|exact d_FRAC_3_PI_4_ok|exact d_FRAC_5_PI_4_ok|exact d_FRAC_7_PI_4_ok|exact d_FRAC_1_PI_ok|exact d_FRAC_2_PI_ok|exact d_FRAC_2_SQRT_PI_ok|exact d_SQRT_2_ok|exact d_FRAC_1_SQRT_2_ok|exact d_E_ok|exact d_LOG2_10_ok|exact d_LOG2_E_ok|exact d_LOG10_2_ok|exact d_LOG10_E_ok|exact d_LN_2_ok|exact d_LN_10_ok]|]).
  apply Forall_nil.
Qed.
Lemma quad_consts_ok : Forall (fun '(c, r) => QNorm c /\ approx (QV c) r 1 (-212)) quad_consts.
Proof.
  unfold quad_consts. repeat (apply Forall_cons; [solve [exact q_PI_ok|exact q_TAU_ok|exact q_FRAC_PI_2_ok|exact q_FRAC_PI_3_ok|exact q_FRAC_PI_4_ok|exact q_FRAC_PI_6_ok|exact q_FRAC_PI_8_ok|exact q_FRAC_PI_16_ok|exact q_FRAC_3_PI_2_ok|exact q_FRAC_3_PI_4_ok|exact q_FRAC_5_PI_4_ok|exact q_FRAC_7_PI_4_ok|exact q_FRAC_1_PI_ok|exact q_FRAC_2_PI_ok|exact q_FRAC_2_SQRT_PI_ok|exact q_SQRT_2_ok|exact q_FRAC_1_SQRT_2_ok|exact q_E_ok|exact q_LOG2_10_ok|exact q_LOG2_E_ok|exact q_LOG10_2_ok|exact q_LOG10_E_ok|exact q_LN_2_ok|exact q_LN_10_ok]|]).
  apply Forall_nil.
Qed.
