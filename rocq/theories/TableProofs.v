(** * The coefficient tables of src/double/common.rs and src/quad/common.rs *)
From Coq Require Import Reals ZArith List Lra.
From Flocq Require Import Core.
From Verif Require Import F64 Prim DoubleM QuadM Spec Exact ConstM ConstProofs.
Local Open Scope R_scope.
Lemma approx_ofd k c n d r : (0 <= k)%Z -> (0 < d)%Z -> (zd c * d =? n * 2 ^ 1074)%Z = true ->
  Rabs (IZR n / IZR d - r) <= 1 / IZR (2 ^ k) * Rabs r -> approx (DV c) r 1 (- k).
Proof. intros Hk Hd H K. apply (approx_of _ r n d k); [|exact K|easy]. rewrite zd_ok. now apply scale_z. Qed.
Lemma approx_ofq k c n d r : (0 <= k)%Z -> (0 < d)%Z -> (zq c * d =? n * 2 ^ 1074)%Z = true ->
  Rabs (IZR n / IZR d - r) <= 1 / IZR (2 ^ k) * Rabs r -> approx (QV c) r 1 (- k).
Proof. intros Hk Hd H K. apply (approx_of _ r n d k); [|exact K|easy]. rewrite zq_ok. now apply scale_z. Qed.

(** sines and cosines of k pi / 16 by half-angle formulas, enclosed to about 150 bits *)
Definition T160 : Z := 1461501637330902918203684832716283019655932542976.
Lemma half_enc x c lo hi clo chi : 0 <= x -> x * x = (1 + c) / 2 -> IZR clo <= IZR T160 * c <= IZR chi ->
  (0 <= hi)%Z -> (0 <= lo)%Z -> (2 * (lo * lo) <= T160 * T160 + T160 * clo)%Z -> (T160 * T160 + T160 * chi <= 2 * (hi * hi))%Z ->
  IZR lo <= IZR T160 * x <= IZR hi.
Proof.
  intros Hx E [C1 C2] H0 H3 H1 H2. assert (P : 0 < IZR T160) by (apply IZR_lt; reflexivity).
  apply IZR_le in H0, H1, H2, H3. rewrite !plus_IZR, !mult_IZR in H1. rewrite !mult_IZR, plus_IZR, !mult_IZR in H2.
  generalize dependent (IZR T160). intros t C1 C2 H1 H2 P.
  assert (G1 := Rmult_le_compat_l _ _ _ (Rlt_le _ _ P) C1). assert (G2 := Rmult_le_compat_l _ _ _ (Rlt_le _ _ P) C2).
  assert (TX : t * x * (t * x) = (t * t + t * (t * c)) / 2) by (transitivity (t * t * (x * x)); [ring|rewrite E; field]).
  assert (PX : 0 <= t * x) by (apply Rmult_le_pos; lra).
  split; apply sq_le; try assumption; rewrite ?TX; lra.
Qed.
Lemma cos_half x : cos (x / 2) * cos (x / 2) = (1 + cos x) / 2.
Proof. replace x with (2 * (x / 2)) at 3 by field. rewrite cos_2a_cos. field. Qed.
Lemma sin_half x : sin (x / 2) * sin (x / 2) = (1 + - cos x) / 2.
Proof. replace x with (2 * (x / 2)) at 3 by field. rewrite cos_2a_sin. field. Qed.
Lemma sin_pos x : 0 <= x <= PI -> 0 <= sin x.
Proof. intros H. now apply sin_ge_0. Qed.
Lemma cos_pos x : 0 <= x <= PI / 2 -> 0 <= cos x.
Proof. intros H. apply cos_ge_0; [|apply H]. assert (K := PI_RGT_0). lra. Qed.
Ltac pip := assert (PIP := PI_RGT_0); lra.
Lemma neg_enc c lo hi : IZR lo <= IZR T160 * c <= IZR hi -> IZR (- hi) <= IZR T160 * - c <= IZR (- lo).
Proof. rewrite !opp_IZR. lra. Qed.
Lemma c4_enc : IZR 1033437718471923706666374484006904511252097097913 <= IZR T160 * cos (PI / 4) <= IZR 1033437718471923706666374484006904511252097097916.
Proof.
  apply (half_enc _ 0 _ _ 0 0); [apply cos_pos; pip| |rewrite Rmult_0_r; lra|discriminate|discriminate|vm_compute; discriminate|vm_compute; discriminate].
  replace (PI / 4) with (PI / 2 / 2) by field. rewrite cos_half, cos_PI2. reflexivity.
Qed.
Lemma s4_enc : IZR 1033437718471923706666374484006904511252097097913 <= IZR T160 * sin (PI / 4) <= IZR 1033437718471923706666374484006904511252097097916.
Proof. rewrite sin_cos_PI4. exact c4_enc. Qed.
Lemma c8_enc : IZR 1350251449461754748434400416706416525514621074747 <= IZR T160 * cos (PI / 8) <= IZR 1350251449461754748434400416706416525514621074751.
Proof.
  apply (half_enc _ (cos (PI / 4)) _ _ (1033437718471923706666374484006904511252097097913) (1033437718471923706666374484006904511252097097916)); [apply cos_pos; pip| |exact c4_enc|discriminate|discriminate|vm_compute; discriminate|vm_compute; discriminate].
  rewrite <- cos_half. replace (PI / 4 / 2) with (PI / 8) by field. reflexivity.
Qed.
Lemma s8_enc : IZR 559292462980988547550911243850899431222735402418 <= IZR T160 * sin (PI / 8) <= IZR 559292462980988547550911243850899431222735402423.
Proof.
  apply (half_enc _ (- cos (PI / 4)) _ _ (-1033437718471923706666374484006904511252097097916) (-1033437718471923706666374484006904511252097097913)); [apply sin_pos; pip| |exact (neg_enc _ _ _ c4_enc)|discriminate|discriminate|vm_compute; discriminate|vm_compute; discriminate].
  rewrite <- sin_half. replace (PI / 4 / 2) with (PI / 8) by field. reflexivity.
Qed.
Lemma c16_enc : IZR 1433419293179370032902808815682339884992159813182 <= IZR T160 * cos (PI / 16) <= IZR 1433419293179370032902808815682339884992159813186.
Proof.
  apply (half_enc _ (cos (PI / 8)) _ _ (1350251449461754748434400416706416525514621074747) (1350251449461754748434400416706416525514621074751)); [apply cos_pos; pip| |exact c8_enc|discriminate|discriminate|vm_compute; discriminate|vm_compute; discriminate].
  rewrite <- cos_half. replace (PI / 8 / 2) with (PI / 16) by field. reflexivity.
Qed.
Lemma s16_enc : IZR 285124825053984560730676229419201618762012091785 <= IZR T160 * sin (PI / 16) <= IZR 285124825053984560730676229419201618762012091793.
Proof.
  apply (half_enc _ (- cos (PI / 8)) _ _ (-1350251449461754748434400416706416525514621074751) (-1350251449461754748434400416706416525514621074747)); [apply sin_pos; pip| |exact (neg_enc _ _ _ c8_enc)|discriminate|discriminate|vm_compute; discriminate|vm_compute; discriminate].
  rewrite <- sin_half. replace (PI / 8 / 2) with (PI / 16) by field. reflexivity.
Qed.
Lemma c38_enc : IZR 559292462980988547550911243850899431222735402418 <= IZR T160 * cos (3 * PI / 8) <= IZR 559292462980988547550911243850899431222735402423.
Proof. replace (3 * PI / 8) with (PI / 2 - PI / 8) by field. rewrite cos_shift. exact s8_enc. Qed.
Lemma c316_enc : IZR 1215194199771060924365800978532032918482389114157 <= IZR T160 * cos (3 * PI / 16) <= IZR 1215194199771060924365800978532032918482389114162.
Proof.
  apply (half_enc _ (cos (3 * PI / 8)) _ _ (559292462980988547550911243850899431222735402418) (559292462980988547550911243850899431222735402423)); [apply cos_pos; pip| |exact c38_enc|discriminate|discriminate|vm_compute; discriminate|vm_compute; discriminate].
  rewrite <- cos_half. replace (3 * PI / 8 / 2) with (3 * PI / 16) by field. reflexivity.
Qed.
Lemma s316_enc : IZR 811966805210459915923776695941261801554971187015 <= IZR T160 * sin (3 * PI / 16) <= IZR 811966805210459915923776695941261801554971187020.
Proof.
  apply (half_enc _ (- cos (3 * PI / 8)) _ _ (-559292462980988547550911243850899431222735402423) (-559292462980988547550911243850899431222735402418)); [apply sin_pos; pip| |exact (neg_enc _ _ _ c38_enc)|discriminate|discriminate|vm_compute; discriminate|vm_compute; discriminate].
  rewrite <- sin_half. replace (3 * PI / 8 / 2) with (3 * PI / 16) by field. reflexivity.
Qed.
Lemma d_sines_enc_0 : IZR 285124825053984560730676229419201618762012091785 <= IZR T160 * sin (1 * PI / 16) <= IZR 285124825053984560730676229419201618762012091793.
Proof. replace (1 * PI / 16) with (PI / 16) by field. exact s16_enc. Qed.
Lemma d_cosines_enc_0 : IZR 1433419293179370032902808815682339884992159813182 <= IZR T160 * cos (1 * PI / 16) <= IZR 1433419293179370032902808815682339884992159813186.
Proof. replace (1 * PI / 16) with (PI / 16) by field. exact c16_enc. Qed.
Lemma d_sines_enc_1 : IZR 559292462980988547550911243850899431222735402418 <= IZR T160 * sin (2 * PI / 16) <= IZR 559292462980988547550911243850899431222735402423.
Proof. replace (2 * PI / 16) with (PI / 8) by field. exact s8_enc. Qed.
Lemma d_cosines_enc_1 : IZR 1350251449461754748434400416706416525514621074747 <= IZR T160 * cos (2 * PI / 16) <= IZR 1350251449461754748434400416706416525514621074751.
Proof. replace (2 * PI / 16) with (PI / 8) by field. exact c8_enc. Qed.
Lemma d_sines_enc_2 : IZR 811966805210459915923776695941261801554971187015 <= IZR T160 * sin (3 * PI / 16) <= IZR 811966805210459915923776695941261801554971187020.
Proof. replace (3 * PI / 16) with (3 * PI / 16) by field. exact s316_enc. Qed.
Lemma d_cosines_enc_2 : IZR 1215194199771060924365800978532032918482389114157 <= IZR T160 * cos (3 * PI / 16) <= IZR 1215194199771060924365800978532032918482389114162.
Proof. replace (3 * PI / 16) with (3 * PI / 16) by field. exact c316_enc. Qed.
Lemma d_sines_enc_3 : IZR 1033437718471923706666374484006904511252097097913 <= IZR T160 * sin (4 * PI / 16) <= IZR 1033437718471923706666374484006904511252097097916.
Proof. replace (4 * PI / 16) with (PI / 4) by field. exact s4_enc. Qed.
Lemma d_cosines_enc_3 : IZR 1033437718471923706666374484006904511252097097913 <= IZR T160 * cos (4 * PI / 16) <= IZR 1033437718471923706666374484006904511252097097916.
Proof. replace (4 * PI / 16) with (PI / 4) by field. exact c4_enc. Qed.
Lemma d_sines_0 : approx (DV (nth 0 D_SINES D_ZERO)) (sin (1 * PI / 16)) 1 (-104).
Proof. apply (approx_ofd 104 _ (31655214566715335148336521944223) 162259276829213363391578010288128); [easy|reflexivity|vm_compute; reflexivity|]. cbv [Z.pow Z.pow_pos Pos.iter Z.mul Pos.mul]. generalize d_sines_enc_0; unfold T160; intros; apply rel_lin; lra. Qed.
Lemma d_sines_1 : approx (DV (nth 1 D_SINES D_ZERO)) (sin (2 * PI / 16)) 1 (-104).
Proof. apply (approx_ofd 104 _ (124187873980161300202709472062711) 324518553658426726783156020576256); [easy|reflexivity|vm_compute; reflexivity|]. cbv [Z.pow Z.pow_pos Pos.iter Z.mul Pos.mul]. generalize d_sines_enc_1; unfold T160; intros; apply rel_lin; lra. Qed.
Lemma d_sines_2 : approx (DV (nth 2 D_SINES D_ZERO)) (sin (3 * PI / 16)) 1 (-104).
Proof. apply (approx_ofd 104 _ (45073212118799106158594053092095) 81129638414606681695789005144064); [easy|reflexivity|vm_compute; reflexivity|]. cbv [Z.pow Z.pow_pos Pos.iter Z.mul Pos.mul]. generalize d_sines_enc_2; unfold T160; intros; apply rel_lin; lra. Qed.
Lemma d_sines_3 : approx (DV (nth 3 D_SINES D_ZERO)) (sin (4 * PI / 16)) 1 (-104).
Proof. apply (approx_ofd 104 _ (114734634956362014553563009489833) 162259276829213363391578010288128); [easy|reflexivity|vm_compute; reflexivity|]. cbv [Z.pow Z.pow_pos Pos.iter Z.mul Pos.mul]. generalize d_sines_enc_3; unfold T160; intros; apply rel_lin; lra. Qed.
Lemma d_cosines_0 : approx (DV (nth 0 D_COSINES D_ZERO)) (cos (1 * PI / 16)) 1 (-104).
Proof. apply (approx_ofd 104 _ (19892688790370677733060478460413) 20282409603651670423947251286016); [easy|reflexivity|vm_compute; reflexivity|]. cbv [Z.pow Z.pow_pos Pos.iter Z.mul Pos.mul]. generalize d_cosines_enc_0; unfold T160; intros; apply rel_lin; lra. Qed.
Lemma d_cosines_1 : approx (DV (nth 1 D_COSINES D_ZERO)) (cos (2 * PI / 16)) 1 (-104).
Proof. apply (approx_ofd 104 _ (4684625775706034543752200096875) 5070602400912917605986812821504); [easy|reflexivity|vm_compute; reflexivity|]. cbv [Z.pow Z.pow_pos Pos.iter Z.mul Pos.mul]. generalize d_cosines_enc_1; unfold T160; intros; apply rel_lin; lra. Qed.
Lemma d_cosines_2 : approx (DV (nth 2 D_COSINES D_ZERO)) (cos (3 * PI / 16)) 1 (-104).
Proof. apply (approx_ofd 104 _ (67456828998838698450468741503851) 81129638414606681695789005144064); [easy|reflexivity|vm_compute; reflexivity|]. cbv [Z.pow Z.pow_pos Pos.iter Z.mul Pos.mul]. generalize d_cosines_enc_2; unfold T160; intros; apply rel_lin; lra. Qed.
Lemma d_cosines_3 : approx (DV (nth 3 D_COSINES D_ZERO)) (cos (4 * PI / 16)) 1 (-104).
Proof. apply (approx_ofd 104 _ (114734634956362014553563009489833) 162259276829213363391578010288128); [easy|reflexivity|vm_compute; reflexivity|]. cbv [Z.pow Z.pow_pos Pos.iter Z.mul Pos.mul]. generalize d_cosines_enc_3; unfold T160; intros; apply rel_lin; lra. Qed.
Lemma d_inv_facts_0 : approx (DV (nth 0 D_INV_FACTS D_ZERO)) (/ 6) 1 (-104).
Proof. apply (approx_ofd 104 _ (108172851219475575594385340192085) 649037107316853453566312041152512); [easy|reflexivity|vm_compute; reflexivity|]. cbv [Z.pow Z.pow_pos Pos.iter Z.mul Pos.mul]. apply rel_lin; lra. Qed.
Lemma d_inv_facts_1 : approx (DV (nth 1 D_INV_FACTS D_ZERO)) (/ 24) 1 (-104).
Proof. apply (approx_ofd 104 _ (108172851219475575594385340192085) 2596148429267413814265248164610048); [easy|reflexivity|vm_compute; reflexivity|]. cbv [Z.pow Z.pow_pos Pos.iter Z.mul Pos.mul]. apply rel_lin; lra. Qed.
Lemma d_inv_facts_2 : approx (DV (nth 2 D_INV_FACTS D_ZERO)) (/ 120) 1 (-104).
Proof. apply (approx_ofd 104 _ (346153123902321841902033088614673) 41538374868278621028243970633760768); [easy|reflexivity|vm_compute; reflexivity|]. cbv [Z.pow Z.pow_pos Pos.iter Z.mul Pos.mul]. apply rel_lin; lra. Qed.
Lemma d_inv_facts_3 : approx (DV (nth 3 D_INV_FACTS D_ZERO)) (/ 720) 1 (-104).
Proof. apply (approx_ofd 104 _ (230768749268214561268022059076449) 166153499473114484112975882535043072); [easy|reflexivity|vm_compute; reflexivity|]. cbv [Z.pow Z.pow_pos Pos.iter Z.mul Pos.mul]. apply rel_lin; lra. Qed.
Lemma d_inv_facts_4 : approx (DV (nth 4 D_INV_FACTS D_ZERO)) (/ 5040) 1 (-104).
Proof. apply (approx_ofd 104 _ (4219771415190209120329546223112205) 21267647932558653966460912964485513216); [easy|reflexivity|vm_compute; reflexivity|]. cbv [Z.pow Z.pow_pos Pos.iter Z.mul Pos.mul]. apply rel_lin; lra. Qed.
Lemma d_inv_facts_5 : approx (DV (nth 5 D_INV_FACTS D_ZERO)) (/ 40320) 1 (-104).
Proof. apply (approx_ofd 104 _ (4219771415190209120329546223112205) 170141183460469231731687303715884105728); [easy|reflexivity|vm_compute; reflexivity|]. cbv [Z.pow Z.pow_pos Pos.iter Z.mul Pos.mul]. apply rel_lin; lra. Qed.
Lemma d_inv_facts_6 : approx (DV (nth 6 D_INV_FACTS D_ZERO)) (/ 362880) 1 (-104).
Proof. apply (approx_ofd 104 _ (114468625629074683168661735653) 41538374868278621028243970633760768); [easy|reflexivity|vm_compute; reflexivity|]. cbv [Z.pow Z.pow_pos Pos.iter Z.mul Pos.mul]. apply rel_lin; lra. Qed.
Lemma d_inv_facts_7 : approx (DV (nth 7 D_INV_FACTS D_ZERO)) (/ 3628800) 1 (-104).
Proof. apply (approx_ofd 104 _ (46886349057668990225883846923469) 170141183460469231731687303715884105728); [easy|reflexivity|vm_compute; reflexivity|]. cbv [Z.pow Z.pow_pos Pos.iter Z.mul Pos.mul]. apply rel_lin; lra. Qed.
Lemma d_inv_facts_8 : approx (DV (nth 8 D_INV_FACTS D_ZERO)) (/ 39916800) 1 (-104).
Proof. apply (approx_ofd 104 _ (136396651804127971566207554686455) 5444517870735015415413993718908291383296); [easy|reflexivity|vm_compute; reflexivity|]. cbv [Z.pow Z.pow_pos Pos.iter Z.mul Pos.mul]. apply rel_lin; lra. Qed.
Lemma d_inv_facts_9 : approx (DV (nth 9 D_INV_FACTS D_ZERO)) (/ 479001600) 1 (-104).
Proof. apply (approx_ofd 104 _ (45465550601375990522069184895485) 21778071482940061661655974875633165533184); [easy|reflexivity|vm_compute; reflexivity|]. cbv [Z.pow Z.pow_pos Pos.iter Z.mul Pos.mul]. apply rel_lin; lra. Qed.
Lemma d_inv_facts_10 : approx (DV (nth 10 D_INV_FACTS D_ZERO)) (/ 6227020800) 1 (-104).
Proof. apply (approx_ofd 104 _ (55957600740155065257931304486751) 348449143727040986586495598010130648530944); [easy|reflexivity|vm_compute; reflexivity|]. cbv [Z.pow Z.pow_pos Pos.iter Z.mul Pos.mul]. apply rel_lin; lra. Qed.
Lemma d_inv_facts_11 : approx (DV (nth 11 D_INV_FACTS D_ZERO)) (/ 87178291200) 1 (-104).
Proof. apply (approx_ofd 104 _ (255806174812137441179114534796575) 22300745198530623141535718272648361505980416); [easy|reflexivity|vm_compute; reflexivity|]. cbv [Z.pow Z.pow_pos Pos.iter Z.mul Pos.mul]. apply rel_lin; lra. Qed.
Lemma d_inv_facts_12 : approx (DV (nth 12 D_INV_FACTS D_ZERO)) (/ 1307674368000) 1 (-104).
Proof. apply (approx_ofd 104 _ (545719839599226541182111007566027) 713623846352979940529142984724747568191373312); [easy|reflexivity|vm_compute; reflexivity|]. cbv [Z.pow Z.pow_pos Pos.iter Z.mul Pos.mul]. apply rel_lin; lra. Qed.
Lemma d_inv_facts_13 : approx (DV (nth 13 D_INV_FACTS D_ZERO)) (/ 20922789888000) 1 (-104).
Proof. apply (approx_ofd 104 _ (545719839599226541182111007566027) 11417981541647679048466287755595961091061972992); [easy|reflexivity|vm_compute; reflexivity|]. cbv [Z.pow Z.pow_pos Pos.iter Z.mul Pos.mul]. apply rel_lin; lra. Qed.
Lemma d_inv_facts_14 : approx (DV (nth 14 D_INV_FACTS D_ZERO)) (/ 355687428096000) 1 (-104).
Proof. apply (approx_ofd 104 _ (32101167035248620069535941621531) 11417981541647679048466287755595961091061972992); [easy|reflexivity|vm_compute; reflexivity|]. cbv [Z.pow Z.pow_pos Pos.iter Z.mul Pos.mul]. apply rel_lin; lra. Qed.
Lemma q_inv_facts_0 : approx (QV (nth 0 Q_INV_FACTS Q_ZERO)) (/ 6) 1 (-212).
Proof. apply (approx_ofq 212 _ (17552048611426197782986337947278405386482515900091518542385162923) 105312291668557186697918027683670432318895095400549111254310977536); [easy|reflexivity|vm_compute; reflexivity|]. cbv [Z.pow Z.pow_pos Pos.iter Z.mul Pos.mul]. apply rel_lin; lra. Qed.
Lemma q_inv_facts_1 : approx (QV (nth 1 Q_INV_FACTS Q_ZERO)) (/ 24) 1 (-212).
Proof. apply (approx_ofq 212 _ (35104097222852395565972675894556810772965031800183037084770325845) 842498333348457493583344221469363458551160763204392890034487820288); [easy|reflexivity|vm_compute; reflexivity|]. cbv [Z.pow Z.pow_pos Pos.iter Z.mul Pos.mul]. apply rel_lin; lra. Qed.
Lemma q_inv_facts_2 : approx (QV (nth 2 Q_INV_FACTS Q_ZERO)) (/ 120) 1 (-212).
Proof. apply (approx_ofq 212 _ (449332444452510663244450251450327177893952407042342874685060170815) 53919893334301279589334030174039261347274288845081144962207220498432); [easy|reflexivity|vm_compute; reflexivity|]. cbv [Z.pow Z.pow_pos Pos.iter Z.mul Pos.mul]. apply rel_lin; lra. Qed.
Lemma q_inv_facts_3 : approx (QV (nth 3 Q_INV_FACTS Q_ZERO)) (/ 720) 1 (-212).
Proof. apply (approx_ofq 212 _ (74888740742085110540741708575054529648992067840390479114176695137) 53919893334301279589334030174039261347274288845081144962207220498432); [easy|reflexivity|vm_compute; reflexivity|]. cbv [Z.pow Z.pow_pos Pos.iter Z.mul Pos.mul]. apply rel_lin; lra. Qed.
Lemma q_inv_facts_4 : approx (QV (nth 4 Q_INV_FACTS Q_ZERO)) (/ 5040) 1 (-212).
Proof. apply (approx_ofq 212 _ (11218076601767519552909825401542339783031643789686469575375277468618609) 56539106072908298546665520023773392506479484700019806659891398441363832832); [easy|reflexivity|vm_compute; reflexivity|]. cbv [Z.pow Z.pow_pos Pos.iter Z.mul Pos.mul]. apply rel_lin; lra. Qed.
Lemma q_inv_facts_5 : approx (QV (nth 5 Q_INV_FACTS Q_ZERO)) (/ 40320) 1 (-212).
Proof. apply (approx_ofq 212 _ (2804519150441879888227456350385584945757910947421617393843819367198211) 113078212145816597093331040047546785012958969400039613319782796882727665664); [easy|reflexivity|vm_compute; reflexivity|]. cbv [Z.pow Z.pow_pos Pos.iter Z.mul Pos.mul]. apply rel_lin; lra. Qed.
Lemma q_inv_facts_6 : approx (QV (nth 6 Q_INV_FACTS Q_ZERO)) (/ 362880) 1 (-212).
Proof. apply (approx_ofq 212 _ (19019362728148599502410592653982102767997985483273772473441700351) 6901746346790563787434755862277025452451108972170386555162524223799296); [easy|reflexivity|vm_compute; reflexivity|]. cbv [Z.pow Z.pow_pos Pos.iter Z.mul Pos.mul]. apply rel_lin; lra. Qed.
Lemma q_inv_facts_7 : approx (QV (nth 7 Q_INV_FACTS Q_ZERO)) (/ 3628800) 1 (-212).
Proof. apply (approx_ofq 212 _ (60861960730075518407713896492742728857593553546476071915013441125) 220855883097298041197912187592864814478435487109452369765200775161577472); [easy|reflexivity|vm_compute; reflexivity|]. cbv [Z.pow Z.pow_pos Pos.iter Z.mul Pos.mul]. apply rel_lin; lra. Qed.
Lemma q_inv_facts_8 : approx (QV (nth 8 Q_INV_FACTS Q_ZERO)) (/ 39916800) 1 (-212).
Proof. apply (approx_ofq 212 _ (177052976669310599004258607978887938494817610317021300116402737825) 7067388259113537318333190002971674063309935587502475832486424805170479104); [easy|reflexivity|vm_compute; reflexivity|]. cbv [Z.pow Z.pow_pos Pos.iter Z.mul Pos.mul]. apply rel_lin; lra. Qed.
Lemma q_inv_facts_9 : approx (QV (nth 9 Q_INV_FACTS Q_ZERO)) (/ 479001600) 1 (-212).
Proof. apply (approx_ofq 212 _ (59017658889770199668086202659629312831605870105673766705467579275) 28269553036454149273332760011886696253239742350009903329945699220681916416); [easy|reflexivity|vm_compute; reflexivity|]. cbv [Z.pow Z.pow_pos Pos.iter Z.mul Pos.mul]. apply rel_lin; lra. Qed.
Lemma q_inv_facts_10 : approx (QV (nth 10 Q_INV_FACTS Q_ZERO)) (/ 6227020800) 1 (-212).
Proof. apply (approx_ofq 212 _ (18159279658390830667103446972193634717417190801745774370913101315) 113078212145816597093331040047546785012958969400039613319782796882727665664); [easy|reflexivity|vm_compute; reflexivity|]. cbv [Z.pow Z.pow_pos Pos.iter Z.mul Pos.mul]. apply rel_lin; lra. Qed.
Lemma q_inv_facts_11 : approx (QV (nth 11 Q_INV_FACTS Q_ZERO)) (/ 87178291200) 1 (-212).
Proof. apply (approx_ofq 212 _ (166027699733859023242088658031484660273528601615961365676919783455) 14474011154664524427946373126085988481658748083205070504932198000989141204992); [easy|reflexivity|vm_compute; reflexivity|]. cbv [Z.pow Z.pow_pos Pos.iter Z.mul Pos.mul]. apply rel_lin; lra. Qed.
Lemma q_inv_facts_12 : approx (QV (nth 12 Q_INV_FACTS Q_ZERO)) (/ 1307674368000) 1 (-212).
Proof. apply (approx_ofq 212 _ (22137026631181203098945154404197954703137146882128182090255971127) 28948022309329048855892746252171976963317496166410141009864396001978282409984); [easy|reflexivity|vm_compute; reflexivity|]. cbv [Z.pow Z.pow_pos Pos.iter Z.mul Pos.mul]. apply rel_lin; lra. Qed.
Lemma q_inv_facts_13 : approx (QV (nth 13 Q_INV_FACTS Q_ZERO)) (/ 20922789888000) 1 (-212).
Proof. apply (approx_ofq 212 _ (11334157635164775986659919054949352808006219203649629230211057216925) 237142198758023568227473377297792835283496928595231875152809132048206089502588928); [easy|reflexivity|vm_compute; reflexivity|]. cbv [Z.pow Z.pow_pos Pos.iter Z.mul Pos.mul]. apply rel_lin; lra. Qed.
Lemma q_inv_facts_14 : approx (QV (nth 14 Q_INV_FACTS Q_ZERO)) (/ 355687428096000) 1 (-212).
Proof. apply (approx_ofq 212 _ (42669769920620333126249107030397563512494001707857427690206333051401) 15177100720513508366558296147058741458143803430094840009779784451085189728165691392); [easy|reflexivity|vm_compute; reflexivity|]. cbv [Z.pow Z.pow_pos Pos.iter Z.mul Pos.mul]. apply rel_lin; lra. Qed.

(** factorials as integers *)
Fixpoint fz (n : nat) : Z := match n with O => 1 | S k => (Z.of_nat (S k) * fz k)%Z end.
Lemma fact_z n : INR (fact n) = IZR (fz n).
Proof.
  induction n as [|n IH]; [reflexivity|].
  change (fact (S n)) with (S n * fact n)%nat. change (fz (S n)) with (Z.of_nat (S n) * fz n)%Z.
  rewrite mult_INR, mult_IZR, IH, INR_IZR_INZ. reflexivity.
Qed.
Lemma fz_3 : / INR (fact 3) = / 6.
Proof. f_equal. rewrite fact_z. apply (f_equal IZR). vm_compute. reflexivity. Qed.
Lemma fz_4 : / INR (fact 4) = / 24.
Proof. f_equal. rewrite fact_z. apply (f_equal IZR). vm_compute. reflexivity. Qed.
Lemma fz_5 : / INR (fact 5) = / 120.
Proof. f_equal. rewrite fact_z. apply (f_equal IZR). vm_compute. reflexivity. Qed.
Lemma fz_6 : / INR (fact 6) = / 720.
Proof. f_equal. rewrite fact_z. apply (f_equal IZR). vm_compute. reflexivity. Qed.
Lemma fz_7 : / INR (fact 7) = / 5040.
Proof. f_equal. rewrite fact_z. apply (f_equal IZR). vm_compute. reflexivity. Qed.
Lemma fz_8 : / INR (fact 8) = / 40320.
Proof. f_equal. rewrite fact_z. apply (f_equal IZR). vm_compute. reflexivity. Qed.
Lemma fz_9 : / INR (fact 9) = / 362880.
Proof. f_equal. rewrite fact_z. apply (f_equal IZR). vm_compute. reflexivity. Qed.
Lemma fz_10 : / INR (fact 10) = / 3628800.
Proof. f_equal. rewrite fact_z. apply (f_equal IZR). vm_compute. reflexivity. Qed.
Lemma fz_11 : / INR (fact 11) = / 39916800.
Proof. f_equal. rewrite fact_z. apply (f_equal IZR). vm_compute. reflexivity. Qed.
Lemma fz_12 : / INR (fact 12) = / 479001600.
Proof. f_equal. rewrite fact_z. apply (f_equal IZR). vm_compute. reflexivity. Qed.
Lemma fz_13 : / INR (fact 13) = / 6227020800.
Proof. f_equal. rewrite fact_z. apply (f_equal IZR). vm_compute. reflexivity. Qed.
Lemma fz_14 : / INR (fact 14) = / 87178291200.
Proof. f_equal. rewrite fact_z. apply (f_equal IZR). vm_compute. reflexivity. Qed.
Lemma fz_15 : / INR (fact 15) = / 1307674368000.
Proof. f_equal. rewrite fact_z. apply (f_equal IZR). vm_compute. reflexivity. Qed.
Lemma fz_16 : / INR (fact 16) = / 20922789888000.
Proof. f_equal. rewrite fact_z. apply (f_equal IZR). vm_compute. reflexivity. Qed.
Lemma fz_17 : / INR (fact 17) = / 355687428096000.
Proof. f_equal. rewrite fact_z. apply (f_equal IZR). vm_compute. reflexivity. Qed.
Lemma d_inv_facts_ok : length D_INV_FACTS = 15%nat /\ forall i, (i < 15)%nat -> approx (DV (nth i D_INV_FACTS D_ZERO)) (/ INR (fact (i + 3))) 1 (-104).
Proof.
  split; [reflexivity|]. intros i Hi.
  destruct i as [|i]; [change (_ + 3)%nat with 3%nat; rewrite fz_3; exact d_inv_facts_0|].
  destruct i as [|i]; [change (_ + 3)%nat with 4%nat; rewrite fz_4; exact d_inv_facts_1|].
  destruct i as [|i]; [change (_ + 3)%nat with 5%nat; rewrite fz_5; exact d_inv_facts_2|].
  destruct i as [|i]; [change (_ + 3)%nat with 6%nat; rewrite fz_6; exact d_inv_facts_3|].
  destruct i as [|i]; [change (_ + 3)%nat with 7%nat; rewrite fz_7; exact d_inv_facts_4|].
  destruct i as [|i]; [change (_ + 3)%nat with 8%nat; rewrite fz_8; exact d_inv_facts_5|].
  destruct i as [|i]; [change (_ + 3)%nat with 9%nat; rewrite fz_9; exact d_inv_facts_6|].
  destruct i as [|i]; [change (_ + 3)%nat with 10%nat; rewrite fz_10; exact d_inv_facts_7|].
  destruct i as [|i]; [change (_ + 3)%nat with 11%nat; rewrite fz_11; exact d_inv_facts_8|].
  destruct i as [|i]; [change (_ + 3)%nat with 12%nat; rewrite fz_12; exact d_inv_facts_9|].
  destruct i as [|i]; [change (_ + 3)%nat with 13%nat; rewrite fz_13; exact d_inv_facts_10|].
  destruct i as [|i]; [change (_ + 3)%nat with 14%nat; rewrite fz_14; exact d_inv_facts_11|].
  destruct i as [|i]; [change (_ + 3)%nat with 15%nat; rewrite fz_15; exact d_inv_facts_12|].
  destruct i as [|i]; [change (_ + 3)%nat with 16%nat; rewrite fz_16; exact d_inv_facts_13|].
  destruct i as [|i]; [change (_ + 3)%nat with 17%nat; rewrite fz_17; exact d_inv_facts_14|].
  exfalso. do 15 apply Nat.succ_lt_mono in Hi. exact (Nat.nlt_0_r i Hi).
Qed.
Lemma q_inv_facts_ok : length Q_INV_FACTS = 15%nat /\ forall i, (i < 15)%nat -> approx (QV (nth i Q_INV_FACTS Q_ZERO)) (/ INR (fact (i + 3))) 1 (-212).
Proof.
  split; [reflexivity|]. intros i Hi.
  destruct i as [|i]; [change (_ + 3)%nat with 3%nat; rewrite fz_3; exact q_inv_facts_0|].
  destruct i as [|i]; [change (_ + 3)%nat with 4%nat; rewrite fz_4; exact q_inv_facts_1|].
  destruct i as [|i]; [change (_ + 3)%nat with 5%nat; rewrite fz_5; exact q_inv_facts_2|].
  destruct i as [|i]; [change (_ + 3)%nat with 6%nat; rewrite fz_6; exact q_inv_facts_3|].
  destruct i as [|i]; [change (_ + 3)%nat with 7%nat; rewrite fz_7; exact q_inv_facts_4|].
  destruct i as [|i]; [change (_ + 3)%nat with 8%nat; rewrite fz_8; exact q_inv_facts_5|].
  destruct i as [|i]; [change (_ + 3)%nat with 9%nat; rewrite fz_9; exact q_inv_facts_6|].
  destruct i as [|i]; [change (_ + 3)%nat with 10%nat; rewrite fz_10; exact q_inv_facts_7|].
  destruct i as [|i]; [change (_ + 3)%nat with 11%nat; rewrite fz_11; exact q_inv_facts_8|].
  destruct i as [|i]; [change (_ + 3)%nat with 12%nat; rewrite fz_12; exact q_inv_facts_9|].
  destruct i as [|i]; [change (_ + 3)%nat with 13%nat; rewrite fz_13; exact q_inv_facts_10|].
  destruct i as [|i]; [change (_ + 3)%nat with 14%nat; rewrite fz_14; exact q_inv_facts_11|].
  destruct i as [|i]; [change (_ + 3)%nat with 15%nat; rewrite fz_15; exact q_inv_facts_12|].
  destruct i as [|i]; [change (_ + 3)%nat with 16%nat; rewrite fz_16; exact q_inv_facts_13|].
  destruct i as [|i]; [change (_ + 3)%nat with 17%nat; rewrite fz_17; exact q_inv_facts_14|].
  exfalso. do 15 apply Nat.succ_lt_mono in Hi. exact (Nat.nlt_0_r i Hi).
Qed.
Lemma d_sines_ok : length D_SINES = 4%nat /\ forall i, (i < 4)%nat -> approx (DV (nth i D_SINES D_ZERO)) (sin (INR (i + 1) * PI / 16)) 1 (-104).
Proof.
  split; [reflexivity|]. intros i Hi.
  destruct i as [|i]; [change (_ + 1)%nat with 1%nat; rewrite INR_IZR_INZ; exact d_sines_0|].
  destruct i as [|i]; [change (_ + 1)%nat with 2%nat; rewrite INR_IZR_INZ; exact d_sines_1|].
  destruct i as [|i]; [change (_ + 1)%nat with 3%nat; rewrite INR_IZR_INZ; exact d_sines_2|].
  destruct i as [|i]; [change (_ + 1)%nat with 4%nat; rewrite INR_IZR_INZ; exact d_sines_3|].
  exfalso. do 4 apply Nat.succ_lt_mono in Hi. exact (Nat.nlt_0_r i Hi).
Qed.
Lemma d_cosines_ok : length D_COSINES = 4%nat /\ forall i, (i < 4)%nat -> approx (DV (nth i D_COSINES D_ZERO)) (cos (INR (i + 1) * PI / 16)) 1 (-104).
Proof.
  split; [reflexivity|]. intros i Hi.
  destruct i as [|i]; [change (_ + 1)%nat with 1%nat; rewrite INR_IZR_INZ; exact d_cosines_0|].
  destruct i as [|i]; [change (_ + 1)%nat with 2%nat; rewrite INR_IZR_INZ; exact d_cosines_1|].
  destruct i as [|i]; [change (_ + 1)%nat with 3%nat; rewrite INR_IZR_INZ; exact d_cosines_2|].
  destruct i as [|i]; [change (_ + 1)%nat with 4%nat; rewrite INR_IZR_INZ; exact d_cosines_3|].
  exfalso. do 4 apply Nat.succ_lt_mono in Hi. exact (Nat.nlt_0_r i Hi).
Qed.
