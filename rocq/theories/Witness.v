(** * Concrete counterexamples: inputs used by the [_refuted] theorems *)
From Coq Require Import ZArith.
From Verif Require Import F64 Prim DoubleM QuadM.
Local Open Scope Z_scope.
Definition w_dm_x := (mkD (f2pow (-6499055461875011) (-50)) (f2pow (8514242627359937) (-104))).
Definition w_dm_y := (mkD (f2pow (4876611736872925) (-56)) (f2pow (1950953187928057) (-111))).
Definition w_qm_x := (mkQ (f2pow (-3918938330738219) (-52)) (f2pow (-9007199254740991) (-107)) (f2pow (-1) (-109)) (f2pow (-3) (-219))).
Definition w_qm_y := (mkQ (f2pow (5757018972486377) (-53)) (f2pow (-9007199254740991) (-108)) (f2pow (-1) (-110)) (f2pow (3) (-217))).
Definition w_qa_x := (mkQ (f2pow (2926825591261391) (-53)) (f2pow (6317) (-73)) (f2pow (2855405443279815) (-168)) (f2pow (-9007199254740991) (-223))).
Definition w_qa_y := (mkQ (f2pow (3917277947096703) (13)) (f2pow (9007199254740991) (-44)) (f2pow (7) (-118)) (f2pow (9007199254740991) (-223))).
Definition w_qd_nan_x := (mkQ (f2pow (-2358452802697903) (448)) (f2pow (4696134837787727) (373)) (f2pow (2139) (360)) (f2pow (1259128963221149) (265))).
Definition w_qd_nan_y := (mkQ (f2pow (-7513652655074225) (-53)) (f2pow (-9007199254740991) (-127)) (f2pow (5) (-181)) (f2pow (9007199254740991) (-286))).
Definition w_qd_err_x := (mkQ (f2pow (-3429240088965761) (348)) (f2pow (7919) (332)) (f2pow (-744269511257679) (238)) (f2pow (1) (228))).
Definition w_qd_err_y := (mkQ (f2pow (3560961775152019) (-52)) (f2pow (-9007199254740991) (-165)) (f2pow (-1) (-166)) (f2pow (9007199254740991) (-274))).
Definition w_qd_sgn_x := (mkQ (f2pow (4110014467974629) (248)) (f2pow (-9007199254740991) (191)) (f2pow (-5503497100923297) (137)) (f2pow (1) (135))).
Definition w_qd_sgn_y := (mkQ (f2pow (-5878311655101201) (-53)) (f2pow (8690644654337549) (-127)) (f2pow (-1) (-199)) (f2pow (26386443965285) (-320))).
Definition w_qa_err_x := (mkQ (f2pow (-720377258031765) (-56)) (f2pow (9007199254740991) (-115)) (f2pow (1) (-117)) (f2pow (3) (-222))).
Definition w_qa_err_y := (mkQ (f2pow (1465808307798753) (-53)) (f2pow (-9007199254740991) (-110)) (f2pow (-8237499415188859) (-166)) (f2pow (-2879) (-182))).
Definition w_qa_nc_x := (mkQ (f2pow (1401984239850865) (-53)) (f2pow (-1) (-114)) (f2pow (-1) (-168)) (f2pow (-1) (-274))).
Definition w_qa_nc_y := (mkQ (f2pow (4067456349666217) (-55)) (f2pow (3) (-110)) (f2pow (9007199254740991) (-215)) (f2pow (-5) (-269))).
Definition w_qm_nc_x := (mkQ (f2pow (7393980762865661) (-54)) (f2pow (1) (-56)) f0 f0).
Definition w_qm_nc_y := (mkQ (f2pow (7097740505893333) (-53)) (f2pow (-9007199254740991) (-108)) (f2pow (-1) (-109)) (f2pow (1) (-216))).
(** a normalised value just below [w_qa_nc_x + w_qa_nc_y] whose head is larger *)
Definition w_cmp := mkQ (f2pow 4837696654534839 (-54)) (f2pow (-9007199254740991) (-108)) (f2pow (-9007199254740991) (-162)) f0.
