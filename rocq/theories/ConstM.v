(** * Constants and tables of src/double and src/quad, generated from the
    source text: [dec m e] is the f64 nearest to m * 10^e, as rustc reads a literal. *)
From Coq Require Import ZArith List.
From Verif Require Import F64 Prim DoubleM QuadM.
Import ListNotations.
Local Open Scope Z_scope.

(** src/double/aconsts.rs:25 *)
Definition D_EPSILON : Double := mkD (dec 493038065763132 (-46)) f0.
(** src/double/aconsts.rs:28 *)
Definition D_MIN : Double := mkD (dec (-17976931348623157) 292) (dec (-9979201547673598) 276).
(** src/double/aconsts.rs:31 *)
Definition D_MIN_POSITIVE : Double := mkD (dec 22250738585072014 (-324)) f0.
(** src/double/aconsts.rs:34 *)
Definition D_MAX : Double := mkD (dec 17976931348623157 292) (dec 9979201547673598 276).
(** src/double/aconsts.rs:70 *)
Definition D_PI : Double := mkD (dec 3141592653589793 (-15)) (dec 12246467991473532 (-32)).
(** src/double/aconsts.rs:73 *)
Definition D_TAU : Double := mkD (dec 6283185307179586 (-15)) (dec 2449293598294704 (-31)).
(** src/double/aconsts.rs:76 *)
Definition D_FRAC_PI_2 : Double := mkD (dec 15707963267948966 (-16)) (dec 612323399573676 (-31)).
(** src/double/aconsts.rs:79 *)
Definition D_FRAC_PI_3 : Double := mkD (dec 10471975511965979 (-16)) (dec (-10720817664510912) (-32)).
(** src/double/aconsts.rs:82 *)
Definition D_FRAC_PI_4 : Double := mkD (dec 7853981633974483 (-16)) (dec 30616169978683836 (-33)).
(** src/double/aconsts.rs:85 *)
Definition D_FRAC_PI_6 : Double := mkD (dec 5235987755982989 (-16)) (dec (-5360408832255455) (-32)).
(** src/double/aconsts.rs:88 *)
Definition D_FRAC_PI_8 : Double := mkD (dec 39269908169872414 (-17)) (dec 15308084989341906 (-33)).
(** src/double/aconsts.rs:91 *)
Definition D_FRAC_PI_16 : Double := mkD (dec 19634954084936207 (-17)) (dec 7654042494670953 (-33)).
(** src/double/aconsts.rs:94 *)
Definition D_FRAC_3_PI_2 : Double := mkD (dec 471238898038469 (-14)) (dec 18369701987210292 (-32)).
(** src/double/aconsts.rs:97 *)
Definition D_FRAC_3_PI_4 : Double := mkD (dec 2356194490192345 (-15)) (dec 9184850993605146 (-32)).
(** src/double/aconsts.rs:100 *)
Definition D_FRAC_5_PI_4 : Double := mkD (dec 39269908169872414 (-16)) (dec 15308084989341908 (-32)).
(** src/double/aconsts.rs:103 *)
Definition D_FRAC_7_PI_4 : Double := mkD (dec 5497787143782138 (-15)) (dec 2143131898507869 (-31)).
(** src/double/aconsts.rs:106 *)
Definition D_FRAC_1_PI : Double := mkD (dec 3183098861837907 (-16)) (dec (-1967867667518248) (-32)).
(** src/double/aconsts.rs:109 *)
Definition D_FRAC_2_PI : Double := mkD (dec 6366197723675814 (-16)) (dec (-3935735335036497) (-32)).
(** src/double/aconsts.rs:112 *)
Definition D_FRAC_2_SQRT_PI : Double := mkD (dec 11283791670955126 (-16)) (dec 1533545961316588 (-32)).
(** src/double/aconsts.rs:115 *)
Definition D_SQRT_2 : Double := mkD (dec 14142135623730951 (-16)) (dec (-9667293313452915) (-32)).
(** src/double/aconsts.rs:118 *)
Definition D_FRAC_1_SQRT_2 : Double := mkD (dec 7071067811865476 (-16)) (dec (-4833646656726457) (-32)).
(** src/double/aconsts.rs:121 *)
Definition D_E : Double := mkD (dec 2718281828459045 (-15)) (dec 14456468917292497 (-32)).
(** src/double/aconsts.rs:124 *)
Definition D_LOG2_10 : Double := mkD (dec 3321928094887362 (-15)) (dec 16616175169735918 (-32)).
(** src/double/aconsts.rs:127 *)
Definition D_LOG2_E : Double := mkD (dec 14426950408889634 (-16)) (dec 2035527374093102 (-32)).
(** src/double/aconsts.rs:130 *)
Definition D_LOG10_2 : Double := mkD (dec 3010299956639812 (-16)) (dec (-28037281277851654) (-34)).
(** src/double/aconsts.rs:133 *)
Definition D_LOG10_E : Double := mkD (dec 4342944819032518 (-16)) (dec 10983196502167654 (-33)).
(** src/double/aconsts.rs:136 *)
Definition D_LN_2 : Double := mkD (dec 6931471805599453 (-16)) (dec 2319046813846301 (-32)).
(** src/double/aconsts.rs:139 *)
Definition D_LN_10 : Double := mkD (dec 2302585092994046 (-15)) (dec (-21707562233822496) (-32)).
(** src/double/common.rs:18-34 *)
Definition D_INV_FACTS : list Double := [
  mkD (dec 16666666666666666 (-17)) (dec 925185853854297 (-32));
  mkD (dec 41666666666666664 (-18)) (dec 23129646346357427 (-34));
  mkD (dec 8333333333333333 (-18)) (dec 11564823173178714 (-35));
  mkD (dec 1388888888888889 (-18)) (dec (-5300543954373577) (-35));
  mkD (dec 1984126984126984 (-19)) (dec 17209558293420705 (-38));
  mkD (dec 248015873015873 (-19)) (dec 21511947866775882 (-39));
  mkD (dec 27557319223985893 (-22)) (dec (-1858393274046472) (-37));
  mkD (dec 2755731922398589 (-22)) (dec 23767714622250297 (-39));
  mkD (dec 2505210838544172 (-23)) (dec (-1448814070935912) (-39));
  mkD (dec 208767569878681 (-23)) (dec (-120734505911326) (-39));
  mkD (dec 16059043836821613 (-26)) (dec 12585294588752098 (-42));
  mkD (dec 11470745597729725 (-27)) (dec 20655512752830745 (-44));
  mkD (dec 7647163731819816 (-28)) (dec 703872877733453 (-44));
  mkD (dec 4779477332387385 (-29)) (dec 4399205485834081 (-46));
  mkD (dec 28114572543455206 (-31)) (dec 16508842730861433 (-47))].
(** src/double/common.rs:37-42 *)
Definition D_SINES : list Double := [
  mkD (dec 19509032201612828 (-17)) (dec (-7991079068461734) (-33));
  mkD (dec 3826834323650898 (-16)) (dec (-1005077269646159) (-32));
  mkD (dec 5555702330196022 (-16)) (dec 47094109405616756 (-33));
  mkD (dec 7071067811865476 (-16)) (dec (-48336466567264573) (-33))].
(** src/double/common.rs:45-50 *)
Definition D_COSINES : list Double := [
  mkD (dec 9807852804032304 (-16)) (dec 18546939997824996 (-33));
  mkD (dec 9238795325112867 (-16)) (dec 1764504708433667 (-32));
  mkD (dec 8314696123025452 (-16)) (dec 14073856984728008 (-34));
  mkD (dec 7071067811865476 (-16)) (dec (-48336466567264573) (-33))].
(** src/quad/aconsts.rs:25 *)
Definition Q_EPSILON : Quad := mkQ (dec 12154326714572542 (-79)) (dec 42261844194902035 (-145)) f0 f0.
(** src/quad/aconsts.rs:28-33 *)
Definition Q_MIN : Quad := mkQ (dec (-17976931348623157) 292) (dec (-9979201547673598) 276) (dec (-55395696628011126) 259) (dec (-3075078893078405) 244).
(** src/quad/aconsts.rs:36 *)
Definition Q_MIN_POSITIVE : Quad := mkQ (dec 16259745436952323 (-276)) f0 f0 f0.
(** src/quad/aconsts.rs:39-44 *)
Definition Q_MAX : Quad := mkQ (dec 17976931348623157 292) (dec 9979201547673598 276) (dec 55395696628011126 259) (dec 3075078893078405 244).
(** src/quad/aconsts.rs:80-85 *)
Definition Q_PI : Quad := mkQ (dec 3141592653589793 (-15)) (dec 12246467991473532 (-32)) (dec (-29947698097183397) (-49)) (dec 11124542208633655 (-65)).
(** src/quad/aconsts.rs:88-93 *)
Definition Q_TAU : Quad := mkQ (dec 6283185307179586 (-15)) (dec 24492935982947064 (-32)) (dec (-5989539619436679) (-48)) (dec 2224908441726731 (-64)).
(** src/quad/aconsts.rs:96-101 *)
Definition Q_FRAC_PI_2 : Quad := mkQ (dec 15707963267948966 (-16)) (dec 6123233995736766 (-32)) (dec (-14973849048591698) (-49)) (dec 5562271104316827 (-65)).
(** src/quad/aconsts.rs:104-109 *)
Definition Q_FRAC_PI_3 : Quad := mkQ (dec 10471975511965979 (-16)) (dec (-1072081766451091) (-31)) (dec (-9982566032394464) (-49)) (dec (-769561536018215) (-64)).
(** src/quad/aconsts.rs:112-117 *)
Definition Q_FRAC_PI_4 : Quad := mkQ (dec 7853981633974483 (-16)) (dec 3061616997868383 (-32)) (dec (-7486924524295849) (-49)) (dec 2781135552158413 (-65)).
(** src/quad/aconsts.rs:120-125 *)
Definition Q_FRAC_PI_6 : Quad := mkQ (dec 5235987755982989 (-16)) (dec (-5360408832255455) (-32)) (dec (-4991283016197232) (-49)) (dec (-3847807680091076) (-65)).
(** src/quad/aconsts.rs:128-133 *)
Definition Q_FRAC_PI_8 : Quad := mkQ (dec 39269908169872414 (-17)) (dec 15308084989341915 (-33)) (dec (-37434622621479246) (-50)) (dec 13905677760792066 (-66)).
(** src/quad/aconsts.rs:136-141 *)
Definition Q_FRAC_PI_16 : Quad := mkQ (dec 19634954084936207 (-17)) (dec 7654042494670958 (-33)) (dec (-18717311310739623) (-50)) (dec 6952838880396033 (-66)).
(** src/quad/aconsts.rs:144-149 *)
Definition Q_FRAC_3_PI_2 : Quad := mkQ (dec 471238898038469 (-14)) (dec 18369701987210297 (-32)) (dec 78337969295008 (-46)) (dec (-5173596326540972) (-64)).
(** src/quad/aconsts.rs:152-157 *)
Definition Q_FRAC_3_PI_4 : Quad := mkQ (dec 2356194490192345 (-15)) (dec 9184850993605148 (-32)) (dec 39168984647504 (-46)) (dec (-2586798163270486) (-64)).
(** src/quad/aconsts.rs:160-165 *)
Definition Q_FRAC_5_PI_4 : Quad := mkQ (dec 39269908169872414 (-16)) (dec 15308084989341916 (-32)) (dec (-990643808418708) (-47)) (dec 4811706604997218 (-64)).
(** src/quad/aconsts.rs:168-173 *)
Definition Q_FRAC_7_PI_4 : Quad := mkQ (dec 5497787143782138 (-15)) (dec 2143131898507868 (-31)) (dec 9221286550320605 (-49)) (dec 23622547205188384 (-66)).
(** src/quad/aconsts.rs:176-181 *)
Definition Q_FRAC_1_PI : Quad := mkQ (dec 3183098861837907 (-16)) (dec (-19678676675182486) (-33)) (dec (-10721436282893004) (-49)) (dec 8053563926594112 (-65)).
(** src/quad/aconsts.rs:184-189 *)
Definition Q_FRAC_2_PI : Quad := mkQ (dec 6366197723675814 (-16)) (dec (-3935735335036497) (-32)) (dec (-21442872565786008) (-49)) (dec 16107127853188224 (-65)).
(** src/quad/aconsts.rs:192-197 *)
Definition Q_FRAC_2_SQRT_PI : Quad := mkQ (dec 11283791670955126 (-16)) (dec 1533545961316588 (-32)) (dec (-4765684596693686) (-49)) (dec (-20077946616552623) (-66)).
(** src/quad/aconsts.rs:200-205 *)
Definition Q_SQRT_2 : Quad := mkQ (dec 14142135623730951 (-16)) (dec (-9667293313452913) (-32)) (dec 41386753086994136 (-49)) (dec 4935546991468354 (-65)).
(** src/quad/aconsts.rs:208-213 *)
Definition Q_FRAC_1_SQRT_2 : Quad := mkQ (dec 7071067811865476 (-16)) (dec (-4833646656726457) (-32)) (dec 20693376543497068 (-49)) (dec 2467773495734177 (-65)).
(** src/quad/aconsts.rs:216-221 *)
Definition Q_E : Quad := mkQ (dec 2718281828459045 (-15)) (dec 14456468917292502 (-32)) (dec (-21277171080381768) (-49)) (dec 15156301598412193 (-65)).
(** src/quad/aconsts.rs:224-229 *)
Definition Q_LOG2_10 : Quad := mkQ (dec 3321928094887362 (-15)) (dec 1661617516973592 (-31)) (dec 12215512178458181 (-48)) (dec 595511897027825 (-63)).
(** src/quad/aconsts.rs:232-237 *)
Definition Q_LOG2_E : Quad := mkQ (dec 14426950408889634 (-16)) (dec 20355273740931033 (-33)) (dec (-10614659956117258) (-49)) (dec (-13836716780181397) (-66)).
(** src/quad/aconsts.rs:240-245 *)
Definition Q_LOG10_2 : Quad := mkQ (dec 3010299956639812 (-16)) (dec (-28037281277851704) (-34)) (dec 5471948402314639 (-50)) (dec 5105138983107093 (-66)).
(** src/quad/aconsts.rs:248-253 *)
Definition Q_LOG10_E : Quad := mkQ (dec 4342944819032518 (-16)) (dec 1098319650216765 (-32)) (dec 3717181233110959 (-49)) (dec 773448434650429 (-65)).
(** src/quad/aconsts.rs:256-261 *)
Definition Q_LN_2 : Quad := mkQ (dec 6931471805599453 (-16)) (dec 23190468138462996 (-33)) (dec 5707708438416212 (-49)) (dec (-3582432210601812) (-65)).
(** src/quad/aconsts.rs:264-269 *)
Definition Q_LN_10 : Quad := mkQ (dec 2302585092994046 (-15)) (dec (-21707562233822494) (-32)) (dec (-9984262454465777) (-48)) (dec (-4023357454450206) (-64)).
(** src/quad/common.rs:15-106 *)
Definition Q_INV_FACTS : list Quad := [
  mkQ (dec 16666666666666666 (-17)) (dec 925185853854297 (-32)) (dec 5135813185032629 (-49)) (dec 28509490240983423 (-66));
  mkQ (dec 41666666666666664 (-18)) (dec 23129646346357427 (-34)) (dec 12839532962581572 (-50)) (dec 7127372560245855 (-66));
  mkQ (dec 8333333333333333 (-18)) (dec 11564823173178714 (-35)) (dec 16049416203226965 (-52)) (dec 222730392507682 (-67));
  mkQ (dec 1388888888888889 (-18)) (dec (-5300543954373577) (-35)) (dec (-17386867553495878) (-52)) (dec (-16333562117230084) (-68));
  mkQ (dec 1984126984126984 (-19)) (dec 17209558293420705 (-38)) (dec 14926912391394127 (-56)) (dec 12947032674766573 (-74));
  mkQ (dec 248015873015873 (-19)) (dec 21511947866775882 (-39)) (dec 1865864048924266 (-56)) (dec 16183790843843425 (-75));
  mkQ (dec 27557319223985893 (-22)) (dec (-1858393274046472) (-37)) (dec 8491754604881993 (-54)) (dec (-5726616407894298) (-70));
  mkQ (dec 2755731922398589 (-22)) (dec 23767714622250297 (-39)) (dec (-3263188903340883) (-55)) (dec 16143511186040432 (-72));
  mkQ (dec 2505210838544172 (-23)) (dec (-1448814070935912) (-39)) (dec 20426735146714455 (-57)) (dec (-849632672007163) (-72));
  mkQ (dec 208767569878681 (-23)) (dec (-120734505911326) (-39)) (dec 1702227928892871 (-57)) (dec 14160953215039672 (-74));
  mkQ (dec 16059043836821613 (-26)) (dec 12585294588752098 (-42)) (dec (-531334602762985) (-57)) (dec 3540214725976055 (-74));
  mkQ (dec 11470745597729725 (-27)) (dec 20655512752830745 (-44)) (dec 6889079232466646 (-60)) (dec 57292000265510916 (-77));
  mkQ (dec 7647163731819816 (-28)) (dec 703872877733453 (-44)) (dec (-7827539277162583) (-63)) (dec 19213864944378356 (-80));
  mkQ (dec 4779477332387385 (-29)) (dec 4399205485834081 (-46)) (dec (-4892212048226615) (-64)) (dec 12008665590236055 (-81));
  mkQ (dec 28114572543455206 (-31)) (dec 16508842730861433 (-47)) (dec (-2877771793074479) (-65)) (dec 4271106892562081 (-82))].
(** src/quad/common.rs:109-1646 *)
Definition Q_SINES : list Quad := [
  mkQ (dec 3067956762965976 (-18)) (dec 12690279085455925 (-35)) (dec 5287946424532839 (-51)) (dec (-17820334081955295) (-68));
  mkQ (dec 6135884649154475 (-18)) (dec 9054525748247493 (-35)) (dec 1626011313374532 (-52)) (dec (-9749200120876422) (-70));
  mkQ (dec 920375478205982 (-17)) (dec (-12136591693535934) (-35)) (dec 5569690394942557 (-51)) (dec 12505635791936973 (-68));
  mkQ (dec 12271538285719925 (-18)) (dec 6919790764028317 (-34)) (dec (-40203726713435555) (-52)) (dec (-20688703606952494) (-68));
  mkQ (dec 15339206284988102 (-18)) (dec (-844625788654017) (-33)) (dec 4653589750505863 (-50)) (dec (-1392368297857049) (-66));
  mkQ (dec 1840672990580482 (-17)) (dec 7419553381283316 (-34)) (dec 39068476486787607 (-51)) (dec 36393321292898124 (-68));
  mkQ (dec 21474080275469508 (-18)) (dec (-4540796020768857) (-34)) (dec (-22031770119723005) (-51)) (dec 12709814654833732 (-67));
  mkQ (dec 24541228522912288 (-18)) (dec (-9186849012577878) (-35)) (dec 4870614870446706 (-51)) (dec (-28153947855469075) (-68));
  mkQ (dec 27608145778965743 (-18)) (dec (-1593235883138927) (-33)) (dec (-7047541624277603) (-50)) (dec (-2751849417660274) (-66));
  mkQ (dec 30674803176636626 (-18)) (dec (-1693605484410792) (-35)) (dec 10053112316608014 (-52)) (dec 43727432941767413 (-70));
  mkQ (dec 3374117185137759 (-17)) (dec (-2009607429236834) (-33)) (dec (-13548237016537134) (-50)) (dec 6555488187589997 (-66));
  mkQ (dec 3680722294135883 (-17)) (dec 6106008880352984 (-34)) (dec (-40448721259852727) (-51)) (dec (-21111056765671487) (-67));
  mkQ (dec 3987292758773981 (-17)) (dec 4665745348118329 (-34)) (dec 34119333562288684 (-51)) (dec 240075347261875 (-65));
  mkQ (dec 4293825693494082 (-17)) (dec 28351940588660907 (-34)) (dec 16991309601186475 (-50)) (dec 6802653609867265 (-66));
  mkQ (dec 4600318213091463 (-17)) (dec (-11182813940157788) (-34)) (dec 7523502027037895 (-50)) (dec 41187304955493796 (-68));
  mkQ (dec 49067674327418015 (-18)) (dec (-679610372051828) (-33)) (dec (-44318868124718325) (-51)) (dec (-9937662813252524) (-67));
  mkQ (dec 52131704680283324 (-18)) (dec (-2424369529195378) (-33)) (dec (-13675405320092298) (-50)) (dec (-8393813762114509) (-66));
  mkQ (dec 5519524434968994 (-17)) (dec (-13340299860891103) (-34)) (dec (-3435957412566561) (-50)) (dec 1191146275540942 (-66));
  mkQ (dec 5825826450043576 (-17)) (dec 2329990549607749 (-34)) (dec 1937610899062866 (-51)) (dec (-5127377571009318) (-68));
  mkQ (dec 6132073630220858 (-17)) (dec (-5118113406463811) (-34)) (dec (-42726335866706313) (-51)) (dec 26368495557440717 (-67));
  mkQ (dec 6438263092985747 (-17)) (dec (-42325997000052705) (-34)) (dec 33260117711855937 (-51)) (dec 14736267706718376 (-67));
  mkQ (dec 6744391956366406 (-17)) (dec (-69221796556983636) (-34)) (dec 1590928635891104 (-49)) (dec (-7882894689183518) (-66));
  mkQ (dec 7050457338961387 (-17)) (dec (-6855279110734288) (-33)) (dec (-1996117763084158) (-49)) (dec 20127129580485298 (-66));
  mkQ (dec 7356456359966743 (-17)) (dec (-27784941506273593) (-34)) (dec (-9124037548985282) (-50)) (dec (-19589752023546822) (-67));
  mkQ (dec 7662386139203149 (-17)) (dec 232537002879588 (-33)) (dec (-1318608392121344) (-51)) (dec (-4992787260809975) (-68));
  mkQ (dec 7968243797143013 (-17)) (dec (-4486766431137304) (-33)) (dec 28540789143650264 (-50)) (dec 28491348583262765 (-67));
  mkQ (dec 8274026454937569 (-17)) (dec 1473598353087776 (-33)) (dec 37284093452233713 (-51)) (dec 29024430036723684 (-68));
  mkQ (dec 857973123444399 (-16)) (dec (-3388189383068403) (-33)) (dec (-16135529531508258) (-50)) (dec 7729465162058808 (-66));
  mkQ (dec 888535525825246 (-16)) (dec (-3750177583029069) (-33)) (dec 37543606373911578 (-50)) (dec (-20530533507023269) (-66));
  mkQ (dec 9190895649713272 (-17)) (dec 47631594854274564 (-34)) (dec 15722874642939344 (-50)) (dec (-48464145447831486) (-67));
  mkQ (dec 94963495329639 (-15)) (dec (-65885886400417564) (-34)) (dec (-21371116991641965) (-50)) (dec 13819370559249302 (-66));
  mkQ (dec 980171403295606 (-16)) (dec (-1634582362244256) (-33)) (dec (-13209238810006454) (-51)) (dec (-3569106004911789) (-67));
  mkQ (dec 10106986275482782 (-17)) (dec 33164325719308656 (-34)) (dec (-12004224885132282) (-50)) (dec 7202882849541882 (-66));
  mkQ (dec 10412163387205457 (-17)) (dec 657602540853851 (-32)) (dec 17066246171219214 (-50)) (dec (-4949934099689357) (-66));
  mkQ (dec 10717242495680884 (-17)) (dec 644240442790262 (-32)) (dec (-8395697649969814) (-50)) (dec (-4066773021331873) (-66));
  mkQ (dec 11022220729388306 (-17)) (dec (-5678950353782323) (-34)) (dec 10380274792383233 (-51)) (dec 15213997918457891 (-68));
  mkQ (dec 11327095217756435 (-17)) (dec 271004810121329 (-32)) (dec 1532329299949162 (-50)) (dec 4956443281036479 (-67));
  mkQ (dec 11631863091190477 (-17)) (dec 10294914877509705 (-34)) (dec (-9397573494899304) (-50)) (dec 13534827323718545 (-68));
  mkQ (dec 11936521481099137 (-17)) (dec (-39500089391898506) (-34)) (dec 3531734997822731 (-49)) (dec 18856046807012723 (-67));
  mkQ (dec 1224106751992162 (-16)) (dec 28354501489965335 (-34)) (dec 18151655751493305 (-50)) (dec (-28716592177915257) (-67));
  mkQ (dec 12545498341154623 (-17)) (dec 48686751763148235 (-34)) (dec 5987810525809794 (-50)) (dec (-3353462909872179) (-66));
  mkQ (dec 12849811079379317 (-17)) (dec 381986039549888 (-32)) (dec (-18627501455947798) (-50)) (dec (-24308161133527975) (-67));
  mkQ (dec 13154002870288312 (-17)) (dec (-5003970826221381) (-33)) (dec (-12983004159245552) (-50)) (dec (-4687203491579388) (-66));
  mkQ (dec 1345807085071262 (-16)) (dec (-916703591714807) (-32)) (dec 15916493007073973 (-50)) (dec 4023700248436679 (-66));
  mkQ (dec 13762012158648604 (-17)) (dec 6625325586677448 (-33)) (dec (-2374658303140146) (-49)) (dec (-9370387617309003) (-67));
  mkQ (dec 14065823933284924 (-17)) (dec (-7919393296552474) (-33)) (dec 609724642021084 (-48)) (dec 24566623241035754 (-66));
  mkQ (dec 14369503315029444 (-17)) (dec 11472723016618666 (-33)) (dec (-5188495455757643) (-50)) (dec (-42220684832186815) (-67));
  mkQ (dec 14673047445536175 (-17)) (dec 3726947147046568 (-33)) (dec 37352398151250827 (-50)) (dec (-40881822289508557) (-67));
  mkQ (dec 1497645346773215 (-16)) (dec 8081211413128515 (-33)) (dec 12979142554917325 (-50)) (dec 993806674877366 (-65));
  mkQ (dec 15279718525844344 (-17)) (dec (-7631357393841684) (-33)) (dec 57714690450284125 (-50)) (dec (-37731132582986663) (-66));
  mkQ (dec 15582839765426523 (-17)) (dec 3035130718767822 (-33)) (dec (-10976942315176184) (-50)) (dec 7873464768525745 (-66));
  mkQ (dec 15885814333386145 (-17)) (dec (-4016320057385908) (-33)) (dec (-9284058025762881) (-50)) (dec (-2856742002927449) (-66));
  mkQ (dec 16188639378011183 (-17)) (dec 11850519643573528 (-33)) (dec (-5044099051916296) (-49)) (dec 3051002870792798 (-65));
  mkQ (dec 16491312048996992 (-17)) (dec (-7040528831916674) (-34)) (dec 33211107491245527 (-51)) (dec 8666329925468717 (-67));
  mkQ (dec 16793829497473117 (-17)) (dec 5428453372155814 (-33)) (dec (-3326333933618137) (-49)) (dec (-18536367335123897) (-66));
  mkQ (dec 17096188876030122 (-17)) (dec 919199801817591 (-32)) (dec (-67688743940982606) (-50)) (dec (-10377711384318362) (-66));
  mkQ (dec 17398387338746382 (-17)) (dec 5815199461810793 (-33)) (dec (-16751014298301606) (-50)) (dec (-6698225979716456) (-66));
  mkQ (dec 17700422041214875 (-17)) (dec 6732930063540817 (-33)) (dec 28042736644246623 (-50)) (dec 3678688823279387 (-66));
  mkQ (dec 18002290140569951 (-17)) (dec 7970182604739214 (-33)) (dec (-7076592011052498) (-49)) (dec 19622512608461807 (-66));
  mkQ (dec 18303988795514095 (-17)) (dec 7734991868863738 (-33)) (dec (-4480376996814508) (-49)) (dec 1120114879332894 (-65));
  mkQ (dec 18605515166344666 (-17)) (dec (-12564893007679552) (-33)) (dec 7595384424853081 (-49)) (dec (-3847169513241551) (-66));
  mkQ (dec 18906866414980622 (-17)) (dec (-7620895580352778) (-33)) (dec (-4479229865666299) (-49)) (dec 4139164662630522 (-65));
  mkQ (dec 19208039704989244 (-17)) (dec 433483439411749 (-32)) (dec (-23404121848139937) (-50)) (dec 15789970962611875 (-66));
  mkQ (dec 19509032201612828 (-17)) (dec (-7991079068461731) (-33)) (dec 6184627002422071 (-49)) (dec (-3584027091803293) (-65));
  mkQ (dec 1980984107179536 (-16)) (dec (-18434411800689445) (-34)) (dec 14139031318237285 (-50)) (dec 10542811125343775 (-66));
  mkQ (dec 2011046348420919 (-16)) (dec 11010032669300739 (-33)) (dec (-3912357675741379) (-49)) (dec 24084852500063748 (-67));
  mkQ (dec 20410896609281687 (-17)) (dec 6094129777395775 (-33)) (dec (-2827540997044964) (-49)) (dec 4610100856353328 (-66));
  mkQ (dec 20711137619221856 (-17)) (dec (-10613362528971356) (-33)) (dec 22456805112690884 (-50)) (dec 13483736125280926 (-66));
  mkQ (dec 2101118368804696 (-16)) (dec 11561548476512844 (-33)) (dec 6035590561040125 (-49)) (dec 33329909618405684 (-66));
  mkQ (dec 21311031991609136 (-17)) (dec 1203187382106386 (-32)) (dec (-34142699719695635) (-50)) (dec (-1243626278024175) (-65));
  mkQ (dec 21610679707621952 (-17)) (dec (-10111196082609117) (-33)) (dec 7278954533518964 (-49)) (dec (-29347540365258595) (-66));
  mkQ (dec 2191012401568698 (-16)) (dec (-36513812299150776) (-35)) (dec (-23359499418606442) (-51)) (dec 31785298198457637 (-68));
  mkQ (dec 22209362097320354 (-17)) (dec (-30337210995812162) (-34)) (dec 66654668033633 (-48)) (dec 20110862322656835 (-67));
  mkQ (dec 22508391135979283 (-17)) (dec 3950704082255651 (-33)) (dec 24287993958305375 (-51)) (dec 56662797513025196 (-68));
  mkQ (dec 22807208317088573 (-17)) (dec 8236183733925801 (-33)) (dec 6978678131639794 (-49)) (dec (-6412296248263911) (-66));
  mkQ (dec 2310581082806711 (-16)) (dec 10129787149761869 (-33)) (dec (-6935923461581604) (-49)) (dec (-2887735560488378) (-65));
  mkQ (dec 23404195858354343 (-17)) (dec (-6992240269610117) (-33)) (dec (-5732303192275028) (-49)) (dec 5309257996687299 (-66));
  mkQ (dec 2370236059943672 (-16)) (dec 8854485228503992 (-33)) (dec 13588480826354134 (-50)) (dec 10381022520213889 (-66));
  mkQ (dec 2400030224487415 (-16)) (dec (-12137758975632164) (-33)) (dec (-2644880773170389) (-49)) (dec (-1992973380067015) (-66));
  mkQ (dec 2429801799032639 (-16)) (dec (-8751431529719663) (-33)) (dec (-6572326037307943) (-49)) (dec (-10333158083172172) (-66));
  mkQ (dec 24595505033579462 (-17)) (dec (-11129044052741832) (-33)) (dec 438059982028834 (-48)) (dec 12219399554686294 (-66));
  mkQ (dec 24892760574572018 (-17)) (dec (-8178343610002099) (-33)) (dec 5566687526111184 (-49)) (dec 38080473058748167 (-66));
  mkQ (dec 25189781815421697 (-17)) (dec (-1759143603251704) (-32)) (dec (-10959681232525285) (-49)) (dec 5620942602023243 (-65));
  mkQ (dec 25486565960451457 (-17)) (dec (-13602299806901461) (-35)) (dec (-60073844642762535) (-52)) (dec (-3007275131189635) (-67));
  mkQ (dec 257831102162159 (-15)) (dec 18480038630879957 (-33)) (dec 332016647140476 (-48)) (dec (-5554781929057646) (-66));
  mkQ (dec 2607941179152755 (-16)) (dec 42721420983550075 (-34)) (dec 5678212693477792 (-50)) (dec 3142833808436547 (-66));
  mkQ (dec 2637546789748314 (-16)) (dec (-188379476800387) (-31)) (dec 13720129045754794 (-49)) (dec (-8276340666596603) (-65));
  mkQ (dec 26671275747489837 (-17)) (dec 20941222578826688 (-33)) (dec (-1130346652472799) (-48)) (dec 19954224050508953 (-66));
  mkQ (dec 2696683255729151 (-16)) (dec 1576565761813326 (-32)) (dec (-6969614217337009) (-49)) (dec (-40455346879146766) (-66));
  mkQ (dec 272621355449949 (-15)) (dec 7869716607638785 (-33)) (dec 6617938860293337 (-50)) (dec (-2764290369638619) (-66));
  mkQ (dec 27557181931095814 (-17)) (dec 19320328962556582 (-33)) (dec 1393209418010028 (-48)) (dec 1361725392001808 (-65));
  mkQ (dec 2785196893850531 (-16)) (dec (-10030273719543544) (-33)) (dec 7259211532568925 (-49)) (dec (-1006851629665586) (-65));
  mkQ (dec 281464937925758 (-15)) (dec (-1232229964127401) (-32)) (dec (-10564788706386435) (-50)) (dec 7513742425126599 (-66));
  mkQ (dec 2844075372112718 (-16)) (dec 22209268510661475 (-33)) (dec (-918230956295237) (-48)) (dec (-5219287530889219) (-65));
  mkQ (dec 2873474595447295 (-16)) (dec 15461117367645717 (-33)) (dec (-6326397366344408) (-49)) (dec (-22982538416476248) (-66));
  mkQ (dec 2902846772544624 (-16)) (dec (-1892797870777425) (-32)) (dec 11522953157142315 (-49)) (dec 7473865565471657 (-65));
  mkQ (dec 29321916269425863 (-17)) (dec 22385430811901833 (-33)) (dec 1366248464653968 (-48)) (dec (-4245132525399692) (-65));
  mkQ (dec 29615088824362384 (-17)) (dec (-20220736360876938) (-33)) (dec (-7925221253392041) (-50)) (dec (-2899057772957201) (-66));
  mkQ (dec 2990798263080405 (-16)) (dec 16701181609219447 (-34)) (dec 8609115111731629 (-50)) (dec 3993128623001396 (-67));
  mkQ (dec 3020059493192281 (-16)) (dec (-17167666235262474) (-33)) (dec 2333618214900807 (-49)) (dec 8302533455521957 (-66));
  mkQ (dec 30492922973540243 (-17)) (dec (-22989033898191262) (-33)) (dec (-14598901099661133) (-50)) (dec 37760487693121697 (-67));
  mkQ (dec 30784964004153487 (-17)) (dec 27074088527245185 (-33)) (dec 12568858206899284 (-49)) (dec 7293181510590166 (-65));
  mkQ (dec 3107671527496115 (-16)) (dec 20887076364048513 (-33)) (dec (-30130590791065942) (-50)) (dec 13876739009935514 (-67));
  mkQ (dec 31368174039889146 (-17)) (dec 14560447299968912 (-33)) (dec 36564186898011595 (-50)) (dec 1165426473499937 (-65));
  mkQ (dec 31659337555616585 (-17)) (dec 21435292512726283 (-33)) (dec 12338169231377316 (-49)) (dec 33963542100989274 (-66));
  mkQ (dec 3195020308160157 (-16)) (dec (-13981562491096626) (-33)) (dec 8173000069741135 (-49)) (dec (-7767109627021095) (-65));
  mkQ (dec 32240767880106985 (-17)) (dec (-405190399379594) (-32)) (dec 37438302780296796 (-50)) (dec 8793673104663928 (-66));
  mkQ (dec 3253102921622629 (-16)) (dec 791712494637659 (-32)) (dec (-6757662206814639) (-50)) (dec 2302165506692977 (-66));
  mkQ (dec 32820984357909255 (-17)) (dec (-26693140719641896) (-33)) (dec 7892885144753479 (-49)) (dec 25525163821987572 (-67));
  mkQ (dec 33110630575987643 (-17)) (dec (-27469465474778694) (-33)) (dec (-13401245916610206) (-49)) (dec 6553176248997621 (-65));
  mkQ (dec 3339996514420094 (-16)) (dec 22598986806288142 (-33)) (dec 7806305719258612 (-49)) (dec 2042760089548672 (-65));
  mkQ (dec 33688985339222005 (-17)) (dec (-4200094003347509) (-34)) (dec (-29178652969985438) (-52)) (dec (-1159737643703204) (-67));
  mkQ (dec 33977688440682685 (-17)) (dec 6602867949941828 (-33)) (dec 12575009988669683 (-50)) (dec 25569067699008188 (-67));
  mkQ (dec 3426607173119944 (-16)) (dec 1926151844930632 (-32)) (dec (-9275418913599087) (-49)) (dec 8543999668739021 (-65));
  mkQ (dec 34554132496398904 (-17)) (dec 27251143672916123 (-33)) (dec 7013816360194174 (-49)) (dec (-14176292197453965) (-66));
  mkQ (dec 34841868024943456 (-17)) (dec 3697442051420492 (-33)) (dec 35532146878499996 (-50)) (dec 1956546254450134 (-65));
  mkQ (dec 35129275608556715 (-17)) (dec (-22670712098795844) (-33)) (dec (-16994216673139633) (-50)) (dec 9110561603453039 (-66));
  mkQ (dec 3541635254204904 (-16)) (dec (-1695176330576486) (-32)) (dec 12772331777814617 (-49)) (dec (-3370378543584333) (-65));
  mkQ (dec 35703096123343003 (-17)) (dec (-4821819113791917) (-34)) (dec (-4167243699449236) (-50)) (dec (-715311671493684) (-66));
  mkQ (dec 35989503653498817 (-17)) (dec (-17601687123839282) (-33)) (dec 13375125473046791 (-49)) (dec 7946781559358436 (-65));
  mkQ (dec 3627557243673972 (-16)) (dec (-9166835266374985) (-33)) (dec (-74317843956936735) (-50)) (dec (-20199582511804567) (-66));
  mkQ (dec 36561299780477385 (-17)) (dec 16217898770457546 (-33)) (dec 11286970151961055 (-49)) (dec (-7182528731813896) (-65));
  mkQ (dec 3684668299533723 (-16)) (dec 10463640796159268 (-33)) (dec 20554984738517304 (-51)) (dec 10441861305618895 (-67));
  mkQ (dec 37131719395183754 (-17)) (dec 34749239648238266 (-35)) (dec (-7515105304286667) (-52)) (dec (-28153468438618943) (-69));
  mkQ (dec 374164062971458 (-15)) (dec 8011410376196212 (-33)) (dec 5342959981340605 (-49)) (dec 10351378796539212 (-66));
  mkQ (dec 37700741021641826 (-17)) (dec (-2725530204195693) (-33)) (dec 6364658644501814 (-50)) (dec 8304865717650216 (-67));
  mkQ (dec 37984720892405116 (-17)) (dec 9915130585517237 (-33)) (dec 48761409697224886 (-50)) (dec 14025084000776738 (-66));
  mkQ (dec 3826834323650898 (-16)) (dec (-10050772696461588) (-33)) (dec (-20605316302806695) (-50)) (dec (-12717724698085234) (-66));
  mkQ (dec 38551605384391885 (-17)) (dec 15177665396472313 (-33)) (dec 14198230518016535 (-49)) (dec 5895516715990422 (-65));
  mkQ (dec 3883450466988263 (-16)) (dec (-10053770598398717) (-33)) (dec 7594299925505713 (-49)) (dec (-31967974046654205) (-66));
  mkQ (dec 39117038430225387 (-17)) (dec 17997787858243995 (-33)) (dec (-10613482402609856) (-49)) (dec (-5458214881779101) (-65));
  mkQ (dec 3939920400610481 (-16)) (dec 9764924164123934 (-33)) (dec (-21233599441284617) (-50)) (dec (-5552983679534047) (-66));
  mkQ (dec 3968099874167103 (-16)) (dec 20545063670840126 (-33)) (dec 6134705880192284 (-49)) (dec 10733788150636435 (-66));
  mkQ (dec 39962419984564684 (-17)) (dec (-15065497476189372) (-33)) (dec (-996532588818673) (-48)) (dec (-5752432371272538) (-65));
  mkQ (dec 40243465085941843 (-17)) (dec 1090261933932827 (-32)) (dec 73998528125989765 (-50)) (dec 2274578480682347 (-65));
  mkQ (dec 40524131400498986 (-17)) (dec 9911140194289988 (-33)) (dec (-25169070895434648) (-50)) (dec 9277298481839648 (-68));
  mkQ (dec 4080441628649787 (-16)) (dec (-7000601513735131) (-33)) (dec (-14108207334268228) (-50)) (dec 15175546997581244 (-68));
  mkQ (dec 41084317105790397 (-17)) (dec (-242198351903555) (-31)) (dec (-11418902925313314) (-49)) (dec (-20996843165093447) (-66));
  mkQ (dec 41363831223843456 (-17)) (dec (-10393984940597871) (-33)) (dec (-1148168117450388) (-49)) (dec (-20281052851028834) (-67));
  mkQ (dec 4164295600976372 (-16)) (dec (-25475580413131732) (-33)) (dec (-34482678506112824) (-50)) (dec 7178861935186544 (-66));
  mkQ (dec 41921688836322396 (-17)) (dec (-4223246375011059) (-33)) (dec (-36053023045255794) (-50)) (dec 2055456215144949 (-65));
  mkQ (dec 4220002707997997 (-16)) (dec 4354326699412853 (-33)) (dec 3173431027225119 (-49)) (dec (-135732479807387) (-64));
  mkQ (dec 4247796812091088 (-16)) (dec 2746231220427728 (-32)) (dec (-4655284780211195) (-49)) (dec 6596178109919312 (-66));
  mkQ (dec 4275550934302821 (-16)) (dec 9411189816295473 (-33)) (dec (-174466824265988) (-48)) (dec (-22054492626479695) (-67));
  mkQ (dec 4303264813400826 (-16)) (dec 2225968697409269 (-32)) (dec 8597259131408508 (-49)) (dec (-29420897889002997) (-66));
  mkQ (dec 43309381885315196 (-17)) (dec 11224283329847517 (-33)) (dec 5322374804107566 (-50)) (dec (-5298439577667404) (-66));
  mkQ (dec 4358570799222555 (-16)) (dec 16230515450644527 (-33)) (dec (-6437144906357944) (-50)) (dec 37808151922300826 (-67));
  mkQ (dec 43861623853852766 (-17)) (dec (-2088331583107509) (-32)) (dec (-14259583540891877) (-50)) (dec 6386476359065959 (-67));
  mkQ (dec 44137126873171667 (-17)) (dec 2236078388696497 (-32)) (dec 1186476960351577 (-49)) (dec (-3808700326618951) (-66));
  mkQ (dec 44412214457042926 (-17)) (dec (-24218874422178315) (-33)) (dec 22205230838703907 (-50)) (dec 9213303591135644 (-66));
  mkQ (dec 4468688401623742 (-16)) (dec (-19222136142309382) (-33)) (dec (-4442567858973205) (-50)) (dec (-13673609292149568) (-67));
  mkQ (dec 4496113296546066 (-16)) (dec 4883192423203524 (-33)) (dec 2715108449819138 (-49)) (dec (-1565399317161318) (-65));
  mkQ (dec 4523495872337709 (-16)) (dec (-14827977472196122) (-33)) (dec (-76947501088972324) (-50)) (dec 1765685688203132 (-65));
  mkQ (dec 45508358712634384 (-17)) (dec (-12379906758116472) (-33)) (dec 5528968895554264 (-49)) (dec (-8538231284020904) (-66));
  mkQ (dec 45781330359887723 (-17)) (dec (-8455425492229595) (-33)) (dec (-6377039424676426) (-49)) (dec 31778253575564297 (-66));
  mkQ (dec 46053871095824 (-14)) (dec 18488777492177872 (-33)) (dec (-10527732154209725) (-49)) (dec 33235593490947117 (-66));
  mkQ (dec 4632597835518602 (-16)) (dec (-735149245332317) (-32)) (dec 67175396881707035 (-50)) (dec 39594127612123412 (-66));
  mkQ (dec 4659764957679662 (-16)) (dec (-33023547778235135) (-34)) (dec 3490467705047689 (-50)) (dec (-18971438937970005) (-67));
  mkQ (dec 46868882203582796 (-17)) (dec (-22949251681845054) (-33)) (dec (-11364757641823658) (-49)) (dec 6884052250191858 (-65));
  mkQ (dec 47139673682599764 (-17)) (dec 6516678136069013 (-33)) (dec 29457546966235984 (-50)) (dec (-6215971773883671) (-66));
  mkQ (dec 47410021465055 (-14)) (dec (-8145160154897808) (-33)) (dec (-34789448555614422) (-50)) (dec (-11681943974658491) (-66));
  mkQ (dec 47679923006332214 (-17)) (dec (-10293515338305794) (-33)) (dec (-3658204500836995) (-49)) (dec 1742413147917649 (-65));
  mkQ (dec 479493757660153 (-15)) (dec 1841999966268477 (-32)) (dec (-13040838621273312) (-49)) (dec 10977131822246452 (-66));
  mkQ (dec 4821837720791228 (-16)) (dec (-25861500925520442) (-33)) (dec (-6291319760650001) (-51)) (dec 40802359808682775 (-68));
  mkQ (dec 4848692480007911 (-16)) (dec (-18034004203262245) (-33)) (dec (-35244276906958044) (-50)) (dec (-17138318654749265) (-66));
  mkQ (dec 48755016014843594 (-17)) (dec 14231090931273653 (-33)) (dec (-18277733073262697) (-50)) (dec (-15208291790429067) (-67));
  mkQ (dec 49022648328829116 (-17)) (dec (-51496145643440404) (-34)) (dec (-36903027405284104) (-50)) (dec 1517294009515126 (-65));
  mkQ (dec 49289819222978404 (-17)) (dec (-10257831676562186) (-34)) (dec 6952081776088507 (-50)) (dec (-2426096121409026) (-66));
  mkQ (dec 49556526182577254 (-17)) (dec (-9432324194236536) (-33)) (dec 31212918657699143 (-51)) (dec 42009072375238366 (-68));
  mkQ (dec 49822766697278187 (-17)) (dec (-16126383830540798) (-33)) (dec (-1509289731929887) (-48)) (dec 11049298890895924 (-66));
  mkQ (dec 5008853826112408 (-16)) (dec (-3960401514707464) (-32)) (dec (-22208395201898007) (-49)) (dec 13648202735839415 (-65));
  mkQ (dec 5035383837257176 (-16)) (dec (-16731308204967497) (-33)) (dec (-10140233644074786) (-49)) (dec 4095307193767152 (-65));
  mkQ (dec 5061866453451553 (-16)) (dec (-4832159298649371) (-32)) (dec 9285810722664225 (-49)) (dec 4269980240103704 (-65));
  mkQ (dec 508830142543107 (-15)) (dec 4783696826801413 (-32)) (dec (-10727022928806035) (-49)) (dec 27309374513672715 (-66));
  mkQ (dec 5114688504379704 (-16)) (dec (-13088001221007579) (-33)) (dec 409290333633669 (-48)) (dec (-37952190153477893) (-66));
  mkQ (dec 5141027441932218 (-16)) (dec (-45712707523615624) (-33)) (dec 15488279442238283 (-49)) (dec (-25853959305521116) (-66));
  mkQ (dec 5167317990176499 (-16)) (dec 8301861723383652 (-33)) (dec 582510274676952 (-48)) (dec (-2281239719053509) (-65));
  mkQ (dec 5193559901655896 (-16)) (dec (-55331248144171145) (-33)) (dec (-31628375609769026) (-51)) (dec (-2409197205118826) (-66));
  mkQ (dec 5219752929371544 (-16)) (dec (-4655579569208888) (-32)) (dec 4637898093685043 (-49)) (dec (-33470542934689544) (-67));
  mkQ (dec 524589682678469 (-15)) (dec (-43068869040082345) (-33)) (dec (-42013155291932055) (-50)) (dec (-15096069926700272) (-66));
  mkQ (dec 5271991347819014 (-16)) (dec (-4220298348056062) (-32)) (dec 855859161848673 (-48)) (dec 7997433933673227 (-65));
  mkQ (dec 5298036246862947 (-16)) (dec (-4806784170648234) (-32)) (dec 583097210466303 (-48)) (dec (-8974076152175692) (-66));
  mkQ (dec 532403127877198 (-15)) (dec (-41020306135800895) (-33)) (dec (-1923999637423082) (-48)) (dec (-15326987913812186) (-65));
  mkQ (dec 5349976198870973 (-16)) (dec (-53683132708358134) (-33)) (dec (-13900569918838112) (-49)) (dec 27154084726474073 (-66));
  mkQ (dec 5375870762956455 (-16)) (dec (-22617365388403054) (-33)) (dec (-59787279033447075) (-50)) (dec 31204419729043204 (-67));
  mkQ (dec 5401714727298929 (-16)) (dec 2707244796593584 (-32)) (dec 1169879970921383 (-48)) (dec (-5909466851588148) (-65));
  mkQ (dec 5427507848645159 (-16)) (dec 171482610047571 (-31)) (dec (-1352590592520087) (-48)) (dec 4972441129072729 (-65));
  mkQ (dec 5453249884220465 (-16)) (dec (-4151781753838426) (-32)) (dec (-1531893021938594) (-48)) (dec 6362992110141397 (-65));
  mkQ (dec 5478940591731002 (-16)) (dec (-24065878297113363) (-33)) (dec (-35639213669362606) (-52)) (dec (-26013270854276044) (-68));
  mkQ (dec 5504579729366048 (-16)) (dec (-8331990301580766) (-33)) (dec (-23058454035767638) (-50)) (dec 21152944929106175 (-66));
  mkQ (dec 5530167055800276 (-16)) (dec (-47061536623798204) (-33)) (dec (-10617111545918056) (-49)) (dec (-1619631614440733) (-65));
  mkQ (dec 5555702330196022 (-16)) (dec 4709410940561677 (-32)) (dec (-2064052038368292) (-48)) (dec 12290163188567138 (-65));
  mkQ (dec 5581185312205561 (-16)) (dec 13481176324765226 (-33)) (dec (-5501674387301144) (-49)) (dec (-23484822739335397) (-66));
  mkQ (dec 560661576197336 (-15)) (dec (-7395641815347615) (-33)) (dec 3968062061173119 (-49)) (dec 3199595220083625 (-65));
  mkQ (dec 5631993440138341 (-16)) (dec 2383577514685483 (-32)) (dec 13511793173769814 (-50)) (dec 9320131158124818 (-66));
  mkQ (dec 5657318107836132 (-16)) (dec (-34096079596590466) (-33)) (dec (-17073289744303546) (-49)) (dec 891470899754045 (-64));
  mkQ (dec 5682589526701316 (-16)) (dec (-5093567364276925) (-32)) (dec (-1627435635102825) (-48)) (dec 9818315156170268 (-66));
  mkQ (dec 5707807458869673 (-16)) (dec 24568151455566208 (-33)) (dec (-1284448124756035) (-48)) (dec (-18037634376936246) (-66));
  mkQ (dec 5732971666980422 (-16)) (dec 851766116693064 (-32)) (dec (-6444320878802677) (-49)) (dec 22546105543273003 (-66));
  mkQ (dec 5758081914178453 (-16)) (dec (-37909495458942734) (-33)) (dec (-2743373804685431) (-48)) (dec 11130841524216792 (-65));
  mkQ (dec 5783137964116556 (-16)) (dec (-2623769151237283) (-32)) (dec 13679051680738167 (-49)) (dec (-31409808935335943) (-66));
  mkQ (dec 5808139580957645 (-16)) (dec 18585338586613408 (-33)) (dec 2767384311454918 (-49)) (dec 19605349619836932 (-66));
  mkQ (dec 5833086529376983 (-16)) (dec 3451660107904486 (-33)) (dec 18065977478946306 (-50)) (dec (-6395395803854505) (-66));
  mkQ (dec 5857978574564389 (-16)) (dec (-3748550196431129) (-33)) (dec 27965403775536614 (-50)) (dec (-7181693602415737) (-66));
  mkQ (dec 5882815482226453 (-16)) (dec (-29292166725006846) (-33)) (dec (-23744954603693934) (-49)) (dec (-11571631191512478) (-66));
  mkQ (dec 5907597018588743 (-16)) (dec (-4701358417065954) (-32)) (dec 24808417611768356 (-49)) (dec 12598907673643214 (-66));
  mkQ (dec 5932322950397998 (-16)) (dec 12892320944189053 (-33)) (dec 5305836477635958 (-49)) (dec 41141674699390024 (-66));
  mkQ (dec 5956993044924334 (-16)) (dec (-13438641936579467) (-33)) (dec (-6787768790772106) (-50)) (dec 508636508720028 (-65));
  mkQ (dec 5981607069963423 (-16)) (dec 3880188578300066 (-32)) (dec (-12084165858094663) (-49)) (dec (-4045661084343004) (-65));
  mkQ (dec 600616479383869 (-15)) (dec (-4639819822946193) (-32)) (dec (-166734930037108) (-47)) (dec 5198282437849149 (-65));
  mkQ (dec 6030665985403482 (-16)) (dec 3732335768055965 (-32)) (dec 27771920866974305 (-49)) (dec (-1619422964974246) (-64));
  mkQ (dec 6055110414043255 (-16)) (dec (-3120267249330568) (-32)) (dec 12761267338680916 (-49)) (dec (-4085936859837968) (-65));
  mkQ (dec 6079497849677736 (-16)) (dec 3516083236209666 (-32)) (dec (-25546242776778394) (-50)) (dec (-14085313551220675) (-66));
  mkQ (dec 6103828062763095 (-16)) (dec (-2256326564822917) (-32)) (dec 1318557501122673 (-48)) (dec 823166914200635 (-64));
  mkQ (dec 6128100824294097 (-16)) (dec (-42693476568409685) (-34)) (dec 2583996588665032 (-49)) (dec 1688441200562252 (-65));
  mkQ (dec 6152315905806268 (-16)) (dec 2623141776726695 (-32)) (dec (-14095366621106716) (-49)) (dec 7205869049130455 (-65));
  mkQ (dec 617647307937804 (-15)) (dec (-4747859451090245) (-32)) (dec (-72986558263124) (-47)) (dec (-3015232751743918) (-65));
  mkQ (dec 6200572117632892 (-16)) (dec (-2798341083768112) (-32)) (dec 11649951056138923 (-49)) (dec (-5453908911713521) (-65));
  mkQ (dec 62246127937415 (-14)) (dec 52940728606573 (-31)) (dec (-4848641121594583) (-50)) (dec 12696527641976689 (-68));
  mkQ (dec 6248594881423863 (-16)) (dec 336718460372439 (-31)) (dec (-27846053391012096) (-49)) (dec 5610271812001211 (-65));
  mkQ (dec 6272518154951441 (-16)) (dec 30763585181253225 (-33)) (dec 2706893027349814 (-49)) (dec (-1117224030928648) (-65));
  mkQ (dec 629638238914927 (-15)) (dec 41115334049626806 (-33)) (dec (-19167473580230747) (-49)) (dec 1111842402816173 (-64));
  mkQ (dec 6320187359398091 (-16)) (dec (-4016494229646361) (-32)) (dec (-7220864364173672) (-49)) (dec 3782892047054432 (-65));
  mkQ (dec 6343932841636455 (-16)) (dec 10420901929280035 (-33)) (dec 4117455892928049 (-49)) (dec (-1446415298663068) (-66));
  mkQ (dec 6367618612362842 (-16)) (dec 3141904871190161 (-32)) (dec (-2269373841512645) (-48)) (dec (-16023584204297392) (-65));
  mkQ (dec 6391244448637757 (-16)) (dec 12416796312271043 (-33)) (dec (-62095419626356605) (-50)) (dec 2776206599950661 (-65));
  mkQ (dec 6414810128085832 (-16)) (dec (-9988343011594331) (-33)) (dec 4196923037673013 (-49)) (dec 5698054379925748 (-66));
  mkQ (dec 6438315428897915 (-16)) (dec (-32084798795046886) (-33)) (dec (-12595311907053305) (-49)) (dec (-4020588523084152) (-65));
  mkQ (dec 6461760129833164 (-16)) (dec (-29756137382280815) (-33)) (dec (-10275370077518259) (-49)) (dec 8085247866589343 (-66));
  mkQ (dec 6485144010221124 (-16)) (dec 3987027031338683 (-33)) (dec 19408388509540788 (-50)) (dec (-5179842063619337) (-66));
  mkQ (dec 6508466849963809 (-16)) (dec 3971467071050026 (-32)) (dec 29178546787002963 (-50)) (dec 3814063550829358 (-66));
  mkQ (dec 6531728429537768 (-16)) (dec 8569564206002624 (-33)) (dec (-6916532230507063) (-49)) (dec 23873751224185414 (-66));
  mkQ (dec 6554928529996153 (-16)) (dec 35638734426385005 (-33)) (dec 12695365790889811 (-49)) (dec 4398495286541201 (-65));
  mkQ (dec 6578066932970786 (-16)) (dec 19580943058468545 (-33)) (dec (-11944272256627192) (-49)) (dec 2855640261643684 (-65));
  mkQ (dec 6601143420674205 (-16)) (dec (-13960054386823638) (-35)) (dec 6151577793149405 (-51)) (dec 53510498875626214 (-68));
  mkQ (dec 6624157775901718 (-16)) (dec (-2261550888576459) (-32)) (dec 5017705031812686 (-49)) (dec 29162532399530814 (-66));
  mkQ (dec 6647109782033449 (-16)) (dec (-3622779359803437) (-32)) (dec (-9060793476554043) (-49)) (dec 3091703634238017 (-65));
  mkQ (dec 6669999223036375 (-16)) (dec 35284364997428166 (-33)) (dec (-10382057232458238) (-49)) (dec 7381275655016762 (-65));
  mkQ (dec 6692825883466361 (-16)) (dec (-5459265241744791) (-32)) (dec (-2518101470969515) (-48)) (dec (-1686787599943717) (-64));
  mkQ (dec 6715589548470184 (-16)) (dec (-4048903774929669) (-32)) (dec 3199583562535568 (-49)) (dec (-14044414655670971) (-66));
  mkQ (dec 673829000378756 (-15)) (dec 23091901236161086 (-33)) (dec 5742803719288132 (-49)) (dec 11240668354625932 (-66));
  mkQ (dec 6760927035753159 (-16)) (dec 37256902248049466 (-33)) (dec 17059417895764375 (-49)) (dec 9732634779530067 (-65));
  mkQ (dec 6783500431298615 (-16)) (dec 18302093041863122 (-33)) (dec 9524167574681307 (-49)) (dec 5032810111613354 (-65));
  mkQ (dec 680600997795453 (-15)) (dec 28473293354522047 (-33)) (dec 413318059772709 (-48)) (dec 4257903051074859 (-65));
  mkQ (dec 6828455463852481 (-16)) (dec (-12958058061524531) (-33)) (dec 18292386959330698 (-50)) (dec 34536209116044084 (-67));
  mkQ (dec 6850836677727004 (-16)) (dec 25948135194645137 (-33)) (dec (-850307431295007) (-48)) (dec (-6957208614100993) (-65));
  mkQ (dec 6873153408917592 (-16)) (dec (-5515615871491717) (-32)) (dec 11896489854266829 (-49)) (dec (-785058962182207) (-65));
  mkQ (dec 6895405447370669 (-16)) (dec (-1588932329480679) (-32)) (dec 9124235624020571 (-49)) (dec 3831545415226764 (-65));
  mkQ (dec 6917592583641577 (-16)) (dec 27406078472410668 (-33)) (dec 13286508943202092 (-49)) (dec 10651869129579751 (-67));
  mkQ (dec 693971460889654 (-15)) (dec 7434507695628014 (-33)) (dec 7506152838819746 (-49)) (dec (-15928000240686557) (-66));
  mkQ (dec 696177131491463 (-15)) (dec (-4122408121358289) (-32)) (dec (-31838716762083296) (-51)) (dec 13829706789724612 (-67));
  mkQ (dec 6983762494089728 (-16)) (dec 4898828243566777 (-32)) (dec 19134010413244152 (-49)) (dec 26161153243794036 (-66));
  mkQ (dec 7005687939432483 (-16)) (dec 3102796019299292 (-32)) (dec 9563825050918 (-46)) (dec 45896916138107285 (-67));
  mkQ (dec 7027547444572253 (-16)) (dec 2527829438362982 (-33)) (dec (-8698556121067495) (-50)) (dec 5001072609587458 (-66));
  mkQ (dec 7049340803759049 (-16)) (dec 27608725585748502 (-33)) (dec 29816599471629137 (-50)) (dec 11533044185111213 (-66));
  mkQ (dec 7071067811865476 (-16)) (dec (-4833646656726457) (-32)) (dec 20693376543497068 (-49)) (dec 2467773495734176 (-65))].
(** src/quad/common.rs:1649-3186 *)
Definition Q_COSINES : list Quad := [
  mkQ (dec 9999952938095762 (-16)) (dec (-1966806428532219) (-32)) (dec (-6305395509588348) (-49)) (dec 5326611085572218 (-67));
  mkQ (dec 9999811752826011 (-16)) (dec 33568103522895585 (-33)) (dec (-14740132559368063) (-51)) (dec 9860309759475735 (-67));
  mkQ (dec 9999576445519639 (-16)) (dec (-3152783686664729) (-32)) (dec 26363251186638437 (-49)) (dec 10007504815488404 (-65));
  mkQ (dec 9999247018391445 (-16)) (dec 3793108251266801 (-32)) (dec (-8509991866050148) (-50)) (dec (-49956973223295165) (-67));
  mkQ (dec 9998823474542126 (-16)) (dec (-3547781487240854) (-32)) (dec 17102001035303974 (-49)) (dec (-10725388519026538) (-65));
  mkQ (dec 9998305817958234 (-16)) (dec 1882514051755112 (-32)) (dec (-5138351345761694) (-49)) (dec (-38378827995403777) (-66));
  mkQ (dec 9997694053512153 (-16)) (dec 4268117703228901 (-32)) (dec 190623023597371 (-47)) (dec (-6022115326288111) (-65));
  mkQ (dec 9996988186962042 (-16)) (dec (-2985148640379975) (-32)) (dec (-19084787370733737) (-49)) (dec 5598026034402892 (-66));
  mkQ (dec 9996188224951786 (-16)) (dec (-41181965521424734) (-33)) (dec 20915365593699916 (-49)) (dec 81403390920903705 (-66));
  mkQ (dec 9995294175010931 (-16)) (dec 2051791782375559 (-32)) (dec (-4767380258570652) (-49)) (dec (-29443604198656734) (-66));
  mkQ (dec 9994306045554617 (-16)) (dec 396444977522578 (-31)) (dec (-2375722371672243) (-49)) (dec (-12856759011361572) (-67));
  mkQ (dec 9993223845883495 (-16)) (dec (-4285853844084568) (-32)) (dec 33235101605146565 (-50)) (dec (-8355427237705765) (-66));
  mkQ (dec 9992047586183639 (-16)) (dec 917963171103857 (-32)) (dec 5541620818586857 (-49)) (dec 8026704671761995 (-67));
  mkQ (dec 9990777277526454 (-16)) (dec 21419007653587032 (-33)) (dec (-7904820331852962) (-49)) (dec (-5316629618111275) (-65));
  mkQ (dec 9989412931868569 (-16)) (dec (-2061064191005864) (-32)) (dec (-12546525485913485) (-49)) (dec (-7517588880615705) (-65));
  mkQ (dec 9987954562051724 (-16)) (dec (-12291693337075465) (-33)) (dec 2446844678649127 (-49)) (dec 10723891085210282 (-66));
  mkQ (dec 9986402181802653 (-16)) (dec (-486902543129233) (-31)) (dec (-29470881967909147) (-50)) (dec (-13000650761346857) (-66));
  mkQ (dec 9984755805732948 (-16)) (dec (-22002931182778795) (-33)) (dec (-12371509454944992) (-49)) (dec (-24911225131232046) (-66));
  mkQ (dec 9983015449338929 (-16)) (dec (-5186940270279228) (-32)) (dec 10480195493633452 (-49)) (dec (-28995649143155554) (-66));
  mkQ (dec 9981181129001492 (-16)) (dec 2793548755811383 (-32)) (dec 24423341255830345 (-49)) (dec (-6764669917533444) (-65));
  mkQ (dec 997925286198596 (-15)) (dec 17143659778886362 (-33)) (dec 5788584090288746 (-49)) (dec (-9260143260389495) (-66));
  mkQ (dec 9977230666441916 (-16)) (dec (-2639447527489872) (-32)) (dec (-16176223087661783) (-50)) (dec (-9992494288936241) (-66));
  mkQ (dec 9975114561403035 (-16)) (dec 5600720591980694 (-33)) (dec (-5947767351468569) (-50)) (dec (-14166807162473617) (-70));
  mkQ (dec 9972904566786902 (-16)) (dec 9164769537110173 (-33)) (dec 678241343097393 (-48)) (dec (-8619139279553858) (-67));
  mkQ (dec 997060070339483 (-15)) (dec 16734093546241963 (-33)) (dec (-13169951440780028) (-49)) (dec 10311048767952451 (-66));
  mkQ (dec 9968202992911657 (-16)) (dec 47062820708615655 (-33)) (dec 28412041076474937 (-49)) (dec (-8000615567026358) (-65));
  mkQ (dec 9965711457905548 (-16)) (dec 11707179088390986 (-33)) (dec (-7593441326302466) (-49)) (dec 28474848436925975 (-66));
  mkQ (dec 996312612182778 (-15)) (dec 11336497891624735 (-33)) (dec 3400245867441436 (-49)) (dec 7741907592154426 (-67));
  mkQ (dec 996044700901252 (-15)) (dec 22870031707670695 (-33)) (dec (-3918483940501315) (-49)) (dec (-37081260416246323) (-66));
  mkQ (dec 9957674144676598 (-16)) (dec (-2315190832309436) (-32)) (dec (-16306512931944591) (-50)) (dec (-1592542078386364) (-66));
  mkQ (dec 9954807554919269 (-16)) (dec 32084621412226554 (-34)) (dec (-4950129214601302) (-51)) (dec (-27811428850873264) (-68));
  mkQ (dec 9951847266721969 (-16)) (dec (-4248691367830441) (-32)) (dec 13315510772504614 (-49)) (dec 6792798741705191 (-65));
  mkQ (dec 9948793307948056 (-16)) (dec 4213081328494366 (-33)) (dec (-4206259748828845) (-50)) (dec 25157064556087756 (-67));
  mkQ (dec 9945645707342554 (-16)) (dec 3674506964152806 (-32)) (dec (-3060330410547101) (-48)) (dec 10397872280487526 (-65));
  mkQ (dec 9942404494531879 (-16)) (dec 44129423472462673 (-33)) (dec (-30107231708238066) (-49)) (dec 7420158290686193 (-65));
  mkQ (dec 9939069700023561 (-16)) (dec (-18964849471123746) (-33)) (dec (-15980853777937752) (-51)) (dec (-8537480715059655) (-67));
  mkQ (dec 9935641355205953 (-16)) (dec 2975230992779743 (-32)) (dec (-4506670733113423) (-49)) (dec (-3354819163380503) (-65));
  mkQ (dec 9932119492347945 (-16)) (dec 3309690626127226 (-32)) (dec 15592811973249567 (-49)) (dec 14373977733253573 (-66));
  mkQ (dec 9928504144598651 (-16)) (dec (-14094517733693302) (-33)) (dec (-11954558131616916) (-49)) (dec 18761873742867948 (-66));
  mkQ (dec 99247953459871 (-14)) (dec 31093055095428906 (-33)) (dec (-1837959475781802) (-48)) (dec (-39885758559381824) (-67));
  mkQ (dec 9920993131421918 (-16)) (dec (-3943192614958878) (-32)) (dec (-6275806291104723) (-49)) (dec (-1296092955921242) (-65));
  mkQ (dec 9917097536690995 (-16)) (dec (-2337289131188366) (-33)) (dec 2707329882496859 (-50)) (dec (-12569459441802728) (-67));
  mkQ (dec 9913108598461154 (-16)) (dec (-25192111583372105) (-33)) (dec (-12852471567380887) (-49)) (dec 5238521258431044 (-65));
  mkQ (dec 99090263542778 (-14)) (dec 15394565094566704 (-33)) (dec (-10799984133184567) (-49)) (dec 2745111596013394 (-66));
  mkQ (dec 9904850842564571 (-16)) (dec (-55411437553780867) (-33)) (dec (-14614017210753585) (-49)) (dec (-38339374397387644) (-66));
  mkQ (dec 9900582102622971 (-16)) (dec (-17055485906233963) (-33)) (dec 13454939685758777 (-49)) (dec 7311758913730006 (-65));
  mkQ (dec 9896220174632009 (-16)) (dec (-5239821796813253) (-32)) (dec 1346318921145622 (-48)) (dec 5802164055489491 (-65));
  mkQ (dec 989176509964781 (-15)) (dec (-4098730993704711) (-32)) (dec (-4485756055204844) (-49)) (dec (-3941450450287111) (-65));
  mkQ (dec 9887216919603238 (-16)) (dec (-10976227206656125) (-33)) (dec 32311342577653764 (-50)) (dec 9636794658357516 (-66));
  mkQ (dec 9882575677307495 (-16)) (dec 2703060778437263 (-32)) (dec 7751486648860138 (-50)) (dec 21019644956865235 (-67));
  mkQ (dec 9877841416445722 (-16)) (dec (-2360069339715902) (-32)) (dec (-1232328376970786) (-48)) (dec 3013090071680331 (-65));
  mkQ (dec 9873014181578584 (-16)) (dec (-5233226125571565) (-32)) (dec (-27937644333152473) (-49)) (dec 12074160567958412 (-65));
  mkQ (dec 9868094018141855 (-16)) (dec (-50287214351061075) (-33)) (dec (-2268152623814446) (-48)) (dec 44003694320169095 (-66));
  mkQ (dec 9863080972445987 (-16)) (dec (-2152087710301334) (-32)) (dec 11866528054187716 (-49)) (dec (-7853219919981384) (-65));
  mkQ (dec 9857975091675675 (-16)) (dec (-5143945297995301) (-32)) (dec 26276439309996725 (-49)) (dec 7542355278328632 (-65));
  mkQ (dec 9852776423889412 (-16)) (dec 23155637027900207 (-33)) (dec (-7527597154576483) (-49)) (dec 10582231660456088 (-66));
  mkQ (dec 9847485018019042 (-16)) (dec 10548144061829957 (-33)) (dec 28786145266267306 (-50)) (dec (-36782210081466076) (-67));
  mkQ (dec 984210092386929 (-15)) (dec 4798392262705069 (-32)) (dec 22597419645070588 (-50)) (dec 17573875814863422 (-66));
  mkQ (dec 9836624192117303 (-16)) (dec 19864948201635255 (-33)) (dec (-10743046281211033) (-51)) (dec 1797566279655703 (-67));
  mkQ (dec 9831054874312163 (-16)) (dec 4217000752288863 (-32)) (dec 823962656564409 (-48)) (dec (-8080370013909653) (-65));
  mkQ (dec 9825393022874412 (-16)) (dec 15149580813777224 (-33)) (dec (-4180277142218624) (-49)) (dec (-221501743262262) (-64));
  mkQ (dec 9819638691095552 (-16)) (dec 21108443711513084 (-33)) (dec (-15253013442896054) (-49)) (dec (-6838808207933793) (-65));
  mkQ (dec 9813791933137546 (-16)) (dec 13428163260355633 (-33)) (dec (-6529429046996299) (-49)) (dec 2796541228745605 (-66));
  mkQ (dec 9807852804032304 (-16)) (dec 18546939997825006 (-33)) (dec (-10696564445530757) (-49)) (dec 6666817447526491 (-65));
  mkQ (dec 9801821359681174 (-16)) (dec (-3680178696385616) (-32)) (dec 6324517138799284 (-49)) (dec 18600176137175948 (-66));
  mkQ (dec 9795697656854405 (-16)) (dec 1557399158499042 (-32)) (dec (-1340106602978299) (-48)) (dec (-1726370219986218) (-65));
  mkQ (dec 9789481753190622 (-16)) (dec (-23817727961148053) (-34)) (dec (-10694750370381661) (-50)) (dec (-8229304719608728) (-66));
  mkQ (dec 9783173707196277 (-16)) (dec (-21623082233344895) (-33)) (dec 10970403012028032 (-49)) (dec 7709192309936935 (-65));
  mkQ (dec 9776773578245099 (-16)) (dec 5051413616705963 (-32)) (dec (-13254751701428788) (-49)) (dec 701612543121245 (-64));
  mkQ (dec 9770281426577544 (-16)) (dec (-43353875751555997) (-33)) (dec 5494883983153548 (-49)) (dec (-9275526310537764) (-66));
  mkQ (dec 9763697313300211 (-16)) (dec 9309393152621378 (-33)) (dec (-41184949155685665) (-50)) (dec (-3191392603139366) (-65));
  mkQ (dec 9757021300385286 (-16)) (dec (-25572556081259686) (-33)) (dec (-9317424450894222) (-49)) (dec (-8367586321164737) (-66));
  mkQ (dec 9750253450669941 (-16)) (dec 26642660651899135 (-33)) (dec 17819392739353853 (-50)) (dec (-3315962538564879) (-66));
  mkQ (dec 9743393827855759 (-16)) (dec 23041221476151512 (-34)) (dec 1075868600503143 (-49)) (dec 5107411643280983 (-66));
  mkQ (dec 973644249650812 (-15)) (dec (-5172980869100587) (-32)) (dec (-15508473005989887) (-49)) (dec (-16505125917675405) (-65));
  mkQ (dec 9729399522055602 (-16)) (dec (-313112111222818) (-31)) (dec (-2687408778900614) (-48)) (dec (-21652434818822018) (-67));
  mkQ (dec 9722264970789363 (-16)) (dec 3646116978593822 (-32)) (dec 30309636883883133 (-49)) (dec (-12702716907967761) (-67));
  mkQ (dec 9715038909862518 (-16)) (dec (-7986542112228905) (-33)) (dec (-4362841721126338) (-49)) (dec 34307517798758936 (-67));
  mkQ (dec 9707721407289504 (-16)) (dec (-4799216332511492) (-32)) (dec 30347528910975783 (-49)) (dec 859891995064797 (-64));
  mkQ (dec 970031253194544 (-15)) (dec 18365300348428844 (-33)) (dec (-14311097571944918) (-49)) (dec 8584678199874089 (-66));
  mkQ (dec 9692812353565485 (-16)) (dec (-45663660261927896) (-33)) (dec 9614752691723939 (-49)) (dec 8126760520787177 (-66));
  mkQ (dec 9685220942744173 (-16)) (dec 4947507491824477 (-32)) (dec 2855873835191124 (-48)) (dec 6294842231650748 (-65));
  mkQ (dec 9677538370934755 (-16)) (dec (-4551213282551582) (-32)) (dec (-14127617988719093) (-49)) (dec (-8462060908970456) (-65));
  mkQ (dec 9669764710448521 (-16)) (dec 38496228837337864 (-33)) (dec (-5388163154274565) (-49)) (dec (-3522186317145893) (-65));
  mkQ (dec 9661900034454125 (-16)) (dec 5129884040166549 (-32)) (dec 14564075904769808 (-50)) (dec 10095973971377442 (-66));
  mkQ (dec 9653944416976894 (-16)) (dec (-23745389918392156) (-33)) (dec 5922151559005386 (-49)) (dec (-38811192556231103) (-66));
  mkQ (dec 9645897932898128 (-16)) (dec (-34189470735959786) (-33)) (dec 22982074155463522 (-49)) (dec (-4512879104560768) (-65));
  mkQ (dec 9637760657954398 (-16)) (dec 2646395056122003 (-32)) (dec (-29073234590199323) (-52)) (dec (-12938328629395878) (-68));
  mkQ (dec 9629532668736839 (-16)) (dec 8934196040431363 (-33)) (dec (-39071244661020126) (-50)) (dec 16212091116847368 (-66));
  mkQ (dec 9621214042690416 (-16)) (dec 15236770453846305 (-33)) (dec (-13050173525597142) (-49)) (dec 79016122394092685 (-66));
  mkQ (dec 9612804858113206 (-16)) (dec 2093395521667404 (-33)) (dec 10768607469015692 (-50)) (dec (-5945363930436221) (-66));
  mkQ (dec 9604305194155658 (-16)) (dec 24653904815317185 (-33)) (dec (-13792169410906322) (-49)) (dec (-4772659837850652) (-66));
  mkQ (dec 9595715130819845 (-16)) (dec 11000640085000957 (-33)) (dec (-42036030828223975) (-50)) (dec 4002370484260642 (-66));
  mkQ (dec 9587034748958716 (-16)) (dec (-43685014392372053) (-33)) (dec 2200180066272913 (-48)) (dec (-10553721324358075) (-65));
  mkQ (dec 9578264130275329 (-16)) (dec (-17696710075371263) (-33)) (dec 1916403411038219 (-49)) (dec 8148923507175447 (-66));
  mkQ (dec 9569403357322088 (-16)) (dec 405538698618757 (-31)) (dec (-1714701336430215) (-48)) (dec 2573674529532947 (-65));
  mkQ (dec 9560452513499964 (-16)) (dec 3770504527958907 (-32)) (dec 1967869999734757 (-48)) (dec 8509317773123018 (-65));
  mkQ (dec 9551411683057707 (-16)) (dec 5008865295501467 (-32)) (dec (-2698318183805921) (-48)) (dec 10102323575596497 (-65));
  mkQ (dec 9542280951091057 (-16)) (dec (-37545901690626874) (-33)) (dec 14951619241257764 (-49)) (dec (-8271733315139502) (-65));
  mkQ (dec 9533060403541939 (-16)) (dec (-25190738779919934) (-33)) (dec (-14272239821134379) (-49)) (dec (-4671728680928317) (-65));
  mkQ (dec 9523750127197659 (-16)) (dec (-20269300462299272) (-33)) (dec (-10635956887246246) (-49)) (dec (-35514537666487615) (-66));
  mkQ (dec 9514350209690083 (-16)) (dec 31350584123266695 (-33)) (dec (-24824833452737813) (-49)) (dec 9545033552538072 (-66));
  mkQ (dec 9504860739494817 (-16)) (dec 19410097562630436 (-33)) (dec (-8155939394981679) (-49)) (dec (-10501209720164549) (-66));
  mkQ (dec 9495281805930367 (-16)) (dec (-755441519280433) (-32)) (dec (-51260245024046686) (-50)) (dec 18093643389040408 (-66));
  mkQ (dec 9485613499157303 (-16)) (dec 20668262262333232 (-33)) (dec (-5944073024366731) (-49)) (dec 14268853111554324 (-66));
  mkQ (dec 9475855910177411 (-16)) (dec 4341799385212599 (-32)) (dec (-27728667889840373) (-50)) (dec 5570916019652006 (-66));
  mkQ (dec 9466009130832835 (-16)) (dec 3505680021068073 (-32)) (dec 9857853694031812 (-49)) (dec 66035911064585235 (-66));
  mkQ (dec 9456073253805213 (-16)) (dec 4601910247852374 (-32)) (dec (-6253438476945206) (-49)) (dec 15758941215779988 (-66));
  mkQ (dec 9446048372614803 (-16)) (dec 8810054547664117 (-33)) (dec 5229169560275784 (-49)) (dec (-33487256018407157) (-66));
  mkQ (dec 9435934581619604 (-16)) (dec (-24093127844404214) (-33)) (dec 1028327985680394 (-49)) (dec (-23398232614530868) (-67));
  mkQ (dec 9425731976014469 (-16)) (dec 13235564806436886 (-33)) (dec (-5704826288538691) (-50)) (dec 3994705044275339 (-66));
  mkQ (dec 9415440651830208 (-16)) (dec (-2789637954769834) (-32)) (dec 162732363567339 (-47)) (dec (-53075944708470906) (-67));
  mkQ (dec 9405060705932683 (-16)) (dec 2861042156711627 (-32)) (dec 29261501147538827 (-49)) (dec (-268498676908969) (-64));
  mkQ (dec 9394592236021899 (-16)) (dec (-7015286794309865) (-33)) (dec (-5639569381801121) (-49)) (dec 355681426789876 (-64));
  mkQ (dec 9384035340631081 (-16)) (dec 5424254504479549 (-32)) (dec (-1903996660785976) (-48)) (dec (-15627792988341221) (-65));
  mkQ (dec 937339011912575 (-15)) (dec (-36570926284362776) (-33)) (dec (-11902940071273247) (-49)) (dec (-11215082331583266) (-66));
  mkQ (dec 9362656671702783 (-16)) (dec (-13013766145497654) (-33)) (dec 52229870061990595 (-50)) (dec (-33972777075633675) (-67));
  mkQ (dec 9351835099389476 (-16)) (dec (-32609395302485065) (-33)) (dec (-8181301521887525) (-49)) (dec 5564214002492817 (-65));
  mkQ (dec 9340925504042589 (-16)) (dec 4466282436076751 (-32)) (dec (-25903243047396916) (-49)) (dec 8150520900434308 (-65));
  mkQ (dec 9329927988347388 (-16)) (dec 42041415555384355 (-33)) (dec 9028589649552128 (-49)) (dec 5301998497766128 (-65));
  mkQ (dec 9318842655816681 (-16)) (dec (-40785944377318095) (-33)) (dec 1763145029875417 (-48)) (dec 257764033055074 (-64));
  mkQ (dec 9307669610789837 (-16)) (dec 1970377510283833 (-32)) (dec 65657908718278205 (-50)) (dec (-19480347966259367) (-67));
  mkQ (dec 9296408958431812 (-16)) (dec 5128253001686411 (-32)) (dec 2371973989191626 (-49)) (dec (-17230065426917108) (-66));
  mkQ (dec 9285060804732156 (-16)) (dec (-23306639848485943) (-33)) (dec (-777990843332085) (-48)) (dec (-5859755800930029) (-65));
  mkQ (dec 9273625256504011 (-16)) (dec (-27677111692155437) (-33)) (dec 22110293450199576 (-50)) (dec 20349190819680565 (-66));
  mkQ (dec 9262102421383114 (-16)) (dec (-37303754586099054) (-33)) (dec 20464457809993405 (-49)) (dec 13831799631231817 (-65));
  mkQ (dec 9250492407826776 (-16)) (dec 6052944741257616 (-33)) (dec (-8825651776027854) (-50)) (dec 182854621223887 (-65));
  mkQ (dec 9238795325112867 (-16)) (dec 17645047084336677 (-33)) (dec (-5044253732158682) (-49)) (dec (-4047867771682387) (-65));
  mkQ (dec 9227011283338785 (-16)) (dec 52963798918539814 (-33)) (dec (-57135699628876685) (-50)) (dec 3016367179721905 (-65));
  mkQ (dec 9215140393420419 (-16)) (dec 41639843390684644 (-33)) (dec 11891485604702356 (-49)) (dec 20862437594380324 (-66));
  mkQ (dec 9203182767091106 (-16)) (dec (-2780688877903684) (-32)) (dec 27011013677071274 (-49)) (dec 11998578792455505 (-65));
  mkQ (dec 9191138516900578 (-16)) (dec (-26496484622344718) (-33)) (dec 6540360476346192 (-49)) (dec (-2899718020118612) (-65));
  mkQ (dec 9179007756213905 (-16)) (dec (-39074579680849515) (-33)) (dec 23004636541490264 (-49)) (dec 39851762744443107 (-66));
  mkQ (dec 9166790599210427 (-16)) (dec (-4173397869828757) (-32)) (dec 12094444804381172 (-49)) (dec 493569168260978 (-64));
  mkQ (dec 9154487160882678 (-16)) (dec (-13591056692900894) (-33)) (dec 59923027475594735 (-50)) (dec 2140329592596286 (-65));
  mkQ (dec 9142097557035307 (-16)) (dec (-3631618252781442) (-32)) (dec (-19438819777122554) (-49)) (dec 2834067928772836 (-65));
  mkQ (dec 9129621904283982 (-16)) (dec (-4793250522803947) (-32)) (dec (-1775355188942864) (-48)) (dec 4060778290386794 (-66));
  mkQ (dec 9117060320054299 (-16)) (dec (-2691327317503413) (-32)) (dec (-5192810191616253) (-50)) (dec 11338175936090927 (-67));
  mkQ (dec 9104412922580672 (-16)) (dec (-5043304167331382) (-32)) (dec 10938746257404305 (-49)) (dec 9537827208417024 (-66));
  mkQ (dec 9091679830905224 (-16)) (dec (-36878564091359894) (-34)) (dec 29951330310507693 (-50)) (dec (-12225666136919918) (-66));
  mkQ (dec 9078861164876663 (-16)) (dec (-4945996430122584) (-32)) (dec (-16599682707075313) (-49)) (dec (-51925202712634725) (-66));
  mkQ (dec 9065957045149153 (-16)) (dec 30506718955442023 (-33)) (dec (-14478836557141204) (-49)) (dec 18906373784448763 (-66));
  mkQ (dec 9052967593181188 (-16)) (dec (-411530998268899) (-31)) (dec 29859368705184223 (-49)) (dec 5114529391743917 (-65));
  mkQ (dec 9039892931234433 (-16)) (dec (-6609754468748431) (-33)) (dec 12728013034680357 (-50)) (dec (-4302609723401478) (-66));
  mkQ (dec 9026733182372588 (-16)) (dec (-19250787033961483) (-33)) (dec 13242128993244527 (-49)) (dec (-5297103068870367) (-65));
  mkQ (dec 901348847046022 (-15)) (dec (-13524789367698682) (-33)) (dec 6360535311588009 (-49)) (dec 3622740065457378 (-65));
  mkQ (dec 9000158920161603 (-16)) (dec (-5063961805080227) (-32)) (dec 10783525384031576 (-49)) (dec 2813001632651511 (-65));
  mkQ (dec 8986744656939538 (-16)) (dec 26316906461033013 (-33)) (dec 3700313704779684 (-50)) (dec (-23447719900465505) (-67));
  mkQ (dec 8973245807054183 (-16)) (dec (-3639628331486729) (-32)) (dec (-23611649895474815) (-49)) (dec 11837247047900086 (-65));
  mkQ (dec 8959662497561851 (-16)) (dec 49025099114811813 (-33)) (dec (-19440489814795326) (-49)) (dec (-17070486667767029) (-65));
  mkQ (dec 8945994856313827 (-16)) (dec (-1751622639681492) (-32)) (dec (-13200670047246923) (-49)) (dec (-1595300988432466) (-65));
  mkQ (dec 8932243011955153 (-16)) (dec (-4116123915190891) (-33)) (dec 25380253805716 (-47)) (dec 42849455510515997 (-67));
  mkQ (dec 8918407093923427 (-16)) (dec 4669022813712455 (-33)) (dec 16150254286841982 (-50)) (dec (-3961744882072459) (-66));
  mkQ (dec 8904487232447579 (-16)) (dec 11781931459051803 (-33)) (dec (-1334614220957193) (-49)) (dec (-9498237353073309) (-66));
  mkQ (dec 8890483558546646 (-16)) (dec (-11164514966766675) (-33)) (dec (-34797636107798736) (-50)) (dec (-15605079997040665) (-66));
  mkQ (dec 8876396204028539 (-16)) (dec 1280509191858796 (-32)) (dec 39948742059584464 (-51)) (dec (-14514577876506005) (-67));
  mkQ (dec 8862225301488806 (-16)) (dec (-67307369600274315) (-34)) (dec 12385593432917413 (-50)) (dec 20364014759133513 (-67));
  mkQ (dec 8847970984309378 (-16)) (dec (-9433146962897269) (-33)) (dec (-5710654147870144) (-49)) (dec 18260134111907352 (-66));
  mkQ (dec 8833633386657316 (-16)) (dec 15822643380255127 (-33)) (dec (-7892132000758825) (-49)) (dec (-14782321016179826) (-66));
  mkQ (dec 881921264348355 (-15)) (dec (-19843248405890562) (-33)) (dec (-7041211400767383) (-49)) (dec (-10636770169389118) (-66));
  mkQ (dec 8804708890521608 (-16)) (dec 1631109660299635 (-32)) (dec (-5754136059472417) (-49)) (dec (-4012861186216998) (-65));
  mkQ (dec 8790122264286335 (-16)) (dec (-4735683729111801) (-32)) (dec 14388771297975192 (-49)) (dec (-2908555430447914) (-65));
  mkQ (dec 8775452902072612 (-16)) (dec 5011331184649955 (-32)) (dec 28382769008739543 (-50)) (dec 1555064039316411 (-65));
  mkQ (dec 8760700941954066 (-16)) (dec 5872902423514768 (-33)) (dec 27941144391738458 (-50)) (dec (-18536073846509857) (-66));
  mkQ (dec 8745866522781761 (-16)) (dec (-57216617730397065) (-35)) (dec (-29705811503689596) (-51)) (dec 8738959396979377 (-67));
  mkQ (dec 8730949784182901 (-16)) (dec 784246729901299 (-32)) (dec (-48685015839797165) (-50)) (dec (-2281557058747757) (-65));
  mkQ (dec 8715950866559511 (-16)) (dec (-5527299803855105) (-32)) (dec (-22104090204984907) (-49)) (dec (-9774976318764323) (-65));
  mkQ (dec 8700869911087115 (-16)) (dec (-4188851086854997) (-32)) (dec 70900185861878415 (-50)) (dec 3760025111515731 (-65));
  mkQ (dec 8685707059713409 (-16)) (dec 27192781689782903 (-35)) (dec (-16710140396932428) (-51)) (dec (-12625514734637684) (-67));
  mkQ (dec 8670462455156926 (-16)) (dec 30267859550930567 (-34)) (dec (-11559438782171572) (-50)) (dec (-53580556397813034) (-68));
  mkQ (dec 8655136240905691 (-16)) (dec (-637231135496289) (-32)) (dec 23725520321746832 (-50)) (dec 15911880348395177 (-66));
  mkQ (dec 8639728561215867 (-16)) (dec 4148635595736161 (-32)) (dec 22709976932210266 (-49)) (dec (-8122838565947999) (-65));
  mkQ (dec 8624239561110405 (-16)) (dec 3700899252738313 (-32)) (dec 5212841154270157 (-49)) (dec 2694560008102689 (-65));
  mkQ (dec 8608669386377673 (-16)) (dec (-30050048898573656) (-33)) (dec (-8870618309089211) (-49)) (dec 15005320558097258 (-66));
  mkQ (dec 8593018183570084 (-16)) (dec 4243565581685069 (-32)) (dec 76181814059912025 (-50)) (dec (-39592127850658727) (-66));
  mkQ (dec 8577286100002721 (-16)) (dec (-4818344793633662) (-32)) (dec (-11044130517687533) (-49)) (dec 8365670800125491 (-65));
  mkQ (dec 8561473283751945 (-16)) (dec 9180692561660626 (-33)) (dec 5632864978595147 (-49)) (dec 2332664611321735 (-66));
  mkQ (dec 8545579883654005 (-16)) (dec (-12991124236396092) (-33)) (dec 1289340772294808 (-49)) (dec (-3650692574758651) (-67));
  mkQ (dec 8529606049303636 (-16)) (dec 2715298425198137 (-32)) (dec 7433648328312072 (-49)) (dec 42162417622350716 (-66));
  mkQ (dec 8513551931052652 (-16)) (dec (-5327987444601621) (-32)) (dec 2228115638091994 (-48)) (dec (-40281886404138467) (-66));
  mkQ (dec 8497417680008524 (-16)) (dec 51812347659974015 (-33)) (dec 30810626087331275 (-49)) (dec (-25931308201994965) (-66));
  mkQ (dec 8481203448032972 (-16)) (dec 1876256341523998 (-32)) (dec 14048773307919617 (-49)) (dec (-24915221509958706) (-66));
  mkQ (dec 8464909387740521 (-16)) (dec (-47969419958569345) (-33)) (dec (-27518267097886703) (-49)) (dec (-7351895972731335) (-65));
  mkQ (dec 8448535652497071 (-16)) (dec (-4363136029687964) (-32)) (dec (-20307726853367547) (-49)) (dec 4309722981985171 (-65));
  mkQ (dec 8432082396418454 (-16)) (dec 9653670700595908 (-34)) (dec 28995142431556364 (-52)) (dec 9671507681146747 (-68));
  mkQ (dec 8415549774368984 (-16)) (dec (-34095465391321557) (-33)) (dec (-841302086075796) (-48)) (dec (-4944728396056864) (-65));
  mkQ (dec 8398937941959995 (-16)) (dec (-1667369488151141) (-32)) (dec (-1475918414175029) (-48)) (dec (-7579509816191407) (-65));
  mkQ (dec 8382247055548381 (-16)) (dec (-35560085052855026) (-33)) (dec 11689791577022643 (-49)) (dec (-5862734735972339) (-65));
  mkQ (dec 836547727223512 (-15)) (dec (-20899059027066533) (-33)) (dec (-9810409782100259) (-50)) (dec (-31609177868229444) (-67));
  mkQ (dec 83486287498638 (-14)) (dec 4604843060915966 (-32)) (dec (-5182742326523991) (-49)) (dec (-7050534343550388) (-66));
  mkQ (dec 8331701647019132 (-16)) (dec 13275129507229764 (-34)) (dec 4858916411537086 (-50)) (dec 45422281300507203 (-67));
  mkQ (dec 8314696123025452 (-16)) (dec 14073856984728024 (-34)) (dec 46951315383980835 (-51)) (dec (-2023388151938547) (-67));
  mkQ (dec 829761233794523 (-15)) (dec (-29349109376485597) (-34)) (dec 11496917934149818 (-50)) (dec 35186665544980245 (-67));
  mkQ (dec 8280450452577558 (-16)) (dec (-4419659322587153) (-32)) (dec 2796786485521125 (-48)) (dec 10030777287393502 (-65));
  mkQ (dec 8263210628456635 (-16)) (dec (-539574854536129) (-31)) (dec 6897689613013855 (-49)) (dec 38106164274199186 (-66));
  mkQ (dec 8245893027850253 (-16)) (dec (-26512360488868275) (-33)) (dec 16916964350914386 (-50)) (dec 676939748135625 (-65));
  mkQ (dec 8228497813758263 (-16)) (dec 15193019034505495 (-33)) (dec 9689054724652168 (-49)) (dec 5699456292365327 (-65));
  mkQ (dec 8211025149911046 (-16)) (dec 3071513160969768 (-32)) (dec (-1703716832585588) (-48)) (dec (-1114986244328385) (-64));
  mkQ (dec 819347520076797 (-15)) (dec (-48200736995191133) (-33)) (dec (-1557448964667278) (-50)) (dec (-9564785361451192) (-68));
  mkQ (dec 8175848131515837 (-16)) (dec (-14883149812426772) (-33)) (dec (-7827326277129892) (-49)) (dec 41332149161031623 (-66));
  mkQ (dec 8158144108067338 (-16)) (dec 8265269378213087 (-33)) (dec (-2302877813517947) (-49)) (dec 15102071387249817 (-66));
  mkQ (dec 8140363297059484 (-16)) (dec (-52127351877042624) (-33)) (dec (-1904767061131636) (-48)) (dec (-1693726958594151) (-64));
  mkQ (dec 8122505865852039 (-16)) (dec 310545456092148 (-31)) (dec 2264954192270725 (-49)) (dec (-7422168415464942) (-66));
  mkQ (dec 8104571982525948 (-16)) (dec 235203673498405 (-31)) (dec (-7753007090484634) (-49)) (dec (-727926163571971) (-64));
  mkQ (dec 808656181588175 (-15)) (dec 9325159787972167 (-33)) (dec (-7182330193306839) (-49)) (dec 2392544084613215 (-65));
  mkQ (dec 8068475535437992 (-16)) (dec 49220603766095546 (-33)) (dec 29796016899903487 (-49)) (dec 15220754223615785 (-65));
  mkQ (dec 8050313311429635 (-16)) (dec 5136828956821215 (-32)) (dec 6308280740225652 (-49)) (dec 7327764608512981 (-66));
  mkQ (dec 8032075314806449 (-16)) (dec (-3306060980481491) (-32)) (dec (-12242726252420433) (-49)) (dec 2841367326863007 (-65));
  mkQ (dec 8013761717231402 (-16)) (dec (-20958013413495834) (-33)) (dec (-4379816219800693) (-49)) (dec 2023569049775252 (-65));
  mkQ (dec 799537269107905 (-15)) (dec 2035672382200543 (-32)) (dec (-9744851369689636) (-49)) (dec 5360810959969726 (-67));
  mkQ (dec 7976908409433912 (-16)) (dec (-46730759884788944) (-33)) (dec 23075897077191757 (-49)) (dec 3160556777464022 (-66));
  mkQ (dec 7958369046088836 (-16)) (dec (-3006272485191072) (-32)) (dec (-22496210832042235) (-49)) (dec (-6588177411718306) (-65));
  mkQ (dec 7939754775543372 (-16)) (dec (-7419463175992142) (-33)) (dec 2412434130463107 (-49)) (dec (-49956808616245025) (-67));
  mkQ (dec 7921065773002124 (-16)) (dec (-37087850202326467) (-33)) (dec (-14874457267228264) (-49)) (dec 2932309728915352 (-65));
  mkQ (dec 79023022143731 (-14)) (dec 23056905954954492 (-33)) (dec 14481080533260193 (-49)) (dec (-7672523705720347) (-65));
  mkQ (dec 7883464276266062 (-16)) (dec 3439699315405971 (-32)) (dec 1771062374673717 (-48)) (dec 17084159098417406 (-65));
  mkQ (dec 7864552135990858 (-16)) (dec (-9784142993930527) (-33)) (dec 33906063272445472 (-50)) (dec 5726950532038297 (-66));
  mkQ (dec 7845565971555752 (-16)) (dec (-8562796542317348) (-33)) (dec (-2110683445900185) (-49)) (dec (-1689032218246961) (-65));
  mkQ (dec 7826505961665757 (-16)) (dec 9074586697580882 (-33)) (dec 6762384740427867 (-49)) (dec (-17173237731987254) (-66));
  mkQ (dec 7807372285720945 (-16)) (dec (-991987820666788) (-32)) (dec (-21265794012162715) (-52)) (dec 30772165599031686 (-70));
  mkQ (dec 778816512381476 (-15)) (dec (-24891385579973807) (-33)) (dec 6766549702480798 (-50)) (dec (-6521859428169817) (-67));
  mkQ (dec 7768884656732324 (-16)) (dec 7741860257067286 (-33)) (dec (-599865178721579) (-48)) (dec 30566548232958976 (-66));
  mkQ (dec 7749531065948739 (-16)) (dec (-5220908318982643) (-32)) (dec (-9665359339368661) (-49)) (dec 37027750076562617 (-66));
  mkQ (dec 773010453362737 (-15)) (dec (-3256590703364977) (-32)) (dec 1386080725152393 (-48)) (dec (-3997132991758601) (-65));
  mkQ (dec 7710605242618138 (-16)) (dec (-44558442347769265) (-33)) (dec (-29863565614083783) (-49)) (dec (-6879526208359629) (-65));
  mkQ (dec 7691033376455796 (-16)) (dec 51546455184564817 (-33)) (dec 2614282955352429 (-48)) (dec (-16199023632773295) (-65));
  mkQ (dec 7671389119358204 (-16)) (dec (-18885903683750782) (-33)) (dec (-13659359331495433) (-49)) (dec (-22538834962921967) (-66));
  mkQ (dec 765167265622459 (-15)) (dec (-327072256125346) (-31)) (dec 11177117747079528 (-49)) (dec (-3700518228017568) (-65));
  mkQ (dec 7631884172633813 (-16)) (dec 2631474841675075 (-33)) (dec 1404803906309591 (-49)) (dec 8960188662663182 (-67));
  mkQ (dec 7612023854842618 (-16)) (dec 3531551088169055 (-32)) (dec 12833566381864359 (-49)) (dec (-8483550626500987) (-65));
  mkQ (dec 7592091889783881 (-16)) (dec (-3855884217552312) (-32)) (dec 2972024120833276 (-49)) (dec (-12521388928220154) (-66));
  mkQ (dec 7572088465064846 (-16)) (dec (-19909098777335502) (-33)) (dec 3940928326615848 (-49)) (dec 20744254207803002 (-66));
  mkQ (dec 7552013768965365 (-16)) (dec (-19402238001823017) (-33)) (dec (-37756206444727573) (-50)) (dec (-21212242308178273) (-66));
  mkQ (dec 7531867990436125 (-16)) (dec (-3793778983873654) (-32)) (dec (-6700953992023156) (-49)) (dec (-6712856211505067) (-66));
  mkQ (dec 7511651319096864 (-16)) (dec 4349976115864587 (-32)) (dec 25227718971102212 (-49)) (dec (-6596970921275714) (-65));
  mkQ (dec 7491363945234594 (-16)) (dec (-4472907844701189) (-32)) (dec (-24206025249983768) (-49)) (dec 11336681351116422 (-65));
  mkQ (dec 7471006059801801 (-16)) (dec 1187482487596543 (-32)) (dec 21992523849833518 (-50)) (dec 11025018564644497 (-66));
  mkQ (dec 745057785441466 (-15)) (dec 15078686911877863 (-33)) (dec 8089898721294247 (-49)) (dec 8267795876532348 (-65));
  mkQ (dec 7430079521351217 (-16)) (dec (-25144629669719265) (-33)) (dec 7112898951252616 (-49)) (dec 3018162907782123 (-65));
  mkQ (dec 7409511253549591 (-16)) (dec (-14708616952297345) (-33)) (dec (-4955043382714203) (-49)) (dec 31434132533735623 (-66));
  mkQ (dec 7388873244606151 (-16)) (dec 3432487480822509 (-32)) (dec (-1370663944471761) (-48)) (dec (-33520827530719466) (-67));
  mkQ (dec 7368165688773699 (-16)) (dec (-28932468101656295) (-33)) (dec (-3464988712620238) (-49)) (dec (-18484474476291473) (-66));
  mkQ (dec 7347388780959635 (-16)) (dec (-3450759597626394) (-32)) (dec (-2371800067666641) (-48)) (dec (-39696090387165364) (-66));
  mkQ (dec 7326542716724128 (-16)) (dec 1891867348157352 (-32)) (dec (-15123719544119886) (-49)) (dec (-9792215201162556) (-66));
  mkQ (dec 7305627692278276 (-16)) (dec (-2968995990447693) (-32)) (dec (-11276871244239744) (-49)) (dec (-30531520961538974) (-66));
  mkQ (dec 7284643904482252 (-16)) (dec 11924642323370718 (-35)) (dec 5900189231661101 (-51)) (dec 12178089069507088 (-68));
  mkQ (dec 726359155084346 (-15)) (dec (-3191750244346054) (-32)) (dec 770479124120394 (-48)) (dec 41455880160182123 (-66));
  mkQ (dec 7242470829514669 (-16)) (dec 29198471334403004 (-33)) (dec 23027324968739464 (-49)) (dec (-12928820533891935) (-67));
  mkQ (dec 7221281939292153 (-16)) (dec (-23871262053452047) (-33)) (dec 10636125432862273 (-49)) (dec (-44598638837802555) (-66));
  mkQ (dec 7200025079613817 (-16)) (dec (-25689658854462333) (-33)) (dec (-9149256694856793) (-49)) (dec 4440378080126777 (-65));
  mkQ (dec 7178700450557317 (-16)) (dec 27006476062511453 (-33)) (dec (-2285495658021535) (-49)) (dec 9172690389028812 (-66));
  mkQ (dec 7157308252838187 (-16)) (dec (-5158101847641026) (-32)) (dec (-13736271349300261) (-50)) (dec 8647506336626293 (-66));
  mkQ (dec 7135848687807936 (-16)) (dec (-42342504403133584) (-33)) (dec (-4269036610161727) (-49)) (dec (-26352370883066546) (-66));
  mkQ (dec 7114321957452164 (-16)) (dec 7964329861385681 (-33)) (dec 2948823951072147 (-49)) (dec 16985236437666341 (-66));
  mkQ (dec 7092728264388657 (-16)) (dec (-3759735911024573) (-32)) (dec 1061312595464512 (-49)) (dec 8946548018548639 (-66));
  mkQ (dec 7071067811865476 (-16)) (dec (-4833646656726457) (-32)) (dec 20693376543497068 (-49)) (dec 2467773495734176 (-65))].
(** src/quad/trig.rs:461-466 *)
Definition Q_FRAC_PI_1024 : Quad := mkQ (dec 30679615757712823 (-19)) (dec 1195944139792337 (-34)) (dec (-2924579892303066) (-51)) (dec 10863810750618759 (-68)).
(** src/double/trans.rs:9 and src/quad/trans.rs:9 [INV_K] *)
Definition D_INV_K : Double := mkD (dec 1953125 (-9)) f0.
Definition Q_INV_K : Quad := mkQ (dec 152587890625 (-16)) f0 f0 f0.
