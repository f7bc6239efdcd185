(* Generated by tools/gen_smeftsim.py from wilson/wcxf/converters/smeftsim.py, lines 9-5319:
   the blocks of the parameter card, and for every line its indices, the expression of its
   value and its comment.  Do not edit. *)
From Coq Require Import List String ZArith.
Import ListNotations.
Local Open Scope string_scope.
Local Open Scope Z_scope.

(* the expressions: abs(scaled_wc(k))*L**2, abs(scaled_wc(k)*L**2), angle(scaled_wc(k)),
   scaled_wc(k)*L**2 and L, with L = lambda_smeft_value *)
Inductive vexpr := VAbs (k : string) | VAbsOut (k : string) | VAng (k : string) | VVal (k : string) | VLambda.
Definition cardline : Type := list Z * vexpr * string.

(* initialize_smeftsim_card('A') *)
Definition init_A : list string :=
  ["FRBlock"; "FRBlock10"; "FRBlock11"; "FRBlock12"; "FRBlock13"; "FRBlock14"; "FRBlock15"; "FRBlock16"; "FRBlock17"; "FRBlock18"; "FRBlock19"; "FRBlock2"; "FRBlock20"; "FRBlock21"; "FRBlock25"; "FRBlock26"; "FRBlock27"; "FRBlock28"; "FRBlock29"; "FRBlock3"; "FRBlock30"; "FRBlock31"; "FRBlock32"; "FRBlock4"; "FRBlock48"; "FRBlock5"; "FRBlock6"; "FRBlock7"; "FRBlock70"; "FRBlock71"; "FRBlock72"; "FRBlock73"; "FRBlock74"; "FRBlock8"; "FRBlock9"].
(* smeftsim.py:104 *)
Definition A_FRBlock : list cardline :=
  [([1], VAng "phil1_12", "# cHl1Ph12");
   ([2], VAng "phil1_13", "# cHl1Ph13");
   ([3], VAng "phil1_23", "# cHl1Ph23");
   ([4], VAng "phil3_12", "# cHl3Ph12");
   ([5], VAng "phil3_13", "# cHl3Ph13");
   ([6], VAng "phil3_23", "# cHl3Ph23");
   ([7], VAng "phie_12", "# cHePh12");
   ([8], VAng "phie_13", "# cHePh13");
   ([9], VAng "phie_23", "# cHePh23");
   ([10], VAng "phiq1_12", "# cHq1Ph12");
   ([11], VAng "phiq1_13", "# cHq1Ph13");
   ([12], VAng "phiq1_23", "# cHq1Ph23");
   ([13], VAng "phiq3_12", "# cHq3Ph12");
   ([14], VAng "phiq3_13", "# cHq3Ph13");
   ([15], VAng "phiq3_23", "# cHq3Ph23");
   ([16], VAng "phiu_12", "# cHuPh12");
   ([17], VAng "phiu_13", "# cHuPh13");
   ([18], VAng "phiu_23", "# cHuPh23");
   ([19], VAng "phid_12", "# cHdPh12");
   ([20], VAng "phid_13", "# cHdPh13");
   ([21], VAng "phid_23", "# cHdPh23");
   ([22], VAng "ll_1112", "# cllPh1112");
   ([23], VAng "ll_1113", "# cllPh1113");
   ([24], VAng "ll_1123", "# cllPh1123");
   ([25], VAng "ll_1212", "# cllPh1212");
   ([26], VAng "ll_1213", "# cllPh1213");
   ([27], VAng "ll_1231", "# cllPh1231");
   ([28], VAng "ll_1222", "# cllPh1222");
   ([29], VAng "ll_1223", "# cllPh1223");
   ([30], VAng "ll_1232", "# cllPh1232");
   ([31], VAng "ll_1233", "# cllPh1233");
   ([32], VAng "ll_1313", "# cllPh1313");
   ([33], VAng "ll_1322", "# cllPh1322");
   ([34], VAng "ll_1332", "# cllPh1332");
   ([35], VAng "ll_1323", "# cllPh1323");
   ([36], VAng "ll_1333", "# cllPh1333");
   ([37], VAng "ll_2223", "# cllPh2223");
   ([38], VAng "ll_2323", "# cllPh2323");
   ([39], VAng "ll_2333", "# cllPh3323");
   ([40], VAng "qq1_1112", "# cqq1Ph1112");
   ([41], VAng "qq1_1113", "# cqq1Ph1113");
   ([42], VAng "qq1_1123", "# cqq1Ph1123");
   ([43], VAng "qq1_1212", "# cqq1Ph1212");
   ([44], VAng "qq1_1213", "# cqq1Ph1213");
   ([45], VAng "qq1_1231", "# cqq1Ph1231");
   ([46], VAng "qq1_1222", "# cqq1Ph1222");
   ([47], VAng "qq1_1223", "# cqq1Ph1223");
   ([48], VAng "qq1_1232", "# cqq1Ph1232");
   ([49], VAng "qq1_1233", "# cqq1Ph1233");
   ([50], VAng "qq1_1313", "# cqq1Ph1313");
   ([51], VAng "qq1_1322", "# cqq1Ph1322");
   ([52], VAng "qq1_1332", "# cqq1Ph1332");
   ([53], VAng "qq1_1323", "# cqq1Ph1323");
   ([54], VAng "qq1_1333", "# cqq1Ph1333");
   ([55], VAng "qq1_2223", "# cqq1Ph2223");
   ([56], VAng "qq1_2323", "# cqq1Ph2323");
   ([57], VAng "qq1_2333", "# cqq1Ph3323");
   ([58], VAng "qq3_1112", "# cqq3Ph1112");
   ([59], VAng "qq3_1113", "# cqq3Ph1113");
   ([60], VAng "qq3_1123", "# cqq3Ph1123");
   ([61], VAng "qq3_1212", "# cqq3Ph1212");
   ([62], VAng "qq3_1213", "# cqq3Ph1213");
   ([63], VAng "qq3_1231", "# cqq3Ph1231");
   ([64], VAng "qq3_1222", "# cqq3Ph1222");
   ([65], VAng "qq3_1223", "# cqq3Ph1223");
   ([66], VAng "qq3_1232", "# cqq3Ph1232");
   ([67], VAng "qq3_1233", "# cqq3Ph1233");
   ([68], VAng "qq3_1313", "# cqq3Ph1313");
   ([69], VAng "qq3_1322", "# cqq3Ph1322");
   ([70], VAng "qq3_1332", "# cqq3Ph1332");
   ([71], VAng "qq3_1323", "# cqq3Ph1323");
   ([72], VAng "qq3_1333", "# cqq3Ph1333");
   ([73], VAng "qq3_2223", "# cqq3Ph2223");
   ([74], VAng "qq3_2323", "# cqq3Ph2323");
   ([75], VAng "qq3_2333", "# cqq3Ph3323");
   ([76], VAng "uu_1112", "# cuuPh1112");
   ([77], VAng "uu_1113", "# cuuPh1113");
   ([78], VAng "uu_1123", "# cuuPh1123");
   ([79], VAng "uu_1212", "# cuuPh1212");
   ([80], VAng "uu_1213", "# cuuPh1213");
   ([81], VAng "uu_1231", "# cuuPh1231");
   ([82], VAng "uu_1222", "# cuuPh1222");
   ([83], VAng "uu_1223", "# cuuPh1223");
   ([84], VAng "uu_1232", "# cuuPh1232");
   ([85], VAng "uu_1233", "# cuuPh1233");
   ([86], VAng "uu_1313", "# cuuPh1313");
   ([87], VAng "uu_1322", "# cuuPh1322");
   ([88], VAng "uu_1332", "# cuuPh1332");
   ([89], VAng "uu_1323", "# cuuPh1323");
   ([90], VAng "uu_1333", "# cuuPh1333");
   ([91], VAng "uu_2223", "# cuuPh2223");
   ([92], VAng "uu_2323", "# cuuPh2323");
   ([93], VAng "uu_2333", "# cuuPh3323");
   ([94], VAng "dd_1112", "# cddPh1112");
   ([95], VAng "dd_1113", "# cddPh1113");
   ([96], VAng "dd_1123", "# cddPh1123");
   ([97], VAng "dd_1212", "# cddPh1212");
   ([98], VAng "dd_1213", "# cddPh1213");
   ([99], VAng "dd_1231", "# cddPh1231");
   ([100], VAng "dd_1222", "# cddPh1222");
   ([101], VAng "dd_1223", "# cddPh1223");
   ([102], VAng "dd_1232", "# cddPh1232");
   ([103], VAng "dd_1233", "# cddPh1233");
   ([104], VAng "dd_1313", "# cddPh1313");
   ([105], VAng "dd_1322", "# cddPh1322");
   ([106], VAng "dd_1332", "# cddPh1332");
   ([107], VAng "dd_1323", "# cddPh1323");
   ([108], VAng "dd_1333", "# cddPh1333");
   ([109], VAng "dd_2223", "# cddPh2223");
   ([110], VAng "dd_2323", "# cddPh2323");
   ([111], VAng "dd_2333", "# cddPh3323");
   ([112], VAng "ee_1112", "# ceePh1112");
   ([113], VAng "ee_1113", "# ceePh1113");
   ([114], VAng "ee_1123", "# ceePh1123");
   ([115], VAng "ee_1212", "# ceePh1212");
   ([116], VAng "ee_1213", "# ceePh1213");
   ([117], VAng "ee_1222", "# ceePh1222");
   ([118], VAng "ee_1232", "# ceePh1232");
   ([119], VAng "ee_1233", "# ceePh1233");
   ([120], VAng "ee_1313", "# ceePh1313");
   ([121], VAng "ee_1223", "# ceePh1322");
   ([122], VAng "ee_1323", "# ceePh1323");
   ([123], VAng "ee_1333", "# ceePh1333");
   ([124], VAng "ee_2223", "# ceePh2223");
   ([125], VAng "ee_2323", "# ceePh2323");
   ([126], VAng "ee_2333", "# ceePh3323");
   ([127], VAng "lq1_1112", "# clq1Ph1112");
   ([128], VAng "lq1_1113", "# clq1Ph1113");
   ([129], VAng "lq1_1123", "# clq1Ph1123");
   ([130], VAng "lq1_1211", "# clq1Ph1211");
   ([131], VAng "lq1_1212", "# clq1Ph1212");
   ([132], VAng "lq1_1221", "# clq1Ph1221");
   ([133], VAng "lq1_1213", "# clq1Ph1213");
   ([134], VAng "lq1_1231", "# clq1Ph1231");
   ([135], VAng "lq1_1222", "# clq1Ph1222");
   ([136], VAng "lq1_1223", "# clq1Ph1223");
   ([137], VAng "lq1_1232", "# clq1Ph1232");
   ([138], VAng "lq1_1233", "# clq1Ph1233");
   ([139], VAng "lq1_1311", "# clq1Ph1311");
   ([140], VAng "lq1_1312", "# clq1Ph1312");
   ([141], VAng "lq1_1313", "# clq1Ph1313");
   ([142], VAng "lq1_1331", "# clq1Ph1331");
   ([143], VAng "lq1_1321", "# clq1Ph1321");
   ([144], VAng "lq1_1322", "# clq1Ph1322");
   ([145], VAng "lq1_1332", "# clq1Ph1332");
   ([146], VAng "lq1_1323", "# clq1Ph1323");
   ([147], VAng "lq1_1333", "# clq1Ph1333");
   ([148], VAng "lq1_2212", "# clq1Ph2212");
   ([149], VAng "lq1_2213", "# clq1Ph2213");
   ([150], VAng "lq1_2223", "# clq1Ph2223");
   ([151], VAng "lq1_2311", "# clq1Ph2311");
   ([152], VAng "lq1_2312", "# clq1Ph2312");
   ([153], VAng "lq1_2313", "# clq1Ph2313");
   ([154], VAng "lq1_2321", "# clq1Ph2321");
   ([155], VAng "lq1_2322", "# clq1Ph2322");
   ([156], VAng "lq1_2323", "# clq1Ph2323");
   ([157], VAng "lq1_2331", "# clq1Ph2331");
   ([158], VAng "lq1_2332", "# clq1Ph2332");
   ([159], VAng "lq1_2333", "# clq1Ph2333");
   ([160], VAng "lq1_3312", "# clq1Ph3312");
   ([161], VAng "lq1_3313", "# clq1Ph3313");
   ([162], VAng "lq1_3323", "# clq1Ph3323");
   ([163], VAng "lq3_1112", "# clq3Ph1112");
   ([164], VAng "lq3_1113", "# clq3Ph1113");
   ([165], VAng "lq3_1123", "# clq3Ph1123");
   ([166], VAng "lq3_1211", "# clq3Ph1211");
   ([167], VAng "lq3_1212", "# clq3Ph1212");
   ([168], VAng "lq3_1221", "# clq3Ph1221");
   ([169], VAng "lq3_1213", "# clq3Ph1213");
   ([170], VAng "lq3_1231", "# clq3Ph1231");
   ([171], VAng "lq3_1222", "# clq3Ph1222");
   ([172], VAng "lq3_1223", "# clq3Ph1223");
   ([173], VAng "lq3_1232", "# clq3Ph1232");
   ([174], VAng "lq3_1233", "# clq3Ph1233");
   ([175], VAng "lq3_1311", "# clq3Ph1311");
   ([176], VAng "lq3_1312", "# clq3Ph1312");
   ([177], VAng "lq3_1313", "# clq3Ph1313");
   ([178], VAng "lq3_1331", "# clq3Ph1331");
   ([179], VAng "lq3_1321", "# clq3Ph1321");
   ([180], VAng "lq3_1322", "# clq3Ph1322");
   ([181], VAng "lq3_1332", "# clq3Ph1332");
   ([182], VAng "lq3_1323", "# clq3Ph1323");
   ([183], VAng "lq3_1333", "# clq3Ph1333");
   ([184], VAng "lq3_2212", "# clq3Ph2212");
   ([185], VAng "lq3_2213", "# clq3Ph2213");
   ([186], VAng "lq3_2223", "# clq3Ph2223");
   ([187], VAng "lq3_2311", "# clq3Ph2311");
   ([188], VAng "lq3_2312", "# clq3Ph2312");
   ([189], VAng "lq3_2313", "# clq3Ph2313");
   ([190], VAng "lq3_2321", "# clq3Ph2321");
   ([191], VAng "lq3_2322", "# clq3Ph2322");
   ([192], VAng "lq3_2323", "# clq3Ph2323");
   ([193], VAng "lq3_2331", "# clq3Ph2331");
   ([194], VAng "lq3_2332", "# clq3Ph2332");
   ([195], VAng "lq3_2333", "# clq3Ph2333");
   ([196], VAng "lq3_3312", "# clq3Ph3312");
   ([197], VAng "lq3_3313", "# clq3Ph3313");
   ([198], VAng "lq3_3323", "# clq3Ph3323");
   ([199], VAng "eu_1112", "# ceuPh1112");
   ([200], VAng "eu_1113", "# ceuPh1113");
   ([201], VAng "eu_1123", "# ceuPh1123");
   ([202], VAng "eu_1211", "# ceuPh1211");
   ([203], VAng "eu_1212", "# ceuPh1212");
   ([204], VAng "eu_1221", "# ceuPh1221");
   ([205], VAng "eu_1213", "# ceuPh1213");
   ([206], VAng "eu_1231", "# ceuPh1231");
   ([207], VAng "eu_1222", "# ceuPh1222");
   ([208], VAng "eu_1223", "# ceuPh1223");
   ([209], VAng "eu_1232", "# ceuPh1232");
   ([210], VAng "eu_1233", "# ceuPh1233");
   ([211], VAng "eu_1311", "# ceuPh1311");
   ([212], VAng "eu_1312", "# ceuPh1312");
   ([213], VAng "eu_1313", "# ceuPh1313");
   ([214], VAng "eu_1331", "# ceuPh1331");
   ([215], VAng "eu_1321", "# ceuPh1321");
   ([216], VAng "eu_1322", "# ceuPh1322");
   ([217], VAng "eu_1332", "# ceuPh1332");
   ([218], VAng "eu_1323", "# ceuPh1323");
   ([219], VAng "eu_1333", "# ceuPh1333");
   ([220], VAng "eu_2212", "# ceuPh2212");
   ([221], VAng "eu_2213", "# ceuPh2213");
   ([222], VAng "eu_2223", "# ceuPh2223");
   ([223], VAng "eu_2311", "# ceuPh2311");
   ([224], VAng "eu_2312", "# ceuPh2312");
   ([225], VAng "eu_2313", "# ceuPh2313");
   ([226], VAng "eu_2321", "# ceuPh2321");
   ([227], VAng "eu_2322", "# ceuPh2322");
   ([228], VAng "eu_2323", "# ceuPh2323");
   ([229], VAng "eu_2331", "# ceuPh2331");
   ([230], VAng "eu_2332", "# ceuPh2332");
   ([231], VAng "eu_2333", "# ceuPh2333");
   ([232], VAng "eu_3312", "# ceuPh3312");
   ([233], VAng "eu_3313", "# ceuPh3313");
   ([234], VAng "eu_3323", "# ceuPh3323");
   ([235], VAng "ed_1112", "# cedPh1112");
   ([236], VAng "ed_1113", "# cedPh1113");
   ([237], VAng "ed_1123", "# cedPh1123");
   ([238], VAng "ed_1211", "# cedPh1211");
   ([239], VAng "ed_1212", "# cedPh1212");
   ([240], VAng "ed_1221", "# cedPh1221");
   ([241], VAng "ed_1213", "# cedPh1213");
   ([242], VAng "ed_1231", "# cedPh1231");
   ([243], VAng "ed_1222", "# cedPh1222");
   ([244], VAng "ed_1223", "# cedPh1223");
   ([245], VAng "ed_1232", "# cedPh1232");
   ([246], VAng "ed_1233", "# cedPh1233");
   ([247], VAng "ed_1311", "# cedPh1311");
   ([248], VAng "ed_1312", "# cedPh1312");
   ([249], VAng "ed_1313", "# cedPh1313");
   ([250], VAng "ed_1331", "# cedPh1331");
   ([251], VAng "ed_1321", "# cedPh1321");
   ([252], VAng "ed_1322", "# cedPh1322");
   ([253], VAng "ed_1332", "# cedPh1332");
   ([254], VAng "ed_1323", "# cedPh1323");
   ([255], VAng "ed_1333", "# cedPh1333");
   ([256], VAng "ed_2212", "# cedPh2212");
   ([257], VAng "ed_2213", "# cedPh2213");
   ([258], VAng "ed_2223", "# cedPh2223");
   ([259], VAng "ed_2311", "# cedPh2311");
   ([260], VAng "ed_2312", "# cedPh2312");
   ([261], VAng "ed_2313", "# cedPh2313");
   ([262], VAng "ed_2321", "# cedPh2321");
   ([263], VAng "ed_2322", "# cedPh2322");
   ([264], VAng "ed_2323", "# cedPh2323");
   ([265], VAng "ed_2331", "# cedPh2331");
   ([266], VAng "ed_2332", "# cedPh2332");
   ([267], VAng "ed_2333", "# cedPh2333");
   ([268], VAng "ed_3312", "# cedPh3312");
   ([269], VAng "ed_3313", "# cedPh3313");
   ([270], VAng "ed_3323", "# cedPh3323");
   ([271], VAng "ud1_1112", "# cud1Ph1112");
   ([272], VAng "ud1_1113", "# cud1Ph1113");
   ([273], VAng "ud1_1123", "# cud1Ph1123");
   ([274], VAng "ud1_1211", "# cud1Ph1211");
   ([275], VAng "ud1_1212", "# cud1Ph1212");
   ([276], VAng "ud1_1221", "# cud1Ph1221");
   ([277], VAng "ud1_1213", "# cud1Ph1213");
   ([278], VAng "ud1_1231", "# cud1Ph1231");
   ([279], VAng "ud1_1222", "# cud1Ph1222");
   ([280], VAng "ud1_1223", "# cud1Ph1223");
   ([281], VAng "ud1_1232", "# cud1Ph1232");
   ([282], VAng "ud1_1233", "# cud1Ph1233");
   ([283], VAng "ud1_1311", "# cud1Ph1311");
   ([284], VAng "ud1_1312", "# cud1Ph1312");
   ([285], VAng "ud1_1313", "# cud1Ph1313");
   ([286], VAng "ud1_1331", "# cud1Ph1331");
   ([287], VAng "ud1_1321", "# cud1Ph1321");
   ([288], VAng "ud1_1322", "# cud1Ph1322");
   ([289], VAng "ud1_1332", "# cud1Ph1332");
   ([290], VAng "ud1_1323", "# cud1Ph1323");
   ([291], VAng "ud1_1333", "# cud1Ph1333");
   ([292], VAng "ud1_2212", "# cud1Ph2212");
   ([293], VAng "ud1_2213", "# cud1Ph2213");
   ([294], VAng "ud1_2223", "# cud1Ph2223");
   ([295], VAng "ud1_2311", "# cud1Ph2311");
   ([296], VAng "ud1_2312", "# cud1Ph2312");
   ([297], VAng "ud1_2313", "# cud1Ph2313");
   ([298], VAng "ud1_2321", "# cud1Ph2321");
   ([299], VAng "ud1_2322", "# cud1Ph2322");
   ([300], VAng "ud1_2323", "# cud1Ph2323");
   ([301], VAng "ud1_2331", "# cud1Ph2331");
   ([302], VAng "ud1_2332", "# cud1Ph2332");
   ([303], VAng "ud1_2333", "# cud1Ph2333");
   ([304], VAng "ud1_3312", "# cud1Ph3312");
   ([305], VAng "ud1_3313", "# cud1Ph3313");
   ([306], VAng "ud1_3323", "# cud1Ph3323");
   ([307], VAng "ud8_1112", "# cud8Ph1112");
   ([308], VAng "ud8_1113", "# cud8Ph1113");
   ([309], VAng "ud8_1123", "# cud8Ph1123");
   ([310], VAng "ud8_1211", "# cud8Ph1211");
   ([311], VAng "ud8_1212", "# cud8Ph1212");
   ([312], VAng "ud8_1221", "# cud8Ph1221");
   ([313], VAng "ud8_1213", "# cud8Ph1213");
   ([314], VAng "ud8_1231", "# cud8Ph1231");
   ([315], VAng "ud8_1222", "# cud8Ph1222");
   ([316], VAng "ud8_1223", "# cud8Ph1223");
   ([317], VAng "ud8_1232", "# cud8Ph1232");
   ([318], VAng "ud8_1233", "# cud8Ph1233");
   ([319], VAng "ud8_1311", "# cud8Ph1311");
   ([320], VAng "ud8_1312", "# cud8Ph1312");
   ([321], VAng "ud8_1313", "# cud8Ph1313");
   ([322], VAng "ud8_1331", "# cud8Ph1331");
   ([323], VAng "ud8_1321", "# cud8Ph1321");
   ([324], VAng "ud8_1322", "# cud8Ph1322");
   ([325], VAng "ud8_1332", "# cud8Ph1332");
   ([326], VAng "ud8_1323", "# cud8Ph1323");
   ([327], VAng "ud8_1333", "# cud8Ph1333");
   ([328], VAng "ud8_2212", "# cud8Ph2212");
   ([329], VAng "ud8_2213", "# cud8Ph2213");
   ([330], VAng "ud8_2223", "# cud8Ph2223");
   ([331], VAng "ud8_2311", "# cud8Ph2311");
   ([332], VAng "ud8_2312", "# cud8Ph2312");
   ([333], VAng "ud8_2313", "# cud8Ph2313");
   ([334], VAng "ud8_2321", "# cud8Ph2321");
   ([335], VAng "ud8_2322", "# cud8Ph2322");
   ([336], VAng "ud8_2323", "# cud8Ph2323");
   ([337], VAng "ud8_2331", "# cud8Ph2331");
   ([338], VAng "ud8_2332", "# cud8Ph2332");
   ([339], VAng "ud8_2333", "# cud8Ph2333");
   ([340], VAng "ud8_3312", "# cud8Ph3312");
   ([341], VAng "ud8_3313", "# cud8Ph3313");
   ([342], VAng "ud8_3323", "# cud8Ph3323");
   ([343], VAng "le_1112", "# clePh1112");
   ([344], VAng "le_1113", "# clePh1113");
   ([345], VAng "le_1123", "# clePh1123");
   ([346], VAng "le_1211", "# clePh1211");
   ([347], VAng "le_1212", "# clePh1212");
   ([348], VAng "le_1221", "# clePh1221");
   ([349], VAng "le_1213", "# clePh1213");
   ([350], VAng "le_1231", "# clePh1231");
   ([351], VAng "le_1222", "# clePh1222");
   ([352], VAng "le_1223", "# clePh1223");
   ([353], VAng "le_1232", "# clePh1232");
   ([354], VAng "le_1233", "# clePh1233");
   ([355], VAng "le_1311", "# clePh1311");
   ([356], VAng "le_1312", "# clePh1312");
   ([357], VAng "le_1313", "# clePh1313");
   ([358], VAng "le_1331", "# clePh1331");
   ([359], VAng "le_1321", "# clePh1321");
   ([360], VAng "le_1322", "# clePh1322");
   ([361], VAng "le_1332", "# clePh1332");
   ([362], VAng "le_1323", "# clePh1323");
   ([363], VAng "le_1333", "# clePh1333");
   ([364], VAng "le_2212", "# clePh2212");
   ([365], VAng "le_2213", "# clePh2213");
   ([366], VAng "le_2223", "# clePh2223");
   ([367], VAng "le_2311", "# clePh2311");
   ([368], VAng "le_2312", "# clePh2312");
   ([369], VAng "le_2313", "# clePh2313");
   ([370], VAng "le_2321", "# clePh2321");
   ([371], VAng "le_2322", "# clePh2322");
   ([372], VAng "le_2323", "# clePh2323");
   ([373], VAng "le_2331", "# clePh2331");
   ([374], VAng "le_2332", "# clePh2332");
   ([375], VAng "le_2333", "# clePh2333");
   ([376], VAng "le_3312", "# clePh3312");
   ([377], VAng "le_3313", "# clePh3313");
   ([378], VAng "le_3323", "# clePh3323");
   ([379], VAng "lu_1112", "# cluPh1112");
   ([380], VAng "lu_1113", "# cluPh1113");
   ([381], VAng "lu_1123", "# cluPh1123");
   ([382], VAng "lu_1211", "# cluPh1211");
   ([383], VAng "lu_1212", "# cluPh1212");
   ([384], VAng "lu_1221", "# cluPh1221");
   ([385], VAng "lu_1213", "# cluPh1213");
   ([386], VAng "lu_1231", "# cluPh1231");
   ([387], VAng "lu_1222", "# cluPh1222");
   ([388], VAng "lu_1223", "# cluPh1223");
   ([389], VAng "lu_1232", "# cluPh1232");
   ([390], VAng "lu_1233", "# cluPh1233");
   ([391], VAng "lu_1311", "# cluPh1311");
   ([392], VAng "lu_1312", "# cluPh1312");
   ([393], VAng "lu_1313", "# cluPh1313");
   ([394], VAng "lu_1331", "# cluPh1331");
   ([395], VAng "lu_1321", "# cluPh1321");
   ([396], VAng "lu_1322", "# cluPh1322");
   ([397], VAng "lu_1332", "# cluPh1332");
   ([398], VAng "lu_1323", "# cluPh1323");
   ([399], VAng "lu_1333", "# cluPh1333");
   ([400], VAng "lu_2212", "# cluPh2212");
   ([401], VAng "lu_2213", "# cluPh2213");
   ([402], VAng "lu_2223", "# cluPh2223");
   ([403], VAng "lu_2311", "# cluPh2311");
   ([404], VAng "lu_2312", "# cluPh2312");
   ([405], VAng "lu_2313", "# cluPh2313");
   ([406], VAng "lu_2321", "# cluPh2321");
   ([407], VAng "lu_2322", "# cluPh2322");
   ([408], VAng "lu_2323", "# cluPh2323");
   ([409], VAng "lu_2331", "# cluPh2331");
   ([410], VAng "lu_2332", "# cluPh2332");
   ([411], VAng "lu_2333", "# cluPh2333");
   ([412], VAng "lu_3312", "# cluPh3312");
   ([413], VAng "lu_3313", "# cluPh3313");
   ([414], VAng "lu_3323", "# cluPh3323");
   ([415], VAng "ld_1112", "# cldPh1112");
   ([416], VAng "ld_1113", "# cldPh1113");
   ([417], VAng "ld_1123", "# cldPh1123");
   ([418], VAng "ld_1211", "# cldPh1211");
   ([419], VAng "ld_1212", "# cldPh1212");
   ([420], VAng "ld_1221", "# cldPh1221");
   ([421], VAng "ld_1213", "# cldPh1213");
   ([422], VAng "ld_1231", "# cldPh1231");
   ([423], VAng "ld_1222", "# cldPh1222");
   ([424], VAng "ld_1223", "# cldPh1223");
   ([425], VAng "ld_1232", "# cldPh1232");
   ([426], VAng "ld_1233", "# cldPh1233");
   ([427], VAng "ld_1311", "# cldPh1311");
   ([428], VAng "ld_1312", "# cldPh1312");
   ([429], VAng "ld_1313", "# cldPh1313");
   ([430], VAng "ld_1331", "# cldPh1331");
   ([431], VAng "ld_1321", "# cldPh1321");
   ([432], VAng "ld_1322", "# cldPh1322");
   ([433], VAng "ld_1332", "# cldPh1332");
   ([434], VAng "ld_1323", "# cldPh1323");
   ([435], VAng "ld_1333", "# cldPh1333");
   ([436], VAng "ld_2212", "# cldPh2212");
   ([437], VAng "ld_2213", "# cldPh2213");
   ([438], VAng "ld_2223", "# cldPh2223");
   ([439], VAng "ld_2311", "# cldPh2311");
   ([440], VAng "ld_2312", "# cldPh2312");
   ([441], VAng "ld_2313", "# cldPh2313");
   ([442], VAng "ld_2321", "# cldPh2321");
   ([443], VAng "ld_2322", "# cldPh2322");
   ([444], VAng "ld_2323", "# cldPh2323");
   ([445], VAng "ld_2331", "# cldPh2331");
   ([446], VAng "ld_2332", "# cldPh2332");
   ([447], VAng "ld_2333", "# cldPh2333");
   ([448], VAng "ld_3312", "# cldPh3312");
   ([449], VAng "ld_3313", "# cldPh3313");
   ([450], VAng "ld_3323", "# cldPh3323");
   ([451], VAng "qe_1112", "# cqePh1112");
   ([452], VAng "qe_1113", "# cqePh1113");
   ([453], VAng "qe_1123", "# cqePh1123");
   ([454], VAng "qe_1211", "# cqePh1211");
   ([455], VAng "qe_1212", "# cqePh1212");
   ([456], VAng "qe_1221", "# cqePh1221");
   ([457], VAng "qe_1213", "# cqePh1213");
   ([458], VAng "qe_1231", "# cqePh1231");
   ([459], VAng "qe_1222", "# cqePh1222");
   ([460], VAng "qe_1223", "# cqePh1223");
   ([461], VAng "qe_1232", "# cqePh1232");
   ([462], VAng "qe_1233", "# cqePh1233");
   ([463], VAng "qe_1311", "# cqePh1311");
   ([464], VAng "qe_1312", "# cqePh1312");
   ([465], VAng "qe_1313", "# cqePh1313");
   ([466], VAng "qe_1331", "# cqePh1331");
   ([467], VAng "qe_1321", "# cqePh1321");
   ([468], VAng "qe_1322", "# cqePh1322");
   ([469], VAng "qe_1332", "# cqePh1332");
   ([470], VAng "qe_1323", "# cqePh1323");
   ([471], VAng "qe_1333", "# cqePh1333");
   ([472], VAng "qe_2212", "# cqePh2212");
   ([473], VAng "qe_2213", "# cqePh2213");
   ([474], VAng "qe_2223", "# cqePh2223");
   ([475], VAng "qe_2311", "# cqePh2311");
   ([476], VAng "qe_2312", "# cqePh2312");
   ([477], VAng "qe_2313", "# cqePh2313");
   ([478], VAng "qe_2321", "# cqePh2321");
   ([479], VAng "qe_2322", "# cqePh2322");
   ([480], VAng "qe_2323", "# cqePh2323");
   ([481], VAng "qe_2331", "# cqePh2331");
   ([482], VAng "qe_2332", "# cqePh2332");
   ([483], VAng "qe_2333", "# cqePh2333");
   ([484], VAng "qe_3312", "# cqePh3312");
   ([485], VAng "qe_3313", "# cqePh3313");
   ([486], VAng "qe_3323", "# cqePh3323");
   ([487], VAng "qu1_1112", "# cqu1Ph1112");
   ([488], VAng "qu1_1113", "# cqu1Ph1113");
   ([489], VAng "qu1_1123", "# cqu1Ph1123");
   ([490], VAng "qu1_1211", "# cqu1Ph1211");
   ([491], VAng "qu1_1212", "# cqu1Ph1212");
   ([492], VAng "qu1_1221", "# cqu1Ph1221");
   ([493], VAng "qu1_1213", "# cqu1Ph1213");
   ([494], VAng "qu1_1231", "# cqu1Ph1231");
   ([495], VAng "qu1_1222", "# cqu1Ph1222");
   ([496], VAng "qu1_1223", "# cqu1Ph1223");
   ([497], VAng "qu1_1232", "# cqu1Ph1232");
   ([498], VAng "qu1_1233", "# cqu1Ph1233");
   ([499], VAng "qu1_1311", "# cqu1Ph1311");
   ([500], VAng "qu1_1312", "# cqu1Ph1312");
   ([501], VAng "qu1_1313", "# cqu1Ph1313");
   ([502], VAng "qu1_1331", "# cqu1Ph1331");
   ([503], VAng "qu1_1321", "# cqu1Ph1321");
   ([504], VAng "qu1_1322", "# cqu1Ph1322");
   ([505], VAng "qu1_1332", "# cqu1Ph1332");
   ([506], VAng "qu1_1323", "# cqu1Ph1323");
   ([507], VAng "qu1_1333", "# cqu1Ph1333");
   ([508], VAng "qu1_2212", "# cqu1Ph2212");
   ([509], VAng "qu1_2213", "# cqu1Ph2213");
   ([510], VAng "qu1_2223", "# cqu1Ph2223");
   ([511], VAng "qu1_2311", "# cqu1Ph2311");
   ([512], VAng "qu1_2312", "# cqu1Ph2312");
   ([513], VAng "qu1_2313", "# cqu1Ph2313");
   ([514], VAng "qu1_2321", "# cqu1Ph2321");
   ([515], VAng "qu1_2322", "# cqu1Ph2322");
   ([516], VAng "qu1_2323", "# cqu1Ph2323");
   ([517], VAng "qu1_2331", "# cqu1Ph2331");
   ([518], VAng "qu1_2332", "# cqu1Ph2332");
   ([519], VAng "qu1_2333", "# cqu1Ph2333");
   ([520], VAng "qu1_3312", "# cqu1Ph3312");
   ([521], VAng "qu1_3313", "# cqu1Ph3313");
   ([522], VAng "qu1_3323", "# cqu1Ph3323");
   ([523], VAng "qd1_1112", "# cqd1Ph1112");
   ([524], VAng "qd1_1113", "# cqd1Ph1113");
   ([525], VAng "qd1_1123", "# cqd1Ph1123");
   ([526], VAng "qd1_1211", "# cqd1Ph1211");
   ([527], VAng "qd1_1212", "# cqd1Ph1212");
   ([528], VAng "qd1_1221", "# cqd1Ph1221");
   ([529], VAng "qd1_1213", "# cqd1Ph1213");
   ([530], VAng "qd1_1231", "# cqd1Ph1231");
   ([531], VAng "qd1_1222", "# cqd1Ph1222");
   ([532], VAng "qd1_1223", "# cqd1Ph1223");
   ([533], VAng "qd1_1232", "# cqd1Ph1232");
   ([534], VAng "qd1_1233", "# cqd1Ph1233");
   ([535], VAng "qd1_1311", "# cqd1Ph1311");
   ([536], VAng "qd1_1312", "# cqd1Ph1312");
   ([537], VAng "qd1_1313", "# cqd1Ph1313");
   ([538], VAng "qd1_1331", "# cqd1Ph1331");
   ([539], VAng "qd1_1321", "# cqd1Ph1321");
   ([540], VAng "qd1_1322", "# cqd1Ph1322");
   ([541], VAng "qd1_1332", "# cqd1Ph1332");
   ([542], VAng "qd1_1323", "# cqd1Ph1323");
   ([543], VAng "qd1_1333", "# cqd1Ph1333");
   ([544], VAng "qd1_2212", "# cqd1Ph2212");
   ([545], VAng "qd1_2213", "# cqd1Ph2213");
   ([546], VAng "qd1_2223", "# cqd1Ph2223");
   ([547], VAng "qd1_2311", "# cqd1Ph2311");
   ([548], VAng "qd1_2312", "# cqd1Ph2312");
   ([549], VAng "qd1_2313", "# cqd1Ph2313");
   ([550], VAng "qd1_2321", "# cqd1Ph2321");
   ([551], VAng "qd1_2322", "# cqd1Ph2322");
   ([552], VAng "qd1_2323", "# cqd1Ph2323");
   ([553], VAng "qd1_2331", "# cqd1Ph2331");
   ([554], VAng "qd1_2332", "# cqd1Ph2332");
   ([555], VAng "qd1_2333", "# cqd1Ph2333");
   ([556], VAng "qd1_3312", "# cqd1Ph3312");
   ([557], VAng "qd1_3313", "# cqd1Ph3313");
   ([558], VAng "qd1_3323", "# cqd1Ph3323");
   ([559], VAng "qu8_1112", "# cqu8Ph1112");
   ([560], VAng "qu8_1113", "# cqu8Ph1113");
   ([561], VAng "qu8_1123", "# cqu8Ph1123");
   ([562], VAng "qu8_1211", "# cqu8Ph1211");
   ([563], VAng "qu8_1212", "# cqu8Ph1212");
   ([564], VAng "qu8_1221", "# cqu8Ph1221");
   ([565], VAng "qu8_1213", "# cqu8Ph1213");
   ([566], VAng "qu8_1231", "# cqu8Ph1231");
   ([567], VAng "qu8_1222", "# cqu8Ph1222");
   ([568], VAng "qu8_1223", "# cqu8Ph1223");
   ([569], VAng "qu8_1232", "# cqu8Ph1232");
   ([570], VAng "qu8_1233", "# cqu8Ph1233");
   ([571], VAng "qu8_1311", "# cqu8Ph1311");
   ([572], VAng "qu8_1312", "# cqu8Ph1312");
   ([573], VAng "qu8_1313", "# cqu8Ph1313");
   ([574], VAng "qu8_1331", "# cqu8Ph1331");
   ([575], VAng "qu8_1321", "# cqu8Ph1321");
   ([576], VAng "qu8_1322", "# cqu8Ph1322");
   ([577], VAng "qu8_1332", "# cqu8Ph1332");
   ([578], VAng "qu8_1323", "# cqu8Ph1323");
   ([579], VAng "qu8_1333", "# cqu8Ph1333");
   ([580], VAng "qu8_2212", "# cqu8Ph2212");
   ([581], VAng "qu8_2213", "# cqu8Ph2213");
   ([582], VAng "qu8_2223", "# cqu8Ph2223");
   ([583], VAng "qu8_2311", "# cqu8Ph2311");
   ([584], VAng "qu8_2312", "# cqu8Ph2312");
   ([585], VAng "qu8_2313", "# cqu8Ph2313");
   ([586], VAng "qu8_2321", "# cqu8Ph2321");
   ([587], VAng "qu8_2322", "# cqu8Ph2322");
   ([588], VAng "qu8_2323", "# cqu8Ph2323");
   ([589], VAng "qu8_2331", "# cqu8Ph2331");
   ([590], VAng "qu8_2332", "# cqu8Ph2332");
   ([591], VAng "qu8_2333", "# cqu8Ph2333");
   ([592], VAng "qu8_3312", "# cqu8Ph3312");
   ([593], VAng "qu8_3313", "# cqu8Ph3313");
   ([594], VAng "qu8_3323", "# cqu8Ph3323");
   ([595], VAng "qd8_1112", "# cqd8Ph1112");
   ([596], VAng "qd8_1113", "# cqd8Ph1113");
   ([597], VAng "qd8_1123", "# cqd8Ph1123");
   ([598], VAng "qd8_1211", "# cqd8Ph1211");
   ([599], VAng "qd8_1212", "# cqd8Ph1212");
   ([600], VAng "qd8_1221", "# cqd8Ph1221");
   ([601], VAng "qd8_1213", "# cqd8Ph1213");
   ([602], VAng "qd8_1231", "# cqd8Ph1231");
   ([603], VAng "qd8_1222", "# cqd8Ph1222");
   ([604], VAng "qd8_1223", "# cqd8Ph1223");
   ([605], VAng "qd8_1232", "# cqd8Ph1232");
   ([606], VAng "qd8_1233", "# cqd8Ph1233");
   ([607], VAng "qd8_1311", "# cqd8Ph1311");
   ([608], VAng "qd8_1312", "# cqd8Ph1312");
   ([609], VAng "qd8_1313", "# cqd8Ph1313");
   ([610], VAng "qd8_1331", "# cqd8Ph1331");
   ([611], VAng "qd8_1321", "# cqd8Ph1321");
   ([612], VAng "qd8_1322", "# cqd8Ph1322");
   ([613], VAng "qd8_1332", "# cqd8Ph1332");
   ([614], VAng "qd8_1323", "# cqd8Ph1323");
   ([615], VAng "qd8_1333", "# cqd8Ph1333");
   ([616], VAng "qd8_2212", "# cqd8Ph2212");
   ([617], VAng "qd8_2213", "# cqd8Ph2213");
   ([618], VAng "qd8_2223", "# cqd8Ph2223");
   ([619], VAng "qd8_2311", "# cqd8Ph2311");
   ([620], VAng "qd8_2312", "# cqd8Ph2312");
   ([621], VAng "qd8_2313", "# cqd8Ph2313");
   ([622], VAng "qd8_2321", "# cqd8Ph2321");
   ([623], VAng "qd8_2322", "# cqd8Ph2322");
   ([624], VAng "qd8_2323", "# cqd8Ph2323");
   ([625], VAng "qd8_2331", "# cqd8Ph2331");
   ([626], VAng "qd8_2332", "# cqd8Ph2332");
   ([627], VAng "qd8_2333", "# cqd8Ph2333");
   ([628], VAng "qd8_3312", "# cqd8Ph3312");
   ([629], VAng "qd8_3313", "# cqd8Ph3313");
   ([630], VAng "qd8_3323", "# cqd8Ph3323");
   ([631], VLambda, "# LambdaSMEFT");
   ([632], VVal "G", "# cG");
   ([633], VVal "Gtilde", "# cGtil");
   ([634], VVal "W", "# cW");
   ([635], VVal "Wtilde", "# cWtil");
   ([636], VVal "phi", "# cH");
   ([637], VVal "phiBox", "# cHbox");
   ([638], VVal "phiD", "# cHDD");
   ([639], VVal "phiG", "# cHG");
   ([640], VVal "phiGtilde", "# cHGtil");
   ([641], VVal "phiW", "# cHW");
   ([642], VVal "phiWtilde", "# cHWtil");
   ([643], VVal "phiB", "# cHB");
   ([644], VVal "phiBtilde", "# cHBtil");
   ([645], VVal "phiWB", "# cHWB");
   ([646], VVal "phiWtildeB", "# cHWBtil");
   ([647], VAbs "phil1_11", "# cHl1Abs11");
   ([648], VAbs "phil1_12", "# cHl1Abs12");
   ([649], VAbs "phil1_13", "# cHl1Abs13");
   ([650], VAbs "phil1_22", "# cHl1Abs22");
   ([651], VAbs "phil1_23", "# cHl1Abs23");
   ([652], VAbs "phil1_33", "# cHl1Abs33");
   ([653], VAbs "phil3_11", "# cHl3Abs11");
   ([654], VAbs "phil3_12", "# cHl3Abs12");
   ([655], VAbs "phil3_13", "# cHl3Abs13");
   ([656], VAbs "phil3_22", "# cHl3Abs22");
   ([657], VAbs "phil3_23", "# cHl3Abs23");
   ([658], VAbs "phil3_33", "# cHl3Abs33");
   ([659], VAbs "phiq1_11", "# cHq1Abs11");
   ([660], VAbs "phiq1_12", "# cHq1Abs12");
   ([661], VAbs "phiq1_13", "# cHq1Abs13");
   ([662], VAbs "phiq1_22", "# cHq1Abs22");
   ([663], VAbs "phiq1_23", "# cHq1Abs23");
   ([664], VAbs "phiq1_33", "# cHq1Abs33");
   ([665], VAbs "phiq3_11", "# cHq3Abs11");
   ([666], VAbs "phiq3_12", "# cHq3Abs12");
   ([667], VAbs "phiq3_13", "# cHq3Abs13");
   ([668], VAbs "phiq3_22", "# cHq3Abs22");
   ([669], VAbs "phiq3_23", "# cHq3Abs23");
   ([670], VAbs "phiq3_33", "# cHq3Abs33");
   ([671], VAbs "phie_11", "# cHeAbs11");
   ([672], VAbs "phie_12", "# cHeAbs12");
   ([673], VAbs "phie_13", "# cHeAbs13");
   ([674], VAbs "phie_22", "# cHeAbs22");
   ([675], VAbs "phie_23", "# cHeAbs23");
   ([676], VAbs "phie_33", "# cHeAbs33");
   ([677], VAbs "phiu_11", "# cHuAbs11");
   ([678], VAbs "phiu_12", "# cHuAbs12");
   ([679], VAbs "phiu_13", "# cHuAbs13");
   ([680], VAbs "phiu_22", "# cHuAbs22");
   ([681], VAbs "phiu_23", "# cHuAbs23");
   ([682], VAbs "phiu_33", "# cHuAbs33");
   ([683], VAbs "phid_11", "# cHdAbs11");
   ([684], VAbs "phid_12", "# cHdAbs12");
   ([685], VAbs "phid_13", "# cHdAbs13");
   ([686], VAbs "phid_22", "# cHdAbs22");
   ([687], VAbs "phid_23", "# cHdAbs23");
   ([688], VAbs "phid_33", "# cHdAbs33");
   ([689], VVal "ll_1111", "# cllAbs1111");
   ([690], VVal "ll_1122", "# cllAbs1122");
   ([691], VVal "ll_1221", "# cllAbs1221");
   ([692], VVal "ll_1133", "# cllAbs1133");
   ([693], VVal "ll_1331", "# cllAbs1331");
   ([694], VVal "ll_2222", "# cllAbs2222");
   ([695], VVal "ll_2233", "# cllAbs2233");
   ([696], VVal "ll_2332", "# cllAbs2332");
   ([697], VVal "ll_3333", "# cllAbs3333");
   ([698], VAbs "ll_1112", "# cllAbs1112");
   ([699], VAbs "ll_1113", "# cllAbs1113");
   ([700], VAbs "ll_1123", "# cllAbs1123");
   ([701], VAbs "ll_1212", "# cllAbs1212");
   ([702], VAbs "ll_1213", "# cllAbs1213");
   ([703], VAbs "ll_1231", "# cllAbs1231");
   ([704], VAbs "ll_1222", "# cllAbs1222");
   ([705], VAbs "ll_1223", "# cllAbs1223");
   ([706], VAbs "ll_1232", "# cllAbs1232");
   ([707], VAbs "ll_1233", "# cllAbs1233");
   ([708], VAbs "ll_1313", "# cllAbs1313");
   ([709], VAbs "ll_1322", "# cllAbs1322");
   ([710], VAbs "ll_1332", "# cllAbs1332");
   ([711], VAbs "ll_1323", "# cllAbs1323");
   ([712], VAbs "ll_1333", "# cllAbs1333");
   ([713], VAbs "ll_2223", "# cllAbs2223");
   ([714], VAbs "ll_2323", "# cllAbs2323");
   ([715], VAbs "ll_2333", "# cllAbs3323");
   ([716], VVal "qq1_1111", "# cqq1Abs1111");
   ([717], VVal "qq1_1122", "# cqq1Abs1122");
   ([718], VVal "qq1_1221", "# cqq1Abs1221");
   ([719], VVal "qq1_1133", "# cqq1Abs1133");
   ([720], VVal "qq1_1331", "# cqq1Abs1331");
   ([721], VVal "qq1_2222", "# cqq1Abs2222");
   ([722], VVal "qq1_2233", "# cqq1Abs2233");
   ([723], VVal "qq1_2332", "# cqq1Abs2332");
   ([724], VVal "qq1_3333", "# cqq1Abs3333");
   ([725], VAbs "qq1_1112", "# cqq1Abs1112");
   ([726], VAbs "qq1_1113", "# cqq1Abs1113");
   ([727], VAbs "qq1_1123", "# cqq1Abs1123");
   ([728], VAbs "qq1_1212", "# cqq1Abs1212");
   ([729], VAbs "qq1_1213", "# cqq1Abs1213");
   ([730], VAbs "qq1_1231", "# cqq1Abs1231");
   ([731], VAbs "qq1_1222", "# cqq1Abs1222");
   ([732], VAbs "qq1_1223", "# cqq1Abs1223");
   ([733], VAbs "qq1_1232", "# cqq1Abs1232");
   ([734], VAbs "qq1_1233", "# cqq1Abs1233");
   ([735], VAbs "qq1_1313", "# cqq1Abs1313");
   ([736], VAbs "qq1_1322", "# cqq1Abs1322");
   ([737], VAbs "qq1_1332", "# cqq1Abs1332");
   ([738], VAbs "qq1_1323", "# cqq1Abs1323");
   ([739], VAbs "qq1_1333", "# cqq1Abs1333");
   ([740], VAbs "qq1_2223", "# cqq1Abs2223");
   ([741], VAbs "qq1_2323", "# cqq1Abs2323");
   ([742], VAbs "qq1_2333", "# cqq1Abs3323");
   ([743], VVal "qq3_1111", "# cqq3Abs1111");
   ([744], VVal "qq3_1122", "# cqq3Abs1122");
   ([745], VVal "qq3_1221", "# cqq3Abs1221");
   ([746], VVal "qq3_1133", "# cqq3Abs1133");
   ([747], VVal "qq3_1331", "# cqq3Abs1331");
   ([748], VVal "qq3_2222", "# cqq3Abs2222");
   ([749], VVal "qq3_2233", "# cqq3Abs2233");
   ([750], VVal "qq3_2332", "# cqq3Abs2332");
   ([751], VVal "qq3_3333", "# cqq3Abs3333");
   ([752], VAbs "qq3_1112", "# cqq3Abs1112");
   ([753], VAbs "qq3_1113", "# cqq3Abs1113");
   ([754], VAbs "qq3_1123", "# cqq3Abs1123");
   ([755], VAbs "qq3_1212", "# cqq3Abs1212");
   ([756], VAbs "qq3_1213", "# cqq3Abs1213");
   ([757], VAbs "qq3_1231", "# cqq3Abs1231");
   ([758], VAbs "qq3_1222", "# cqq3Abs1222");
   ([759], VAbs "qq3_1223", "# cqq3Abs1223");
   ([760], VAbs "qq3_1232", "# cqq3Abs1232");
   ([761], VAbs "qq3_1233", "# cqq3Abs1233");
   ([762], VAbs "qq3_1313", "# cqq3Abs1313");
   ([763], VAbs "qq3_1322", "# cqq3Abs1322");
   ([764], VAbs "qq3_1332", "# cqq3Abs1332");
   ([765], VAbs "qq3_1323", "# cqq3Abs1323");
   ([766], VAbs "qq3_1333", "# cqq3Abs1333");
   ([767], VAbs "qq3_2223", "# cqq3Abs2223");
   ([768], VAbs "qq3_2323", "# cqq3Abs2323");
   ([769], VAbs "qq3_2333", "# cqq3Abs3323");
   ([770], VVal "lq1_1111", "# clq1Abs1111");
   ([771], VAbs "lq1_1112", "# clq1Abs1112");
   ([772], VAbs "lq1_1113", "# clq1Abs1113");
   ([773], VAbs "lq1_1123", "# clq1Abs1123");
   ([774], VVal "lq1_1122", "# clq1Abs1122");
   ([775], VVal "lq1_1133", "# clq1Abs1133");
   ([776], VAbs "lq1_1211", "# clq1Abs1211");
   ([777], VAbs "lq1_1212", "# clq1Abs1212");
   ([778], VAbs "lq1_1221", "# clq1Abs1221");
   ([779], VAbs "lq1_1213", "# clq1Abs1213");
   ([780], VAbs "lq1_1231", "# clq1Abs1231");
   ([781], VAbs "lq1_1222", "# clq1Abs1222");
   ([782], VAbs "lq1_1223", "# clq1Abs1223");
   ([783], VAbs "lq1_1232", "# clq1Abs1232");
   ([784], VAbs "lq1_1233", "# clq1Abs1233");
   ([785], VAbs "lq1_1311", "# clq1Abs1311");
   ([786], VAbs "lq1_1312", "# clq1Abs1312");
   ([787], VAbs "lq1_1313", "# clq1Abs1313");
   ([788], VAbs "lq1_1331", "# clq1Abs1331");
   ([789], VAbs "lq1_1321", "# clq1Abs1321");
   ([790], VAbs "lq1_1322", "# clq1Abs1322");
   ([791], VAbs "lq1_1332", "# clq1Abs1332");
   ([792], VAbs "lq1_1323", "# clq1Abs1323");
   ([793], VAbs "lq1_1333", "# clq1Abs1333");
   ([794], VVal "lq1_2211", "# clq1Abs2211");
   ([795], VAbs "lq1_2212", "# clq1Abs2212");
   ([796], VAbs "lq1_2213", "# clq1Abs2213");
   ([797], VVal "lq1_2222", "# clq1Abs2222");
   ([798], VAbs "lq1_2223", "# clq1Abs2223");
   ([799], VVal "lq1_2233", "# clq1Abs2233");
   ([800], VAbs "lq1_2311", "# clq1Abs2311");
   ([801], VAbs "lq1_2312", "# clq1Abs2312");
   ([802], VAbs "lq1_2313", "# clq1Abs2313");
   ([803], VAbs "lq1_2321", "# clq1Abs2321");
   ([804], VAbs "lq1_2322", "# clq1Abs2322");
   ([805], VAbs "lq1_2323", "# clq1Abs2323");
   ([806], VAbs "lq1_2331", "# clq1Abs2331");
   ([807], VAbs "lq1_2332", "# clq1Abs2332");
   ([808], VAbs "lq1_2333", "# clq1Abs2333");
   ([809], VVal "lq1_3311", "# clq1Abs3311");
   ([810], VAbs "lq1_3312", "# clq1Abs3312");
   ([811], VAbs "lq1_3313", "# clq1Abs3313");
   ([812], VVal "lq1_3322", "# clq1Abs3322");
   ([813], VVal "lq1_3333", "# clq1Abs3333");
   ([814], VAbs "lq1_3323", "# clq1Abs3323");
   ([815], VVal "lq3_1111", "# clq3Abs1111");
   ([816], VAbs "lq3_1112", "# clq3Abs1112");
   ([817], VAbs "lq3_1113", "# clq3Abs1113");
   ([818], VAbs "lq3_1123", "# clq3Abs1123");
   ([819], VVal "lq3_1122", "# clq3Abs1122");
   ([820], VVal "lq3_1133", "# clq3Abs1133");
   ([821], VAbs "lq3_1211", "# clq3Abs1211");
   ([822], VAbs "lq3_1212", "# clq3Abs1212");
   ([823], VAbs "lq3_1221", "# clq3Abs1221");
   ([824], VAbs "lq3_1213", "# clq3Abs1213");
   ([825], VAbs "lq3_1231", "# clq3Abs1231");
   ([826], VAbs "lq3_1222", "# clq3Abs1222");
   ([827], VAbs "lq3_1223", "# clq3Abs1223");
   ([828], VAbs "lq3_1232", "# clq3Abs1232");
   ([829], VAbs "lq3_1233", "# clq3Abs1233");
   ([830], VAbs "lq3_1311", "# clq3Abs1311");
   ([831], VAbs "lq3_1312", "# clq3Abs1312");
   ([832], VAbs "lq3_1313", "# clq3Abs1313");
   ([833], VAbs "lq3_1331", "# clq3Abs1331");
   ([834], VAbs "lq3_1321", "# clq3Abs1321");
   ([835], VAbs "lq3_1322", "# clq3Abs1322");
   ([836], VAbs "lq3_1332", "# clq3Abs1332");
   ([837], VAbs "lq3_1323", "# clq3Abs1323");
   ([838], VAbs "lq3_1333", "# clq3Abs1333");
   ([839], VVal "lq3_2211", "# clq3Abs2211");
   ([840], VAbs "lq3_2212", "# clq3Abs2212");
   ([841], VAbs "lq3_2213", "# clq3Abs2213");
   ([842], VVal "lq3_2222", "# clq3Abs2222");
   ([843], VAbs "lq3_2223", "# clq3Abs2223");
   ([844], VVal "lq3_2233", "# clq3Abs2233");
   ([845], VAbs "lq3_2311", "# clq3Abs2311");
   ([846], VAbs "lq3_2312", "# clq3Abs2312");
   ([847], VAbs "lq3_2313", "# clq3Abs2313");
   ([848], VAbs "lq3_2321", "# clq3Abs2321");
   ([849], VAbs "lq3_2322", "# clq3Abs2322");
   ([850], VAbs "lq3_2323", "# clq3Abs2323");
   ([851], VAbs "lq3_2331", "# clq3Abs2331");
   ([852], VAbs "lq3_2332", "# clq3Abs2332");
   ([853], VAbs "lq3_2333", "# clq3Abs2333");
   ([854], VVal "lq3_3311", "# clq3Abs3311");
   ([855], VAbs "lq3_3312", "# clq3Abs3312");
   ([856], VAbs "lq3_3313", "# clq3Abs3313");
   ([857], VVal "lq3_3322", "# clq3Abs3322");
   ([858], VVal "lq3_3333", "# clq3Abs3333");
   ([859], VAbs "lq3_3323", "# clq3Abs3323");
   ([860], VVal "ee_1111", "# ceeAbs1111");
   ([861], VVal "ee_1122", "# ceeAbs1122");
   ([862], VVal "ee_1133", "# ceeAbs1133");
   ([863], VVal "ee_2222", "# ceeAbs2222");
   ([864], VVal "ee_2233", "# ceeAbs2233");
   ([865], VAbs "ee_1112", "# ceeAbs1112");
   ([866], VAbs "ee_3333", "# ceeAbs3333");
   ([867], VAbs "ee_1123", "# ceeAbs1123");
   ([868], VAbs "ee_1113", "# ceeAbs1113");
   ([869], VAbs "ee_1213", "# ceeAbs1213");
   ([870], VAbs "ee_1212", "# ceeAbs1212");
   ([871], VAbs "ee_1232", "# ceeAbs1232");
   ([872], VAbs "ee_1222", "# ceeAbs1222");
   ([873], VAbs "ee_1313", "# ceeAbs1313");
   ([874], VAbs "ee_1233", "# ceeAbs1233");
   ([875], VAbs "ee_1323", "# ceeAbs1323");
   ([876], VAbs "ee_1223", "# ceeAbs1322");
   ([877], VAbs "ee_2223", "# ceeAbs2223");
   ([878], VAbs "ee_1333", "# ceeAbs1333");
   ([879], VAbs "ee_2333", "# ceeAbs3323");
   ([880], VAbs "ee_2323", "# ceeAbs2323");
   ([881], VVal "uu_1111", "# cuuAbs1111");
   ([882], VVal "uu_1122", "# cuuAbs1122");
   ([883], VVal "uu_1221", "# cuuAbs1221");
   ([884], VVal "uu_1133", "# cuuAbs1133");
   ([885], VVal "uu_1331", "# cuuAbs1331");
   ([886], VVal "uu_2222", "# cuuAbs2222");
   ([887], VVal "uu_2233", "# cuuAbs2233");
   ([888], VVal "uu_2332", "# cuuAbs2332");
   ([889], VVal "uu_3333", "# cuuAbs3333");
   ([890], VAbs "uu_1112", "# cuuAbs1112");
   ([891], VAbs "uu_1113", "# cuuAbs1113");
   ([892], VAbs "uu_1123", "# cuuAbs1123");
   ([893], VAbs "uu_1212", "# cuuAbs1212");
   ([894], VAbs "uu_1213", "# cuuAbs1213");
   ([895], VAbs "uu_1231", "# cuuAbs1231");
   ([896], VAbs "uu_1222", "# cuuAbs1222");
   ([897], VAbs "uu_1223", "# cuuAbs1223");
   ([898], VAbs "uu_1232", "# cuuAbs1232");
   ([899], VAbs "uu_1233", "# cuuAbs1233");
   ([900], VAbs "uu_1313", "# cuuAbs1313");
   ([901], VAbs "uu_1322", "# cuuAbs1322");
   ([902], VAbs "uu_1332", "# cuuAbs1332");
   ([903], VAbs "uu_1323", "# cuuAbs1323");
   ([904], VAbs "uu_1333", "# cuuAbs1333");
   ([905], VAbs "uu_2223", "# cuuAbs2223");
   ([906], VAbs "uu_2323", "# cuuAbs2323");
   ([907], VAbs "uu_2333", "# cuuAbs3323");
   ([908], VVal "dd_1111", "# cddAbs1111");
   ([909], VVal "dd_1122", "# cddAbs1122");
   ([910], VVal "dd_1221", "# cddAbs1221");
   ([911], VVal "dd_1133", "# cddAbs1133");
   ([912], VVal "dd_1331", "# cddAbs1331");
   ([913], VVal "dd_2222", "# cddAbs2222");
   ([914], VVal "dd_2233", "# cddAbs2233");
   ([915], VVal "dd_2332", "# cddAbs2332");
   ([916], VVal "dd_3333", "# cddAbs3333");
   ([917], VAbs "dd_1112", "# cddAbs1112");
   ([918], VAbs "dd_1113", "# cddAbs1113");
   ([919], VAbs "dd_1123", "# cddAbs1123");
   ([920], VAbs "dd_1212", "# cddAbs1212");
   ([921], VAbs "dd_1213", "# cddAbs1213");
   ([922], VAbs "dd_1231", "# cddAbs1231");
   ([923], VAbs "dd_1222", "# cddAbs1222");
   ([924], VAbs "dd_1223", "# cddAbs1223");
   ([925], VAbs "dd_1232", "# cddAbs1232");
   ([926], VAbs "dd_1233", "# cddAbs1233");
   ([927], VAbs "dd_1313", "# cddAbs1313");
   ([928], VAbs "dd_1322", "# cddAbs1322");
   ([929], VAbs "dd_1332", "# cddAbs1332");
   ([930], VAbs "dd_1323", "# cddAbs1323");
   ([931], VAbs "dd_1333", "# cddAbs1333");
   ([932], VAbs "dd_2223", "# cddAbs2223");
   ([933], VAbs "dd_2323", "# cddAbs2323");
   ([934], VAbs "dd_2333", "# cddAbs3323");
   ([935], VVal "eu_1111", "# ceuAbs1111");
   ([936], VAbs "eu_1112", "# ceuAbs1112");
   ([937], VAbs "eu_1113", "# ceuAbs1113");
   ([938], VAbs "eu_1123", "# ceuAbs1123");
   ([939], VVal "eu_1122", "# ceuAbs1122");
   ([940], VVal "eu_1133", "# ceuAbs1133");
   ([941], VAbs "eu_1211", "# ceuAbs1211");
   ([942], VAbs "eu_1212", "# ceuAbs1212");
   ([943], VAbs "eu_1221", "# ceuAbs1221");
   ([944], VAbs "eu_1213", "# ceuAbs1213");
   ([945], VAbs "eu_1231", "# ceuAbs1231");
   ([946], VAbs "eu_1222", "# ceuAbs1222");
   ([947], VAbs "eu_1223", "# ceuAbs1223");
   ([948], VAbs "eu_1232", "# ceuAbs1232");
   ([949], VAbs "eu_1233", "# ceuAbs1233");
   ([950], VAbs "eu_1311", "# ceuAbs1311");
   ([951], VAbs "eu_1312", "# ceuAbs1312");
   ([952], VAbs "eu_1313", "# ceuAbs1313");
   ([953], VAbs "eu_1331", "# ceuAbs1331");
   ([954], VAbs "eu_1321", "# ceuAbs1321");
   ([955], VAbs "eu_1322", "# ceuAbs1322");
   ([956], VAbs "eu_1332", "# ceuAbs1332");
   ([957], VAbs "eu_1323", "# ceuAbs1323");
   ([958], VAbs "eu_1333", "# ceuAbs1333");
   ([959], VVal "eu_2211", "# ceuAbs2211");
   ([960], VAbs "eu_2212", "# ceuAbs2212");
   ([961], VAbs "eu_2213", "# ceuAbs2213");
   ([962], VVal "eu_2222", "# ceuAbs2222");
   ([963], VAbs "eu_2223", "# ceuAbs2223");
   ([964], VVal "eu_2233", "# ceuAbs2233");
   ([965], VAbs "eu_2311", "# ceuAbs2311");
   ([966], VAbs "eu_2312", "# ceuAbs2312");
   ([967], VAbs "eu_2313", "# ceuAbs2313");
   ([968], VAbs "eu_2321", "# ceuAbs2321");
   ([969], VAbs "eu_2322", "# ceuAbs2322");
   ([970], VAbs "eu_2323", "# ceuAbs2323");
   ([971], VAbs "eu_2331", "# ceuAbs2331");
   ([972], VAbs "eu_2332", "# ceuAbs2332");
   ([973], VAbs "eu_2333", "# ceuAbs2333");
   ([974], VVal "eu_3311", "# ceuAbs3311");
   ([975], VAbs "eu_3312", "# ceuAbs3312");
   ([976], VAbs "eu_3313", "# ceuAbs3313");
   ([977], VVal "eu_3322", "# ceuAbs3322");
   ([978], VVal "eu_3333", "# ceuAbs3333");
   ([979], VAbs "eu_3323", "# ceuAbs3323");
   ([980], VVal "ed_1111", "# cedAbs1111");
   ([981], VAbs "ed_1112", "# cedAbs1112");
   ([982], VAbs "ed_1113", "# cedAbs1113");
   ([983], VAbs "ed_1123", "# cedAbs1123");
   ([984], VVal "ed_1122", "# cedAbs1122");
   ([985], VVal "ed_1133", "# cedAbs1133");
   ([986], VAbs "ed_1211", "# cedAbs1211");
   ([987], VAbs "ed_1212", "# cedAbs1212");
   ([988], VAbs "ed_1221", "# cedAbs1221");
   ([989], VAbs "ed_1213", "# cedAbs1213");
   ([990], VAbs "ed_1231", "# cedAbs1231");
   ([991], VAbs "ed_1222", "# cedAbs1222");
   ([992], VAbs "ed_1223", "# cedAbs1223");
   ([993], VAbs "ed_1232", "# cedAbs1232");
   ([994], VAbs "ed_1233", "# cedAbs1233");
   ([995], VAbs "ed_1311", "# cedAbs1311");
   ([996], VAbs "ed_1312", "# cedAbs1312");
   ([997], VAbs "ed_1313", "# cedAbs1313");
   ([998], VAbs "ed_1331", "# cedAbs1331");
   ([999], VAbs "ed_1321", "# cedAbs1321");
   ([1000], VAbs "ed_1322", "# cedAbs1322");
   ([1001], VAbs "ed_1332", "# cedAbs1332");
   ([1002], VAbs "ed_1323", "# cedAbs1323");
   ([1003], VAbs "ed_1333", "# cedAbs1333");
   ([1004], VVal "ed_2211", "# cedAbs2211");
   ([1005], VAbs "ed_2212", "# cedAbs2212");
   ([1006], VAbs "ed_2213", "# cedAbs2213");
   ([1007], VVal "ed_2222", "# cedAbs2222");
   ([1008], VAbs "ed_2223", "# cedAbs2223");
   ([1009], VVal "ed_2233", "# cedAbs2233");
   ([1010], VAbs "ed_2311", "# cedAbs2311");
   ([1011], VAbs "ed_2312", "# cedAbs2312");
   ([1012], VAbs "ed_2313", "# cedAbs2313");
   ([1013], VAbs "ed_2321", "# cedAbs2321");
   ([1014], VAbs "ed_2322", "# cedAbs2322");
   ([1015], VAbs "ed_2323", "# cedAbs2323");
   ([1016], VAbs "ed_2331", "# cedAbs2331");
   ([1017], VAbs "ed_2332", "# cedAbs2332");
   ([1018], VAbs "ed_2333", "# cedAbs2333");
   ([1019], VVal "ed_3311", "# cedAbs3311");
   ([1020], VAbs "ed_3312", "# cedAbs3312");
   ([1021], VAbs "ed_3313", "# cedAbs3313");
   ([1022], VVal "ed_3322", "# cedAbs3322");
   ([1023], VVal "ed_3333", "# cedAbs3333");
   ([1024], VAbs "ed_3323", "# cedAbs3323");
   ([1025], VVal "ud1_1111", "# cud1Abs1111");
   ([1026], VAbs "ud1_1112", "# cud1Abs1112");
   ([1027], VAbs "ud1_1113", "# cud1Abs1113");
   ([1028], VAbs "ud1_1123", "# cud1Abs1123");
   ([1029], VVal "ud1_1122", "# cud1Abs1122");
   ([1030], VVal "ud1_1133", "# cud1Abs1133");
   ([1031], VAbs "ud1_1211", "# cud1Abs1211");
   ([1032], VAbs "ud1_1212", "# cud1Abs1212");
   ([1033], VAbs "ud1_1221", "# cud1Abs1221");
   ([1034], VAbs "ud1_1213", "# cud1Abs1213");
   ([1035], VAbs "ud1_1231", "# cud1Abs1231");
   ([1036], VAbs "ud1_1222", "# cud1Abs1222");
   ([1037], VAbs "ud1_1223", "# cud1Abs1223");
   ([1038], VAbs "ud1_1232", "# cud1Abs1232");
   ([1039], VAbs "ud1_1233", "# cud1Abs1233");
   ([1040], VAbs "ud1_1311", "# cud1Abs1311");
   ([1041], VAbs "ud1_1312", "# cud1Abs1312");
   ([1042], VAbs "ud1_1313", "# cud1Abs1313");
   ([1043], VAbs "ud1_1331", "# cud1Abs1331");
   ([1044], VAbs "ud1_1321", "# cud1Abs1321");
   ([1045], VAbs "ud1_1322", "# cud1Abs1322");
   ([1046], VAbs "ud1_1332", "# cud1Abs1332");
   ([1047], VAbs "ud1_1323", "# cud1Abs1323");
   ([1048], VAbs "ud1_1333", "# cud1Abs1333");
   ([1049], VVal "ud1_2211", "# cud1Abs2211");
   ([1050], VAbs "ud1_2212", "# cud1Abs2212");
   ([1051], VAbs "ud1_2213", "# cud1Abs2213");
   ([1052], VVal "ud1_2222", "# cud1Abs2222");
   ([1053], VAbs "ud1_2223", "# cud1Abs2223");
   ([1054], VVal "ud1_2233", "# cud1Abs2233");
   ([1055], VAbs "ud1_2311", "# cud1Abs2311");
   ([1056], VAbs "ud1_2312", "# cud1Abs2312");
   ([1057], VAbs "ud1_2313", "# cud1Abs2313");
   ([1058], VAbs "ud1_2321", "# cud1Abs2321");
   ([1059], VAbs "ud1_2322", "# cud1Abs2322");
   ([1060], VAbs "ud1_2323", "# cud1Abs2323");
   ([1061], VAbs "ud1_2331", "# cud1Abs2331");
   ([1062], VAbs "ud1_2332", "# cud1Abs2332");
   ([1063], VAbs "ud1_2333", "# cud1Abs2333");
   ([1064], VVal "ud1_3311", "# cud1Abs3311");
   ([1065], VAbs "ud1_3312", "# cud1Abs3312");
   ([1066], VAbs "ud1_3313", "# cud1Abs3313");
   ([1067], VVal "ud1_3322", "# cud1Abs3322");
   ([1068], VVal "ud1_3333", "# cud1Abs3333");
   ([1069], VAbs "ud1_3323", "# cud1Abs3323");
   ([1070], VVal "ud8_1111", "# cud8Abs1111");
   ([1071], VAbs "ud8_1112", "# cud8Abs1112");
   ([1072], VAbs "ud8_1113", "# cud8Abs1113");
   ([1073], VAbs "ud8_1123", "# cud8Abs1123");
   ([1074], VVal "ud8_1122", "# cud8Abs1122");
   ([1075], VVal "ud8_1133", "# cud8Abs1133");
   ([1076], VAbs "ud8_1211", "# cud8Abs1211");
   ([1077], VAbs "ud8_1212", "# cud8Abs1212");
   ([1078], VAbs "ud8_1221", "# cud8Abs1221");
   ([1079], VAbs "ud8_1213", "# cud8Abs1213");
   ([1080], VAbs "ud8_1231", "# cud8Abs1231");
   ([1081], VAbs "ud8_1222", "# cud8Abs1222");
   ([1082], VAbs "ud8_1223", "# cud8Abs1223");
   ([1083], VAbs "ud8_1232", "# cud8Abs1232");
   ([1084], VAbs "ud8_1233", "# cud8Abs1233");
   ([1085], VAbs "ud8_1311", "# cud8Abs1311");
   ([1086], VAbs "ud8_1312", "# cud8Abs1312");
   ([1087], VAbs "ud8_1313", "# cud8Abs1313");
   ([1088], VAbs "ud8_1331", "# cud8Abs1331");
   ([1089], VAbs "ud8_1321", "# cud8Abs1321");
   ([1090], VAbs "ud8_1322", "# cud8Abs1322");
   ([1091], VAbs "ud8_1332", "# cud8Abs1332");
   ([1092], VAbs "ud8_1323", "# cud8Abs1323");
   ([1093], VAbs "ud8_1333", "# cud8Abs1333");
   ([1094], VVal "ud8_2211", "# cud8Abs2211");
   ([1095], VAbs "ud8_2212", "# cud8Abs2212");
   ([1096], VAbs "ud8_2213", "# cud8Abs2213");
   ([1097], VVal "ud8_2222", "# cud8Abs2222");
   ([1098], VAbs "ud8_2223", "# cud8Abs2223");
   ([1099], VVal "ud8_2233", "# cud8Abs2233");
   ([1100], VAbs "ud8_2311", "# cud8Abs2311");
   ([1101], VAbs "ud8_2312", "# cud8Abs2312");
   ([1102], VAbs "ud8_2313", "# cud8Abs2313");
   ([1103], VAbs "ud8_2321", "# cud8Abs2321");
   ([1104], VAbs "ud8_2322", "# cud8Abs2322");
   ([1105], VAbs "ud8_2323", "# cud8Abs2323");
   ([1106], VAbs "ud8_2331", "# cud8Abs2331");
   ([1107], VAbs "ud8_2332", "# cud8Abs2332");
   ([1108], VAbs "ud8_2333", "# cud8Abs2333");
   ([1109], VVal "ud8_3311", "# cud8Abs3311");
   ([1110], VAbs "ud8_3312", "# cud8Abs3312");
   ([1111], VAbs "ud8_3313", "# cud8Abs3313");
   ([1112], VVal "ud8_3322", "# cud8Abs3322");
   ([1113], VVal "ud8_3333", "# cud8Abs3333");
   ([1114], VAbs "ud8_3323", "# cud8Abs3323");
   ([1115], VVal "le_1111", "# cleAbs1111");
   ([1116], VAbs "le_1112", "# cleAbs1112");
   ([1117], VAbs "le_1113", "# cleAbs1113");
   ([1118], VAbs "le_1123", "# cleAbs1123");
   ([1119], VVal "le_1122", "# cleAbs1122");
   ([1120], VVal "le_1133", "# cleAbs1133");
   ([1121], VAbs "le_1211", "# cleAbs1211");
   ([1122], VAbs "le_1212", "# cleAbs1212");
   ([1123], VAbs "le_1221", "# cleAbs1221");
   ([1124], VAbs "le_1213", "# cleAbs1213");
   ([1125], VAbs "le_1231", "# cleAbs1231");
   ([1126], VAbs "le_1222", "# cleAbs1222");
   ([1127], VAbs "le_1223", "# cleAbs1223");
   ([1128], VAbs "le_1232", "# cleAbs1232");
   ([1129], VAbs "le_1233", "# cleAbs1233");
   ([1130], VAbs "le_1311", "# cleAbs1311");
   ([1131], VAbs "le_1312", "# cleAbs1312");
   ([1132], VAbs "le_1313", "# cleAbs1313");
   ([1133], VAbs "le_1331", "# cleAbs1331");
   ([1134], VAbs "le_1321", "# cleAbs1321");
   ([1135], VAbs "le_1322", "# cleAbs1322");
   ([1136], VAbs "le_1332", "# cleAbs1332");
   ([1137], VAbs "le_1323", "# cleAbs1323");
   ([1138], VAbs "le_1333", "# cleAbs1333");
   ([1139], VVal "le_2211", "# cleAbs2211");
   ([1140], VAbs "le_2212", "# cleAbs2212");
   ([1141], VAbs "le_2213", "# cleAbs2213");
   ([1142], VVal "le_2222", "# cleAbs2222");
   ([1143], VAbs "le_2223", "# cleAbs2223");
   ([1144], VVal "le_2233", "# cleAbs2233");
   ([1145], VAbs "le_2311", "# cleAbs2311");
   ([1146], VAbs "le_2312", "# cleAbs2312");
   ([1147], VAbs "le_2313", "# cleAbs2313");
   ([1148], VAbs "le_2321", "# cleAbs2321");
   ([1149], VAbs "le_2322", "# cleAbs2322");
   ([1150], VAbs "le_2323", "# cleAbs2323");
   ([1151], VAbs "le_2331", "# cleAbs2331");
   ([1152], VAbs "le_2332", "# cleAbs2332");
   ([1153], VAbs "le_2333", "# cleAbs2333");
   ([1154], VVal "le_3311", "# cleAbs3311");
   ([1155], VAbs "le_3312", "# cleAbs3312");
   ([1156], VAbs "le_3313", "# cleAbs3313");
   ([1157], VVal "le_3322", "# cleAbs3322");
   ([1158], VVal "le_3333", "# cleAbs3333");
   ([1159], VAbs "le_3323", "# cleAbs3323");
   ([1160], VVal "lu_1111", "# cluAbs1111");
   ([1161], VAbs "lu_1112", "# cluAbs1112");
   ([1162], VAbs "lu_1113", "# cluAbs1113");
   ([1163], VAbs "lu_1123", "# cluAbs1123");
   ([1164], VVal "lu_1122", "# cluAbs1122");
   ([1165], VVal "lu_1133", "# cluAbs1133");
   ([1166], VAbs "lu_1211", "# cluAbs1211");
   ([1167], VAbs "lu_1212", "# cluAbs1212");
   ([1168], VAbs "lu_1221", "# cluAbs1221");
   ([1169], VAbs "lu_1213", "# cluAbs1213");
   ([1170], VAbs "lu_1231", "# cluAbs1231");
   ([1171], VAbs "lu_1222", "# cluAbs1222");
   ([1172], VAbs "lu_1223", "# cluAbs1223");
   ([1173], VAbs "lu_1232", "# cluAbs1232");
   ([1174], VAbs "lu_1233", "# cluAbs1233");
   ([1175], VAbs "lu_1311", "# cluAbs1311");
   ([1176], VAbs "lu_1312", "# cluAbs1312");
   ([1177], VAbs "lu_1313", "# cluAbs1313");
   ([1178], VAbs "lu_1331", "# cluAbs1331");
   ([1179], VAbs "lu_1321", "# cluAbs1321");
   ([1180], VAbs "lu_1322", "# cluAbs1322");
   ([1181], VAbs "lu_1332", "# cluAbs1332");
   ([1182], VAbs "lu_1323", "# cluAbs1323");
   ([1183], VAbs "lu_1333", "# cluAbs1333");
   ([1184], VVal "lu_2211", "# cluAbs2211");
   ([1185], VAbs "lu_2212", "# cluAbs2212");
   ([1186], VAbs "lu_2213", "# cluAbs2213");
   ([1187], VVal "lu_2222", "# cluAbs2222");
   ([1188], VAbs "lu_2223", "# cluAbs2223");
   ([1189], VVal "lu_2233", "# cluAbs2233");
   ([1190], VAbs "lu_2311", "# cluAbs2311");
   ([1191], VAbs "lu_2312", "# cluAbs2312");
   ([1192], VAbs "lu_2313", "# cluAbs2313");
   ([1193], VAbs "lu_2321", "# cluAbs2321");
   ([1194], VAbs "lu_2322", "# cluAbs2322");
   ([1195], VAbs "lu_2323", "# cluAbs2323");
   ([1196], VAbs "lu_2331", "# cluAbs2331");
   ([1197], VAbs "lu_2332", "# cluAbs2332");
   ([1198], VAbs "lu_2333", "# cluAbs2333");
   ([1199], VVal "lu_3311", "# cluAbs3311");
   ([1200], VAbs "lu_3312", "# cluAbs3312");
   ([1201], VAbs "lu_3313", "# cluAbs3313");
   ([1202], VVal "lu_3322", "# cluAbs3322");
   ([1203], VVal "lu_3333", "# cluAbs3333");
   ([1204], VAbs "lu_3323", "# cluAbs3323");
   ([1205], VVal "ld_1111", "# cldAbs1111");
   ([1206], VAbs "ld_1112", "# cldAbs1112");
   ([1207], VAbs "ld_1113", "# cldAbs1113");
   ([1208], VAbs "ld_1123", "# cldAbs1123");
   ([1209], VVal "ld_1122", "# cldAbs1122");
   ([1210], VVal "ld_1133", "# cldAbs1133");
   ([1211], VAbs "ld_1211", "# cldAbs1211");
   ([1212], VAbs "ld_1212", "# cldAbs1212");
   ([1213], VAbs "ld_1221", "# cldAbs1221");
   ([1214], VAbs "ld_1213", "# cldAbs1213");
   ([1215], VAbs "ld_1231", "# cldAbs1231");
   ([1216], VAbs "ld_1222", "# cldAbs1222");
   ([1217], VAbs "ld_1223", "# cldAbs1223");
   ([1218], VAbs "ld_1232", "# cldAbs1232");
   ([1219], VAbs "ld_1233", "# cldAbs1233");
   ([1220], VAbs "ld_1311", "# cldAbs1311");
   ([1221], VAbs "ld_1312", "# cldAbs1312");
   ([1222], VAbs "ld_1313", "# cldAbs1313");
   ([1223], VAbs "ld_1331", "# cldAbs1331");
   ([1224], VAbs "ld_1321", "# cldAbs1321");
   ([1225], VAbs "ld_1322", "# cldAbs1322");
   ([1226], VAbs "ld_1332", "# cldAbs1332");
   ([1227], VAbs "ld_1323", "# cldAbs1323");
   ([1228], VAbs "ld_1333", "# cldAbs1333");
   ([1229], VVal "ld_2211", "# cldAbs2211");
   ([1230], VAbs "ld_2212", "# cldAbs2212");
   ([1231], VAbs "ld_2213", "# cldAbs2213");
   ([1232], VVal "ld_2222", "# cldAbs2222");
   ([1233], VAbs "ld_2223", "# cldAbs2223");
   ([1234], VVal "ld_2233", "# cldAbs2233");
   ([1235], VAbs "ld_2311", "# cldAbs2311");
   ([1236], VAbs "ld_2312", "# cldAbs2312");
   ([1237], VAbs "ld_2313", "# cldAbs2313");
   ([1238], VAbs "ld_2321", "# cldAbs2321");
   ([1239], VAbs "ld_2322", "# cldAbs2322");
   ([1240], VAbs "ld_2323", "# cldAbs2323");
   ([1241], VAbs "ld_2331", "# cldAbs2331");
   ([1242], VAbs "ld_2332", "# cldAbs2332");
   ([1243], VAbs "ld_2333", "# cldAbs2333");
   ([1244], VVal "ld_3311", "# cldAbs3311");
   ([1245], VAbs "ld_3312", "# cldAbs3312");
   ([1246], VAbs "ld_3313", "# cldAbs3313");
   ([1247], VVal "ld_3322", "# cldAbs3322");
   ([1248], VVal "ld_3333", "# cldAbs3333");
   ([1249], VAbs "ld_3323", "# cldAbs3323");
   ([1250], VVal "qe_1111", "# cqeAbs1111");
   ([1251], VAbs "qe_1112", "# cqeAbs1112");
   ([1252], VAbs "qe_1113", "# cqeAbs1113");
   ([1253], VAbs "qe_1123", "# cqeAbs1123");
   ([1254], VVal "qe_1122", "# cqeAbs1122");
   ([1255], VVal "qe_1133", "# cqeAbs1133");
   ([1256], VAbs "qe_1211", "# cqeAbs1211");
   ([1257], VAbs "qe_1212", "# cqeAbs1212");
   ([1258], VAbs "qe_1221", "# cqeAbs1221");
   ([1259], VAbs "qe_1213", "# cqeAbs1213");
   ([1260], VAbs "qe_1231", "# cqeAbs1231");
   ([1261], VAbs "qe_1222", "# cqeAbs1222");
   ([1262], VAbs "qe_1223", "# cqeAbs1223");
   ([1263], VAbs "qe_1232", "# cqeAbs1232");
   ([1264], VAbs "qe_1233", "# cqeAbs1233");
   ([1265], VAbs "qe_1311", "# cqeAbs1311");
   ([1266], VAbs "qe_1312", "# cqeAbs1312");
   ([1267], VAbs "qe_1313", "# cqeAbs1313");
   ([1268], VAbs "qe_1331", "# cqeAbs1331");
   ([1269], VAbs "qe_1321", "# cqeAbs1321");
   ([1270], VAbs "qe_1322", "# cqeAbs1322");
   ([1271], VAbs "qe_1332", "# cqeAbs1332");
   ([1272], VAbs "qe_1323", "# cqeAbs1323");
   ([1273], VAbs "qe_1333", "# cqeAbs1333");
   ([1274], VVal "qe_2211", "# cqeAbs2211");
   ([1275], VAbs "qe_2212", "# cqeAbs2212");
   ([1276], VAbs "qe_2213", "# cqeAbs2213");
   ([1277], VVal "qe_2222", "# cqeAbs2222");
   ([1278], VAbs "qe_2223", "# cqeAbs2223");
   ([1279], VVal "qe_2233", "# cqeAbs2233");
   ([1280], VAbs "qe_2311", "# cqeAbs2311");
   ([1281], VAbs "qe_2312", "# cqeAbs2312");
   ([1282], VAbs "qe_2313", "# cqeAbs2313");
   ([1283], VAbs "qe_2321", "# cqeAbs2321");
   ([1284], VAbs "qe_2322", "# cqeAbs2322");
   ([1285], VAbs "qe_2323", "# cqeAbs2323");
   ([1286], VAbs "qe_2331", "# cqeAbs2331");
   ([1287], VAbs "qe_2332", "# cqeAbs2332");
   ([1288], VAbs "qe_2333", "# cqeAbs2333");
   ([1289], VVal "qe_3311", "# cqeAbs3311");
   ([1290], VAbs "qe_3312", "# cqeAbs3312");
   ([1291], VAbs "qe_3313", "# cqeAbs3313");
   ([1292], VVal "qe_3322", "# cqeAbs3322");
   ([1293], VVal "qe_3333", "# cqeAbs3333");
   ([1294], VAbs "qe_3323", "# cqeAbs3323");
   ([1295], VVal "qu1_1111", "# cqu1Abs1111");
   ([1296], VAbs "qu1_1112", "# cqu1Abs1112");
   ([1297], VAbs "qu1_1113", "# cqu1Abs1113");
   ([1298], VAbs "qu1_1123", "# cqu1Abs1123");
   ([1299], VVal "qu1_1122", "# cqu1Abs1122");
   ([1300], VVal "qu1_1133", "# cqu1Abs1133");
   ([1301], VAbs "qu1_1211", "# cqu1Abs1211");
   ([1302], VAbs "qu1_1212", "# cqu1Abs1212");
   ([1303], VAbs "qu1_1221", "# cqu1Abs1221");
   ([1304], VAbs "qu1_1213", "# cqu1Abs1213");
   ([1305], VAbs "qu1_1231", "# cqu1Abs1231");
   ([1306], VAbs "qu1_1222", "# cqu1Abs1222");
   ([1307], VAbs "qu1_1223", "# cqu1Abs1223");
   ([1308], VAbs "qu1_1232", "# cqu1Abs1232");
   ([1309], VAbs "qu1_1233", "# cqu1Abs1233");
   ([1310], VAbs "qu1_1311", "# cqu1Abs1311");
   ([1311], VAbs "qu1_1312", "# cqu1Abs1312");
   ([1312], VAbs "qu1_1313", "# cqu1Abs1313");
   ([1313], VAbs "qu1_1331", "# cqu1Abs1331");
   ([1314], VAbs "qu1_1321", "# cqu1Abs1321");
   ([1315], VAbs "qu1_1322", "# cqu1Abs1322");
   ([1316], VAbs "qu1_1332", "# cqu1Abs1332");
   ([1317], VAbs "qu1_1323", "# cqu1Abs1323");
   ([1318], VAbs "qu1_1333", "# cqu1Abs1333");
   ([1319], VVal "qu1_2211", "# cqu1Abs2211");
   ([1320], VAbs "qu1_2212", "# cqu1Abs2212");
   ([1321], VAbs "qu1_2213", "# cqu1Abs2213");
   ([1322], VVal "qu1_2222", "# cqu1Abs2222");
   ([1323], VAbs "qu1_2223", "# cqu1Abs2223");
   ([1324], VVal "qu1_2233", "# cqu1Abs2233");
   ([1325], VAbs "qu1_2311", "# cqu1Abs2311");
   ([1326], VAbs "qu1_2312", "# cqu1Abs2312");
   ([1327], VAbs "qu1_2313", "# cqu1Abs2313");
   ([1328], VAbs "qu1_2321", "# cqu1Abs2321");
   ([1329], VAbs "qu1_2322", "# cqu1Abs2322");
   ([1330], VAbs "qu1_2323", "# cqu1Abs2323");
   ([1331], VAbs "qu1_2331", "# cqu1Abs2331");
   ([1332], VAbs "qu1_2332", "# cqu1Abs2332");
   ([1333], VAbs "qu1_2333", "# cqu1Abs2333");
   ([1334], VVal "qu1_3311", "# cqu1Abs3311");
   ([1335], VAbs "qu1_3312", "# cqu1Abs3312");
   ([1336], VAbs "qu1_3313", "# cqu1Abs3313");
   ([1337], VVal "qu1_3322", "# cqu1Abs3322");
   ([1338], VVal "qu1_3333", "# cqu1Abs3333");
   ([1339], VAbs "qu1_3323", "# cqu1Abs3323");
   ([1340], VVal "qu8_1111", "# cqu8Abs1111");
   ([1341], VAbs "qu8_1112", "# cqu8Abs1112");
   ([1342], VAbs "qu8_1113", "# cqu8Abs1113");
   ([1343], VAbs "qu8_1123", "# cqu8Abs1123");
   ([1344], VVal "qu8_1122", "# cqu8Abs1122");
   ([1345], VVal "qu8_1133", "# cqu8Abs1133");
   ([1346], VAbs "qu8_1211", "# cqu8Abs1211");
   ([1347], VAbs "qu8_1212", "# cqu8Abs1212");
   ([1348], VAbs "qu8_1221", "# cqu8Abs1221");
   ([1349], VAbs "qu8_1213", "# cqu8Abs1213");
   ([1350], VAbs "qu8_1231", "# cqu8Abs1231");
   ([1351], VAbs "qu8_1222", "# cqu8Abs1222");
   ([1352], VAbs "qu8_1223", "# cqu8Abs1223");
   ([1353], VAbs "qu8_1232", "# cqu8Abs1232");
   ([1354], VAbs "qu8_1233", "# cqu8Abs1233");
   ([1355], VAbs "qu8_1311", "# cqu8Abs1311");
   ([1356], VAbs "qu8_1312", "# cqu8Abs1312");
   ([1357], VAbs "qu8_1313", "# cqu8Abs1313");
   ([1358], VAbs "qu8_1331", "# cqu8Abs1331");
   ([1359], VAbs "qu8_1321", "# cqu8Abs1321");
   ([1360], VAbs "qu8_1322", "# cqu8Abs1322");
   ([1361], VAbs "qu8_1332", "# cqu8Abs1332");
   ([1362], VAbs "qu8_1323", "# cqu8Abs1323");
   ([1363], VAbs "qu8_1333", "# cqu8Abs1333");
   ([1364], VVal "qu8_2211", "# cqu8Abs2211");
   ([1365], VAbs "qu8_2212", "# cqu8Abs2212");
   ([1366], VAbs "qu8_2213", "# cqu8Abs2213");
   ([1367], VVal "qu8_2222", "# cqu8Abs2222");
   ([1368], VAbs "qu8_2223", "# cqu8Abs2223");
   ([1369], VVal "qu8_2233", "# cqu8Abs2233");
   ([1370], VAbs "qu8_2311", "# cqu8Abs2311");
   ([1371], VAbs "qu8_2312", "# cqu8Abs2312");
   ([1372], VAbs "qu8_2313", "# cqu8Abs2313");
   ([1373], VAbs "qu8_2321", "# cqu8Abs2321");
   ([1374], VAbs "qu8_2322", "# cqu8Abs2322");
   ([1375], VAbs "qu8_2323", "# cqu8Abs2323");
   ([1376], VAbs "qu8_2331", "# cqu8Abs2331");
   ([1377], VAbs "qu8_2332", "# cqu8Abs2332");
   ([1378], VAbs "qu8_2333", "# cqu8Abs2333");
   ([1379], VVal "qu8_3311", "# cqu8Abs3311");
   ([1380], VAbs "qu8_3312", "# cqu8Abs3312");
   ([1381], VAbs "qu8_3313", "# cqu8Abs3313");
   ([1382], VVal "qu8_3322", "# cqu8Abs3322");
   ([1383], VVal "qu8_3333", "# cqu8Abs3333");
   ([1384], VAbs "qu8_3323", "# cqu8Abs3323");
   ([1385], VVal "qd1_1111", "# cqd1Abs1111");
   ([1386], VAbs "qd1_1112", "# cqd1Abs1112");
   ([1387], VAbs "qd1_1113", "# cqd1Abs1113");
   ([1388], VAbs "qd1_1123", "# cqd1Abs1123");
   ([1389], VVal "qd1_1122", "# cqd1Abs1122");
   ([1390], VVal "qd1_1133", "# cqd1Abs1133");
   ([1391], VAbs "qd1_1211", "# cqd1Abs1211");
   ([1392], VAbs "qd1_1212", "# cqd1Abs1212");
   ([1393], VAbs "qd1_1221", "# cqd1Abs1221");
   ([1394], VAbs "qd1_1213", "# cqd1Abs1213");
   ([1395], VAbs "qd1_1231", "# cqd1Abs1231");
   ([1396], VAbs "qd1_1222", "# cqd1Abs1222");
   ([1397], VAbs "qd1_1223", "# cqd1Abs1223");
   ([1398], VAbs "qd1_1232", "# cqd1Abs1232");
   ([1399], VAbs "qd1_1233", "# cqd1Abs1233");
   ([1400], VAbs "qd1_1311", "# cqd1Abs1311");
   ([1401], VAbs "qd1_1312", "# cqd1Abs1312");
   ([1402], VAbs "qd1_1313", "# cqd1Abs1313");
   ([1403], VAbs "qd1_1331", "# cqd1Abs1331");
   ([1404], VAbs "qd1_1321", "# cqd1Abs1321");
   ([1405], VAbs "qd1_1322", "# cqd1Abs1322");
   ([1406], VAbs "qd1_1332", "# cqd1Abs1332");
   ([1407], VAbs "qd1_1323", "# cqd1Abs1323");
   ([1408], VAbs "qd1_1333", "# cqd1Abs1333");
   ([1409], VVal "qd1_2211", "# cqd1Abs2211");
   ([1410], VAbs "qd1_2212", "# cqd1Abs2212");
   ([1411], VAbs "qd1_2213", "# cqd1Abs2213");
   ([1412], VVal "qd1_2222", "# cqd1Abs2222");
   ([1413], VAbs "qd1_2223", "# cqd1Abs2223");
   ([1414], VVal "qd1_2233", "# cqd1Abs2233");
   ([1415], VAbs "qd1_2311", "# cqd1Abs2311");
   ([1416], VAbs "qd1_2312", "# cqd1Abs2312");
   ([1417], VAbs "qd1_2313", "# cqd1Abs2313");
   ([1418], VAbs "qd1_2321", "# cqd1Abs2321");
   ([1419], VAbs "qd1_2322", "# cqd1Abs2322");
   ([1420], VAbs "qd1_2323", "# cqd1Abs2323");
   ([1421], VAbs "qd1_2331", "# cqd1Abs2331");
   ([1422], VAbs "qd1_2332", "# cqd1Abs2332");
   ([1423], VAbs "qd1_2333", "# cqd1Abs2333");
   ([1424], VVal "qd1_3311", "# cqd1Abs3311");
   ([1425], VAbs "qd1_3312", "# cqd1Abs3312");
   ([1426], VAbs "qd1_3313", "# cqd1Abs3313");
   ([1427], VVal "qd1_3322", "# cqd1Abs3322");
   ([1428], VVal "qd1_3333", "# cqd1Abs3333");
   ([1429], VAbs "qd1_3323", "# cqd1Abs3323");
   ([1430], VVal "qd8_1111", "# cqd8Abs1111");
   ([1431], VAbs "qd8_1112", "# cqd8Abs1112");
   ([1432], VAbs "qd8_1113", "# cqd8Abs1113");
   ([1433], VAbs "qd8_1123", "# cqd8Abs1123");
   ([1434], VVal "qd8_1122", "# cqd8Abs1122");
   ([1435], VVal "qd8_1133", "# cqd8Abs1133");
   ([1436], VAbs "qd8_1211", "# cqd8Abs1211");
   ([1437], VAbs "qd8_1212", "# cqd8Abs1212");
   ([1438], VAbs "qd8_1221", "# cqd8Abs1221");
   ([1439], VAbs "qd8_1213", "# cqd8Abs1213");
   ([1440], VAbs "qd8_1231", "# cqd8Abs1231");
   ([1441], VAbs "qd8_1222", "# cqd8Abs1222");
   ([1442], VAbs "qd8_1223", "# cqd8Abs1223");
   ([1443], VAbs "qd8_1232", "# cqd8Abs1232");
   ([1444], VAbs "qd8_1233", "# cqd8Abs1233");
   ([1445], VAbs "qd8_1311", "# cqd8Abs1311");
   ([1446], VAbs "qd8_1312", "# cqd8Abs1312");
   ([1447], VAbs "qd8_1313", "# cqd8Abs1313");
   ([1448], VAbs "qd8_1331", "# cqd8Abs1331");
   ([1449], VAbs "qd8_1321", "# cqd8Abs1321");
   ([1450], VAbs "qd8_1322", "# cqd8Abs1322");
   ([1451], VAbs "qd8_1332", "# cqd8Abs1332");
   ([1452], VAbs "qd8_1323", "# cqd8Abs1323");
   ([1453], VAbs "qd8_1333", "# cqd8Abs1333");
   ([1454], VVal "qd8_2211", "# cqd8Abs2211");
   ([1455], VAbs "qd8_2212", "# cqd8Abs2212");
   ([1456], VAbs "qd8_2213", "# cqd8Abs2213");
   ([1457], VVal "qd8_2222", "# cqd8Abs2222");
   ([1458], VAbs "qd8_2223", "# cqd8Abs2223");
   ([1459], VVal "qd8_2233", "# cqd8Abs2233");
   ([1460], VAbs "qd8_2311", "# cqd8Abs2311");
   ([1461], VAbs "qd8_2312", "# cqd8Abs2312");
   ([1462], VAbs "qd8_2313", "# cqd8Abs2313");
   ([1463], VAbs "qd8_2321", "# cqd8Abs2321");
   ([1464], VAbs "qd8_2322", "# cqd8Abs2322");
   ([1465], VAbs "qd8_2323", "# cqd8Abs2323");
   ([1466], VAbs "qd8_2331", "# cqd8Abs2331");
   ([1467], VAbs "qd8_2332", "# cqd8Abs2332");
   ([1468], VAbs "qd8_2333", "# cqd8Abs2333");
   ([1469], VVal "qd8_3311", "# cqd8Abs3311");
   ([1470], VAbs "qd8_3312", "# cqd8Abs3312");
   ([1471], VAbs "qd8_3313", "# cqd8Abs3313");
   ([1472], VVal "qd8_3322", "# cqd8Abs3322");
   ([1473], VVal "qd8_3333", "# cqd8Abs3333");
   ([1474], VAbs "qd8_3323", "# cqd8Abs3323")].
(* smeftsim.py:1581 *)
Definition A_FRBlock10 : list cardline :=
  [([1; 1], VAng "phiud_11", "# cHudPh1x1");
   ([1; 2], VAng "phiud_12", "# cHudPh1x2");
   ([1; 3], VAng "phiud_13", "# cHudPh1x3");
   ([2; 1], VAng "phiud_21", "# cHudPh2x1");
   ([2; 2], VAng "phiud_22", "# cHudPh2x2");
   ([2; 3], VAng "phiud_23", "# cHudPh2x3");
   ([3; 1], VAng "phiud_31", "# cHudPh3x1");
   ([3; 2], VAng "phiud_32", "# cHudPh3x2");
   ([3; 3], VAng "phiud_33", "# cHudPh3x3")].
(* smeftsim.py:1593 *)
Definition A_FRBlock11 : list cardline :=
  [([1; 1], VAng "ephi_11", "# ceHPh1x1");
   ([1; 2], VAng "ephi_12", "# ceHPh1x2");
   ([1; 3], VAng "ephi_13", "# ceHPh1x3");
   ([2; 1], VAng "ephi_21", "# ceHPh2x1");
   ([2; 2], VAng "ephi_22", "# ceHPh2x2");
   ([2; 3], VAng "ephi_23", "# ceHPh2x3");
   ([3; 1], VAng "ephi_31", "# ceHPh3x1");
   ([3; 2], VAng "ephi_32", "# ceHPh3x2");
   ([3; 3], VAng "ephi_33", "# ceHPh3x3")].
(* smeftsim.py:1605 *)
Definition A_FRBlock12 : list cardline :=
  [([1; 1], VAng "uphi_11", "# cuHPh1x1");
   ([1; 2], VAng "uphi_12", "# cuHPh1x2");
   ([1; 3], VAng "uphi_13", "# cuHPh1x3");
   ([2; 1], VAng "uphi_21", "# cuHPh2x1");
   ([2; 2], VAng "uphi_22", "# cuHPh2x2");
   ([2; 3], VAng "uphi_23", "# cuHPh2x3");
   ([3; 1], VAng "uphi_31", "# cuHPh3x1");
   ([3; 2], VAng "uphi_32", "# cuHPh3x2");
   ([3; 3], VAng "uphi_33", "# cuHPh3x3")].
(* smeftsim.py:1617 *)
Definition A_FRBlock13 : list cardline :=
  [([1; 1], VAng "dphi_11", "# cdHPh1x1");
   ([1; 2], VAng "dphi_12", "# cdHPh1x2");
   ([1; 3], VAng "dphi_13", "# cdHPh1x3");
   ([2; 1], VAng "dphi_21", "# cdHPh2x1");
   ([2; 2], VAng "dphi_22", "# cdHPh2x2");
   ([2; 3], VAng "dphi_23", "# cdHPh2x3");
   ([3; 1], VAng "dphi_31", "# cdHPh3x1");
   ([3; 2], VAng "dphi_32", "# cdHPh3x2");
   ([3; 3], VAng "dphi_33", "# cdHPh3x3")].
(* smeftsim.py:1629 *)
Definition A_FRBlock14 : list cardline :=
  [([1; 1; 1; 1], VAng "ledq_1111", "# cledqPh1x1x1x1");
   ([1; 1; 1; 2], VAng "ledq_1112", "# cledqPh1x1x1x2");
   ([1; 1; 1; 3], VAng "ledq_1113", "# cledqPh1x1x1x3");
   ([1; 1; 2; 1], VAng "ledq_1121", "# cledqPh1x1x2x1");
   ([1; 1; 2; 2], VAng "ledq_1122", "# cledqPh1x1x2x2");
   ([1; 1; 2; 3], VAng "ledq_1123", "# cledqPh1x1x2x3");
   ([1; 1; 3; 1], VAng "ledq_1131", "# cledqPh1x1x3x1");
   ([1; 1; 3; 2], VAng "ledq_1132", "# cledqPh1x1x3x2");
   ([1; 1; 3; 3], VAng "ledq_1133", "# cledqPh1x1x3x3");
   ([1; 2; 1; 1], VAng "ledq_1211", "# cledqPh1x2x1x1");
   ([1; 2; 1; 2], VAng "ledq_1212", "# cledqPh1x2x1x2");
   ([1; 2; 1; 3], VAng "ledq_1213", "# cledqPh1x2x1x3");
   ([1; 2; 2; 1], VAng "ledq_1221", "# cledqPh1x2x2x1");
   ([1; 2; 2; 2], VAng "ledq_1222", "# cledqPh1x2x2x2");
   ([1; 2; 2; 3], VAng "ledq_1223", "# cledqPh1x2x2x3");
   ([1; 2; 3; 1], VAng "ledq_1231", "# cledqPh1x2x3x1");
   ([1; 2; 3; 2], VAng "ledq_1232", "# cledqPh1x2x3x2");
   ([1; 2; 3; 3], VAng "ledq_1233", "# cledqPh1x2x3x3");
   ([1; 3; 1; 1], VAng "ledq_1311", "# cledqPh1x3x1x1");
   ([1; 3; 1; 2], VAng "ledq_1312", "# cledqPh1x3x1x2");
   ([1; 3; 1; 3], VAng "ledq_1313", "# cledqPh1x3x1x3");
   ([1; 3; 2; 1], VAng "ledq_1321", "# cledqPh1x3x2x1");
   ([1; 3; 2; 2], VAng "ledq_1322", "# cledqPh1x3x2x2");
   ([1; 3; 2; 3], VAng "ledq_1323", "# cledqPh1x3x2x3");
   ([1; 3; 3; 1], VAng "ledq_1331", "# cledqPh1x3x3x1");
   ([1; 3; 3; 2], VAng "ledq_1332", "# cledqPh1x3x3x2");
   ([1; 3; 3; 3], VAng "ledq_1333", "# cledqPh1x3x3x3");
   ([2; 1; 1; 1], VAng "ledq_2111", "# cledqPh2x1x1x1");
   ([2; 1; 1; 2], VAng "ledq_2112", "# cledqPh2x1x1x2");
   ([2; 1; 1; 3], VAng "ledq_2113", "# cledqPh2x1x1x3");
   ([2; 1; 2; 1], VAng "ledq_2121", "# cledqPh2x1x2x1");
   ([2; 1; 2; 2], VAng "ledq_2122", "# cledqPh2x1x2x2");
   ([2; 1; 2; 3], VAng "ledq_2123", "# cledqPh2x1x2x3");
   ([2; 1; 3; 1], VAng "ledq_2131", "# cledqPh2x1x3x1");
   ([2; 1; 3; 2], VAng "ledq_2132", "# cledqPh2x1x3x2");
   ([2; 1; 3; 3], VAng "ledq_2133", "# cledqPh2x1x3x3");
   ([2; 2; 1; 1], VAng "ledq_2211", "# cledqPh2x2x1x1");
   ([2; 2; 1; 2], VAng "ledq_2212", "# cledqPh2x2x1x2");
   ([2; 2; 1; 3], VAng "ledq_2213", "# cledqPh2x2x1x3");
   ([2; 2; 2; 1], VAng "ledq_2221", "# cledqPh2x2x2x1");
   ([2; 2; 2; 2], VAng "ledq_2222", "# cledqPh2x2x2x2");
   ([2; 2; 2; 3], VAng "ledq_2223", "# cledqPh2x2x2x3");
   ([2; 2; 3; 1], VAng "ledq_2231", "# cledqPh2x2x3x1");
   ([2; 2; 3; 2], VAng "ledq_2232", "# cledqPh2x2x3x2");
   ([2; 2; 3; 3], VAng "ledq_2233", "# cledqPh2x2x3x3");
   ([2; 3; 1; 1], VAng "ledq_2311", "# cledqPh2x3x1x1");
   ([2; 3; 1; 2], VAng "ledq_2312", "# cledqPh2x3x1x2");
   ([2; 3; 1; 3], VAng "ledq_2313", "# cledqPh2x3x1x3");
   ([2; 3; 2; 1], VAng "ledq_2321", "# cledqPh2x3x2x1");
   ([2; 3; 2; 2], VAng "ledq_2322", "# cledqPh2x3x2x2");
   ([2; 3; 2; 3], VAng "ledq_2323", "# cledqPh2x3x2x3");
   ([2; 3; 3; 1], VAng "ledq_2331", "# cledqPh2x3x3x1");
   ([2; 3; 3; 2], VAng "ledq_2332", "# cledqPh2x3x3x2");
   ([2; 3; 3; 3], VAng "ledq_2333", "# cledqPh2x3x3x3");
   ([3; 1; 1; 1], VAng "ledq_3111", "# cledqPh3x1x1x1");
   ([3; 1; 1; 2], VAng "ledq_3112", "# cledqPh3x1x1x2");
   ([3; 1; 1; 3], VAng "ledq_3113", "# cledqPh3x1x1x3");
   ([3; 1; 2; 1], VAng "ledq_3121", "# cledqPh3x1x2x1");
   ([3; 1; 2; 2], VAng "ledq_3122", "# cledqPh3x1x2x2");
   ([3; 1; 2; 3], VAng "ledq_3123", "# cledqPh3x1x2x3");
   ([3; 1; 3; 1], VAng "ledq_3131", "# cledqPh3x1x3x1");
   ([3; 1; 3; 2], VAng "ledq_3132", "# cledqPh3x1x3x2");
   ([3; 1; 3; 3], VAng "ledq_3133", "# cledqPh3x1x3x3");
   ([3; 2; 1; 1], VAng "ledq_3211", "# cledqPh3x2x1x1");
   ([3; 2; 1; 2], VAng "ledq_3212", "# cledqPh3x2x1x2");
   ([3; 2; 1; 3], VAng "ledq_3213", "# cledqPh3x2x1x3");
   ([3; 2; 2; 1], VAng "ledq_3221", "# cledqPh3x2x2x1");
   ([3; 2; 2; 2], VAng "ledq_3222", "# cledqPh3x2x2x2");
   ([3; 2; 2; 3], VAng "ledq_3223", "# cledqPh3x2x2x3");
   ([3; 2; 3; 1], VAng "ledq_3231", "# cledqPh3x2x3x1");
   ([3; 2; 3; 2], VAng "ledq_3232", "# cledqPh3x2x3x2");
   ([3; 2; 3; 3], VAng "ledq_3233", "# cledqPh3x2x3x3");
   ([3; 3; 1; 1], VAng "ledq_3311", "# cledqPh3x3x1x1");
   ([3; 3; 1; 2], VAng "ledq_3312", "# cledqPh3x3x1x2");
   ([3; 3; 1; 3], VAng "ledq_3313", "# cledqPh3x3x1x3");
   ([3; 3; 2; 1], VAng "ledq_3321", "# cledqPh3x3x2x1");
   ([3; 3; 2; 2], VAng "ledq_3322", "# cledqPh3x3x2x2");
   ([3; 3; 2; 3], VAng "ledq_3323", "# cledqPh3x3x2x3");
   ([3; 3; 3; 1], VAng "ledq_3331", "# cledqPh3x3x3x1");
   ([3; 3; 3; 2], VAng "ledq_3332", "# cledqPh3x3x3x2");
   ([3; 3; 3; 3], VAng "ledq_3333", "# cledqPh3x3x3x3")].
(* smeftsim.py:1713 *)
Definition A_FRBlock15 : list cardline :=
  [([1; 1; 1; 1], VAng "quqd1_1111", "# cquqd1Ph1x1x1x1");
   ([1; 1; 1; 2], VAng "quqd1_1112", "# cquqd1Ph1x1x1x2");
   ([1; 1; 1; 3], VAng "quqd1_1113", "# cquqd1Ph1x1x1x3");
   ([1; 1; 2; 1], VAng "quqd1_1121", "# cquqd1Ph1x1x2x1");
   ([1; 1; 2; 2], VAng "quqd1_1122", "# cquqd1Ph1x1x2x2");
   ([1; 1; 2; 3], VAng "quqd1_1123", "# cquqd1Ph1x1x2x3");
   ([1; 1; 3; 1], VAng "quqd1_1131", "# cquqd1Ph1x1x3x1");
   ([1; 1; 3; 2], VAng "quqd1_1132", "# cquqd1Ph1x1x3x2");
   ([1; 1; 3; 3], VAng "quqd1_1133", "# cquqd1Ph1x1x3x3");
   ([1; 2; 1; 1], VAng "quqd1_1211", "# cquqd1Ph1x2x1x1");
   ([1; 2; 1; 2], VAng "quqd1_1212", "# cquqd1Ph1x2x1x2");
   ([1; 2; 1; 3], VAng "quqd1_1213", "# cquqd1Ph1x2x1x3");
   ([1; 2; 2; 1], VAng "quqd1_1221", "# cquqd1Ph1x2x2x1");
   ([1; 2; 2; 2], VAng "quqd1_1222", "# cquqd1Ph1x2x2x2");
   ([1; 2; 2; 3], VAng "quqd1_1223", "# cquqd1Ph1x2x2x3");
   ([1; 2; 3; 1], VAng "quqd1_1231", "# cquqd1Ph1x2x3x1");
   ([1; 2; 3; 2], VAng "quqd1_1232", "# cquqd1Ph1x2x3x2");
   ([1; 2; 3; 3], VAng "quqd1_1233", "# cquqd1Ph1x2x3x3");
   ([1; 3; 1; 1], VAng "quqd1_1311", "# cquqd1Ph1x3x1x1");
   ([1; 3; 1; 2], VAng "quqd1_1312", "# cquqd1Ph1x3x1x2");
   ([1; 3; 1; 3], VAng "quqd1_1313", "# cquqd1Ph1x3x1x3");
   ([1; 3; 2; 1], VAng "quqd1_1321", "# cquqd1Ph1x3x2x1");
   ([1; 3; 2; 2], VAng "quqd1_1322", "# cquqd1Ph1x3x2x2");
   ([1; 3; 2; 3], VAng "quqd1_1323", "# cquqd1Ph1x3x2x3");
   ([1; 3; 3; 1], VAng "quqd1_1331", "# cquqd1Ph1x3x3x1");
   ([1; 3; 3; 2], VAng "quqd1_1332", "# cquqd1Ph1x3x3x2");
   ([1; 3; 3; 3], VAng "quqd1_1333", "# cquqd1Ph1x3x3x3");
   ([2; 1; 1; 1], VAng "quqd1_2111", "# cquqd1Ph2x1x1x1");
   ([2; 1; 1; 2], VAng "quqd1_2112", "# cquqd1Ph2x1x1x2");
   ([2; 1; 1; 3], VAng "quqd1_2113", "# cquqd1Ph2x1x1x3");
   ([2; 1; 2; 1], VAng "quqd1_2121", "# cquqd1Ph2x1x2x1");
   ([2; 1; 2; 2], VAng "quqd1_2122", "# cquqd1Ph2x1x2x2");
   ([2; 1; 2; 3], VAng "quqd1_2123", "# cquqd1Ph2x1x2x3");
   ([2; 1; 3; 1], VAng "quqd1_2131", "# cquqd1Ph2x1x3x1");
   ([2; 1; 3; 2], VAng "quqd1_2132", "# cquqd1Ph2x1x3x2");
   ([2; 1; 3; 3], VAng "quqd1_2133", "# cquqd1Ph2x1x3x3");
   ([2; 2; 1; 1], VAng "quqd1_2211", "# cquqd1Ph2x2x1x1");
   ([2; 2; 1; 2], VAng "quqd1_2212", "# cquqd1Ph2x2x1x2");
   ([2; 2; 1; 3], VAng "quqd1_2213", "# cquqd1Ph2x2x1x3");
   ([2; 2; 2; 1], VAng "quqd1_2221", "# cquqd1Ph2x2x2x1");
   ([2; 2; 2; 2], VAng "quqd1_2222", "# cquqd1Ph2x2x2x2");
   ([2; 2; 2; 3], VAng "quqd1_2223", "# cquqd1Ph2x2x2x3");
   ([2; 2; 3; 1], VAng "quqd1_2231", "# cquqd1Ph2x2x3x1");
   ([2; 2; 3; 2], VAng "quqd1_2232", "# cquqd1Ph2x2x3x2");
   ([2; 2; 3; 3], VAng "quqd1_2233", "# cquqd1Ph2x2x3x3");
   ([2; 3; 1; 1], VAng "quqd1_2311", "# cquqd1Ph2x3x1x1");
   ([2; 3; 1; 2], VAng "quqd1_2312", "# cquqd1Ph2x3x1x2");
   ([2; 3; 1; 3], VAng "quqd1_2313", "# cquqd1Ph2x3x1x3");
   ([2; 3; 2; 1], VAng "quqd1_2321", "# cquqd1Ph2x3x2x1");
   ([2; 3; 2; 2], VAng "quqd1_2322", "# cquqd1Ph2x3x2x2");
   ([2; 3; 2; 3], VAng "quqd1_2323", "# cquqd1Ph2x3x2x3");
   ([2; 3; 3; 1], VAng "quqd1_2331", "# cquqd1Ph2x3x3x1");
   ([2; 3; 3; 2], VAng "quqd1_2332", "# cquqd1Ph2x3x3x2");
   ([2; 3; 3; 3], VAng "quqd1_2333", "# cquqd1Ph2x3x3x3");
   ([3; 1; 1; 1], VAng "quqd1_3111", "# cquqd1Ph3x1x1x1");
   ([3; 1; 1; 2], VAng "quqd1_3112", "# cquqd1Ph3x1x1x2");
   ([3; 1; 1; 3], VAng "quqd1_3113", "# cquqd1Ph3x1x1x3");
   ([3; 1; 2; 1], VAng "quqd1_3121", "# cquqd1Ph3x1x2x1");
   ([3; 1; 2; 2], VAng "quqd1_3122", "# cquqd1Ph3x1x2x2");
   ([3; 1; 2; 3], VAng "quqd1_3123", "# cquqd1Ph3x1x2x3");
   ([3; 1; 3; 1], VAng "quqd1_3131", "# cquqd1Ph3x1x3x1");
   ([3; 1; 3; 2], VAng "quqd1_3132", "# cquqd1Ph3x1x3x2");
   ([3; 1; 3; 3], VAng "quqd1_3133", "# cquqd1Ph3x1x3x3");
   ([3; 2; 1; 1], VAng "quqd1_3211", "# cquqd1Ph3x2x1x1");
   ([3; 2; 1; 2], VAng "quqd1_3212", "# cquqd1Ph3x2x1x2");
   ([3; 2; 1; 3], VAng "quqd1_3213", "# cquqd1Ph3x2x1x3");
   ([3; 2; 2; 1], VAng "quqd1_3221", "# cquqd1Ph3x2x2x1");
   ([3; 2; 2; 2], VAng "quqd1_3222", "# cquqd1Ph3x2x2x2");
   ([3; 2; 2; 3], VAng "quqd1_3223", "# cquqd1Ph3x2x2x3");
   ([3; 2; 3; 1], VAng "quqd1_3231", "# cquqd1Ph3x2x3x1");
   ([3; 2; 3; 2], VAng "quqd1_3232", "# cquqd1Ph3x2x3x2");
   ([3; 2; 3; 3], VAng "quqd1_3233", "# cquqd1Ph3x2x3x3");
   ([3; 3; 1; 1], VAng "quqd1_3311", "# cquqd1Ph3x3x1x1");
   ([3; 3; 1; 2], VAng "quqd1_3312", "# cquqd1Ph3x3x1x2");
   ([3; 3; 1; 3], VAng "quqd1_3313", "# cquqd1Ph3x3x1x3");
   ([3; 3; 2; 1], VAng "quqd1_3321", "# cquqd1Ph3x3x2x1");
   ([3; 3; 2; 2], VAng "quqd1_3322", "# cquqd1Ph3x3x2x2");
   ([3; 3; 2; 3], VAng "quqd1_3323", "# cquqd1Ph3x3x2x3");
   ([3; 3; 3; 1], VAng "quqd1_3331", "# cquqd1Ph3x3x3x1");
   ([3; 3; 3; 2], VAng "quqd1_3332", "# cquqd1Ph3x3x3x2");
   ([3; 3; 3; 3], VAng "quqd1_3333", "# cquqd1Ph3x3x3x3")].
(* smeftsim.py:1797 *)
Definition A_FRBlock16 : list cardline :=
  [([1; 1; 1; 1], VAng "quqd8_1111", "# cquqd8Ph1x1x1x1");
   ([1; 1; 1; 2], VAng "quqd8_1112", "# cquqd8Ph1x1x1x2");
   ([1; 1; 1; 3], VAng "quqd8_1113", "# cquqd8Ph1x1x1x3");
   ([1; 1; 2; 1], VAng "quqd8_1121", "# cquqd8Ph1x1x2x1");
   ([1; 1; 2; 2], VAng "quqd8_1122", "# cquqd8Ph1x1x2x2");
   ([1; 1; 2; 3], VAng "quqd8_1123", "# cquqd8Ph1x1x2x3");
   ([1; 1; 3; 1], VAng "quqd8_1131", "# cquqd8Ph1x1x3x1");
   ([1; 1; 3; 2], VAng "quqd8_1132", "# cquqd8Ph1x1x3x2");
   ([1; 1; 3; 3], VAng "quqd8_1133", "# cquqd8Ph1x1x3x3");
   ([1; 2; 1; 1], VAng "quqd8_1211", "# cquqd8Ph1x2x1x1");
   ([1; 2; 1; 2], VAng "quqd8_1212", "# cquqd8Ph1x2x1x2");
   ([1; 2; 1; 3], VAng "quqd8_1213", "# cquqd8Ph1x2x1x3");
   ([1; 2; 2; 1], VAng "quqd8_1221", "# cquqd8Ph1x2x2x1");
   ([1; 2; 2; 2], VAng "quqd8_1222", "# cquqd8Ph1x2x2x2");
   ([1; 2; 2; 3], VAng "quqd8_1223", "# cquqd8Ph1x2x2x3");
   ([1; 2; 3; 1], VAng "quqd8_1231", "# cquqd8Ph1x2x3x1");
   ([1; 2; 3; 2], VAng "quqd8_1232", "# cquqd8Ph1x2x3x2");
   ([1; 2; 3; 3], VAng "quqd8_1233", "# cquqd8Ph1x2x3x3");
   ([1; 3; 1; 1], VAng "quqd8_1311", "# cquqd8Ph1x3x1x1");
   ([1; 3; 1; 2], VAng "quqd8_1312", "# cquqd8Ph1x3x1x2");
   ([1; 3; 1; 3], VAng "quqd8_1313", "# cquqd8Ph1x3x1x3");
   ([1; 3; 2; 1], VAng "quqd8_1321", "# cquqd8Ph1x3x2x1");
   ([1; 3; 2; 2], VAng "quqd8_1322", "# cquqd8Ph1x3x2x2");
   ([1; 3; 2; 3], VAng "quqd8_1323", "# cquqd8Ph1x3x2x3");
   ([1; 3; 3; 1], VAng "quqd8_1331", "# cquqd8Ph1x3x3x1");
   ([1; 3; 3; 2], VAng "quqd8_1332", "# cquqd8Ph1x3x3x2");
   ([1; 3; 3; 3], VAng "quqd8_1333", "# cquqd8Ph1x3x3x3");
   ([2; 1; 1; 1], VAng "quqd8_2111", "# cquqd8Ph2x1x1x1");
   ([2; 1; 1; 2], VAng "quqd8_2112", "# cquqd8Ph2x1x1x2");
   ([2; 1; 1; 3], VAng "quqd8_2113", "# cquqd8Ph2x1x1x3");
   ([2; 1; 2; 1], VAng "quqd8_2121", "# cquqd8Ph2x1x2x1");
   ([2; 1; 2; 2], VAng "quqd8_2122", "# cquqd8Ph2x1x2x2");
   ([2; 1; 2; 3], VAng "quqd8_2123", "# cquqd8Ph2x1x2x3");
   ([2; 1; 3; 1], VAng "quqd8_2131", "# cquqd8Ph2x1x3x1");
   ([2; 1; 3; 2], VAng "quqd8_2132", "# cquqd8Ph2x1x3x2");
   ([2; 1; 3; 3], VAng "quqd8_2133", "# cquqd8Ph2x1x3x3");
   ([2; 2; 1; 1], VAng "quqd8_2211", "# cquqd8Ph2x2x1x1");
   ([2; 2; 1; 2], VAng "quqd8_2212", "# cquqd8Ph2x2x1x2");
   ([2; 2; 1; 3], VAng "quqd8_2213", "# cquqd8Ph2x2x1x3");
   ([2; 2; 2; 1], VAng "quqd8_2221", "# cquqd8Ph2x2x2x1");
   ([2; 2; 2; 2], VAng "quqd8_2222", "# cquqd8Ph2x2x2x2");
   ([2; 2; 2; 3], VAng "quqd8_2223", "# cquqd8Ph2x2x2x3");
   ([2; 2; 3; 1], VAng "quqd8_2231", "# cquqd8Ph2x2x3x1");
   ([2; 2; 3; 2], VAng "quqd8_2232", "# cquqd8Ph2x2x3x2");
   ([2; 2; 3; 3], VAng "quqd8_2233", "# cquqd8Ph2x2x3x3");
   ([2; 3; 1; 1], VAng "quqd8_2311", "# cquqd8Ph2x3x1x1");
   ([2; 3; 1; 2], VAng "quqd8_2312", "# cquqd8Ph2x3x1x2");
   ([2; 3; 1; 3], VAng "quqd8_2313", "# cquqd8Ph2x3x1x3");
   ([2; 3; 2; 1], VAng "quqd8_2321", "# cquqd8Ph2x3x2x1");
   ([2; 3; 2; 2], VAng "quqd8_2322", "# cquqd8Ph2x3x2x2");
   ([2; 3; 2; 3], VAng "quqd8_2323", "# cquqd8Ph2x3x2x3");
   ([2; 3; 3; 1], VAng "quqd8_2331", "# cquqd8Ph2x3x3x1");
   ([2; 3; 3; 2], VAng "quqd8_2332", "# cquqd8Ph2x3x3x2");
   ([2; 3; 3; 3], VAng "quqd8_2333", "# cquqd8Ph2x3x3x3");
   ([3; 1; 1; 1], VAng "quqd8_3111", "# cquqd8Ph3x1x1x1");
   ([3; 1; 1; 2], VAng "quqd8_3112", "# cquqd8Ph3x1x1x2");
   ([3; 1; 1; 3], VAng "quqd8_3113", "# cquqd8Ph3x1x1x3");
   ([3; 1; 2; 1], VAng "quqd8_3121", "# cquqd8Ph3x1x2x1");
   ([3; 1; 2; 2], VAng "quqd8_3122", "# cquqd8Ph3x1x2x2");
   ([3; 1; 2; 3], VAng "quqd8_3123", "# cquqd8Ph3x1x2x3");
   ([3; 1; 3; 1], VAng "quqd8_3131", "# cquqd8Ph3x1x3x1");
   ([3; 1; 3; 2], VAng "quqd8_3132", "# cquqd8Ph3x1x3x2");
   ([3; 1; 3; 3], VAng "quqd8_3133", "# cquqd8Ph3x1x3x3");
   ([3; 2; 1; 1], VAng "quqd8_3211", "# cquqd8Ph3x2x1x1");
   ([3; 2; 1; 2], VAng "quqd8_3212", "# cquqd8Ph3x2x1x2");
   ([3; 2; 1; 3], VAng "quqd8_3213", "# cquqd8Ph3x2x1x3");
   ([3; 2; 2; 1], VAng "quqd8_3221", "# cquqd8Ph3x2x2x1");
   ([3; 2; 2; 2], VAng "quqd8_3222", "# cquqd8Ph3x2x2x2");
   ([3; 2; 2; 3], VAng "quqd8_3223", "# cquqd8Ph3x2x2x3");
   ([3; 2; 3; 1], VAng "quqd8_3231", "# cquqd8Ph3x2x3x1");
   ([3; 2; 3; 2], VAng "quqd8_3232", "# cquqd8Ph3x2x3x2");
   ([3; 2; 3; 3], VAng "quqd8_3233", "# cquqd8Ph3x2x3x3");
   ([3; 3; 1; 1], VAng "quqd8_3311", "# cquqd8Ph3x3x1x1");
   ([3; 3; 1; 2], VAng "quqd8_3312", "# cquqd8Ph3x3x1x2");
   ([3; 3; 1; 3], VAng "quqd8_3313", "# cquqd8Ph3x3x1x3");
   ([3; 3; 2; 1], VAng "quqd8_3321", "# cquqd8Ph3x3x2x1");
   ([3; 3; 2; 2], VAng "quqd8_3322", "# cquqd8Ph3x3x2x2");
   ([3; 3; 2; 3], VAng "quqd8_3323", "# cquqd8Ph3x3x2x3");
   ([3; 3; 3; 1], VAng "quqd8_3331", "# cquqd8Ph3x3x3x1");
   ([3; 3; 3; 2], VAng "quqd8_3332", "# cquqd8Ph3x3x3x2");
   ([3; 3; 3; 3], VAng "quqd8_3333", "# cquqd8Ph3x3x3x3")].
(* smeftsim.py:1881 *)
Definition A_FRBlock17 : list cardline :=
  [([1; 1; 1; 1], VAng "lequ1_1111", "# clequ1Ph1x1x1x1");
   ([1; 1; 1; 2], VAng "lequ1_1112", "# clequ1Ph1x1x1x2");
   ([1; 1; 1; 3], VAng "lequ1_1113", "# clequ1Ph1x1x1x3");
   ([1; 1; 2; 1], VAng "lequ1_1121", "# clequ1Ph1x1x2x1");
   ([1; 1; 2; 2], VAng "lequ1_1122", "# clequ1Ph1x1x2x2");
   ([1; 1; 2; 3], VAng "lequ1_1123", "# clequ1Ph1x1x2x3");
   ([1; 1; 3; 1], VAng "lequ1_1131", "# clequ1Ph1x1x3x1");
   ([1; 1; 3; 2], VAng "lequ1_1132", "# clequ1Ph1x1x3x2");
   ([1; 1; 3; 3], VAng "lequ1_1133", "# clequ1Ph1x1x3x3");
   ([1; 2; 1; 1], VAng "lequ1_1211", "# clequ1Ph1x2x1x1");
   ([1; 2; 1; 2], VAng "lequ1_1212", "# clequ1Ph1x2x1x2");
   ([1; 2; 1; 3], VAng "lequ1_1213", "# clequ1Ph1x2x1x3");
   ([1; 2; 2; 1], VAng "lequ1_1221", "# clequ1Ph1x2x2x1");
   ([1; 2; 2; 2], VAng "lequ1_1222", "# clequ1Ph1x2x2x2");
   ([1; 2; 2; 3], VAng "lequ1_1223", "# clequ1Ph1x2x2x3");
   ([1; 2; 3; 1], VAng "lequ1_1231", "# clequ1Ph1x2x3x1");
   ([1; 2; 3; 2], VAng "lequ1_1232", "# clequ1Ph1x2x3x2");
   ([1; 2; 3; 3], VAng "lequ1_1233", "# clequ1Ph1x2x3x3");
   ([1; 3; 1; 1], VAng "lequ1_1311", "# clequ1Ph1x3x1x1");
   ([1; 3; 1; 2], VAng "lequ1_1312", "# clequ1Ph1x3x1x2");
   ([1; 3; 1; 3], VAng "lequ1_1313", "# clequ1Ph1x3x1x3");
   ([1; 3; 2; 1], VAng "lequ1_1321", "# clequ1Ph1x3x2x1");
   ([1; 3; 2; 2], VAng "lequ1_1322", "# clequ1Ph1x3x2x2");
   ([1; 3; 2; 3], VAng "lequ1_1323", "# clequ1Ph1x3x2x3");
   ([1; 3; 3; 1], VAng "lequ1_1331", "# clequ1Ph1x3x3x1");
   ([1; 3; 3; 2], VAng "lequ1_1332", "# clequ1Ph1x3x3x2");
   ([1; 3; 3; 3], VAng "lequ1_1333", "# clequ1Ph1x3x3x3");
   ([2; 1; 1; 1], VAng "lequ1_2111", "# clequ1Ph2x1x1x1");
   ([2; 1; 1; 2], VAng "lequ1_2112", "# clequ1Ph2x1x1x2");
   ([2; 1; 1; 3], VAng "lequ1_2113", "# clequ1Ph2x1x1x3");
   ([2; 1; 2; 1], VAng "lequ1_2121", "# clequ1Ph2x1x2x1");
   ([2; 1; 2; 2], VAng "lequ1_2122", "# clequ1Ph2x1x2x2");
   ([2; 1; 2; 3], VAng "lequ1_2123", "# clequ1Ph2x1x2x3");
   ([2; 1; 3; 1], VAng "lequ1_2131", "# clequ1Ph2x1x3x1");
   ([2; 1; 3; 2], VAng "lequ1_2132", "# clequ1Ph2x1x3x2");
   ([2; 1; 3; 3], VAng "lequ1_2133", "# clequ1Ph2x1x3x3");
   ([2; 2; 1; 1], VAng "lequ1_2211", "# clequ1Ph2x2x1x1");
   ([2; 2; 1; 2], VAng "lequ1_2212", "# clequ1Ph2x2x1x2");
   ([2; 2; 1; 3], VAng "lequ1_2213", "# clequ1Ph2x2x1x3");
   ([2; 2; 2; 1], VAng "lequ1_2221", "# clequ1Ph2x2x2x1");
   ([2; 2; 2; 2], VAng "lequ1_2222", "# clequ1Ph2x2x2x2");
   ([2; 2; 2; 3], VAng "lequ1_2223", "# clequ1Ph2x2x2x3");
   ([2; 2; 3; 1], VAng "lequ1_2231", "# clequ1Ph2x2x3x1");
   ([2; 2; 3; 2], VAng "lequ1_2232", "# clequ1Ph2x2x3x2");
   ([2; 2; 3; 3], VAng "lequ1_2233", "# clequ1Ph2x2x3x3");
   ([2; 3; 1; 1], VAng "lequ1_2311", "# clequ1Ph2x3x1x1");
   ([2; 3; 1; 2], VAng "lequ1_2312", "# clequ1Ph2x3x1x2");
   ([2; 3; 1; 3], VAng "lequ1_2313", "# clequ1Ph2x3x1x3");
   ([2; 3; 2; 1], VAng "lequ1_2321", "# clequ1Ph2x3x2x1");
   ([2; 3; 2; 2], VAng "lequ1_2322", "# clequ1Ph2x3x2x2");
   ([2; 3; 2; 3], VAng "lequ1_2323", "# clequ1Ph2x3x2x3");
   ([2; 3; 3; 1], VAng "lequ1_2331", "# clequ1Ph2x3x3x1");
   ([2; 3; 3; 2], VAng "lequ1_2332", "# clequ1Ph2x3x3x2");
   ([2; 3; 3; 3], VAng "lequ1_2333", "# clequ1Ph2x3x3x3");
   ([3; 1; 1; 1], VAng "lequ1_3111", "# clequ1Ph3x1x1x1");
   ([3; 1; 1; 2], VAng "lequ1_3112", "# clequ1Ph3x1x1x2");
   ([3; 1; 1; 3], VAng "lequ1_3113", "# clequ1Ph3x1x1x3");
   ([3; 1; 2; 1], VAng "lequ1_3121", "# clequ1Ph3x1x2x1");
   ([3; 1; 2; 2], VAng "lequ1_3122", "# clequ1Ph3x1x2x2");
   ([3; 1; 2; 3], VAng "lequ1_3123", "# clequ1Ph3x1x2x3");
   ([3; 1; 3; 1], VAng "lequ1_3131", "# clequ1Ph3x1x3x1");
   ([3; 1; 3; 2], VAng "lequ1_3132", "# clequ1Ph3x1x3x2");
   ([3; 1; 3; 3], VAng "lequ1_3133", "# clequ1Ph3x1x3x3");
   ([3; 2; 1; 1], VAng "lequ1_3211", "# clequ1Ph3x2x1x1");
   ([3; 2; 1; 2], VAng "lequ1_3212", "# clequ1Ph3x2x1x2");
   ([3; 2; 1; 3], VAng "lequ1_3213", "# clequ1Ph3x2x1x3");
   ([3; 2; 2; 1], VAng "lequ1_3221", "# clequ1Ph3x2x2x1");
   ([3; 2; 2; 2], VAng "lequ1_3222", "# clequ1Ph3x2x2x2");
   ([3; 2; 2; 3], VAng "lequ1_3223", "# clequ1Ph3x2x2x3");
   ([3; 2; 3; 1], VAng "lequ1_3231", "# clequ1Ph3x2x3x1");
   ([3; 2; 3; 2], VAng "lequ1_3232", "# clequ1Ph3x2x3x2");
   ([3; 2; 3; 3], VAng "lequ1_3233", "# clequ1Ph3x2x3x3");
   ([3; 3; 1; 1], VAng "lequ1_3311", "# clequ1Ph3x3x1x1");
   ([3; 3; 1; 2], VAng "lequ1_3312", "# clequ1Ph3x3x1x2");
   ([3; 3; 1; 3], VAng "lequ1_3313", "# clequ1Ph3x3x1x3");
   ([3; 3; 2; 1], VAng "lequ1_3321", "# clequ1Ph3x3x2x1");
   ([3; 3; 2; 2], VAng "lequ1_3322", "# clequ1Ph3x3x2x2");
   ([3; 3; 2; 3], VAng "lequ1_3323", "# clequ1Ph3x3x2x3");
   ([3; 3; 3; 1], VAng "lequ1_3331", "# clequ1Ph3x3x3x1");
   ([3; 3; 3; 2], VAng "lequ1_3332", "# clequ1Ph3x3x3x2");
   ([3; 3; 3; 3], VAng "lequ1_3333", "# clequ1Ph3x3x3x3")].
(* smeftsim.py:1965 *)
Definition A_FRBlock18 : list cardline :=
  [([1; 1; 1; 1], VAng "lequ3_1111", "# clequ3Ph1x1x1x1");
   ([1; 1; 1; 2], VAng "lequ3_1112", "# clequ3Ph1x1x1x2");
   ([1; 1; 1; 3], VAng "lequ3_1113", "# clequ3Ph1x1x1x3");
   ([1; 1; 2; 1], VAng "lequ3_1121", "# clequ3Ph1x1x2x1");
   ([1; 1; 2; 2], VAng "lequ3_1122", "# clequ3Ph1x1x2x2");
   ([1; 1; 2; 3], VAng "lequ3_1123", "# clequ3Ph1x1x2x3");
   ([1; 1; 3; 1], VAng "lequ3_1131", "# clequ3Ph1x1x3x1");
   ([1; 1; 3; 2], VAng "lequ3_1132", "# clequ3Ph1x1x3x2");
   ([1; 1; 3; 3], VAng "lequ3_1133", "# clequ3Ph1x1x3x3");
   ([1; 2; 1; 1], VAng "lequ3_1211", "# clequ3Ph1x2x1x1");
   ([1; 2; 1; 2], VAng "lequ3_1212", "# clequ3Ph1x2x1x2");
   ([1; 2; 1; 3], VAng "lequ3_1213", "# clequ3Ph1x2x1x3");
   ([1; 2; 2; 1], VAng "lequ3_1221", "# clequ3Ph1x2x2x1");
   ([1; 2; 2; 2], VAng "lequ3_1222", "# clequ3Ph1x2x2x2");
   ([1; 2; 2; 3], VAng "lequ3_1223", "# clequ3Ph1x2x2x3");
   ([1; 2; 3; 1], VAng "lequ3_1231", "# clequ3Ph1x2x3x1");
   ([1; 2; 3; 2], VAng "lequ3_1232", "# clequ3Ph1x2x3x2");
   ([1; 2; 3; 3], VAng "lequ3_1233", "# clequ3Ph1x2x3x3");
   ([1; 3; 1; 1], VAng "lequ3_1311", "# clequ3Ph1x3x1x1");
   ([1; 3; 1; 2], VAng "lequ3_1312", "# clequ3Ph1x3x1x2");
   ([1; 3; 1; 3], VAng "lequ3_1313", "# clequ3Ph1x3x1x3");
   ([1; 3; 2; 1], VAng "lequ3_1321", "# clequ3Ph1x3x2x1");
   ([1; 3; 2; 2], VAng "lequ3_1322", "# clequ3Ph1x3x2x2");
   ([1; 3; 2; 3], VAng "lequ3_1323", "# clequ3Ph1x3x2x3");
   ([1; 3; 3; 1], VAng "lequ3_1331", "# clequ3Ph1x3x3x1");
   ([1; 3; 3; 2], VAng "lequ3_1332", "# clequ3Ph1x3x3x2");
   ([1; 3; 3; 3], VAng "lequ3_1333", "# clequ3Ph1x3x3x3");
   ([2; 1; 1; 1], VAng "lequ3_2111", "# clequ3Ph2x1x1x1");
   ([2; 1; 1; 2], VAng "lequ3_2112", "# clequ3Ph2x1x1x2");
   ([2; 1; 1; 3], VAng "lequ3_2113", "# clequ3Ph2x1x1x3");
   ([2; 1; 2; 1], VAng "lequ3_2121", "# clequ3Ph2x1x2x1");
   ([2; 1; 2; 2], VAng "lequ3_2122", "# clequ3Ph2x1x2x2");
   ([2; 1; 2; 3], VAng "lequ3_2123", "# clequ3Ph2x1x2x3");
   ([2; 1; 3; 1], VAng "lequ3_2131", "# clequ3Ph2x1x3x1");
   ([2; 1; 3; 2], VAng "lequ3_2132", "# clequ3Ph2x1x3x2");
   ([2; 1; 3; 3], VAng "lequ3_2133", "# clequ3Ph2x1x3x3");
   ([2; 2; 1; 1], VAng "lequ3_2211", "# clequ3Ph2x2x1x1");
   ([2; 2; 1; 2], VAng "lequ3_2212", "# clequ3Ph2x2x1x2");
   ([2; 2; 1; 3], VAng "lequ3_2213", "# clequ3Ph2x2x1x3");
   ([2; 2; 2; 1], VAng "lequ3_2221", "# clequ3Ph2x2x2x1");
   ([2; 2; 2; 2], VAng "lequ3_2222", "# clequ3Ph2x2x2x2");
   ([2; 2; 2; 3], VAng "lequ3_2223", "# clequ3Ph2x2x2x3");
   ([2; 2; 3; 1], VAng "lequ3_2231", "# clequ3Ph2x2x3x1");
   ([2; 2; 3; 2], VAng "lequ3_2232", "# clequ3Ph2x2x3x2");
   ([2; 2; 3; 3], VAng "lequ3_2233", "# clequ3Ph2x2x3x3");
   ([2; 3; 1; 1], VAng "lequ3_2311", "# clequ3Ph2x3x1x1");
   ([2; 3; 1; 2], VAng "lequ3_2312", "# clequ3Ph2x3x1x2");
   ([2; 3; 1; 3], VAng "lequ3_2313", "# clequ3Ph2x3x1x3");
   ([2; 3; 2; 1], VAng "lequ3_2321", "# clequ3Ph2x3x2x1");
   ([2; 3; 2; 2], VAng "lequ3_2322", "# clequ3Ph2x3x2x2");
   ([2; 3; 2; 3], VAng "lequ3_2323", "# clequ3Ph2x3x2x3");
   ([2; 3; 3; 1], VAng "lequ3_2331", "# clequ3Ph2x3x3x1");
   ([2; 3; 3; 2], VAng "lequ3_2332", "# clequ3Ph2x3x3x2");
   ([2; 3; 3; 3], VAng "lequ3_2333", "# clequ3Ph2x3x3x3");
   ([3; 1; 1; 1], VAng "lequ3_3111", "# clequ3Ph3x1x1x1");
   ([3; 1; 1; 2], VAng "lequ3_3112", "# clequ3Ph3x1x1x2");
   ([3; 1; 1; 3], VAng "lequ3_3113", "# clequ3Ph3x1x1x3");
   ([3; 1; 2; 1], VAng "lequ3_3121", "# clequ3Ph3x1x2x1");
   ([3; 1; 2; 2], VAng "lequ3_3122", "# clequ3Ph3x1x2x2");
   ([3; 1; 2; 3], VAng "lequ3_3123", "# clequ3Ph3x1x2x3");
   ([3; 1; 3; 1], VAng "lequ3_3131", "# clequ3Ph3x1x3x1");
   ([3; 1; 3; 2], VAng "lequ3_3132", "# clequ3Ph3x1x3x2");
   ([3; 1; 3; 3], VAng "lequ3_3133", "# clequ3Ph3x1x3x3");
   ([3; 2; 1; 1], VAng "lequ3_3211", "# clequ3Ph3x2x1x1");
   ([3; 2; 1; 2], VAng "lequ3_3212", "# clequ3Ph3x2x1x2");
   ([3; 2; 1; 3], VAng "lequ3_3213", "# clequ3Ph3x2x1x3");
   ([3; 2; 2; 1], VAng "lequ3_3221", "# clequ3Ph3x2x2x1");
   ([3; 2; 2; 2], VAng "lequ3_3222", "# clequ3Ph3x2x2x2");
   ([3; 2; 2; 3], VAng "lequ3_3223", "# clequ3Ph3x2x2x3");
   ([3; 2; 3; 1], VAng "lequ3_3231", "# clequ3Ph3x2x3x1");
   ([3; 2; 3; 2], VAng "lequ3_3232", "# clequ3Ph3x2x3x2");
   ([3; 2; 3; 3], VAng "lequ3_3233", "# clequ3Ph3x2x3x3");
   ([3; 3; 1; 1], VAng "lequ3_3311", "# clequ3Ph3x3x1x1");
   ([3; 3; 1; 2], VAng "lequ3_3312", "# clequ3Ph3x3x1x2");
   ([3; 3; 1; 3], VAng "lequ3_3313", "# clequ3Ph3x3x1x3");
   ([3; 3; 2; 1], VAng "lequ3_3321", "# clequ3Ph3x3x2x1");
   ([3; 3; 2; 2], VAng "lequ3_3322", "# clequ3Ph3x3x2x2");
   ([3; 3; 2; 3], VAng "lequ3_3323", "# clequ3Ph3x3x2x3");
   ([3; 3; 3; 1], VAng "lequ3_3331", "# clequ3Ph3x3x3x1");
   ([3; 3; 3; 2], VAng "lequ3_3332", "# clequ3Ph3x3x3x2");
   ([3; 3; 3; 3], VAng "lequ3_3333", "# clequ3Ph3x3x3x3")].
(* smeftsim.py:2049 *)
Definition A_FRBlock19 : list cardline :=
  [([1; 1], VAbs "ephi_11", "# ceHAbs1x1");
   ([1; 2], VAbs "ephi_12", "# ceHAbs1x2");
   ([1; 3], VAbs "ephi_13", "# ceHAbs1x3");
   ([2; 1], VAbs "ephi_21", "# ceHAbs2x1");
   ([2; 2], VAbs "ephi_22", "# ceHAbs2x2");
   ([2; 3], VAbs "ephi_23", "# ceHAbs2x3");
   ([3; 1], VAbs "ephi_31", "# ceHAbs3x1");
   ([3; 2], VAbs "ephi_32", "# ceHAbs3x2");
   ([3; 3], VAbs "ephi_33", "# ceHAbs3x3")].
(* smeftsim.py:2061 *)
Definition A_FRBlock2 : list cardline :=
  [([1; 1], VAng "eW_11", "# ceWPh1x1");
   ([1; 2], VAng "eW_12", "# ceWPh1x2");
   ([1; 3], VAng "eW_13", "# ceWPh1x3");
   ([2; 1], VAng "eW_21", "# ceWPh2x1");
   ([2; 2], VAng "eW_22", "# ceWPh2x2");
   ([2; 3], VAng "eW_23", "# ceWPh2x3");
   ([3; 1], VAng "eW_31", "# ceWPh3x1");
   ([3; 2], VAng "eW_32", "# ceWPh3x2");
   ([3; 3], VAng "eW_33", "# ceWPh3x3")].
(* smeftsim.py:2073 *)
Definition A_FRBlock20 : list cardline :=
  [([1; 1], VAbs "uphi_11", "# cuHAbs1x1");
   ([1; 2], VAbs "uphi_12", "# cuHAbs1x2");
   ([1; 3], VAbs "uphi_13", "# cuHAbs1x3");
   ([2; 1], VAbs "uphi_21", "# cuHAbs2x1");
   ([2; 2], VAbs "uphi_22", "# cuHAbs2x2");
   ([2; 3], VAbs "uphi_23", "# cuHAbs2x3");
   ([3; 1], VAbs "uphi_31", "# cuHAbs3x1");
   ([3; 2], VAbs "uphi_32", "# cuHAbs3x2");
   ([3; 3], VAbs "uphi_33", "# cuHAbs3x3")].
(* smeftsim.py:2085 *)
Definition A_FRBlock21 : list cardline :=
  [([1; 1], VAbs "dphi_11", "# cdHAbs1x1");
   ([1; 2], VAbs "dphi_12", "# cdHAbs1x2");
   ([1; 3], VAbs "dphi_13", "# cdHAbs1x3");
   ([2; 1], VAbs "dphi_21", "# cdHAbs2x1");
   ([2; 2], VAbs "dphi_22", "# cdHAbs2x2");
   ([2; 3], VAbs "dphi_23", "# cdHAbs2x3");
   ([3; 1], VAbs "dphi_31", "# cdHAbs3x1");
   ([3; 2], VAbs "dphi_32", "# cdHAbs3x2");
   ([3; 3], VAbs "dphi_33", "# cdHAbs3x3")].
(* smeftsim.py:2097 *)
Definition A_FRBlock25 : list cardline :=
  [([1; 1], VAbs "eW_11", "# ceWAbs1x1");
   ([1; 2], VAbs "eW_12", "# ceWAbs1x2");
   ([1; 3], VAbs "eW_13", "# ceWAbs1x3");
   ([2; 1], VAbs "eW_21", "# ceWAbs2x1");
   ([2; 2], VAbs "eW_22", "# ceWAbs2x2");
   ([2; 3], VAbs "eW_23", "# ceWAbs2x3");
   ([3; 1], VAbs "eW_31", "# ceWAbs3x1");
   ([3; 2], VAbs "eW_32", "# ceWAbs3x2");
   ([3; 3], VAbs "eW_33", "# ceWAbs3x3")].
(* smeftsim.py:2109 *)
Definition A_FRBlock26 : list cardline :=
  [([1; 1], VAbs "eB_11", "# ceBAbs1x1");
   ([1; 2], VAbs "eB_12", "# ceBAbs1x2");
   ([1; 3], VAbs "eB_13", "# ceBAbs1x3");
   ([2; 1], VAbs "eB_21", "# ceBAbs2x1");
   ([2; 2], VAbs "eB_22", "# ceBAbs2x2");
   ([2; 3], VAbs "eB_23", "# ceBAbs2x3");
   ([3; 1], VAbs "eB_31", "# ceBAbs3x1");
   ([3; 2], VAbs "eB_32", "# ceBAbs3x2");
   ([3; 3], VAbs "eB_33", "# ceBAbs3x3")].
(* smeftsim.py:2121 *)
Definition A_FRBlock27 : list cardline :=
  [([1; 1], VAbs "uG_11", "# cuGAbs1x1");
   ([1; 2], VAbs "uG_12", "# cuGAbs1x2");
   ([1; 3], VAbs "uG_13", "# cuGAbs1x3");
   ([2; 1], VAbs "uG_21", "# cuGAbs2x1");
   ([2; 2], VAbs "uG_22", "# cuGAbs2x2");
   ([2; 3], VAbs "uG_23", "# cuGAbs2x3");
   ([3; 1], VAbs "uG_31", "# cuGAbs3x1");
   ([3; 2], VAbs "uG_32", "# cuGAbs3x2");
   ([3; 3], VAbs "uG_33", "# cuGAbs3x3")].
(* smeftsim.py:2133 *)
Definition A_FRBlock28 : list cardline :=
  [([1; 1], VAbs "uW_11", "# cuWAbs1x1");
   ([1; 2], VAbs "uW_12", "# cuWAbs1x2");
   ([1; 3], VAbs "uW_13", "# cuWAbs1x3");
   ([2; 1], VAbs "uW_21", "# cuWAbs2x1");
   ([2; 2], VAbs "uW_22", "# cuWAbs2x2");
   ([2; 3], VAbs "uW_23", "# cuWAbs2x3");
   ([3; 1], VAbs "uW_31", "# cuWAbs3x1");
   ([3; 2], VAbs "uW_32", "# cuWAbs3x2");
   ([3; 3], VAbs "uW_33", "# cuWAbs3x3")].
(* smeftsim.py:2145 *)
Definition A_FRBlock29 : list cardline :=
  [([1; 1], VAbs "uB_11", "# cuBAbs1x1");
   ([1; 2], VAbs "uB_12", "# cuBAbs1x2");
   ([1; 3], VAbs "uB_13", "# cuBAbs1x3");
   ([2; 1], VAbs "uB_21", "# cuBAbs2x1");
   ([2; 2], VAbs "uB_22", "# cuBAbs2x2");
   ([2; 3], VAbs "uB_23", "# cuBAbs2x3");
   ([3; 1], VAbs "uB_31", "# cuBAbs3x1");
   ([3; 2], VAbs "uB_32", "# cuBAbs3x2");
   ([3; 3], VAbs "uB_33", "# cuBAbs3x3")].
(* smeftsim.py:2157 *)
Definition A_FRBlock3 : list cardline :=
  [([1; 1], VAng "eB_11", "# ceBPh1x1");
   ([1; 2], VAng "eB_12", "# ceBPh1x2");
   ([1; 3], VAng "eB_13", "# ceBPh1x3");
   ([2; 1], VAng "eB_21", "# ceBPh2x1");
   ([2; 2], VAng "eB_22", "# ceBPh2x2");
   ([2; 3], VAng "eB_23", "# ceBPh2x3");
   ([3; 1], VAng "eB_31", "# ceBPh3x1");
   ([3; 2], VAng "eB_32", "# ceBPh3x2");
   ([3; 3], VAng "eB_33", "# ceBPh3x3")].
(* smeftsim.py:2169 *)
Definition A_FRBlock30 : list cardline :=
  [([1; 1], VAbs "dG_11", "# cdGAbs1x1");
   ([1; 2], VAbs "dG_12", "# cdGAbs1x2");
   ([1; 3], VAbs "dG_13", "# cdGAbs1x3");
   ([2; 1], VAbs "dG_21", "# cdGAbs2x1");
   ([2; 2], VAbs "dG_22", "# cdGAbs2x2");
   ([2; 3], VAbs "dG_23", "# cdGAbs2x3");
   ([3; 1], VAbs "dG_31", "# cdGAbs3x1");
   ([3; 2], VAbs "dG_32", "# cdGAbs3x2");
   ([3; 3], VAbs "dG_33", "# cdGAbs3x3")].
(* smeftsim.py:2181 *)
Definition A_FRBlock31 : list cardline :=
  [([1; 1], VAbs "dW_11", "# cdWAbs1x1");
   ([1; 2], VAbs "dW_12", "# cdWAbs1x2");
   ([1; 3], VAbs "dW_13", "# cdWAbs1x3");
   ([2; 1], VAbs "dW_21", "# cdWAbs2x1");
   ([2; 2], VAbs "dW_22", "# cdWAbs2x2");
   ([2; 3], VAbs "dW_23", "# cdWAbs2x3");
   ([3; 1], VAbs "dW_31", "# cdWAbs3x1");
   ([3; 2], VAbs "dW_32", "# cdWAbs3x2");
   ([3; 3], VAbs "dW_33", "# cdWAbs3x3")].
(* smeftsim.py:2193 *)
Definition A_FRBlock32 : list cardline :=
  [([1; 1], VAbs "dB_11", "# cdBAbs1x1");
   ([1; 2], VAbs "dB_12", "# cdBAbs1x2");
   ([1; 3], VAbs "dB_13", "# cdBAbs1x3");
   ([2; 1], VAbs "dB_21", "# cdBAbs2x1");
   ([2; 2], VAbs "dB_22", "# cdBAbs2x2");
   ([2; 3], VAbs "dB_23", "# cdBAbs2x3");
   ([3; 1], VAbs "dB_31", "# cdBAbs3x1");
   ([3; 2], VAbs "dB_32", "# cdBAbs3x2");
   ([3; 3], VAbs "dB_33", "# cdBAbs3x3")].
(* smeftsim.py:2205 *)
Definition A_FRBlock4 : list cardline :=
  [([1; 1], VAng "uG_11", "# cuGPh1x1");
   ([1; 2], VAng "uG_12", "# cuGPh1x2");
   ([1; 3], VAng "uG_13", "# cuGPh1x3");
   ([2; 1], VAng "uG_21", "# cuGPh2x1");
   ([2; 2], VAng "uG_22", "# cuGPh2x2");
   ([2; 3], VAng "uG_23", "# cuGPh2x3");
   ([3; 1], VAng "uG_31", "# cuGPh3x1");
   ([3; 2], VAng "uG_32", "# cuGPh3x2");
   ([3; 3], VAng "uG_33", "# cuGPh3x3")].
(* smeftsim.py:2217 *)
Definition A_FRBlock48 : list cardline :=
  [([1; 1], VAbs "phiud_11", "# cHudAbs1x1");
   ([1; 2], VAbs "phiud_12", "# cHudAbs1x2");
   ([1; 3], VAbs "phiud_13", "# cHudAbs1x3");
   ([2; 1], VAbs "phiud_21", "# cHudAbs2x1");
   ([2; 2], VAbs "phiud_22", "# cHudAbs2x2");
   ([2; 3], VAbs "phiud_23", "# cHudAbs2x3");
   ([3; 1], VAbs "phiud_31", "# cHudAbs3x1");
   ([3; 2], VAbs "phiud_32", "# cHudAbs3x2");
   ([3; 3], VAbs "phiud_33", "# cHudAbs3x3")].
(* smeftsim.py:2229 *)
Definition A_FRBlock5 : list cardline :=
  [([1; 1], VAng "uW_11", "# cuWPh1x1");
   ([1; 2], VAng "uW_12", "# cuWPh1x2");
   ([1; 3], VAng "uW_13", "# cuWPh1x3");
   ([2; 1], VAng "uW_21", "# cuWPh2x1");
   ([2; 2], VAng "uW_22", "# cuWPh2x2");
   ([2; 3], VAng "uW_23", "# cuWPh2x3");
   ([3; 1], VAng "uW_31", "# cuWPh3x1");
   ([3; 2], VAng "uW_32", "# cuWPh3x2");
   ([3; 3], VAng "uW_33", "# cuWPh3x3")].
(* smeftsim.py:2241 *)
Definition A_FRBlock6 : list cardline :=
  [([1; 1], VAng "uB_11", "# cuBPh1x1");
   ([1; 2], VAng "uB_12", "# cuBPh1x2");
   ([1; 3], VAng "uB_13", "# cuBPh1x3");
   ([2; 1], VAng "uB_21", "# cuBPh2x1");
   ([2; 2], VAng "uB_22", "# cuBPh2x2");
   ([2; 3], VAng "uB_23", "# cuBPh2x3");
   ([3; 1], VAng "uB_31", "# cuBPh3x1");
   ([3; 2], VAng "uB_32", "# cuBPh3x2");
   ([3; 3], VAng "uB_33", "# cuBPh3x3")].
(* smeftsim.py:2253 *)
Definition A_FRBlock7 : list cardline :=
  [([1; 1], VAng "dG_11", "# cdGPh1x1");
   ([1; 2], VAng "dG_12", "# cdGPh1x2");
   ([1; 3], VAng "dG_13", "# cdGPh1x3");
   ([2; 1], VAng "dG_21", "# cdGPh2x1");
   ([2; 2], VAng "dG_22", "# cdGPh2x2");
   ([2; 3], VAng "dG_23", "# cdGPh2x3");
   ([3; 1], VAng "dG_31", "# cdGPh3x1");
   ([3; 2], VAng "dG_32", "# cdGPh3x2");
   ([3; 3], VAng "dG_33", "# cdGPh3x3")].
(* smeftsim.py:2265 *)
Definition A_FRBlock70 : list cardline :=
  [([1; 1; 1; 1], VAbs "ledq_1111", "# cledqAbs1x1x1x1");
   ([1; 1; 1; 2], VAbs "ledq_1112", "# cledqAbs1x1x1x2");
   ([1; 1; 1; 3], VAbs "ledq_1113", "# cledqAbs1x1x1x3");
   ([1; 1; 2; 1], VAbs "ledq_1121", "# cledqAbs1x1x2x1");
   ([1; 1; 2; 2], VAbs "ledq_1122", "# cledqAbs1x1x2x2");
   ([1; 1; 2; 3], VAbs "ledq_1123", "# cledqAbs1x1x2x3");
   ([1; 1; 3; 1], VAbs "ledq_1131", "# cledqAbs1x1x3x1");
   ([1; 1; 3; 2], VAbs "ledq_1132", "# cledqAbs1x1x3x2");
   ([1; 1; 3; 3], VAbs "ledq_1133", "# cledqAbs1x1x3x3");
   ([1; 2; 1; 1], VAbs "ledq_1211", "# cledqAbs1x2x1x1");
   ([1; 2; 1; 2], VAbs "ledq_1212", "# cledqAbs1x2x1x2");
   ([1; 2; 1; 3], VAbs "ledq_1213", "# cledqAbs1x2x1x3");
   ([1; 2; 2; 1], VAbs "ledq_1221", "# cledqAbs1x2x2x1");
   ([1; 2; 2; 2], VAbs "ledq_1222", "# cledqAbs1x2x2x2");
   ([1; 2; 2; 3], VAbs "ledq_1223", "# cledqAbs1x2x2x3");
   ([1; 2; 3; 1], VAbs "ledq_1231", "# cledqAbs1x2x3x1");
   ([1; 2; 3; 2], VAbs "ledq_1232", "# cledqAbs1x2x3x2");
   ([1; 2; 3; 3], VAbs "ledq_1233", "# cledqAbs1x2x3x3");
   ([1; 3; 1; 1], VAbs "ledq_1311", "# cledqAbs1x3x1x1");
   ([1; 3; 1; 2], VAbs "ledq_1312", "# cledqAbs1x3x1x2");
   ([1; 3; 1; 3], VAbs "ledq_1313", "# cledqAbs1x3x1x3");
   ([1; 3; 2; 1], VAbs "ledq_1321", "# cledqAbs1x3x2x1");
   ([1; 3; 2; 2], VAbs "ledq_1322", "# cledqAbs1x3x2x2");
   ([1; 3; 2; 3], VAbs "ledq_1323", "# cledqAbs1x3x2x3");
   ([1; 3; 3; 1], VAbs "ledq_1331", "# cledqAbs1x3x3x1");
   ([1; 3; 3; 2], VAbs "ledq_1332", "# cledqAbs1x3x3x2");
   ([1; 3; 3; 3], VAbs "ledq_1333", "# cledqAbs1x3x3x3");
   ([2; 1; 1; 1], VAbs "ledq_2111", "# cledqAbs2x1x1x1");
   ([2; 1; 1; 2], VAbs "ledq_2112", "# cledqAbs2x1x1x2");
   ([2; 1; 1; 3], VAbs "ledq_2113", "# cledqAbs2x1x1x3");
   ([2; 1; 2; 1], VAbs "ledq_2121", "# cledqAbs2x1x2x1");
   ([2; 1; 2; 2], VAbs "ledq_2122", "# cledqAbs2x1x2x2");
   ([2; 1; 2; 3], VAbs "ledq_2123", "# cledqAbs2x1x2x3");
   ([2; 1; 3; 1], VAbs "ledq_2131", "# cledqAbs2x1x3x1");
   ([2; 1; 3; 2], VAbs "ledq_2132", "# cledqAbs2x1x3x2");
   ([2; 1; 3; 3], VAbs "ledq_2133", "# cledqAbs2x1x3x3");
   ([2; 2; 1; 1], VAbs "ledq_2211", "# cledqAbs2x2x1x1");
   ([2; 2; 1; 2], VAbs "ledq_2212", "# cledqAbs2x2x1x2");
   ([2; 2; 1; 3], VAbs "ledq_2213", "# cledqAbs2x2x1x3");
   ([2; 2; 2; 1], VAbs "ledq_2221", "# cledqAbs2x2x2x1");
   ([2; 2; 2; 2], VAbs "ledq_2222", "# cledqAbs2x2x2x2");
   ([2; 2; 2; 3], VAbs "ledq_2223", "# cledqAbs2x2x2x3");
   ([2; 2; 3; 1], VAbs "ledq_2231", "# cledqAbs2x2x3x1");
   ([2; 2; 3; 2], VAbs "ledq_2232", "# cledqAbs2x2x3x2");
   ([2; 2; 3; 3], VAbs "ledq_2233", "# cledqAbs2x2x3x3");
   ([2; 3; 1; 1], VAbs "ledq_2311", "# cledqAbs2x3x1x1");
   ([2; 3; 1; 2], VAbs "ledq_2312", "# cledqAbs2x3x1x2");
   ([2; 3; 1; 3], VAbs "ledq_2313", "# cledqAbs2x3x1x3");
   ([2; 3; 2; 1], VAbs "ledq_2321", "# cledqAbs2x3x2x1");
   ([2; 3; 2; 2], VAbs "ledq_2322", "# cledqAbs2x3x2x2");
   ([2; 3; 2; 3], VAbs "ledq_2323", "# cledqAbs2x3x2x3");
   ([2; 3; 3; 1], VAbs "ledq_2331", "# cledqAbs2x3x3x1");
   ([2; 3; 3; 2], VAbs "ledq_2332", "# cledqAbs2x3x3x2");
   ([2; 3; 3; 3], VAbs "ledq_2333", "# cledqAbs2x3x3x3");
   ([3; 1; 1; 1], VAbs "ledq_3111", "# cledqAbs3x1x1x1");
   ([3; 1; 1; 2], VAbs "ledq_3112", "# cledqAbs3x1x1x2");
   ([3; 1; 1; 3], VAbs "ledq_3113", "# cledqAbs3x1x1x3");
   ([3; 1; 2; 1], VAbs "ledq_3121", "# cledqAbs3x1x2x1");
   ([3; 1; 2; 2], VAbs "ledq_3122", "# cledqAbs3x1x2x2");
   ([3; 1; 2; 3], VAbs "ledq_3123", "# cledqAbs3x1x2x3");
   ([3; 1; 3; 1], VAbs "ledq_3131", "# cledqAbs3x1x3x1");
   ([3; 1; 3; 2], VAbs "ledq_3132", "# cledqAbs3x1x3x2");
   ([3; 1; 3; 3], VAbs "ledq_3133", "# cledqAbs3x1x3x3");
   ([3; 2; 1; 1], VAbs "ledq_3211", "# cledqAbs3x2x1x1");
   ([3; 2; 1; 2], VAbs "ledq_3212", "# cledqAbs3x2x1x2");
   ([3; 2; 1; 3], VAbs "ledq_3213", "# cledqAbs3x2x1x3");
   ([3; 2; 2; 1], VAbs "ledq_3221", "# cledqAbs3x2x2x1");
   ([3; 2; 2; 2], VAbs "ledq_3222", "# cledqAbs3x2x2x2");
   ([3; 2; 2; 3], VAbs "ledq_3223", "# cledqAbs3x2x2x3");
   ([3; 2; 3; 1], VAbs "ledq_3231", "# cledqAbs3x2x3x1");
   ([3; 2; 3; 2], VAbs "ledq_3232", "# cledqAbs3x2x3x2");
   ([3; 2; 3; 3], VAbs "ledq_3233", "# cledqAbs3x2x3x3");
   ([3; 3; 1; 1], VAbs "ledq_3311", "# cledqAbs3x3x1x1");
   ([3; 3; 1; 2], VAbs "ledq_3312", "# cledqAbs3x3x1x2");
   ([3; 3; 1; 3], VAbs "ledq_3313", "# cledqAbs3x3x1x3");
   ([3; 3; 2; 1], VAbs "ledq_3321", "# cledqAbs3x3x2x1");
   ([3; 3; 2; 2], VAbs "ledq_3322", "# cledqAbs3x3x2x2");
   ([3; 3; 2; 3], VAbs "ledq_3323", "# cledqAbs3x3x2x3");
   ([3; 3; 3; 1], VAbs "ledq_3331", "# cledqAbs3x3x3x1");
   ([3; 3; 3; 2], VAbs "ledq_3332", "# cledqAbs3x3x3x2");
   ([3; 3; 3; 3], VAbs "ledq_3333", "# cledqAbs3x3x3x3")].
(* smeftsim.py:2349 *)
Definition A_FRBlock71 : list cardline :=
  [([1; 1; 1; 1], VAbs "quqd1_1111", "# cquqd1Abs1x1x1x1");
   ([1; 1; 1; 2], VAbs "quqd1_1112", "# cquqd1Abs1x1x1x2");
   ([1; 1; 1; 3], VAbs "quqd1_1113", "# cquqd1Abs1x1x1x3");
   ([1; 1; 2; 1], VAbs "quqd1_1121", "# cquqd1Abs1x1x2x1");
   ([1; 1; 2; 2], VAbs "quqd1_1122", "# cquqd1Abs1x1x2x2");
   ([1; 1; 2; 3], VAbs "quqd1_1123", "# cquqd1Abs1x1x2x3");
   ([1; 1; 3; 1], VAbs "quqd1_1131", "# cquqd1Abs1x1x3x1");
   ([1; 1; 3; 2], VAbs "quqd1_1132", "# cquqd1Abs1x1x3x2");
   ([1; 1; 3; 3], VAbs "quqd1_1133", "# cquqd1Abs1x1x3x3");
   ([1; 2; 1; 1], VAbs "quqd1_1211", "# cquqd1Abs1x2x1x1");
   ([1; 2; 1; 2], VAbs "quqd1_1212", "# cquqd1Abs1x2x1x2");
   ([1; 2; 1; 3], VAbs "quqd1_1213", "# cquqd1Abs1x2x1x3");
   ([1; 2; 2; 1], VAbs "quqd1_1221", "# cquqd1Abs1x2x2x1");
   ([1; 2; 2; 2], VAbs "quqd1_1222", "# cquqd1Abs1x2x2x2");
   ([1; 2; 2; 3], VAbs "quqd1_1223", "# cquqd1Abs1x2x2x3");
   ([1; 2; 3; 1], VAbs "quqd1_1231", "# cquqd1Abs1x2x3x1");
   ([1; 2; 3; 2], VAbs "quqd1_1232", "# cquqd1Abs1x2x3x2");
   ([1; 2; 3; 3], VAbs "quqd1_1233", "# cquqd1Abs1x2x3x3");
   ([1; 3; 1; 1], VAbs "quqd1_1311", "# cquqd1Abs1x3x1x1");
   ([1; 3; 1; 2], VAbs "quqd1_1312", "# cquqd1Abs1x3x1x2");
   ([1; 3; 1; 3], VAbs "quqd1_1313", "# cquqd1Abs1x3x1x3");
   ([1; 3; 2; 1], VAbs "quqd1_1321", "# cquqd1Abs1x3x2x1");
   ([1; 3; 2; 2], VAbs "quqd1_1322", "# cquqd1Abs1x3x2x2");
   ([1; 3; 2; 3], VAbs "quqd1_1323", "# cquqd1Abs1x3x2x3");
   ([1; 3; 3; 1], VAbs "quqd1_1331", "# cquqd1Abs1x3x3x1");
   ([1; 3; 3; 2], VAbs "quqd1_1332", "# cquqd1Abs1x3x3x2");
   ([1; 3; 3; 3], VAbs "quqd1_1333", "# cquqd1Abs1x3x3x3");
   ([2; 1; 1; 1], VAbs "quqd1_2111", "# cquqd1Abs2x1x1x1");
   ([2; 1; 1; 2], VAbs "quqd1_2112", "# cquqd1Abs2x1x1x2");
   ([2; 1; 1; 3], VAbs "quqd1_2113", "# cquqd1Abs2x1x1x3");
   ([2; 1; 2; 1], VAbs "quqd1_2121", "# cquqd1Abs2x1x2x1");
   ([2; 1; 2; 2], VAbs "quqd1_2122", "# cquqd1Abs2x1x2x2");
   ([2; 1; 2; 3], VAbs "quqd1_2123", "# cquqd1Abs2x1x2x3");
   ([2; 1; 3; 1], VAbs "quqd1_2131", "# cquqd1Abs2x1x3x1");
   ([2; 1; 3; 2], VAbs "quqd1_2132", "# cquqd1Abs2x1x3x2");
   ([2; 1; 3; 3], VAbs "quqd1_2133", "# cquqd1Abs2x1x3x3");
   ([2; 2; 1; 1], VAbs "quqd1_2211", "# cquqd1Abs2x2x1x1");
   ([2; 2; 1; 2], VAbs "quqd1_2212", "# cquqd1Abs2x2x1x2");
   ([2; 2; 1; 3], VAbs "quqd1_2213", "# cquqd1Abs2x2x1x3");
   ([2; 2; 2; 1], VAbs "quqd1_2221", "# cquqd1Abs2x2x2x1");
   ([2; 2; 2; 2], VAbs "quqd1_2222", "# cquqd1Abs2x2x2x2");
   ([2; 2; 2; 3], VAbs "quqd1_2223", "# cquqd1Abs2x2x2x3");
   ([2; 2; 3; 1], VAbs "quqd1_2231", "# cquqd1Abs2x2x3x1");
   ([2; 2; 3; 2], VAbs "quqd1_2232", "# cquqd1Abs2x2x3x2");
   ([2; 2; 3; 3], VAbs "quqd1_2233", "# cquqd1Abs2x2x3x3");
   ([2; 3; 1; 1], VAbs "quqd1_2311", "# cquqd1Abs2x3x1x1");
   ([2; 3; 1; 2], VAbs "quqd1_2312", "# cquqd1Abs2x3x1x2");
   ([2; 3; 1; 3], VAbs "quqd1_2313", "# cquqd1Abs2x3x1x3");
   ([2; 3; 2; 1], VAbs "quqd1_2321", "# cquqd1Abs2x3x2x1");
   ([2; 3; 2; 2], VAbs "quqd1_2322", "# cquqd1Abs2x3x2x2");
   ([2; 3; 2; 3], VAbs "quqd1_2323", "# cquqd1Abs2x3x2x3");
   ([2; 3; 3; 1], VAbs "quqd1_2331", "# cquqd1Abs2x3x3x1");
   ([2; 3; 3; 2], VAbs "quqd1_2332", "# cquqd1Abs2x3x3x2");
   ([2; 3; 3; 3], VAbs "quqd1_2333", "# cquqd1Abs2x3x3x3");
   ([3; 1; 1; 1], VAbs "quqd1_3111", "# cquqd1Abs3x1x1x1");
   ([3; 1; 1; 2], VAbs "quqd1_3112", "# cquqd1Abs3x1x1x2");
   ([3; 1; 1; 3], VAbs "quqd1_3113", "# cquqd1Abs3x1x1x3");
   ([3; 1; 2; 1], VAbs "quqd1_3121", "# cquqd1Abs3x1x2x1");
   ([3; 1; 2; 2], VAbs "quqd1_3122", "# cquqd1Abs3x1x2x2");
   ([3; 1; 2; 3], VAbs "quqd1_3123", "# cquqd1Abs3x1x2x3");
   ([3; 1; 3; 1], VAbs "quqd1_3131", "# cquqd1Abs3x1x3x1");
   ([3; 1; 3; 2], VAbs "quqd1_3132", "# cquqd1Abs3x1x3x2");
   ([3; 1; 3; 3], VAbs "quqd1_3133", "# cquqd1Abs3x1x3x3");
   ([3; 2; 1; 1], VAbs "quqd1_3211", "# cquqd1Abs3x2x1x1");
   ([3; 2; 1; 2], VAbs "quqd1_3212", "# cquqd1Abs3x2x1x2");
   ([3; 2; 1; 3], VAbs "quqd1_3213", "# cquqd1Abs3x2x1x3");
   ([3; 2; 2; 1], VAbs "quqd1_3221", "# cquqd1Abs3x2x2x1");
   ([3; 2; 2; 2], VAbs "quqd1_3222", "# cquqd1Abs3x2x2x2");
   ([3; 2; 2; 3], VAbs "quqd1_3223", "# cquqd1Abs3x2x2x3");
   ([3; 2; 3; 1], VAbs "quqd1_3231", "# cquqd1Abs3x2x3x1");
   ([3; 2; 3; 2], VAbs "quqd1_3232", "# cquqd1Abs3x2x3x2");
   ([3; 2; 3; 3], VAbs "quqd1_3233", "# cquqd1Abs3x2x3x3");
   ([3; 3; 1; 1], VAbs "quqd1_3311", "# cquqd1Abs3x3x1x1");
   ([3; 3; 1; 2], VAbs "quqd1_3312", "# cquqd1Abs3x3x1x2");
   ([3; 3; 1; 3], VAbs "quqd1_3313", "# cquqd1Abs3x3x1x3");
   ([3; 3; 2; 1], VAbs "quqd1_3321", "# cquqd1Abs3x3x2x1");
   ([3; 3; 2; 2], VAbs "quqd1_3322", "# cquqd1Abs3x3x2x2");
   ([3; 3; 2; 3], VAbs "quqd1_3323", "# cquqd1Abs3x3x2x3");
   ([3; 3; 3; 1], VAbs "quqd1_3331", "# cquqd1Abs3x3x3x1");
   ([3; 3; 3; 2], VAbs "quqd1_3332", "# cquqd1Abs3x3x3x2");
   ([3; 3; 3; 3], VAbs "quqd1_3333", "# cquqd1Abs3x3x3x3")].
(* smeftsim.py:2433 *)
Definition A_FRBlock72 : list cardline :=
  [([1; 1; 1; 1], VAbs "quqd8_1111", "# cquqd8Abs1x1x1x1");
   ([1; 1; 1; 2], VAbs "quqd8_1112", "# cquqd8Abs1x1x1x2");
   ([1; 1; 1; 3], VAbs "quqd8_1113", "# cquqd8Abs1x1x1x3");
   ([1; 1; 2; 1], VAbs "quqd8_1121", "# cquqd8Abs1x1x2x1");
   ([1; 1; 2; 2], VAbs "quqd8_1122", "# cquqd8Abs1x1x2x2");
   ([1; 1; 2; 3], VAbs "quqd8_1123", "# cquqd8Abs1x1x2x3");
   ([1; 1; 3; 1], VAbs "quqd8_1131", "# cquqd8Abs1x1x3x1");
   ([1; 1; 3; 2], VAbs "quqd8_1132", "# cquqd8Abs1x1x3x2");
   ([1; 1; 3; 3], VAbs "quqd8_1133", "# cquqd8Abs1x1x3x3");
   ([1; 2; 1; 1], VAbs "quqd8_1211", "# cquqd8Abs1x2x1x1");
   ([1; 2; 1; 2], VAbs "quqd8_1212", "# cquqd8Abs1x2x1x2");
   ([1; 2; 1; 3], VAbs "quqd8_1213", "# cquqd8Abs1x2x1x3");
   ([1; 2; 2; 1], VAbs "quqd8_1221", "# cquqd8Abs1x2x2x1");
   ([1; 2; 2; 2], VAbs "quqd8_1222", "# cquqd8Abs1x2x2x2");
   ([1; 2; 2; 3], VAbs "quqd8_1223", "# cquqd8Abs1x2x2x3");
   ([1; 2; 3; 1], VAbs "quqd8_1231", "# cquqd8Abs1x2x3x1");
   ([1; 2; 3; 2], VAbs "quqd8_1232", "# cquqd8Abs1x2x3x2");
   ([1; 2; 3; 3], VAbs "quqd8_1233", "# cquqd8Abs1x2x3x3");
   ([1; 3; 1; 1], VAbs "quqd8_1311", "# cquqd8Abs1x3x1x1");
   ([1; 3; 1; 2], VAbs "quqd8_1312", "# cquqd8Abs1x3x1x2");
   ([1; 3; 1; 3], VAbs "quqd8_1313", "# cquqd8Abs1x3x1x3");
   ([1; 3; 2; 1], VAbs "quqd8_1321", "# cquqd8Abs1x3x2x1");
   ([1; 3; 2; 2], VAbs "quqd8_1322", "# cquqd8Abs1x3x2x2");
   ([1; 3; 2; 3], VAbs "quqd8_1323", "# cquqd8Abs1x3x2x3");
   ([1; 3; 3; 1], VAbs "quqd8_1331", "# cquqd8Abs1x3x3x1");
   ([1; 3; 3; 2], VAbs "quqd8_1332", "# cquqd8Abs1x3x3x2");
   ([1; 3; 3; 3], VAbs "quqd8_1333", "# cquqd8Abs1x3x3x3");
   ([2; 1; 1; 1], VAbs "quqd8_2111", "# cquqd8Abs2x1x1x1");
   ([2; 1; 1; 2], VAbs "quqd8_2112", "# cquqd8Abs2x1x1x2");
   ([2; 1; 1; 3], VAbs "quqd8_2113", "# cquqd8Abs2x1x1x3");
   ([2; 1; 2; 1], VAbs "quqd8_2121", "# cquqd8Abs2x1x2x1");
   ([2; 1; 2; 2], VAbs "quqd8_2122", "# cquqd8Abs2x1x2x2");
   ([2; 1; 2; 3], VAbs "quqd8_2123", "# cquqd8Abs2x1x2x3");
   ([2; 1; 3; 1], VAbs "quqd8_2131", "# cquqd8Abs2x1x3x1");
   ([2; 1; 3; 2], VAbs "quqd8_2132", "# cquqd8Abs2x1x3x2");
   ([2; 1; 3; 3], VAbs "quqd8_2133", "# cquqd8Abs2x1x3x3");
   ([2; 2; 1; 1], VAbs "quqd8_2211", "# cquqd8Abs2x2x1x1");
   ([2; 2; 1; 2], VAbs "quqd8_2212", "# cquqd8Abs2x2x1x2");
   ([2; 2; 1; 3], VAbs "quqd8_2213", "# cquqd8Abs2x2x1x3");
   ([2; 2; 2; 1], VAbs "quqd8_2221", "# cquqd8Abs2x2x2x1");
   ([2; 2; 2; 2], VAbs "quqd8_2222", "# cquqd8Abs2x2x2x2");
   ([2; 2; 2; 3], VAbs "quqd8_2223", "# cquqd8Abs2x2x2x3");
   ([2; 2; 3; 1], VAbs "quqd8_2231", "# cquqd8Abs2x2x3x1");
   ([2; 2; 3; 2], VAbs "quqd8_2232", "# cquqd8Abs2x2x3x2");
   ([2; 2; 3; 3], VAbs "quqd8_2233", "# cquqd8Abs2x2x3x3");
   ([2; 3; 1; 1], VAbs "quqd8_2311", "# cquqd8Abs2x3x1x1");
   ([2; 3; 1; 2], VAbs "quqd8_2312", "# cquqd8Abs2x3x1x2");
   ([2; 3; 1; 3], VAbs "quqd8_2313", "# cquqd8Abs2x3x1x3");
   ([2; 3; 2; 1], VAbs "quqd8_2321", "# cquqd8Abs2x3x2x1");
   ([2; 3; 2; 2], VAbs "quqd8_2322", "# cquqd8Abs2x3x2x2");
   ([2; 3; 2; 3], VAbs "quqd8_2323", "# cquqd8Abs2x3x2x3");
   ([2; 3; 3; 1], VAbs "quqd8_2331", "# cquqd8Abs2x3x3x1");
   ([2; 3; 3; 2], VAbs "quqd8_2332", "# cquqd8Abs2x3x3x2");
   ([2; 3; 3; 3], VAbs "quqd8_2333", "# cquqd8Abs2x3x3x3");
   ([3; 1; 1; 1], VAbs "quqd8_3111", "# cquqd8Abs3x1x1x1");
   ([3; 1; 1; 2], VAbs "quqd8_3112", "# cquqd8Abs3x1x1x2");
   ([3; 1; 1; 3], VAbs "quqd8_3113", "# cquqd8Abs3x1x1x3");
   ([3; 1; 2; 1], VAbs "quqd8_3121", "# cquqd8Abs3x1x2x1");
   ([3; 1; 2; 2], VAbs "quqd8_3122", "# cquqd8Abs3x1x2x2");
   ([3; 1; 2; 3], VAbs "quqd8_3123", "# cquqd8Abs3x1x2x3");
   ([3; 1; 3; 1], VAbs "quqd8_3131", "# cquqd8Abs3x1x3x1");
   ([3; 1; 3; 2], VAbs "quqd8_3132", "# cquqd8Abs3x1x3x2");
   ([3; 1; 3; 3], VAbs "quqd8_3133", "# cquqd8Abs3x1x3x3");
   ([3; 2; 1; 1], VAbs "quqd8_3211", "# cquqd8Abs3x2x1x1");
   ([3; 2; 1; 2], VAbs "quqd8_3212", "# cquqd8Abs3x2x1x2");
   ([3; 2; 1; 3], VAbs "quqd8_3213", "# cquqd8Abs3x2x1x3");
   ([3; 2; 2; 1], VAbs "quqd8_3221", "# cquqd8Abs3x2x2x1");
   ([3; 2; 2; 2], VAbs "quqd8_3222", "# cquqd8Abs3x2x2x2");
   ([3; 2; 2; 3], VAbs "quqd8_3223", "# cquqd8Abs3x2x2x3");
   ([3; 2; 3; 1], VAbs "quqd8_3231", "# cquqd8Abs3x2x3x1");
   ([3; 2; 3; 2], VAbs "quqd8_3232", "# cquqd8Abs3x2x3x2");
   ([3; 2; 3; 3], VAbs "quqd8_3233", "# cquqd8Abs3x2x3x3");
   ([3; 3; 1; 1], VAbs "quqd8_3311", "# cquqd8Abs3x3x1x1");
   ([3; 3; 1; 2], VAbs "quqd8_3312", "# cquqd8Abs3x3x1x2");
   ([3; 3; 1; 3], VAbs "quqd8_3313", "# cquqd8Abs3x3x1x3");
   ([3; 3; 2; 1], VAbs "quqd8_3321", "# cquqd8Abs3x3x2x1");
   ([3; 3; 2; 2], VAbs "quqd8_3322", "# cquqd8Abs3x3x2x2");
   ([3; 3; 2; 3], VAbs "quqd8_3323", "# cquqd8Abs3x3x2x3");
   ([3; 3; 3; 1], VAbs "quqd8_3331", "# cquqd8Abs3x3x3x1");
   ([3; 3; 3; 2], VAbs "quqd8_3332", "# cquqd8Abs3x3x3x2");
   ([3; 3; 3; 3], VAbs "quqd8_3333", "# cquqd8Abs3x3x3x3")].
(* smeftsim.py:2517 *)
Definition A_FRBlock73 : list cardline :=
  [([1; 1; 1; 1], VAbs "lequ1_1111", "# clequ1Abs1x1x1x1");
   ([1; 1; 1; 2], VAbs "lequ1_1112", "# clequ1Abs1x1x1x2");
   ([1; 1; 1; 3], VAbs "lequ1_1113", "# clequ1Abs1x1x1x3");
   ([1; 1; 2; 1], VAbs "lequ1_1121", "# clequ1Abs1x1x2x1");
   ([1; 1; 2; 2], VAbs "lequ1_1122", "# clequ1Abs1x1x2x2");
   ([1; 1; 2; 3], VAbs "lequ1_1123", "# clequ1Abs1x1x2x3");
   ([1; 1; 3; 1], VAbs "lequ1_1131", "# clequ1Abs1x1x3x1");
   ([1; 1; 3; 2], VAbs "lequ1_1132", "# clequ1Abs1x1x3x2");
   ([1; 1; 3; 3], VAbs "lequ1_1133", "# clequ1Abs1x1x3x3");
   ([1; 2; 1; 1], VAbs "lequ1_1211", "# clequ1Abs1x2x1x1");
   ([1; 2; 1; 2], VAbs "lequ1_1212", "# clequ1Abs1x2x1x2");
   ([1; 2; 1; 3], VAbs "lequ1_1213", "# clequ1Abs1x2x1x3");
   ([1; 2; 2; 1], VAbs "lequ1_1221", "# clequ1Abs1x2x2x1");
   ([1; 2; 2; 2], VAbs "lequ1_1222", "# clequ1Abs1x2x2x2");
   ([1; 2; 2; 3], VAbs "lequ1_1223", "# clequ1Abs1x2x2x3");
   ([1; 2; 3; 1], VAbs "lequ1_1231", "# clequ1Abs1x2x3x1");
   ([1; 2; 3; 2], VAbs "lequ1_1232", "# clequ1Abs1x2x3x2");
   ([1; 2; 3; 3], VAbs "lequ1_1233", "# clequ1Abs1x2x3x3");
   ([1; 3; 1; 1], VAbs "lequ1_1311", "# clequ1Abs1x3x1x1");
   ([1; 3; 1; 2], VAbs "lequ1_1312", "# clequ1Abs1x3x1x2");
   ([1; 3; 1; 3], VAbs "lequ1_1313", "# clequ1Abs1x3x1x3");
   ([1; 3; 2; 1], VAbs "lequ1_1321", "# clequ1Abs1x3x2x1");
   ([1; 3; 2; 2], VAbs "lequ1_1322", "# clequ1Abs1x3x2x2");
   ([1; 3; 2; 3], VAbs "lequ1_1323", "# clequ1Abs1x3x2x3");
   ([1; 3; 3; 1], VAbs "lequ1_1331", "# clequ1Abs1x3x3x1");
   ([1; 3; 3; 2], VAbs "lequ1_1332", "# clequ1Abs1x3x3x2");
   ([1; 3; 3; 3], VAbs "lequ1_1333", "# clequ1Abs1x3x3x3");
   ([2; 1; 1; 1], VAbs "lequ1_2111", "# clequ1Abs2x1x1x1");
   ([2; 1; 1; 2], VAbs "lequ1_2112", "# clequ1Abs2x1x1x2");
   ([2; 1; 1; 3], VAbs "lequ1_2113", "# clequ1Abs2x1x1x3");
   ([2; 1; 2; 1], VAbs "lequ1_2121", "# clequ1Abs2x1x2x1");
   ([2; 1; 2; 2], VAbs "lequ1_2122", "# clequ1Abs2x1x2x2");
   ([2; 1; 2; 3], VAbs "lequ1_2123", "# clequ1Abs2x1x2x3");
   ([2; 1; 3; 1], VAbs "lequ1_2131", "# clequ1Abs2x1x3x1");
   ([2; 1; 3; 2], VAbs "lequ1_2132", "# clequ1Abs2x1x3x2");
   ([2; 1; 3; 3], VAbs "lequ1_2133", "# clequ1Abs2x1x3x3");
   ([2; 2; 1; 1], VAbs "lequ1_2211", "# clequ1Abs2x2x1x1");
   ([2; 2; 1; 2], VAbs "lequ1_2212", "# clequ1Abs2x2x1x2");
   ([2; 2; 1; 3], VAbs "lequ1_2213", "# clequ1Abs2x2x1x3");
   ([2; 2; 2; 1], VAbs "lequ1_2221", "# clequ1Abs2x2x2x1");
   ([2; 2; 2; 2], VAbs "lequ1_2222", "# clequ1Abs2x2x2x2");
   ([2; 2; 2; 3], VAbs "lequ1_2223", "# clequ1Abs2x2x2x3");
   ([2; 2; 3; 1], VAbs "lequ1_2231", "# clequ1Abs2x2x3x1");
   ([2; 2; 3; 2], VAbs "lequ1_2232", "# clequ1Abs2x2x3x2");
   ([2; 2; 3; 3], VAbs "lequ1_2233", "# clequ1Abs2x2x3x3");
   ([2; 3; 1; 1], VAbs "lequ1_2311", "# clequ1Abs2x3x1x1");
   ([2; 3; 1; 2], VAbs "lequ1_2312", "# clequ1Abs2x3x1x2");
   ([2; 3; 1; 3], VAbs "lequ1_2313", "# clequ1Abs2x3x1x3");
   ([2; 3; 2; 1], VAbs "lequ1_2321", "# clequ1Abs2x3x2x1");
   ([2; 3; 2; 2], VAbs "lequ1_2322", "# clequ1Abs2x3x2x2");
   ([2; 3; 2; 3], VAbs "lequ1_2323", "# clequ1Abs2x3x2x3");
   ([2; 3; 3; 1], VAbs "lequ1_2331", "# clequ1Abs2x3x3x1");
   ([2; 3; 3; 2], VAbs "lequ1_2332", "# clequ1Abs2x3x3x2");
   ([2; 3; 3; 3], VAbs "lequ1_2333", "# clequ1Abs2x3x3x3");
   ([3; 1; 1; 1], VAbs "lequ1_3111", "# clequ1Abs3x1x1x1");
   ([3; 1; 1; 2], VAbs "lequ1_3112", "# clequ1Abs3x1x1x2");
   ([3; 1; 1; 3], VAbs "lequ1_3113", "# clequ1Abs3x1x1x3");
   ([3; 1; 2; 1], VAbs "lequ1_3121", "# clequ1Abs3x1x2x1");
   ([3; 1; 2; 2], VAbs "lequ1_3122", "# clequ1Abs3x1x2x2");
   ([3; 1; 2; 3], VAbs "lequ1_3123", "# clequ1Abs3x1x2x3");
   ([3; 1; 3; 1], VAbs "lequ1_3131", "# clequ1Abs3x1x3x1");
   ([3; 1; 3; 2], VAbs "lequ1_3132", "# clequ1Abs3x1x3x2");
   ([3; 1; 3; 3], VAbs "lequ1_3133", "# clequ1Abs3x1x3x3");
   ([3; 2; 1; 1], VAbs "lequ1_3211", "# clequ1Abs3x2x1x1");
   ([3; 2; 1; 2], VAbs "lequ1_3212", "# clequ1Abs3x2x1x2");
   ([3; 2; 1; 3], VAbs "lequ1_3213", "# clequ1Abs3x2x1x3");
   ([3; 2; 2; 1], VAbs "lequ1_3221", "# clequ1Abs3x2x2x1");
   ([3; 2; 2; 2], VAbs "lequ1_3222", "# clequ1Abs3x2x2x2");
   ([3; 2; 2; 3], VAbs "lequ1_3223", "# clequ1Abs3x2x2x3");
   ([3; 2; 3; 1], VAbs "lequ1_3231", "# clequ1Abs3x2x3x1");
   ([3; 2; 3; 2], VAbs "lequ1_3232", "# clequ1Abs3x2x3x2");
   ([3; 2; 3; 3], VAbs "lequ1_3233", "# clequ1Abs3x2x3x3");
   ([3; 3; 1; 1], VAbs "lequ1_3311", "# clequ1Abs3x3x1x1");
   ([3; 3; 1; 2], VAbs "lequ1_3312", "# clequ1Abs3x3x1x2");
   ([3; 3; 1; 3], VAbs "lequ1_3313", "# clequ1Abs3x3x1x3");
   ([3; 3; 2; 1], VAbs "lequ1_3321", "# clequ1Abs3x3x2x1");
   ([3; 3; 2; 2], VAbs "lequ1_3322", "# clequ1Abs3x3x2x2");
   ([3; 3; 2; 3], VAbs "lequ1_3323", "# clequ1Abs3x3x2x3");
   ([3; 3; 3; 1], VAbs "lequ1_3331", "# clequ1Abs3x3x3x1");
   ([3; 3; 3; 2], VAbs "lequ1_3332", "# clequ1Abs3x3x3x2");
   ([3; 3; 3; 3], VAbs "lequ1_3333", "# clequ1Abs3x3x3x3")].
(* smeftsim.py:2601 *)
Definition A_FRBlock74 : list cardline :=
  [([1; 1; 1; 1], VAbs "lequ3_1111", "# clequ3Abs1x1x1x1");
   ([1; 1; 1; 2], VAbs "lequ3_1112", "# clequ3Abs1x1x1x2");
   ([1; 1; 1; 3], VAbs "lequ3_1113", "# clequ3Abs1x1x1x3");
   ([1; 1; 2; 1], VAbs "lequ3_1121", "# clequ3Abs1x1x2x1");
   ([1; 1; 2; 2], VAbs "lequ3_1122", "# clequ3Abs1x1x2x2");
   ([1; 1; 2; 3], VAbs "lequ3_1123", "# clequ3Abs1x1x2x3");
   ([1; 1; 3; 1], VAbs "lequ3_1131", "# clequ3Abs1x1x3x1");
   ([1; 1; 3; 2], VAbs "lequ3_1132", "# clequ3Abs1x1x3x2");
   ([1; 1; 3; 3], VAbs "lequ3_1133", "# clequ3Abs1x1x3x3");
   ([1; 2; 1; 1], VAbs "lequ3_1211", "# clequ3Abs1x2x1x1");
   ([1; 2; 1; 2], VAbs "lequ3_1212", "# clequ3Abs1x2x1x2");
   ([1; 2; 1; 3], VAbs "lequ3_1213", "# clequ3Abs1x2x1x3");
   ([1; 2; 2; 1], VAbs "lequ3_1221", "# clequ3Abs1x2x2x1");
   ([1; 2; 2; 2], VAbs "lequ3_1222", "# clequ3Abs1x2x2x2");
   ([1; 2; 2; 3], VAbs "lequ3_1223", "# clequ3Abs1x2x2x3");
   ([1; 2; 3; 1], VAbs "lequ3_1231", "# clequ3Abs1x2x3x1");
   ([1; 2; 3; 2], VAbs "lequ3_1232", "# clequ3Abs1x2x3x2");
   ([1; 2; 3; 3], VAbs "lequ3_1233", "# clequ3Abs1x2x3x3");
   ([1; 3; 1; 1], VAbs "lequ3_1311", "# clequ3Abs1x3x1x1");
   ([1; 3; 1; 2], VAbs "lequ3_1312", "# clequ3Abs1x3x1x2");
   ([1; 3; 1; 3], VAbs "lequ3_1313", "# clequ3Abs1x3x1x3");
   ([1; 3; 2; 1], VAbs "lequ3_1321", "# clequ3Abs1x3x2x1");
   ([1; 3; 2; 2], VAbs "lequ3_1322", "# clequ3Abs1x3x2x2");
   ([1; 3; 2; 3], VAbs "lequ3_1323", "# clequ3Abs1x3x2x3");
   ([1; 3; 3; 1], VAbs "lequ3_1331", "# clequ3Abs1x3x3x1");
   ([1; 3; 3; 2], VAbs "lequ3_1332", "# clequ3Abs1x3x3x2");
   ([1; 3; 3; 3], VAbs "lequ3_1333", "# clequ3Abs1x3x3x3");
   ([2; 1; 1; 1], VAbs "lequ3_2111", "# clequ3Abs2x1x1x1");
   ([2; 1; 1; 2], VAbs "lequ3_2112", "# clequ3Abs2x1x1x2");
   ([2; 1; 1; 3], VAbs "lequ3_2113", "# clequ3Abs2x1x1x3");
   ([2; 1; 2; 1], VAbs "lequ3_2121", "# clequ3Abs2x1x2x1");
   ([2; 1; 2; 2], VAbs "lequ3_2122", "# clequ3Abs2x1x2x2");
   ([2; 1; 2; 3], VAbs "lequ3_2123", "# clequ3Abs2x1x2x3");
   ([2; 1; 3; 1], VAbs "lequ3_2131", "# clequ3Abs2x1x3x1");
   ([2; 1; 3; 2], VAbs "lequ3_2132", "# clequ3Abs2x1x3x2");
   ([2; 1; 3; 3], VAbs "lequ3_2133", "# clequ3Abs2x1x3x3");
   ([2; 2; 1; 1], VAbs "lequ3_2211", "# clequ3Abs2x2x1x1");
   ([2; 2; 1; 2], VAbs "lequ3_2212", "# clequ3Abs2x2x1x2");
   ([2; 2; 1; 3], VAbs "lequ3_2213", "# clequ3Abs2x2x1x3");
   ([2; 2; 2; 1], VAbs "lequ3_2221", "# clequ3Abs2x2x2x1");
   ([2; 2; 2; 2], VAbs "lequ3_2222", "# clequ3Abs2x2x2x2");
   ([2; 2; 2; 3], VAbs "lequ3_2223", "# clequ3Abs2x2x2x3");
   ([2; 2; 3; 1], VAbs "lequ3_2231", "# clequ3Abs2x2x3x1");
   ([2; 2; 3; 2], VAbs "lequ3_2232", "# clequ3Abs2x2x3x2");
   ([2; 2; 3; 3], VAbs "lequ3_2233", "# clequ3Abs2x2x3x3");
   ([2; 3; 1; 1], VAbs "lequ3_2311", "# clequ3Abs2x3x1x1");
   ([2; 3; 1; 2], VAbs "lequ3_2312", "# clequ3Abs2x3x1x2");
   ([2; 3; 1; 3], VAbs "lequ3_2313", "# clequ3Abs2x3x1x3");
   ([2; 3; 2; 1], VAbs "lequ3_2321", "# clequ3Abs2x3x2x1");
   ([2; 3; 2; 2], VAbs "lequ3_2322", "# clequ3Abs2x3x2x2");
   ([2; 3; 2; 3], VAbs "lequ3_2323", "# clequ3Abs2x3x2x3");
   ([2; 3; 3; 1], VAbs "lequ3_2331", "# clequ3Abs2x3x3x1");
   ([2; 3; 3; 2], VAbs "lequ3_2332", "# clequ3Abs2x3x3x2");
   ([2; 3; 3; 3], VAbs "lequ3_2333", "# clequ3Abs2x3x3x3");
   ([3; 1; 1; 1], VAbs "lequ3_3111", "# clequ3Abs3x1x1x1");
   ([3; 1; 1; 2], VAbs "lequ3_3112", "# clequ3Abs3x1x1x2");
   ([3; 1; 1; 3], VAbs "lequ3_3113", "# clequ3Abs3x1x1x3");
   ([3; 1; 2; 1], VAbs "lequ3_3121", "# clequ3Abs3x1x2x1");
   ([3; 1; 2; 2], VAbs "lequ3_3122", "# clequ3Abs3x1x2x2");
   ([3; 1; 2; 3], VAbs "lequ3_3123", "# clequ3Abs3x1x2x3");
   ([3; 1; 3; 1], VAbs "lequ3_3131", "# clequ3Abs3x1x3x1");
   ([3; 1; 3; 2], VAbs "lequ3_3132", "# clequ3Abs3x1x3x2");
   ([3; 1; 3; 3], VAbs "lequ3_3133", "# clequ3Abs3x1x3x3");
   ([3; 2; 1; 1], VAbs "lequ3_3211", "# clequ3Abs3x2x1x1");
   ([3; 2; 1; 2], VAbs "lequ3_3212", "# clequ3Abs3x2x1x2");
   ([3; 2; 1; 3], VAbs "lequ3_3213", "# clequ3Abs3x2x1x3");
   ([3; 2; 2; 1], VAbs "lequ3_3221", "# clequ3Abs3x2x2x1");
   ([3; 2; 2; 2], VAbs "lequ3_3222", "# clequ3Abs3x2x2x2");
   ([3; 2; 2; 3], VAbs "lequ3_3223", "# clequ3Abs3x2x2x3");
   ([3; 2; 3; 1], VAbs "lequ3_3231", "# clequ3Abs3x2x3x1");
   ([3; 2; 3; 2], VAbs "lequ3_3232", "# clequ3Abs3x2x3x2");
   ([3; 2; 3; 3], VAbs "lequ3_3233", "# clequ3Abs3x2x3x3");
   ([3; 3; 1; 1], VAbs "lequ3_3311", "# clequ3Abs3x3x1x1");
   ([3; 3; 1; 2], VAbs "lequ3_3312", "# clequ3Abs3x3x1x2");
   ([3; 3; 1; 3], VAbs "lequ3_3313", "# clequ3Abs3x3x1x3");
   ([3; 3; 2; 1], VAbs "lequ3_3321", "# clequ3Abs3x3x2x1");
   ([3; 3; 2; 2], VAbs "lequ3_3322", "# clequ3Abs3x3x2x2");
   ([3; 3; 2; 3], VAbs "lequ3_3323", "# clequ3Abs3x3x2x3");
   ([3; 3; 3; 1], VAbs "lequ3_3331", "# clequ3Abs3x3x3x1");
   ([3; 3; 3; 2], VAbs "lequ3_3332", "# clequ3Abs3x3x3x2");
   ([3; 3; 3; 3], VAbs "lequ3_3333", "# clequ3Abs3x3x3x3")].
(* smeftsim.py:2685 *)
Definition A_FRBlock8 : list cardline :=
  [([1; 1], VAng "dW_11", "# cdWPh1x1");
   ([1; 2], VAng "dW_12", "# cdWPh1x2");
   ([1; 3], VAng "dW_13", "# cdWPh1x3");
   ([2; 1], VAng "dW_21", "# cdWPh2x1");
   ([2; 2], VAng "dW_22", "# cdWPh2x2");
   ([2; 3], VAng "dW_23", "# cdWPh2x3");
   ([3; 1], VAng "dW_31", "# cdWPh3x1");
   ([3; 2], VAng "dW_32", "# cdWPh3x2");
   ([3; 3], VAng "dW_33", "# cdWPh3x3")].
(* smeftsim.py:2697 *)
Definition A_FRBlock9 : list cardline :=
  [([1; 1], VAng "dB_11", "# cdBPh1x1");
   ([1; 2], VAng "dB_12", "# cdBPh1x2");
   ([1; 3], VAng "dB_13", "# cdBPh1x3");
   ([2; 1], VAng "dB_21", "# cdBPh2x1");
   ([2; 2], VAng "dB_22", "# cdBPh2x2");
   ([2; 3], VAng "dB_23", "# cdBPh2x3");
   ([3; 1], VAng "dB_31", "# cdBPh3x1");
   ([3; 2], VAng "dB_32", "# cdBPh3x2");
   ([3; 3], VAng "dB_33", "# cdBPh3x3")].
Definition card_A : list (string * list cardline) :=
  [("FRBlock", A_FRBlock); ("FRBlock10", A_FRBlock10); ("FRBlock11", A_FRBlock11); ("FRBlock12", A_FRBlock12); ("FRBlock13", A_FRBlock13); ("FRBlock14", A_FRBlock14); ("FRBlock15", A_FRBlock15); ("FRBlock16", A_FRBlock16); ("FRBlock17", A_FRBlock17); ("FRBlock18", A_FRBlock18); ("FRBlock19", A_FRBlock19); ("FRBlock2", A_FRBlock2); ("FRBlock20", A_FRBlock20); ("FRBlock21", A_FRBlock21); ("FRBlock25", A_FRBlock25); ("FRBlock26", A_FRBlock26); ("FRBlock27", A_FRBlock27); ("FRBlock28", A_FRBlock28); ("FRBlock29", A_FRBlock29); ("FRBlock3", A_FRBlock3); ("FRBlock30", A_FRBlock30); ("FRBlock31", A_FRBlock31); ("FRBlock32", A_FRBlock32); ("FRBlock4", A_FRBlock4); ("FRBlock48", A_FRBlock48); ("FRBlock5", A_FRBlock5); ("FRBlock6", A_FRBlock6); ("FRBlock7", A_FRBlock7); ("FRBlock70", A_FRBlock70); ("FRBlock71", A_FRBlock71); ("FRBlock72", A_FRBlock72); ("FRBlock73", A_FRBlock73); ("FRBlock74", A_FRBlock74); ("FRBlock8", A_FRBlock8); ("FRBlock9", A_FRBlock9)].
(* initialize_smeftsim_card('B') *)
Definition init_B : list string :=
  ["FRBlock"; "FRBlock10"; "FRBlock11"; "FRBlock15"; "FRBlock16"; "FRBlock18"; "FRBlock19"; "FRBlock21"; "FRBlock22"; "FRBlock24"; "FRBlock25"; "FRBlock27"; "FRBlock28"; "FRBlock30"; "FRBlock31"; "FRBlock33"; "FRBlock34"; "FRBlock36"; "FRBlock37"; "FRBlock45"; "FRBlock46"; "FRBlock6"; "FRBlock69"; "FRBlock7"; "FRBlock70"; "FRBlock72"; "FRBlock73"; "FRBlock75"; "FRBlock76"; "FRBlock78"; "FRBlock79"; "FRBlock8"; "FRBlock81"; "FRBlock82"; "FRBlock9"; "NEWCOUP"].
(* smeftsim.py:2714 *)
Definition B_FRBlock : list cardline :=
  [([1], VAbsOut "phil1_11", "# cHl1Abs11");
   ([2], VAbsOut "phil1_12", "# cHl1Abs12");
   ([3], VAbsOut "phil1_13", "# cHl1Abs13");
   ([4], VAbsOut "phil1_22", "# cHl1Abs22");
   ([5], VAbsOut "phil1_23", "# cHl1Abs23");
   ([6], VAbsOut "phil1_33", "# cHl1Abs33");
   ([7], VAng "phil1_12", "# cHl1Ph12");
   ([8], VAng "phil1_13", "# cHl1Ph13");
   ([9], VAng "phil1_23", "# cHl1Ph23");
   ([10], VAbsOut "phil3_11", "# cHL3Abs11");
   ([11], VAbsOut "phil3_12", "# cHL3Abs12");
   ([12], VAbsOut "phil3_13", "# cHL3Abs13");
   ([13], VAbsOut "phil3_22", "# cHL3Abs22");
   ([14], VAbsOut "phil3_23", "# cHL3Abs23");
   ([15], VAbsOut "phil3_33", "# cHL3Abs33");
   ([16], VAng "phil3_12", "# cHL3Ph12");
   ([17], VAng "phil3_13", "# cHL3Ph13");
   ([18], VAng "phil3_23", "# cHL3Ph23");
   ([19], VAbsOut "phiq1_11", "# cHq1Abs11");
   ([20], VAbsOut "phiq1_12", "# cHq1Abs12");
   ([21], VAbsOut "phiq1_13", "# cHq1Abs13");
   ([22], VAbsOut "phiq1_22", "# cHq1Abs22");
   ([23], VAbsOut "phiq1_23", "# cHq1Abs23");
   ([24], VAbsOut "phiq1_33", "# cHq1Abs33");
   ([25], VAng "phiq1_12", "# cHq1Ph12");
   ([26], VAng "phiq1_13", "# cHq1Ph13");
   ([27], VAng "phiq1_23", "# cHq1Ph23");
   ([28], VAbsOut "phiq3_11", "# cHQ3Abs11");
   ([29], VAbsOut "phiq3_12", "# cHQ3Abs12");
   ([30], VAbsOut "phiq3_13", "# cHQ3Abs13");
   ([31], VAbsOut "phiq3_22", "# cHQ3Abs22");
   ([32], VAbsOut "phiq3_23", "# cHQ3Abs23");
   ([33], VAbsOut "phiq3_33", "# cHQ3Abs33");
   ([34], VAng "phiq3_12", "# cHQ3Ph12");
   ([35], VAng "phiq3_13", "# cHQ3Ph13");
   ([36], VAng "phiq3_23", "# cHQ3Ph23");
   ([37], VAbsOut "phiu_11", "# cHuAbs11");
   ([38], VAbsOut "phiu_12", "# cHuAbs12");
   ([39], VAbsOut "phiu_13", "# cHuAbs13");
   ([40], VAbsOut "phiu_22", "# cHuAbs22");
   ([41], VAbsOut "phiu_23", "# cHuAbs23");
   ([42], VAbsOut "phiu_33", "# cHuAbs33");
   ([43], VAng "phiu_12", "# cHuPh12");
   ([44], VAng "phiu_13", "# cHuPh13");
   ([45], VAng "phiu_23", "# cHuPh23");
   ([46], VAbsOut "phid_11", "# cHdAbs11");
   ([47], VAbsOut "phid_12", "# cHdAbs12");
   ([48], VAbsOut "phid_13", "# cHdAbs13");
   ([49], VAbsOut "phid_22", "# cHdAbs22");
   ([50], VAbsOut "phid_23", "# cHdAbs23");
   ([51], VAbsOut "phid_33", "# cHdAbs33");
   ([52], VAng "phid_12", "# cHdPh12");
   ([53], VAng "phid_13", "# cHdPh13");
   ([54], VAng "phid_23", "# cHdPh23");
   ([55], VAbsOut "phie_11", "# cHeAbs11");
   ([56], VAbsOut "phie_12", "# cHeAbs12");
   ([57], VAbsOut "phie_13", "# cHeAbs13");
   ([58], VAbsOut "phie_22", "# cHeAbs22");
   ([59], VAbsOut "phie_23", "# cHeAbs23");
   ([60], VAbsOut "phie_33", "# cHeAbs33");
   ([61], VAng "phie_12", "# cHePh12");
   ([62], VAng "phie_13", "# cHePh13");
   ([63], VAng "phie_23", "# cHePh23");
   ([64], VVal "ll_1111", "# cllAbs1111");
   ([65], VVal "ll_1122", "# cllAbs1122");
   ([66], VVal "ll_1221", "# cllAbs1221");
   ([67], VVal "ll_1133", "# cllAbs1133");
   ([68], VVal "ll_1331", "# cllAbs1331");
   ([69], VVal "ll_2222", "# cllAbs2222");
   ([70], VVal "ll_2233", "# cllAbs2233");
   ([71], VVal "ll_2332", "# cllAbs2332");
   ([72], VVal "ll_3333", "# cllAbs3333");
   ([73], VAbs "ll_1112", "# cllAbs1112");
   ([74], VAbs "ll_1113", "# cllAbs1113");
   ([75], VAbs "ll_1123", "# cllAbs1123");
   ([76], VAbs "ll_1212", "# cllAbs1212");
   ([77], VAbs "ll_1213", "# cllAbs1213");
   ([78], VAbs "ll_1231", "# cllAbs1231");
   ([79], VAbs "ll_1222", "# cllAbs1222");
   ([80], VAbs "ll_1223", "# cllAbs1223");
   ([81], VAbs "ll_1232", "# cllAbs1232");
   ([82], VAbs "ll_1233", "# cllAbs1233");
   ([83], VAbs "ll_1313", "# cllAbs1313");
   ([84], VAbs "ll_1322", "# cllAbs1322");
   ([85], VAbs "ll_1332", "# cllAbs1332");
   ([86], VAbs "ll_1323", "# cllAbs1323");
   ([87], VAbs "ll_1333", "# cllAbs1333");
   ([88], VAbs "ll_2223", "# cllAbs2223");
   ([89], VAbs "ll_2323", "# cllAbs2323");
   ([90], VAbs "ll_2333", "# cllAbs3323");
   ([91], VAng "ll_1112", "# cllPh1112");
   ([92], VAng "ll_1113", "# cllPh1113");
   ([93], VAng "ll_1123", "# cllPh1123");
   ([94], VAng "ll_1212", "# cllPh1212");
   ([95], VAng "ll_1213", "# cllPh1213");
   ([96], VAng "ll_1231", "# cllPh1231");
   ([97], VAng "ll_1222", "# cllPh1222");
   ([98], VAng "ll_1223", "# cllPh1223");
   ([99], VAng "ll_1232", "# cllPh1232");
   ([100], VAng "ll_1233", "# cllPh1233");
   ([101], VAng "ll_1313", "# cllPh1313");
   ([102], VAng "ll_1322", "# cllPh1322");
   ([103], VAng "ll_1332", "# cllPh1332");
   ([104], VAng "ll_1323", "# cllPh1323");
   ([105], VAng "ll_1333", "# cllPh1333");
   ([106], VAng "ll_2223", "# cllPh2223");
   ([107], VAng "ll_2323", "# cllPh2323");
   ([108], VAng "ll_2333", "# cllPh3323");
   ([109], VVal "qq1_1111", "# cqq1Abs1111");
   ([110], VVal "qq1_1122", "# cqq1Abs1122");
   ([111], VVal "qq1_1221", "# cqq1Abs1221");
   ([112], VVal "qq1_1133", "# cqq1Abs1133");
   ([113], VVal "qq1_1331", "# cqq1Abs1331");
   ([114], VVal "qq1_2222", "# cqq1Abs2222");
   ([115], VVal "qq1_2233", "# cqq1Abs2233");
   ([116], VVal "qq1_2332", "# cqq1Abs2332");
   ([117], VVal "qq1_3333", "# cqq1Abs3333");
   ([118], VAbs "qq1_1112", "# cqq1Abs1112");
   ([119], VAbs "qq1_1113", "# cqq1Abs1113");
   ([120], VAbs "qq1_1123", "# cqq1Abs1123");
   ([121], VAbs "qq1_1212", "# cqq1Abs1212");
   ([122], VAbs "qq1_1213", "# cqq1Abs1213");
   ([123], VAbs "qq1_1231", "# cqq1Abs1231");
   ([124], VAbs "qq1_1222", "# cqq1Abs1222");
   ([125], VAbs "qq1_1223", "# cqq1Abs1223");
   ([126], VAbs "qq1_1232", "# cqq1Abs1232");
   ([127], VAbs "qq1_1233", "# cqq1Abs1233");
   ([128], VAbs "qq1_1313", "# cqq1Abs1313");
   ([129], VAbs "qq1_1322", "# cqq1Abs1322");
   ([130], VAbs "qq1_1332", "# cqq1Abs1332");
   ([131], VAbs "qq1_1323", "# cqq1Abs1323");
   ([132], VAbs "qq1_1333", "# cqq1Abs1333");
   ([133], VAbs "qq1_2223", "# cqq1Abs2223");
   ([134], VAbs "qq1_2323", "# cqq1Abs2323");
   ([135], VAbs "qq1_2333", "# cqq1Abs3323");
   ([136], VAng "qq1_1112", "# cqq1Ph1112");
   ([137], VAng "qq1_1113", "# cqq1Ph1113");
   ([138], VAng "qq1_1123", "# cqq1Ph1123");
   ([139], VAng "qq1_1212", "# cqq1Ph1212");
   ([140], VAng "qq1_1213", "# cqq1Ph1213");
   ([141], VAng "qq1_1231", "# cqq1Ph1231");
   ([142], VAng "qq1_1222", "# cqq1Ph1222");
   ([143], VAng "qq1_1223", "# cqq1Ph1223");
   ([144], VAng "qq1_1232", "# cqq1Ph1232");
   ([145], VAng "qq1_1233", "# cqq1Ph1233");
   ([146], VAng "qq1_1313", "# cqq1Ph1313");
   ([147], VAng "qq1_1322", "# cqq1Ph1322");
   ([148], VAng "qq1_1332", "# cqq1Ph1332");
   ([149], VAng "qq1_1323", "# cqq1Ph1323");
   ([150], VAng "qq1_1333", "# cqq1Ph1333");
   ([151], VAng "qq1_2223", "# cqq1Ph2223");
   ([152], VAng "qq1_2323", "# cqq1Ph2323");
   ([153], VAng "qq1_2333", "# cqq1Ph3323");
   ([154], VVal "qq3_1111", "# cQQ3Abs1111");
   ([155], VVal "qq3_1122", "# cQQ3Abs1122");
   ([156], VVal "qq3_1221", "# cQQ3Abs1221");
   ([157], VVal "qq3_1133", "# cQQ3Abs1133");
   ([158], VVal "qq3_1331", "# cQQ3Abs1331");
   ([159], VVal "qq3_2222", "# cQQ3Abs2222");
   ([160], VVal "qq3_2233", "# cQQ3Abs2233");
   ([161], VVal "qq3_2332", "# cQQ3Abs2332");
   ([162], VVal "qq3_3333", "# cQQ3Abs3333");
   ([163], VAbs "qq3_1112", "# cQQ3Abs1112");
   ([164], VAbs "qq3_1113", "# cQQ3Abs1113");
   ([165], VAbs "qq3_1123", "# cQQ3Abs1123");
   ([166], VAbs "qq3_1212", "# cQQ3Abs1212");
   ([167], VAbs "qq3_1213", "# cQQ3Abs1213");
   ([168], VAbs "qq3_1231", "# cQQ3Abs1231");
   ([169], VAbs "qq3_1222", "# cQQ3Abs1222");
   ([170], VAbs "qq3_1223", "# cQQ3Abs1223");
   ([171], VAbs "qq3_1232", "# cQQ3Abs1232");
   ([172], VAbs "qq3_1233", "# cQQ3Abs1233");
   ([173], VAbs "qq3_1313", "# cQQ3Abs1313");
   ([174], VAbs "qq3_1322", "# cQQ3Abs1322");
   ([175], VAbs "qq3_1332", "# cQQ3Abs1332");
   ([176], VAbs "qq3_1323", "# cQQ3Abs1323");
   ([177], VAbs "qq3_1333", "# cQQ3Abs1333");
   ([178], VAbs "qq3_2223", "# cQQ3Abs2223");
   ([179], VAbs "qq3_2323", "# cQQ3Abs2323");
   ([180], VAbs "qq3_2333", "# cQQ3Abs3323");
   ([181], VAng "qq3_1112", "# cQQ3Ph1112");
   ([182], VAng "qq3_1113", "# cQQ3Ph1113");
   ([183], VAng "qq3_1123", "# cQQ3Ph1123");
   ([184], VAng "qq3_1212", "# cQQ3Ph1212");
   ([185], VAng "qq3_1213", "# cQQ3Ph1213");
   ([186], VAng "qq3_1231", "# cQQ3Ph1231");
   ([187], VAng "qq3_1222", "# cQQ3Ph1222");
   ([188], VAng "qq3_1223", "# cQQ3Ph1223");
   ([189], VAng "qq3_1232", "# cQQ3Ph1232");
   ([190], VAng "qq3_1233", "# cQQ3Ph1233");
   ([191], VAng "qq3_1313", "# cQQ3Ph1313");
   ([192], VAng "qq3_1322", "# cQQ3Ph1322");
   ([193], VAng "qq3_1332", "# cQQ3Ph1332");
   ([194], VAng "qq3_1323", "# cQQ3Ph1323");
   ([195], VAng "qq3_1333", "# cQQ3Ph1333");
   ([196], VAng "qq3_2223", "# cQQ3Ph2223");
   ([197], VAng "qq3_2323", "# cQQ3Ph2323");
   ([198], VAng "qq3_2333", "# cQQ3Ph3323");
   ([199], VVal "lq1_1111", "# clq1Abs1111");
   ([200], VAbs "lq1_1112", "# clq1Abs1112");
   ([201], VAbs "lq1_1113", "# clq1Abs1113");
   ([202], VAbs "lq1_1123", "# clq1Abs1123");
   ([203], VVal "lq1_1122", "# clq1Abs1122");
   ([204], VVal "lq1_1133", "# clq1Abs1133");
   ([205], VAbs "lq1_1211", "# clq1Abs1211");
   ([206], VAbs "lq1_1212", "# clq1Abs1212");
   ([207], VAbs "lq1_1221", "# clq1Abs1221");
   ([208], VAbs "lq1_1213", "# clq1Abs1213");
   ([209], VAbs "lq1_1231", "# clq1Abs1231");
   ([210], VAbs "lq1_1222", "# clq1Abs1222");
   ([211], VAbs "lq1_1223", "# clq1Abs1223");
   ([212], VAbs "lq1_1232", "# clq1Abs1232");
   ([213], VAbs "lq1_1233", "# clq1Abs1233");
   ([214], VAbs "lq1_1311", "# clq1Abs1311");
   ([215], VAbs "lq1_1312", "# clq1Abs1312");
   ([216], VAbs "lq1_1313", "# clq1Abs1313");
   ([217], VAbs "lq1_1331", "# clq1Abs1331");
   ([218], VAbs "lq1_1321", "# clq1Abs1321");
   ([219], VAbs "lq1_1322", "# clq1Abs1322");
   ([220], VAbs "lq1_1332", "# clq1Abs1332");
   ([221], VAbs "lq1_1323", "# clq1Abs1323");
   ([222], VAbs "lq1_1333", "# clq1Abs1333");
   ([223], VVal "lq1_2211", "# clq1Abs2211");
   ([224], VAbs "lq1_2212", "# clq1Abs2212");
   ([225], VAbs "lq1_2213", "# clq1Abs2213");
   ([226], VVal "lq1_2222", "# clq1Abs2222");
   ([227], VAbs "lq1_2223", "# clq1Abs2223");
   ([228], VVal "lq1_2233", "# clq1Abs2233");
   ([229], VAbs "lq1_2311", "# clq1Abs2311");
   ([230], VAbs "lq1_2312", "# clq1Abs2312");
   ([231], VAbs "lq1_2313", "# clq1Abs2313");
   ([232], VAbs "lq1_2321", "# clq1Abs2321");
   ([233], VAbs "lq1_2322", "# clq1Abs2322");
   ([234], VAbs "lq1_2323", "# clq1Abs2323");
   ([235], VAbs "lq1_2331", "# clq1Abs2331");
   ([236], VAbs "lq1_2332", "# clq1Abs2332");
   ([237], VAbs "lq1_2333", "# clq1Abs2333");
   ([238], VVal "lq1_3311", "# clq1Abs3311");
   ([239], VAbs "lq1_3312", "# clq1Abs3312");
   ([240], VAbs "lq1_3313", "# clq1Abs3313");
   ([241], VVal "lq1_3322", "# clq1Abs3322");
   ([242], VVal "lq1_3333", "# clq1Abs3333");
   ([243], VAbs "lq1_3323", "# clq1Abs3323");
   ([244], VAng "lq1_1112", "# clq1Ph1112");
   ([245], VAng "lq1_2212", "# clq1Ph2212");
   ([246], VAng "lq1_1113", "# clq1Ph1113");
   ([247], VAng "lq1_1123", "# clq1Ph1123");
   ([248], VAng "lq1_1211", "# clq1Ph1211");
   ([249], VAng "lq1_1212", "# clq1Ph1212");
   ([250], VAng "lq1_1221", "# clq1Ph1221");
   ([251], VAng "lq1_1213", "# clq1Ph1213");
   ([252], VAng "lq1_1231", "# clq1Ph1231");
   ([253], VAng "lq1_1222", "# clq1Ph1222");
   ([254], VAng "lq1_1223", "# clq1Ph1223");
   ([255], VAng "lq1_1232", "# clq1Ph1232");
   ([256], VAng "lq1_1233", "# clq1Ph1233");
   ([257], VAng "lq1_1311", "# clq1Ph1311");
   ([258], VAng "lq1_1312", "# clq1Ph1312");
   ([259], VAng "lq1_1313", "# clq1Ph1313");
   ([260], VAng "lq1_1331", "# clq1Ph1331");
   ([261], VAng "lq1_1321", "# clq1Ph1321");
   ([262], VAng "lq1_1322", "# clq1Ph1322");
   ([263], VAng "lq1_1332", "# clq1Ph1332");
   ([264], VAng "lq1_1323", "# clq1Ph1323");
   ([265], VAng "lq1_1333", "# clq1Ph1333");
   ([266], VAng "lq1_2213", "# clq1Ph2213");
   ([267], VAng "lq1_2223", "# clq1Ph2223");
   ([268], VAng "lq1_2311", "# clq1Ph2311");
   ([269], VAng "lq1_2312", "# clq1Ph2312");
   ([270], VAng "lq1_2313", "# clq1Ph2313");
   ([271], VAng "lq1_2321", "# clq1Ph2321");
   ([272], VAng "lq1_2322", "# clq1Ph2322");
   ([273], VAng "lq1_2323", "# clq1Ph2323");
   ([274], VAng "lq1_2331", "# clq1Ph2331");
   ([275], VAng "lq1_2332", "# clq1Ph2332");
   ([276], VAng "lq1_2333", "# clq1Ph2333");
   ([277], VAng "lq1_3323", "# clq1Ph3323");
   ([278], VAng "lq1_3312", "# clq1Ph3312");
   ([279], VAng "lq1_3313", "# clq1Ph3313");
   ([280], VVal "lq3_1111", "# cLQ3Abs1111");
   ([281], VAbs "lq3_1112", "# cLQ3Abs1112");
   ([282], VAbs "lq3_1113", "# cLQ3Abs1113");
   ([283], VAbs "lq3_1123", "# cLQ3Abs1123");
   ([284], VVal "lq3_1122", "# cLQ3Abs1122");
   ([285], VVal "lq3_1133", "# cLQ3Abs1133");
   ([286], VAbs "lq3_1211", "# cLQ3Abs1211");
   ([287], VAbs "lq3_1212", "# cLQ3Abs1212");
   ([288], VAbs "lq3_1221", "# cLQ3Abs1221");
   ([289], VAbs "lq3_1213", "# cLQ3Abs1213");
   ([290], VAbs "lq3_1231", "# cLQ3Abs1231");
   ([291], VAbs "lq3_1222", "# cLQ3Abs1222");
   ([292], VAbs "lq3_1223", "# cLQ3Abs1223");
   ([293], VAbs "lq3_1232", "# cLQ3Abs1232");
   ([294], VAbs "lq3_1233", "# cLQ3Abs1233");
   ([295], VAbs "lq3_1311", "# cLQ3Abs1311");
   ([296], VAbs "lq3_1312", "# cLQ3Abs1312");
   ([297], VAbs "lq3_1313", "# cLQ3Abs1313");
   ([298], VAbs "lq3_1331", "# cLQ3Abs1331");
   ([299], VAbs "lq3_1321", "# cLQ3Abs1321");
   ([300], VAbs "lq3_1322", "# cLQ3Abs1322");
   ([301], VAbs "lq3_1332", "# cLQ3Abs1332");
   ([302], VAbs "lq3_1323", "# cLQ3Abs1323");
   ([303], VAbs "lq3_1333", "# cLQ3Abs1333");
   ([304], VVal "lq3_2211", "# cLQ3Abs2211");
   ([305], VAbs "lq3_2212", "# cLQ3Abs2212");
   ([306], VAbs "lq3_2213", "# cLQ3Abs2213");
   ([307], VVal "lq3_2222", "# cLQ3Abs2222");
   ([308], VAbs "lq3_2223", "# cLQ3Abs2223");
   ([309], VVal "lq3_2233", "# cLQ3Abs2233");
   ([310], VAbs "lq3_2311", "# cLQ3Abs2311");
   ([311], VAbs "lq3_2312", "# cLQ3Abs2312");
   ([312], VAbs "lq3_2313", "# cLQ3Abs2313");
   ([313], VAbs "lq3_2321", "# cLQ3Abs2321");
   ([314], VAbs "lq3_2322", "# cLQ3Abs2322");
   ([315], VAbs "lq3_2323", "# cLQ3Abs2323");
   ([316], VAbs "lq3_2331", "# cLQ3Abs2331");
   ([317], VAbs "lq3_2332", "# cLQ3Abs2332");
   ([318], VAbs "lq3_2333", "# cLQ3Abs2333");
   ([319], VVal "lq3_3311", "# cLQ3Abs3311");
   ([320], VAbs "lq3_3312", "# cLQ3Abs3312");
   ([321], VAbs "lq3_3313", "# cLQ3Abs3313");
   ([322], VVal "lq3_3322", "# cLQ3Abs3322");
   ([323], VVal "lq3_3333", "# cLQ3Abs3333");
   ([324], VAbs "lq3_3323", "# cLQ3Abs3323");
   ([325], VAng "lq3_1112", "# cLQ3Ph1112");
   ([326], VAng "lq3_2212", "# cLQ3Ph2212");
   ([327], VAng "lq3_1113", "# cLQ3Ph1113");
   ([328], VAng "lq3_1123", "# cLQ3Ph1123");
   ([329], VAng "lq3_1211", "# cLQ3Ph1211");
   ([330], VAng "lq3_1212", "# cLQ3Ph1212");
   ([331], VAng "lq3_1221", "# cLQ3Ph1221");
   ([332], VAng "lq3_1213", "# cLQ3Ph1213");
   ([333], VAng "lq3_1231", "# cLQ3Ph1231");
   ([334], VAng "lq3_1222", "# cLQ3Ph1222");
   ([335], VAng "lq3_1223", "# cLQ3Ph1223");
   ([336], VAng "lq3_1232", "# cLQ3Ph1232");
   ([337], VAng "lq3_1233", "# cLQ3Ph1233");
   ([338], VAng "lq3_1311", "# cLQ3Ph1311");
   ([339], VAng "lq3_1312", "# cLQ3Ph1312");
   ([340], VAng "lq3_1313", "# cLQ3Ph1313");
   ([341], VAng "lq3_1331", "# cLQ3Ph1331");
   ([342], VAng "lq3_1321", "# cLQ3Ph1321");
   ([343], VAng "lq3_1322", "# cLQ3Ph1322");
   ([344], VAng "lq3_1332", "# cLQ3Ph1332");
   ([345], VAng "lq3_1323", "# cLQ3Ph1323");
   ([346], VAng "lq3_1333", "# cLQ3Ph1333");
   ([347], VAng "lq3_2213", "# cLQ3Ph2213");
   ([348], VAng "lq3_2223", "# cLQ3Ph2223");
   ([349], VAng "lq3_2311", "# cLQ3Ph2311");
   ([350], VAng "lq3_2312", "# cLQ3Ph2312");
   ([351], VAng "lq3_2313", "# cLQ3Ph2313");
   ([352], VAng "lq3_2321", "# cLQ3Ph2321");
   ([353], VAng "lq3_2322", "# cLQ3Ph2322");
   ([354], VAng "lq3_2323", "# cLQ3Ph2323");
   ([355], VAng "lq3_2331", "# cLQ3Ph2331");
   ([356], VAng "lq3_2332", "# cLQ3Ph2332");
   ([357], VAng "lq3_2333", "# cLQ3Ph2333");
   ([358], VAng "lq3_3323", "# cLQ3Ph3323");
   ([359], VAng "lq3_3312", "# cLQ3Ph3312");
   ([360], VAng "lq3_3313", "# cLQ3Ph3313");
   ([361], VVal "uu_1111", "# cuuAbs1111");
   ([362], VVal "uu_1122", "# cuuAbs1122");
   ([363], VVal "uu_1221", "# cuuAbs1221");
   ([364], VVal "uu_1133", "# cuuAbs1133");
   ([365], VVal "uu_1331", "# cuuAbs1331");
   ([366], VVal "uu_2222", "# cuuAbs2222");
   ([367], VVal "uu_2233", "# cuuAbs2233");
   ([368], VVal "uu_2332", "# cuuAbs2332");
   ([369], VVal "uu_3333", "# cuuAbs3333");
   ([370], VAbs "uu_1112", "# cuuAbs1112");
   ([371], VAbs "uu_1113", "# cuuAbs1113");
   ([372], VAbs "uu_1123", "# cuuAbs1123");
   ([373], VAbs "uu_1212", "# cuuAbs1212");
   ([374], VAbs "uu_1213", "# cuuAbs1213");
   ([375], VAbs "uu_1231", "# cuuAbs1231");
   ([376], VAbs "uu_1222", "# cuuAbs1222");
   ([377], VAbs "uu_1223", "# cuuAbs1223");
   ([378], VAbs "uu_1232", "# cuuAbs1232");
   ([379], VAbs "uu_1233", "# cuuAbs1233");
   ([380], VAbs "uu_1313", "# cuuAbs1313");
   ([381], VAbs "uu_1322", "# cuuAbs1322");
   ([382], VAbs "uu_1332", "# cuuAbs1332");
   ([383], VAbs "uu_1323", "# cuuAbs1323");
   ([384], VAbs "uu_1333", "# cuuAbs1333");
   ([385], VAbs "uu_2223", "# cuuAbs2223");
   ([386], VAbs "uu_2323", "# cuuAbs2323");
   ([387], VAbs "uu_2333", "# cuuAbs3323");
   ([388], VAng "uu_1112", "# cuuPh1112");
   ([389], VAng "uu_1113", "# cuuPh1113");
   ([390], VAng "uu_1123", "# cuuPh1123");
   ([391], VAng "uu_1212", "# cuuPh1212");
   ([392], VAng "uu_1213", "# cuuPh1213");
   ([393], VAng "uu_1231", "# cuuPh1231");
   ([394], VAng "uu_1222", "# cuuPh1222");
   ([395], VAng "uu_1223", "# cuuPh1223");
   ([396], VAng "uu_1232", "# cuuPh1232");
   ([397], VAng "uu_1233", "# cuuPh1233");
   ([398], VAng "uu_1313", "# cuuPh1313");
   ([399], VAng "uu_1322", "# cuuPh1322");
   ([400], VAng "uu_1332", "# cuuPh1332");
   ([401], VAng "uu_1323", "# cuuPh1323");
   ([402], VAng "uu_1333", "# cuuPh1333");
   ([403], VAng "uu_2223", "# cuuPh2223");
   ([404], VAng "uu_2323", "# cuuPh2323");
   ([405], VAng "uu_2333", "# cuuPh3323");
   ([406], VVal "dd_1111", "# cddAbs1111");
   ([407], VVal "dd_1122", "# cddAbs1122");
   ([408], VVal "dd_1221", "# cddAbs1221");
   ([409], VVal "dd_1133", "# cddAbs1133");
   ([410], VVal "dd_1331", "# cddAbs1331");
   ([411], VVal "dd_2222", "# cddAbs2222");
   ([412], VVal "dd_2233", "# cddAbs2233");
   ([413], VVal "dd_2332", "# cddAbs2332");
   ([414], VVal "dd_3333", "# cddAbs3333");
   ([415], VAbs "dd_1112", "# cddAbs1112");
   ([416], VAbs "dd_1113", "# cddAbs1113");
   ([417], VAbs "dd_1123", "# cddAbs1123");
   ([418], VAbs "dd_1212", "# cddAbs1212");
   ([419], VAbs "dd_1213", "# cddAbs1213");
   ([420], VAbs "dd_1231", "# cddAbs1231");
   ([421], VAbs "dd_1222", "# cddAbs1222");
   ([422], VAbs "dd_1223", "# cddAbs1223");
   ([423], VAbs "dd_1232", "# cddAbs1232");
   ([424], VAbs "dd_1233", "# cddAbs1233");
   ([425], VAbs "dd_1313", "# cddAbs1313");
   ([426], VAbs "dd_1322", "# cddAbs1322");
   ([427], VAbs "dd_1332", "# cddAbs1332");
   ([428], VAbs "dd_1323", "# cddAbs1323");
   ([429], VAbs "dd_1333", "# cddAbs1333");
   ([430], VAbs "dd_2223", "# cddAbs2223");
   ([431], VAbs "dd_2323", "# cddAbs2323");
   ([432], VAbs "dd_2333", "# cddAbs3323");
   ([433], VAng "dd_1112", "# cddPh1112");
   ([434], VAng "dd_1113", "# cddPh1113");
   ([435], VAng "dd_1123", "# cddPh1123");
   ([436], VAng "dd_1212", "# cddPh1212");
   ([437], VAng "dd_1213", "# cddPh1213");
   ([438], VAng "dd_1231", "# cddPh1231");
   ([439], VAng "dd_1222", "# cddPh1222");
   ([440], VAng "dd_1223", "# cddPh1223");
   ([441], VAng "dd_1232", "# cddPh1232");
   ([442], VAng "dd_1233", "# cddPh1233");
   ([443], VAng "dd_1313", "# cddPh1313");
   ([444], VAng "dd_1322", "# cddPh1322");
   ([445], VAng "dd_1332", "# cddPh1332");
   ([446], VAng "dd_1323", "# cddPh1323");
   ([447], VAng "dd_1333", "# cddPh1333");
   ([448], VAng "dd_2223", "# cddPh2223");
   ([449], VAng "dd_2323", "# cddPh2323");
   ([450], VAng "dd_2333", "# cddPh3323");
   ([451], VVal "ee_1111", "# ceeAbs1111");
   ([452], VVal "ee_2222", "# ceeAbs2222");
   ([453], VVal "ee_3333", "# ceeAbs3333");
   ([454], VVal "ee_1122", "# ceeAbs1122");
   ([455], VVal "ee_1133", "# ceeAbs1133");
   ([456], VVal "ee_2233", "# ceeAbs2233");
   ([457], VAbs "ee_1212", "# ceeAbs1212");
   ([458], VAbs "ee_1213", "# ceeAbs1213");
   ([459], VAbs "ee_1232", "# ceeAbs1232");
   ([460], VAbs "ee_1313", "# ceeAbs1313");
   ([461], VAbs "ee_1323", "# ceeAbs1323");
   ([462], VAbs "ee_2323", "# ceeAbs2323");
   ([463], VAbs "ee_1112", "# ceeAbs1112");
   ([464], VAbs "ee_1222", "# ceeAbs1222");
   ([465], VAbs "ee_1233", "# ceeAbs1233");
   ([466], VAbs "ee_1113", "# ceeAbs1113");
   ([467], VAbs "ee_1223", "# ceeAbs1322");
   ([468], VAbs "ee_1333", "# ceeAbs1333");
   ([469], VAbs "ee_1123", "# ceeAbs1123");
   ([470], VAbs "ee_2223", "# ceeAbs2223");
   ([471], VAbs "ee_2333", "# ceeAbs3323");
   ([472], VAng "ee_1112", "# ceePh1112");
   ([473], VAng "ee_1113", "# ceePh1113");
   ([474], VAng "ee_1123", "# ceePh1123");
   ([475], VAng "ee_1212", "# ceePh1212");
   ([476], VAng "ee_1213", "# ceePh1213");
   ([477], VAng "ee_1323", "# ceePh1323");
   ([478], VAng "ee_1222", "# ceePh1222");
   ([479], VAng "ee_2333", "# ceePh3323");
   ([480], VAng "ee_1232", "# ceePh1232");
   ([481], VAng "ee_1233", "# ceePh1233");
   ([482], VAng "ee_1313", "# ceePh1313");
   ([483], VAng "ee_1223", "# ceePh1322");
   ([484], VAng "ee_1333", "# ceePh1333");
   ([485], VAng "ee_2223", "# ceePh2223");
   ([486], VAng "ee_2323", "# ceePh2323");
   ([487], VVal "ud1_1111", "# cud1Abs1111");
   ([488], VAbs "ud1_1112", "# cud1Abs1112");
   ([489], VAbs "ud1_1113", "# cud1Abs1113");
   ([490], VAbs "ud1_1123", "# cud1Abs1123");
   ([491], VVal "ud1_1122", "# cud1Abs1122");
   ([492], VVal "ud1_1133", "# cud1Abs1133");
   ([493], VAbs "ud1_1211", "# cud1Abs1211");
   ([494], VAbs "ud1_1212", "# cud1Abs1212");
   ([495], VAbs "ud1_1221", "# cud1Abs1221");
   ([496], VAbs "ud1_1213", "# cud1Abs1213");
   ([497], VAbs "ud1_1231", "# cud1Abs1231");
   ([498], VAbs "ud1_1222", "# cud1Abs1222");
   ([499], VAbs "ud1_1223", "# cud1Abs1223");
   ([500], VAbs "ud1_1232", "# cud1Abs1232");
   ([501], VAbs "ud1_1233", "# cud1Abs1233");
   ([502], VAbs "ud1_1311", "# cud1Abs1311");
   ([503], VAbs "ud1_1312", "# cud1Abs1312");
   ([504], VAbs "ud1_1313", "# cud1Abs1313");
   ([505], VAbs "ud1_1331", "# cud1Abs1331");
   ([506], VAbs "ud1_1321", "# cud1Abs1321");
   ([507], VAbs "ud1_1322", "# cud1Abs1322");
   ([508], VAbs "ud1_1332", "# cud1Abs1332");
   ([509], VAbs "ud1_1323", "# cud1Abs1323");
   ([510], VAbs "ud1_1333", "# cud1Abs1333");
   ([511], VVal "ud1_2211", "# cud1Abs2211");
   ([512], VAbs "ud1_2212", "# cud1Abs2212");
   ([513], VAbs "ud1_2213", "# cud1Abs2213");
   ([514], VVal "ud1_2222", "# cud1Abs2222");
   ([515], VAbs "ud1_2223", "# cud1Abs2223");
   ([516], VVal "ud1_2233", "# cud1Abs2233");
   ([517], VAbs "ud1_2311", "# cud1Abs2311");
   ([518], VAbs "ud1_2312", "# cud1Abs2312");
   ([519], VAbs "ud1_2313", "# cud1Abs2313");
   ([520], VAbs "ud1_2321", "# cud1Abs2321");
   ([521], VAbs "ud1_2322", "# cud1Abs2322");
   ([522], VAbs "ud1_2323", "# cud1Abs2323");
   ([523], VAbs "ud1_2331", "# cud1Abs2331");
   ([524], VAbs "ud1_2332", "# cud1Abs2332");
   ([525], VAbs "ud1_2333", "# cud1Abs2333");
   ([526], VVal "ud1_3311", "# cud1Abs3311");
   ([527], VAbs "ud1_3312", "# cud1Abs3312");
   ([528], VAbs "ud1_3313", "# cud1Abs3313");
   ([529], VVal "ud1_3322", "# cud1Abs3322");
   ([530], VVal "ud1_3333", "# cud1Abs3333");
   ([531], VAbs "ud1_3323", "# cud1Abs3323");
   ([532], VAng "ud1_1112", "# cud1Ph1112");
   ([533], VAng "ud1_2212", "# cud1Ph2212");
   ([534], VAng "ud1_1113", "# cud1Ph1113");
   ([535], VAng "ud1_1123", "# cud1Ph1123");
   ([536], VAng "ud1_1211", "# cud1Ph1211");
   ([537], VAng "ud1_1212", "# cud1Ph1212");
   ([538], VAng "ud1_1221", "# cud1Ph1221");
   ([539], VAng "ud1_1213", "# cud1Ph1213");
   ([540], VAng "ud1_1231", "# cud1Ph1231");
   ([541], VAng "ud1_1222", "# cud1Ph1222");
   ([542], VAng "ud1_1223", "# cud1Ph1223");
   ([543], VAng "ud1_1232", "# cud1Ph1232");
   ([544], VAng "ud1_1233", "# cud1Ph1233");
   ([545], VAng "ud1_1311", "# cud1Ph1311");
   ([546], VAng "ud1_1312", "# cud1Ph1312");
   ([547], VAng "ud1_1313", "# cud1Ph1313");
   ([548], VAng "ud1_1331", "# cud1Ph1331");
   ([549], VAng "ud1_1321", "# cud1Ph1321");
   ([550], VAng "ud1_1322", "# cud1Ph1322");
   ([551], VAng "ud1_1332", "# cud1Ph1332");
   ([552], VAng "ud1_1323", "# cud1Ph1323");
   ([553], VAng "ud1_1333", "# cud1Ph1333");
   ([554], VAng "ud1_2213", "# cud1Ph2213");
   ([555], VAng "ud1_2223", "# cud1Ph2223");
   ([556], VAng "ud1_2311", "# cud1Ph2311");
   ([557], VAng "ud1_2312", "# cud1Ph2312");
   ([558], VAng "ud1_2313", "# cud1Ph2313");
   ([559], VAng "ud1_2321", "# cud1Ph2321");
   ([560], VAng "ud1_2322", "# cud1Ph2322");
   ([561], VAng "ud1_2323", "# cud1Ph2323");
   ([562], VAng "ud1_2331", "# cud1Ph2331");
   ([563], VAng "ud1_2332", "# cud1Ph2332");
   ([564], VAng "ud1_2333", "# cud1Ph2333");
   ([565], VAng "ud1_3323", "# cud1Ph3323");
   ([566], VAng "ud1_3312", "# cud1Ph3312");
   ([567], VAng "ud1_3313", "# cud1Ph3313");
   ([568], VVal "ud8_1111", "# cUD8Abs1111");
   ([569], VAbs "ud8_1112", "# cUD8Abs1112");
   ([570], VAbs "ud8_1113", "# cUD8Abs1113");
   ([571], VAbs "ud8_1123", "# cUD8Abs1123");
   ([572], VVal "ud8_1122", "# cUD8Abs1122");
   ([573], VVal "ud8_1133", "# cUD8Abs1133");
   ([574], VAbs "ud8_1211", "# cUD8Abs1211");
   ([575], VAbs "ud8_1212", "# cUD8Abs1212");
   ([576], VAbs "ud8_1221", "# cUD8Abs1221");
   ([577], VAbs "ud8_1213", "# cUD8Abs1213");
   ([578], VAbs "ud8_1231", "# cUD8Abs1231");
   ([579], VAbs "ud8_1222", "# cUD8Abs1222");
   ([580], VAbs "ud8_1223", "# cUD8Abs1223");
   ([581], VAbs "ud8_1232", "# cUD8Abs1232");
   ([582], VAbs "ud8_1233", "# cUD8Abs1233");
   ([583], VAbs "ud8_1311", "# cUD8Abs1311");
   ([584], VAbs "ud8_1312", "# cUD8Abs1312");
   ([585], VAbs "ud8_1313", "# cUD8Abs1313");
   ([586], VAbs "ud8_1331", "# cUD8Abs1331");
   ([587], VAbs "ud8_1321", "# cUD8Abs1321");
   ([588], VAbs "ud8_1322", "# cUD8Abs1322");
   ([589], VAbs "ud8_1332", "# cUD8Abs1332");
   ([590], VAbs "ud8_1323", "# cUD8Abs1323");
   ([591], VAbs "ud8_1333", "# cUD8Abs1333");
   ([592], VVal "ud8_2211", "# cUD8Abs2211");
   ([593], VAbs "ud8_2212", "# cUD8Abs2212");
   ([594], VAbs "ud8_2213", "# cUD8Abs2213");
   ([595], VVal "ud8_2222", "# cUD8Abs2222");
   ([596], VAbs "ud8_2223", "# cUD8Abs2223");
   ([597], VVal "ud8_2233", "# cUD8Abs2233");
   ([598], VAbs "ud8_2311", "# cUD8Abs2311");
   ([599], VAbs "ud8_2312", "# cUD8Abs2312");
   ([600], VAbs "ud8_2313", "# cUD8Abs2313");
   ([601], VAbs "ud8_2321", "# cUD8Abs2321");
   ([602], VAbs "ud8_2322", "# cUD8Abs2322");
   ([603], VAbs "ud8_2323", "# cUD8Abs2323");
   ([604], VAbs "ud8_2331", "# cUD8Abs2331");
   ([605], VAbs "ud8_2332", "# cUD8Abs2332");
   ([606], VAbs "ud8_2333", "# cUD8Abs2333");
   ([607], VVal "ud8_3311", "# cUD8Abs3311");
   ([608], VAbs "ud8_3312", "# cUD8Abs3312");
   ([609], VAbs "ud8_3313", "# cUD8Abs3313");
   ([610], VVal "ud8_3322", "# cUD8Abs3322");
   ([611], VVal "ud8_3333", "# cUD8Abs3333");
   ([612], VAbs "ud8_3323", "# cUD8Abs3323");
   ([613], VAng "ud8_1112", "# cUD8Ph1112");
   ([614], VAng "ud8_2212", "# cUD8Ph2212");
   ([615], VAng "ud8_1113", "# cUD8Ph1113");
   ([616], VAng "ud8_1123", "# cUD8Ph1123");
   ([617], VAng "ud8_1211", "# cUD8Ph1211");
   ([618], VAng "ud8_1212", "# cUD8Ph1212");
   ([619], VAng "ud8_1221", "# cUD8Ph1221");
   ([620], VAng "ud8_1213", "# cUD8Ph1213");
   ([621], VAng "ud8_1231", "# cUD8Ph1231");
   ([622], VAng "ud8_1222", "# cUD8Ph1222");
   ([623], VAng "ud8_1223", "# cUD8Ph1223");
   ([624], VAng "ud8_1232", "# cUD8Ph1232");
   ([625], VAng "ud8_1233", "# cUD8Ph1233");
   ([626], VAng "ud8_1311", "# cUD8Ph1311");
   ([627], VAng "ud8_1312", "# cUD8Ph1312");
   ([628], VAng "ud8_1313", "# cUD8Ph1313");
   ([629], VAng "ud8_1331", "# cUD8Ph1331");
   ([630], VAng "ud8_1321", "# cUD8Ph1321");
   ([631], VAng "ud8_1322", "# cUD8Ph1322");
   ([632], VAng "ud8_1332", "# cUD8Ph1332");
   ([633], VAng "ud8_1323", "# cUD8Ph1323");
   ([634], VAng "ud8_1333", "# cUD8Ph1333");
   ([635], VAng "ud8_2213", "# cUD8Ph2213");
   ([636], VAng "ud8_2223", "# cUD8Ph2223");
   ([637], VAng "ud8_2311", "# cUD8Ph2311");
   ([638], VAng "ud8_2312", "# cUD8Ph2312");
   ([639], VAng "ud8_2313", "# cUD8Ph2313");
   ([640], VAng "ud8_2321", "# cUD8Ph2321");
   ([641], VAng "ud8_2322", "# cUD8Ph2322");
   ([642], VAng "ud8_2323", "# cUD8Ph2323");
   ([643], VAng "ud8_2331", "# cUD8Ph2331");
   ([644], VAng "ud8_2332", "# cUD8Ph2332");
   ([645], VAng "ud8_2333", "# cUD8Ph2333");
   ([646], VAng "ud8_3323", "# cUD8Ph3323");
   ([647], VAng "ud8_3312", "# cUD8Ph3312");
   ([648], VAng "ud8_3313", "# cUD8Ph3313");
   ([649], VVal "eu_1111", "# ceuAbs1111");
   ([650], VAbs "eu_1112", "# ceuAbs1112");
   ([651], VAbs "eu_1113", "# ceuAbs1113");
   ([652], VAbs "eu_1123", "# ceuAbs1123");
   ([653], VVal "eu_1122", "# ceuAbs1122");
   ([654], VVal "eu_1133", "# ceuAbs1133");
   ([655], VAbs "eu_1211", "# ceuAbs1211");
   ([656], VAbs "eu_1212", "# ceuAbs1212");
   ([657], VAbs "eu_1221", "# ceuAbs1221");
   ([658], VAbs "eu_1213", "# ceuAbs1213");
   ([659], VAbs "eu_1231", "# ceuAbs1231");
   ([660], VAbs "eu_1222", "# ceuAbs1222");
   ([661], VAbs "eu_1223", "# ceuAbs1223");
   ([662], VAbs "eu_1232", "# ceuAbs1232");
   ([663], VAbs "eu_1233", "# ceuAbs1233");
   ([664], VAbs "eu_1311", "# ceuAbs1311");
   ([665], VAbs "eu_1312", "# ceuAbs1312");
   ([666], VAbs "eu_1313", "# ceuAbs1313");
   ([667], VAbs "eu_1331", "# ceuAbs1331");
   ([668], VAbs "eu_1321", "# ceuAbs1321");
   ([669], VAbs "eu_1322", "# ceuAbs1322");
   ([670], VAbs "eu_1332", "# ceuAbs1332");
   ([671], VAbs "eu_1323", "# ceuAbs1323");
   ([672], VAbs "eu_1333", "# ceuAbs1333");
   ([673], VVal "eu_2211", "# ceuAbs2211");
   ([674], VAbs "eu_2212", "# ceuAbs2212");
   ([675], VAbs "eu_2213", "# ceuAbs2213");
   ([676], VVal "eu_2222", "# ceuAbs2222");
   ([677], VAbs "eu_2223", "# ceuAbs2223");
   ([678], VVal "eu_2233", "# ceuAbs2233");
   ([679], VAbs "eu_2311", "# ceuAbs2311");
   ([680], VAbs "eu_2312", "# ceuAbs2312");
   ([681], VAbs "eu_2313", "# ceuAbs2313");
   ([682], VAbs "eu_2321", "# ceuAbs2321");
   ([683], VAbs "eu_2322", "# ceuAbs2322");
   ([684], VAbs "eu_2323", "# ceuAbs2323");
   ([685], VAbs "eu_2331", "# ceuAbs2331");
   ([686], VAbs "eu_2332", "# ceuAbs2332");
   ([687], VAbs "eu_2333", "# ceuAbs2333");
   ([688], VVal "eu_3311", "# ceuAbs3311");
   ([689], VAbs "eu_3312", "# ceuAbs3312");
   ([690], VAbs "eu_3313", "# ceuAbs3313");
   ([691], VVal "eu_3322", "# ceuAbs3322");
   ([692], VVal "eu_3333", "# ceuAbs3333");
   ([693], VAbs "eu_3323", "# ceuAbs3323");
   ([694], VAng "eu_1112", "# ceuPh1112");
   ([695], VAng "eu_2212", "# ceuPh2212");
   ([696], VAng "eu_1113", "# ceuPh1113");
   ([697], VAng "eu_1123", "# ceuPh1123");
   ([698], VAng "eu_1211", "# ceuPh1211");
   ([699], VAng "eu_1212", "# ceuPh1212");
   ([700], VAng "eu_1221", "# ceuPh1221");
   ([701], VAng "eu_1213", "# ceuPh1213");
   ([702], VAng "eu_1231", "# ceuPh1231");
   ([703], VAng "eu_1222", "# ceuPh1222");
   ([704], VAng "eu_1223", "# ceuPh1223");
   ([705], VAng "eu_1232", "# ceuPh1232");
   ([706], VAng "eu_1233", "# ceuPh1233");
   ([707], VAng "eu_1311", "# ceuPh1311");
   ([708], VAng "eu_1312", "# ceuPh1312");
   ([709], VAng "eu_1313", "# ceuPh1313");
   ([710], VAng "eu_1331", "# ceuPh1331");
   ([711], VAng "eu_1321", "# ceuPh1321");
   ([712], VAng "eu_1322", "# ceuPh1322");
   ([713], VAng "eu_1332", "# ceuPh1332");
   ([714], VAng "eu_1323", "# ceuPh1323");
   ([715], VAng "eu_1333", "# ceuPh1333");
   ([716], VAng "eu_2213", "# ceuPh2213");
   ([717], VAng "eu_2223", "# ceuPh2223");
   ([718], VAng "eu_2311", "# ceuPh2311");
   ([719], VAng "eu_2312", "# ceuPh2312");
   ([720], VAng "eu_2313", "# ceuPh2313");
   ([721], VAng "eu_2321", "# ceuPh2321");
   ([722], VAng "eu_2322", "# ceuPh2322");
   ([723], VAng "eu_2323", "# ceuPh2323");
   ([724], VAng "eu_2331", "# ceuPh2331");
   ([725], VAng "eu_2332", "# ceuPh2332");
   ([726], VAng "eu_2333", "# ceuPh2333");
   ([727], VAng "eu_3323", "# ceuPh3323");
   ([728], VAng "eu_3312", "# ceuPh3312");
   ([729], VAng "eu_3313", "# ceuPh3313");
   ([730], VVal "ed_1111", "# cedAbs1111");
   ([731], VAbs "ed_1112", "# cedAbs1112");
   ([732], VAbs "ed_1113", "# cedAbs1113");
   ([733], VAbs "ed_1123", "# cedAbs1123");
   ([734], VVal "ed_1122", "# cedAbs1122");
   ([735], VVal "ed_1133", "# cedAbs1133");
   ([736], VAbs "ed_1211", "# cedAbs1211");
   ([737], VAbs "ed_1212", "# cedAbs1212");
   ([738], VAbs "ed_1221", "# cedAbs1221");
   ([739], VAbs "ed_1213", "# cedAbs1213");
   ([740], VAbs "ed_1231", "# cedAbs1231");
   ([741], VAbs "ed_1222", "# cedAbs1222");
   ([742], VAbs "ed_1223", "# cedAbs1223");
   ([743], VAbs "ed_1232", "# cedAbs1232");
   ([744], VAbs "ed_1233", "# cedAbs1233");
   ([745], VAbs "ed_1311", "# cedAbs1311");
   ([746], VAbs "ed_1312", "# cedAbs1312");
   ([747], VAbs "ed_1313", "# cedAbs1313");
   ([748], VAbs "ed_1331", "# cedAbs1331");
   ([749], VAbs "ed_1321", "# cedAbs1321");
   ([750], VAbs "ed_1322", "# cedAbs1322");
   ([751], VAbs "ed_1332", "# cedAbs1332");
   ([752], VAbs "ed_1323", "# cedAbs1323");
   ([753], VAbs "ed_1333", "# cedAbs1333");
   ([754], VVal "ed_2211", "# cedAbs2211");
   ([755], VAbs "ed_2212", "# cedAbs2212");
   ([756], VAbs "ed_2213", "# cedAbs2213");
   ([757], VVal "ed_2222", "# cedAbs2222");
   ([758], VAbs "ed_2223", "# cedAbs2223");
   ([759], VVal "ed_2233", "# cedAbs2233");
   ([760], VAbs "ed_2311", "# cedAbs2311");
   ([761], VAbs "ed_2312", "# cedAbs2312");
   ([762], VAbs "ed_2313", "# cedAbs2313");
   ([763], VAbs "ed_2321", "# cedAbs2321");
   ([764], VAbs "ed_2322", "# cedAbs2322");
   ([765], VAbs "ed_2323", "# cedAbs2323");
   ([766], VAbs "ed_2331", "# cedAbs2331");
   ([767], VAbs "ed_2332", "# cedAbs2332");
   ([768], VAbs "ed_2333", "# cedAbs2333");
   ([769], VVal "ed_3311", "# cedAbs3311");
   ([770], VAbs "ed_3312", "# cedAbs3312");
   ([771], VAbs "ed_3313", "# cedAbs3313");
   ([772], VVal "ed_3322", "# cedAbs3322");
   ([773], VVal "ed_3333", "# cedAbs3333");
   ([774], VAbs "ed_3323", "# cedAbs3323");
   ([775], VAng "ed_1112", "# cedPh1112");
   ([776], VAng "ed_2212", "# cedPh2212");
   ([777], VAng "ed_1113", "# cedPh1113");
   ([778], VAng "ed_1123", "# cedPh1123");
   ([779], VAng "ed_1211", "# cedPh1211");
   ([780], VAng "ed_1212", "# cedPh1212");
   ([781], VAng "ed_1221", "# cedPh1221");
   ([782], VAng "ed_1213", "# cedPh1213");
   ([783], VAng "ed_1231", "# cedPh1231");
   ([784], VAng "ed_1222", "# cedPh1222");
   ([785], VAng "ed_1223", "# cedPh1223");
   ([786], VAng "ed_1232", "# cedPh1232");
   ([787], VAng "ed_1233", "# cedPh1233");
   ([788], VAng "ed_1311", "# cedPh1311");
   ([789], VAng "ed_1312", "# cedPh1312");
   ([790], VAng "ed_1313", "# cedPh1313");
   ([791], VAng "ed_1331", "# cedPh1331");
   ([792], VAng "ed_1321", "# cedPh1321");
   ([793], VAng "ed_1322", "# cedPh1322");
   ([794], VAng "ed_1332", "# cedPh1332");
   ([795], VAng "ed_1323", "# cedPh1323");
   ([796], VAng "ed_1333", "# cedPh1333");
   ([797], VAng "ed_2213", "# cedPh2213");
   ([798], VAng "ed_2223", "# cedPh2223");
   ([799], VAng "ed_2311", "# cedPh2311");
   ([800], VAng "ed_2312", "# cedPh2312");
   ([801], VAng "ed_2313", "# cedPh2313");
   ([802], VAng "ed_2321", "# cedPh2321");
   ([803], VAng "ed_2322", "# cedPh2322");
   ([804], VAng "ed_2323", "# cedPh2323");
   ([805], VAng "ed_2331", "# cedPh2331");
   ([806], VAng "ed_2332", "# cedPh2332");
   ([807], VAng "ed_2333", "# cedPh2333");
   ([808], VAng "ed_3323", "# cedPh3323");
   ([809], VAng "ed_3312", "# cedPh3312");
   ([810], VAng "ed_3313", "# cedPh3313");
   ([811], VVal "qu1_1111", "# cqu1Abs1111");
   ([812], VAbs "qu1_1112", "# cqu1Abs1112");
   ([813], VAbs "qu1_1113", "# cqu1Abs1113");
   ([814], VAbs "qu1_1123", "# cqu1Abs1123");
   ([815], VVal "qu1_1122", "# cqu1Abs1122");
   ([816], VVal "qu1_1133", "# cqu1Abs1133");
   ([817], VAbs "qu1_1211", "# cqu1Abs1211");
   ([818], VAbs "qu1_1212", "# cqu1Abs1212");
   ([819], VAbs "qu1_1221", "# cqu1Abs1221");
   ([820], VAbs "qu1_1213", "# cqu1Abs1213");
   ([821], VAbs "qu1_1231", "# cqu1Abs1231");
   ([822], VAbs "qu1_1222", "# cqu1Abs1222");
   ([823], VAbs "qu1_1223", "# cqu1Abs1223");
   ([824], VAbs "qu1_1232", "# cqu1Abs1232");
   ([825], VAbs "qu1_1233", "# cqu1Abs1233");
   ([826], VAbs "qu1_1311", "# cqu1Abs1311");
   ([827], VAbs "qu1_1312", "# cqu1Abs1312");
   ([828], VAbs "qu1_1313", "# cqu1Abs1313");
   ([829], VAbs "qu1_1331", "# cqu1Abs1331");
   ([830], VAbs "qu1_1321", "# cqu1Abs1321");
   ([831], VAbs "qu1_1322", "# cqu1Abs1322");
   ([832], VAbs "qu1_1332", "# cqu1Abs1332");
   ([833], VAbs "qu1_1323", "# cqu1Abs1323");
   ([834], VAbs "qu1_1333", "# cqu1Abs1333");
   ([835], VVal "qu1_2211", "# cqu1Abs2211");
   ([836], VAbs "qu1_2212", "# cqu1Abs2212");
   ([837], VAbs "qu1_2213", "# cqu1Abs2213");
   ([838], VVal "qu1_2222", "# cqu1Abs2222");
   ([839], VAbs "qu1_2223", "# cqu1Abs2223");
   ([840], VVal "qu1_2233", "# cqu1Abs2233");
   ([841], VAbs "qu1_2311", "# cqu1Abs2311");
   ([842], VAbs "qu1_2312", "# cqu1Abs2312");
   ([843], VAbs "qu1_2313", "# cqu1Abs2313");
   ([844], VAbs "qu1_2321", "# cqu1Abs2321");
   ([845], VAbs "qu1_2322", "# cqu1Abs2322");
   ([846], VAbs "qu1_2323", "# cqu1Abs2323");
   ([847], VAbs "qu1_2331", "# cqu1Abs2331");
   ([848], VAbs "qu1_2332", "# cqu1Abs2332");
   ([849], VAbs "qu1_2333", "# cqu1Abs2333");
   ([850], VVal "qu1_3311", "# cqu1Abs3311");
   ([851], VAbs "qu1_3312", "# cqu1Abs3312");
   ([852], VAbs "qu1_3313", "# cqu1Abs3313");
   ([853], VVal "qu1_3322", "# cqu1Abs3322");
   ([854], VVal "qu1_3333", "# cqu1Abs3333");
   ([855], VAbs "qu1_3323", "# cqu1Abs3323");
   ([856], VAng "qu1_1112", "# cqu1Ph1112");
   ([857], VAng "qu1_2212", "# cqu1Ph2212");
   ([858], VAng "qu1_1113", "# cqu1Ph1113");
   ([859], VAng "qu1_1123", "# cqu1Ph1123");
   ([860], VAng "qu1_1211", "# cqu1Ph1211");
   ([861], VAng "qu1_1212", "# cqu1Ph1212");
   ([862], VAng "qu1_1221", "# cqu1Ph1221");
   ([863], VAng "qu1_1213", "# cqu1Ph1213");
   ([864], VAng "qu1_1231", "# cqu1Ph1231");
   ([865], VAng "qu1_1222", "# cqu1Ph1222");
   ([866], VAng "qu1_1223", "# cqu1Ph1223");
   ([867], VAng "qu1_1232", "# cqu1Ph1232");
   ([868], VAng "qu1_1233", "# cqu1Ph1233");
   ([869], VAng "qu1_1311", "# cqu1Ph1311");
   ([870], VAng "qu1_1312", "# cqu1Ph1312");
   ([871], VAng "qu1_1313", "# cqu1Ph1313");
   ([872], VAng "qu1_1331", "# cqu1Ph1331");
   ([873], VAng "qu1_1321", "# cqu1Ph1321");
   ([874], VAng "qu1_1322", "# cqu1Ph1322");
   ([875], VAng "qu1_1332", "# cqu1Ph1332");
   ([876], VAng "qu1_1323", "# cqu1Ph1323");
   ([877], VAng "qu1_1333", "# cqu1Ph1333");
   ([878], VAng "qu1_2213", "# cqu1Ph2213");
   ([879], VAng "qu1_2223", "# cqu1Ph2223");
   ([880], VAng "qu1_2311", "# cqu1Ph2311");
   ([881], VAng "qu1_2312", "# cqu1Ph2312");
   ([882], VAng "qu1_2313", "# cqu1Ph2313");
   ([883], VAng "qu1_2321", "# cqu1Ph2321");
   ([884], VAng "qu1_2322", "# cqu1Ph2322");
   ([885], VAng "qu1_2323", "# cqu1Ph2323");
   ([886], VAng "qu1_2331", "# cqu1Ph2331");
   ([887], VAng "qu1_2332", "# cqu1Ph2332");
   ([888], VAng "qu1_2333", "# cqu1Ph2333");
   ([889], VAng "qu1_3323", "# cqu1Ph3323");
   ([890], VAng "qu1_3312", "# cqu1Ph3312");
   ([891], VAng "qu1_3313", "# cqu1Ph3313");
   ([892], VVal "qu8_1111", "# cQU8Abs1111");
   ([893], VAbs "qu8_1112", "# cQU8Abs1112");
   ([894], VAbs "qu8_1113", "# cQU8Abs1113");
   ([895], VAbs "qu8_1123", "# cQU8Abs1123");
   ([896], VVal "qu8_1122", "# cQU8Abs1122");
   ([897], VVal "qu8_1133", "# cQU8Abs1133");
   ([898], VAbs "qu8_1211", "# cQU8Abs1211");
   ([899], VAbs "qu8_1212", "# cQU8Abs1212");
   ([900], VAbs "qu8_1221", "# cQU8Abs1221");
   ([901], VAbs "qu8_1213", "# cQU8Abs1213");
   ([902], VAbs "qu8_1231", "# cQU8Abs1231");
   ([903], VAbs "qu8_1222", "# cQU8Abs1222");
   ([904], VAbs "qu8_1223", "# cQU8Abs1223");
   ([905], VAbs "qu8_1232", "# cQU8Abs1232");
   ([906], VAbs "qu8_1233", "# cQU8Abs1233");
   ([907], VAbs "qu8_1311", "# cQU8Abs1311");
   ([908], VAbs "qu8_1312", "# cQU8Abs1312");
   ([909], VAbs "qu8_1313", "# cQU8Abs1313");
   ([910], VAbs "qu8_1331", "# cQU8Abs1331");
   ([911], VAbs "qu8_1321", "# cQU8Abs1321");
   ([912], VAbs "qu8_1322", "# cQU8Abs1322");
   ([913], VAbs "qu8_1332", "# cQU8Abs1332");
   ([914], VAbs "qu8_1323", "# cQU8Abs1323");
   ([915], VAbs "qu8_1333", "# cQU8Abs1333");
   ([916], VVal "qu8_2211", "# cQU8Abs2211");
   ([917], VAbs "qu8_2212", "# cQU8Abs2212");
   ([918], VAbs "qu8_2213", "# cQU8Abs2213");
   ([919], VVal "qu8_2222", "# cQU8Abs2222");
   ([920], VAbs "qu8_2223", "# cQU8Abs2223");
   ([921], VVal "qu8_2233", "# cQU8Abs2233");
   ([922], VAbs "qu8_2311", "# cQU8Abs2311");
   ([923], VAbs "qu8_2312", "# cQU8Abs2312");
   ([924], VAbs "qu8_2313", "# cQU8Abs2313");
   ([925], VAbs "qu8_2321", "# cQU8Abs2321");
   ([926], VAbs "qu8_2322", "# cQU8Abs2322");
   ([927], VAbs "qu8_2323", "# cQU8Abs2323");
   ([928], VAbs "qu8_2331", "# cQU8Abs2331");
   ([929], VAbs "qu8_2332", "# cQU8Abs2332");
   ([930], VAbs "qu8_2333", "# cQU8Abs2333");
   ([931], VVal "qu8_3311", "# cQU8Abs3311");
   ([932], VAbs "qu8_3312", "# cQU8Abs3312");
   ([933], VAbs "qu8_3313", "# cQU8Abs3313");
   ([934], VVal "qu8_3322", "# cQU8Abs3322");
   ([935], VVal "qu8_3333", "# cQU8Abs3333");
   ([936], VAbs "qu8_3323", "# cQU8Abs3323");
   ([937], VAng "qu8_1112", "# cQU8Ph1112");
   ([938], VAng "qu8_2212", "# cQU8Ph2212");
   ([939], VAng "qu8_1113", "# cQU8Ph1113");
   ([940], VAng "qu8_1123", "# cQU8Ph1123");
   ([941], VAng "qu8_1211", "# cQU8Ph1211");
   ([942], VAng "qu8_1212", "# cQU8Ph1212");
   ([943], VAng "qu8_1221", "# cQU8Ph1221");
   ([944], VAng "qu8_1213", "# cQU8Ph1213");
   ([945], VAng "qu8_1231", "# cQU8Ph1231");
   ([946], VAng "qu8_1222", "# cQU8Ph1222");
   ([947], VAng "qu8_1223", "# cQU8Ph1223");
   ([948], VAng "qu8_1232", "# cQU8Ph1232");
   ([949], VAng "qu8_1233", "# cQU8Ph1233");
   ([950], VAng "qu8_1311", "# cQU8Ph1311");
   ([951], VAng "qu8_1312", "# cQU8Ph1312");
   ([952], VAng "qu8_1313", "# cQU8Ph1313");
   ([953], VAng "qu8_1331", "# cQU8Ph1331");
   ([954], VAng "qu8_1321", "# cQU8Ph1321");
   ([955], VAng "qu8_1322", "# cQU8Ph1322");
   ([956], VAng "qu8_1332", "# cQU8Ph1332");
   ([957], VAng "qu8_1323", "# cQU8Ph1323");
   ([958], VAng "qu8_1333", "# cQU8Ph1333");
   ([959], VAng "qu8_2213", "# cQU8Ph2213");
   ([960], VAng "qu8_2223", "# cQU8Ph2223");
   ([961], VAng "qu8_2311", "# cQU8Ph2311");
   ([962], VAng "qu8_2312", "# cQU8Ph2312");
   ([963], VAng "qu8_2313", "# cQU8Ph2313");
   ([964], VAng "qu8_2321", "# cQU8Ph2321");
   ([965], VAng "qu8_2322", "# cQU8Ph2322");
   ([966], VAng "qu8_2323", "# cQU8Ph2323");
   ([967], VAng "qu8_2331", "# cQU8Ph2331");
   ([968], VAng "qu8_2332", "# cQU8Ph2332");
   ([969], VAng "qu8_2333", "# cQU8Ph2333");
   ([970], VAng "qu8_3323", "# cQU8Ph3323");
   ([971], VAng "qu8_3312", "# cQU8Ph3312");
   ([972], VAng "qu8_3313", "# cQU8Ph3313");
   ([973], VVal "qd1_1111", "# cqd1Abs1111");
   ([974], VAbs "qd1_1112", "# cqd1Abs1112");
   ([975], VAbs "qd1_1113", "# cqd1Abs1113");
   ([976], VAbs "qd1_1123", "# cqd1Abs1123");
   ([977], VVal "qd1_1122", "# cqd1Abs1122");
   ([978], VVal "qd1_1133", "# cqd1Abs1133");
   ([979], VAbs "qd1_1211", "# cqd1Abs1211");
   ([980], VAbs "qd1_1212", "# cqd1Abs1212");
   ([981], VAbs "qd1_1221", "# cqd1Abs1221");
   ([982], VAbs "qd1_1213", "# cqd1Abs1213");
   ([983], VAbs "qd1_1231", "# cqd1Abs1231");
   ([984], VAbs "qd1_1222", "# cqd1Abs1222");
   ([985], VAbs "qd1_1223", "# cqd1Abs1223");
   ([986], VAbs "qd1_1232", "# cqd1Abs1232");
   ([987], VAbs "qd1_1233", "# cqd1Abs1233");
   ([988], VAbs "qd1_1311", "# cqd1Abs1311");
   ([989], VAbs "qd1_1312", "# cqd1Abs1312");
   ([990], VAbs "qd1_1313", "# cqd1Abs1313");
   ([991], VAbs "qd1_1331", "# cqd1Abs1331");
   ([992], VAbs "qd1_1321", "# cqd1Abs1321");
   ([993], VAbs "qd1_1322", "# cqd1Abs1322");
   ([994], VAbs "qd1_1332", "# cqd1Abs1332");
   ([995], VAbs "qd1_1323", "# cqd1Abs1323");
   ([996], VAbs "qd1_1333", "# cqd1Abs1333");
   ([997], VVal "qd1_2211", "# cqd1Abs2211");
   ([998], VAbs "qd1_2212", "# cqd1Abs2212");
   ([999], VAbs "qd1_2213", "# cqd1Abs2213");
   ([1000], VVal "qd1_2222", "# cqd1Abs2222");
   ([1001], VAbs "qd1_2223", "# cqd1Abs2223");
   ([1002], VVal "qd1_2233", "# cqd1Abs2233");
   ([1003], VAbs "qd1_2311", "# cqd1Abs2311");
   ([1004], VAbs "qd1_2312", "# cqd1Abs2312");
   ([1005], VAbs "qd1_2313", "# cqd1Abs2313");
   ([1006], VAbs "qd1_2321", "# cqd1Abs2321");
   ([1007], VAbs "qd1_2322", "# cqd1Abs2322");
   ([1008], VAbs "qd1_2323", "# cqd1Abs2323");
   ([1009], VAbs "qd1_2331", "# cqd1Abs2331");
   ([1010], VAbs "qd1_2332", "# cqd1Abs2332");
   ([1011], VAbs "qd1_2333", "# cqd1Abs2333");
   ([1012], VVal "qd1_3311", "# cqd1Abs3311");
   ([1013], VAbs "qd1_3312", "# cqd1Abs3312");
   ([1014], VAbs "qd1_3313", "# cqd1Abs3313");
   ([1015], VVal "qd1_3322", "# cqd1Abs3322");
   ([1016], VVal "qd1_3333", "# cqd1Abs3333");
   ([1017], VAbs "qd1_3323", "# cqd1Abs3323");
   ([1018], VAng "qd1_1112", "# cqd1Ph1112");
   ([1019], VAng "qd1_2212", "# cqd1Ph2212");
   ([1020], VAng "qd1_1113", "# cqd1Ph1113");
   ([1021], VAng "qd1_1123", "# cqd1Ph1123");
   ([1022], VAng "qd1_1211", "# cqd1Ph1211");
   ([1023], VAng "qd1_1212", "# cqd1Ph1212");
   ([1024], VAng "qd1_1221", "# cqd1Ph1221");
   ([1025], VAng "qd1_1213", "# cqd1Ph1213");
   ([1026], VAng "qd1_1231", "# cqd1Ph1231");
   ([1027], VAng "qd1_1222", "# cqd1Ph1222");
   ([1028], VAng "qd1_1223", "# cqd1Ph1223");
   ([1029], VAng "qd1_1232", "# cqd1Ph1232");
   ([1030], VAng "qd1_1233", "# cqd1Ph1233");
   ([1031], VAng "qd1_1311", "# cqd1Ph1311");
   ([1032], VAng "qd1_1312", "# cqd1Ph1312");
   ([1033], VAng "qd1_1313", "# cqd1Ph1313");
   ([1034], VAng "qd1_1331", "# cqd1Ph1331");
   ([1035], VAng "qd1_1321", "# cqd1Ph1321");
   ([1036], VAng "qd1_1322", "# cqd1Ph1322");
   ([1037], VAng "qd1_1332", "# cqd1Ph1332");
   ([1038], VAng "qd1_1323", "# cqd1Ph1323");
   ([1039], VAng "qd1_1333", "# cqd1Ph1333");
   ([1040], VAng "qd1_2213", "# cqd1Ph2213");
   ([1041], VAng "qd1_2223", "# cqd1Ph2223");
   ([1042], VAng "qd1_2311", "# cqd1Ph2311");
   ([1043], VAng "qd1_2312", "# cqd1Ph2312");
   ([1044], VAng "qd1_2313", "# cqd1Ph2313");
   ([1045], VAng "qd1_2321", "# cqd1Ph2321");
   ([1046], VAng "qd1_2322", "# cqd1Ph2322");
   ([1047], VAng "qd1_2323", "# cqd1Ph2323");
   ([1048], VAng "qd1_2331", "# cqd1Ph2331");
   ([1049], VAng "qd1_2332", "# cqd1Ph2332");
   ([1050], VAng "qd1_2333", "# cqd1Ph2333");
   ([1051], VAng "qd1_3323", "# cqd1Ph3323");
   ([1052], VAng "qd1_3312", "# cqd1Ph3312");
   ([1053], VAng "qd1_3313", "# cqd1Ph3313");
   ([1054], VVal "qd8_1111", "# cQD8Abs1111");
   ([1055], VAbs "qd8_1112", "# cQD8Abs1112");
   ([1056], VAbs "qd8_1113", "# cQD8Abs1113");
   ([1057], VAbs "qd8_1123", "# cQD8Abs1123");
   ([1058], VVal "qd8_1122", "# cQD8Abs1122");
   ([1059], VVal "qd8_1133", "# cQD8Abs1133");
   ([1060], VAbs "qd8_1211", "# cQD8Abs1211");
   ([1061], VAbs "qd8_1212", "# cQD8Abs1212");
   ([1062], VAbs "qd8_1221", "# cQD8Abs1221");
   ([1063], VAbs "qd8_1213", "# cQD8Abs1213");
   ([1064], VAbs "qd8_1231", "# cQD8Abs1231");
   ([1065], VAbs "qd8_1222", "# cQD8Abs1222");
   ([1066], VAbs "qd8_1223", "# cQD8Abs1223");
   ([1067], VAbs "qd8_1232", "# cQD8Abs1232");
   ([1068], VAbs "qd8_1233", "# cQD8Abs1233");
   ([1069], VAbs "qd8_1311", "# cQD8Abs1311");
   ([1070], VAbs "qd8_1312", "# cQD8Abs1312");
   ([1071], VAbs "qd8_1313", "# cQD8Abs1313");
   ([1072], VAbs "qd8_1331", "# cQD8Abs1331");
   ([1073], VAbs "qd8_1321", "# cQD8Abs1321");
   ([1074], VAbs "qd8_1322", "# cQD8Abs1322");
   ([1075], VAbs "qd8_1332", "# cQD8Abs1332");
   ([1076], VAbs "qd8_1323", "# cQD8Abs1323");
   ([1077], VAbs "qd8_1333", "# cQD8Abs1333");
   ([1078], VVal "qd8_2211", "# cQD8Abs2211");
   ([1079], VAbs "qd8_2212", "# cQD8Abs2212");
   ([1080], VAbs "qd8_2213", "# cQD8Abs2213");
   ([1081], VVal "qd8_2222", "# cQD8Abs2222");
   ([1082], VAbs "qd8_2223", "# cQD8Abs2223");
   ([1083], VVal "qd8_2233", "# cQD8Abs2233");
   ([1084], VAbs "qd8_2311", "# cQD8Abs2311");
   ([1085], VAbs "qd8_2312", "# cQD8Abs2312");
   ([1086], VAbs "qd8_2313", "# cQD8Abs2313");
   ([1087], VAbs "qd8_2321", "# cQD8Abs2321");
   ([1088], VAbs "qd8_2322", "# cQD8Abs2322");
   ([1089], VAbs "qd8_2323", "# cQD8Abs2323");
   ([1090], VAbs "qd8_2331", "# cQD8Abs2331");
   ([1091], VAbs "qd8_2332", "# cQD8Abs2332");
   ([1092], VAbs "qd8_2333", "# cQD8Abs2333");
   ([1093], VVal "qd8_3311", "# cQD8Abs3311");
   ([1094], VAbs "qd8_3312", "# cQD8Abs3312");
   ([1095], VAbs "qd8_3313", "# cQD8Abs3313");
   ([1096], VVal "qd8_3322", "# cQD8Abs3322");
   ([1097], VVal "qd8_3333", "# cQD8Abs3333");
   ([1098], VAbs "qd8_3323", "# cQD8Abs3323");
   ([1099], VAng "qd8_1112", "# cQD8Ph1112");
   ([1100], VAng "qd8_2212", "# cQD8Ph2212");
   ([1101], VAng "qd8_1113", "# cQD8Ph1113");
   ([1102], VAng "qd8_1123", "# cQD8Ph1123");
   ([1103], VAng "qd8_1211", "# cQD8Ph1211");
   ([1104], VAng "qd8_1212", "# cQD8Ph1212");
   ([1105], VAng "qd8_1221", "# cQD8Ph1221");
   ([1106], VAng "qd8_1213", "# cQD8Ph1213");
   ([1107], VAng "qd8_1231", "# cQD8Ph1231");
   ([1108], VAng "qd8_1222", "# cQD8Ph1222");
   ([1109], VAng "qd8_1223", "# cQD8Ph1223");
   ([1110], VAng "qd8_1232", "# cQD8Ph1232");
   ([1111], VAng "qd8_1233", "# cQD8Ph1233");
   ([1112], VAng "qd8_1311", "# cQD8Ph1311");
   ([1113], VAng "qd8_1312", "# cQD8Ph1312");
   ([1114], VAng "qd8_1313", "# cQD8Ph1313");
   ([1115], VAng "qd8_1331", "# cQD8Ph1331");
   ([1116], VAng "qd8_1321", "# cQD8Ph1321");
   ([1117], VAng "qd8_1322", "# cQD8Ph1322");
   ([1118], VAng "qd8_1332", "# cQD8Ph1332");
   ([1119], VAng "qd8_1323", "# cQD8Ph1323");
   ([1120], VAng "qd8_1333", "# cQD8Ph1333");
   ([1121], VAng "qd8_2213", "# cQD8Ph2213");
   ([1122], VAng "qd8_2223", "# cQD8Ph2223");
   ([1123], VAng "qd8_2311", "# cQD8Ph2311");
   ([1124], VAng "qd8_2312", "# cQD8Ph2312");
   ([1125], VAng "qd8_2313", "# cQD8Ph2313");
   ([1126], VAng "qd8_2321", "# cQD8Ph2321");
   ([1127], VAng "qd8_2322", "# cQD8Ph2322");
   ([1128], VAng "qd8_2323", "# cQD8Ph2323");
   ([1129], VAng "qd8_2331", "# cQD8Ph2331");
   ([1130], VAng "qd8_2332", "# cQD8Ph2332");
   ([1131], VAng "qd8_2333", "# cQD8Ph2333");
   ([1132], VAng "qd8_3323", "# cQD8Ph3323");
   ([1133], VAng "qd8_3312", "# cQD8Ph3312");
   ([1134], VAng "qd8_3313", "# cQD8Ph3313");
   ([1135], VVal "le_1111", "# cleAbs1111");
   ([1136], VAbs "le_1112", "# cleAbs1112");
   ([1137], VAbs "le_1113", "# cleAbs1113");
   ([1138], VAbs "le_1123", "# cleAbs1123");
   ([1139], VVal "le_1122", "# cleAbs1122");
   ([1140], VVal "le_1133", "# cleAbs1133");
   ([1141], VAbs "le_1211", "# cleAbs1211");
   ([1142], VAbs "le_1212", "# cleAbs1212");
   ([1143], VAbs "le_1221", "# cleAbs1221");
   ([1144], VAbs "le_1213", "# cleAbs1213");
   ([1145], VAbs "le_1231", "# cleAbs1231");
   ([1146], VAbs "le_1222", "# cleAbs1222");
   ([1147], VAbs "le_1223", "# cleAbs1223");
   ([1148], VAbs "le_1232", "# cleAbs1232");
   ([1149], VAbs "le_1233", "# cleAbs1233");
   ([1150], VAbs "le_1311", "# cleAbs1311");
   ([1151], VAbs "le_1312", "# cleAbs1312");
   ([1152], VAbs "le_1313", "# cleAbs1313");
   ([1153], VAbs "le_1331", "# cleAbs1331");
   ([1154], VAbs "le_1321", "# cleAbs1321");
   ([1155], VAbs "le_1322", "# cleAbs1322");
   ([1156], VAbs "le_1332", "# cleAbs1332");
   ([1157], VAbs "le_1323", "# cleAbs1323");
   ([1158], VAbs "le_1333", "# cleAbs1333");
   ([1159], VVal "le_2211", "# cleAbs2211");
   ([1160], VAbs "le_2212", "# cleAbs2212");
   ([1161], VAbs "le_2213", "# cleAbs2213");
   ([1162], VVal "le_2222", "# cleAbs2222");
   ([1163], VAbs "le_2223", "# cleAbs2223");
   ([1164], VVal "le_2233", "# cleAbs2233");
   ([1165], VAbs "le_2311", "# cleAbs2311");
   ([1166], VAbs "le_2312", "# cleAbs2312");
   ([1167], VAbs "le_2313", "# cleAbs2313");
   ([1168], VAbs "le_2321", "# cleAbs2321");
   ([1169], VAbs "le_2322", "# cleAbs2322");
   ([1170], VAbs "le_2323", "# cleAbs2323");
   ([1171], VAbs "le_2331", "# cleAbs2331");
   ([1172], VAbs "le_2332", "# cleAbs2332");
   ([1173], VAbs "le_2333", "# cleAbs2333");
   ([1174], VVal "le_3311", "# cleAbs3311");
   ([1175], VAbs "le_3312", "# cleAbs3312");
   ([1176], VAbs "le_3313", "# cleAbs3313");
   ([1177], VVal "le_3322", "# cleAbs3322");
   ([1178], VVal "le_3333", "# cleAbs3333");
   ([1179], VAbs "le_3323", "# cleAbs3323");
   ([1180], VAng "le_1112", "# clePh1112");
   ([1181], VAng "le_2212", "# clePh2212");
   ([1182], VAng "le_1113", "# clePh1113");
   ([1183], VAng "le_1123", "# clePh1123");
   ([1184], VAng "le_1211", "# clePh1211");
   ([1185], VAng "le_1212", "# clePh1212");
   ([1186], VAng "le_1221", "# clePh1221");
   ([1187], VAng "le_1213", "# clePh1213");
   ([1188], VAng "le_1231", "# clePh1231");
   ([1189], VAng "le_1222", "# clePh1222");
   ([1190], VAng "le_1223", "# clePh1223");
   ([1191], VAng "le_1232", "# clePh1232");
   ([1192], VAng "le_1233", "# clePh1233");
   ([1193], VAng "le_1311", "# clePh1311");
   ([1194], VAng "le_1312", "# clePh1312");
   ([1195], VAng "le_1313", "# clePh1313");
   ([1196], VAng "le_1331", "# clePh1331");
   ([1197], VAng "le_1321", "# clePh1321");
   ([1198], VAng "le_1322", "# clePh1322");
   ([1199], VAng "le_1332", "# clePh1332");
   ([1200], VAng "le_1323", "# clePh1323");
   ([1201], VAng "le_1333", "# clePh1333");
   ([1202], VAng "le_2213", "# clePh2213");
   ([1203], VAng "le_2223", "# clePh2223");
   ([1204], VAng "le_2311", "# clePh2311");
   ([1205], VAng "le_2312", "# clePh2312");
   ([1206], VAng "le_2313", "# clePh2313");
   ([1207], VAng "le_2321", "# clePh2321");
   ([1208], VAng "le_2322", "# clePh2322");
   ([1209], VAng "le_2323", "# clePh2323");
   ([1210], VAng "le_2331", "# clePh2331");
   ([1211], VAng "le_2332", "# clePh2332");
   ([1212], VAng "le_2333", "# clePh2333");
   ([1213], VAng "le_3323", "# clePh3323");
   ([1214], VAng "le_3312", "# clePh3312");
   ([1215], VAng "le_3313", "# clePh3313");
   ([1216], VVal "lu_1111", "# cluAbs1111");
   ([1217], VAbs "lu_1112", "# cluAbs1112");
   ([1218], VAbs "lu_1113", "# cluAbs1113");
   ([1219], VAbs "lu_1123", "# cluAbs1123");
   ([1220], VVal "lu_1122", "# cluAbs1122");
   ([1221], VVal "lu_1133", "# cluAbs1133");
   ([1222], VAbs "lu_1211", "# cluAbs1211");
   ([1223], VAbs "lu_1212", "# cluAbs1212");
   ([1224], VAbs "lu_1221", "# cluAbs1221");
   ([1225], VAbs "lu_1213", "# cluAbs1213");
   ([1226], VAbs "lu_1231", "# cluAbs1231");
   ([1227], VAbs "lu_1222", "# cluAbs1222");
   ([1228], VAbs "lu_1223", "# cluAbs1223");
   ([1229], VAbs "lu_1232", "# cluAbs1232");
   ([1230], VAbs "lu_1233", "# cluAbs1233");
   ([1231], VAbs "lu_1311", "# cluAbs1311");
   ([1232], VAbs "lu_1312", "# cluAbs1312");
   ([1233], VAbs "lu_1313", "# cluAbs1313");
   ([1234], VAbs "lu_1331", "# cluAbs1331");
   ([1235], VAbs "lu_1321", "# cluAbs1321");
   ([1236], VAbs "lu_1322", "# cluAbs1322");
   ([1237], VAbs "lu_1332", "# cluAbs1332");
   ([1238], VAbs "lu_1323", "# cluAbs1323");
   ([1239], VAbs "lu_1333", "# cluAbs1333");
   ([1240], VVal "lu_2211", "# cluAbs2211");
   ([1241], VAbs "lu_2212", "# cluAbs2212");
   ([1242], VAbs "lu_2213", "# cluAbs2213");
   ([1243], VVal "lu_2222", "# cluAbs2222");
   ([1244], VAbs "lu_2223", "# cluAbs2223");
   ([1245], VVal "lu_2233", "# cluAbs2233");
   ([1246], VAbs "lu_2311", "# cluAbs2311");
   ([1247], VAbs "lu_2312", "# cluAbs2312");
   ([1248], VAbs "lu_2313", "# cluAbs2313");
   ([1249], VAbs "lu_2321", "# cluAbs2321");
   ([1250], VAbs "lu_2322", "# cluAbs2322");
   ([1251], VAbs "lu_2323", "# cluAbs2323");
   ([1252], VAbs "lu_2331", "# cluAbs2331");
   ([1253], VAbs "lu_2332", "# cluAbs2332");
   ([1254], VAbs "lu_2333", "# cluAbs2333");
   ([1255], VVal "lu_3311", "# cluAbs3311");
   ([1256], VAbs "lu_3312", "# cluAbs3312");
   ([1257], VAbs "lu_3313", "# cluAbs3313");
   ([1258], VVal "lu_3322", "# cluAbs3322");
   ([1259], VVal "lu_3333", "# cluAbs3333");
   ([1260], VAbs "lu_3323", "# cluAbs3323");
   ([1261], VAng "lu_1112", "# cluPh1112");
   ([1262], VAng "lu_2212", "# cluPh2212");
   ([1263], VAng "lu_1113", "# cluPh1113");
   ([1264], VAng "lu_1123", "# cluPh1123");
   ([1265], VAng "lu_1211", "# cluPh1211");
   ([1266], VAng "lu_1212", "# cluPh1212");
   ([1267], VAng "lu_1221", "# cluPh1221");
   ([1268], VAng "lu_1213", "# cluPh1213");
   ([1269], VAng "lu_1231", "# cluPh1231");
   ([1270], VAng "lu_1222", "# cluPh1222");
   ([1271], VAng "lu_1223", "# cluPh1223");
   ([1272], VAng "lu_1232", "# cluPh1232");
   ([1273], VAng "lu_1233", "# cluPh1233");
   ([1274], VAng "lu_1311", "# cluPh1311");
   ([1275], VAng "lu_1312", "# cluPh1312");
   ([1276], VAng "lu_1313", "# cluPh1313");
   ([1277], VAng "lu_1331", "# cluPh1331");
   ([1278], VAng "lu_1321", "# cluPh1321");
   ([1279], VAng "lu_1322", "# cluPh1322");
   ([1280], VAng "lu_1332", "# cluPh1332");
   ([1281], VAng "lu_1323", "# cluPh1323");
   ([1282], VAng "lu_1333", "# cluPh1333");
   ([1283], VAng "lu_2213", "# cluPh2213");
   ([1284], VAng "lu_2223", "# cluPh2223");
   ([1285], VAng "lu_2311", "# cluPh2311");
   ([1286], VAng "lu_2312", "# cluPh2312");
   ([1287], VAng "lu_2313", "# cluPh2313");
   ([1288], VAng "lu_2321", "# cluPh2321");
   ([1289], VAng "lu_2322", "# cluPh2322");
   ([1290], VAng "lu_2323", "# cluPh2323");
   ([1291], VAng "lu_2331", "# cluPh2331");
   ([1292], VAng "lu_2332", "# cluPh2332");
   ([1293], VAng "lu_2333", "# cluPh2333");
   ([1294], VAng "lu_3323", "# cluPh3323");
   ([1295], VAng "lu_3312", "# cluPh3312");
   ([1296], VAng "lu_3313", "# cluPh3313");
   ([1297], VVal "ld_1111", "# cldAbs1111");
   ([1298], VAbs "ld_1112", "# cldAbs1112");
   ([1299], VAbs "ld_1113", "# cldAbs1113");
   ([1300], VAbs "ld_1123", "# cldAbs1123");
   ([1301], VVal "ld_1122", "# cldAbs1122");
   ([1302], VVal "ld_1133", "# cldAbs1133");
   ([1303], VAbs "ld_1211", "# cldAbs1211");
   ([1304], VAbs "ld_1212", "# cldAbs1212");
   ([1305], VAbs "ld_1221", "# cldAbs1221");
   ([1306], VAbs "ld_1213", "# cldAbs1213");
   ([1307], VAbs "ld_1231", "# cldAbs1231");
   ([1308], VAbs "ld_1222", "# cldAbs1222");
   ([1309], VAbs "ld_1223", "# cldAbs1223");
   ([1310], VAbs "ld_1232", "# cldAbs1232");
   ([1311], VAbs "ld_1233", "# cldAbs1233");
   ([1312], VAbs "ld_1311", "# cldAbs1311");
   ([1313], VAbs "ld_1312", "# cldAbs1312");
   ([1314], VAbs "ld_1313", "# cldAbs1313");
   ([1315], VAbs "ld_1331", "# cldAbs1331");
   ([1316], VAbs "ld_1321", "# cldAbs1321");
   ([1317], VAbs "ld_1322", "# cldAbs1322");
   ([1318], VAbs "ld_1332", "# cldAbs1332");
   ([1319], VAbs "ld_1323", "# cldAbs1323");
   ([1320], VAbs "ld_1333", "# cldAbs1333");
   ([1321], VVal "ld_2211", "# cldAbs2211");
   ([1322], VAbs "ld_2212", "# cldAbs2212");
   ([1323], VAbs "ld_2213", "# cldAbs2213");
   ([1324], VVal "ld_2222", "# cldAbs2222");
   ([1325], VAbs "ld_2223", "# cldAbs2223");
   ([1326], VVal "ld_2233", "# cldAbs2233");
   ([1327], VAbs "ld_2311", "# cldAbs2311");
   ([1328], VAbs "ld_2312", "# cldAbs2312");
   ([1329], VAbs "ld_2313", "# cldAbs2313");
   ([1330], VAbs "ld_2321", "# cldAbs2321");
   ([1331], VAbs "ld_2322", "# cldAbs2322");
   ([1332], VAbs "ld_2323", "# cldAbs2323");
   ([1333], VAbs "ld_2331", "# cldAbs2331");
   ([1334], VAbs "ld_2332", "# cldAbs2332");
   ([1335], VAbs "ld_2333", "# cldAbs2333");
   ([1336], VVal "ld_3311", "# cldAbs3311");
   ([1337], VAbs "ld_3312", "# cldAbs3312");
   ([1338], VAbs "ld_3313", "# cldAbs3313");
   ([1339], VVal "ld_3322", "# cldAbs3322");
   ([1340], VVal "ld_3333", "# cldAbs3333");
   ([1341], VAbs "ld_3323", "# cldAbs3323");
   ([1342], VAng "ld_1112", "# cldPh1112");
   ([1343], VAng "ld_2212", "# cldPh2212");
   ([1344], VAng "ld_1113", "# cldPh1113");
   ([1345], VAng "ld_1123", "# cldPh1123");
   ([1346], VAng "ld_1211", "# cldPh1211");
   ([1347], VAng "ld_1212", "# cldPh1212");
   ([1348], VAng "ld_1221", "# cldPh1221");
   ([1349], VAng "ld_1213", "# cldPh1213");
   ([1350], VAng "ld_1231", "# cldPh1231");
   ([1351], VAng "ld_1222", "# cldPh1222");
   ([1352], VAng "ld_1223", "# cldPh1223");
   ([1353], VAng "ld_1232", "# cldPh1232");
   ([1354], VAng "ld_1233", "# cldPh1233");
   ([1355], VAng "ld_1311", "# cldPh1311");
   ([1356], VAng "ld_1312", "# cldPh1312");
   ([1357], VAng "ld_1313", "# cldPh1313");
   ([1358], VAng "ld_1331", "# cldPh1331");
   ([1359], VAng "ld_1321", "# cldPh1321");
   ([1360], VAng "ld_1322", "# cldPh1322");
   ([1361], VAng "ld_1332", "# cldPh1332");
   ([1362], VAng "ld_1323", "# cldPh1323");
   ([1363], VAng "ld_1333", "# cldPh1333");
   ([1364], VAng "ld_2213", "# cldPh2213");
   ([1365], VAng "ld_2223", "# cldPh2223");
   ([1366], VAng "ld_2311", "# cldPh2311");
   ([1367], VAng "ld_2312", "# cldPh2312");
   ([1368], VAng "ld_2313", "# cldPh2313");
   ([1369], VAng "ld_2321", "# cldPh2321");
   ([1370], VAng "ld_2322", "# cldPh2322");
   ([1371], VAng "ld_2323", "# cldPh2323");
   ([1372], VAng "ld_2331", "# cldPh2331");
   ([1373], VAng "ld_2332", "# cldPh2332");
   ([1374], VAng "ld_2333", "# cldPh2333");
   ([1375], VAng "ld_3323", "# cldPh3323");
   ([1376], VAng "ld_3312", "# cldPh3312");
   ([1377], VAng "ld_3313", "# cldPh3313");
   ([1378], VVal "qe_1111", "# cqeAbs1111");
   ([1379], VAbs "qe_1112", "# cqeAbs1112");
   ([1380], VAbs "qe_1113", "# cqeAbs1113");
   ([1381], VAbs "qe_1123", "# cqeAbs1123");
   ([1382], VVal "qe_1122", "# cqeAbs1122");
   ([1383], VVal "qe_1133", "# cqeAbs1133");
   ([1384], VAbs "qe_1211", "# cqeAbs1211");
   ([1385], VAbs "qe_1212", "# cqeAbs1212");
   ([1386], VAbs "qe_1221", "# cqeAbs1221");
   ([1387], VAbs "qe_1213", "# cqeAbs1213");
   ([1388], VAbs "qe_1231", "# cqeAbs1231");
   ([1389], VAbs "qe_1222", "# cqeAbs1222");
   ([1390], VAbs "qe_1223", "# cqeAbs1223");
   ([1391], VAbs "qe_1232", "# cqeAbs1232");
   ([1392], VAbs "qe_1233", "# cqeAbs1233");
   ([1393], VAbs "qe_1311", "# cqeAbs1311");
   ([1394], VAbs "qe_1312", "# cqeAbs1312");
   ([1395], VAbs "qe_1313", "# cqeAbs1313");
   ([1396], VAbs "qe_1331", "# cqeAbs1331");
   ([1397], VAbs "qe_1321", "# cqeAbs1321");
   ([1398], VAbs "qe_1322", "# cqeAbs1322");
   ([1399], VAbs "qe_1332", "# cqeAbs1332");
   ([1400], VAbs "qe_1323", "# cqeAbs1323");
   ([1401], VAbs "qe_1333", "# cqeAbs1333");
   ([1402], VVal "qe_2211", "# cqeAbs2211");
   ([1403], VAbs "qe_2212", "# cqeAbs2212");
   ([1404], VAbs "qe_2213", "# cqeAbs2213");
   ([1405], VVal "qe_2222", "# cqeAbs2222");
   ([1406], VAbs "qe_2223", "# cqeAbs2223");
   ([1407], VVal "qe_2233", "# cqeAbs2233");
   ([1408], VAbs "qe_2311", "# cqeAbs2311");
   ([1409], VAbs "qe_2312", "# cqeAbs2312");
   ([1410], VAbs "qe_2313", "# cqeAbs2313");
   ([1411], VAbs "qe_2321", "# cqeAbs2321");
   ([1412], VAbs "qe_2322", "# cqeAbs2322");
   ([1413], VAbs "qe_2323", "# cqeAbs2323");
   ([1414], VAbs "qe_2331", "# cqeAbs2331");
   ([1415], VAbs "qe_2332", "# cqeAbs2332");
   ([1416], VAbs "qe_2333", "# cqeAbs2333");
   ([1417], VVal "qe_3311", "# cqeAbs3311");
   ([1418], VAbs "qe_3312", "# cqeAbs3312");
   ([1419], VAbs "qe_3313", "# cqeAbs3313");
   ([1420], VVal "qe_3322", "# cqeAbs3322");
   ([1421], VVal "qe_3333", "# cqeAbs3333");
   ([1422], VAbs "qe_3323", "# cqeAbs3323");
   ([1423], VAng "qe_1112", "# cqePh1112");
   ([1424], VAng "qe_2212", "# cqePh2212");
   ([1425], VAng "qe_1113", "# cqePh1113");
   ([1426], VAng "qe_1123", "# cqePh1123");
   ([1427], VAng "qe_1211", "# cqePh1211");
   ([1428], VAng "qe_1212", "# cqePh1212");
   ([1429], VAng "qe_1221", "# cqePh1221");
   ([1430], VAng "qe_1213", "# cqePh1213");
   ([1431], VAng "qe_1231", "# cqePh1231");
   ([1432], VAng "qe_1222", "# cqePh1222");
   ([1433], VAng "qe_1223", "# cqePh1223");
   ([1434], VAng "qe_1232", "# cqePh1232");
   ([1435], VAng "qe_1233", "# cqePh1233");
   ([1436], VAng "qe_1311", "# cqePh1311");
   ([1437], VAng "qe_1312", "# cqePh1312");
   ([1438], VAng "qe_1313", "# cqePh1313");
   ([1439], VAng "qe_1331", "# cqePh1331");
   ([1440], VAng "qe_1321", "# cqePh1321");
   ([1441], VAng "qe_1322", "# cqePh1322");
   ([1442], VAng "qe_1332", "# cqePh1332");
   ([1443], VAng "qe_1323", "# cqePh1323");
   ([1444], VAng "qe_1333", "# cqePh1333");
   ([1445], VAng "qe_2213", "# cqePh2213");
   ([1446], VAng "qe_2223", "# cqePh2223");
   ([1447], VAng "qe_2311", "# cqePh2311");
   ([1448], VAng "qe_2312", "# cqePh2312");
   ([1449], VAng "qe_2313", "# cqePh2313");
   ([1450], VAng "qe_2321", "# cqePh2321");
   ([1451], VAng "qe_2322", "# cqePh2322");
   ([1452], VAng "qe_2323", "# cqePh2323");
   ([1453], VAng "qe_2331", "# cqePh2331");
   ([1454], VAng "qe_2332", "# cqePh2332");
   ([1455], VAng "qe_2333", "# cqePh2333");
   ([1456], VAng "qe_3323", "# cqePh3323");
   ([1457], VAng "qe_3312", "# cqePh3312");
   ([1458], VAng "qe_3313", "# cqePh3313")].
(* smeftsim.py:4175 *)
Definition B_FRBlock10 : list cardline :=
  [([1; 1], VAng "uphi_11", "# cuHPh1x1");
   ([1; 2], VAng "uphi_12", "# cuHPh1x2");
   ([1; 3], VAng "uphi_13", "# cuHPh1x3");
   ([2; 1], VAng "uphi_21", "# cuHPh2x1");
   ([2; 2], VAng "uphi_22", "# cuHPh2x2");
   ([2; 3], VAng "uphi_23", "# cuHPh2x3");
   ([3; 1], VAng "uphi_31", "# cuHPh3x1");
   ([3; 2], VAng "uphi_32", "# cuHPh3x2");
   ([3; 3], VAng "uphi_33", "# cuHPh3x3")].
(* smeftsim.py:4187 *)
Definition B_FRBlock11 : list cardline :=
  [([1; 1], VAng "dphi_11", "# cdHPh1x1");
   ([1; 2], VAng "dphi_12", "# cdHPh1x2");
   ([1; 3], VAng "dphi_13", "# cdHPh1x3");
   ([2; 1], VAng "dphi_21", "# cdHPh2x1");
   ([2; 2], VAng "dphi_22", "# cdHPh2x2");
   ([2; 3], VAng "dphi_23", "# cdHPh2x3");
   ([3; 1], VAng "dphi_31", "# cdHPh3x1");
   ([3; 2], VAng "dphi_32", "# cdHPh3x2");
   ([3; 3], VAng "dphi_33", "# cdHPh3x3")].
(* smeftsim.py:4199 *)
Definition B_FRBlock15 : list cardline :=
  [([1; 1], VAbs "eW_11", "# ceWAbs1x1");
   ([1; 2], VAbs "eW_12", "# ceWAbs1x2");
   ([1; 3], VAbs "eW_13", "# ceWAbs1x3");
   ([2; 1], VAbs "eW_21", "# ceWAbs2x1");
   ([2; 2], VAbs "eW_22", "# ceWAbs2x2");
   ([2; 3], VAbs "eW_23", "# ceWAbs2x3");
   ([3; 1], VAbs "eW_31", "# ceWAbs3x1");
   ([3; 2], VAbs "eW_32", "# ceWAbs3x2");
   ([3; 3], VAbs "eW_33", "# ceWAbs3x3")].
(* smeftsim.py:4211 *)
Definition B_FRBlock16 : list cardline :=
  [([1; 1], VAng "eW_11", "# ceWPh1x1");
   ([1; 2], VAng "eW_12", "# ceWPh1x2");
   ([1; 3], VAng "eW_13", "# ceWPh1x3");
   ([2; 1], VAng "eW_21", "# ceWPh2x1");
   ([2; 2], VAng "eW_22", "# ceWPh2x2");
   ([2; 3], VAng "eW_23", "# ceWPh2x3");
   ([3; 1], VAng "eW_31", "# ceWPh3x1");
   ([3; 2], VAng "eW_32", "# ceWPh3x2");
   ([3; 3], VAng "eW_33", "# ceWPh3x3")].
(* smeftsim.py:4223 *)
Definition B_FRBlock18 : list cardline :=
  [([1; 1], VAbs "eB_11", "# ceBAbs1x1");
   ([1; 2], VAbs "eB_12", "# ceBAbs1x2");
   ([1; 3], VAbs "eB_13", "# ceBAbs1x3");
   ([2; 1], VAbs "eB_21", "# ceBAbs2x1");
   ([2; 2], VAbs "eB_22", "# ceBAbs2x2");
   ([2; 3], VAbs "eB_23", "# ceBAbs2x3");
   ([3; 1], VAbs "eB_31", "# ceBAbs3x1");
   ([3; 2], VAbs "eB_32", "# ceBAbs3x2");
   ([3; 3], VAbs "eB_33", "# ceBAbs3x3")].
(* smeftsim.py:4235 *)
Definition B_FRBlock19 : list cardline :=
  [([1; 1], VAng "eB_11", "# ceBPh1x1");
   ([1; 2], VAng "eB_12", "# ceBPh1x2");
   ([1; 3], VAng "eB_13", "# ceBPh1x3");
   ([2; 1], VAng "eB_21", "# ceBPh2x1");
   ([2; 2], VAng "eB_22", "# ceBPh2x2");
   ([2; 3], VAng "eB_23", "# ceBPh2x3");
   ([3; 1], VAng "eB_31", "# ceBPh3x1");
   ([3; 2], VAng "eB_32", "# ceBPh3x2");
   ([3; 3], VAng "eB_33", "# ceBPh3x3")].
(* smeftsim.py:4247 *)
Definition B_FRBlock21 : list cardline :=
  [([1; 1], VAbs "uG_11", "# cuGAbs1x1");
   ([1; 2], VAbs "uG_12", "# cuGAbs1x2");
   ([1; 3], VAbs "uG_13", "# cuGAbs1x3");
   ([2; 1], VAbs "uG_21", "# cuGAbs2x1");
   ([2; 2], VAbs "uG_22", "# cuGAbs2x2");
   ([2; 3], VAbs "uG_23", "# cuGAbs2x3");
   ([3; 1], VAbs "uG_31", "# cuGAbs3x1");
   ([3; 2], VAbs "uG_32", "# cuGAbs3x2");
   ([3; 3], VAbs "uG_33", "# cuGAbs3x3")].
(* smeftsim.py:4259 *)
Definition B_FRBlock22 : list cardline :=
  [([1; 1], VAng "uG_11", "# cuGPh1x1");
   ([1; 2], VAng "uG_12", "# cuGPh1x2");
   ([1; 3], VAng "uG_13", "# cuGPh1x3");
   ([2; 1], VAng "uG_21", "# cuGPh2x1");
   ([2; 2], VAng "uG_22", "# cuGPh2x2");
   ([2; 3], VAng "uG_23", "# cuGPh2x3");
   ([3; 1], VAng "uG_31", "# cuGPh3x1");
   ([3; 2], VAng "uG_32", "# cuGPh3x2");
   ([3; 3], VAng "uG_33", "# cuGPh3x3")].
(* smeftsim.py:4271 *)
Definition B_FRBlock24 : list cardline :=
  [([1; 1], VAbs "uW_11", "# cuWAbs1x1");
   ([1; 2], VAbs "uW_12", "# cuWAbs1x2");
   ([1; 3], VAbs "uW_13", "# cuWAbs1x3");
   ([2; 1], VAbs "uW_21", "# cuWAbs2x1");
   ([2; 2], VAbs "uW_22", "# cuWAbs2x2");
   ([2; 3], VAbs "uW_23", "# cuWAbs2x3");
   ([3; 1], VAbs "uW_31", "# cuWAbs3x1");
   ([3; 2], VAbs "uW_32", "# cuWAbs3x2");
   ([3; 3], VAbs "uW_33", "# cuWAbs3x3")].
(* smeftsim.py:4283 *)
Definition B_FRBlock25 : list cardline :=
  [([1; 1], VAng "uW_11", "# cuWPh1x1");
   ([1; 2], VAng "uW_12", "# cuWPh1x2");
   ([1; 3], VAng "uW_13", "# cuWPh1x3");
   ([2; 1], VAng "uW_21", "# cuWPh2x1");
   ([2; 2], VAng "uW_22", "# cuWPh2x2");
   ([2; 3], VAng "uW_23", "# cuWPh2x3");
   ([3; 1], VAng "uW_31", "# cuWPh3x1");
   ([3; 2], VAng "uW_32", "# cuWPh3x2");
   ([3; 3], VAng "uW_33", "# cuWPh3x3")].
(* smeftsim.py:4295 *)
Definition B_FRBlock27 : list cardline :=
  [([1; 1], VAbs "uB_11", "# cuBAbs1x1");
   ([1; 2], VAbs "uB_12", "# cuBAbs1x2");
   ([1; 3], VAbs "uB_13", "# cuBAbs1x3");
   ([2; 1], VAbs "uB_21", "# cuBAbs2x1");
   ([2; 2], VAbs "uB_22", "# cuBAbs2x2");
   ([2; 3], VAbs "uB_23", "# cuBAbs2x3");
   ([3; 1], VAbs "uB_31", "# cuBAbs3x1");
   ([3; 2], VAbs "uB_32", "# cuBAbs3x2");
   ([3; 3], VAbs "uB_33", "# cuBAbs3x3")].
(* smeftsim.py:4307 *)
Definition B_FRBlock28 : list cardline :=
  [([1; 1], VAng "uB_11", "# cuBPh1x1");
   ([1; 2], VAng "uB_12", "# cuBPh1x2");
   ([1; 3], VAng "uB_13", "# cuBPh1x3");
   ([2; 1], VAng "uB_21", "# cuBPh2x1");
   ([2; 2], VAng "uB_22", "# cuBPh2x2");
   ([2; 3], VAng "uB_23", "# cuBPh2x3");
   ([3; 1], VAng "uB_31", "# cuBPh3x1");
   ([3; 2], VAng "uB_32", "# cuBPh3x2");
   ([3; 3], VAng "uB_33", "# cuBPh3x3")].
(* smeftsim.py:4319 *)
Definition B_FRBlock30 : list cardline :=
  [([1; 1], VAbs "dG_11", "# cdGAbs1x1");
   ([1; 2], VAbs "dG_12", "# cdGAbs1x2");
   ([1; 3], VAbs "dG_13", "# cdGAbs1x3");
   ([2; 1], VAbs "dG_21", "# cdGAbs2x1");
   ([2; 2], VAbs "dG_22", "# cdGAbs2x2");
   ([2; 3], VAbs "dG_23", "# cdGAbs2x3");
   ([3; 1], VAbs "dG_31", "# cdGAbs3x1");
   ([3; 2], VAbs "dG_32", "# cdGAbs3x2");
   ([3; 3], VAbs "dG_33", "# cdGAbs3x3")].
(* smeftsim.py:4331 *)
Definition B_FRBlock31 : list cardline :=
  [([1; 1], VAng "dG_11", "# cdGPh1x1");
   ([1; 2], VAng "dG_12", "# cdGPh1x2");
   ([1; 3], VAng "dG_13", "# cdGPh1x3");
   ([2; 1], VAng "dG_21", "# cdGPh2x1");
   ([2; 2], VAng "dG_22", "# cdGPh2x2");
   ([2; 3], VAng "dG_23", "# cdGPh2x3");
   ([3; 1], VAng "dG_31", "# cdGPh3x1");
   ([3; 2], VAng "dG_32", "# cdGPh3x2");
   ([3; 3], VAng "dG_33", "# cdGPh3x3")].
(* smeftsim.py:4343 *)
Definition B_FRBlock33 : list cardline :=
  [([1; 1], VAbs "dW_11", "# cdWAbs1x1");
   ([1; 2], VAbs "dW_12", "# cdWAbs1x2");
   ([1; 3], VAbs "dW_13", "# cdWAbs1x3");
   ([2; 1], VAbs "dW_21", "# cdWAbs2x1");
   ([2; 2], VAbs "dW_22", "# cdWAbs2x2");
   ([2; 3], VAbs "dW_23", "# cdWAbs2x3");
   ([3; 1], VAbs "dW_31", "# cdWAbs3x1");
   ([3; 2], VAbs "dW_32", "# cdWAbs3x2");
   ([3; 3], VAbs "dW_33", "# cdWAbs3x3")].
(* smeftsim.py:4355 *)
Definition B_FRBlock34 : list cardline :=
  [([1; 1], VAng "dW_11", "# cdWPh1x1");
   ([1; 2], VAng "dW_12", "# cdWPh1x2");
   ([1; 3], VAng "dW_13", "# cdWPh1x3");
   ([2; 1], VAng "dW_21", "# cdWPh2x1");
   ([2; 2], VAng "dW_22", "# cdWPh2x2");
   ([2; 3], VAng "dW_23", "# cdWPh2x3");
   ([3; 1], VAng "dW_31", "# cdWPh3x1");
   ([3; 2], VAng "dW_32", "# cdWPh3x2");
   ([3; 3], VAng "dW_33", "# cdWPh3x3")].
(* smeftsim.py:4367 *)
Definition B_FRBlock36 : list cardline :=
  [([1; 1], VAbs "dB_11", "# cdBAbs1x1");
   ([1; 2], VAbs "dB_12", "# cdBAbs1x2");
   ([1; 3], VAbs "dB_13", "# cdBAbs1x3");
   ([2; 1], VAbs "dB_21", "# cdBAbs2x1");
   ([2; 2], VAbs "dB_22", "# cdBAbs2x2");
   ([2; 3], VAbs "dB_23", "# cdBAbs2x3");
   ([3; 1], VAbs "dB_31", "# cdBAbs3x1");
   ([3; 2], VAbs "dB_32", "# cdBAbs3x2");
   ([3; 3], VAbs "dB_33", "# cdBAbs3x3")].
(* smeftsim.py:4379 *)
Definition B_FRBlock37 : list cardline :=
  [([1; 1], VAng "dB_11", "# cdBPh1x1");
   ([1; 2], VAng "dB_12", "# cdBPh1x2");
   ([1; 3], VAng "dB_13", "# cdBPh1x3");
   ([2; 1], VAng "dB_21", "# cdBPh2x1");
   ([2; 2], VAng "dB_22", "# cdBPh2x2");
   ([2; 3], VAng "dB_23", "# cdBPh2x3");
   ([3; 1], VAng "dB_31", "# cdBPh3x1");
   ([3; 2], VAng "dB_32", "# cdBPh3x2");
   ([3; 3], VAng "dB_33", "# cdBPh3x3")].
(* smeftsim.py:4391 *)
Definition B_FRBlock45 : list cardline :=
  [([1; 1], VAbs "phiud_11", "# cHudAbs1x1");
   ([1; 2], VAbs "phiud_12", "# cHudAbs1x2");
   ([1; 3], VAbs "phiud_13", "# cHudAbs1x3");
   ([2; 1], VAbs "phiud_21", "# cHudAbs2x1");
   ([2; 2], VAbs "phiud_22", "# cHudAbs2x2");
   ([2; 3], VAbs "phiud_23", "# cHudAbs2x3");
   ([3; 1], VAbs "phiud_31", "# cHudAbs3x1");
   ([3; 2], VAbs "phiud_32", "# cHudAbs3x2");
   ([3; 3], VAbs "phiud_33", "# cHudAbs3x3")].
(* smeftsim.py:4403 *)
Definition B_FRBlock46 : list cardline :=
  [([1; 1], VAng "phiud_11", "# cHudPh1x1");
   ([1; 2], VAng "phiud_12", "# cHudPh1x2");
   ([1; 3], VAng "phiud_13", "# cHudPh1x3");
   ([2; 1], VAng "phiud_21", "# cHudPh2x1");
   ([2; 2], VAng "phiud_22", "# cHudPh2x2");
   ([2; 3], VAng "phiud_23", "# cHudPh2x3");
   ([3; 1], VAng "phiud_31", "# cHudPh3x1");
   ([3; 2], VAng "phiud_32", "# cHudPh3x2");
   ([3; 3], VAng "phiud_33", "# cHudPh3x3")].
(* smeftsim.py:4415 *)
Definition B_FRBlock6 : list cardline :=
  [([1; 1], VAbs "ephi_11", "# ceHAbs1x1");
   ([1; 2], VAbs "ephi_12", "# ceHAbs1x2");
   ([1; 3], VAbs "ephi_13", "# ceHAbs1x3");
   ([2; 1], VAbs "ephi_21", "# ceHAbs2x1");
   ([2; 2], VAbs "ephi_22", "# ceHAbs2x2");
   ([2; 3], VAbs "ephi_23", "# ceHAbs2x3");
   ([3; 1], VAbs "ephi_31", "# ceHAbs3x1");
   ([3; 2], VAbs "ephi_32", "# ceHAbs3x2");
   ([3; 3], VAbs "ephi_33", "# ceHAbs3x3")].
(* smeftsim.py:4427 *)
Definition B_FRBlock69 : list cardline :=
  [([1; 1; 1; 1], VAbs "ledq_1111", "# cledqAbs1x1x1x1");
   ([1; 1; 1; 2], VAbs "ledq_1112", "# cledqAbs1x1x1x2");
   ([1; 1; 1; 3], VAbs "ledq_1113", "# cledqAbs1x1x1x3");
   ([1; 1; 2; 1], VAbs "ledq_1121", "# cledqAbs1x1x2x1");
   ([1; 1; 2; 2], VAbs "ledq_1122", "# cledqAbs1x1x2x2");
   ([1; 1; 2; 3], VAbs "ledq_1123", "# cledqAbs1x1x2x3");
   ([1; 1; 3; 1], VAbs "ledq_1131", "# cledqAbs1x1x3x1");
   ([1; 1; 3; 2], VAbs "ledq_1132", "# cledqAbs1x1x3x2");
   ([1; 1; 3; 3], VAbs "ledq_1133", "# cledqAbs1x1x3x3");
   ([1; 2; 1; 1], VAbs "ledq_1211", "# cledqAbs1x2x1x1");
   ([1; 2; 1; 2], VAbs "ledq_1212", "# cledqAbs1x2x1x2");
   ([1; 2; 1; 3], VAbs "ledq_1213", "# cledqAbs1x2x1x3");
   ([1; 2; 2; 1], VAbs "ledq_1221", "# cledqAbs1x2x2x1");
   ([1; 2; 2; 2], VAbs "ledq_1222", "# cledqAbs1x2x2x2");
   ([1; 2; 2; 3], VAbs "ledq_1223", "# cledqAbs1x2x2x3");
   ([1; 2; 3; 1], VAbs "ledq_1231", "# cledqAbs1x2x3x1");
   ([1; 2; 3; 2], VAbs "ledq_1232", "# cledqAbs1x2x3x2");
   ([1; 2; 3; 3], VAbs "ledq_1233", "# cledqAbs1x2x3x3");
   ([1; 3; 1; 1], VAbs "ledq_1311", "# cledqAbs1x3x1x1");
   ([1; 3; 1; 2], VAbs "ledq_1312", "# cledqAbs1x3x1x2");
   ([1; 3; 1; 3], VAbs "ledq_1313", "# cledqAbs1x3x1x3");
   ([1; 3; 2; 1], VAbs "ledq_1321", "# cledqAbs1x3x2x1");
   ([1; 3; 2; 2], VAbs "ledq_1322", "# cledqAbs1x3x2x2");
   ([1; 3; 2; 3], VAbs "ledq_1323", "# cledqAbs1x3x2x3");
   ([1; 3; 3; 1], VAbs "ledq_1331", "# cledqAbs1x3x3x1");
   ([1; 3; 3; 2], VAbs "ledq_1332", "# cledqAbs1x3x3x2");
   ([1; 3; 3; 3], VAbs "ledq_1333", "# cledqAbs1x3x3x3");
   ([2; 1; 1; 1], VAbs "ledq_2111", "# cledqAbs2x1x1x1");
   ([2; 1; 1; 2], VAbs "ledq_2112", "# cledqAbs2x1x1x2");
   ([2; 1; 1; 3], VAbs "ledq_2113", "# cledqAbs2x1x1x3");
   ([2; 1; 2; 1], VAbs "ledq_2121", "# cledqAbs2x1x2x1");
   ([2; 1; 2; 2], VAbs "ledq_2122", "# cledqAbs2x1x2x2");
   ([2; 1; 2; 3], VAbs "ledq_2123", "# cledqAbs2x1x2x3");
   ([2; 1; 3; 1], VAbs "ledq_2131", "# cledqAbs2x1x3x1");
   ([2; 1; 3; 2], VAbs "ledq_2132", "# cledqAbs2x1x3x2");
   ([2; 1; 3; 3], VAbs "ledq_2133", "# cledqAbs2x1x3x3");
   ([2; 2; 1; 1], VAbs "ledq_2211", "# cledqAbs2x2x1x1");
   ([2; 2; 1; 2], VAbs "ledq_2212", "# cledqAbs2x2x1x2");
   ([2; 2; 1; 3], VAbs "ledq_2213", "# cledqAbs2x2x1x3");
   ([2; 2; 2; 1], VAbs "ledq_2221", "# cledqAbs2x2x2x1");
   ([2; 2; 2; 2], VAbs "ledq_2222", "# cledqAbs2x2x2x2");
   ([2; 2; 2; 3], VAbs "ledq_2223", "# cledqAbs2x2x2x3");
   ([2; 2; 3; 1], VAbs "ledq_2231", "# cledqAbs2x2x3x1");
   ([2; 2; 3; 2], VAbs "ledq_2232", "# cledqAbs2x2x3x2");
   ([2; 2; 3; 3], VAbs "ledq_2233", "# cledqAbs2x2x3x3");
   ([2; 3; 1; 1], VAbs "ledq_2311", "# cledqAbs2x3x1x1");
   ([2; 3; 1; 2], VAbs "ledq_2312", "# cledqAbs2x3x1x2");
   ([2; 3; 1; 3], VAbs "ledq_2313", "# cledqAbs2x3x1x3");
   ([2; 3; 2; 1], VAbs "ledq_2321", "# cledqAbs2x3x2x1");
   ([2; 3; 2; 2], VAbs "ledq_2322", "# cledqAbs2x3x2x2");
   ([2; 3; 2; 3], VAbs "ledq_2323", "# cledqAbs2x3x2x3");
   ([2; 3; 3; 1], VAbs "ledq_2331", "# cledqAbs2x3x3x1");
   ([2; 3; 3; 2], VAbs "ledq_2332", "# cledqAbs2x3x3x2");
   ([2; 3; 3; 3], VAbs "ledq_2333", "# cledqAbs2x3x3x3");
   ([3; 1; 1; 1], VAbs "ledq_3111", "# cledqAbs3x1x1x1");
   ([3; 1; 1; 2], VAbs "ledq_3112", "# cledqAbs3x1x1x2");
   ([3; 1; 1; 3], VAbs "ledq_3113", "# cledqAbs3x1x1x3");
   ([3; 1; 2; 1], VAbs "ledq_3121", "# cledqAbs3x1x2x1");
   ([3; 1; 2; 2], VAbs "ledq_3122", "# cledqAbs3x1x2x2");
   ([3; 1; 2; 3], VAbs "ledq_3123", "# cledqAbs3x1x2x3");
   ([3; 1; 3; 1], VAbs "ledq_3131", "# cledqAbs3x1x3x1");
   ([3; 1; 3; 2], VAbs "ledq_3132", "# cledqAbs3x1x3x2");
   ([3; 1; 3; 3], VAbs "ledq_3133", "# cledqAbs3x1x3x3");
   ([3; 2; 1; 1], VAbs "ledq_3211", "# cledqAbs3x2x1x1");
   ([3; 2; 1; 2], VAbs "ledq_3212", "# cledqAbs3x2x1x2");
   ([3; 2; 1; 3], VAbs "ledq_3213", "# cledqAbs3x2x1x3");
   ([3; 2; 2; 1], VAbs "ledq_3221", "# cledqAbs3x2x2x1");
   ([3; 2; 2; 2], VAbs "ledq_3222", "# cledqAbs3x2x2x2");
   ([3; 2; 2; 3], VAbs "ledq_3223", "# cledqAbs3x2x2x3");
   ([3; 2; 3; 1], VAbs "ledq_3231", "# cledqAbs3x2x3x1");
   ([3; 2; 3; 2], VAbs "ledq_3232", "# cledqAbs3x2x3x2");
   ([3; 2; 3; 3], VAbs "ledq_3233", "# cledqAbs3x2x3x3");
   ([3; 3; 1; 1], VAbs "ledq_3311", "# cledqAbs3x3x1x1");
   ([3; 3; 1; 2], VAbs "ledq_3312", "# cledqAbs3x3x1x2");
   ([3; 3; 1; 3], VAbs "ledq_3313", "# cledqAbs3x3x1x3");
   ([3; 3; 2; 1], VAbs "ledq_3321", "# cledqAbs3x3x2x1");
   ([3; 3; 2; 2], VAbs "ledq_3322", "# cledqAbs3x3x2x2");
   ([3; 3; 2; 3], VAbs "ledq_3323", "# cledqAbs3x3x2x3");
   ([3; 3; 3; 1], VAbs "ledq_3331", "# cledqAbs3x3x3x1");
   ([3; 3; 3; 2], VAbs "ledq_3332", "# cledqAbs3x3x3x2");
   ([3; 3; 3; 3], VAbs "ledq_3333", "# cledqAbs3x3x3x3")].
(* smeftsim.py:4511 *)
Definition B_FRBlock7 : list cardline :=
  [([1; 1], VAbs "uphi_11", "# cuHAbs1x1");
   ([1; 2], VAbs "uphi_12", "# cuHAbs1x2");
   ([1; 3], VAbs "uphi_13", "# cuHAbs1x3");
   ([2; 1], VAbs "uphi_21", "# cuHAbs2x1");
   ([2; 2], VAbs "uphi_22", "# cuHAbs2x2");
   ([2; 3], VAbs "uphi_23", "# cuHAbs2x3");
   ([3; 1], VAbs "uphi_31", "# cuHAbs3x1");
   ([3; 2], VAbs "uphi_32", "# cuHAbs3x2");
   ([3; 3], VAbs "uphi_33", "# cuHAbs3x3")].
(* smeftsim.py:4523 *)
Definition B_FRBlock70 : list cardline :=
  [([1; 1; 1; 1], VAng "ledq_1111", "# cledqPh1x1x1x1");
   ([1; 1; 1; 2], VAng "ledq_1112", "# cledqPh1x1x1x2");
   ([1; 1; 1; 3], VAng "ledq_1113", "# cledqPh1x1x1x3");
   ([1; 1; 2; 1], VAng "ledq_1121", "# cledqPh1x1x2x1");
   ([1; 1; 2; 2], VAng "ledq_1122", "# cledqPh1x1x2x2");
   ([1; 1; 2; 3], VAng "ledq_1123", "# cledqPh1x1x2x3");
   ([1; 1; 3; 1], VAng "ledq_1131", "# cledqPh1x1x3x1");
   ([1; 1; 3; 2], VAng "ledq_1132", "# cledqPh1x1x3x2");
   ([1; 1; 3; 3], VAng "ledq_1133", "# cledqPh1x1x3x3");
   ([1; 2; 1; 1], VAng "ledq_1211", "# cledqPh1x2x1x1");
   ([1; 2; 1; 2], VAng "ledq_1212", "# cledqPh1x2x1x2");
   ([1; 2; 1; 3], VAng "ledq_1213", "# cledqPh1x2x1x3");
   ([1; 2; 2; 1], VAng "ledq_1221", "# cledqPh1x2x2x1");
   ([1; 2; 2; 2], VAng "ledq_1222", "# cledqPh1x2x2x2");
   ([1; 2; 2; 3], VAng "ledq_1223", "# cledqPh1x2x2x3");
   ([1; 2; 3; 1], VAng "ledq_1231", "# cledqPh1x2x3x1");
   ([1; 2; 3; 2], VAng "ledq_1232", "# cledqPh1x2x3x2");
   ([1; 2; 3; 3], VAng "ledq_1233", "# cledqPh1x2x3x3");
   ([1; 3; 1; 1], VAng "ledq_1311", "# cledqPh1x3x1x1");
   ([1; 3; 1; 2], VAng "ledq_1312", "# cledqPh1x3x1x2");
   ([1; 3; 1; 3], VAng "ledq_1313", "# cledqPh1x3x1x3");
   ([1; 3; 2; 1], VAng "ledq_1321", "# cledqPh1x3x2x1");
   ([1; 3; 2; 2], VAng "ledq_1322", "# cledqPh1x3x2x2");
   ([1; 3; 2; 3], VAng "ledq_1323", "# cledqPh1x3x2x3");
   ([1; 3; 3; 1], VAng "ledq_1331", "# cledqPh1x3x3x1");
   ([1; 3; 3; 2], VAng "ledq_1332", "# cledqPh1x3x3x2");
   ([1; 3; 3; 3], VAng "ledq_1333", "# cledqPh1x3x3x3");
   ([2; 1; 1; 1], VAng "ledq_2111", "# cledqPh2x1x1x1");
   ([2; 1; 1; 2], VAng "ledq_2112", "# cledqPh2x1x1x2");
   ([2; 1; 1; 3], VAng "ledq_2113", "# cledqPh2x1x1x3");
   ([2; 1; 2; 1], VAng "ledq_2121", "# cledqPh2x1x2x1");
   ([2; 1; 2; 2], VAng "ledq_2122", "# cledqPh2x1x2x2");
   ([2; 1; 2; 3], VAng "ledq_2123", "# cledqPh2x1x2x3");
   ([2; 1; 3; 1], VAng "ledq_2131", "# cledqPh2x1x3x1");
   ([2; 1; 3; 2], VAng "ledq_2132", "# cledqPh2x1x3x2");
   ([2; 1; 3; 3], VAng "ledq_2133", "# cledqPh2x1x3x3");
   ([2; 2; 1; 1], VAng "ledq_2211", "# cledqPh2x2x1x1");
   ([2; 2; 1; 2], VAng "ledq_2212", "# cledqPh2x2x1x2");
   ([2; 2; 1; 3], VAng "ledq_2213", "# cledqPh2x2x1x3");
   ([2; 2; 2; 1], VAng "ledq_2221", "# cledqPh2x2x2x1");
   ([2; 2; 2; 2], VAng "ledq_2222", "# cledqPh2x2x2x2");
   ([2; 2; 2; 3], VAng "ledq_2223", "# cledqPh2x2x2x3");
   ([2; 2; 3; 1], VAng "ledq_2231", "# cledqPh2x2x3x1");
   ([2; 2; 3; 2], VAng "ledq_2232", "# cledqPh2x2x3x2");
   ([2; 2; 3; 3], VAng "ledq_2233", "# cledqPh2x2x3x3");
   ([2; 3; 1; 1], VAng "ledq_2311", "# cledqPh2x3x1x1");
   ([2; 3; 1; 2], VAng "ledq_2312", "# cledqPh2x3x1x2");
   ([2; 3; 1; 3], VAng "ledq_2313", "# cledqPh2x3x1x3");
   ([2; 3; 2; 1], VAng "ledq_2321", "# cledqPh2x3x2x1");
   ([2; 3; 2; 2], VAng "ledq_2322", "# cledqPh2x3x2x2");
   ([2; 3; 2; 3], VAng "ledq_2323", "# cledqPh2x3x2x3");
   ([2; 3; 3; 1], VAng "ledq_2331", "# cledqPh2x3x3x1");
   ([2; 3; 3; 2], VAng "ledq_2332", "# cledqPh2x3x3x2");
   ([2; 3; 3; 3], VAng "ledq_2333", "# cledqPh2x3x3x3");
   ([3; 1; 1; 1], VAng "ledq_3111", "# cledqPh3x1x1x1");
   ([3; 1; 1; 2], VAng "ledq_3112", "# cledqPh3x1x1x2");
   ([3; 1; 1; 3], VAng "ledq_3113", "# cledqPh3x1x1x3");
   ([3; 1; 2; 1], VAng "ledq_3121", "# cledqPh3x1x2x1");
   ([3; 1; 2; 2], VAng "ledq_3122", "# cledqPh3x1x2x2");
   ([3; 1; 2; 3], VAng "ledq_3123", "# cledqPh3x1x2x3");
   ([3; 1; 3; 1], VAng "ledq_3131", "# cledqPh3x1x3x1");
   ([3; 1; 3; 2], VAng "ledq_3132", "# cledqPh3x1x3x2");
   ([3; 1; 3; 3], VAng "ledq_3133", "# cledqPh3x1x3x3");
   ([3; 2; 1; 1], VAng "ledq_3211", "# cledqPh3x2x1x1");
   ([3; 2; 1; 2], VAng "ledq_3212", "# cledqPh3x2x1x2");
   ([3; 2; 1; 3], VAng "ledq_3213", "# cledqPh3x2x1x3");
   ([3; 2; 2; 1], VAng "ledq_3221", "# cledqPh3x2x2x1");
   ([3; 2; 2; 2], VAng "ledq_3222", "# cledqPh3x2x2x2");
   ([3; 2; 2; 3], VAng "ledq_3223", "# cledqPh3x2x2x3");
   ([3; 2; 3; 1], VAng "ledq_3231", "# cledqPh3x2x3x1");
   ([3; 2; 3; 2], VAng "ledq_3232", "# cledqPh3x2x3x2");
   ([3; 2; 3; 3], VAng "ledq_3233", "# cledqPh3x2x3x3");
   ([3; 3; 1; 1], VAng "ledq_3311", "# cledqPh3x3x1x1");
   ([3; 3; 1; 2], VAng "ledq_3312", "# cledqPh3x3x1x2");
   ([3; 3; 1; 3], VAng "ledq_3313", "# cledqPh3x3x1x3");
   ([3; 3; 2; 1], VAng "ledq_3321", "# cledqPh3x3x2x1");
   ([3; 3; 2; 2], VAng "ledq_3322", "# cledqPh3x3x2x2");
   ([3; 3; 2; 3], VAng "ledq_3323", "# cledqPh3x3x2x3");
   ([3; 3; 3; 1], VAng "ledq_3331", "# cledqPh3x3x3x1");
   ([3; 3; 3; 2], VAng "ledq_3332", "# cledqPh3x3x3x2");
   ([3; 3; 3; 3], VAng "ledq_3333", "# cledqPh3x3x3x3")].
(* smeftsim.py:4607 *)
Definition B_FRBlock72 : list cardline :=
  [([1; 1; 1; 1], VAbs "quqd1_1111", "# cquqd1Abs1x1x1x1");
   ([1; 1; 1; 2], VAbs "quqd1_1112", "# cquqd1Abs1x1x1x2");
   ([1; 1; 1; 3], VAbs "quqd1_1113", "# cquqd1Abs1x1x1x3");
   ([1; 1; 2; 1], VAbs "quqd1_1121", "# cquqd1Abs1x1x2x1");
   ([1; 1; 2; 2], VAbs "quqd1_1122", "# cquqd1Abs1x1x2x2");
   ([1; 1; 2; 3], VAbs "quqd1_1123", "# cquqd1Abs1x1x2x3");
   ([1; 1; 3; 1], VAbs "quqd1_1131", "# cquqd1Abs1x1x3x1");
   ([1; 1; 3; 2], VAbs "quqd1_1132", "# cquqd1Abs1x1x3x2");
   ([1; 1; 3; 3], VAbs "quqd1_1133", "# cquqd1Abs1x1x3x3");
   ([1; 2; 1; 1], VAbs "quqd1_1211", "# cquqd1Abs1x2x1x1");
   ([1; 2; 1; 2], VAbs "quqd1_1212", "# cquqd1Abs1x2x1x2");
   ([1; 2; 1; 3], VAbs "quqd1_1213", "# cquqd1Abs1x2x1x3");
   ([1; 2; 2; 1], VAbs "quqd1_1221", "# cquqd1Abs1x2x2x1");
   ([1; 2; 2; 2], VAbs "quqd1_1222", "# cquqd1Abs1x2x2x2");
   ([1; 2; 2; 3], VAbs "quqd1_1223", "# cquqd1Abs1x2x2x3");
   ([1; 2; 3; 1], VAbs "quqd1_1231", "# cquqd1Abs1x2x3x1");
   ([1; 2; 3; 2], VAbs "quqd1_1232", "# cquqd1Abs1x2x3x2");
   ([1; 2; 3; 3], VAbs "quqd1_1233", "# cquqd1Abs1x2x3x3");
   ([1; 3; 1; 1], VAbs "quqd1_1311", "# cquqd1Abs1x3x1x1");
   ([1; 3; 1; 2], VAbs "quqd1_1312", "# cquqd1Abs1x3x1x2");
   ([1; 3; 1; 3], VAbs "quqd1_1313", "# cquqd1Abs1x3x1x3");
   ([1; 3; 2; 1], VAbs "quqd1_1321", "# cquqd1Abs1x3x2x1");
   ([1; 3; 2; 2], VAbs "quqd1_1322", "# cquqd1Abs1x3x2x2");
   ([1; 3; 2; 3], VAbs "quqd1_1323", "# cquqd1Abs1x3x2x3");
   ([1; 3; 3; 1], VAbs "quqd1_1331", "# cquqd1Abs1x3x3x1");
   ([1; 3; 3; 2], VAbs "quqd1_1332", "# cquqd1Abs1x3x3x2");
   ([1; 3; 3; 3], VAbs "quqd1_1333", "# cquqd1Abs1x3x3x3");
   ([2; 1; 1; 1], VAbs "quqd1_2111", "# cquqd1Abs2x1x1x1");
   ([2; 1; 1; 2], VAbs "quqd1_2112", "# cquqd1Abs2x1x1x2");
   ([2; 1; 1; 3], VAbs "quqd1_2113", "# cquqd1Abs2x1x1x3");
   ([2; 1; 2; 1], VAbs "quqd1_2121", "# cquqd1Abs2x1x2x1");
   ([2; 1; 2; 2], VAbs "quqd1_2122", "# cquqd1Abs2x1x2x2");
   ([2; 1; 2; 3], VAbs "quqd1_2123", "# cquqd1Abs2x1x2x3");
   ([2; 1; 3; 1], VAbs "quqd1_2131", "# cquqd1Abs2x1x3x1");
   ([2; 1; 3; 2], VAbs "quqd1_2132", "# cquqd1Abs2x1x3x2");
   ([2; 1; 3; 3], VAbs "quqd1_2133", "# cquqd1Abs2x1x3x3");
   ([2; 2; 1; 1], VAbs "quqd1_2211", "# cquqd1Abs2x2x1x1");
   ([2; 2; 1; 2], VAbs "quqd1_2212", "# cquqd1Abs2x2x1x2");
   ([2; 2; 1; 3], VAbs "quqd1_2213", "# cquqd1Abs2x2x1x3");
   ([2; 2; 2; 1], VAbs "quqd1_2221", "# cquqd1Abs2x2x2x1");
   ([2; 2; 2; 2], VAbs "quqd1_2222", "# cquqd1Abs2x2x2x2");
   ([2; 2; 2; 3], VAbs "quqd1_2223", "# cquqd1Abs2x2x2x3");
   ([2; 2; 3; 1], VAbs "quqd1_2231", "# cquqd1Abs2x2x3x1");
   ([2; 2; 3; 2], VAbs "quqd1_2232", "# cquqd1Abs2x2x3x2");
   ([2; 2; 3; 3], VAbs "quqd1_2233", "# cquqd1Abs2x2x3x3");
   ([2; 3; 1; 1], VAbs "quqd1_2311", "# cquqd1Abs2x3x1x1");
   ([2; 3; 1; 2], VAbs "quqd1_2312", "# cquqd1Abs2x3x1x2");
   ([2; 3; 1; 3], VAbs "quqd1_2313", "# cquqd1Abs2x3x1x3");
   ([2; 3; 2; 1], VAbs "quqd1_2321", "# cquqd1Abs2x3x2x1");
   ([2; 3; 2; 2], VAbs "quqd1_2322", "# cquqd1Abs2x3x2x2");
   ([2; 3; 2; 3], VAbs "quqd1_2323", "# cquqd1Abs2x3x2x3");
   ([2; 3; 3; 1], VAbs "quqd1_2331", "# cquqd1Abs2x3x3x1");
   ([2; 3; 3; 2], VAbs "quqd1_2332", "# cquqd1Abs2x3x3x2");
   ([2; 3; 3; 3], VAbs "quqd1_2333", "# cquqd1Abs2x3x3x3");
   ([3; 1; 1; 1], VAbs "quqd1_3111", "# cquqd1Abs3x1x1x1");
   ([3; 1; 1; 2], VAbs "quqd1_3112", "# cquqd1Abs3x1x1x2");
   ([3; 1; 1; 3], VAbs "quqd1_3113", "# cquqd1Abs3x1x1x3");
   ([3; 1; 2; 1], VAbs "quqd1_3121", "# cquqd1Abs3x1x2x1");
   ([3; 1; 2; 2], VAbs "quqd1_3122", "# cquqd1Abs3x1x2x2");
   ([3; 1; 2; 3], VAbs "quqd1_3123", "# cquqd1Abs3x1x2x3");
   ([3; 1; 3; 1], VAbs "quqd1_3131", "# cquqd1Abs3x1x3x1");
   ([3; 1; 3; 2], VAbs "quqd1_3132", "# cquqd1Abs3x1x3x2");
   ([3; 1; 3; 3], VAbs "quqd1_3133", "# cquqd1Abs3x1x3x3");
   ([3; 2; 1; 1], VAbs "quqd1_3211", "# cquqd1Abs3x2x1x1");
   ([3; 2; 1; 2], VAbs "quqd1_3212", "# cquqd1Abs3x2x1x2");
   ([3; 2; 1; 3], VAbs "quqd1_3213", "# cquqd1Abs3x2x1x3");
   ([3; 2; 2; 1], VAbs "quqd1_3221", "# cquqd1Abs3x2x2x1");
   ([3; 2; 2; 2], VAbs "quqd1_3222", "# cquqd1Abs3x2x2x2");
   ([3; 2; 2; 3], VAbs "quqd1_3223", "# cquqd1Abs3x2x2x3");
   ([3; 2; 3; 1], VAbs "quqd1_3231", "# cquqd1Abs3x2x3x1");
   ([3; 2; 3; 2], VAbs "quqd1_3232", "# cquqd1Abs3x2x3x2");
   ([3; 2; 3; 3], VAbs "quqd1_3233", "# cquqd1Abs3x2x3x3");
   ([3; 3; 1; 1], VAbs "quqd1_3311", "# cquqd1Abs3x3x1x1");
   ([3; 3; 1; 2], VAbs "quqd1_3312", "# cquqd1Abs3x3x1x2");
   ([3; 3; 1; 3], VAbs "quqd1_3313", "# cquqd1Abs3x3x1x3");
   ([3; 3; 2; 1], VAbs "quqd1_3321", "# cquqd1Abs3x3x2x1");
   ([3; 3; 2; 2], VAbs "quqd1_3322", "# cquqd1Abs3x3x2x2");
   ([3; 3; 2; 3], VAbs "quqd1_3323", "# cquqd1Abs3x3x2x3");
   ([3; 3; 3; 1], VAbs "quqd1_3331", "# cquqd1Abs3x3x3x1");
   ([3; 3; 3; 2], VAbs "quqd1_3332", "# cquqd1Abs3x3x3x2");
   ([3; 3; 3; 3], VAbs "quqd1_3333", "# cquqd1Abs3x3x3x3")].
(* smeftsim.py:4691 *)
Definition B_FRBlock73 : list cardline :=
  [([1; 1; 1; 1], VAng "quqd1_1111", "# cquqd1Ph1x1x1x1");
   ([1; 1; 1; 2], VAng "quqd1_1112", "# cquqd1Ph1x1x1x2");
   ([1; 1; 1; 3], VAng "quqd1_1113", "# cquqd1Ph1x1x1x3");
   ([1; 1; 2; 1], VAng "quqd1_1121", "# cquqd1Ph1x1x2x1");
   ([1; 1; 2; 2], VAng "quqd1_1122", "# cquqd1Ph1x1x2x2");
   ([1; 1; 2; 3], VAng "quqd1_1123", "# cquqd1Ph1x1x2x3");
   ([1; 1; 3; 1], VAng "quqd1_1131", "# cquqd1Ph1x1x3x1");
   ([1; 1; 3; 2], VAng "quqd1_1132", "# cquqd1Ph1x1x3x2");
   ([1; 1; 3; 3], VAng "quqd1_1133", "# cquqd1Ph1x1x3x3");
   ([1; 2; 1; 1], VAng "quqd1_1211", "# cquqd1Ph1x2x1x1");
   ([1; 2; 1; 2], VAng "quqd1_1212", "# cquqd1Ph1x2x1x2");
   ([1; 2; 1; 3], VAng "quqd1_1213", "# cquqd1Ph1x2x1x3");
   ([1; 2; 2; 1], VAng "quqd1_1221", "# cquqd1Ph1x2x2x1");
   ([1; 2; 2; 2], VAng "quqd1_1222", "# cquqd1Ph1x2x2x2");
   ([1; 2; 2; 3], VAng "quqd1_1223", "# cquqd1Ph1x2x2x3");
   ([1; 2; 3; 1], VAng "quqd1_1231", "# cquqd1Ph1x2x3x1");
   ([1; 2; 3; 2], VAng "quqd1_1232", "# cquqd1Ph1x2x3x2");
   ([1; 2; 3; 3], VAng "quqd1_1233", "# cquqd1Ph1x2x3x3");
   ([1; 3; 1; 1], VAng "quqd1_1311", "# cquqd1Ph1x3x1x1");
   ([1; 3; 1; 2], VAng "quqd1_1312", "# cquqd1Ph1x3x1x2");
   ([1; 3; 1; 3], VAng "quqd1_1313", "# cquqd1Ph1x3x1x3");
   ([1; 3; 2; 1], VAng "quqd1_1321", "# cquqd1Ph1x3x2x1");
   ([1; 3; 2; 2], VAng "quqd1_1322", "# cquqd1Ph1x3x2x2");
   ([1; 3; 2; 3], VAng "quqd1_1323", "# cquqd1Ph1x3x2x3");
   ([1; 3; 3; 1], VAng "quqd1_1331", "# cquqd1Ph1x3x3x1");
   ([1; 3; 3; 2], VAng "quqd1_1332", "# cquqd1Ph1x3x3x2");
   ([1; 3; 3; 3], VAng "quqd1_1333", "# cquqd1Ph1x3x3x3");
   ([2; 1; 1; 1], VAng "quqd1_2111", "# cquqd1Ph2x1x1x1");
   ([2; 1; 1; 2], VAng "quqd1_2112", "# cquqd1Ph2x1x1x2");
   ([2; 1; 1; 3], VAng "quqd1_2113", "# cquqd1Ph2x1x1x3");
   ([2; 1; 2; 1], VAng "quqd1_2121", "# cquqd1Ph2x1x2x1");
   ([2; 1; 2; 2], VAng "quqd1_2122", "# cquqd1Ph2x1x2x2");
   ([2; 1; 2; 3], VAng "quqd1_2123", "# cquqd1Ph2x1x2x3");
   ([2; 1; 3; 1], VAng "quqd1_2131", "# cquqd1Ph2x1x3x1");
   ([2; 1; 3; 2], VAng "quqd1_2132", "# cquqd1Ph2x1x3x2");
   ([2; 1; 3; 3], VAng "quqd1_2133", "# cquqd1Ph2x1x3x3");
   ([2; 2; 1; 1], VAng "quqd1_2211", "# cquqd1Ph2x2x1x1");
   ([2; 2; 1; 2], VAng "quqd1_2212", "# cquqd1Ph2x2x1x2");
   ([2; 2; 1; 3], VAng "quqd1_2213", "# cquqd1Ph2x2x1x3");
   ([2; 2; 2; 1], VAng "quqd1_2221", "# cquqd1Ph2x2x2x1");
   ([2; 2; 2; 2], VAng "quqd1_2222", "# cquqd1Ph2x2x2x2");
   ([2; 2; 2; 3], VAng "quqd1_2223", "# cquqd1Ph2x2x2x3");
   ([2; 2; 3; 1], VAng "quqd1_2231", "# cquqd1Ph2x2x3x1");
   ([2; 2; 3; 2], VAng "quqd1_2232", "# cquqd1Ph2x2x3x2");
   ([2; 2; 3; 3], VAng "quqd1_2233", "# cquqd1Ph2x2x3x3");
   ([2; 3; 1; 1], VAng "quqd1_2311", "# cquqd1Ph2x3x1x1");
   ([2; 3; 1; 2], VAng "quqd1_2312", "# cquqd1Ph2x3x1x2");
   ([2; 3; 1; 3], VAng "quqd1_2313", "# cquqd1Ph2x3x1x3");
   ([2; 3; 2; 1], VAng "quqd1_2321", "# cquqd1Ph2x3x2x1");
   ([2; 3; 2; 2], VAng "quqd1_2322", "# cquqd1Ph2x3x2x2");
   ([2; 3; 2; 3], VAng "quqd1_2323", "# cquqd1Ph2x3x2x3");
   ([2; 3; 3; 1], VAng "quqd1_2331", "# cquqd1Ph2x3x3x1");
   ([2; 3; 3; 2], VAng "quqd1_2332", "# cquqd1Ph2x3x3x2");
   ([2; 3; 3; 3], VAng "quqd1_2333", "# cquqd1Ph2x3x3x3");
   ([3; 1; 1; 1], VAng "quqd1_3111", "# cquqd1Ph3x1x1x1");
   ([3; 1; 1; 2], VAng "quqd1_3112", "# cquqd1Ph3x1x1x2");
   ([3; 1; 1; 3], VAng "quqd1_3113", "# cquqd1Ph3x1x1x3");
   ([3; 1; 2; 1], VAng "quqd1_3121", "# cquqd1Ph3x1x2x1");
   ([3; 1; 2; 2], VAng "quqd1_3122", "# cquqd1Ph3x1x2x2");
   ([3; 1; 2; 3], VAng "quqd1_3123", "# cquqd1Ph3x1x2x3");
   ([3; 1; 3; 1], VAng "quqd1_3131", "# cquqd1Ph3x1x3x1");
   ([3; 1; 3; 2], VAng "quqd1_3132", "# cquqd1Ph3x1x3x2");
   ([3; 1; 3; 3], VAng "quqd1_3133", "# cquqd1Ph3x1x3x3");
   ([3; 2; 1; 1], VAng "quqd1_3211", "# cquqd1Ph3x2x1x1");
   ([3; 2; 1; 2], VAng "quqd1_3212", "# cquqd1Ph3x2x1x2");
   ([3; 2; 1; 3], VAng "quqd1_3213", "# cquqd1Ph3x2x1x3");
   ([3; 2; 2; 1], VAng "quqd1_3221", "# cquqd1Ph3x2x2x1");
   ([3; 2; 2; 2], VAng "quqd1_3222", "# cquqd1Ph3x2x2x2");
   ([3; 2; 2; 3], VAng "quqd1_3223", "# cquqd1Ph3x2x2x3");
   ([3; 2; 3; 1], VAng "quqd1_3231", "# cquqd1Ph3x2x3x1");
   ([3; 2; 3; 2], VAng "quqd1_3232", "# cquqd1Ph3x2x3x2");
   ([3; 2; 3; 3], VAng "quqd1_3233", "# cquqd1Ph3x2x3x3");
   ([3; 3; 1; 1], VAng "quqd1_3311", "# cquqd1Ph3x3x1x1");
   ([3; 3; 1; 2], VAng "quqd1_3312", "# cquqd1Ph3x3x1x2");
   ([3; 3; 1; 3], VAng "quqd1_3313", "# cquqd1Ph3x3x1x3");
   ([3; 3; 2; 1], VAng "quqd1_3321", "# cquqd1Ph3x3x2x1");
   ([3; 3; 2; 2], VAng "quqd1_3322", "# cquqd1Ph3x3x2x2");
   ([3; 3; 2; 3], VAng "quqd1_3323", "# cquqd1Ph3x3x2x3");
   ([3; 3; 3; 1], VAng "quqd1_3331", "# cquqd1Ph3x3x3x1");
   ([3; 3; 3; 2], VAng "quqd1_3332", "# cquqd1Ph3x3x3x2");
   ([3; 3; 3; 3], VAng "quqd1_3333", "# cquqd1Ph3x3x3x3")].
(* smeftsim.py:4775 *)
Definition B_FRBlock75 : list cardline :=
  [([1; 1; 1; 1], VAbs "quqd8_1111", "# cQUQD8Abs1x1x1x1");
   ([1; 1; 1; 2], VAbs "quqd8_1112", "# cQUQD8Abs1x1x1x2");
   ([1; 1; 1; 3], VAbs "quqd8_1113", "# cQUQD8Abs1x1x1x3");
   ([1; 1; 2; 1], VAbs "quqd8_1121", "# cQUQD8Abs1x1x2x1");
   ([1; 1; 2; 2], VAbs "quqd8_1122", "# cQUQD8Abs1x1x2x2");
   ([1; 1; 2; 3], VAbs "quqd8_1123", "# cQUQD8Abs1x1x2x3");
   ([1; 1; 3; 1], VAbs "quqd8_1131", "# cQUQD8Abs1x1x3x1");
   ([1; 1; 3; 2], VAbs "quqd8_1132", "# cQUQD8Abs1x1x3x2");
   ([1; 1; 3; 3], VAbs "quqd8_1133", "# cQUQD8Abs1x1x3x3");
   ([1; 2; 1; 1], VAbs "quqd8_1211", "# cQUQD8Abs1x2x1x1");
   ([1; 2; 1; 2], VAbs "quqd8_1212", "# cQUQD8Abs1x2x1x2");
   ([1; 2; 1; 3], VAbs "quqd8_1213", "# cQUQD8Abs1x2x1x3");
   ([1; 2; 2; 1], VAbs "quqd8_1221", "# cQUQD8Abs1x2x2x1");
   ([1; 2; 2; 2], VAbs "quqd8_1222", "# cQUQD8Abs1x2x2x2");
   ([1; 2; 2; 3], VAbs "quqd8_1223", "# cQUQD8Abs1x2x2x3");
   ([1; 2; 3; 1], VAbs "quqd8_1231", "# cQUQD8Abs1x2x3x1");
   ([1; 2; 3; 2], VAbs "quqd8_1232", "# cQUQD8Abs1x2x3x2");
   ([1; 2; 3; 3], VAbs "quqd8_1233", "# cQUQD8Abs1x2x3x3");
   ([1; 3; 1; 1], VAbs "quqd8_1311", "# cQUQD8Abs1x3x1x1");
   ([1; 3; 1; 2], VAbs "quqd8_1312", "# cQUQD8Abs1x3x1x2");
   ([1; 3; 1; 3], VAbs "quqd8_1313", "# cQUQD8Abs1x3x1x3");
   ([1; 3; 2; 1], VAbs "quqd8_1321", "# cQUQD8Abs1x3x2x1");
   ([1; 3; 2; 2], VAbs "quqd8_1322", "# cQUQD8Abs1x3x2x2");
   ([1; 3; 2; 3], VAbs "quqd8_1323", "# cQUQD8Abs1x3x2x3");
   ([1; 3; 3; 1], VAbs "quqd8_1331", "# cQUQD8Abs1x3x3x1");
   ([1; 3; 3; 2], VAbs "quqd8_1332", "# cQUQD8Abs1x3x3x2");
   ([1; 3; 3; 3], VAbs "quqd8_1333", "# cQUQD8Abs1x3x3x3");
   ([2; 1; 1; 1], VAbs "quqd8_2111", "# cQUQD8Abs2x1x1x1");
   ([2; 1; 1; 2], VAbs "quqd8_2112", "# cQUQD8Abs2x1x1x2");
   ([2; 1; 1; 3], VAbs "quqd8_2113", "# cQUQD8Abs2x1x1x3");
   ([2; 1; 2; 1], VAbs "quqd8_2121", "# cQUQD8Abs2x1x2x1");
   ([2; 1; 2; 2], VAbs "quqd8_2122", "# cQUQD8Abs2x1x2x2");
   ([2; 1; 2; 3], VAbs "quqd8_2123", "# cQUQD8Abs2x1x2x3");
   ([2; 1; 3; 1], VAbs "quqd8_2131", "# cQUQD8Abs2x1x3x1");
   ([2; 1; 3; 2], VAbs "quqd8_2132", "# cQUQD8Abs2x1x3x2");
   ([2; 1; 3; 3], VAbs "quqd8_2133", "# cQUQD8Abs2x1x3x3");
   ([2; 2; 1; 1], VAbs "quqd8_2211", "# cQUQD8Abs2x2x1x1");
   ([2; 2; 1; 2], VAbs "quqd8_2212", "# cQUQD8Abs2x2x1x2");
   ([2; 2; 1; 3], VAbs "quqd8_2213", "# cQUQD8Abs2x2x1x3");
   ([2; 2; 2; 1], VAbs "quqd8_2221", "# cQUQD8Abs2x2x2x1");
   ([2; 2; 2; 2], VAbs "quqd8_2222", "# cQUQD8Abs2x2x2x2");
   ([2; 2; 2; 3], VAbs "quqd8_2223", "# cQUQD8Abs2x2x2x3");
   ([2; 2; 3; 1], VAbs "quqd8_2231", "# cQUQD8Abs2x2x3x1");
   ([2; 2; 3; 2], VAbs "quqd8_2232", "# cQUQD8Abs2x2x3x2");
   ([2; 2; 3; 3], VAbs "quqd8_2233", "# cQUQD8Abs2x2x3x3");
   ([2; 3; 1; 1], VAbs "quqd8_2311", "# cQUQD8Abs2x3x1x1");
   ([2; 3; 1; 2], VAbs "quqd8_2312", "# cQUQD8Abs2x3x1x2");
   ([2; 3; 1; 3], VAbs "quqd8_2313", "# cQUQD8Abs2x3x1x3");
   ([2; 3; 2; 1], VAbs "quqd8_2321", "# cQUQD8Abs2x3x2x1");
   ([2; 3; 2; 2], VAbs "quqd8_2322", "# cQUQD8Abs2x3x2x2");
   ([2; 3; 2; 3], VAbs "quqd8_2323", "# cQUQD8Abs2x3x2x3");
   ([2; 3; 3; 1], VAbs "quqd8_2331", "# cQUQD8Abs2x3x3x1");
   ([2; 3; 3; 2], VAbs "quqd8_2332", "# cQUQD8Abs2x3x3x2");
   ([2; 3; 3; 3], VAbs "quqd8_2333", "# cQUQD8Abs2x3x3x3");
   ([3; 1; 1; 1], VAbs "quqd8_3111", "# cQUQD8Abs3x1x1x1");
   ([3; 1; 1; 2], VAbs "quqd8_3112", "# cQUQD8Abs3x1x1x2");
   ([3; 1; 1; 3], VAbs "quqd8_3113", "# cQUQD8Abs3x1x1x3");
   ([3; 1; 2; 1], VAbs "quqd8_3121", "# cQUQD8Abs3x1x2x1");
   ([3; 1; 2; 2], VAbs "quqd8_3122", "# cQUQD8Abs3x1x2x2");
   ([3; 1; 2; 3], VAbs "quqd8_3123", "# cQUQD8Abs3x1x2x3");
   ([3; 1; 3; 1], VAbs "quqd8_3131", "# cQUQD8Abs3x1x3x1");
   ([3; 1; 3; 2], VAbs "quqd8_3132", "# cQUQD8Abs3x1x3x2");
   ([3; 1; 3; 3], VAbs "quqd8_3133", "# cQUQD8Abs3x1x3x3");
   ([3; 2; 1; 1], VAbs "quqd8_3211", "# cQUQD8Abs3x2x1x1");
   ([3; 2; 1; 2], VAbs "quqd8_3212", "# cQUQD8Abs3x2x1x2");
   ([3; 2; 1; 3], VAbs "quqd8_3213", "# cQUQD8Abs3x2x1x3");
   ([3; 2; 2; 1], VAbs "quqd8_3221", "# cQUQD8Abs3x2x2x1");
   ([3; 2; 2; 2], VAbs "quqd8_3222", "# cQUQD8Abs3x2x2x2");
   ([3; 2; 2; 3], VAbs "quqd8_3223", "# cQUQD8Abs3x2x2x3");
   ([3; 2; 3; 1], VAbs "quqd8_3231", "# cQUQD8Abs3x2x3x1");
   ([3; 2; 3; 2], VAbs "quqd8_3232", "# cQUQD8Abs3x2x3x2");
   ([3; 2; 3; 3], VAbs "quqd8_3233", "# cQUQD8Abs3x2x3x3");
   ([3; 3; 1; 1], VAbs "quqd8_3311", "# cQUQD8Abs3x3x1x1");
   ([3; 3; 1; 2], VAbs "quqd8_3312", "# cQUQD8Abs3x3x1x2");
   ([3; 3; 1; 3], VAbs "quqd8_3313", "# cQUQD8Abs3x3x1x3");
   ([3; 3; 2; 1], VAbs "quqd8_3321", "# cQUQD8Abs3x3x2x1");
   ([3; 3; 2; 2], VAbs "quqd8_3322", "# cQUQD8Abs3x3x2x2");
   ([3; 3; 2; 3], VAbs "quqd8_3323", "# cQUQD8Abs3x3x2x3");
   ([3; 3; 3; 1], VAbs "quqd8_3331", "# cQUQD8Abs3x3x3x1");
   ([3; 3; 3; 2], VAbs "quqd8_3332", "# cQUQD8Abs3x3x3x2");
   ([3; 3; 3; 3], VAbs "quqd8_3333", "# cQUQD8Abs3x3x3x3")].
(* smeftsim.py:4859 *)
Definition B_FRBlock76 : list cardline :=
  [([1; 1; 1; 1], VAng "quqd8_1111", "# cQUQD8Ph1x1x1x1");
   ([1; 1; 1; 2], VAng "quqd8_1112", "# cQUQD8Ph1x1x1x2");
   ([1; 1; 1; 3], VAng "quqd8_1113", "# cQUQD8Ph1x1x1x3");
   ([1; 1; 2; 1], VAng "quqd8_1121", "# cQUQD8Ph1x1x2x1");
   ([1; 1; 2; 2], VAng "quqd8_1122", "# cQUQD8Ph1x1x2x2");
   ([1; 1; 2; 3], VAng "quqd8_1123", "# cQUQD8Ph1x1x2x3");
   ([1; 1; 3; 1], VAng "quqd8_1131", "# cQUQD8Ph1x1x3x1");
   ([1; 1; 3; 2], VAng "quqd8_1132", "# cQUQD8Ph1x1x3x2");
   ([1; 1; 3; 3], VAng "quqd8_1133", "# cQUQD8Ph1x1x3x3");
   ([1; 2; 1; 1], VAng "quqd8_1211", "# cQUQD8Ph1x2x1x1");
   ([1; 2; 1; 2], VAng "quqd8_1212", "# cQUQD8Ph1x2x1x2");
   ([1; 2; 1; 3], VAng "quqd8_1213", "# cQUQD8Ph1x2x1x3");
   ([1; 2; 2; 1], VAng "quqd8_1221", "# cQUQD8Ph1x2x2x1");
   ([1; 2; 2; 2], VAng "quqd8_1222", "# cQUQD8Ph1x2x2x2");
   ([1; 2; 2; 3], VAng "quqd8_1223", "# cQUQD8Ph1x2x2x3");
   ([1; 2; 3; 1], VAng "quqd8_1231", "# cQUQD8Ph1x2x3x1");
   ([1; 2; 3; 2], VAng "quqd8_1232", "# cQUQD8Ph1x2x3x2");
   ([1; 2; 3; 3], VAng "quqd8_1233", "# cQUQD8Ph1x2x3x3");
   ([1; 3; 1; 1], VAng "quqd8_1311", "# cQUQD8Ph1x3x1x1");
   ([1; 3; 1; 2], VAng "quqd8_1312", "# cQUQD8Ph1x3x1x2");
   ([1; 3; 1; 3], VAng "quqd8_1313", "# cQUQD8Ph1x3x1x3");
   ([1; 3; 2; 1], VAng "quqd8_1321", "# cQUQD8Ph1x3x2x1");
   ([1; 3; 2; 2], VAng "quqd8_1322", "# cQUQD8Ph1x3x2x2");
   ([1; 3; 2; 3], VAng "quqd8_1323", "# cQUQD8Ph1x3x2x3");
   ([1; 3; 3; 1], VAng "quqd8_1331", "# cQUQD8Ph1x3x3x1");
   ([1; 3; 3; 2], VAng "quqd8_1332", "# cQUQD8Ph1x3x3x2");
   ([1; 3; 3; 3], VAng "quqd8_1333", "# cQUQD8Ph1x3x3x3");
   ([2; 1; 1; 1], VAng "quqd8_2111", "# cQUQD8Ph2x1x1x1");
   ([2; 1; 1; 2], VAng "quqd8_2112", "# cQUQD8Ph2x1x1x2");
   ([2; 1; 1; 3], VAng "quqd8_2113", "# cQUQD8Ph2x1x1x3");
   ([2; 1; 2; 1], VAng "quqd8_2121", "# cQUQD8Ph2x1x2x1");
   ([2; 1; 2; 2], VAng "quqd8_2122", "# cQUQD8Ph2x1x2x2");
   ([2; 1; 2; 3], VAng "quqd8_2123", "# cQUQD8Ph2x1x2x3");
   ([2; 1; 3; 1], VAng "quqd8_2131", "# cQUQD8Ph2x1x3x1");
   ([2; 1; 3; 2], VAng "quqd8_2132", "# cQUQD8Ph2x1x3x2");
   ([2; 1; 3; 3], VAng "quqd8_2133", "# cQUQD8Ph2x1x3x3");
   ([2; 2; 1; 1], VAng "quqd8_2211", "# cQUQD8Ph2x2x1x1");
   ([2; 2; 1; 2], VAng "quqd8_2212", "# cQUQD8Ph2x2x1x2");
   ([2; 2; 1; 3], VAng "quqd8_2213", "# cQUQD8Ph2x2x1x3");
   ([2; 2; 2; 1], VAng "quqd8_2221", "# cQUQD8Ph2x2x2x1");
   ([2; 2; 2; 2], VAng "quqd8_2222", "# cQUQD8Ph2x2x2x2");
   ([2; 2; 2; 3], VAng "quqd8_2223", "# cQUQD8Ph2x2x2x3");
   ([2; 2; 3; 1], VAng "quqd8_2231", "# cQUQD8Ph2x2x3x1");
   ([2; 2; 3; 2], VAng "quqd8_2232", "# cQUQD8Ph2x2x3x2");
   ([2; 2; 3; 3], VAng "quqd8_2233", "# cQUQD8Ph2x2x3x3");
   ([2; 3; 1; 1], VAng "quqd8_2311", "# cQUQD8Ph2x3x1x1");
   ([2; 3; 1; 2], VAng "quqd8_2312", "# cQUQD8Ph2x3x1x2");
   ([2; 3; 1; 3], VAng "quqd8_2313", "# cQUQD8Ph2x3x1x3");
   ([2; 3; 2; 1], VAng "quqd8_2321", "# cQUQD8Ph2x3x2x1");
   ([2; 3; 2; 2], VAng "quqd8_2322", "# cQUQD8Ph2x3x2x2");
   ([2; 3; 2; 3], VAng "quqd8_2323", "# cQUQD8Ph2x3x2x3");
   ([2; 3; 3; 1], VAng "quqd8_2331", "# cQUQD8Ph2x3x3x1");
   ([2; 3; 3; 2], VAng "quqd8_2332", "# cQUQD8Ph2x3x3x2");
   ([2; 3; 3; 3], VAng "quqd8_2333", "# cQUQD8Ph2x3x3x3");
   ([3; 1; 1; 1], VAng "quqd8_3111", "# cQUQD8Ph3x1x1x1");
   ([3; 1; 1; 2], VAng "quqd8_3112", "# cQUQD8Ph3x1x1x2");
   ([3; 1; 1; 3], VAng "quqd8_3113", "# cQUQD8Ph3x1x1x3");
   ([3; 1; 2; 1], VAng "quqd8_3121", "# cQUQD8Ph3x1x2x1");
   ([3; 1; 2; 2], VAng "quqd8_3122", "# cQUQD8Ph3x1x2x2");
   ([3; 1; 2; 3], VAng "quqd8_3123", "# cQUQD8Ph3x1x2x3");
   ([3; 1; 3; 1], VAng "quqd8_3131", "# cQUQD8Ph3x1x3x1");
   ([3; 1; 3; 2], VAng "quqd8_3132", "# cQUQD8Ph3x1x3x2");
   ([3; 1; 3; 3], VAng "quqd8_3133", "# cQUQD8Ph3x1x3x3");
   ([3; 2; 1; 1], VAng "quqd8_3211", "# cQUQD8Ph3x2x1x1");
   ([3; 2; 1; 2], VAng "quqd8_3212", "# cQUQD8Ph3x2x1x2");
   ([3; 2; 1; 3], VAng "quqd8_3213", "# cQUQD8Ph3x2x1x3");
   ([3; 2; 2; 1], VAng "quqd8_3221", "# cQUQD8Ph3x2x2x1");
   ([3; 2; 2; 2], VAng "quqd8_3222", "# cQUQD8Ph3x2x2x2");
   ([3; 2; 2; 3], VAng "quqd8_3223", "# cQUQD8Ph3x2x2x3");
   ([3; 2; 3; 1], VAng "quqd8_3231", "# cQUQD8Ph3x2x3x1");
   ([3; 2; 3; 2], VAng "quqd8_3232", "# cQUQD8Ph3x2x3x2");
   ([3; 2; 3; 3], VAng "quqd8_3233", "# cQUQD8Ph3x2x3x3");
   ([3; 3; 1; 1], VAng "quqd8_3311", "# cQUQD8Ph3x3x1x1");
   ([3; 3; 1; 2], VAng "quqd8_3312", "# cQUQD8Ph3x3x1x2");
   ([3; 3; 1; 3], VAng "quqd8_3313", "# cQUQD8Ph3x3x1x3");
   ([3; 3; 2; 1], VAng "quqd8_3321", "# cQUQD8Ph3x3x2x1");
   ([3; 3; 2; 2], VAng "quqd8_3322", "# cQUQD8Ph3x3x2x2");
   ([3; 3; 2; 3], VAng "quqd8_3323", "# cQUQD8Ph3x3x2x3");
   ([3; 3; 3; 1], VAng "quqd8_3331", "# cQUQD8Ph3x3x3x1");
   ([3; 3; 3; 2], VAng "quqd8_3332", "# cQUQD8Ph3x3x3x2");
   ([3; 3; 3; 3], VAng "quqd8_3333", "# cQUQD8Ph3x3x3x3")].
(* smeftsim.py:4943 *)
Definition B_FRBlock78 : list cardline :=
  [([1; 1; 1; 1], VAbs "lequ1_1111", "# clequ1Abs1x1x1x1");
   ([1; 1; 1; 2], VAbs "lequ1_1112", "# clequ1Abs1x1x1x2");
   ([1; 1; 1; 3], VAbs "lequ1_1113", "# clequ1Abs1x1x1x3");
   ([1; 1; 2; 1], VAbs "lequ1_1121", "# clequ1Abs1x1x2x1");
   ([1; 1; 2; 2], VAbs "lequ1_1122", "# clequ1Abs1x1x2x2");
   ([1; 1; 2; 3], VAbs "lequ1_1123", "# clequ1Abs1x1x2x3");
   ([1; 1; 3; 1], VAbs "lequ1_1131", "# clequ1Abs1x1x3x1");
   ([1; 1; 3; 2], VAbs "lequ1_1132", "# clequ1Abs1x1x3x2");
   ([1; 1; 3; 3], VAbs "lequ1_1133", "# clequ1Abs1x1x3x3");
   ([1; 2; 1; 1], VAbs "lequ1_1211", "# clequ1Abs1x2x1x1");
   ([1; 2; 1; 2], VAbs "lequ1_1212", "# clequ1Abs1x2x1x2");
   ([1; 2; 1; 3], VAbs "lequ1_1213", "# clequ1Abs1x2x1x3");
   ([1; 2; 2; 1], VAbs "lequ1_1221", "# clequ1Abs1x2x2x1");
   ([1; 2; 2; 2], VAbs "lequ1_1222", "# clequ1Abs1x2x2x2");
   ([1; 2; 2; 3], VAbs "lequ1_1223", "# clequ1Abs1x2x2x3");
   ([1; 2; 3; 1], VAbs "lequ1_1231", "# clequ1Abs1x2x3x1");
   ([1; 2; 3; 2], VAbs "lequ1_1232", "# clequ1Abs1x2x3x2");
   ([1; 2; 3; 3], VAbs "lequ1_1233", "# clequ1Abs1x2x3x3");
   ([1; 3; 1; 1], VAbs "lequ1_1311", "# clequ1Abs1x3x1x1");
   ([1; 3; 1; 2], VAbs "lequ1_1312", "# clequ1Abs1x3x1x2");
   ([1; 3; 1; 3], VAbs "lequ1_1313", "# clequ1Abs1x3x1x3");
   ([1; 3; 2; 1], VAbs "lequ1_1321", "# clequ1Abs1x3x2x1");
   ([1; 3; 2; 2], VAbs "lequ1_1322", "# clequ1Abs1x3x2x2");
   ([1; 3; 2; 3], VAbs "lequ1_1323", "# clequ1Abs1x3x2x3");
   ([1; 3; 3; 1], VAbs "lequ1_1331", "# clequ1Abs1x3x3x1");
   ([1; 3; 3; 2], VAbs "lequ1_1332", "# clequ1Abs1x3x3x2");
   ([1; 3; 3; 3], VAbs "lequ1_1333", "# clequ1Abs1x3x3x3");
   ([2; 1; 1; 1], VAbs "lequ1_2111", "# clequ1Abs2x1x1x1");
   ([2; 1; 1; 2], VAbs "lequ1_2112", "# clequ1Abs2x1x1x2");
   ([2; 1; 1; 3], VAbs "lequ1_2113", "# clequ1Abs2x1x1x3");
   ([2; 1; 2; 1], VAbs "lequ1_2121", "# clequ1Abs2x1x2x1");
   ([2; 1; 2; 2], VAbs "lequ1_2122", "# clequ1Abs2x1x2x2");
   ([2; 1; 2; 3], VAbs "lequ1_2123", "# clequ1Abs2x1x2x3");
   ([2; 1; 3; 1], VAbs "lequ1_2131", "# clequ1Abs2x1x3x1");
   ([2; 1; 3; 2], VAbs "lequ1_2132", "# clequ1Abs2x1x3x2");
   ([2; 1; 3; 3], VAbs "lequ1_2133", "# clequ1Abs2x1x3x3");
   ([2; 2; 1; 1], VAbs "lequ1_2211", "# clequ1Abs2x2x1x1");
   ([2; 2; 1; 2], VAbs "lequ1_2212", "# clequ1Abs2x2x1x2");
   ([2; 2; 1; 3], VAbs "lequ1_2213", "# clequ1Abs2x2x1x3");
   ([2; 2; 2; 1], VAbs "lequ1_2221", "# clequ1Abs2x2x2x1");
   ([2; 2; 2; 2], VAbs "lequ1_2222", "# clequ1Abs2x2x2x2");
   ([2; 2; 2; 3], VAbs "lequ1_2223", "# clequ1Abs2x2x2x3");
   ([2; 2; 3; 1], VAbs "lequ1_2231", "# clequ1Abs2x2x3x1");
   ([2; 2; 3; 2], VAbs "lequ1_2232", "# clequ1Abs2x2x3x2");
   ([2; 2; 3; 3], VAbs "lequ1_2233", "# clequ1Abs2x2x3x3");
   ([2; 3; 1; 1], VAbs "lequ1_2311", "# clequ1Abs2x3x1x1");
   ([2; 3; 1; 2], VAbs "lequ1_2312", "# clequ1Abs2x3x1x2");
   ([2; 3; 1; 3], VAbs "lequ1_2313", "# clequ1Abs2x3x1x3");
   ([2; 3; 2; 1], VAbs "lequ1_2321", "# clequ1Abs2x3x2x1");
   ([2; 3; 2; 2], VAbs "lequ1_2322", "# clequ1Abs2x3x2x2");
   ([2; 3; 2; 3], VAbs "lequ1_2323", "# clequ1Abs2x3x2x3");
   ([2; 3; 3; 1], VAbs "lequ1_2331", "# clequ1Abs2x3x3x1");
   ([2; 3; 3; 2], VAbs "lequ1_2332", "# clequ1Abs2x3x3x2");
   ([2; 3; 3; 3], VAbs "lequ1_2333", "# clequ1Abs2x3x3x3");
   ([3; 1; 1; 1], VAbs "lequ1_3111", "# clequ1Abs3x1x1x1");
   ([3; 1; 1; 2], VAbs "lequ1_3112", "# clequ1Abs3x1x1x2");
   ([3; 1; 1; 3], VAbs "lequ1_3113", "# clequ1Abs3x1x1x3");
   ([3; 1; 2; 1], VAbs "lequ1_3121", "# clequ1Abs3x1x2x1");
   ([3; 1; 2; 2], VAbs "lequ1_3122", "# clequ1Abs3x1x2x2");
   ([3; 1; 2; 3], VAbs "lequ1_3123", "# clequ1Abs3x1x2x3");
   ([3; 1; 3; 1], VAbs "lequ1_3131", "# clequ1Abs3x1x3x1");
   ([3; 1; 3; 2], VAbs "lequ1_3132", "# clequ1Abs3x1x3x2");
   ([3; 1; 3; 3], VAbs "lequ1_3133", "# clequ1Abs3x1x3x3");
   ([3; 2; 1; 1], VAbs "lequ1_3211", "# clequ1Abs3x2x1x1");
   ([3; 2; 1; 2], VAbs "lequ1_3212", "# clequ1Abs3x2x1x2");
   ([3; 2; 1; 3], VAbs "lequ1_3213", "# clequ1Abs3x2x1x3");
   ([3; 2; 2; 1], VAbs "lequ1_3221", "# clequ1Abs3x2x2x1");
   ([3; 2; 2; 2], VAbs "lequ1_3222", "# clequ1Abs3x2x2x2");
   ([3; 2; 2; 3], VAbs "lequ1_3223", "# clequ1Abs3x2x2x3");
   ([3; 2; 3; 1], VAbs "lequ1_3231", "# clequ1Abs3x2x3x1");
   ([3; 2; 3; 2], VAbs "lequ1_3232", "# clequ1Abs3x2x3x2");
   ([3; 2; 3; 3], VAbs "lequ1_3233", "# clequ1Abs3x2x3x3");
   ([3; 3; 1; 1], VAbs "lequ1_3311", "# clequ1Abs3x3x1x1");
   ([3; 3; 1; 2], VAbs "lequ1_3312", "# clequ1Abs3x3x1x2");
   ([3; 3; 1; 3], VAbs "lequ1_3313", "# clequ1Abs3x3x1x3");
   ([3; 3; 2; 1], VAbs "lequ1_3321", "# clequ1Abs3x3x2x1");
   ([3; 3; 2; 2], VAbs "lequ1_3322", "# clequ1Abs3x3x2x2");
   ([3; 3; 2; 3], VAbs "lequ1_3323", "# clequ1Abs3x3x2x3");
   ([3; 3; 3; 1], VAbs "lequ1_3331", "# clequ1Abs3x3x3x1");
   ([3; 3; 3; 2], VAbs "lequ1_3332", "# clequ1Abs3x3x3x2");
   ([3; 3; 3; 3], VAbs "lequ1_3333", "# clequ1Abs3x3x3x3")].
(* smeftsim.py:5027 *)
Definition B_FRBlock79 : list cardline :=
  [([1; 1; 1; 1], VAng "lequ1_1111", "# clequ1Ph1x1x1x1");
   ([1; 1; 1; 2], VAng "lequ1_1112", "# clequ1Ph1x1x1x2");
   ([1; 1; 1; 3], VAng "lequ1_1113", "# clequ1Ph1x1x1x3");
   ([1; 1; 2; 1], VAng "lequ1_1121", "# clequ1Ph1x1x2x1");
   ([1; 1; 2; 2], VAng "lequ1_1122", "# clequ1Ph1x1x2x2");
   ([1; 1; 2; 3], VAng "lequ1_1123", "# clequ1Ph1x1x2x3");
   ([1; 1; 3; 1], VAng "lequ1_1131", "# clequ1Ph1x1x3x1");
   ([1; 1; 3; 2], VAng "lequ1_1132", "# clequ1Ph1x1x3x2");
   ([1; 1; 3; 3], VAng "lequ1_1133", "# clequ1Ph1x1x3x3");
   ([1; 2; 1; 1], VAng "lequ1_1211", "# clequ1Ph1x2x1x1");
   ([1; 2; 1; 2], VAng "lequ1_1212", "# clequ1Ph1x2x1x2");
   ([1; 2; 1; 3], VAng "lequ1_1213", "# clequ1Ph1x2x1x3");
   ([1; 2; 2; 1], VAng "lequ1_1221", "# clequ1Ph1x2x2x1");
   ([1; 2; 2; 2], VAng "lequ1_1222", "# clequ1Ph1x2x2x2");
   ([1; 2; 2; 3], VAng "lequ1_1223", "# clequ1Ph1x2x2x3");
   ([1; 2; 3; 1], VAng "lequ1_1231", "# clequ1Ph1x2x3x1");
   ([1; 2; 3; 2], VAng "lequ1_1232", "# clequ1Ph1x2x3x2");
   ([1; 2; 3; 3], VAng "lequ1_1233", "# clequ1Ph1x2x3x3");
   ([1; 3; 1; 1], VAng "lequ1_1311", "# clequ1Ph1x3x1x1");
   ([1; 3; 1; 2], VAng "lequ1_1312", "# clequ1Ph1x3x1x2");
   ([1; 3; 1; 3], VAng "lequ1_1313", "# clequ1Ph1x3x1x3");
   ([1; 3; 2; 1], VAng "lequ1_1321", "# clequ1Ph1x3x2x1");
   ([1; 3; 2; 2], VAng "lequ1_1322", "# clequ1Ph1x3x2x2");
   ([1; 3; 2; 3], VAng "lequ1_1323", "# clequ1Ph1x3x2x3");
   ([1; 3; 3; 1], VAng "lequ1_1331", "# clequ1Ph1x3x3x1");
   ([1; 3; 3; 2], VAng "lequ1_1332", "# clequ1Ph1x3x3x2");
   ([1; 3; 3; 3], VAng "lequ1_1333", "# clequ1Ph1x3x3x3");
   ([2; 1; 1; 1], VAng "lequ1_2111", "# clequ1Ph2x1x1x1");
   ([2; 1; 1; 2], VAng "lequ1_2112", "# clequ1Ph2x1x1x2");
   ([2; 1; 1; 3], VAng "lequ1_2113", "# clequ1Ph2x1x1x3");
   ([2; 1; 2; 1], VAng "lequ1_2121", "# clequ1Ph2x1x2x1");
   ([2; 1; 2; 2], VAng "lequ1_2122", "# clequ1Ph2x1x2x2");
   ([2; 1; 2; 3], VAng "lequ1_2123", "# clequ1Ph2x1x2x3");
   ([2; 1; 3; 1], VAng "lequ1_2131", "# clequ1Ph2x1x3x1");
   ([2; 1; 3; 2], VAng "lequ1_2132", "# clequ1Ph2x1x3x2");
   ([2; 1; 3; 3], VAng "lequ1_2133", "# clequ1Ph2x1x3x3");
   ([2; 2; 1; 1], VAng "lequ1_2211", "# clequ1Ph2x2x1x1");
   ([2; 2; 1; 2], VAng "lequ1_2212", "# clequ1Ph2x2x1x2");
   ([2; 2; 1; 3], VAng "lequ1_2213", "# clequ1Ph2x2x1x3");
   ([2; 2; 2; 1], VAng "lequ1_2221", "# clequ1Ph2x2x2x1");
   ([2; 2; 2; 2], VAng "lequ1_2222", "# clequ1Ph2x2x2x2");
   ([2; 2; 2; 3], VAng "lequ1_2223", "# clequ1Ph2x2x2x3");
   ([2; 2; 3; 1], VAng "lequ1_2231", "# clequ1Ph2x2x3x1");
   ([2; 2; 3; 2], VAng "lequ1_2232", "# clequ1Ph2x2x3x2");
   ([2; 2; 3; 3], VAng "lequ1_2233", "# clequ1Ph2x2x3x3");
   ([2; 3; 1; 1], VAng "lequ1_2311", "# clequ1Ph2x3x1x1");
   ([2; 3; 1; 2], VAng "lequ1_2312", "# clequ1Ph2x3x1x2");
   ([2; 3; 1; 3], VAng "lequ1_2313", "# clequ1Ph2x3x1x3");
   ([2; 3; 2; 1], VAng "lequ1_2321", "# clequ1Ph2x3x2x1");
   ([2; 3; 2; 2], VAng "lequ1_2322", "# clequ1Ph2x3x2x2");
   ([2; 3; 2; 3], VAng "lequ1_2323", "# clequ1Ph2x3x2x3");
   ([2; 3; 3; 1], VAng "lequ1_2331", "# clequ1Ph2x3x3x1");
   ([2; 3; 3; 2], VAng "lequ1_2332", "# clequ1Ph2x3x3x2");
   ([2; 3; 3; 3], VAng "lequ1_2333", "# clequ1Ph2x3x3x3");
   ([3; 1; 1; 1], VAng "lequ1_3111", "# clequ1Ph3x1x1x1");
   ([3; 1; 1; 2], VAng "lequ1_3112", "# clequ1Ph3x1x1x2");
   ([3; 1; 1; 3], VAng "lequ1_3113", "# clequ1Ph3x1x1x3");
   ([3; 1; 2; 1], VAng "lequ1_3121", "# clequ1Ph3x1x2x1");
   ([3; 1; 2; 2], VAng "lequ1_3122", "# clequ1Ph3x1x2x2");
   ([3; 1; 2; 3], VAng "lequ1_3123", "# clequ1Ph3x1x2x3");
   ([3; 1; 3; 1], VAng "lequ1_3131", "# clequ1Ph3x1x3x1");
   ([3; 1; 3; 2], VAng "lequ1_3132", "# clequ1Ph3x1x3x2");
   ([3; 1; 3; 3], VAng "lequ1_3133", "# clequ1Ph3x1x3x3");
   ([3; 2; 1; 1], VAng "lequ1_3211", "# clequ1Ph3x2x1x1");
   ([3; 2; 1; 2], VAng "lequ1_3212", "# clequ1Ph3x2x1x2");
   ([3; 2; 1; 3], VAng "lequ1_3213", "# clequ1Ph3x2x1x3");
   ([3; 2; 2; 1], VAng "lequ1_3221", "# clequ1Ph3x2x2x1");
   ([3; 2; 2; 2], VAng "lequ1_3222", "# clequ1Ph3x2x2x2");
   ([3; 2; 2; 3], VAng "lequ1_3223", "# clequ1Ph3x2x2x3");
   ([3; 2; 3; 1], VAng "lequ1_3231", "# clequ1Ph3x2x3x1");
   ([3; 2; 3; 2], VAng "lequ1_3232", "# clequ1Ph3x2x3x2");
   ([3; 2; 3; 3], VAng "lequ1_3233", "# clequ1Ph3x2x3x3");
   ([3; 3; 1; 1], VAng "lequ1_3311", "# clequ1Ph3x3x1x1");
   ([3; 3; 1; 2], VAng "lequ1_3312", "# clequ1Ph3x3x1x2");
   ([3; 3; 1; 3], VAng "lequ1_3313", "# clequ1Ph3x3x1x3");
   ([3; 3; 2; 1], VAng "lequ1_3321", "# clequ1Ph3x3x2x1");
   ([3; 3; 2; 2], VAng "lequ1_3322", "# clequ1Ph3x3x2x2");
   ([3; 3; 2; 3], VAng "lequ1_3323", "# clequ1Ph3x3x2x3");
   ([3; 3; 3; 1], VAng "lequ1_3331", "# clequ1Ph3x3x3x1");
   ([3; 3; 3; 2], VAng "lequ1_3332", "# clequ1Ph3x3x3x2");
   ([3; 3; 3; 3], VAng "lequ1_3333", "# clequ1Ph3x3x3x3")].
(* smeftsim.py:5111 *)
Definition B_FRBlock8 : list cardline :=
  [([1; 1], VAbs "dphi_11", "# cdHAbs1x1");
   ([1; 2], VAbs "dphi_12", "# cdHAbs1x2");
   ([1; 3], VAbs "dphi_13", "# cdHAbs1x3");
   ([2; 1], VAbs "dphi_21", "# cdHAbs2x1");
   ([2; 2], VAbs "dphi_22", "# cdHAbs2x2");
   ([2; 3], VAbs "dphi_23", "# cdHAbs2x3");
   ([3; 1], VAbs "dphi_31", "# cdHAbs3x1");
   ([3; 2], VAbs "dphi_32", "# cdHAbs3x2");
   ([3; 3], VAbs "dphi_33", "# cdHAbs3x3")].
(* smeftsim.py:5123 *)
Definition B_FRBlock81 : list cardline :=
  [([1; 1; 1; 1], VAbs "lequ3_1111", "# cLeQu3Abs1x1x1x1");
   ([1; 1; 1; 2], VAbs "lequ3_1112", "# cLeQu3Abs1x1x1x2");
   ([1; 1; 1; 3], VAbs "lequ3_1113", "# cLeQu3Abs1x1x1x3");
   ([1; 1; 2; 1], VAbs "lequ3_1121", "# cLeQu3Abs1x1x2x1");
   ([1; 1; 2; 2], VAbs "lequ3_1122", "# cLeQu3Abs1x1x2x2");
   ([1; 1; 2; 3], VAbs "lequ3_1123", "# cLeQu3Abs1x1x2x3");
   ([1; 1; 3; 1], VAbs "lequ3_1131", "# cLeQu3Abs1x1x3x1");
   ([1; 1; 3; 2], VAbs "lequ3_1132", "# cLeQu3Abs1x1x3x2");
   ([1; 1; 3; 3], VAbs "lequ3_1133", "# cLeQu3Abs1x1x3x3");
   ([1; 2; 1; 1], VAbs "lequ3_1211", "# cLeQu3Abs1x2x1x1");
   ([1; 2; 1; 2], VAbs "lequ3_1212", "# cLeQu3Abs1x2x1x2");
   ([1; 2; 1; 3], VAbs "lequ3_1213", "# cLeQu3Abs1x2x1x3");
   ([1; 2; 2; 1], VAbs "lequ3_1221", "# cLeQu3Abs1x2x2x1");
   ([1; 2; 2; 2], VAbs "lequ3_1222", "# cLeQu3Abs1x2x2x2");
   ([1; 2; 2; 3], VAbs "lequ3_1223", "# cLeQu3Abs1x2x2x3");
   ([1; 2; 3; 1], VAbs "lequ3_1231", "# cLeQu3Abs1x2x3x1");
   ([1; 2; 3; 2], VAbs "lequ3_1232", "# cLeQu3Abs1x2x3x2");
   ([1; 2; 3; 3], VAbs "lequ3_1233", "# cLeQu3Abs1x2x3x3");
   ([1; 3; 1; 1], VAbs "lequ3_1311", "# cLeQu3Abs1x3x1x1");
   ([1; 3; 1; 2], VAbs "lequ3_1312", "# cLeQu3Abs1x3x1x2");
   ([1; 3; 1; 3], VAbs "lequ3_1313", "# cLeQu3Abs1x3x1x3");
   ([1; 3; 2; 1], VAbs "lequ3_1321", "# cLeQu3Abs1x3x2x1");
   ([1; 3; 2; 2], VAbs "lequ3_1322", "# cLeQu3Abs1x3x2x2");
   ([1; 3; 2; 3], VAbs "lequ3_1323", "# cLeQu3Abs1x3x2x3");
   ([1; 3; 3; 1], VAbs "lequ3_1331", "# cLeQu3Abs1x3x3x1");
   ([1; 3; 3; 2], VAbs "lequ3_1332", "# cLeQu3Abs1x3x3x2");
   ([1; 3; 3; 3], VAbs "lequ3_1333", "# cLeQu3Abs1x3x3x3");
   ([2; 1; 1; 1], VAbs "lequ3_2111", "# cLeQu3Abs2x1x1x1");
   ([2; 1; 1; 2], VAbs "lequ3_2112", "# cLeQu3Abs2x1x1x2");
   ([2; 1; 1; 3], VAbs "lequ3_2113", "# cLeQu3Abs2x1x1x3");
   ([2; 1; 2; 1], VAbs "lequ3_2121", "# cLeQu3Abs2x1x2x1");
   ([2; 1; 2; 2], VAbs "lequ3_2122", "# cLeQu3Abs2x1x2x2");
   ([2; 1; 2; 3], VAbs "lequ3_2123", "# cLeQu3Abs2x1x2x3");
   ([2; 1; 3; 1], VAbs "lequ3_2131", "# cLeQu3Abs2x1x3x1");
   ([2; 1; 3; 2], VAbs "lequ3_2132", "# cLeQu3Abs2x1x3x2");
   ([2; 1; 3; 3], VAbs "lequ3_2133", "# cLeQu3Abs2x1x3x3");
   ([2; 2; 1; 1], VAbs "lequ3_2211", "# cLeQu3Abs2x2x1x1");
   ([2; 2; 1; 2], VAbs "lequ3_2212", "# cLeQu3Abs2x2x1x2");
   ([2; 2; 1; 3], VAbs "lequ3_2213", "# cLeQu3Abs2x2x1x3");
   ([2; 2; 2; 1], VAbs "lequ3_2221", "# cLeQu3Abs2x2x2x1");
   ([2; 2; 2; 2], VAbs "lequ3_2222", "# cLeQu3Abs2x2x2x2");
   ([2; 2; 2; 3], VAbs "lequ3_2223", "# cLeQu3Abs2x2x2x3");
   ([2; 2; 3; 1], VAbs "lequ3_2231", "# cLeQu3Abs2x2x3x1");
   ([2; 2; 3; 2], VAbs "lequ3_2232", "# cLeQu3Abs2x2x3x2");
   ([2; 2; 3; 3], VAbs "lequ3_2233", "# cLeQu3Abs2x2x3x3");
   ([2; 3; 1; 1], VAbs "lequ3_2311", "# cLeQu3Abs2x3x1x1");
   ([2; 3; 1; 2], VAbs "lequ3_2312", "# cLeQu3Abs2x3x1x2");
   ([2; 3; 1; 3], VAbs "lequ3_2313", "# cLeQu3Abs2x3x1x3");
   ([2; 3; 2; 1], VAbs "lequ3_2321", "# cLeQu3Abs2x3x2x1");
   ([2; 3; 2; 2], VAbs "lequ3_2322", "# cLeQu3Abs2x3x2x2");
   ([2; 3; 2; 3], VAbs "lequ3_2323", "# cLeQu3Abs2x3x2x3");
   ([2; 3; 3; 1], VAbs "lequ3_2331", "# cLeQu3Abs2x3x3x1");
   ([2; 3; 3; 2], VAbs "lequ3_2332", "# cLeQu3Abs2x3x3x2");
   ([2; 3; 3; 3], VAbs "lequ3_2333", "# cLeQu3Abs2x3x3x3");
   ([3; 1; 1; 1], VAbs "lequ3_3111", "# cLeQu3Abs3x1x1x1");
   ([3; 1; 1; 2], VAbs "lequ3_3112", "# cLeQu3Abs3x1x1x2");
   ([3; 1; 1; 3], VAbs "lequ3_3113", "# cLeQu3Abs3x1x1x3");
   ([3; 1; 2; 1], VAbs "lequ3_3121", "# cLeQu3Abs3x1x2x1");
   ([3; 1; 2; 2], VAbs "lequ3_3122", "# cLeQu3Abs3x1x2x2");
   ([3; 1; 2; 3], VAbs "lequ3_3123", "# cLeQu3Abs3x1x2x3");
   ([3; 1; 3; 1], VAbs "lequ3_3131", "# cLeQu3Abs3x1x3x1");
   ([3; 1; 3; 2], VAbs "lequ3_3132", "# cLeQu3Abs3x1x3x2");
   ([3; 1; 3; 3], VAbs "lequ3_3133", "# cLeQu3Abs3x1x3x3");
   ([3; 2; 1; 1], VAbs "lequ3_3211", "# cLeQu3Abs3x2x1x1");
   ([3; 2; 1; 2], VAbs "lequ3_3212", "# cLeQu3Abs3x2x1x2");
   ([3; 2; 1; 3], VAbs "lequ3_3213", "# cLeQu3Abs3x2x1x3");
   ([3; 2; 2; 1], VAbs "lequ3_3221", "# cLeQu3Abs3x2x2x1");
   ([3; 2; 2; 2], VAbs "lequ3_3222", "# cLeQu3Abs3x2x2x2");
   ([3; 2; 2; 3], VAbs "lequ3_3223", "# cLeQu3Abs3x2x2x3");
   ([3; 2; 3; 1], VAbs "lequ3_3231", "# cLeQu3Abs3x2x3x1");
   ([3; 2; 3; 2], VAbs "lequ3_3232", "# cLeQu3Abs3x2x3x2");
   ([3; 2; 3; 3], VAbs "lequ3_3233", "# cLeQu3Abs3x2x3x3");
   ([3; 3; 1; 1], VAbs "lequ3_3311", "# cLeQu3Abs3x3x1x1");
   ([3; 3; 1; 2], VAbs "lequ3_3312", "# cLeQu3Abs3x3x1x2");
   ([3; 3; 1; 3], VAbs "lequ3_3313", "# cLeQu3Abs3x3x1x3");
   ([3; 3; 2; 1], VAbs "lequ3_3321", "# cLeQu3Abs3x3x2x1");
   ([3; 3; 2; 2], VAbs "lequ3_3322", "# cLeQu3Abs3x3x2x2");
   ([3; 3; 2; 3], VAbs "lequ3_3323", "# cLeQu3Abs3x3x2x3");
   ([3; 3; 3; 1], VAbs "lequ3_3331", "# cLeQu3Abs3x3x3x1");
   ([3; 3; 3; 2], VAbs "lequ3_3332", "# cLeQu3Abs3x3x3x2");
   ([3; 3; 3; 3], VAbs "lequ3_3333", "# cLeQu3Abs3x3x3x3")].
(* smeftsim.py:5207 *)
Definition B_FRBlock82 : list cardline :=
  [([1; 1; 1; 1], VAng "lequ3_1111", "# cLeQu3Ph1x1x1x1");
   ([1; 1; 1; 2], VAng "lequ3_1112", "# cLeQu3Ph1x1x1x2");
   ([1; 1; 1; 3], VAng "lequ3_1113", "# cLeQu3Ph1x1x1x3");
   ([1; 1; 2; 1], VAng "lequ3_1121", "# cLeQu3Ph1x1x2x1");
   ([1; 1; 2; 2], VAng "lequ3_1122", "# cLeQu3Ph1x1x2x2");
   ([1; 1; 2; 3], VAng "lequ3_1123", "# cLeQu3Ph1x1x2x3");
   ([1; 1; 3; 1], VAng "lequ3_1131", "# cLeQu3Ph1x1x3x1");
   ([1; 1; 3; 2], VAng "lequ3_1132", "# cLeQu3Ph1x1x3x2");
   ([1; 1; 3; 3], VAng "lequ3_1133", "# cLeQu3Ph1x1x3x3");
   ([1; 2; 1; 1], VAng "lequ3_1211", "# cLeQu3Ph1x2x1x1");
   ([1; 2; 1; 2], VAng "lequ3_1212", "# cLeQu3Ph1x2x1x2");
   ([1; 2; 1; 3], VAng "lequ3_1213", "# cLeQu3Ph1x2x1x3");
   ([1; 2; 2; 1], VAng "lequ3_1221", "# cLeQu3Ph1x2x2x1");
   ([1; 2; 2; 2], VAng "lequ3_1222", "# cLeQu3Ph1x2x2x2");
   ([1; 2; 2; 3], VAng "lequ3_1223", "# cLeQu3Ph1x2x2x3");
   ([1; 2; 3; 1], VAng "lequ3_1231", "# cLeQu3Ph1x2x3x1");
   ([1; 2; 3; 2], VAng "lequ3_1232", "# cLeQu3Ph1x2x3x2");
   ([1; 2; 3; 3], VAng "lequ3_1233", "# cLeQu3Ph1x2x3x3");
   ([1; 3; 1; 1], VAng "lequ3_1311", "# cLeQu3Ph1x3x1x1");
   ([1; 3; 1; 2], VAng "lequ3_1312", "# cLeQu3Ph1x3x1x2");
   ([1; 3; 1; 3], VAng "lequ3_1313", "# cLeQu3Ph1x3x1x3");
   ([1; 3; 2; 1], VAng "lequ3_1321", "# cLeQu3Ph1x3x2x1");
   ([1; 3; 2; 2], VAng "lequ3_1322", "# cLeQu3Ph1x3x2x2");
   ([1; 3; 2; 3], VAng "lequ3_1323", "# cLeQu3Ph1x3x2x3");
   ([1; 3; 3; 1], VAng "lequ3_1331", "# cLeQu3Ph1x3x3x1");
   ([1; 3; 3; 2], VAng "lequ3_1332", "# cLeQu3Ph1x3x3x2");
   ([1; 3; 3; 3], VAng "lequ3_1333", "# cLeQu3Ph1x3x3x3");
   ([2; 1; 1; 1], VAng "lequ3_2111", "# cLeQu3Ph2x1x1x1");
   ([2; 1; 1; 2], VAng "lequ3_2112", "# cLeQu3Ph2x1x1x2");
   ([2; 1; 1; 3], VAng "lequ3_2113", "# cLeQu3Ph2x1x1x3");
   ([2; 1; 2; 1], VAng "lequ3_2121", "# cLeQu3Ph2x1x2x1");
   ([2; 1; 2; 2], VAng "lequ3_2122", "# cLeQu3Ph2x1x2x2");
   ([2; 1; 2; 3], VAng "lequ3_2123", "# cLeQu3Ph2x1x2x3");
   ([2; 1; 3; 1], VAng "lequ3_2131", "# cLeQu3Ph2x1x3x1");
   ([2; 1; 3; 2], VAng "lequ3_2132", "# cLeQu3Ph2x1x3x2");
   ([2; 1; 3; 3], VAng "lequ3_2133", "# cLeQu3Ph2x1x3x3");
   ([2; 2; 1; 1], VAng "lequ3_2211", "# cLeQu3Ph2x2x1x1");
   ([2; 2; 1; 2], VAng "lequ3_2212", "# cLeQu3Ph2x2x1x2");
   ([2; 2; 1; 3], VAng "lequ3_2213", "# cLeQu3Ph2x2x1x3");
   ([2; 2; 2; 1], VAng "lequ3_2221", "# cLeQu3Ph2x2x2x1");
   ([2; 2; 2; 2], VAng "lequ3_2222", "# cLeQu3Ph2x2x2x2");
   ([2; 2; 2; 3], VAng "lequ3_2223", "# cLeQu3Ph2x2x2x3");
   ([2; 2; 3; 1], VAng "lequ3_2231", "# cLeQu3Ph2x2x3x1");
   ([2; 2; 3; 2], VAng "lequ3_2232", "# cLeQu3Ph2x2x3x2");
   ([2; 2; 3; 3], VAng "lequ3_2233", "# cLeQu3Ph2x2x3x3");
   ([2; 3; 1; 1], VAng "lequ3_2311", "# cLeQu3Ph2x3x1x1");
   ([2; 3; 1; 2], VAng "lequ3_2312", "# cLeQu3Ph2x3x1x2");
   ([2; 3; 1; 3], VAng "lequ3_2313", "# cLeQu3Ph2x3x1x3");
   ([2; 3; 2; 1], VAng "lequ3_2321", "# cLeQu3Ph2x3x2x1");
   ([2; 3; 2; 2], VAng "lequ3_2322", "# cLeQu3Ph2x3x2x2");
   ([2; 3; 2; 3], VAng "lequ3_2323", "# cLeQu3Ph2x3x2x3");
   ([2; 3; 3; 1], VAng "lequ3_2331", "# cLeQu3Ph2x3x3x1");
   ([2; 3; 3; 2], VAng "lequ3_2332", "# cLeQu3Ph2x3x3x2");
   ([2; 3; 3; 3], VAng "lequ3_2333", "# cLeQu3Ph2x3x3x3");
   ([3; 1; 1; 1], VAng "lequ3_3111", "# cLeQu3Ph3x1x1x1");
   ([3; 1; 1; 2], VAng "lequ3_3112", "# cLeQu3Ph3x1x1x2");
   ([3; 1; 1; 3], VAng "lequ3_3113", "# cLeQu3Ph3x1x1x3");
   ([3; 1; 2; 1], VAng "lequ3_3121", "# cLeQu3Ph3x1x2x1");
   ([3; 1; 2; 2], VAng "lequ3_3122", "# cLeQu3Ph3x1x2x2");
   ([3; 1; 2; 3], VAng "lequ3_3123", "# cLeQu3Ph3x1x2x3");
   ([3; 1; 3; 1], VAng "lequ3_3131", "# cLeQu3Ph3x1x3x1");
   ([3; 1; 3; 2], VAng "lequ3_3132", "# cLeQu3Ph3x1x3x2");
   ([3; 1; 3; 3], VAng "lequ3_3133", "# cLeQu3Ph3x1x3x3");
   ([3; 2; 1; 1], VAng "lequ3_3211", "# cLeQu3Ph3x2x1x1");
   ([3; 2; 1; 2], VAng "lequ3_3212", "# cLeQu3Ph3x2x1x2");
   ([3; 2; 1; 3], VAng "lequ3_3213", "# cLeQu3Ph3x2x1x3");
   ([3; 2; 2; 1], VAng "lequ3_3221", "# cLeQu3Ph3x2x2x1");
   ([3; 2; 2; 2], VAng "lequ3_3222", "# cLeQu3Ph3x2x2x2");
   ([3; 2; 2; 3], VAng "lequ3_3223", "# cLeQu3Ph3x2x2x3");
   ([3; 2; 3; 1], VAng "lequ3_3231", "# cLeQu3Ph3x2x3x1");
   ([3; 2; 3; 2], VAng "lequ3_3232", "# cLeQu3Ph3x2x3x2");
   ([3; 2; 3; 3], VAng "lequ3_3233", "# cLeQu3Ph3x2x3x3");
   ([3; 3; 1; 1], VAng "lequ3_3311", "# cLeQu3Ph3x3x1x1");
   ([3; 3; 1; 2], VAng "lequ3_3312", "# cLeQu3Ph3x3x1x2");
   ([3; 3; 1; 3], VAng "lequ3_3313", "# cLeQu3Ph3x3x1x3");
   ([3; 3; 2; 1], VAng "lequ3_3321", "# cLeQu3Ph3x3x2x1");
   ([3; 3; 2; 2], VAng "lequ3_3322", "# cLeQu3Ph3x3x2x2");
   ([3; 3; 2; 3], VAng "lequ3_3323", "# cLeQu3Ph3x3x2x3");
   ([3; 3; 3; 1], VAng "lequ3_3331", "# cLeQu3Ph3x3x3x1");
   ([3; 3; 3; 2], VAng "lequ3_3332", "# cLeQu3Ph3x3x3x2");
   ([3; 3; 3; 3], VAng "lequ3_3333", "# cLeQu3Ph3x3x3x3")].
(* smeftsim.py:5291 *)
Definition B_FRBlock9 : list cardline :=
  [([1; 1], VAng "ephi_11", "# ceHPh1x1");
   ([1; 2], VAng "ephi_12", "# ceHPh1x2");
   ([1; 3], VAng "ephi_13", "# ceHPh1x3");
   ([2; 1], VAng "ephi_21", "# ceHPh2x1");
   ([2; 2], VAng "ephi_22", "# ceHPh2x2");
   ([2; 3], VAng "ephi_23", "# ceHPh2x3");
   ([3; 1], VAng "ephi_31", "# ceHPh3x1");
   ([3; 2], VAng "ephi_32", "# ceHPh3x2");
   ([3; 3], VAng "ephi_33", "# ceHPh3x3")].
(* smeftsim.py:5303 *)
Definition B_NEWCOUP : list cardline :=
  [([0], VLambda, "# Lambda");
   ([1], VVal "phiBox", "# cHBox");
   ([2], VVal "phiD", "# cHDD");
   ([3], VVal "phi", "# cH");
   ([4], VVal "phiB", "# cHB");
   ([5], VVal "phiW", "# cHW");
   ([6], VVal "phiWB", "# cHWB");
   ([7], VVal "phiG", "# cHG");
   ([8], VVal "W", "# cW");
   ([9], VVal "G", "# cG");
   ([10], VVal "Wtilde", "# cWtil");
   ([11], VVal "Gtilde", "# cGtil");
   ([12], VVal "phiBtilde", "# cHBtil");
   ([13], VVal "phiWtilde", "# cHWtil");
   ([14], VVal "phiWtildeB", "# cHWBtil");
   ([15], VVal "phiGtilde", "# cHGtil")].
Definition card_B : list (string * list cardline) :=
  [("FRBlock", B_FRBlock); ("FRBlock10", B_FRBlock10); ("FRBlock11", B_FRBlock11); ("FRBlock15", B_FRBlock15); ("FRBlock16", B_FRBlock16); ("FRBlock18", B_FRBlock18); ("FRBlock19", B_FRBlock19); ("FRBlock21", B_FRBlock21); ("FRBlock22", B_FRBlock22); ("FRBlock24", B_FRBlock24); ("FRBlock25", B_FRBlock25); ("FRBlock27", B_FRBlock27); ("FRBlock28", B_FRBlock28); ("FRBlock30", B_FRBlock30); ("FRBlock31", B_FRBlock31); ("FRBlock33", B_FRBlock33); ("FRBlock34", B_FRBlock34); ("FRBlock36", B_FRBlock36); ("FRBlock37", B_FRBlock37); ("FRBlock45", B_FRBlock45); ("FRBlock46", B_FRBlock46); ("FRBlock6", B_FRBlock6); ("FRBlock69", B_FRBlock69); ("FRBlock7", B_FRBlock7); ("FRBlock70", B_FRBlock70); ("FRBlock72", B_FRBlock72); ("FRBlock73", B_FRBlock73); ("FRBlock75", B_FRBlock75); ("FRBlock76", B_FRBlock76); ("FRBlock78", B_FRBlock78); ("FRBlock79", B_FRBlock79); ("FRBlock8", B_FRBlock8); ("FRBlock81", B_FRBlock81); ("FRBlock82", B_FRBlock82); ("FRBlock9", B_FRBlock9); ("NEWCOUP", B_NEWCOUP)].
