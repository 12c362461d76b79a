(** GENERATED by tools/gen_smeftsim.py from wcxf/converters/smeftsim.py and
    SMEFTsim_param_card_elements.py: the blocks, the rows and the texts, line by line. *)
From Coq Require Import String List NArith.
From Verif Require Import PyBase SmeftSimSyntax.
Import ListNotations.
Open Scope string_scope.
Open Scope list_scope.
Open Scope N_scope.

(** smeftsim.py 12-47 *)
Definition blocksA : list string :=
  ["FRBlock"; "FRBlock10"; "FRBlock11"; "FRBlock12"; "FRBlock13"; "FRBlock14"; "FRBlock15"; "FRBlock16"; "FRBlock17"; "FRBlock18"; "FRBlock19"; "FRBlock2"; "FRBlock20"; "FRBlock21"; "FRBlock25"; "FRBlock26"; "FRBlock27"; "FRBlock28"; "FRBlock29"; "FRBlock3"; "FRBlock30"; "FRBlock31"; "FRBlock32"; "FRBlock4"; "FRBlock48"; "FRBlock5"; "FRBlock6"; "FRBlock7"; "FRBlock70"; "FRBlock71"; "FRBlock72"; "FRBlock73"; "FRBlock74"; "FRBlock8"; "FRBlock9"].
(** smeftsim.py 50-86 *)
Definition blocksB : list string :=
  ["FRBlock"; "FRBlock10"; "FRBlock11"; "FRBlock15"; "FRBlock16"; "FRBlock18"; "FRBlock19"; "FRBlock21"; "FRBlock22"; "FRBlock24"; "FRBlock25"; "FRBlock27"; "FRBlock28"; "FRBlock30"; "FRBlock31"; "FRBlock33"; "FRBlock34"; "FRBlock36"; "FRBlock37"; "FRBlock45"; "FRBlock46"; "FRBlock6"; "FRBlock69"; "FRBlock7"; "FRBlock70"; "FRBlock72"; "FRBlock73"; "FRBlock75"; "FRBlock76"; "FRBlock78"; "FRBlock79"; "FRBlock8"; "FRBlock81"; "FRBlock82"; "FRBlock9"; "NEWCOUP"].
(** smeftsim.py 95-1570 *)
Definition rowsA_FRBlock : list row :=
  [Row [1] VAngle "phil1_12" "# cHl1Ph12";
   Row [2] VAngle "phil1_13" "# cHl1Ph13";
   Row [3] VAngle "phil1_23" "# cHl1Ph23";
   Row [4] VAngle "phil3_12" "# cHl3Ph12";
   Row [5] VAngle "phil3_13" "# cHl3Ph13";
   Row [6] VAngle "phil3_23" "# cHl3Ph23";
   Row [7] VAngle "phie_12" "# cHePh12";
   Row [8] VAngle "phie_13" "# cHePh13";
   Row [9] VAngle "phie_23" "# cHePh23";
   Row [10] VAngle "phiq1_12" "# cHq1Ph12";
   Row [11] VAngle "phiq1_13" "# cHq1Ph13";
   Row [12] VAngle "phiq1_23" "# cHq1Ph23";
   Row [13] VAngle "phiq3_12" "# cHq3Ph12";
   Row [14] VAngle "phiq3_13" "# cHq3Ph13";
   Row [15] VAngle "phiq3_23" "# cHq3Ph23";
   Row [16] VAngle "phiu_12" "# cHuPh12";
   Row [17] VAngle "phiu_13" "# cHuPh13";
   Row [18] VAngle "phiu_23" "# cHuPh23";
   Row [19] VAngle "phid_12" "# cHdPh12";
   Row [20] VAngle "phid_13" "# cHdPh13";
   Row [21] VAngle "phid_23" "# cHdPh23";
   Row [22] VAngle "ll_1112" "# cllPh1112";
   Row [23] VAngle "ll_1113" "# cllPh1113";
   Row [24] VAngle "ll_1123" "# cllPh1123";
   Row [25] VAngle "ll_1212" "# cllPh1212";
   Row [26] VAngle "ll_1213" "# cllPh1213";
   Row [27] VAngle "ll_1231" "# cllPh1231";
   Row [28] VAngle "ll_1222" "# cllPh1222";
   Row [29] VAngle "ll_1223" "# cllPh1223";
   Row [30] VAngle "ll_1232" "# cllPh1232";
   Row [31] VAngle "ll_1233" "# cllPh1233";
   Row [32] VAngle "ll_1313" "# cllPh1313";
   Row [33] VAngle "ll_1322" "# cllPh1322";
   Row [34] VAngle "ll_1332" "# cllPh1332";
   Row [35] VAngle "ll_1323" "# cllPh1323";
   Row [36] VAngle "ll_1333" "# cllPh1333";
   Row [37] VAngle "ll_2223" "# cllPh2223";
   Row [38] VAngle "ll_2323" "# cllPh2323";
   Row [39] VAngle "ll_2333" "# cllPh3323";
   Row [40] VAngle "qq1_1112" "# cqq1Ph1112";
   Row [41] VAngle "qq1_1113" "# cqq1Ph1113";
   Row [42] VAngle "qq1_1123" "# cqq1Ph1123";
   Row [43] VAngle "qq1_1212" "# cqq1Ph1212";
   Row [44] VAngle "qq1_1213" "# cqq1Ph1213";
   Row [45] VAngle "qq1_1231" "# cqq1Ph1231";
   Row [46] VAngle "qq1_1222" "# cqq1Ph1222";
   Row [47] VAngle "qq1_1223" "# cqq1Ph1223";
   Row [48] VAngle "qq1_1232" "# cqq1Ph1232";
   Row [49] VAngle "qq1_1233" "# cqq1Ph1233";
   Row [50] VAngle "qq1_1313" "# cqq1Ph1313";
   Row [51] VAngle "qq1_1322" "# cqq1Ph1322";
   Row [52] VAngle "qq1_1332" "# cqq1Ph1332";
   Row [53] VAngle "qq1_1323" "# cqq1Ph1323";
   Row [54] VAngle "qq1_1333" "# cqq1Ph1333";
   Row [55] VAngle "qq1_2223" "# cqq1Ph2223";
   Row [56] VAngle "qq1_2323" "# cqq1Ph2323";
   Row [57] VAngle "qq1_2333" "# cqq1Ph3323";
   Row [58] VAngle "qq3_1112" "# cqq3Ph1112";
   Row [59] VAngle "qq3_1113" "# cqq3Ph1113";
   Row [60] VAngle "qq3_1123" "# cqq3Ph1123";
   Row [61] VAngle "qq3_1212" "# cqq3Ph1212";
   Row [62] VAngle "qq3_1213" "# cqq3Ph1213";
   Row [63] VAngle "qq3_1231" "# cqq3Ph1231";
   Row [64] VAngle "qq3_1222" "# cqq3Ph1222";
   Row [65] VAngle "qq3_1223" "# cqq3Ph1223";
   Row [66] VAngle "qq3_1232" "# cqq3Ph1232";
   Row [67] VAngle "qq3_1233" "# cqq3Ph1233";
   Row [68] VAngle "qq3_1313" "# cqq3Ph1313";
   Row [69] VAngle "qq3_1322" "# cqq3Ph1322";
   Row [70] VAngle "qq3_1332" "# cqq3Ph1332";
   Row [71] VAngle "qq3_1323" "# cqq3Ph1323";
   Row [72] VAngle "qq3_1333" "# cqq3Ph1333";
   Row [73] VAngle "qq3_2223" "# cqq3Ph2223";
   Row [74] VAngle "qq3_2323" "# cqq3Ph2323";
   Row [75] VAngle "qq3_2333" "# cqq3Ph3323";
   Row [76] VAngle "uu_1112" "# cuuPh1112";
   Row [77] VAngle "uu_1113" "# cuuPh1113";
   Row [78] VAngle "uu_1123" "# cuuPh1123";
   Row [79] VAngle "uu_1212" "# cuuPh1212";
   Row [80] VAngle "uu_1213" "# cuuPh1213";
   Row [81] VAngle "uu_1231" "# cuuPh1231";
   Row [82] VAngle "uu_1222" "# cuuPh1222";
   Row [83] VAngle "uu_1223" "# cuuPh1223";
   Row [84] VAngle "uu_1232" "# cuuPh1232";
   Row [85] VAngle "uu_1233" "# cuuPh1233";
   Row [86] VAngle "uu_1313" "# cuuPh1313";
   Row [87] VAngle "uu_1322" "# cuuPh1322";
   Row [88] VAngle "uu_1332" "# cuuPh1332";
   Row [89] VAngle "uu_1323" "# cuuPh1323";
   Row [90] VAngle "uu_1333" "# cuuPh1333";
   Row [91] VAngle "uu_2223" "# cuuPh2223";
   Row [92] VAngle "uu_2323" "# cuuPh2323";
   Row [93] VAngle "uu_2333" "# cuuPh3323";
   Row [94] VAngle "dd_1112" "# cddPh1112";
   Row [95] VAngle "dd_1113" "# cddPh1113";
   Row [96] VAngle "dd_1123" "# cddPh1123";
   Row [97] VAngle "dd_1212" "# cddPh1212";
   Row [98] VAngle "dd_1213" "# cddPh1213";
   Row [99] VAngle "dd_1231" "# cddPh1231";
   Row [100] VAngle "dd_1222" "# cddPh1222";
   Row [101] VAngle "dd_1223" "# cddPh1223";
   Row [102] VAngle "dd_1232" "# cddPh1232";
   Row [103] VAngle "dd_1233" "# cddPh1233";
   Row [104] VAngle "dd_1313" "# cddPh1313";
   Row [105] VAngle "dd_1322" "# cddPh1322";
   Row [106] VAngle "dd_1332" "# cddPh1332";
   Row [107] VAngle "dd_1323" "# cddPh1323";
   Row [108] VAngle "dd_1333" "# cddPh1333";
   Row [109] VAngle "dd_2223" "# cddPh2223";
   Row [110] VAngle "dd_2323" "# cddPh2323";
   Row [111] VAngle "dd_2333" "# cddPh3323";
   Row [112] VAngle "ee_1112" "# ceePh1112";
   Row [113] VAngle "ee_1113" "# ceePh1113";
   Row [114] VAngle "ee_1123" "# ceePh1123";
   Row [115] VAngle "ee_1212" "# ceePh1212";
   Row [116] VAngle "ee_1213" "# ceePh1213";
   Row [117] VAngle "ee_1222" "# ceePh1222";
   Row [118] VAngle "ee_1232" "# ceePh1232";
   Row [119] VAngle "ee_1233" "# ceePh1233";
   Row [120] VAngle "ee_1313" "# ceePh1313";
   Row [121] VAngle "ee_1223" "# ceePh1322";
   Row [122] VAngle "ee_1323" "# ceePh1323";
   Row [123] VAngle "ee_1333" "# ceePh1333";
   Row [124] VAngle "ee_2223" "# ceePh2223";
   Row [125] VAngle "ee_2323" "# ceePh2323";
   Row [126] VAngle "ee_2333" "# ceePh3323";
   Row [127] VAngle "lq1_1112" "# clq1Ph1112";
   Row [128] VAngle "lq1_1113" "# clq1Ph1113";
   Row [129] VAngle "lq1_1123" "# clq1Ph1123";
   Row [130] VAngle "lq1_1211" "# clq1Ph1211";
   Row [131] VAngle "lq1_1212" "# clq1Ph1212";
   Row [132] VAngle "lq1_1221" "# clq1Ph1221";
   Row [133] VAngle "lq1_1213" "# clq1Ph1213";
   Row [134] VAngle "lq1_1231" "# clq1Ph1231";
   Row [135] VAngle "lq1_1222" "# clq1Ph1222";
   Row [136] VAngle "lq1_1223" "# clq1Ph1223";
   Row [137] VAngle "lq1_1232" "# clq1Ph1232";
   Row [138] VAngle "lq1_1233" "# clq1Ph1233";
   Row [139] VAngle "lq1_1311" "# clq1Ph1311";
   Row [140] VAngle "lq1_1312" "# clq1Ph1312";
   Row [141] VAngle "lq1_1313" "# clq1Ph1313";
   Row [142] VAngle "lq1_1331" "# clq1Ph1331";
   Row [143] VAngle "lq1_1321" "# clq1Ph1321";
   Row [144] VAngle "lq1_1322" "# clq1Ph1322";
   Row [145] VAngle "lq1_1332" "# clq1Ph1332";
   Row [146] VAngle "lq1_1323" "# clq1Ph1323";
   Row [147] VAngle "lq1_1333" "# clq1Ph1333";
   Row [148] VAngle "lq1_2212" "# clq1Ph2212";
   Row [149] VAngle "lq1_2213" "# clq1Ph2213";
   Row [150] VAngle "lq1_2223" "# clq1Ph2223";
   Row [151] VAngle "lq1_2311" "# clq1Ph2311";
   Row [152] VAngle "lq1_2312" "# clq1Ph2312";
   Row [153] VAngle "lq1_2313" "# clq1Ph2313";
   Row [154] VAngle "lq1_2321" "# clq1Ph2321";
   Row [155] VAngle "lq1_2322" "# clq1Ph2322";
   Row [156] VAngle "lq1_2323" "# clq1Ph2323";
   Row [157] VAngle "lq1_2331" "# clq1Ph2331";
   Row [158] VAngle "lq1_2332" "# clq1Ph2332";
   Row [159] VAngle "lq1_2333" "# clq1Ph2333";
   Row [160] VAngle "lq1_3312" "# clq1Ph3312";
   Row [161] VAngle "lq1_3313" "# clq1Ph3313";
   Row [162] VAngle "lq1_3323" "# clq1Ph3323";
   Row [163] VAngle "lq3_1112" "# clq3Ph1112";
   Row [164] VAngle "lq3_1113" "# clq3Ph1113";
   Row [165] VAngle "lq3_1123" "# clq3Ph1123";
   Row [166] VAngle "lq3_1211" "# clq3Ph1211";
   Row [167] VAngle "lq3_1212" "# clq3Ph1212";
   Row [168] VAngle "lq3_1221" "# clq3Ph1221";
   Row [169] VAngle "lq3_1213" "# clq3Ph1213";
   Row [170] VAngle "lq3_1231" "# clq3Ph1231";
   Row [171] VAngle "lq3_1222" "# clq3Ph1222";
   Row [172] VAngle "lq3_1223" "# clq3Ph1223";
   Row [173] VAngle "lq3_1232" "# clq3Ph1232";
   Row [174] VAngle "lq3_1233" "# clq3Ph1233";
   Row [175] VAngle "lq3_1311" "# clq3Ph1311";
   Row [176] VAngle "lq3_1312" "# clq3Ph1312";
   Row [177] VAngle "lq3_1313" "# clq3Ph1313";
   Row [178] VAngle "lq3_1331" "# clq3Ph1331";
   Row [179] VAngle "lq3_1321" "# clq3Ph1321";
   Row [180] VAngle "lq3_1322" "# clq3Ph1322";
   Row [181] VAngle "lq3_1332" "# clq3Ph1332";
   Row [182] VAngle "lq3_1323" "# clq3Ph1323";
   Row [183] VAngle "lq3_1333" "# clq3Ph1333";
   Row [184] VAngle "lq3_2212" "# clq3Ph2212";
   Row [185] VAngle "lq3_2213" "# clq3Ph2213";
   Row [186] VAngle "lq3_2223" "# clq3Ph2223";
   Row [187] VAngle "lq3_2311" "# clq3Ph2311";
   Row [188] VAngle "lq3_2312" "# clq3Ph2312";
   Row [189] VAngle "lq3_2313" "# clq3Ph2313";
   Row [190] VAngle "lq3_2321" "# clq3Ph2321";
   Row [191] VAngle "lq3_2322" "# clq3Ph2322";
   Row [192] VAngle "lq3_2323" "# clq3Ph2323";
   Row [193] VAngle "lq3_2331" "# clq3Ph2331";
   Row [194] VAngle "lq3_2332" "# clq3Ph2332";
   Row [195] VAngle "lq3_2333" "# clq3Ph2333";
   Row [196] VAngle "lq3_3312" "# clq3Ph3312";
   Row [197] VAngle "lq3_3313" "# clq3Ph3313";
   Row [198] VAngle "lq3_3323" "# clq3Ph3323";
   Row [199] VAngle "eu_1112" "# ceuPh1112";
   Row [200] VAngle "eu_1113" "# ceuPh1113";
   Row [201] VAngle "eu_1123" "# ceuPh1123";
   Row [202] VAngle "eu_1211" "# ceuPh1211";
   Row [203] VAngle "eu_1212" "# ceuPh1212";
   Row [204] VAngle "eu_1221" "# ceuPh1221";
   Row [205] VAngle "eu_1213" "# ceuPh1213";
   Row [206] VAngle "eu_1231" "# ceuPh1231";
   Row [207] VAngle "eu_1222" "# ceuPh1222";
   Row [208] VAngle "eu_1223" "# ceuPh1223";
   Row [209] VAngle "eu_1232" "# ceuPh1232";
   Row [210] VAngle "eu_1233" "# ceuPh1233";
   Row [211] VAngle "eu_1311" "# ceuPh1311";
   Row [212] VAngle "eu_1312" "# ceuPh1312";
   Row [213] VAngle "eu_1313" "# ceuPh1313";
   Row [214] VAngle "eu_1331" "# ceuPh1331";
   Row [215] VAngle "eu_1321" "# ceuPh1321";
   Row [216] VAngle "eu_1322" "# ceuPh1322";
   Row [217] VAngle "eu_1332" "# ceuPh1332";
   Row [218] VAngle "eu_1323" "# ceuPh1323";
   Row [219] VAngle "eu_1333" "# ceuPh1333";
   Row [220] VAngle "eu_2212" "# ceuPh2212";
   Row [221] VAngle "eu_2213" "# ceuPh2213";
   Row [222] VAngle "eu_2223" "# ceuPh2223";
   Row [223] VAngle "eu_2311" "# ceuPh2311";
   Row [224] VAngle "eu_2312" "# ceuPh2312";
   Row [225] VAngle "eu_2313" "# ceuPh2313";
   Row [226] VAngle "eu_2321" "# ceuPh2321";
   Row [227] VAngle "eu_2322" "# ceuPh2322";
   Row [228] VAngle "eu_2323" "# ceuPh2323";
   Row [229] VAngle "eu_2331" "# ceuPh2331";
   Row [230] VAngle "eu_2332" "# ceuPh2332";
   Row [231] VAngle "eu_2333" "# ceuPh2333";
   Row [232] VAngle "eu_3312" "# ceuPh3312";
   Row [233] VAngle "eu_3313" "# ceuPh3313";
   Row [234] VAngle "eu_3323" "# ceuPh3323";
   Row [235] VAngle "ed_1112" "# cedPh1112";
   Row [236] VAngle "ed_1113" "# cedPh1113";
   Row [237] VAngle "ed_1123" "# cedPh1123";
   Row [238] VAngle "ed_1211" "# cedPh1211";
   Row [239] VAngle "ed_1212" "# cedPh1212";
   Row [240] VAngle "ed_1221" "# cedPh1221";
   Row [241] VAngle "ed_1213" "# cedPh1213";
   Row [242] VAngle "ed_1231" "# cedPh1231";
   Row [243] VAngle "ed_1222" "# cedPh1222";
   Row [244] VAngle "ed_1223" "# cedPh1223";
   Row [245] VAngle "ed_1232" "# cedPh1232";
   Row [246] VAngle "ed_1233" "# cedPh1233";
   Row [247] VAngle "ed_1311" "# cedPh1311";
   Row [248] VAngle "ed_1312" "# cedPh1312";
   Row [249] VAngle "ed_1313" "# cedPh1313";
   Row [250] VAngle "ed_1331" "# cedPh1331";
   Row [251] VAngle "ed_1321" "# cedPh1321";
   Row [252] VAngle "ed_1322" "# cedPh1322";
   Row [253] VAngle "ed_1332" "# cedPh1332";
   Row [254] VAngle "ed_1323" "# cedPh1323";
   Row [255] VAngle "ed_1333" "# cedPh1333";
   Row [256] VAngle "ed_2212" "# cedPh2212";
   Row [257] VAngle "ed_2213" "# cedPh2213";
   Row [258] VAngle "ed_2223" "# cedPh2223";
   Row [259] VAngle "ed_2311" "# cedPh2311";
   Row [260] VAngle "ed_2312" "# cedPh2312";
   Row [261] VAngle "ed_2313" "# cedPh2313";
   Row [262] VAngle "ed_2321" "# cedPh2321";
   Row [263] VAngle "ed_2322" "# cedPh2322";
   Row [264] VAngle "ed_2323" "# cedPh2323";
   Row [265] VAngle "ed_2331" "# cedPh2331";
   Row [266] VAngle "ed_2332" "# cedPh2332";
   Row [267] VAngle "ed_2333" "# cedPh2333";
   Row [268] VAngle "ed_3312" "# cedPh3312";
   Row [269] VAngle "ed_3313" "# cedPh3313";
   Row [270] VAngle "ed_3323" "# cedPh3323";
   Row [271] VAngle "ud1_1112" "# cud1Ph1112";
   Row [272] VAngle "ud1_1113" "# cud1Ph1113";
   Row [273] VAngle "ud1_1123" "# cud1Ph1123";
   Row [274] VAngle "ud1_1211" "# cud1Ph1211";
   Row [275] VAngle "ud1_1212" "# cud1Ph1212";
   Row [276] VAngle "ud1_1221" "# cud1Ph1221";
   Row [277] VAngle "ud1_1213" "# cud1Ph1213";
   Row [278] VAngle "ud1_1231" "# cud1Ph1231";
   Row [279] VAngle "ud1_1222" "# cud1Ph1222";
   Row [280] VAngle "ud1_1223" "# cud1Ph1223";
   Row [281] VAngle "ud1_1232" "# cud1Ph1232";
   Row [282] VAngle "ud1_1233" "# cud1Ph1233";
   Row [283] VAngle "ud1_1311" "# cud1Ph1311";
   Row [284] VAngle "ud1_1312" "# cud1Ph1312";
   Row [285] VAngle "ud1_1313" "# cud1Ph1313";
   Row [286] VAngle "ud1_1331" "# cud1Ph1331";
   Row [287] VAngle "ud1_1321" "# cud1Ph1321";
   Row [288] VAngle "ud1_1322" "# cud1Ph1322";
   Row [289] VAngle "ud1_1332" "# cud1Ph1332";
   Row [290] VAngle "ud1_1323" "# cud1Ph1323";
   Row [291] VAngle "ud1_1333" "# cud1Ph1333";
   Row [292] VAngle "ud1_2212" "# cud1Ph2212";
   Row [293] VAngle "ud1_2213" "# cud1Ph2213";
   Row [294] VAngle "ud1_2223" "# cud1Ph2223";
   Row [295] VAngle "ud1_2311" "# cud1Ph2311";
   Row [296] VAngle "ud1_2312" "# cud1Ph2312";
   Row [297] VAngle "ud1_2313" "# cud1Ph2313";
   Row [298] VAngle "ud1_2321" "# cud1Ph2321";
   Row [299] VAngle "ud1_2322" "# cud1Ph2322";
   Row [300] VAngle "ud1_2323" "# cud1Ph2323";
   Row [301] VAngle "ud1_2331" "# cud1Ph2331";
   Row [302] VAngle "ud1_2332" "# cud1Ph2332";
   Row [303] VAngle "ud1_2333" "# cud1Ph2333";
   Row [304] VAngle "ud1_3312" "# cud1Ph3312";
   Row [305] VAngle "ud1_3313" "# cud1Ph3313";
   Row [306] VAngle "ud1_3323" "# cud1Ph3323";
   Row [307] VAngle "ud8_1112" "# cud8Ph1112";
   Row [308] VAngle "ud8_1113" "# cud8Ph1113";
   Row [309] VAngle "ud8_1123" "# cud8Ph1123";
   Row [310] VAngle "ud8_1211" "# cud8Ph1211";
   Row [311] VAngle "ud8_1212" "# cud8Ph1212";
   Row [312] VAngle "ud8_1221" "# cud8Ph1221";
   Row [313] VAngle "ud8_1213" "# cud8Ph1213";
   Row [314] VAngle "ud8_1231" "# cud8Ph1231";
   Row [315] VAngle "ud8_1222" "# cud8Ph1222";
   Row [316] VAngle "ud8_1223" "# cud8Ph1223";
   Row [317] VAngle "ud8_1232" "# cud8Ph1232";
   Row [318] VAngle "ud8_1233" "# cud8Ph1233";
   Row [319] VAngle "ud8_1311" "# cud8Ph1311";
   Row [320] VAngle "ud8_1312" "# cud8Ph1312";
   Row [321] VAngle "ud8_1313" "# cud8Ph1313";
   Row [322] VAngle "ud8_1331" "# cud8Ph1331";
   Row [323] VAngle "ud8_1321" "# cud8Ph1321";
   Row [324] VAngle "ud8_1322" "# cud8Ph1322";
   Row [325] VAngle "ud8_1332" "# cud8Ph1332";
   Row [326] VAngle "ud8_1323" "# cud8Ph1323";
   Row [327] VAngle "ud8_1333" "# cud8Ph1333";
   Row [328] VAngle "ud8_2212" "# cud8Ph2212";
   Row [329] VAngle "ud8_2213" "# cud8Ph2213";
   Row [330] VAngle "ud8_2223" "# cud8Ph2223";
   Row [331] VAngle "ud8_2311" "# cud8Ph2311";
   Row [332] VAngle "ud8_2312" "# cud8Ph2312";
   Row [333] VAngle "ud8_2313" "# cud8Ph2313";
   Row [334] VAngle "ud8_2321" "# cud8Ph2321";
   Row [335] VAngle "ud8_2322" "# cud8Ph2322";
   Row [336] VAngle "ud8_2323" "# cud8Ph2323";
   Row [337] VAngle "ud8_2331" "# cud8Ph2331";
   Row [338] VAngle "ud8_2332" "# cud8Ph2332";
   Row [339] VAngle "ud8_2333" "# cud8Ph2333";
   Row [340] VAngle "ud8_3312" "# cud8Ph3312";
   Row [341] VAngle "ud8_3313" "# cud8Ph3313";
   Row [342] VAngle "ud8_3323" "# cud8Ph3323";
   Row [343] VAngle "le_1112" "# clePh1112";
   Row [344] VAngle "le_1113" "# clePh1113";
   Row [345] VAngle "le_1123" "# clePh1123";
   Row [346] VAngle "le_1211" "# clePh1211";
   Row [347] VAngle "le_1212" "# clePh1212";
   Row [348] VAngle "le_1221" "# clePh1221";
   Row [349] VAngle "le_1213" "# clePh1213";
   Row [350] VAngle "le_1231" "# clePh1231";
   Row [351] VAngle "le_1222" "# clePh1222";
   Row [352] VAngle "le_1223" "# clePh1223";
   Row [353] VAngle "le_1232" "# clePh1232";
   Row [354] VAngle "le_1233" "# clePh1233";
   Row [355] VAngle "le_1311" "# clePh1311";
   Row [356] VAngle "le_1312" "# clePh1312";
   Row [357] VAngle "le_1313" "# clePh1313";
   Row [358] VAngle "le_1331" "# clePh1331";
   Row [359] VAngle "le_1321" "# clePh1321";
   Row [360] VAngle "le_1322" "# clePh1322";
   Row [361] VAngle "le_1332" "# clePh1332";
   Row [362] VAngle "le_1323" "# clePh1323";
   Row [363] VAngle "le_1333" "# clePh1333";
   Row [364] VAngle "le_2212" "# clePh2212";
   Row [365] VAngle "le_2213" "# clePh2213";
   Row [366] VAngle "le_2223" "# clePh2223";
   Row [367] VAngle "le_2311" "# clePh2311";
   Row [368] VAngle "le_2312" "# clePh2312";
   Row [369] VAngle "le_2313" "# clePh2313";
   Row [370] VAngle "le_2321" "# clePh2321";
   Row [371] VAngle "le_2322" "# clePh2322";
   Row [372] VAngle "le_2323" "# clePh2323";
   Row [373] VAngle "le_2331" "# clePh2331";
   Row [374] VAngle "le_2332" "# clePh2332";
   Row [375] VAngle "le_2333" "# clePh2333";
   Row [376] VAngle "le_3312" "# clePh3312";
   Row [377] VAngle "le_3313" "# clePh3313";
   Row [378] VAngle "le_3323" "# clePh3323";
   Row [379] VAngle "lu_1112" "# cluPh1112";
   Row [380] VAngle "lu_1113" "# cluPh1113";
   Row [381] VAngle "lu_1123" "# cluPh1123";
   Row [382] VAngle "lu_1211" "# cluPh1211";
   Row [383] VAngle "lu_1212" "# cluPh1212";
   Row [384] VAngle "lu_1221" "# cluPh1221";
   Row [385] VAngle "lu_1213" "# cluPh1213";
   Row [386] VAngle "lu_1231" "# cluPh1231";
   Row [387] VAngle "lu_1222" "# cluPh1222";
   Row [388] VAngle "lu_1223" "# cluPh1223";
   Row [389] VAngle "lu_1232" "# cluPh1232";
   Row [390] VAngle "lu_1233" "# cluPh1233";
   Row [391] VAngle "lu_1311" "# cluPh1311";
   Row [392] VAngle "lu_1312" "# cluPh1312";
   Row [393] VAngle "lu_1313" "# cluPh1313";
   Row [394] VAngle "lu_1331" "# cluPh1331";
   Row [395] VAngle "lu_1321" "# cluPh1321";
   Row [396] VAngle "lu_1322" "# cluPh1322";
   Row [397] VAngle "lu_1332" "# cluPh1332";
   Row [398] VAngle "lu_1323" "# cluPh1323";
   Row [399] VAngle "lu_1333" "# cluPh1333";
   Row [400] VAngle "lu_2212" "# cluPh2212";
   Row [401] VAngle "lu_2213" "# cluPh2213";
   Row [402] VAngle "lu_2223" "# cluPh2223";
   Row [403] VAngle "lu_2311" "# cluPh2311";
   Row [404] VAngle "lu_2312" "# cluPh2312";
   Row [405] VAngle "lu_2313" "# cluPh2313";
   Row [406] VAngle "lu_2321" "# cluPh2321";
   Row [407] VAngle "lu_2322" "# cluPh2322";
   Row [408] VAngle "lu_2323" "# cluPh2323";
   Row [409] VAngle "lu_2331" "# cluPh2331";
   Row [410] VAngle "lu_2332" "# cluPh2332";
   Row [411] VAngle "lu_2333" "# cluPh2333";
   Row [412] VAngle "lu_3312" "# cluPh3312";
   Row [413] VAngle "lu_3313" "# cluPh3313";
   Row [414] VAngle "lu_3323" "# cluPh3323";
   Row [415] VAngle "ld_1112" "# cldPh1112";
   Row [416] VAngle "ld_1113" "# cldPh1113";
   Row [417] VAngle "ld_1123" "# cldPh1123";
   Row [418] VAngle "ld_1211" "# cldPh1211";
   Row [419] VAngle "ld_1212" "# cldPh1212";
   Row [420] VAngle "ld_1221" "# cldPh1221";
   Row [421] VAngle "ld_1213" "# cldPh1213";
   Row [422] VAngle "ld_1231" "# cldPh1231";
   Row [423] VAngle "ld_1222" "# cldPh1222";
   Row [424] VAngle "ld_1223" "# cldPh1223";
   Row [425] VAngle "ld_1232" "# cldPh1232";
   Row [426] VAngle "ld_1233" "# cldPh1233";
   Row [427] VAngle "ld_1311" "# cldPh1311";
   Row [428] VAngle "ld_1312" "# cldPh1312";
   Row [429] VAngle "ld_1313" "# cldPh1313";
   Row [430] VAngle "ld_1331" "# cldPh1331";
   Row [431] VAngle "ld_1321" "# cldPh1321";
   Row [432] VAngle "ld_1322" "# cldPh1322";
   Row [433] VAngle "ld_1332" "# cldPh1332";
   Row [434] VAngle "ld_1323" "# cldPh1323";
   Row [435] VAngle "ld_1333" "# cldPh1333";
   Row [436] VAngle "ld_2212" "# cldPh2212";
   Row [437] VAngle "ld_2213" "# cldPh2213";
   Row [438] VAngle "ld_2223" "# cldPh2223";
   Row [439] VAngle "ld_2311" "# cldPh2311";
   Row [440] VAngle "ld_2312" "# cldPh2312";
   Row [441] VAngle "ld_2313" "# cldPh2313";
   Row [442] VAngle "ld_2321" "# cldPh2321";
   Row [443] VAngle "ld_2322" "# cldPh2322";
   Row [444] VAngle "ld_2323" "# cldPh2323";
   Row [445] VAngle "ld_2331" "# cldPh2331";
   Row [446] VAngle "ld_2332" "# cldPh2332";
   Row [447] VAngle "ld_2333" "# cldPh2333";
   Row [448] VAngle "ld_3312" "# cldPh3312";
   Row [449] VAngle "ld_3313" "# cldPh3313";
   Row [450] VAngle "ld_3323" "# cldPh3323";
   Row [451] VAngle "qe_1112" "# cqePh1112";
   Row [452] VAngle "qe_1113" "# cqePh1113";
   Row [453] VAngle "qe_1123" "# cqePh1123";
   Row [454] VAngle "qe_1211" "# cqePh1211";
   Row [455] VAngle "qe_1212" "# cqePh1212";
   Row [456] VAngle "qe_1221" "# cqePh1221";
   Row [457] VAngle "qe_1213" "# cqePh1213";
   Row [458] VAngle "qe_1231" "# cqePh1231";
   Row [459] VAngle "qe_1222" "# cqePh1222";
   Row [460] VAngle "qe_1223" "# cqePh1223";
   Row [461] VAngle "qe_1232" "# cqePh1232";
   Row [462] VAngle "qe_1233" "# cqePh1233";
   Row [463] VAngle "qe_1311" "# cqePh1311";
   Row [464] VAngle "qe_1312" "# cqePh1312";
   Row [465] VAngle "qe_1313" "# cqePh1313";
   Row [466] VAngle "qe_1331" "# cqePh1331";
   Row [467] VAngle "qe_1321" "# cqePh1321";
   Row [468] VAngle "qe_1322" "# cqePh1322";
   Row [469] VAngle "qe_1332" "# cqePh1332";
   Row [470] VAngle "qe_1323" "# cqePh1323";
   Row [471] VAngle "qe_1333" "# cqePh1333";
   Row [472] VAngle "qe_2212" "# cqePh2212";
   Row [473] VAngle "qe_2213" "# cqePh2213";
   Row [474] VAngle "qe_2223" "# cqePh2223";
   Row [475] VAngle "qe_2311" "# cqePh2311";
   Row [476] VAngle "qe_2312" "# cqePh2312";
   Row [477] VAngle "qe_2313" "# cqePh2313";
   Row [478] VAngle "qe_2321" "# cqePh2321";
   Row [479] VAngle "qe_2322" "# cqePh2322";
   Row [480] VAngle "qe_2323" "# cqePh2323";
   Row [481] VAngle "qe_2331" "# cqePh2331";
   Row [482] VAngle "qe_2332" "# cqePh2332";
   Row [483] VAngle "qe_2333" "# cqePh2333";
   Row [484] VAngle "qe_3312" "# cqePh3312";
   Row [485] VAngle "qe_3313" "# cqePh3313";
   Row [486] VAngle "qe_3323" "# cqePh3323";
   Row [487] VAngle "qu1_1112" "# cqu1Ph1112";
   Row [488] VAngle "qu1_1113" "# cqu1Ph1113";
   Row [489] VAngle "qu1_1123" "# cqu1Ph1123";
   Row [490] VAngle "qu1_1211" "# cqu1Ph1211";
   Row [491] VAngle "qu1_1212" "# cqu1Ph1212";
   Row [492] VAngle "qu1_1221" "# cqu1Ph1221";
   Row [493] VAngle "qu1_1213" "# cqu1Ph1213";
   Row [494] VAngle "qu1_1231" "# cqu1Ph1231";
   Row [495] VAngle "qu1_1222" "# cqu1Ph1222";
   Row [496] VAngle "qu1_1223" "# cqu1Ph1223";
   Row [497] VAngle "qu1_1232" "# cqu1Ph1232";
   Row [498] VAngle "qu1_1233" "# cqu1Ph1233";
   Row [499] VAngle "qu1_1311" "# cqu1Ph1311";
   Row [500] VAngle "qu1_1312" "# cqu1Ph1312";
   Row [501] VAngle "qu1_1313" "# cqu1Ph1313";
   Row [502] VAngle "qu1_1331" "# cqu1Ph1331";
   Row [503] VAngle "qu1_1321" "# cqu1Ph1321";
   Row [504] VAngle "qu1_1322" "# cqu1Ph1322";
   Row [505] VAngle "qu1_1332" "# cqu1Ph1332";
   Row [506] VAngle "qu1_1323" "# cqu1Ph1323";
   Row [507] VAngle "qu1_1333" "# cqu1Ph1333";
   Row [508] VAngle "qu1_2212" "# cqu1Ph2212";
   Row [509] VAngle "qu1_2213" "# cqu1Ph2213";
   Row [510] VAngle "qu1_2223" "# cqu1Ph2223";
   Row [511] VAngle "qu1_2311" "# cqu1Ph2311";
   Row [512] VAngle "qu1_2312" "# cqu1Ph2312";
   Row [513] VAngle "qu1_2313" "# cqu1Ph2313";
   Row [514] VAngle "qu1_2321" "# cqu1Ph2321";
   Row [515] VAngle "qu1_2322" "# cqu1Ph2322";
   Row [516] VAngle "qu1_2323" "# cqu1Ph2323";
   Row [517] VAngle "qu1_2331" "# cqu1Ph2331";
   Row [518] VAngle "qu1_2332" "# cqu1Ph2332";
   Row [519] VAngle "qu1_2333" "# cqu1Ph2333";
   Row [520] VAngle "qu1_3312" "# cqu1Ph3312";
   Row [521] VAngle "qu1_3313" "# cqu1Ph3313";
   Row [522] VAngle "qu1_3323" "# cqu1Ph3323";
   Row [523] VAngle "qd1_1112" "# cqd1Ph1112";
   Row [524] VAngle "qd1_1113" "# cqd1Ph1113";
   Row [525] VAngle "qd1_1123" "# cqd1Ph1123";
   Row [526] VAngle "qd1_1211" "# cqd1Ph1211";
   Row [527] VAngle "qd1_1212" "# cqd1Ph1212";
   Row [528] VAngle "qd1_1221" "# cqd1Ph1221";
   Row [529] VAngle "qd1_1213" "# cqd1Ph1213";
   Row [530] VAngle "qd1_1231" "# cqd1Ph1231";
   Row [531] VAngle "qd1_1222" "# cqd1Ph1222";
   Row [532] VAngle "qd1_1223" "# cqd1Ph1223";
   Row [533] VAngle "qd1_1232" "# cqd1Ph1232";
   Row [534] VAngle "qd1_1233" "# cqd1Ph1233";
   Row [535] VAngle "qd1_1311" "# cqd1Ph1311";
   Row [536] VAngle "qd1_1312" "# cqd1Ph1312";
   Row [537] VAngle "qd1_1313" "# cqd1Ph1313";
   Row [538] VAngle "qd1_1331" "# cqd1Ph1331";
   Row [539] VAngle "qd1_1321" "# cqd1Ph1321";
   Row [540] VAngle "qd1_1322" "# cqd1Ph1322";
   Row [541] VAngle "qd1_1332" "# cqd1Ph1332";
   Row [542] VAngle "qd1_1323" "# cqd1Ph1323";
   Row [543] VAngle "qd1_1333" "# cqd1Ph1333";
   Row [544] VAngle "qd1_2212" "# cqd1Ph2212";
   Row [545] VAngle "qd1_2213" "# cqd1Ph2213";
   Row [546] VAngle "qd1_2223" "# cqd1Ph2223";
   Row [547] VAngle "qd1_2311" "# cqd1Ph2311";
   Row [548] VAngle "qd1_2312" "# cqd1Ph2312";
   Row [549] VAngle "qd1_2313" "# cqd1Ph2313";
   Row [550] VAngle "qd1_2321" "# cqd1Ph2321";
   Row [551] VAngle "qd1_2322" "# cqd1Ph2322";
   Row [552] VAngle "qd1_2323" "# cqd1Ph2323";
   Row [553] VAngle "qd1_2331" "# cqd1Ph2331";
   Row [554] VAngle "qd1_2332" "# cqd1Ph2332";
   Row [555] VAngle "qd1_2333" "# cqd1Ph2333";
   Row [556] VAngle "qd1_3312" "# cqd1Ph3312";
   Row [557] VAngle "qd1_3313" "# cqd1Ph3313";
   Row [558] VAngle "qd1_3323" "# cqd1Ph3323";
   Row [559] VAngle "qu8_1112" "# cqu8Ph1112";
   Row [560] VAngle "qu8_1113" "# cqu8Ph1113";
   Row [561] VAngle "qu8_1123" "# cqu8Ph1123";
   Row [562] VAngle "qu8_1211" "# cqu8Ph1211";
   Row [563] VAngle "qu8_1212" "# cqu8Ph1212";
   Row [564] VAngle "qu8_1221" "# cqu8Ph1221";
   Row [565] VAngle "qu8_1213" "# cqu8Ph1213";
   Row [566] VAngle "qu8_1231" "# cqu8Ph1231";
   Row [567] VAngle "qu8_1222" "# cqu8Ph1222";
   Row [568] VAngle "qu8_1223" "# cqu8Ph1223";
   Row [569] VAngle "qu8_1232" "# cqu8Ph1232";
   Row [570] VAngle "qu8_1233" "# cqu8Ph1233";
   Row [571] VAngle "qu8_1311" "# cqu8Ph1311";
   Row [572] VAngle "qu8_1312" "# cqu8Ph1312";
   Row [573] VAngle "qu8_1313" "# cqu8Ph1313";
   Row [574] VAngle "qu8_1331" "# cqu8Ph1331";
   Row [575] VAngle "qu8_1321" "# cqu8Ph1321";
   Row [576] VAngle "qu8_1322" "# cqu8Ph1322";
   Row [577] VAngle "qu8_1332" "# cqu8Ph1332";
   Row [578] VAngle "qu8_1323" "# cqu8Ph1323";
   Row [579] VAngle "qu8_1333" "# cqu8Ph1333";
   Row [580] VAngle "qu8_2212" "# cqu8Ph2212";
   Row [581] VAngle "qu8_2213" "# cqu8Ph2213";
   Row [582] VAngle "qu8_2223" "# cqu8Ph2223";
   Row [583] VAngle "qu8_2311" "# cqu8Ph2311";
   Row [584] VAngle "qu8_2312" "# cqu8Ph2312";
   Row [585] VAngle "qu8_2313" "# cqu8Ph2313";
   Row [586] VAngle "qu8_2321" "# cqu8Ph2321";
   Row [587] VAngle "qu8_2322" "# cqu8Ph2322";
   Row [588] VAngle "qu8_2323" "# cqu8Ph2323";
   Row [589] VAngle "qu8_2331" "# cqu8Ph2331";
   Row [590] VAngle "qu8_2332" "# cqu8Ph2332";
   Row [591] VAngle "qu8_2333" "# cqu8Ph2333";
   Row [592] VAngle "qu8_3312" "# cqu8Ph3312";
   Row [593] VAngle "qu8_3313" "# cqu8Ph3313";
   Row [594] VAngle "qu8_3323" "# cqu8Ph3323";
   Row [595] VAngle "qd8_1112" "# cqd8Ph1112";
   Row [596] VAngle "qd8_1113" "# cqd8Ph1113";
   Row [597] VAngle "qd8_1123" "# cqd8Ph1123";
   Row [598] VAngle "qd8_1211" "# cqd8Ph1211";
   Row [599] VAngle "qd8_1212" "# cqd8Ph1212";
   Row [600] VAngle "qd8_1221" "# cqd8Ph1221";
   Row [601] VAngle "qd8_1213" "# cqd8Ph1213";
   Row [602] VAngle "qd8_1231" "# cqd8Ph1231";
   Row [603] VAngle "qd8_1222" "# cqd8Ph1222";
   Row [604] VAngle "qd8_1223" "# cqd8Ph1223";
   Row [605] VAngle "qd8_1232" "# cqd8Ph1232";
   Row [606] VAngle "qd8_1233" "# cqd8Ph1233";
   Row [607] VAngle "qd8_1311" "# cqd8Ph1311";
   Row [608] VAngle "qd8_1312" "# cqd8Ph1312";
   Row [609] VAngle "qd8_1313" "# cqd8Ph1313";
   Row [610] VAngle "qd8_1331" "# cqd8Ph1331";
   Row [611] VAngle "qd8_1321" "# cqd8Ph1321";
   Row [612] VAngle "qd8_1322" "# cqd8Ph1322";
   Row [613] VAngle "qd8_1332" "# cqd8Ph1332";
   Row [614] VAngle "qd8_1323" "# cqd8Ph1323";
   Row [615] VAngle "qd8_1333" "# cqd8Ph1333";
   Row [616] VAngle "qd8_2212" "# cqd8Ph2212";
   Row [617] VAngle "qd8_2213" "# cqd8Ph2213";
   Row [618] VAngle "qd8_2223" "# cqd8Ph2223";
   Row [619] VAngle "qd8_2311" "# cqd8Ph2311";
   Row [620] VAngle "qd8_2312" "# cqd8Ph2312";
   Row [621] VAngle "qd8_2313" "# cqd8Ph2313";
   Row [622] VAngle "qd8_2321" "# cqd8Ph2321";
   Row [623] VAngle "qd8_2322" "# cqd8Ph2322";
   Row [624] VAngle "qd8_2323" "# cqd8Ph2323";
   Row [625] VAngle "qd8_2331" "# cqd8Ph2331";
   Row [626] VAngle "qd8_2332" "# cqd8Ph2332";
   Row [627] VAngle "qd8_2333" "# cqd8Ph2333";
   Row [628] VAngle "qd8_3312" "# cqd8Ph3312";
   Row [629] VAngle "qd8_3313" "# cqd8Ph3313";
   Row [630] VAngle "qd8_3323" "# cqd8Ph3323";
   Row [631] VLambda "" "# LambdaSMEFT";
   Row [632] VRaw "G" "# cG";
   Row [633] VRaw "Gtilde" "# cGtil";
   Row [634] VRaw "W" "# cW";
   Row [635] VRaw "Wtilde" "# cWtil";
   Row [636] VRaw "phi" "# cH";
   Row [637] VRaw "phiBox" "# cHbox";
   Row [638] VRaw "phiD" "# cHDD";
   Row [639] VRaw "phiG" "# cHG";
   Row [640] VRaw "phiGtilde" "# cHGtil";
   Row [641] VRaw "phiW" "# cHW";
   Row [642] VRaw "phiWtilde" "# cHWtil";
   Row [643] VRaw "phiB" "# cHB";
   Row [644] VRaw "phiBtilde" "# cHBtil";
   Row [645] VRaw "phiWB" "# cHWB";
   Row [646] VRaw "phiWtildeB" "# cHWBtil";
   Row [647] VAbs "phil1_11" "# cHl1Abs11";
   Row [648] VAbs "phil1_12" "# cHl1Abs12";
   Row [649] VAbs "phil1_13" "# cHl1Abs13";
   Row [650] VAbs "phil1_22" "# cHl1Abs22";
   Row [651] VAbs "phil1_23" "# cHl1Abs23";
   Row [652] VAbs "phil1_33" "# cHl1Abs33";
   Row [653] VAbs "phil3_11" "# cHl3Abs11";
   Row [654] VAbs "phil3_12" "# cHl3Abs12";
   Row [655] VAbs "phil3_13" "# cHl3Abs13";
   Row [656] VAbs "phil3_22" "# cHl3Abs22";
   Row [657] VAbs "phil3_23" "# cHl3Abs23";
   Row [658] VAbs "phil3_33" "# cHl3Abs33";
   Row [659] VAbs "phiq1_11" "# cHq1Abs11";
   Row [660] VAbs "phiq1_12" "# cHq1Abs12";
   Row [661] VAbs "phiq1_13" "# cHq1Abs13";
   Row [662] VAbs "phiq1_22" "# cHq1Abs22";
   Row [663] VAbs "phiq1_23" "# cHq1Abs23";
   Row [664] VAbs "phiq1_33" "# cHq1Abs33";
   Row [665] VAbs "phiq3_11" "# cHq3Abs11";
   Row [666] VAbs "phiq3_12" "# cHq3Abs12";
   Row [667] VAbs "phiq3_13" "# cHq3Abs13";
   Row [668] VAbs "phiq3_22" "# cHq3Abs22";
   Row [669] VAbs "phiq3_23" "# cHq3Abs23";
   Row [670] VAbs "phiq3_33" "# cHq3Abs33";
   Row [671] VAbs "phie_11" "# cHeAbs11";
   Row [672] VAbs "phie_12" "# cHeAbs12";
   Row [673] VAbs "phie_13" "# cHeAbs13";
   Row [674] VAbs "phie_22" "# cHeAbs22";
   Row [675] VAbs "phie_23" "# cHeAbs23";
   Row [676] VAbs "phie_33" "# cHeAbs33";
   Row [677] VAbs "phiu_11" "# cHuAbs11";
   Row [678] VAbs "phiu_12" "# cHuAbs12";
   Row [679] VAbs "phiu_13" "# cHuAbs13";
   Row [680] VAbs "phiu_22" "# cHuAbs22";
   Row [681] VAbs "phiu_23" "# cHuAbs23";
   Row [682] VAbs "phiu_33" "# cHuAbs33";
   Row [683] VAbs "phid_11" "# cHdAbs11";
   Row [684] VAbs "phid_12" "# cHdAbs12";
   Row [685] VAbs "phid_13" "# cHdAbs13";
   Row [686] VAbs "phid_22" "# cHdAbs22";
   Row [687] VAbs "phid_23" "# cHdAbs23";
   Row [688] VAbs "phid_33" "# cHdAbs33";
   Row [689] VRaw "ll_1111" "# cllAbs1111";
   Row [690] VRaw "ll_1122" "# cllAbs1122";
   Row [691] VRaw "ll_1221" "# cllAbs1221";
   Row [692] VRaw "ll_1133" "# cllAbs1133";
   Row [693] VRaw "ll_1331" "# cllAbs1331";
   Row [694] VRaw "ll_2222" "# cllAbs2222";
   Row [695] VRaw "ll_2233" "# cllAbs2233";
   Row [696] VRaw "ll_2332" "# cllAbs2332";
   Row [697] VRaw "ll_3333" "# cllAbs3333";
   Row [698] VAbs "ll_1112" "# cllAbs1112";
   Row [699] VAbs "ll_1113" "# cllAbs1113";
   Row [700] VAbs "ll_1123" "# cllAbs1123";
   Row [701] VAbs "ll_1212" "# cllAbs1212";
   Row [702] VAbs "ll_1213" "# cllAbs1213";
   Row [703] VAbs "ll_1231" "# cllAbs1231";
   Row [704] VAbs "ll_1222" "# cllAbs1222";
   Row [705] VAbs "ll_1223" "# cllAbs1223";
   Row [706] VAbs "ll_1232" "# cllAbs1232";
   Row [707] VAbs "ll_1233" "# cllAbs1233";
   Row [708] VAbs "ll_1313" "# cllAbs1313";
   Row [709] VAbs "ll_1322" "# cllAbs1322";
   Row [710] VAbs "ll_1332" "# cllAbs1332";
   Row [711] VAbs "ll_1323" "# cllAbs1323";
   Row [712] VAbs "ll_1333" "# cllAbs1333";
   Row [713] VAbs "ll_2223" "# cllAbs2223";
   Row [714] VAbs "ll_2323" "# cllAbs2323";
   Row [715] VAbs "ll_2333" "# cllAbs3323";
   Row [716] VRaw "qq1_1111" "# cqq1Abs1111";
   Row [717] VRaw "qq1_1122" "# cqq1Abs1122";
   Row [718] VRaw "qq1_1221" "# cqq1Abs1221";
   Row [719] VRaw "qq1_1133" "# cqq1Abs1133";
   Row [720] VRaw "qq1_1331" "# cqq1Abs1331";
   Row [721] VRaw "qq1_2222" "# cqq1Abs2222";
   Row [722] VRaw "qq1_2233" "# cqq1Abs2233";
   Row [723] VRaw "qq1_2332" "# cqq1Abs2332";
   Row [724] VRaw "qq1_3333" "# cqq1Abs3333";
   Row [725] VAbs "qq1_1112" "# cqq1Abs1112";
   Row [726] VAbs "qq1_1113" "# cqq1Abs1113";
   Row [727] VAbs "qq1_1123" "# cqq1Abs1123";
   Row [728] VAbs "qq1_1212" "# cqq1Abs1212";
   Row [729] VAbs "qq1_1213" "# cqq1Abs1213";
   Row [730] VAbs "qq1_1231" "# cqq1Abs1231";
   Row [731] VAbs "qq1_1222" "# cqq1Abs1222";
   Row [732] VAbs "qq1_1223" "# cqq1Abs1223";
   Row [733] VAbs "qq1_1232" "# cqq1Abs1232";
   Row [734] VAbs "qq1_1233" "# cqq1Abs1233";
   Row [735] VAbs "qq1_1313" "# cqq1Abs1313";
   Row [736] VAbs "qq1_1322" "# cqq1Abs1322";
   Row [737] VAbs "qq1_1332" "# cqq1Abs1332";
   Row [738] VAbs "qq1_1323" "# cqq1Abs1323";
   Row [739] VAbs "qq1_1333" "# cqq1Abs1333";
   Row [740] VAbs "qq1_2223" "# cqq1Abs2223";
   Row [741] VAbs "qq1_2323" "# cqq1Abs2323";
   Row [742] VAbs "qq1_2333" "# cqq1Abs3323";
   Row [743] VRaw "qq3_1111" "# cqq3Abs1111";
   Row [744] VRaw "qq3_1122" "# cqq3Abs1122";
   Row [745] VRaw "qq3_1221" "# cqq3Abs1221";
   Row [746] VRaw "qq3_1133" "# cqq3Abs1133";
   Row [747] VRaw "qq3_1331" "# cqq3Abs1331";
   Row [748] VRaw "qq3_2222" "# cqq3Abs2222";
   Row [749] VRaw "qq3_2233" "# cqq3Abs2233";
   Row [750] VRaw "qq3_2332" "# cqq3Abs2332";
   Row [751] VRaw "qq3_3333" "# cqq3Abs3333";
   Row [752] VAbs "qq3_1112" "# cqq3Abs1112";
   Row [753] VAbs "qq3_1113" "# cqq3Abs1113";
   Row [754] VAbs "qq3_1123" "# cqq3Abs1123";
   Row [755] VAbs "qq3_1212" "# cqq3Abs1212";
   Row [756] VAbs "qq3_1213" "# cqq3Abs1213";
   Row [757] VAbs "qq3_1231" "# cqq3Abs1231";
   Row [758] VAbs "qq3_1222" "# cqq3Abs1222";
   Row [759] VAbs "qq3_1223" "# cqq3Abs1223";
   Row [760] VAbs "qq3_1232" "# cqq3Abs1232";
   Row [761] VAbs "qq3_1233" "# cqq3Abs1233";
   Row [762] VAbs "qq3_1313" "# cqq3Abs1313";
   Row [763] VAbs "qq3_1322" "# cqq3Abs1322";
   Row [764] VAbs "qq3_1332" "# cqq3Abs1332";
   Row [765] VAbs "qq3_1323" "# cqq3Abs1323";
   Row [766] VAbs "qq3_1333" "# cqq3Abs1333";
   Row [767] VAbs "qq3_2223" "# cqq3Abs2223";
   Row [768] VAbs "qq3_2323" "# cqq3Abs2323";
   Row [769] VAbs "qq3_2333" "# cqq3Abs3323";
   Row [770] VRaw "lq1_1111" "# clq1Abs1111";
   Row [771] VAbs "lq1_1112" "# clq1Abs1112";
   Row [772] VAbs "lq1_1113" "# clq1Abs1113";
   Row [773] VAbs "lq1_1123" "# clq1Abs1123";
   Row [774] VRaw "lq1_1122" "# clq1Abs1122";
   Row [775] VRaw "lq1_1133" "# clq1Abs1133";
   Row [776] VAbs "lq1_1211" "# clq1Abs1211";
   Row [777] VAbs "lq1_1212" "# clq1Abs1212";
   Row [778] VAbs "lq1_1221" "# clq1Abs1221";
   Row [779] VAbs "lq1_1213" "# clq1Abs1213";
   Row [780] VAbs "lq1_1231" "# clq1Abs1231";
   Row [781] VAbs "lq1_1222" "# clq1Abs1222";
   Row [782] VAbs "lq1_1223" "# clq1Abs1223";
   Row [783] VAbs "lq1_1232" "# clq1Abs1232";
   Row [784] VAbs "lq1_1233" "# clq1Abs1233";
   Row [785] VAbs "lq1_1311" "# clq1Abs1311";
   Row [786] VAbs "lq1_1312" "# clq1Abs1312";
   Row [787] VAbs "lq1_1313" "# clq1Abs1313";
   Row [788] VAbs "lq1_1331" "# clq1Abs1331";
   Row [789] VAbs "lq1_1321" "# clq1Abs1321";
   Row [790] VAbs "lq1_1322" "# clq1Abs1322";
   Row [791] VAbs "lq1_1332" "# clq1Abs1332";
   Row [792] VAbs "lq1_1323" "# clq1Abs1323";
   Row [793] VAbs "lq1_1333" "# clq1Abs1333";
   Row [794] VRaw "lq1_2211" "# clq1Abs2211";
   Row [795] VAbs "lq1_2212" "# clq1Abs2212";
   Row [796] VAbs "lq1_2213" "# clq1Abs2213";
   Row [797] VRaw "lq1_2222" "# clq1Abs2222";
   Row [798] VAbs "lq1_2223" "# clq1Abs2223";
   Row [799] VRaw "lq1_2233" "# clq1Abs2233";
   Row [800] VAbs "lq1_2311" "# clq1Abs2311";
   Row [801] VAbs "lq1_2312" "# clq1Abs2312";
   Row [802] VAbs "lq1_2313" "# clq1Abs2313";
   Row [803] VAbs "lq1_2321" "# clq1Abs2321";
   Row [804] VAbs "lq1_2322" "# clq1Abs2322";
   Row [805] VAbs "lq1_2323" "# clq1Abs2323";
   Row [806] VAbs "lq1_2331" "# clq1Abs2331";
   Row [807] VAbs "lq1_2332" "# clq1Abs2332";
   Row [808] VAbs "lq1_2333" "# clq1Abs2333";
   Row [809] VRaw "lq1_3311" "# clq1Abs3311";
   Row [810] VAbs "lq1_3312" "# clq1Abs3312";
   Row [811] VAbs "lq1_3313" "# clq1Abs3313";
   Row [812] VRaw "lq1_3322" "# clq1Abs3322";
   Row [813] VRaw "lq1_3333" "# clq1Abs3333";
   Row [814] VAbs "lq1_3323" "# clq1Abs3323";
   Row [815] VRaw "lq3_1111" "# clq3Abs1111";
   Row [816] VAbs "lq3_1112" "# clq3Abs1112";
   Row [817] VAbs "lq3_1113" "# clq3Abs1113";
   Row [818] VAbs "lq3_1123" "# clq3Abs1123";
   Row [819] VRaw "lq3_1122" "# clq3Abs1122";
   Row [820] VRaw "lq3_1133" "# clq3Abs1133";
   Row [821] VAbs "lq3_1211" "# clq3Abs1211";
   Row [822] VAbs "lq3_1212" "# clq3Abs1212";
   Row [823] VAbs "lq3_1221" "# clq3Abs1221";
   Row [824] VAbs "lq3_1213" "# clq3Abs1213";
   Row [825] VAbs "lq3_1231" "# clq3Abs1231";
   Row [826] VAbs "lq3_1222" "# clq3Abs1222";
   Row [827] VAbs "lq3_1223" "# clq3Abs1223";
   Row [828] VAbs "lq3_1232" "# clq3Abs1232";
   Row [829] VAbs "lq3_1233" "# clq3Abs1233";
   Row [830] VAbs "lq3_1311" "# clq3Abs1311";
   Row [831] VAbs "lq3_1312" "# clq3Abs1312";
   Row [832] VAbs "lq3_1313" "# clq3Abs1313";
   Row [833] VAbs "lq3_1331" "# clq3Abs1331";
   Row [834] VAbs "lq3_1321" "# clq3Abs1321";
   Row [835] VAbs "lq3_1322" "# clq3Abs1322";
   Row [836] VAbs "lq3_1332" "# clq3Abs1332";
   Row [837] VAbs "lq3_1323" "# clq3Abs1323";
   Row [838] VAbs "lq3_1333" "# clq3Abs1333";
   Row [839] VRaw "lq3_2211" "# clq3Abs2211";
   Row [840] VAbs "lq3_2212" "# clq3Abs2212";
   Row [841] VAbs "lq3_2213" "# clq3Abs2213";
   Row [842] VRaw "lq3_2222" "# clq3Abs2222";
   Row [843] VAbs "lq3_2223" "# clq3Abs2223";
   Row [844] VRaw "lq3_2233" "# clq3Abs2233";
   Row [845] VAbs "lq3_2311" "# clq3Abs2311";
   Row [846] VAbs "lq3_2312" "# clq3Abs2312";
   Row [847] VAbs "lq3_2313" "# clq3Abs2313";
   Row [848] VAbs "lq3_2321" "# clq3Abs2321";
   Row [849] VAbs "lq3_2322" "# clq3Abs2322";
   Row [850] VAbs "lq3_2323" "# clq3Abs2323";
   Row [851] VAbs "lq3_2331" "# clq3Abs2331";
   Row [852] VAbs "lq3_2332" "# clq3Abs2332";
   Row [853] VAbs "lq3_2333" "# clq3Abs2333";
   Row [854] VRaw "lq3_3311" "# clq3Abs3311";
   Row [855] VAbs "lq3_3312" "# clq3Abs3312";
   Row [856] VAbs "lq3_3313" "# clq3Abs3313";
   Row [857] VRaw "lq3_3322" "# clq3Abs3322";
   Row [858] VRaw "lq3_3333" "# clq3Abs3333";
   Row [859] VAbs "lq3_3323" "# clq3Abs3323";
   Row [860] VRaw "ee_1111" "# ceeAbs1111";
   Row [861] VRaw "ee_1122" "# ceeAbs1122";
   Row [862] VRaw "ee_1133" "# ceeAbs1133";
   Row [863] VRaw "ee_2222" "# ceeAbs2222";
   Row [864] VRaw "ee_2233" "# ceeAbs2233";
   Row [865] VAbs "ee_1112" "# ceeAbs1112";
   Row [866] VAbs "ee_3333" "# ceeAbs3333";
   Row [867] VAbs "ee_1123" "# ceeAbs1123";
   Row [868] VAbs "ee_1113" "# ceeAbs1113";
   Row [869] VAbs "ee_1213" "# ceeAbs1213";
   Row [870] VAbs "ee_1212" "# ceeAbs1212";
   Row [871] VAbs "ee_1232" "# ceeAbs1232";
   Row [872] VAbs "ee_1222" "# ceeAbs1222";
   Row [873] VAbs "ee_1313" "# ceeAbs1313";
   Row [874] VAbs "ee_1233" "# ceeAbs1233";
   Row [875] VAbs "ee_1323" "# ceeAbs1323";
   Row [876] VAbs "ee_1223" "# ceeAbs1322";
   Row [877] VAbs "ee_2223" "# ceeAbs2223";
   Row [878] VAbs "ee_1333" "# ceeAbs1333";
   Row [879] VAbs "ee_2333" "# ceeAbs3323";
   Row [880] VAbs "ee_2323" "# ceeAbs2323";
   Row [881] VRaw "uu_1111" "# cuuAbs1111";
   Row [882] VRaw "uu_1122" "# cuuAbs1122";
   Row [883] VRaw "uu_1221" "# cuuAbs1221";
   Row [884] VRaw "uu_1133" "# cuuAbs1133";
   Row [885] VRaw "uu_1331" "# cuuAbs1331";
   Row [886] VRaw "uu_2222" "# cuuAbs2222";
   Row [887] VRaw "uu_2233" "# cuuAbs2233";
   Row [888] VRaw "uu_2332" "# cuuAbs2332";
   Row [889] VRaw "uu_3333" "# cuuAbs3333";
   Row [890] VAbs "uu_1112" "# cuuAbs1112";
   Row [891] VAbs "uu_1113" "# cuuAbs1113";
   Row [892] VAbs "uu_1123" "# cuuAbs1123";
   Row [893] VAbs "uu_1212" "# cuuAbs1212";
   Row [894] VAbs "uu_1213" "# cuuAbs1213";
   Row [895] VAbs "uu_1231" "# cuuAbs1231";
   Row [896] VAbs "uu_1222" "# cuuAbs1222";
   Row [897] VAbs "uu_1223" "# cuuAbs1223";
   Row [898] VAbs "uu_1232" "# cuuAbs1232";
   Row [899] VAbs "uu_1233" "# cuuAbs1233";
   Row [900] VAbs "uu_1313" "# cuuAbs1313";
   Row [901] VAbs "uu_1322" "# cuuAbs1322";
   Row [902] VAbs "uu_1332" "# cuuAbs1332";
   Row [903] VAbs "uu_1323" "# cuuAbs1323";
   Row [904] VAbs "uu_1333" "# cuuAbs1333";
   Row [905] VAbs "uu_2223" "# cuuAbs2223";
   Row [906] VAbs "uu_2323" "# cuuAbs2323";
   Row [907] VAbs "uu_2333" "# cuuAbs3323";
   Row [908] VRaw "dd_1111" "# cddAbs1111";
   Row [909] VRaw "dd_1122" "# cddAbs1122";
   Row [910] VRaw "dd_1221" "# cddAbs1221";
   Row [911] VRaw "dd_1133" "# cddAbs1133";
   Row [912] VRaw "dd_1331" "# cddAbs1331";
   Row [913] VRaw "dd_2222" "# cddAbs2222";
   Row [914] VRaw "dd_2233" "# cddAbs2233";
   Row [915] VRaw "dd_2332" "# cddAbs2332";
   Row [916] VRaw "dd_3333" "# cddAbs3333";
   Row [917] VAbs "dd_1112" "# cddAbs1112";
   Row [918] VAbs "dd_1113" "# cddAbs1113";
   Row [919] VAbs "dd_1123" "# cddAbs1123";
   Row [920] VAbs "dd_1212" "# cddAbs1212";
   Row [921] VAbs "dd_1213" "# cddAbs1213";
   Row [922] VAbs "dd_1231" "# cddAbs1231";
   Row [923] VAbs "dd_1222" "# cddAbs1222";
   Row [924] VAbs "dd_1223" "# cddAbs1223";
   Row [925] VAbs "dd_1232" "# cddAbs1232";
   Row [926] VAbs "dd_1233" "# cddAbs1233";
   Row [927] VAbs "dd_1313" "# cddAbs1313";
   Row [928] VAbs "dd_1322" "# cddAbs1322";
   Row [929] VAbs "dd_1332" "# cddAbs1332";
   Row [930] VAbs "dd_1323" "# cddAbs1323";
   Row [931] VAbs "dd_1333" "# cddAbs1333";
   Row [932] VAbs "dd_2223" "# cddAbs2223";
   Row [933] VAbs "dd_2323" "# cddAbs2323";
   Row [934] VAbs "dd_2333" "# cddAbs3323";
   Row [935] VRaw "eu_1111" "# ceuAbs1111";
   Row [936] VAbs "eu_1112" "# ceuAbs1112";
   Row [937] VAbs "eu_1113" "# ceuAbs1113";
   Row [938] VAbs "eu_1123" "# ceuAbs1123";
   Row [939] VRaw "eu_1122" "# ceuAbs1122";
   Row [940] VRaw "eu_1133" "# ceuAbs1133";
   Row [941] VAbs "eu_1211" "# ceuAbs1211";
   Row [942] VAbs "eu_1212" "# ceuAbs1212";
   Row [943] VAbs "eu_1221" "# ceuAbs1221";
   Row [944] VAbs "eu_1213" "# ceuAbs1213";
   Row [945] VAbs "eu_1231" "# ceuAbs1231";
   Row [946] VAbs "eu_1222" "# ceuAbs1222";
   Row [947] VAbs "eu_1223" "# ceuAbs1223";
   Row [948] VAbs "eu_1232" "# ceuAbs1232";
   Row [949] VAbs "eu_1233" "# ceuAbs1233";
   Row [950] VAbs "eu_1311" "# ceuAbs1311";
   Row [951] VAbs "eu_1312" "# ceuAbs1312";
   Row [952] VAbs "eu_1313" "# ceuAbs1313";
   Row [953] VAbs "eu_1331" "# ceuAbs1331";
   Row [954] VAbs "eu_1321" "# ceuAbs1321";
   Row [955] VAbs "eu_1322" "# ceuAbs1322";
   Row [956] VAbs "eu_1332" "# ceuAbs1332";
   Row [957] VAbs "eu_1323" "# ceuAbs1323";
   Row [958] VAbs "eu_1333" "# ceuAbs1333";
   Row [959] VRaw "eu_2211" "# ceuAbs2211";
   Row [960] VAbs "eu_2212" "# ceuAbs2212";
   Row [961] VAbs "eu_2213" "# ceuAbs2213";
   Row [962] VRaw "eu_2222" "# ceuAbs2222";
   Row [963] VAbs "eu_2223" "# ceuAbs2223";
   Row [964] VRaw "eu_2233" "# ceuAbs2233";
   Row [965] VAbs "eu_2311" "# ceuAbs2311";
   Row [966] VAbs "eu_2312" "# ceuAbs2312";
   Row [967] VAbs "eu_2313" "# ceuAbs2313";
   Row [968] VAbs "eu_2321" "# ceuAbs2321";
   Row [969] VAbs "eu_2322" "# ceuAbs2322";
   Row [970] VAbs "eu_2323" "# ceuAbs2323";
   Row [971] VAbs "eu_2331" "# ceuAbs2331";
   Row [972] VAbs "eu_2332" "# ceuAbs2332";
   Row [973] VAbs "eu_2333" "# ceuAbs2333";
   Row [974] VRaw "eu_3311" "# ceuAbs3311";
   Row [975] VAbs "eu_3312" "# ceuAbs3312";
   Row [976] VAbs "eu_3313" "# ceuAbs3313";
   Row [977] VRaw "eu_3322" "# ceuAbs3322";
   Row [978] VRaw "eu_3333" "# ceuAbs3333";
   Row [979] VAbs "eu_3323" "# ceuAbs3323";
   Row [980] VRaw "ed_1111" "# cedAbs1111";
   Row [981] VAbs "ed_1112" "# cedAbs1112";
   Row [982] VAbs "ed_1113" "# cedAbs1113";
   Row [983] VAbs "ed_1123" "# cedAbs1123";
   Row [984] VRaw "ed_1122" "# cedAbs1122";
   Row [985] VRaw "ed_1133" "# cedAbs1133";
   Row [986] VAbs "ed_1211" "# cedAbs1211";
   Row [987] VAbs "ed_1212" "# cedAbs1212";
   Row [988] VAbs "ed_1221" "# cedAbs1221";
   Row [989] VAbs "ed_1213" "# cedAbs1213";
   Row [990] VAbs "ed_1231" "# cedAbs1231";
   Row [991] VAbs "ed_1222" "# cedAbs1222";
   Row [992] VAbs "ed_1223" "# cedAbs1223";
   Row [993] VAbs "ed_1232" "# cedAbs1232";
   Row [994] VAbs "ed_1233" "# cedAbs1233";
   Row [995] VAbs "ed_1311" "# cedAbs1311";
   Row [996] VAbs "ed_1312" "# cedAbs1312";
   Row [997] VAbs "ed_1313" "# cedAbs1313";
   Row [998] VAbs "ed_1331" "# cedAbs1331";
   Row [999] VAbs "ed_1321" "# cedAbs1321";
   Row [1000] VAbs "ed_1322" "# cedAbs1322";
   Row [1001] VAbs "ed_1332" "# cedAbs1332";
   Row [1002] VAbs "ed_1323" "# cedAbs1323";
   Row [1003] VAbs "ed_1333" "# cedAbs1333";
   Row [1004] VRaw "ed_2211" "# cedAbs2211";
   Row [1005] VAbs "ed_2212" "# cedAbs2212";
   Row [1006] VAbs "ed_2213" "# cedAbs2213";
   Row [1007] VRaw "ed_2222" "# cedAbs2222";
   Row [1008] VAbs "ed_2223" "# cedAbs2223";
   Row [1009] VRaw "ed_2233" "# cedAbs2233";
   Row [1010] VAbs "ed_2311" "# cedAbs2311";
   Row [1011] VAbs "ed_2312" "# cedAbs2312";
   Row [1012] VAbs "ed_2313" "# cedAbs2313";
   Row [1013] VAbs "ed_2321" "# cedAbs2321";
   Row [1014] VAbs "ed_2322" "# cedAbs2322";
   Row [1015] VAbs "ed_2323" "# cedAbs2323";
   Row [1016] VAbs "ed_2331" "# cedAbs2331";
   Row [1017] VAbs "ed_2332" "# cedAbs2332";
   Row [1018] VAbs "ed_2333" "# cedAbs2333";
   Row [1019] VRaw "ed_3311" "# cedAbs3311";
   Row [1020] VAbs "ed_3312" "# cedAbs3312";
   Row [1021] VAbs "ed_3313" "# cedAbs3313";
   Row [1022] VRaw "ed_3322" "# cedAbs3322";
   Row [1023] VRaw "ed_3333" "# cedAbs3333";
   Row [1024] VAbs "ed_3323" "# cedAbs3323";
   Row [1025] VRaw "ud1_1111" "# cud1Abs1111";
   Row [1026] VAbs "ud1_1112" "# cud1Abs1112";
   Row [1027] VAbs "ud1_1113" "# cud1Abs1113";
   Row [1028] VAbs "ud1_1123" "# cud1Abs1123";
   Row [1029] VRaw "ud1_1122" "# cud1Abs1122";
   Row [1030] VRaw "ud1_1133" "# cud1Abs1133";
   Row [1031] VAbs "ud1_1211" "# cud1Abs1211";
   Row [1032] VAbs "ud1_1212" "# cud1Abs1212";
   Row [1033] VAbs "ud1_1221" "# cud1Abs1221";
   Row [1034] VAbs "ud1_1213" "# cud1Abs1213";
   Row [1035] VAbs "ud1_1231" "# cud1Abs1231";
   Row [1036] VAbs "ud1_1222" "# cud1Abs1222";
   Row [1037] VAbs "ud1_1223" "# cud1Abs1223";
   Row [1038] VAbs "ud1_1232" "# cud1Abs1232";
   Row [1039] VAbs "ud1_1233" "# cud1Abs1233";
   Row [1040] VAbs "ud1_1311" "# cud1Abs1311";
   Row [1041] VAbs "ud1_1312" "# cud1Abs1312";
   Row [1042] VAbs "ud1_1313" "# cud1Abs1313";
   Row [1043] VAbs "ud1_1331" "# cud1Abs1331";
   Row [1044] VAbs "ud1_1321" "# cud1Abs1321";
   Row [1045] VAbs "ud1_1322" "# cud1Abs1322";
   Row [1046] VAbs "ud1_1332" "# cud1Abs1332";
   Row [1047] VAbs "ud1_1323" "# cud1Abs1323";
   Row [1048] VAbs "ud1_1333" "# cud1Abs1333";
   Row [1049] VRaw "ud1_2211" "# cud1Abs2211";
   Row [1050] VAbs "ud1_2212" "# cud1Abs2212";
   Row [1051] VAbs "ud1_2213" "# cud1Abs2213";
   Row [1052] VRaw "ud1_2222" "# cud1Abs2222";
   Row [1053] VAbs "ud1_2223" "# cud1Abs2223";
   Row [1054] VRaw "ud1_2233" "# cud1Abs2233";
   Row [1055] VAbs "ud1_2311" "# cud1Abs2311";
   Row [1056] VAbs "ud1_2312" "# cud1Abs2312";
   Row [1057] VAbs "ud1_2313" "# cud1Abs2313";
   Row [1058] VAbs "ud1_2321" "# cud1Abs2321";
   Row [1059] VAbs "ud1_2322" "# cud1Abs2322";
   Row [1060] VAbs "ud1_2323" "# cud1Abs2323";
   Row [1061] VAbs "ud1_2331" "# cud1Abs2331";
   Row [1062] VAbs "ud1_2332" "# cud1Abs2332";
   Row [1063] VAbs "ud1_2333" "# cud1Abs2333";
   Row [1064] VRaw "ud1_3311" "# cud1Abs3311";
   Row [1065] VAbs "ud1_3312" "# cud1Abs3312";
   Row [1066] VAbs "ud1_3313" "# cud1Abs3313";
   Row [1067] VRaw "ud1_3322" "# cud1Abs3322";
   Row [1068] VRaw "ud1_3333" "# cud1Abs3333";
   Row [1069] VAbs "ud1_3323" "# cud1Abs3323";
   Row [1070] VRaw "ud8_1111" "# cud8Abs1111";
   Row [1071] VAbs "ud8_1112" "# cud8Abs1112";
   Row [1072] VAbs "ud8_1113" "# cud8Abs1113";
   Row [1073] VAbs "ud8_1123" "# cud8Abs1123";
   Row [1074] VRaw "ud8_1122" "# cud8Abs1122";
   Row [1075] VRaw "ud8_1133" "# cud8Abs1133";
   Row [1076] VAbs "ud8_1211" "# cud8Abs1211";
   Row [1077] VAbs "ud8_1212" "# cud8Abs1212";
   Row [1078] VAbs "ud8_1221" "# cud8Abs1221";
   Row [1079] VAbs "ud8_1213" "# cud8Abs1213";
   Row [1080] VAbs "ud8_1231" "# cud8Abs1231";
   Row [1081] VAbs "ud8_1222" "# cud8Abs1222";
   Row [1082] VAbs "ud8_1223" "# cud8Abs1223";
   Row [1083] VAbs "ud8_1232" "# cud8Abs1232";
   Row [1084] VAbs "ud8_1233" "# cud8Abs1233";
   Row [1085] VAbs "ud8_1311" "# cud8Abs1311";
   Row [1086] VAbs "ud8_1312" "# cud8Abs1312";
   Row [1087] VAbs "ud8_1313" "# cud8Abs1313";
   Row [1088] VAbs "ud8_1331" "# cud8Abs1331";
   Row [1089] VAbs "ud8_1321" "# cud8Abs1321";
   Row [1090] VAbs "ud8_1322" "# cud8Abs1322";
   Row [1091] VAbs "ud8_1332" "# cud8Abs1332";
   Row [1092] VAbs "ud8_1323" "# cud8Abs1323";
   Row [1093] VAbs "ud8_1333" "# cud8Abs1333";
   Row [1094] VRaw "ud8_2211" "# cud8Abs2211";
   Row [1095] VAbs "ud8_2212" "# cud8Abs2212";
   Row [1096] VAbs "ud8_2213" "# cud8Abs2213";
   Row [1097] VRaw "ud8_2222" "# cud8Abs2222";
   Row [1098] VAbs "ud8_2223" "# cud8Abs2223";
   Row [1099] VRaw "ud8_2233" "# cud8Abs2233";
   Row [1100] VAbs "ud8_2311" "# cud8Abs2311";
   Row [1101] VAbs "ud8_2312" "# cud8Abs2312";
   Row [1102] VAbs "ud8_2313" "# cud8Abs2313";
   Row [1103] VAbs "ud8_2321" "# cud8Abs2321";
   Row [1104] VAbs "ud8_2322" "# cud8Abs2322";
   Row [1105] VAbs "ud8_2323" "# cud8Abs2323";
   Row [1106] VAbs "ud8_2331" "# cud8Abs2331";
   Row [1107] VAbs "ud8_2332" "# cud8Abs2332";
   Row [1108] VAbs "ud8_2333" "# cud8Abs2333";
   Row [1109] VRaw "ud8_3311" "# cud8Abs3311";
   Row [1110] VAbs "ud8_3312" "# cud8Abs3312";
   Row [1111] VAbs "ud8_3313" "# cud8Abs3313";
   Row [1112] VRaw "ud8_3322" "# cud8Abs3322";
   Row [1113] VRaw "ud8_3333" "# cud8Abs3333";
   Row [1114] VAbs "ud8_3323" "# cud8Abs3323";
   Row [1115] VRaw "le_1111" "# cleAbs1111";
   Row [1116] VAbs "le_1112" "# cleAbs1112";
   Row [1117] VAbs "le_1113" "# cleAbs1113";
   Row [1118] VAbs "le_1123" "# cleAbs1123";
   Row [1119] VRaw "le_1122" "# cleAbs1122";
   Row [1120] VRaw "le_1133" "# cleAbs1133";
   Row [1121] VAbs "le_1211" "# cleAbs1211";
   Row [1122] VAbs "le_1212" "# cleAbs1212";
   Row [1123] VAbs "le_1221" "# cleAbs1221";
   Row [1124] VAbs "le_1213" "# cleAbs1213";
   Row [1125] VAbs "le_1231" "# cleAbs1231";
   Row [1126] VAbs "le_1222" "# cleAbs1222";
   Row [1127] VAbs "le_1223" "# cleAbs1223";
   Row [1128] VAbs "le_1232" "# cleAbs1232";
   Row [1129] VAbs "le_1233" "# cleAbs1233";
   Row [1130] VAbs "le_1311" "# cleAbs1311";
   Row [1131] VAbs "le_1312" "# cleAbs1312";
   Row [1132] VAbs "le_1313" "# cleAbs1313";
   Row [1133] VAbs "le_1331" "# cleAbs1331";
   Row [1134] VAbs "le_1321" "# cleAbs1321";
   Row [1135] VAbs "le_1322" "# cleAbs1322";
   Row [1136] VAbs "le_1332" "# cleAbs1332";
   Row [1137] VAbs "le_1323" "# cleAbs1323";
   Row [1138] VAbs "le_1333" "# cleAbs1333";
   Row [1139] VRaw "le_2211" "# cleAbs2211";
   Row [1140] VAbs "le_2212" "# cleAbs2212";
   Row [1141] VAbs "le_2213" "# cleAbs2213";
   Row [1142] VRaw "le_2222" "# cleAbs2222";
   Row [1143] VAbs "le_2223" "# cleAbs2223";
   Row [1144] VRaw "le_2233" "# cleAbs2233";
   Row [1145] VAbs "le_2311" "# cleAbs2311";
   Row [1146] VAbs "le_2312" "# cleAbs2312";
   Row [1147] VAbs "le_2313" "# cleAbs2313";
   Row [1148] VAbs "le_2321" "# cleAbs2321";
   Row [1149] VAbs "le_2322" "# cleAbs2322";
   Row [1150] VAbs "le_2323" "# cleAbs2323";
   Row [1151] VAbs "le_2331" "# cleAbs2331";
   Row [1152] VAbs "le_2332" "# cleAbs2332";
   Row [1153] VAbs "le_2333" "# cleAbs2333";
   Row [1154] VRaw "le_3311" "# cleAbs3311";
   Row [1155] VAbs "le_3312" "# cleAbs3312";
   Row [1156] VAbs "le_3313" "# cleAbs3313";
   Row [1157] VRaw "le_3322" "# cleAbs3322";
   Row [1158] VRaw "le_3333" "# cleAbs3333";
   Row [1159] VAbs "le_3323" "# cleAbs3323";
   Row [1160] VRaw "lu_1111" "# cluAbs1111";
   Row [1161] VAbs "lu_1112" "# cluAbs1112";
   Row [1162] VAbs "lu_1113" "# cluAbs1113";
   Row [1163] VAbs "lu_1123" "# cluAbs1123";
   Row [1164] VRaw "lu_1122" "# cluAbs1122";
   Row [1165] VRaw "lu_1133" "# cluAbs1133";
   Row [1166] VAbs "lu_1211" "# cluAbs1211";
   Row [1167] VAbs "lu_1212" "# cluAbs1212";
   Row [1168] VAbs "lu_1221" "# cluAbs1221";
   Row [1169] VAbs "lu_1213" "# cluAbs1213";
   Row [1170] VAbs "lu_1231" "# cluAbs1231";
   Row [1171] VAbs "lu_1222" "# cluAbs1222";
   Row [1172] VAbs "lu_1223" "# cluAbs1223";
   Row [1173] VAbs "lu_1232" "# cluAbs1232";
   Row [1174] VAbs "lu_1233" "# cluAbs1233";
   Row [1175] VAbs "lu_1311" "# cluAbs1311";
   Row [1176] VAbs "lu_1312" "# cluAbs1312";
   Row [1177] VAbs "lu_1313" "# cluAbs1313";
   Row [1178] VAbs "lu_1331" "# cluAbs1331";
   Row [1179] VAbs "lu_1321" "# cluAbs1321";
   Row [1180] VAbs "lu_1322" "# cluAbs1322";
   Row [1181] VAbs "lu_1332" "# cluAbs1332";
   Row [1182] VAbs "lu_1323" "# cluAbs1323";
   Row [1183] VAbs "lu_1333" "# cluAbs1333";
   Row [1184] VRaw "lu_2211" "# cluAbs2211";
   Row [1185] VAbs "lu_2212" "# cluAbs2212";
   Row [1186] VAbs "lu_2213" "# cluAbs2213";
   Row [1187] VRaw "lu_2222" "# cluAbs2222";
   Row [1188] VAbs "lu_2223" "# cluAbs2223";
   Row [1189] VRaw "lu_2233" "# cluAbs2233";
   Row [1190] VAbs "lu_2311" "# cluAbs2311";
   Row [1191] VAbs "lu_2312" "# cluAbs2312";
   Row [1192] VAbs "lu_2313" "# cluAbs2313";
   Row [1193] VAbs "lu_2321" "# cluAbs2321";
   Row [1194] VAbs "lu_2322" "# cluAbs2322";
   Row [1195] VAbs "lu_2323" "# cluAbs2323";
   Row [1196] VAbs "lu_2331" "# cluAbs2331";
   Row [1197] VAbs "lu_2332" "# cluAbs2332";
   Row [1198] VAbs "lu_2333" "# cluAbs2333";
   Row [1199] VRaw "lu_3311" "# cluAbs3311";
   Row [1200] VAbs "lu_3312" "# cluAbs3312";
   Row [1201] VAbs "lu_3313" "# cluAbs3313";
   Row [1202] VRaw "lu_3322" "# cluAbs3322";
   Row [1203] VRaw "lu_3333" "# cluAbs3333";
   Row [1204] VAbs "lu_3323" "# cluAbs3323";
   Row [1205] VRaw "ld_1111" "# cldAbs1111";
   Row [1206] VAbs "ld_1112" "# cldAbs1112";
   Row [1207] VAbs "ld_1113" "# cldAbs1113";
   Row [1208] VAbs "ld_1123" "# cldAbs1123";
   Row [1209] VRaw "ld_1122" "# cldAbs1122";
   Row [1210] VRaw "ld_1133" "# cldAbs1133";
   Row [1211] VAbs "ld_1211" "# cldAbs1211";
   Row [1212] VAbs "ld_1212" "# cldAbs1212";
   Row [1213] VAbs "ld_1221" "# cldAbs1221";
   Row [1214] VAbs "ld_1213" "# cldAbs1213";
   Row [1215] VAbs "ld_1231" "# cldAbs1231";
   Row [1216] VAbs "ld_1222" "# cldAbs1222";
   Row [1217] VAbs "ld_1223" "# cldAbs1223";
   Row [1218] VAbs "ld_1232" "# cldAbs1232";
   Row [1219] VAbs "ld_1233" "# cldAbs1233";
   Row [1220] VAbs "ld_1311" "# cldAbs1311";
   Row [1221] VAbs "ld_1312" "# cldAbs1312";
   Row [1222] VAbs "ld_1313" "# cldAbs1313";
   Row [1223] VAbs "ld_1331" "# cldAbs1331";
   Row [1224] VAbs "ld_1321" "# cldAbs1321";
   Row [1225] VAbs "ld_1322" "# cldAbs1322";
   Row [1226] VAbs "ld_1332" "# cldAbs1332";
   Row [1227] VAbs "ld_1323" "# cldAbs1323";
   Row [1228] VAbs "ld_1333" "# cldAbs1333";
   Row [1229] VRaw "ld_2211" "# cldAbs2211";
   Row [1230] VAbs "ld_2212" "# cldAbs2212";
   Row [1231] VAbs "ld_2213" "# cldAbs2213";
   Row [1232] VRaw "ld_2222" "# cldAbs2222";
   Row [1233] VAbs "ld_2223" "# cldAbs2223";
   Row [1234] VRaw "ld_2233" "# cldAbs2233";
   Row [1235] VAbs "ld_2311" "# cldAbs2311";
   Row [1236] VAbs "ld_2312" "# cldAbs2312";
   Row [1237] VAbs "ld_2313" "# cldAbs2313";
   Row [1238] VAbs "ld_2321" "# cldAbs2321";
   Row [1239] VAbs "ld_2322" "# cldAbs2322";
   Row [1240] VAbs "ld_2323" "# cldAbs2323";
   Row [1241] VAbs "ld_2331" "# cldAbs2331";
   Row [1242] VAbs "ld_2332" "# cldAbs2332";
   Row [1243] VAbs "ld_2333" "# cldAbs2333";
   Row [1244] VRaw "ld_3311" "# cldAbs3311";
   Row [1245] VAbs "ld_3312" "# cldAbs3312";
   Row [1246] VAbs "ld_3313" "# cldAbs3313";
   Row [1247] VRaw "ld_3322" "# cldAbs3322";
   Row [1248] VRaw "ld_3333" "# cldAbs3333";
   Row [1249] VAbs "ld_3323" "# cldAbs3323";
   Row [1250] VRaw "qe_1111" "# cqeAbs1111";
   Row [1251] VAbs "qe_1112" "# cqeAbs1112";
   Row [1252] VAbs "qe_1113" "# cqeAbs1113";
   Row [1253] VAbs "qe_1123" "# cqeAbs1123";
   Row [1254] VRaw "qe_1122" "# cqeAbs1122";
   Row [1255] VRaw "qe_1133" "# cqeAbs1133";
   Row [1256] VAbs "qe_1211" "# cqeAbs1211";
   Row [1257] VAbs "qe_1212" "# cqeAbs1212";
   Row [1258] VAbs "qe_1221" "# cqeAbs1221";
   Row [1259] VAbs "qe_1213" "# cqeAbs1213";
   Row [1260] VAbs "qe_1231" "# cqeAbs1231";
   Row [1261] VAbs "qe_1222" "# cqeAbs1222";
   Row [1262] VAbs "qe_1223" "# cqeAbs1223";
   Row [1263] VAbs "qe_1232" "# cqeAbs1232";
   Row [1264] VAbs "qe_1233" "# cqeAbs1233";
   Row [1265] VAbs "qe_1311" "# cqeAbs1311";
   Row [1266] VAbs "qe_1312" "# cqeAbs1312";
   Row [1267] VAbs "qe_1313" "# cqeAbs1313";
   Row [1268] VAbs "qe_1331" "# cqeAbs1331";
   Row [1269] VAbs "qe_1321" "# cqeAbs1321";
   Row [1270] VAbs "qe_1322" "# cqeAbs1322";
   Row [1271] VAbs "qe_1332" "# cqeAbs1332";
   Row [1272] VAbs "qe_1323" "# cqeAbs1323";
   Row [1273] VAbs "qe_1333" "# cqeAbs1333";
   Row [1274] VRaw "qe_2211" "# cqeAbs2211";
   Row [1275] VAbs "qe_2212" "# cqeAbs2212";
   Row [1276] VAbs "qe_2213" "# cqeAbs2213";
   Row [1277] VRaw "qe_2222" "# cqeAbs2222";
   Row [1278] VAbs "qe_2223" "# cqeAbs2223";
   Row [1279] VRaw "qe_2233" "# cqeAbs2233";
   Row [1280] VAbs "qe_2311" "# cqeAbs2311";
   Row [1281] VAbs "qe_2312" "# cqeAbs2312";
   Row [1282] VAbs "qe_2313" "# cqeAbs2313";
   Row [1283] VAbs "qe_2321" "# cqeAbs2321";
   Row [1284] VAbs "qe_2322" "# cqeAbs2322";
   Row [1285] VAbs "qe_2323" "# cqeAbs2323";
   Row [1286] VAbs "qe_2331" "# cqeAbs2331";
   Row [1287] VAbs "qe_2332" "# cqeAbs2332";
   Row [1288] VAbs "qe_2333" "# cqeAbs2333";
   Row [1289] VRaw "qe_3311" "# cqeAbs3311";
   Row [1290] VAbs "qe_3312" "# cqeAbs3312";
   Row [1291] VAbs "qe_3313" "# cqeAbs3313";
   Row [1292] VRaw "qe_3322" "# cqeAbs3322";
   Row [1293] VRaw "qe_3333" "# cqeAbs3333";
   Row [1294] VAbs "qe_3323" "# cqeAbs3323";
   Row [1295] VRaw "qu1_1111" "# cqu1Abs1111";
   Row [1296] VAbs "qu1_1112" "# cqu1Abs1112";
   Row [1297] VAbs "qu1_1113" "# cqu1Abs1113";
   Row [1298] VAbs "qu1_1123" "# cqu1Abs1123";
   Row [1299] VRaw "qu1_1122" "# cqu1Abs1122";
   Row [1300] VRaw "qu1_1133" "# cqu1Abs1133";
   Row [1301] VAbs "qu1_1211" "# cqu1Abs1211";
   Row [1302] VAbs "qu1_1212" "# cqu1Abs1212";
   Row [1303] VAbs "qu1_1221" "# cqu1Abs1221";
   Row [1304] VAbs "qu1_1213" "# cqu1Abs1213";
   Row [1305] VAbs "qu1_1231" "# cqu1Abs1231";
   Row [1306] VAbs "qu1_1222" "# cqu1Abs1222";
   Row [1307] VAbs "qu1_1223" "# cqu1Abs1223";
   Row [1308] VAbs "qu1_1232" "# cqu1Abs1232";
   Row [1309] VAbs "qu1_1233" "# cqu1Abs1233";
   Row [1310] VAbs "qu1_1311" "# cqu1Abs1311";
   Row [1311] VAbs "qu1_1312" "# cqu1Abs1312";
   Row [1312] VAbs "qu1_1313" "# cqu1Abs1313";
   Row [1313] VAbs "qu1_1331" "# cqu1Abs1331";
   Row [1314] VAbs "qu1_1321" "# cqu1Abs1321";
   Row [1315] VAbs "qu1_1322" "# cqu1Abs1322";
   Row [1316] VAbs "qu1_1332" "# cqu1Abs1332";
   Row [1317] VAbs "qu1_1323" "# cqu1Abs1323";
   Row [1318] VAbs "qu1_1333" "# cqu1Abs1333";
   Row [1319] VRaw "qu1_2211" "# cqu1Abs2211";
   Row [1320] VAbs "qu1_2212" "# cqu1Abs2212";
   Row [1321] VAbs "qu1_2213" "# cqu1Abs2213";
   Row [1322] VRaw "qu1_2222" "# cqu1Abs2222";
   Row [1323] VAbs "qu1_2223" "# cqu1Abs2223";
   Row [1324] VRaw "qu1_2233" "# cqu1Abs2233";
   Row [1325] VAbs "qu1_2311" "# cqu1Abs2311";
   Row [1326] VAbs "qu1_2312" "# cqu1Abs2312";
   Row [1327] VAbs "qu1_2313" "# cqu1Abs2313";
   Row [1328] VAbs "qu1_2321" "# cqu1Abs2321";
   Row [1329] VAbs "qu1_2322" "# cqu1Abs2322";
   Row [1330] VAbs "qu1_2323" "# cqu1Abs2323";
   Row [1331] VAbs "qu1_2331" "# cqu1Abs2331";
   Row [1332] VAbs "qu1_2332" "# cqu1Abs2332";
   Row [1333] VAbs "qu1_2333" "# cqu1Abs2333";
   Row [1334] VRaw "qu1_3311" "# cqu1Abs3311";
   Row [1335] VAbs "qu1_3312" "# cqu1Abs3312";
   Row [1336] VAbs "qu1_3313" "# cqu1Abs3313";
   Row [1337] VRaw "qu1_3322" "# cqu1Abs3322";
   Row [1338] VRaw "qu1_3333" "# cqu1Abs3333";
   Row [1339] VAbs "qu1_3323" "# cqu1Abs3323";
   Row [1340] VRaw "qu8_1111" "# cqu8Abs1111";
   Row [1341] VAbs "qu8_1112" "# cqu8Abs1112";
   Row [1342] VAbs "qu8_1113" "# cqu8Abs1113";
   Row [1343] VAbs "qu8_1123" "# cqu8Abs1123";
   Row [1344] VRaw "qu8_1122" "# cqu8Abs1122";
   Row [1345] VRaw "qu8_1133" "# cqu8Abs1133";
   Row [1346] VAbs "qu8_1211" "# cqu8Abs1211";
   Row [1347] VAbs "qu8_1212" "# cqu8Abs1212";
   Row [1348] VAbs "qu8_1221" "# cqu8Abs1221";
   Row [1349] VAbs "qu8_1213" "# cqu8Abs1213";
   Row [1350] VAbs "qu8_1231" "# cqu8Abs1231";
   Row [1351] VAbs "qu8_1222" "# cqu8Abs1222";
   Row [1352] VAbs "qu8_1223" "# cqu8Abs1223";
   Row [1353] VAbs "qu8_1232" "# cqu8Abs1232";
   Row [1354] VAbs "qu8_1233" "# cqu8Abs1233";
   Row [1355] VAbs "qu8_1311" "# cqu8Abs1311";
   Row [1356] VAbs "qu8_1312" "# cqu8Abs1312";
   Row [1357] VAbs "qu8_1313" "# cqu8Abs1313";
   Row [1358] VAbs "qu8_1331" "# cqu8Abs1331";
   Row [1359] VAbs "qu8_1321" "# cqu8Abs1321";
   Row [1360] VAbs "qu8_1322" "# cqu8Abs1322";
   Row [1361] VAbs "qu8_1332" "# cqu8Abs1332";
   Row [1362] VAbs "qu8_1323" "# cqu8Abs1323";
   Row [1363] VAbs "qu8_1333" "# cqu8Abs1333";
   Row [1364] VRaw "qu8_2211" "# cqu8Abs2211";
   Row [1365] VAbs "qu8_2212" "# cqu8Abs2212";
   Row [1366] VAbs "qu8_2213" "# cqu8Abs2213";
   Row [1367] VRaw "qu8_2222" "# cqu8Abs2222";
   Row [1368] VAbs "qu8_2223" "# cqu8Abs2223";
   Row [1369] VRaw "qu8_2233" "# cqu8Abs2233";
   Row [1370] VAbs "qu8_2311" "# cqu8Abs2311";
   Row [1371] VAbs "qu8_2312" "# cqu8Abs2312";
   Row [1372] VAbs "qu8_2313" "# cqu8Abs2313";
   Row [1373] VAbs "qu8_2321" "# cqu8Abs2321";
   Row [1374] VAbs "qu8_2322" "# cqu8Abs2322";
   Row [1375] VAbs "qu8_2323" "# cqu8Abs2323";
   Row [1376] VAbs "qu8_2331" "# cqu8Abs2331";
   Row [1377] VAbs "qu8_2332" "# cqu8Abs2332";
   Row [1378] VAbs "qu8_2333" "# cqu8Abs2333";
   Row [1379] VRaw "qu8_3311" "# cqu8Abs3311";
   Row [1380] VAbs "qu8_3312" "# cqu8Abs3312";
   Row [1381] VAbs "qu8_3313" "# cqu8Abs3313";
   Row [1382] VRaw "qu8_3322" "# cqu8Abs3322";
   Row [1383] VRaw "qu8_3333" "# cqu8Abs3333";
   Row [1384] VAbs "qu8_3323" "# cqu8Abs3323";
   Row [1385] VRaw "qd1_1111" "# cqd1Abs1111";
   Row [1386] VAbs "qd1_1112" "# cqd1Abs1112";
   Row [1387] VAbs "qd1_1113" "# cqd1Abs1113";
   Row [1388] VAbs "qd1_1123" "# cqd1Abs1123";
   Row [1389] VRaw "qd1_1122" "# cqd1Abs1122";
   Row [1390] VRaw "qd1_1133" "# cqd1Abs1133";
   Row [1391] VAbs "qd1_1211" "# cqd1Abs1211";
   Row [1392] VAbs "qd1_1212" "# cqd1Abs1212";
   Row [1393] VAbs "qd1_1221" "# cqd1Abs1221";
   Row [1394] VAbs "qd1_1213" "# cqd1Abs1213";
   Row [1395] VAbs "qd1_1231" "# cqd1Abs1231";
   Row [1396] VAbs "qd1_1222" "# cqd1Abs1222";
   Row [1397] VAbs "qd1_1223" "# cqd1Abs1223";
   Row [1398] VAbs "qd1_1232" "# cqd1Abs1232";
   Row [1399] VAbs "qd1_1233" "# cqd1Abs1233";
   Row [1400] VAbs "qd1_1311" "# cqd1Abs1311";
   Row [1401] VAbs "qd1_1312" "# cqd1Abs1312";
   Row [1402] VAbs "qd1_1313" "# cqd1Abs1313";
   Row [1403] VAbs "qd1_1331" "# cqd1Abs1331";
   Row [1404] VAbs "qd1_1321" "# cqd1Abs1321";
   Row [1405] VAbs "qd1_1322" "# cqd1Abs1322";
   Row [1406] VAbs "qd1_1332" "# cqd1Abs1332";
   Row [1407] VAbs "qd1_1323" "# cqd1Abs1323";
   Row [1408] VAbs "qd1_1333" "# cqd1Abs1333";
   Row [1409] VRaw "qd1_2211" "# cqd1Abs2211";
   Row [1410] VAbs "qd1_2212" "# cqd1Abs2212";
   Row [1411] VAbs "qd1_2213" "# cqd1Abs2213";
   Row [1412] VRaw "qd1_2222" "# cqd1Abs2222";
   Row [1413] VAbs "qd1_2223" "# cqd1Abs2223";
   Row [1414] VRaw "qd1_2233" "# cqd1Abs2233";
   Row [1415] VAbs "qd1_2311" "# cqd1Abs2311";
   Row [1416] VAbs "qd1_2312" "# cqd1Abs2312";
   Row [1417] VAbs "qd1_2313" "# cqd1Abs2313";
   Row [1418] VAbs "qd1_2321" "# cqd1Abs2321";
   Row [1419] VAbs "qd1_2322" "# cqd1Abs2322";
   Row [1420] VAbs "qd1_2323" "# cqd1Abs2323";
   Row [1421] VAbs "qd1_2331" "# cqd1Abs2331";
   Row [1422] VAbs "qd1_2332" "# cqd1Abs2332";
   Row [1423] VAbs "qd1_2333" "# cqd1Abs2333";
   Row [1424] VRaw "qd1_3311" "# cqd1Abs3311";
   Row [1425] VAbs "qd1_3312" "# cqd1Abs3312";
   Row [1426] VAbs "qd1_3313" "# cqd1Abs3313";
   Row [1427] VRaw "qd1_3322" "# cqd1Abs3322";
   Row [1428] VRaw "qd1_3333" "# cqd1Abs3333";
   Row [1429] VAbs "qd1_3323" "# cqd1Abs3323";
   Row [1430] VRaw "qd8_1111" "# cqd8Abs1111";
   Row [1431] VAbs "qd8_1112" "# cqd8Abs1112";
   Row [1432] VAbs "qd8_1113" "# cqd8Abs1113";
   Row [1433] VAbs "qd8_1123" "# cqd8Abs1123";
   Row [1434] VRaw "qd8_1122" "# cqd8Abs1122";
   Row [1435] VRaw "qd8_1133" "# cqd8Abs1133";
   Row [1436] VAbs "qd8_1211" "# cqd8Abs1211";
   Row [1437] VAbs "qd8_1212" "# cqd8Abs1212";
   Row [1438] VAbs "qd8_1221" "# cqd8Abs1221";
   Row [1439] VAbs "qd8_1213" "# cqd8Abs1213";
   Row [1440] VAbs "qd8_1231" "# cqd8Abs1231";
   Row [1441] VAbs "qd8_1222" "# cqd8Abs1222";
   Row [1442] VAbs "qd8_1223" "# cqd8Abs1223";
   Row [1443] VAbs "qd8_1232" "# cqd8Abs1232";
   Row [1444] VAbs "qd8_1233" "# cqd8Abs1233";
   Row [1445] VAbs "qd8_1311" "# cqd8Abs1311";
   Row [1446] VAbs "qd8_1312" "# cqd8Abs1312";
   Row [1447] VAbs "qd8_1313" "# cqd8Abs1313";
   Row [1448] VAbs "qd8_1331" "# cqd8Abs1331";
   Row [1449] VAbs "qd8_1321" "# cqd8Abs1321";
   Row [1450] VAbs "qd8_1322" "# cqd8Abs1322";
   Row [1451] VAbs "qd8_1332" "# cqd8Abs1332";
   Row [1452] VAbs "qd8_1323" "# cqd8Abs1323";
   Row [1453] VAbs "qd8_1333" "# cqd8Abs1333";
   Row [1454] VRaw "qd8_2211" "# cqd8Abs2211";
   Row [1455] VAbs "qd8_2212" "# cqd8Abs2212";
   Row [1456] VAbs "qd8_2213" "# cqd8Abs2213";
   Row [1457] VRaw "qd8_2222" "# cqd8Abs2222";
   Row [1458] VAbs "qd8_2223" "# cqd8Abs2223";
   Row [1459] VRaw "qd8_2233" "# cqd8Abs2233";
   Row [1460] VAbs "qd8_2311" "# cqd8Abs2311";
   Row [1461] VAbs "qd8_2312" "# cqd8Abs2312";
   Row [1462] VAbs "qd8_2313" "# cqd8Abs2313";
   Row [1463] VAbs "qd8_2321" "# cqd8Abs2321";
   Row [1464] VAbs "qd8_2322" "# cqd8Abs2322";
   Row [1465] VAbs "qd8_2323" "# cqd8Abs2323";
   Row [1466] VAbs "qd8_2331" "# cqd8Abs2331";
   Row [1467] VAbs "qd8_2332" "# cqd8Abs2332";
   Row [1468] VAbs "qd8_2333" "# cqd8Abs2333";
   Row [1469] VRaw "qd8_3311" "# cqd8Abs3311";
   Row [1470] VAbs "qd8_3312" "# cqd8Abs3312";
   Row [1471] VAbs "qd8_3313" "# cqd8Abs3313";
   Row [1472] VRaw "qd8_3322" "# cqd8Abs3322";
   Row [1473] VRaw "qd8_3333" "# cqd8Abs3333";
   Row [1474] VAbs "qd8_3323" "# cqd8Abs3323"].
(** smeftsim.py 1572-1582 *)
Definition rowsA_FRBlock10 : list row :=
  [Row [1; 1] VAngle "phiud_11" "# cHudPh1x1";
   Row [1; 2] VAngle "phiud_12" "# cHudPh1x2";
   Row [1; 3] VAngle "phiud_13" "# cHudPh1x3";
   Row [2; 1] VAngle "phiud_21" "# cHudPh2x1";
   Row [2; 2] VAngle "phiud_22" "# cHudPh2x2";
   Row [2; 3] VAngle "phiud_23" "# cHudPh2x3";
   Row [3; 1] VAngle "phiud_31" "# cHudPh3x1";
   Row [3; 2] VAngle "phiud_32" "# cHudPh3x2";
   Row [3; 3] VAngle "phiud_33" "# cHudPh3x3"].
(** smeftsim.py 1584-1594 *)
Definition rowsA_FRBlock11 : list row :=
  [Row [1; 1] VAngle "ephi_11" "# ceHPh1x1";
   Row [1; 2] VAngle "ephi_12" "# ceHPh1x2";
   Row [1; 3] VAngle "ephi_13" "# ceHPh1x3";
   Row [2; 1] VAngle "ephi_21" "# ceHPh2x1";
   Row [2; 2] VAngle "ephi_22" "# ceHPh2x2";
   Row [2; 3] VAngle "ephi_23" "# ceHPh2x3";
   Row [3; 1] VAngle "ephi_31" "# ceHPh3x1";
   Row [3; 2] VAngle "ephi_32" "# ceHPh3x2";
   Row [3; 3] VAngle "ephi_33" "# ceHPh3x3"].
(** smeftsim.py 1596-1606 *)
Definition rowsA_FRBlock12 : list row :=
  [Row [1; 1] VAngle "uphi_11" "# cuHPh1x1";
   Row [1; 2] VAngle "uphi_12" "# cuHPh1x2";
   Row [1; 3] VAngle "uphi_13" "# cuHPh1x3";
   Row [2; 1] VAngle "uphi_21" "# cuHPh2x1";
   Row [2; 2] VAngle "uphi_22" "# cuHPh2x2";
   Row [2; 3] VAngle "uphi_23" "# cuHPh2x3";
   Row [3; 1] VAngle "uphi_31" "# cuHPh3x1";
   Row [3; 2] VAngle "uphi_32" "# cuHPh3x2";
   Row [3; 3] VAngle "uphi_33" "# cuHPh3x3"].
(** smeftsim.py 1608-1618 *)
Definition rowsA_FRBlock13 : list row :=
  [Row [1; 1] VAngle "dphi_11" "# cdHPh1x1";
   Row [1; 2] VAngle "dphi_12" "# cdHPh1x2";
   Row [1; 3] VAngle "dphi_13" "# cdHPh1x3";
   Row [2; 1] VAngle "dphi_21" "# cdHPh2x1";
   Row [2; 2] VAngle "dphi_22" "# cdHPh2x2";
   Row [2; 3] VAngle "dphi_23" "# cdHPh2x3";
   Row [3; 1] VAngle "dphi_31" "# cdHPh3x1";
   Row [3; 2] VAngle "dphi_32" "# cdHPh3x2";
   Row [3; 3] VAngle "dphi_33" "# cdHPh3x3"].
(** smeftsim.py 1620-1702 *)
Definition rowsA_FRBlock14 : list row :=
  [Row [1; 1; 1; 1] VAngle "ledq_1111" "# cledqPh1x1x1x1";
   Row [1; 1; 1; 2] VAngle "ledq_1112" "# cledqPh1x1x1x2";
   Row [1; 1; 1; 3] VAngle "ledq_1113" "# cledqPh1x1x1x3";
   Row [1; 1; 2; 1] VAngle "ledq_1121" "# cledqPh1x1x2x1";
   Row [1; 1; 2; 2] VAngle "ledq_1122" "# cledqPh1x1x2x2";
   Row [1; 1; 2; 3] VAngle "ledq_1123" "# cledqPh1x1x2x3";
   Row [1; 1; 3; 1] VAngle "ledq_1131" "# cledqPh1x1x3x1";
   Row [1; 1; 3; 2] VAngle "ledq_1132" "# cledqPh1x1x3x2";
   Row [1; 1; 3; 3] VAngle "ledq_1133" "# cledqPh1x1x3x3";
   Row [1; 2; 1; 1] VAngle "ledq_1211" "# cledqPh1x2x1x1";
   Row [1; 2; 1; 2] VAngle "ledq_1212" "# cledqPh1x2x1x2";
   Row [1; 2; 1; 3] VAngle "ledq_1213" "# cledqPh1x2x1x3";
   Row [1; 2; 2; 1] VAngle "ledq_1221" "# cledqPh1x2x2x1";
   Row [1; 2; 2; 2] VAngle "ledq_1222" "# cledqPh1x2x2x2";
   Row [1; 2; 2; 3] VAngle "ledq_1223" "# cledqPh1x2x2x3";
   Row [1; 2; 3; 1] VAngle "ledq_1231" "# cledqPh1x2x3x1";
   Row [1; 2; 3; 2] VAngle "ledq_1232" "# cledqPh1x2x3x2";
   Row [1; 2; 3; 3] VAngle "ledq_1233" "# cledqPh1x2x3x3";
   Row [1; 3; 1; 1] VAngle "ledq_1311" "# cledqPh1x3x1x1";
   Row [1; 3; 1; 2] VAngle "ledq_1312" "# cledqPh1x3x1x2";
   Row [1; 3; 1; 3] VAngle "ledq_1313" "# cledqPh1x3x1x3";
   Row [1; 3; 2; 1] VAngle "ledq_1321" "# cledqPh1x3x2x1";
   Row [1; 3; 2; 2] VAngle "ledq_1322" "# cledqPh1x3x2x2";
   Row [1; 3; 2; 3] VAngle "ledq_1323" "# cledqPh1x3x2x3";
   Row [1; 3; 3; 1] VAngle "ledq_1331" "# cledqPh1x3x3x1";
   Row [1; 3; 3; 2] VAngle "ledq_1332" "# cledqPh1x3x3x2";
   Row [1; 3; 3; 3] VAngle "ledq_1333" "# cledqPh1x3x3x3";
   Row [2; 1; 1; 1] VAngle "ledq_2111" "# cledqPh2x1x1x1";
   Row [2; 1; 1; 2] VAngle "ledq_2112" "# cledqPh2x1x1x2";
   Row [2; 1; 1; 3] VAngle "ledq_2113" "# cledqPh2x1x1x3";
   Row [2; 1; 2; 1] VAngle "ledq_2121" "# cledqPh2x1x2x1";
   Row [2; 1; 2; 2] VAngle "ledq_2122" "# cledqPh2x1x2x2";
   Row [2; 1; 2; 3] VAngle "ledq_2123" "# cledqPh2x1x2x3";
   Row [2; 1; 3; 1] VAngle "ledq_2131" "# cledqPh2x1x3x1";
   Row [2; 1; 3; 2] VAngle "ledq_2132" "# cledqPh2x1x3x2";
   Row [2; 1; 3; 3] VAngle "ledq_2133" "# cledqPh2x1x3x3";
   Row [2; 2; 1; 1] VAngle "ledq_2211" "# cledqPh2x2x1x1";
   Row [2; 2; 1; 2] VAngle "ledq_2212" "# cledqPh2x2x1x2";
   Row [2; 2; 1; 3] VAngle "ledq_2213" "# cledqPh2x2x1x3";
   Row [2; 2; 2; 1] VAngle "ledq_2221" "# cledqPh2x2x2x1";
   Row [2; 2; 2; 2] VAngle "ledq_2222" "# cledqPh2x2x2x2";
   Row [2; 2; 2; 3] VAngle "ledq_2223" "# cledqPh2x2x2x3";
   Row [2; 2; 3; 1] VAngle "ledq_2231" "# cledqPh2x2x3x1";
   Row [2; 2; 3; 2] VAngle "ledq_2232" "# cledqPh2x2x3x2";
   Row [2; 2; 3; 3] VAngle "ledq_2233" "# cledqPh2x2x3x3";
   Row [2; 3; 1; 1] VAngle "ledq_2311" "# cledqPh2x3x1x1";
   Row [2; 3; 1; 2] VAngle "ledq_2312" "# cledqPh2x3x1x2";
   Row [2; 3; 1; 3] VAngle "ledq_2313" "# cledqPh2x3x1x3";
   Row [2; 3; 2; 1] VAngle "ledq_2321" "# cledqPh2x3x2x1";
   Row [2; 3; 2; 2] VAngle "ledq_2322" "# cledqPh2x3x2x2";
   Row [2; 3; 2; 3] VAngle "ledq_2323" "# cledqPh2x3x2x3";
   Row [2; 3; 3; 1] VAngle "ledq_2331" "# cledqPh2x3x3x1";
   Row [2; 3; 3; 2] VAngle "ledq_2332" "# cledqPh2x3x3x2";
   Row [2; 3; 3; 3] VAngle "ledq_2333" "# cledqPh2x3x3x3";
   Row [3; 1; 1; 1] VAngle "ledq_3111" "# cledqPh3x1x1x1";
   Row [3; 1; 1; 2] VAngle "ledq_3112" "# cledqPh3x1x1x2";
   Row [3; 1; 1; 3] VAngle "ledq_3113" "# cledqPh3x1x1x3";
   Row [3; 1; 2; 1] VAngle "ledq_3121" "# cledqPh3x1x2x1";
   Row [3; 1; 2; 2] VAngle "ledq_3122" "# cledqPh3x1x2x2";
   Row [3; 1; 2; 3] VAngle "ledq_3123" "# cledqPh3x1x2x3";
   Row [3; 1; 3; 1] VAngle "ledq_3131" "# cledqPh3x1x3x1";
   Row [3; 1; 3; 2] VAngle "ledq_3132" "# cledqPh3x1x3x2";
   Row [3; 1; 3; 3] VAngle "ledq_3133" "# cledqPh3x1x3x3";
   Row [3; 2; 1; 1] VAngle "ledq_3211" "# cledqPh3x2x1x1";
   Row [3; 2; 1; 2] VAngle "ledq_3212" "# cledqPh3x2x1x2";
   Row [3; 2; 1; 3] VAngle "ledq_3213" "# cledqPh3x2x1x3";
   Row [3; 2; 2; 1] VAngle "ledq_3221" "# cledqPh3x2x2x1";
   Row [3; 2; 2; 2] VAngle "ledq_3222" "# cledqPh3x2x2x2";
   Row [3; 2; 2; 3] VAngle "ledq_3223" "# cledqPh3x2x2x3";
   Row [3; 2; 3; 1] VAngle "ledq_3231" "# cledqPh3x2x3x1";
   Row [3; 2; 3; 2] VAngle "ledq_3232" "# cledqPh3x2x3x2";
   Row [3; 2; 3; 3] VAngle "ledq_3233" "# cledqPh3x2x3x3";
   Row [3; 3; 1; 1] VAngle "ledq_3311" "# cledqPh3x3x1x1";
   Row [3; 3; 1; 2] VAngle "ledq_3312" "# cledqPh3x3x1x2";
   Row [3; 3; 1; 3] VAngle "ledq_3313" "# cledqPh3x3x1x3";
   Row [3; 3; 2; 1] VAngle "ledq_3321" "# cledqPh3x3x2x1";
   Row [3; 3; 2; 2] VAngle "ledq_3322" "# cledqPh3x3x2x2";
   Row [3; 3; 2; 3] VAngle "ledq_3323" "# cledqPh3x3x2x3";
   Row [3; 3; 3; 1] VAngle "ledq_3331" "# cledqPh3x3x3x1";
   Row [3; 3; 3; 2] VAngle "ledq_3332" "# cledqPh3x3x3x2";
   Row [3; 3; 3; 3] VAngle "ledq_3333" "# cledqPh3x3x3x3"].
(** smeftsim.py 1704-1786 *)
Definition rowsA_FRBlock15 : list row :=
  [Row [1; 1; 1; 1] VAngle "quqd1_1111" "# cquqd1Ph1x1x1x1";
   Row [1; 1; 1; 2] VAngle "quqd1_1112" "# cquqd1Ph1x1x1x2";
   Row [1; 1; 1; 3] VAngle "quqd1_1113" "# cquqd1Ph1x1x1x3";
   Row [1; 1; 2; 1] VAngle "quqd1_1121" "# cquqd1Ph1x1x2x1";
   Row [1; 1; 2; 2] VAngle "quqd1_1122" "# cquqd1Ph1x1x2x2";
   Row [1; 1; 2; 3] VAngle "quqd1_1123" "# cquqd1Ph1x1x2x3";
   Row [1; 1; 3; 1] VAngle "quqd1_1131" "# cquqd1Ph1x1x3x1";
   Row [1; 1; 3; 2] VAngle "quqd1_1132" "# cquqd1Ph1x1x3x2";
   Row [1; 1; 3; 3] VAngle "quqd1_1133" "# cquqd1Ph1x1x3x3";
   Row [1; 2; 1; 1] VAngle "quqd1_1211" "# cquqd1Ph1x2x1x1";
   Row [1; 2; 1; 2] VAngle "quqd1_1212" "# cquqd1Ph1x2x1x2";
   Row [1; 2; 1; 3] VAngle "quqd1_1213" "# cquqd1Ph1x2x1x3";
   Row [1; 2; 2; 1] VAngle "quqd1_1221" "# cquqd1Ph1x2x2x1";
   Row [1; 2; 2; 2] VAngle "quqd1_1222" "# cquqd1Ph1x2x2x2";
   Row [1; 2; 2; 3] VAngle "quqd1_1223" "# cquqd1Ph1x2x2x3";
   Row [1; 2; 3; 1] VAngle "quqd1_1231" "# cquqd1Ph1x2x3x1";
   Row [1; 2; 3; 2] VAngle "quqd1_1232" "# cquqd1Ph1x2x3x2";
   Row [1; 2; 3; 3] VAngle "quqd1_1233" "# cquqd1Ph1x2x3x3";
   Row [1; 3; 1; 1] VAngle "quqd1_1311" "# cquqd1Ph1x3x1x1";
   Row [1; 3; 1; 2] VAngle "quqd1_1312" "# cquqd1Ph1x3x1x2";
   Row [1; 3; 1; 3] VAngle "quqd1_1313" "# cquqd1Ph1x3x1x3";
   Row [1; 3; 2; 1] VAngle "quqd1_1321" "# cquqd1Ph1x3x2x1";
   Row [1; 3; 2; 2] VAngle "quqd1_1322" "# cquqd1Ph1x3x2x2";
   Row [1; 3; 2; 3] VAngle "quqd1_1323" "# cquqd1Ph1x3x2x3";
   Row [1; 3; 3; 1] VAngle "quqd1_1331" "# cquqd1Ph1x3x3x1";
   Row [1; 3; 3; 2] VAngle "quqd1_1332" "# cquqd1Ph1x3x3x2";
   Row [1; 3; 3; 3] VAngle "quqd1_1333" "# cquqd1Ph1x3x3x3";
   Row [2; 1; 1; 1] VAngle "quqd1_2111" "# cquqd1Ph2x1x1x1";
   Row [2; 1; 1; 2] VAngle "quqd1_2112" "# cquqd1Ph2x1x1x2";
   Row [2; 1; 1; 3] VAngle "quqd1_2113" "# cquqd1Ph2x1x1x3";
   Row [2; 1; 2; 1] VAngle "quqd1_2121" "# cquqd1Ph2x1x2x1";
   Row [2; 1; 2; 2] VAngle "quqd1_2122" "# cquqd1Ph2x1x2x2";
   Row [2; 1; 2; 3] VAngle "quqd1_2123" "# cquqd1Ph2x1x2x3";
   Row [2; 1; 3; 1] VAngle "quqd1_2131" "# cquqd1Ph2x1x3x1";
   Row [2; 1; 3; 2] VAngle "quqd1_2132" "# cquqd1Ph2x1x3x2";
   Row [2; 1; 3; 3] VAngle "quqd1_2133" "# cquqd1Ph2x1x3x3";
   Row [2; 2; 1; 1] VAngle "quqd1_2211" "# cquqd1Ph2x2x1x1";
   Row [2; 2; 1; 2] VAngle "quqd1_2212" "# cquqd1Ph2x2x1x2";
   Row [2; 2; 1; 3] VAngle "quqd1_2213" "# cquqd1Ph2x2x1x3";
   Row [2; 2; 2; 1] VAngle "quqd1_2221" "# cquqd1Ph2x2x2x1";
   Row [2; 2; 2; 2] VAngle "quqd1_2222" "# cquqd1Ph2x2x2x2";
   Row [2; 2; 2; 3] VAngle "quqd1_2223" "# cquqd1Ph2x2x2x3";
   Row [2; 2; 3; 1] VAngle "quqd1_2231" "# cquqd1Ph2x2x3x1";
   Row [2; 2; 3; 2] VAngle "quqd1_2232" "# cquqd1Ph2x2x3x2";
   Row [2; 2; 3; 3] VAngle "quqd1_2233" "# cquqd1Ph2x2x3x3";
   Row [2; 3; 1; 1] VAngle "quqd1_2311" "# cquqd1Ph2x3x1x1";
   Row [2; 3; 1; 2] VAngle "quqd1_2312" "# cquqd1Ph2x3x1x2";
   Row [2; 3; 1; 3] VAngle "quqd1_2313" "# cquqd1Ph2x3x1x3";
   Row [2; 3; 2; 1] VAngle "quqd1_2321" "# cquqd1Ph2x3x2x1";
   Row [2; 3; 2; 2] VAngle "quqd1_2322" "# cquqd1Ph2x3x2x2";
   Row [2; 3; 2; 3] VAngle "quqd1_2323" "# cquqd1Ph2x3x2x3";
   Row [2; 3; 3; 1] VAngle "quqd1_2331" "# cquqd1Ph2x3x3x1";
   Row [2; 3; 3; 2] VAngle "quqd1_2332" "# cquqd1Ph2x3x3x2";
   Row [2; 3; 3; 3] VAngle "quqd1_2333" "# cquqd1Ph2x3x3x3";
   Row [3; 1; 1; 1] VAngle "quqd1_3111" "# cquqd1Ph3x1x1x1";
   Row [3; 1; 1; 2] VAngle "quqd1_3112" "# cquqd1Ph3x1x1x2";
   Row [3; 1; 1; 3] VAngle "quqd1_3113" "# cquqd1Ph3x1x1x3";
   Row [3; 1; 2; 1] VAngle "quqd1_3121" "# cquqd1Ph3x1x2x1";
   Row [3; 1; 2; 2] VAngle "quqd1_3122" "# cquqd1Ph3x1x2x2";
   Row [3; 1; 2; 3] VAngle "quqd1_3123" "# cquqd1Ph3x1x2x3";
   Row [3; 1; 3; 1] VAngle "quqd1_3131" "# cquqd1Ph3x1x3x1";
   Row [3; 1; 3; 2] VAngle "quqd1_3132" "# cquqd1Ph3x1x3x2";
   Row [3; 1; 3; 3] VAngle "quqd1_3133" "# cquqd1Ph3x1x3x3";
   Row [3; 2; 1; 1] VAngle "quqd1_3211" "# cquqd1Ph3x2x1x1";
   Row [3; 2; 1; 2] VAngle "quqd1_3212" "# cquqd1Ph3x2x1x2";
   Row [3; 2; 1; 3] VAngle "quqd1_3213" "# cquqd1Ph3x2x1x3";
   Row [3; 2; 2; 1] VAngle "quqd1_3221" "# cquqd1Ph3x2x2x1";
   Row [3; 2; 2; 2] VAngle "quqd1_3222" "# cquqd1Ph3x2x2x2";
   Row [3; 2; 2; 3] VAngle "quqd1_3223" "# cquqd1Ph3x2x2x3";
   Row [3; 2; 3; 1] VAngle "quqd1_3231" "# cquqd1Ph3x2x3x1";
   Row [3; 2; 3; 2] VAngle "quqd1_3232" "# cquqd1Ph3x2x3x2";
   Row [3; 2; 3; 3] VAngle "quqd1_3233" "# cquqd1Ph3x2x3x3";
   Row [3; 3; 1; 1] VAngle "quqd1_3311" "# cquqd1Ph3x3x1x1";
   Row [3; 3; 1; 2] VAngle "quqd1_3312" "# cquqd1Ph3x3x1x2";
   Row [3; 3; 1; 3] VAngle "quqd1_3313" "# cquqd1Ph3x3x1x3";
   Row [3; 3; 2; 1] VAngle "quqd1_3321" "# cquqd1Ph3x3x2x1";
   Row [3; 3; 2; 2] VAngle "quqd1_3322" "# cquqd1Ph3x3x2x2";
   Row [3; 3; 2; 3] VAngle "quqd1_3323" "# cquqd1Ph3x3x2x3";
   Row [3; 3; 3; 1] VAngle "quqd1_3331" "# cquqd1Ph3x3x3x1";
   Row [3; 3; 3; 2] VAngle "quqd1_3332" "# cquqd1Ph3x3x3x2";
   Row [3; 3; 3; 3] VAngle "quqd1_3333" "# cquqd1Ph3x3x3x3"].
(** smeftsim.py 1788-1870 *)
Definition rowsA_FRBlock16 : list row :=
  [Row [1; 1; 1; 1] VAngle "quqd8_1111" "# cquqd8Ph1x1x1x1";
   Row [1; 1; 1; 2] VAngle "quqd8_1112" "# cquqd8Ph1x1x1x2";
   Row [1; 1; 1; 3] VAngle "quqd8_1113" "# cquqd8Ph1x1x1x3";
   Row [1; 1; 2; 1] VAngle "quqd8_1121" "# cquqd8Ph1x1x2x1";
   Row [1; 1; 2; 2] VAngle "quqd8_1122" "# cquqd8Ph1x1x2x2";
   Row [1; 1; 2; 3] VAngle "quqd8_1123" "# cquqd8Ph1x1x2x3";
   Row [1; 1; 3; 1] VAngle "quqd8_1131" "# cquqd8Ph1x1x3x1";
   Row [1; 1; 3; 2] VAngle "quqd8_1132" "# cquqd8Ph1x1x3x2";
   Row [1; 1; 3; 3] VAngle "quqd8_1133" "# cquqd8Ph1x1x3x3";
   Row [1; 2; 1; 1] VAngle "quqd8_1211" "# cquqd8Ph1x2x1x1";
   Row [1; 2; 1; 2] VAngle "quqd8_1212" "# cquqd8Ph1x2x1x2";
   Row [1; 2; 1; 3] VAngle "quqd8_1213" "# cquqd8Ph1x2x1x3";
   Row [1; 2; 2; 1] VAngle "quqd8_1221" "# cquqd8Ph1x2x2x1";
   Row [1; 2; 2; 2] VAngle "quqd8_1222" "# cquqd8Ph1x2x2x2";
   Row [1; 2; 2; 3] VAngle "quqd8_1223" "# cquqd8Ph1x2x2x3";
   Row [1; 2; 3; 1] VAngle "quqd8_1231" "# cquqd8Ph1x2x3x1";
   Row [1; 2; 3; 2] VAngle "quqd8_1232" "# cquqd8Ph1x2x3x2";
   Row [1; 2; 3; 3] VAngle "quqd8_1233" "# cquqd8Ph1x2x3x3";
   Row [1; 3; 1; 1] VAngle "quqd8_1311" "# cquqd8Ph1x3x1x1";
   Row [1; 3; 1; 2] VAngle "quqd8_1312" "# cquqd8Ph1x3x1x2";
   Row [1; 3; 1; 3] VAngle "quqd8_1313" "# cquqd8Ph1x3x1x3";
   Row [1; 3; 2; 1] VAngle "quqd8_1321" "# cquqd8Ph1x3x2x1";
   Row [1; 3; 2; 2] VAngle "quqd8_1322" "# cquqd8Ph1x3x2x2";
   Row [1; 3; 2; 3] VAngle "quqd8_1323" "# cquqd8Ph1x3x2x3";
   Row [1; 3; 3; 1] VAngle "quqd8_1331" "# cquqd8Ph1x3x3x1";
   Row [1; 3; 3; 2] VAngle "quqd8_1332" "# cquqd8Ph1x3x3x2";
   Row [1; 3; 3; 3] VAngle "quqd8_1333" "# cquqd8Ph1x3x3x3";
   Row [2; 1; 1; 1] VAngle "quqd8_2111" "# cquqd8Ph2x1x1x1";
   Row [2; 1; 1; 2] VAngle "quqd8_2112" "# cquqd8Ph2x1x1x2";
   Row [2; 1; 1; 3] VAngle "quqd8_2113" "# cquqd8Ph2x1x1x3";
   Row [2; 1; 2; 1] VAngle "quqd8_2121" "# cquqd8Ph2x1x2x1";
   Row [2; 1; 2; 2] VAngle "quqd8_2122" "# cquqd8Ph2x1x2x2";
   Row [2; 1; 2; 3] VAngle "quqd8_2123" "# cquqd8Ph2x1x2x3";
   Row [2; 1; 3; 1] VAngle "quqd8_2131" "# cquqd8Ph2x1x3x1";
   Row [2; 1; 3; 2] VAngle "quqd8_2132" "# cquqd8Ph2x1x3x2";
   Row [2; 1; 3; 3] VAngle "quqd8_2133" "# cquqd8Ph2x1x3x3";
   Row [2; 2; 1; 1] VAngle "quqd8_2211" "# cquqd8Ph2x2x1x1";
   Row [2; 2; 1; 2] VAngle "quqd8_2212" "# cquqd8Ph2x2x1x2";
   Row [2; 2; 1; 3] VAngle "quqd8_2213" "# cquqd8Ph2x2x1x3";
   Row [2; 2; 2; 1] VAngle "quqd8_2221" "# cquqd8Ph2x2x2x1";
   Row [2; 2; 2; 2] VAngle "quqd8_2222" "# cquqd8Ph2x2x2x2";
   Row [2; 2; 2; 3] VAngle "quqd8_2223" "# cquqd8Ph2x2x2x3";
   Row [2; 2; 3; 1] VAngle "quqd8_2231" "# cquqd8Ph2x2x3x1";
   Row [2; 2; 3; 2] VAngle "quqd8_2232" "# cquqd8Ph2x2x3x2";
   Row [2; 2; 3; 3] VAngle "quqd8_2233" "# cquqd8Ph2x2x3x3";
   Row [2; 3; 1; 1] VAngle "quqd8_2311" "# cquqd8Ph2x3x1x1";
   Row [2; 3; 1; 2] VAngle "quqd8_2312" "# cquqd8Ph2x3x1x2";
   Row [2; 3; 1; 3] VAngle "quqd8_2313" "# cquqd8Ph2x3x1x3";
   Row [2; 3; 2; 1] VAngle "quqd8_2321" "# cquqd8Ph2x3x2x1";
   Row [2; 3; 2; 2] VAngle "quqd8_2322" "# cquqd8Ph2x3x2x2";
   Row [2; 3; 2; 3] VAngle "quqd8_2323" "# cquqd8Ph2x3x2x3";
   Row [2; 3; 3; 1] VAngle "quqd8_2331" "# cquqd8Ph2x3x3x1";
   Row [2; 3; 3; 2] VAngle "quqd8_2332" "# cquqd8Ph2x3x3x2";
   Row [2; 3; 3; 3] VAngle "quqd8_2333" "# cquqd8Ph2x3x3x3";
   Row [3; 1; 1; 1] VAngle "quqd8_3111" "# cquqd8Ph3x1x1x1";
   Row [3; 1; 1; 2] VAngle "quqd8_3112" "# cquqd8Ph3x1x1x2";
   Row [3; 1; 1; 3] VAngle "quqd8_3113" "# cquqd8Ph3x1x1x3";
   Row [3; 1; 2; 1] VAngle "quqd8_3121" "# cquqd8Ph3x1x2x1";
   Row [3; 1; 2; 2] VAngle "quqd8_3122" "# cquqd8Ph3x1x2x2";
   Row [3; 1; 2; 3] VAngle "quqd8_3123" "# cquqd8Ph3x1x2x3";
   Row [3; 1; 3; 1] VAngle "quqd8_3131" "# cquqd8Ph3x1x3x1";
   Row [3; 1; 3; 2] VAngle "quqd8_3132" "# cquqd8Ph3x1x3x2";
   Row [3; 1; 3; 3] VAngle "quqd8_3133" "# cquqd8Ph3x1x3x3";
   Row [3; 2; 1; 1] VAngle "quqd8_3211" "# cquqd8Ph3x2x1x1";
   Row [3; 2; 1; 2] VAngle "quqd8_3212" "# cquqd8Ph3x2x1x2";
   Row [3; 2; 1; 3] VAngle "quqd8_3213" "# cquqd8Ph3x2x1x3";
   Row [3; 2; 2; 1] VAngle "quqd8_3221" "# cquqd8Ph3x2x2x1";
   Row [3; 2; 2; 2] VAngle "quqd8_3222" "# cquqd8Ph3x2x2x2";
   Row [3; 2; 2; 3] VAngle "quqd8_3223" "# cquqd8Ph3x2x2x3";
   Row [3; 2; 3; 1] VAngle "quqd8_3231" "# cquqd8Ph3x2x3x1";
   Row [3; 2; 3; 2] VAngle "quqd8_3232" "# cquqd8Ph3x2x3x2";
   Row [3; 2; 3; 3] VAngle "quqd8_3233" "# cquqd8Ph3x2x3x3";
   Row [3; 3; 1; 1] VAngle "quqd8_3311" "# cquqd8Ph3x3x1x1";
   Row [3; 3; 1; 2] VAngle "quqd8_3312" "# cquqd8Ph3x3x1x2";
   Row [3; 3; 1; 3] VAngle "quqd8_3313" "# cquqd8Ph3x3x1x3";
   Row [3; 3; 2; 1] VAngle "quqd8_3321" "# cquqd8Ph3x3x2x1";
   Row [3; 3; 2; 2] VAngle "quqd8_3322" "# cquqd8Ph3x3x2x2";
   Row [3; 3; 2; 3] VAngle "quqd8_3323" "# cquqd8Ph3x3x2x3";
   Row [3; 3; 3; 1] VAngle "quqd8_3331" "# cquqd8Ph3x3x3x1";
   Row [3; 3; 3; 2] VAngle "quqd8_3332" "# cquqd8Ph3x3x3x2";
   Row [3; 3; 3; 3] VAngle "quqd8_3333" "# cquqd8Ph3x3x3x3"].
(** smeftsim.py 1872-1954 *)
Definition rowsA_FRBlock17 : list row :=
  [Row [1; 1; 1; 1] VAngle "lequ1_1111" "# clequ1Ph1x1x1x1";
   Row [1; 1; 1; 2] VAngle "lequ1_1112" "# clequ1Ph1x1x1x2";
   Row [1; 1; 1; 3] VAngle "lequ1_1113" "# clequ1Ph1x1x1x3";
   Row [1; 1; 2; 1] VAngle "lequ1_1121" "# clequ1Ph1x1x2x1";
   Row [1; 1; 2; 2] VAngle "lequ1_1122" "# clequ1Ph1x1x2x2";
   Row [1; 1; 2; 3] VAngle "lequ1_1123" "# clequ1Ph1x1x2x3";
   Row [1; 1; 3; 1] VAngle "lequ1_1131" "# clequ1Ph1x1x3x1";
   Row [1; 1; 3; 2] VAngle "lequ1_1132" "# clequ1Ph1x1x3x2";
   Row [1; 1; 3; 3] VAngle "lequ1_1133" "# clequ1Ph1x1x3x3";
   Row [1; 2; 1; 1] VAngle "lequ1_1211" "# clequ1Ph1x2x1x1";
   Row [1; 2; 1; 2] VAngle "lequ1_1212" "# clequ1Ph1x2x1x2";
   Row [1; 2; 1; 3] VAngle "lequ1_1213" "# clequ1Ph1x2x1x3";
   Row [1; 2; 2; 1] VAngle "lequ1_1221" "# clequ1Ph1x2x2x1";
   Row [1; 2; 2; 2] VAngle "lequ1_1222" "# clequ1Ph1x2x2x2";
   Row [1; 2; 2; 3] VAngle "lequ1_1223" "# clequ1Ph1x2x2x3";
   Row [1; 2; 3; 1] VAngle "lequ1_1231" "# clequ1Ph1x2x3x1";
   Row [1; 2; 3; 2] VAngle "lequ1_1232" "# clequ1Ph1x2x3x2";
   Row [1; 2; 3; 3] VAngle "lequ1_1233" "# clequ1Ph1x2x3x3";
   Row [1; 3; 1; 1] VAngle "lequ1_1311" "# clequ1Ph1x3x1x1";
   Row [1; 3; 1; 2] VAngle "lequ1_1312" "# clequ1Ph1x3x1x2";
   Row [1; 3; 1; 3] VAngle "lequ1_1313" "# clequ1Ph1x3x1x3";
   Row [1; 3; 2; 1] VAngle "lequ1_1321" "# clequ1Ph1x3x2x1";
   Row [1; 3; 2; 2] VAngle "lequ1_1322" "# clequ1Ph1x3x2x2";
   Row [1; 3; 2; 3] VAngle "lequ1_1323" "# clequ1Ph1x3x2x3";
   Row [1; 3; 3; 1] VAngle "lequ1_1331" "# clequ1Ph1x3x3x1";
   Row [1; 3; 3; 2] VAngle "lequ1_1332" "# clequ1Ph1x3x3x2";
   Row [1; 3; 3; 3] VAngle "lequ1_1333" "# clequ1Ph1x3x3x3";
   Row [2; 1; 1; 1] VAngle "lequ1_2111" "# clequ1Ph2x1x1x1";
   Row [2; 1; 1; 2] VAngle "lequ1_2112" "# clequ1Ph2x1x1x2";
   Row [2; 1; 1; 3] VAngle "lequ1_2113" "# clequ1Ph2x1x1x3";
   Row [2; 1; 2; 1] VAngle "lequ1_2121" "# clequ1Ph2x1x2x1";
   Row [2; 1; 2; 2] VAngle "lequ1_2122" "# clequ1Ph2x1x2x2";
   Row [2; 1; 2; 3] VAngle "lequ1_2123" "# clequ1Ph2x1x2x3";
   Row [2; 1; 3; 1] VAngle "lequ1_2131" "# clequ1Ph2x1x3x1";
   Row [2; 1; 3; 2] VAngle "lequ1_2132" "# clequ1Ph2x1x3x2";
   Row [2; 1; 3; 3] VAngle "lequ1_2133" "# clequ1Ph2x1x3x3";
   Row [2; 2; 1; 1] VAngle "lequ1_2211" "# clequ1Ph2x2x1x1";
   Row [2; 2; 1; 2] VAngle "lequ1_2212" "# clequ1Ph2x2x1x2";
   Row [2; 2; 1; 3] VAngle "lequ1_2213" "# clequ1Ph2x2x1x3";
   Row [2; 2; 2; 1] VAngle "lequ1_2221" "# clequ1Ph2x2x2x1";
   Row [2; 2; 2; 2] VAngle "lequ1_2222" "# clequ1Ph2x2x2x2";
   Row [2; 2; 2; 3] VAngle "lequ1_2223" "# clequ1Ph2x2x2x3";
   Row [2; 2; 3; 1] VAngle "lequ1_2231" "# clequ1Ph2x2x3x1";
   Row [2; 2; 3; 2] VAngle "lequ1_2232" "# clequ1Ph2x2x3x2";
   Row [2; 2; 3; 3] VAngle "lequ1_2233" "# clequ1Ph2x2x3x3";
   Row [2; 3; 1; 1] VAngle "lequ1_2311" "# clequ1Ph2x3x1x1";
   Row [2; 3; 1; 2] VAngle "lequ1_2312" "# clequ1Ph2x3x1x2";
   Row [2; 3; 1; 3] VAngle "lequ1_2313" "# clequ1Ph2x3x1x3";
   Row [2; 3; 2; 1] VAngle "lequ1_2321" "# clequ1Ph2x3x2x1";
   Row [2; 3; 2; 2] VAngle "lequ1_2322" "# clequ1Ph2x3x2x2";
   Row [2; 3; 2; 3] VAngle "lequ1_2323" "# clequ1Ph2x3x2x3";
   Row [2; 3; 3; 1] VAngle "lequ1_2331" "# clequ1Ph2x3x3x1";
   Row [2; 3; 3; 2] VAngle "lequ1_2332" "# clequ1Ph2x3x3x2";
   Row [2; 3; 3; 3] VAngle "lequ1_2333" "# clequ1Ph2x3x3x3";
   Row [3; 1; 1; 1] VAngle "lequ1_3111" "# clequ1Ph3x1x1x1";
   Row [3; 1; 1; 2] VAngle "lequ1_3112" "# clequ1Ph3x1x1x2";
   Row [3; 1; 1; 3] VAngle "lequ1_3113" "# clequ1Ph3x1x1x3";
   Row [3; 1; 2; 1] VAngle "lequ1_3121" "# clequ1Ph3x1x2x1";
   Row [3; 1; 2; 2] VAngle "lequ1_3122" "# clequ1Ph3x1x2x2";
   Row [3; 1; 2; 3] VAngle "lequ1_3123" "# clequ1Ph3x1x2x3";
   Row [3; 1; 3; 1] VAngle "lequ1_3131" "# clequ1Ph3x1x3x1";
   Row [3; 1; 3; 2] VAngle "lequ1_3132" "# clequ1Ph3x1x3x2";
   Row [3; 1; 3; 3] VAngle "lequ1_3133" "# clequ1Ph3x1x3x3";
   Row [3; 2; 1; 1] VAngle "lequ1_3211" "# clequ1Ph3x2x1x1";
   Row [3; 2; 1; 2] VAngle "lequ1_3212" "# clequ1Ph3x2x1x2";
   Row [3; 2; 1; 3] VAngle "lequ1_3213" "# clequ1Ph3x2x1x3";
   Row [3; 2; 2; 1] VAngle "lequ1_3221" "# clequ1Ph3x2x2x1";
   Row [3; 2; 2; 2] VAngle "lequ1_3222" "# clequ1Ph3x2x2x2";
   Row [3; 2; 2; 3] VAngle "lequ1_3223" "# clequ1Ph3x2x2x3";
   Row [3; 2; 3; 1] VAngle "lequ1_3231" "# clequ1Ph3x2x3x1";
   Row [3; 2; 3; 2] VAngle "lequ1_3232" "# clequ1Ph3x2x3x2";
   Row [3; 2; 3; 3] VAngle "lequ1_3233" "# clequ1Ph3x2x3x3";
   Row [3; 3; 1; 1] VAngle "lequ1_3311" "# clequ1Ph3x3x1x1";
   Row [3; 3; 1; 2] VAngle "lequ1_3312" "# clequ1Ph3x3x1x2";
   Row [3; 3; 1; 3] VAngle "lequ1_3313" "# clequ1Ph3x3x1x3";
   Row [3; 3; 2; 1] VAngle "lequ1_3321" "# clequ1Ph3x3x2x1";
   Row [3; 3; 2; 2] VAngle "lequ1_3322" "# clequ1Ph3x3x2x2";
   Row [3; 3; 2; 3] VAngle "lequ1_3323" "# clequ1Ph3x3x2x3";
   Row [3; 3; 3; 1] VAngle "lequ1_3331" "# clequ1Ph3x3x3x1";
   Row [3; 3; 3; 2] VAngle "lequ1_3332" "# clequ1Ph3x3x3x2";
   Row [3; 3; 3; 3] VAngle "lequ1_3333" "# clequ1Ph3x3x3x3"].
(** smeftsim.py 1956-2038 *)
Definition rowsA_FRBlock18 : list row :=
  [Row [1; 1; 1; 1] VAngle "lequ3_1111" "# clequ3Ph1x1x1x1";
   Row [1; 1; 1; 2] VAngle "lequ3_1112" "# clequ3Ph1x1x1x2";
   Row [1; 1; 1; 3] VAngle "lequ3_1113" "# clequ3Ph1x1x1x3";
   Row [1; 1; 2; 1] VAngle "lequ3_1121" "# clequ3Ph1x1x2x1";
   Row [1; 1; 2; 2] VAngle "lequ3_1122" "# clequ3Ph1x1x2x2";
   Row [1; 1; 2; 3] VAngle "lequ3_1123" "# clequ3Ph1x1x2x3";
   Row [1; 1; 3; 1] VAngle "lequ3_1131" "# clequ3Ph1x1x3x1";
   Row [1; 1; 3; 2] VAngle "lequ3_1132" "# clequ3Ph1x1x3x2";
   Row [1; 1; 3; 3] VAngle "lequ3_1133" "# clequ3Ph1x1x3x3";
   Row [1; 2; 1; 1] VAngle "lequ3_1211" "# clequ3Ph1x2x1x1";
   Row [1; 2; 1; 2] VAngle "lequ3_1212" "# clequ3Ph1x2x1x2";
   Row [1; 2; 1; 3] VAngle "lequ3_1213" "# clequ3Ph1x2x1x3";
   Row [1; 2; 2; 1] VAngle "lequ3_1221" "# clequ3Ph1x2x2x1";
   Row [1; 2; 2; 2] VAngle "lequ3_1222" "# clequ3Ph1x2x2x2";
   Row [1; 2; 2; 3] VAngle "lequ3_1223" "# clequ3Ph1x2x2x3";
   Row [1; 2; 3; 1] VAngle "lequ3_1231" "# clequ3Ph1x2x3x1";
   Row [1; 2; 3; 2] VAngle "lequ3_1232" "# clequ3Ph1x2x3x2";
   Row [1; 2; 3; 3] VAngle "lequ3_1233" "# clequ3Ph1x2x3x3";
   Row [1; 3; 1; 1] VAngle "lequ3_1311" "# clequ3Ph1x3x1x1";
   Row [1; 3; 1; 2] VAngle "lequ3_1312" "# clequ3Ph1x3x1x2";
   Row [1; 3; 1; 3] VAngle "lequ3_1313" "# clequ3Ph1x3x1x3";
   Row [1; 3; 2; 1] VAngle "lequ3_1321" "# clequ3Ph1x3x2x1";
   Row [1; 3; 2; 2] VAngle "lequ3_1322" "# clequ3Ph1x3x2x2";
   Row [1; 3; 2; 3] VAngle "lequ3_1323" "# clequ3Ph1x3x2x3";
   Row [1; 3; 3; 1] VAngle "lequ3_1331" "# clequ3Ph1x3x3x1";
   Row [1; 3; 3; 2] VAngle "lequ3_1332" "# clequ3Ph1x3x3x2";
   Row [1; 3; 3; 3] VAngle "lequ3_1333" "# clequ3Ph1x3x3x3";
   Row [2; 1; 1; 1] VAngle "lequ3_2111" "# clequ3Ph2x1x1x1";
   Row [2; 1; 1; 2] VAngle "lequ3_2112" "# clequ3Ph2x1x1x2";
   Row [2; 1; 1; 3] VAngle "lequ3_2113" "# clequ3Ph2x1x1x3";
   Row [2; 1; 2; 1] VAngle "lequ3_2121" "# clequ3Ph2x1x2x1";
   Row [2; 1; 2; 2] VAngle "lequ3_2122" "# clequ3Ph2x1x2x2";
   Row [2; 1; 2; 3] VAngle "lequ3_2123" "# clequ3Ph2x1x2x3";
   Row [2; 1; 3; 1] VAngle "lequ3_2131" "# clequ3Ph2x1x3x1";
   Row [2; 1; 3; 2] VAngle "lequ3_2132" "# clequ3Ph2x1x3x2";
   Row [2; 1; 3; 3] VAngle "lequ3_2133" "# clequ3Ph2x1x3x3";
   Row [2; 2; 1; 1] VAngle "lequ3_2211" "# clequ3Ph2x2x1x1";
   Row [2; 2; 1; 2] VAngle "lequ3_2212" "# clequ3Ph2x2x1x2";
   Row [2; 2; 1; 3] VAngle "lequ3_2213" "# clequ3Ph2x2x1x3";
   Row [2; 2; 2; 1] VAngle "lequ3_2221" "# clequ3Ph2x2x2x1";
   Row [2; 2; 2; 2] VAngle "lequ3_2222" "# clequ3Ph2x2x2x2";
   Row [2; 2; 2; 3] VAngle "lequ3_2223" "# clequ3Ph2x2x2x3";
   Row [2; 2; 3; 1] VAngle "lequ3_2231" "# clequ3Ph2x2x3x1";
   Row [2; 2; 3; 2] VAngle "lequ3_2232" "# clequ3Ph2x2x3x2";
   Row [2; 2; 3; 3] VAngle "lequ3_2233" "# clequ3Ph2x2x3x3";
   Row [2; 3; 1; 1] VAngle "lequ3_2311" "# clequ3Ph2x3x1x1";
   Row [2; 3; 1; 2] VAngle "lequ3_2312" "# clequ3Ph2x3x1x2";
   Row [2; 3; 1; 3] VAngle "lequ3_2313" "# clequ3Ph2x3x1x3";
   Row [2; 3; 2; 1] VAngle "lequ3_2321" "# clequ3Ph2x3x2x1";
   Row [2; 3; 2; 2] VAngle "lequ3_2322" "# clequ3Ph2x3x2x2";
   Row [2; 3; 2; 3] VAngle "lequ3_2323" "# clequ3Ph2x3x2x3";
   Row [2; 3; 3; 1] VAngle "lequ3_2331" "# clequ3Ph2x3x3x1";
   Row [2; 3; 3; 2] VAngle "lequ3_2332" "# clequ3Ph2x3x3x2";
   Row [2; 3; 3; 3] VAngle "lequ3_2333" "# clequ3Ph2x3x3x3";
   Row [3; 1; 1; 1] VAngle "lequ3_3111" "# clequ3Ph3x1x1x1";
   Row [3; 1; 1; 2] VAngle "lequ3_3112" "# clequ3Ph3x1x1x2";
   Row [3; 1; 1; 3] VAngle "lequ3_3113" "# clequ3Ph3x1x1x3";
   Row [3; 1; 2; 1] VAngle "lequ3_3121" "# clequ3Ph3x1x2x1";
   Row [3; 1; 2; 2] VAngle "lequ3_3122" "# clequ3Ph3x1x2x2";
   Row [3; 1; 2; 3] VAngle "lequ3_3123" "# clequ3Ph3x1x2x3";
   Row [3; 1; 3; 1] VAngle "lequ3_3131" "# clequ3Ph3x1x3x1";
   Row [3; 1; 3; 2] VAngle "lequ3_3132" "# clequ3Ph3x1x3x2";
   Row [3; 1; 3; 3] VAngle "lequ3_3133" "# clequ3Ph3x1x3x3";
   Row [3; 2; 1; 1] VAngle "lequ3_3211" "# clequ3Ph3x2x1x1";
   Row [3; 2; 1; 2] VAngle "lequ3_3212" "# clequ3Ph3x2x1x2";
   Row [3; 2; 1; 3] VAngle "lequ3_3213" "# clequ3Ph3x2x1x3";
   Row [3; 2; 2; 1] VAngle "lequ3_3221" "# clequ3Ph3x2x2x1";
   Row [3; 2; 2; 2] VAngle "lequ3_3222" "# clequ3Ph3x2x2x2";
   Row [3; 2; 2; 3] VAngle "lequ3_3223" "# clequ3Ph3x2x2x3";
   Row [3; 2; 3; 1] VAngle "lequ3_3231" "# clequ3Ph3x2x3x1";
   Row [3; 2; 3; 2] VAngle "lequ3_3232" "# clequ3Ph3x2x3x2";
   Row [3; 2; 3; 3] VAngle "lequ3_3233" "# clequ3Ph3x2x3x3";
   Row [3; 3; 1; 1] VAngle "lequ3_3311" "# clequ3Ph3x3x1x1";
   Row [3; 3; 1; 2] VAngle "lequ3_3312" "# clequ3Ph3x3x1x2";
   Row [3; 3; 1; 3] VAngle "lequ3_3313" "# clequ3Ph3x3x1x3";
   Row [3; 3; 2; 1] VAngle "lequ3_3321" "# clequ3Ph3x3x2x1";
   Row [3; 3; 2; 2] VAngle "lequ3_3322" "# clequ3Ph3x3x2x2";
   Row [3; 3; 2; 3] VAngle "lequ3_3323" "# clequ3Ph3x3x2x3";
   Row [3; 3; 3; 1] VAngle "lequ3_3331" "# clequ3Ph3x3x3x1";
   Row [3; 3; 3; 2] VAngle "lequ3_3332" "# clequ3Ph3x3x3x2";
   Row [3; 3; 3; 3] VAngle "lequ3_3333" "# clequ3Ph3x3x3x3"].
(** smeftsim.py 2040-2050 *)
Definition rowsA_FRBlock19 : list row :=
  [Row [1; 1] VAbs "ephi_11" "# ceHAbs1x1";
   Row [1; 2] VAbs "ephi_12" "# ceHAbs1x2";
   Row [1; 3] VAbs "ephi_13" "# ceHAbs1x3";
   Row [2; 1] VAbs "ephi_21" "# ceHAbs2x1";
   Row [2; 2] VAbs "ephi_22" "# ceHAbs2x2";
   Row [2; 3] VAbs "ephi_23" "# ceHAbs2x3";
   Row [3; 1] VAbs "ephi_31" "# ceHAbs3x1";
   Row [3; 2] VAbs "ephi_32" "# ceHAbs3x2";
   Row [3; 3] VAbs "ephi_33" "# ceHAbs3x3"].
(** smeftsim.py 2052-2062 *)
Definition rowsA_FRBlock2 : list row :=
  [Row [1; 1] VAngle "eW_11" "# ceWPh1x1";
   Row [1; 2] VAngle "eW_12" "# ceWPh1x2";
   Row [1; 3] VAngle "eW_13" "# ceWPh1x3";
   Row [2; 1] VAngle "eW_21" "# ceWPh2x1";
   Row [2; 2] VAngle "eW_22" "# ceWPh2x2";
   Row [2; 3] VAngle "eW_23" "# ceWPh2x3";
   Row [3; 1] VAngle "eW_31" "# ceWPh3x1";
   Row [3; 2] VAngle "eW_32" "# ceWPh3x2";
   Row [3; 3] VAngle "eW_33" "# ceWPh3x3"].
(** smeftsim.py 2064-2074 *)
Definition rowsA_FRBlock20 : list row :=
  [Row [1; 1] VAbs "uphi_11" "# cuHAbs1x1";
   Row [1; 2] VAbs "uphi_12" "# cuHAbs1x2";
   Row [1; 3] VAbs "uphi_13" "# cuHAbs1x3";
   Row [2; 1] VAbs "uphi_21" "# cuHAbs2x1";
   Row [2; 2] VAbs "uphi_22" "# cuHAbs2x2";
   Row [2; 3] VAbs "uphi_23" "# cuHAbs2x3";
   Row [3; 1] VAbs "uphi_31" "# cuHAbs3x1";
   Row [3; 2] VAbs "uphi_32" "# cuHAbs3x2";
   Row [3; 3] VAbs "uphi_33" "# cuHAbs3x3"].
(** smeftsim.py 2076-2086 *)
Definition rowsA_FRBlock21 : list row :=
  [Row [1; 1] VAbs "dphi_11" "# cdHAbs1x1";
   Row [1; 2] VAbs "dphi_12" "# cdHAbs1x2";
   Row [1; 3] VAbs "dphi_13" "# cdHAbs1x3";
   Row [2; 1] VAbs "dphi_21" "# cdHAbs2x1";
   Row [2; 2] VAbs "dphi_22" "# cdHAbs2x2";
   Row [2; 3] VAbs "dphi_23" "# cdHAbs2x3";
   Row [3; 1] VAbs "dphi_31" "# cdHAbs3x1";
   Row [3; 2] VAbs "dphi_32" "# cdHAbs3x2";
   Row [3; 3] VAbs "dphi_33" "# cdHAbs3x3"].
(** smeftsim.py 2088-2098 *)
Definition rowsA_FRBlock25 : list row :=
  [Row [1; 1] VAbs "eW_11" "# ceWAbs1x1";
   Row [1; 2] VAbs "eW_12" "# ceWAbs1x2";
   Row [1; 3] VAbs "eW_13" "# ceWAbs1x3";
   Row [2; 1] VAbs "eW_21" "# ceWAbs2x1";
   Row [2; 2] VAbs "eW_22" "# ceWAbs2x2";
   Row [2; 3] VAbs "eW_23" "# ceWAbs2x3";
   Row [3; 1] VAbs "eW_31" "# ceWAbs3x1";
   Row [3; 2] VAbs "eW_32" "# ceWAbs3x2";
   Row [3; 3] VAbs "eW_33" "# ceWAbs3x3"].
(** smeftsim.py 2100-2110 *)
Definition rowsA_FRBlock26 : list row :=
  [Row [1; 1] VAbs "eB_11" "# ceBAbs1x1";
   Row [1; 2] VAbs "eB_12" "# ceBAbs1x2";
   Row [1; 3] VAbs "eB_13" "# ceBAbs1x3";
   Row [2; 1] VAbs "eB_21" "# ceBAbs2x1";
   Row [2; 2] VAbs "eB_22" "# ceBAbs2x2";
   Row [2; 3] VAbs "eB_23" "# ceBAbs2x3";
   Row [3; 1] VAbs "eB_31" "# ceBAbs3x1";
   Row [3; 2] VAbs "eB_32" "# ceBAbs3x2";
   Row [3; 3] VAbs "eB_33" "# ceBAbs3x3"].
(** smeftsim.py 2112-2122 *)
Definition rowsA_FRBlock27 : list row :=
  [Row [1; 1] VAbs "uG_11" "# cuGAbs1x1";
   Row [1; 2] VAbs "uG_12" "# cuGAbs1x2";
   Row [1; 3] VAbs "uG_13" "# cuGAbs1x3";
   Row [2; 1] VAbs "uG_21" "# cuGAbs2x1";
   Row [2; 2] VAbs "uG_22" "# cuGAbs2x2";
   Row [2; 3] VAbs "uG_23" "# cuGAbs2x3";
   Row [3; 1] VAbs "uG_31" "# cuGAbs3x1";
   Row [3; 2] VAbs "uG_32" "# cuGAbs3x2";
   Row [3; 3] VAbs "uG_33" "# cuGAbs3x3"].
(** smeftsim.py 2124-2134 *)
Definition rowsA_FRBlock28 : list row :=
  [Row [1; 1] VAbs "uW_11" "# cuWAbs1x1";
   Row [1; 2] VAbs "uW_12" "# cuWAbs1x2";
   Row [1; 3] VAbs "uW_13" "# cuWAbs1x3";
   Row [2; 1] VAbs "uW_21" "# cuWAbs2x1";
   Row [2; 2] VAbs "uW_22" "# cuWAbs2x2";
   Row [2; 3] VAbs "uW_23" "# cuWAbs2x3";
   Row [3; 1] VAbs "uW_31" "# cuWAbs3x1";
   Row [3; 2] VAbs "uW_32" "# cuWAbs3x2";
   Row [3; 3] VAbs "uW_33" "# cuWAbs3x3"].
(** smeftsim.py 2136-2146 *)
Definition rowsA_FRBlock29 : list row :=
  [Row [1; 1] VAbs "uB_11" "# cuBAbs1x1";
   Row [1; 2] VAbs "uB_12" "# cuBAbs1x2";
   Row [1; 3] VAbs "uB_13" "# cuBAbs1x3";
   Row [2; 1] VAbs "uB_21" "# cuBAbs2x1";
   Row [2; 2] VAbs "uB_22" "# cuBAbs2x2";
   Row [2; 3] VAbs "uB_23" "# cuBAbs2x3";
   Row [3; 1] VAbs "uB_31" "# cuBAbs3x1";
   Row [3; 2] VAbs "uB_32" "# cuBAbs3x2";
   Row [3; 3] VAbs "uB_33" "# cuBAbs3x3"].
(** smeftsim.py 2148-2158 *)
Definition rowsA_FRBlock3 : list row :=
  [Row [1; 1] VAngle "eB_11" "# ceBPh1x1";
   Row [1; 2] VAngle "eB_12" "# ceBPh1x2";
   Row [1; 3] VAngle "eB_13" "# ceBPh1x3";
   Row [2; 1] VAngle "eB_21" "# ceBPh2x1";
   Row [2; 2] VAngle "eB_22" "# ceBPh2x2";
   Row [2; 3] VAngle "eB_23" "# ceBPh2x3";
   Row [3; 1] VAngle "eB_31" "# ceBPh3x1";
   Row [3; 2] VAngle "eB_32" "# ceBPh3x2";
   Row [3; 3] VAngle "eB_33" "# ceBPh3x3"].
(** smeftsim.py 2160-2170 *)
Definition rowsA_FRBlock30 : list row :=
  [Row [1; 1] VAbs "dG_11" "# cdGAbs1x1";
   Row [1; 2] VAbs "dG_12" "# cdGAbs1x2";
   Row [1; 3] VAbs "dG_13" "# cdGAbs1x3";
   Row [2; 1] VAbs "dG_21" "# cdGAbs2x1";
   Row [2; 2] VAbs "dG_22" "# cdGAbs2x2";
   Row [2; 3] VAbs "dG_23" "# cdGAbs2x3";
   Row [3; 1] VAbs "dG_31" "# cdGAbs3x1";
   Row [3; 2] VAbs "dG_32" "# cdGAbs3x2";
   Row [3; 3] VAbs "dG_33" "# cdGAbs3x3"].
(** smeftsim.py 2172-2182 *)
Definition rowsA_FRBlock31 : list row :=
  [Row [1; 1] VAbs "dW_11" "# cdWAbs1x1";
   Row [1; 2] VAbs "dW_12" "# cdWAbs1x2";
   Row [1; 3] VAbs "dW_13" "# cdWAbs1x3";
   Row [2; 1] VAbs "dW_21" "# cdWAbs2x1";
   Row [2; 2] VAbs "dW_22" "# cdWAbs2x2";
   Row [2; 3] VAbs "dW_23" "# cdWAbs2x3";
   Row [3; 1] VAbs "dW_31" "# cdWAbs3x1";
   Row [3; 2] VAbs "dW_32" "# cdWAbs3x2";
   Row [3; 3] VAbs "dW_33" "# cdWAbs3x3"].
(** smeftsim.py 2184-2194 *)
Definition rowsA_FRBlock32 : list row :=
  [Row [1; 1] VAbs "dB_11" "# cdBAbs1x1";
   Row [1; 2] VAbs "dB_12" "# cdBAbs1x2";
   Row [1; 3] VAbs "dB_13" "# cdBAbs1x3";
   Row [2; 1] VAbs "dB_21" "# cdBAbs2x1";
   Row [2; 2] VAbs "dB_22" "# cdBAbs2x2";
   Row [2; 3] VAbs "dB_23" "# cdBAbs2x3";
   Row [3; 1] VAbs "dB_31" "# cdBAbs3x1";
   Row [3; 2] VAbs "dB_32" "# cdBAbs3x2";
   Row [3; 3] VAbs "dB_33" "# cdBAbs3x3"].
(** smeftsim.py 2196-2206 *)
Definition rowsA_FRBlock4 : list row :=
  [Row [1; 1] VAngle "uG_11" "# cuGPh1x1";
   Row [1; 2] VAngle "uG_12" "# cuGPh1x2";
   Row [1; 3] VAngle "uG_13" "# cuGPh1x3";
   Row [2; 1] VAngle "uG_21" "# cuGPh2x1";
   Row [2; 2] VAngle "uG_22" "# cuGPh2x2";
   Row [2; 3] VAngle "uG_23" "# cuGPh2x3";
   Row [3; 1] VAngle "uG_31" "# cuGPh3x1";
   Row [3; 2] VAngle "uG_32" "# cuGPh3x2";
   Row [3; 3] VAngle "uG_33" "# cuGPh3x3"].
(** smeftsim.py 2208-2218 *)
Definition rowsA_FRBlock48 : list row :=
  [Row [1; 1] VAbs "phiud_11" "# cHudAbs1x1";
   Row [1; 2] VAbs "phiud_12" "# cHudAbs1x2";
   Row [1; 3] VAbs "phiud_13" "# cHudAbs1x3";
   Row [2; 1] VAbs "phiud_21" "# cHudAbs2x1";
   Row [2; 2] VAbs "phiud_22" "# cHudAbs2x2";
   Row [2; 3] VAbs "phiud_23" "# cHudAbs2x3";
   Row [3; 1] VAbs "phiud_31" "# cHudAbs3x1";
   Row [3; 2] VAbs "phiud_32" "# cHudAbs3x2";
   Row [3; 3] VAbs "phiud_33" "# cHudAbs3x3"].
(** smeftsim.py 2220-2230 *)
Definition rowsA_FRBlock5 : list row :=
  [Row [1; 1] VAngle "uW_11" "# cuWPh1x1";
   Row [1; 2] VAngle "uW_12" "# cuWPh1x2";
   Row [1; 3] VAngle "uW_13" "# cuWPh1x3";
   Row [2; 1] VAngle "uW_21" "# cuWPh2x1";
   Row [2; 2] VAngle "uW_22" "# cuWPh2x2";
   Row [2; 3] VAngle "uW_23" "# cuWPh2x3";
   Row [3; 1] VAngle "uW_31" "# cuWPh3x1";
   Row [3; 2] VAngle "uW_32" "# cuWPh3x2";
   Row [3; 3] VAngle "uW_33" "# cuWPh3x3"].
(** smeftsim.py 2232-2242 *)
Definition rowsA_FRBlock6 : list row :=
  [Row [1; 1] VAngle "uB_11" "# cuBPh1x1";
   Row [1; 2] VAngle "uB_12" "# cuBPh1x2";
   Row [1; 3] VAngle "uB_13" "# cuBPh1x3";
   Row [2; 1] VAngle "uB_21" "# cuBPh2x1";
   Row [2; 2] VAngle "uB_22" "# cuBPh2x2";
   Row [2; 3] VAngle "uB_23" "# cuBPh2x3";
   Row [3; 1] VAngle "uB_31" "# cuBPh3x1";
   Row [3; 2] VAngle "uB_32" "# cuBPh3x2";
   Row [3; 3] VAngle "uB_33" "# cuBPh3x3"].
(** smeftsim.py 2244-2254 *)
Definition rowsA_FRBlock7 : list row :=
  [Row [1; 1] VAngle "dG_11" "# cdGPh1x1";
   Row [1; 2] VAngle "dG_12" "# cdGPh1x2";
   Row [1; 3] VAngle "dG_13" "# cdGPh1x3";
   Row [2; 1] VAngle "dG_21" "# cdGPh2x1";
   Row [2; 2] VAngle "dG_22" "# cdGPh2x2";
   Row [2; 3] VAngle "dG_23" "# cdGPh2x3";
   Row [3; 1] VAngle "dG_31" "# cdGPh3x1";
   Row [3; 2] VAngle "dG_32" "# cdGPh3x2";
   Row [3; 3] VAngle "dG_33" "# cdGPh3x3"].
(** smeftsim.py 2256-2338 *)
Definition rowsA_FRBlock70 : list row :=
  [Row [1; 1; 1; 1] VAbs "ledq_1111" "# cledqAbs1x1x1x1";
   Row [1; 1; 1; 2] VAbs "ledq_1112" "# cledqAbs1x1x1x2";
   Row [1; 1; 1; 3] VAbs "ledq_1113" "# cledqAbs1x1x1x3";
   Row [1; 1; 2; 1] VAbs "ledq_1121" "# cledqAbs1x1x2x1";
   Row [1; 1; 2; 2] VAbs "ledq_1122" "# cledqAbs1x1x2x2";
   Row [1; 1; 2; 3] VAbs "ledq_1123" "# cledqAbs1x1x2x3";
   Row [1; 1; 3; 1] VAbs "ledq_1131" "# cledqAbs1x1x3x1";
   Row [1; 1; 3; 2] VAbs "ledq_1132" "# cledqAbs1x1x3x2";
   Row [1; 1; 3; 3] VAbs "ledq_1133" "# cledqAbs1x1x3x3";
   Row [1; 2; 1; 1] VAbs "ledq_1211" "# cledqAbs1x2x1x1";
   Row [1; 2; 1; 2] VAbs "ledq_1212" "# cledqAbs1x2x1x2";
   Row [1; 2; 1; 3] VAbs "ledq_1213" "# cledqAbs1x2x1x3";
   Row [1; 2; 2; 1] VAbs "ledq_1221" "# cledqAbs1x2x2x1";
   Row [1; 2; 2; 2] VAbs "ledq_1222" "# cledqAbs1x2x2x2";
   Row [1; 2; 2; 3] VAbs "ledq_1223" "# cledqAbs1x2x2x3";
   Row [1; 2; 3; 1] VAbs "ledq_1231" "# cledqAbs1x2x3x1";
   Row [1; 2; 3; 2] VAbs "ledq_1232" "# cledqAbs1x2x3x2";
   Row [1; 2; 3; 3] VAbs "ledq_1233" "# cledqAbs1x2x3x3";
   Row [1; 3; 1; 1] VAbs "ledq_1311" "# cledqAbs1x3x1x1";
   Row [1; 3; 1; 2] VAbs "ledq_1312" "# cledqAbs1x3x1x2";
   Row [1; 3; 1; 3] VAbs "ledq_1313" "# cledqAbs1x3x1x3";
   Row [1; 3; 2; 1] VAbs "ledq_1321" "# cledqAbs1x3x2x1";
   Row [1; 3; 2; 2] VAbs "ledq_1322" "# cledqAbs1x3x2x2";
   Row [1; 3; 2; 3] VAbs "ledq_1323" "# cledqAbs1x3x2x3";
   Row [1; 3; 3; 1] VAbs "ledq_1331" "# cledqAbs1x3x3x1";
   Row [1; 3; 3; 2] VAbs "ledq_1332" "# cledqAbs1x3x3x2";
   Row [1; 3; 3; 3] VAbs "ledq_1333" "# cledqAbs1x3x3x3";
   Row [2; 1; 1; 1] VAbs "ledq_2111" "# cledqAbs2x1x1x1";
   Row [2; 1; 1; 2] VAbs "ledq_2112" "# cledqAbs2x1x1x2";
   Row [2; 1; 1; 3] VAbs "ledq_2113" "# cledqAbs2x1x1x3";
   Row [2; 1; 2; 1] VAbs "ledq_2121" "# cledqAbs2x1x2x1";
   Row [2; 1; 2; 2] VAbs "ledq_2122" "# cledqAbs2x1x2x2";
   Row [2; 1; 2; 3] VAbs "ledq_2123" "# cledqAbs2x1x2x3";
   Row [2; 1; 3; 1] VAbs "ledq_2131" "# cledqAbs2x1x3x1";
   Row [2; 1; 3; 2] VAbs "ledq_2132" "# cledqAbs2x1x3x2";
   Row [2; 1; 3; 3] VAbs "ledq_2133" "# cledqAbs2x1x3x3";
   Row [2; 2; 1; 1] VAbs "ledq_2211" "# cledqAbs2x2x1x1";
   Row [2; 2; 1; 2] VAbs "ledq_2212" "# cledqAbs2x2x1x2";
   Row [2; 2; 1; 3] VAbs "ledq_2213" "# cledqAbs2x2x1x3";
   Row [2; 2; 2; 1] VAbs "ledq_2221" "# cledqAbs2x2x2x1";
   Row [2; 2; 2; 2] VAbs "ledq_2222" "# cledqAbs2x2x2x2";
   Row [2; 2; 2; 3] VAbs "ledq_2223" "# cledqAbs2x2x2x3";
   Row [2; 2; 3; 1] VAbs "ledq_2231" "# cledqAbs2x2x3x1";
   Row [2; 2; 3; 2] VAbs "ledq_2232" "# cledqAbs2x2x3x2";
   Row [2; 2; 3; 3] VAbs "ledq_2233" "# cledqAbs2x2x3x3";
   Row [2; 3; 1; 1] VAbs "ledq_2311" "# cledqAbs2x3x1x1";
   Row [2; 3; 1; 2] VAbs "ledq_2312" "# cledqAbs2x3x1x2";
   Row [2; 3; 1; 3] VAbs "ledq_2313" "# cledqAbs2x3x1x3";
   Row [2; 3; 2; 1] VAbs "ledq_2321" "# cledqAbs2x3x2x1";
   Row [2; 3; 2; 2] VAbs "ledq_2322" "# cledqAbs2x3x2x2";
   Row [2; 3; 2; 3] VAbs "ledq_2323" "# cledqAbs2x3x2x3";
   Row [2; 3; 3; 1] VAbs "ledq_2331" "# cledqAbs2x3x3x1";
   Row [2; 3; 3; 2] VAbs "ledq_2332" "# cledqAbs2x3x3x2";
   Row [2; 3; 3; 3] VAbs "ledq_2333" "# cledqAbs2x3x3x3";
   Row [3; 1; 1; 1] VAbs "ledq_3111" "# cledqAbs3x1x1x1";
   Row [3; 1; 1; 2] VAbs "ledq_3112" "# cledqAbs3x1x1x2";
   Row [3; 1; 1; 3] VAbs "ledq_3113" "# cledqAbs3x1x1x3";
   Row [3; 1; 2; 1] VAbs "ledq_3121" "# cledqAbs3x1x2x1";
   Row [3; 1; 2; 2] VAbs "ledq_3122" "# cledqAbs3x1x2x2";
   Row [3; 1; 2; 3] VAbs "ledq_3123" "# cledqAbs3x1x2x3";
   Row [3; 1; 3; 1] VAbs "ledq_3131" "# cledqAbs3x1x3x1";
   Row [3; 1; 3; 2] VAbs "ledq_3132" "# cledqAbs3x1x3x2";
   Row [3; 1; 3; 3] VAbs "ledq_3133" "# cledqAbs3x1x3x3";
   Row [3; 2; 1; 1] VAbs "ledq_3211" "# cledqAbs3x2x1x1";
   Row [3; 2; 1; 2] VAbs "ledq_3212" "# cledqAbs3x2x1x2";
   Row [3; 2; 1; 3] VAbs "ledq_3213" "# cledqAbs3x2x1x3";
   Row [3; 2; 2; 1] VAbs "ledq_3221" "# cledqAbs3x2x2x1";
   Row [3; 2; 2; 2] VAbs "ledq_3222" "# cledqAbs3x2x2x2";
   Row [3; 2; 2; 3] VAbs "ledq_3223" "# cledqAbs3x2x2x3";
   Row [3; 2; 3; 1] VAbs "ledq_3231" "# cledqAbs3x2x3x1";
   Row [3; 2; 3; 2] VAbs "ledq_3232" "# cledqAbs3x2x3x2";
   Row [3; 2; 3; 3] VAbs "ledq_3233" "# cledqAbs3x2x3x3";
   Row [3; 3; 1; 1] VAbs "ledq_3311" "# cledqAbs3x3x1x1";
   Row [3; 3; 1; 2] VAbs "ledq_3312" "# cledqAbs3x3x1x2";
   Row [3; 3; 1; 3] VAbs "ledq_3313" "# cledqAbs3x3x1x3";
   Row [3; 3; 2; 1] VAbs "ledq_3321" "# cledqAbs3x3x2x1";
   Row [3; 3; 2; 2] VAbs "ledq_3322" "# cledqAbs3x3x2x2";
   Row [3; 3; 2; 3] VAbs "ledq_3323" "# cledqAbs3x3x2x3";
   Row [3; 3; 3; 1] VAbs "ledq_3331" "# cledqAbs3x3x3x1";
   Row [3; 3; 3; 2] VAbs "ledq_3332" "# cledqAbs3x3x3x2";
   Row [3; 3; 3; 3] VAbs "ledq_3333" "# cledqAbs3x3x3x3"].
(** smeftsim.py 2340-2422 *)
Definition rowsA_FRBlock71 : list row :=
  [Row [1; 1; 1; 1] VAbs "quqd1_1111" "# cquqd1Abs1x1x1x1";
   Row [1; 1; 1; 2] VAbs "quqd1_1112" "# cquqd1Abs1x1x1x2";
   Row [1; 1; 1; 3] VAbs "quqd1_1113" "# cquqd1Abs1x1x1x3";
   Row [1; 1; 2; 1] VAbs "quqd1_1121" "# cquqd1Abs1x1x2x1";
   Row [1; 1; 2; 2] VAbs "quqd1_1122" "# cquqd1Abs1x1x2x2";
   Row [1; 1; 2; 3] VAbs "quqd1_1123" "# cquqd1Abs1x1x2x3";
   Row [1; 1; 3; 1] VAbs "quqd1_1131" "# cquqd1Abs1x1x3x1";
   Row [1; 1; 3; 2] VAbs "quqd1_1132" "# cquqd1Abs1x1x3x2";
   Row [1; 1; 3; 3] VAbs "quqd1_1133" "# cquqd1Abs1x1x3x3";
   Row [1; 2; 1; 1] VAbs "quqd1_1211" "# cquqd1Abs1x2x1x1";
   Row [1; 2; 1; 2] VAbs "quqd1_1212" "# cquqd1Abs1x2x1x2";
   Row [1; 2; 1; 3] VAbs "quqd1_1213" "# cquqd1Abs1x2x1x3";
   Row [1; 2; 2; 1] VAbs "quqd1_1221" "# cquqd1Abs1x2x2x1";
   Row [1; 2; 2; 2] VAbs "quqd1_1222" "# cquqd1Abs1x2x2x2";
   Row [1; 2; 2; 3] VAbs "quqd1_1223" "# cquqd1Abs1x2x2x3";
   Row [1; 2; 3; 1] VAbs "quqd1_1231" "# cquqd1Abs1x2x3x1";
   Row [1; 2; 3; 2] VAbs "quqd1_1232" "# cquqd1Abs1x2x3x2";
   Row [1; 2; 3; 3] VAbs "quqd1_1233" "# cquqd1Abs1x2x3x3";
   Row [1; 3; 1; 1] VAbs "quqd1_1311" "# cquqd1Abs1x3x1x1";
   Row [1; 3; 1; 2] VAbs "quqd1_1312" "# cquqd1Abs1x3x1x2";
   Row [1; 3; 1; 3] VAbs "quqd1_1313" "# cquqd1Abs1x3x1x3";
   Row [1; 3; 2; 1] VAbs "quqd1_1321" "# cquqd1Abs1x3x2x1";
   Row [1; 3; 2; 2] VAbs "quqd1_1322" "# cquqd1Abs1x3x2x2";
   Row [1; 3; 2; 3] VAbs "quqd1_1323" "# cquqd1Abs1x3x2x3";
   Row [1; 3; 3; 1] VAbs "quqd1_1331" "# cquqd1Abs1x3x3x1";
   Row [1; 3; 3; 2] VAbs "quqd1_1332" "# cquqd1Abs1x3x3x2";
   Row [1; 3; 3; 3] VAbs "quqd1_1333" "# cquqd1Abs1x3x3x3";
   Row [2; 1; 1; 1] VAbs "quqd1_2111" "# cquqd1Abs2x1x1x1";
   Row [2; 1; 1; 2] VAbs "quqd1_2112" "# cquqd1Abs2x1x1x2";
   Row [2; 1; 1; 3] VAbs "quqd1_2113" "# cquqd1Abs2x1x1x3";
   Row [2; 1; 2; 1] VAbs "quqd1_2121" "# cquqd1Abs2x1x2x1";
   Row [2; 1; 2; 2] VAbs "quqd1_2122" "# cquqd1Abs2x1x2x2";
   Row [2; 1; 2; 3] VAbs "quqd1_2123" "# cquqd1Abs2x1x2x3";
   Row [2; 1; 3; 1] VAbs "quqd1_2131" "# cquqd1Abs2x1x3x1";
   Row [2; 1; 3; 2] VAbs "quqd1_2132" "# cquqd1Abs2x1x3x2";
   Row [2; 1; 3; 3] VAbs "quqd1_2133" "# cquqd1Abs2x1x3x3";
   Row [2; 2; 1; 1] VAbs "quqd1_2211" "# cquqd1Abs2x2x1x1";
   Row [2; 2; 1; 2] VAbs "quqd1_2212" "# cquqd1Abs2x2x1x2";
   Row [2; 2; 1; 3] VAbs "quqd1_2213" "# cquqd1Abs2x2x1x3";
   Row [2; 2; 2; 1] VAbs "quqd1_2221" "# cquqd1Abs2x2x2x1";
   Row [2; 2; 2; 2] VAbs "quqd1_2222" "# cquqd1Abs2x2x2x2";
   Row [2; 2; 2; 3] VAbs "quqd1_2223" "# cquqd1Abs2x2x2x3";
   Row [2; 2; 3; 1] VAbs "quqd1_2231" "# cquqd1Abs2x2x3x1";
   Row [2; 2; 3; 2] VAbs "quqd1_2232" "# cquqd1Abs2x2x3x2";
   Row [2; 2; 3; 3] VAbs "quqd1_2233" "# cquqd1Abs2x2x3x3";
   Row [2; 3; 1; 1] VAbs "quqd1_2311" "# cquqd1Abs2x3x1x1";
   Row [2; 3; 1; 2] VAbs "quqd1_2312" "# cquqd1Abs2x3x1x2";
   Row [2; 3; 1; 3] VAbs "quqd1_2313" "# cquqd1Abs2x3x1x3";
   Row [2; 3; 2; 1] VAbs "quqd1_2321" "# cquqd1Abs2x3x2x1";
   Row [2; 3; 2; 2] VAbs "quqd1_2322" "# cquqd1Abs2x3x2x2";
   Row [2; 3; 2; 3] VAbs "quqd1_2323" "# cquqd1Abs2x3x2x3";
   Row [2; 3; 3; 1] VAbs "quqd1_2331" "# cquqd1Abs2x3x3x1";
   Row [2; 3; 3; 2] VAbs "quqd1_2332" "# cquqd1Abs2x3x3x2";
   Row [2; 3; 3; 3] VAbs "quqd1_2333" "# cquqd1Abs2x3x3x3";
   Row [3; 1; 1; 1] VAbs "quqd1_3111" "# cquqd1Abs3x1x1x1";
   Row [3; 1; 1; 2] VAbs "quqd1_3112" "# cquqd1Abs3x1x1x2";
   Row [3; 1; 1; 3] VAbs "quqd1_3113" "# cquqd1Abs3x1x1x3";
   Row [3; 1; 2; 1] VAbs "quqd1_3121" "# cquqd1Abs3x1x2x1";
   Row [3; 1; 2; 2] VAbs "quqd1_3122" "# cquqd1Abs3x1x2x2";
   Row [3; 1; 2; 3] VAbs "quqd1_3123" "# cquqd1Abs3x1x2x3";
   Row [3; 1; 3; 1] VAbs "quqd1_3131" "# cquqd1Abs3x1x3x1";
   Row [3; 1; 3; 2] VAbs "quqd1_3132" "# cquqd1Abs3x1x3x2";
   Row [3; 1; 3; 3] VAbs "quqd1_3133" "# cquqd1Abs3x1x3x3";
   Row [3; 2; 1; 1] VAbs "quqd1_3211" "# cquqd1Abs3x2x1x1";
   Row [3; 2; 1; 2] VAbs "quqd1_3212" "# cquqd1Abs3x2x1x2";
   Row [3; 2; 1; 3] VAbs "quqd1_3213" "# cquqd1Abs3x2x1x3";
   Row [3; 2; 2; 1] VAbs "quqd1_3221" "# cquqd1Abs3x2x2x1";
   Row [3; 2; 2; 2] VAbs "quqd1_3222" "# cquqd1Abs3x2x2x2";
   Row [3; 2; 2; 3] VAbs "quqd1_3223" "# cquqd1Abs3x2x2x3";
   Row [3; 2; 3; 1] VAbs "quqd1_3231" "# cquqd1Abs3x2x3x1";
   Row [3; 2; 3; 2] VAbs "quqd1_3232" "# cquqd1Abs3x2x3x2";
   Row [3; 2; 3; 3] VAbs "quqd1_3233" "# cquqd1Abs3x2x3x3";
   Row [3; 3; 1; 1] VAbs "quqd1_3311" "# cquqd1Abs3x3x1x1";
   Row [3; 3; 1; 2] VAbs "quqd1_3312" "# cquqd1Abs3x3x1x2";
   Row [3; 3; 1; 3] VAbs "quqd1_3313" "# cquqd1Abs3x3x1x3";
   Row [3; 3; 2; 1] VAbs "quqd1_3321" "# cquqd1Abs3x3x2x1";
   Row [3; 3; 2; 2] VAbs "quqd1_3322" "# cquqd1Abs3x3x2x2";
   Row [3; 3; 2; 3] VAbs "quqd1_3323" "# cquqd1Abs3x3x2x3";
   Row [3; 3; 3; 1] VAbs "quqd1_3331" "# cquqd1Abs3x3x3x1";
   Row [3; 3; 3; 2] VAbs "quqd1_3332" "# cquqd1Abs3x3x3x2";
   Row [3; 3; 3; 3] VAbs "quqd1_3333" "# cquqd1Abs3x3x3x3"].
(** smeftsim.py 2424-2506 *)
Definition rowsA_FRBlock72 : list row :=
  [Row [1; 1; 1; 1] VAbs "quqd8_1111" "# cquqd8Abs1x1x1x1";
   Row [1; 1; 1; 2] VAbs "quqd8_1112" "# cquqd8Abs1x1x1x2";
   Row [1; 1; 1; 3] VAbs "quqd8_1113" "# cquqd8Abs1x1x1x3";
   Row [1; 1; 2; 1] VAbs "quqd8_1121" "# cquqd8Abs1x1x2x1";
   Row [1; 1; 2; 2] VAbs "quqd8_1122" "# cquqd8Abs1x1x2x2";
   Row [1; 1; 2; 3] VAbs "quqd8_1123" "# cquqd8Abs1x1x2x3";
   Row [1; 1; 3; 1] VAbs "quqd8_1131" "# cquqd8Abs1x1x3x1";
   Row [1; 1; 3; 2] VAbs "quqd8_1132" "# cquqd8Abs1x1x3x2";
   Row [1; 1; 3; 3] VAbs "quqd8_1133" "# cquqd8Abs1x1x3x3";
   Row [1; 2; 1; 1] VAbs "quqd8_1211" "# cquqd8Abs1x2x1x1";
   Row [1; 2; 1; 2] VAbs "quqd8_1212" "# cquqd8Abs1x2x1x2";
   Row [1; 2; 1; 3] VAbs "quqd8_1213" "# cquqd8Abs1x2x1x3";
   Row [1; 2; 2; 1] VAbs "quqd8_1221" "# cquqd8Abs1x2x2x1";
   Row [1; 2; 2; 2] VAbs "quqd8_1222" "# cquqd8Abs1x2x2x2";
   Row [1; 2; 2; 3] VAbs "quqd8_1223" "# cquqd8Abs1x2x2x3";
   Row [1; 2; 3; 1] VAbs "quqd8_1231" "# cquqd8Abs1x2x3x1";
   Row [1; 2; 3; 2] VAbs "quqd8_1232" "# cquqd8Abs1x2x3x2";
   Row [1; 2; 3; 3] VAbs "quqd8_1233" "# cquqd8Abs1x2x3x3";
   Row [1; 3; 1; 1] VAbs "quqd8_1311" "# cquqd8Abs1x3x1x1";
   Row [1; 3; 1; 2] VAbs "quqd8_1312" "# cquqd8Abs1x3x1x2";
   Row [1; 3; 1; 3] VAbs "quqd8_1313" "# cquqd8Abs1x3x1x3";
   Row [1; 3; 2; 1] VAbs "quqd8_1321" "# cquqd8Abs1x3x2x1";
   Row [1; 3; 2; 2] VAbs "quqd8_1322" "# cquqd8Abs1x3x2x2";
   Row [1; 3; 2; 3] VAbs "quqd8_1323" "# cquqd8Abs1x3x2x3";
   Row [1; 3; 3; 1] VAbs "quqd8_1331" "# cquqd8Abs1x3x3x1";
   Row [1; 3; 3; 2] VAbs "quqd8_1332" "# cquqd8Abs1x3x3x2";
   Row [1; 3; 3; 3] VAbs "quqd8_1333" "# cquqd8Abs1x3x3x3";
   Row [2; 1; 1; 1] VAbs "quqd8_2111" "# cquqd8Abs2x1x1x1";
   Row [2; 1; 1; 2] VAbs "quqd8_2112" "# cquqd8Abs2x1x1x2";
   Row [2; 1; 1; 3] VAbs "quqd8_2113" "# cquqd8Abs2x1x1x3";
   Row [2; 1; 2; 1] VAbs "quqd8_2121" "# cquqd8Abs2x1x2x1";
   Row [2; 1; 2; 2] VAbs "quqd8_2122" "# cquqd8Abs2x1x2x2";
   Row [2; 1; 2; 3] VAbs "quqd8_2123" "# cquqd8Abs2x1x2x3";
   Row [2; 1; 3; 1] VAbs "quqd8_2131" "# cquqd8Abs2x1x3x1";
   Row [2; 1; 3; 2] VAbs "quqd8_2132" "# cquqd8Abs2x1x3x2";
   Row [2; 1; 3; 3] VAbs "quqd8_2133" "# cquqd8Abs2x1x3x3";
   Row [2; 2; 1; 1] VAbs "quqd8_2211" "# cquqd8Abs2x2x1x1";
   Row [2; 2; 1; 2] VAbs "quqd8_2212" "# cquqd8Abs2x2x1x2";
   Row [2; 2; 1; 3] VAbs "quqd8_2213" "# cquqd8Abs2x2x1x3";
   Row [2; 2; 2; 1] VAbs "quqd8_2221" "# cquqd8Abs2x2x2x1";
   Row [2; 2; 2; 2] VAbs "quqd8_2222" "# cquqd8Abs2x2x2x2";
   Row [2; 2; 2; 3] VAbs "quqd8_2223" "# cquqd8Abs2x2x2x3";
   Row [2; 2; 3; 1] VAbs "quqd8_2231" "# cquqd8Abs2x2x3x1";
   Row [2; 2; 3; 2] VAbs "quqd8_2232" "# cquqd8Abs2x2x3x2";
   Row [2; 2; 3; 3] VAbs "quqd8_2233" "# cquqd8Abs2x2x3x3";
   Row [2; 3; 1; 1] VAbs "quqd8_2311" "# cquqd8Abs2x3x1x1";
   Row [2; 3; 1; 2] VAbs "quqd8_2312" "# cquqd8Abs2x3x1x2";
   Row [2; 3; 1; 3] VAbs "quqd8_2313" "# cquqd8Abs2x3x1x3";
   Row [2; 3; 2; 1] VAbs "quqd8_2321" "# cquqd8Abs2x3x2x1";
   Row [2; 3; 2; 2] VAbs "quqd8_2322" "# cquqd8Abs2x3x2x2";
   Row [2; 3; 2; 3] VAbs "quqd8_2323" "# cquqd8Abs2x3x2x3";
   Row [2; 3; 3; 1] VAbs "quqd8_2331" "# cquqd8Abs2x3x3x1";
   Row [2; 3; 3; 2] VAbs "quqd8_2332" "# cquqd8Abs2x3x3x2";
   Row [2; 3; 3; 3] VAbs "quqd8_2333" "# cquqd8Abs2x3x3x3";
   Row [3; 1; 1; 1] VAbs "quqd8_3111" "# cquqd8Abs3x1x1x1";
   Row [3; 1; 1; 2] VAbs "quqd8_3112" "# cquqd8Abs3x1x1x2";
   Row [3; 1; 1; 3] VAbs "quqd8_3113" "# cquqd8Abs3x1x1x3";
   Row [3; 1; 2; 1] VAbs "quqd8_3121" "# cquqd8Abs3x1x2x1";
   Row [3; 1; 2; 2] VAbs "quqd8_3122" "# cquqd8Abs3x1x2x2";
   Row [3; 1; 2; 3] VAbs "quqd8_3123" "# cquqd8Abs3x1x2x3";
   Row [3; 1; 3; 1] VAbs "quqd8_3131" "# cquqd8Abs3x1x3x1";
   Row [3; 1; 3; 2] VAbs "quqd8_3132" "# cquqd8Abs3x1x3x2";
   Row [3; 1; 3; 3] VAbs "quqd8_3133" "# cquqd8Abs3x1x3x3";
   Row [3; 2; 1; 1] VAbs "quqd8_3211" "# cquqd8Abs3x2x1x1";
   Row [3; 2; 1; 2] VAbs "quqd8_3212" "# cquqd8Abs3x2x1x2";
   Row [3; 2; 1; 3] VAbs "quqd8_3213" "# cquqd8Abs3x2x1x3";
   Row [3; 2; 2; 1] VAbs "quqd8_3221" "# cquqd8Abs3x2x2x1";
   Row [3; 2; 2; 2] VAbs "quqd8_3222" "# cquqd8Abs3x2x2x2";
   Row [3; 2; 2; 3] VAbs "quqd8_3223" "# cquqd8Abs3x2x2x3";
   Row [3; 2; 3; 1] VAbs "quqd8_3231" "# cquqd8Abs3x2x3x1";
   Row [3; 2; 3; 2] VAbs "quqd8_3232" "# cquqd8Abs3x2x3x2";
   Row [3; 2; 3; 3] VAbs "quqd8_3233" "# cquqd8Abs3x2x3x3";
   Row [3; 3; 1; 1] VAbs "quqd8_3311" "# cquqd8Abs3x3x1x1";
   Row [3; 3; 1; 2] VAbs "quqd8_3312" "# cquqd8Abs3x3x1x2";
   Row [3; 3; 1; 3] VAbs "quqd8_3313" "# cquqd8Abs3x3x1x3";
   Row [3; 3; 2; 1] VAbs "quqd8_3321" "# cquqd8Abs3x3x2x1";
   Row [3; 3; 2; 2] VAbs "quqd8_3322" "# cquqd8Abs3x3x2x2";
   Row [3; 3; 2; 3] VAbs "quqd8_3323" "# cquqd8Abs3x3x2x3";
   Row [3; 3; 3; 1] VAbs "quqd8_3331" "# cquqd8Abs3x3x3x1";
   Row [3; 3; 3; 2] VAbs "quqd8_3332" "# cquqd8Abs3x3x3x2";
   Row [3; 3; 3; 3] VAbs "quqd8_3333" "# cquqd8Abs3x3x3x3"].
(** smeftsim.py 2508-2590 *)
Definition rowsA_FRBlock73 : list row :=
  [Row [1; 1; 1; 1] VAbs "lequ1_1111" "# clequ1Abs1x1x1x1";
   Row [1; 1; 1; 2] VAbs "lequ1_1112" "# clequ1Abs1x1x1x2";
   Row [1; 1; 1; 3] VAbs "lequ1_1113" "# clequ1Abs1x1x1x3";
   Row [1; 1; 2; 1] VAbs "lequ1_1121" "# clequ1Abs1x1x2x1";
   Row [1; 1; 2; 2] VAbs "lequ1_1122" "# clequ1Abs1x1x2x2";
   Row [1; 1; 2; 3] VAbs "lequ1_1123" "# clequ1Abs1x1x2x3";
   Row [1; 1; 3; 1] VAbs "lequ1_1131" "# clequ1Abs1x1x3x1";
   Row [1; 1; 3; 2] VAbs "lequ1_1132" "# clequ1Abs1x1x3x2";
   Row [1; 1; 3; 3] VAbs "lequ1_1133" "# clequ1Abs1x1x3x3";
   Row [1; 2; 1; 1] VAbs "lequ1_1211" "# clequ1Abs1x2x1x1";
   Row [1; 2; 1; 2] VAbs "lequ1_1212" "# clequ1Abs1x2x1x2";
   Row [1; 2; 1; 3] VAbs "lequ1_1213" "# clequ1Abs1x2x1x3";
   Row [1; 2; 2; 1] VAbs "lequ1_1221" "# clequ1Abs1x2x2x1";
   Row [1; 2; 2; 2] VAbs "lequ1_1222" "# clequ1Abs1x2x2x2";
   Row [1; 2; 2; 3] VAbs "lequ1_1223" "# clequ1Abs1x2x2x3";
   Row [1; 2; 3; 1] VAbs "lequ1_1231" "# clequ1Abs1x2x3x1";
   Row [1; 2; 3; 2] VAbs "lequ1_1232" "# clequ1Abs1x2x3x2";
   Row [1; 2; 3; 3] VAbs "lequ1_1233" "# clequ1Abs1x2x3x3";
   Row [1; 3; 1; 1] VAbs "lequ1_1311" "# clequ1Abs1x3x1x1";
   Row [1; 3; 1; 2] VAbs "lequ1_1312" "# clequ1Abs1x3x1x2";
   Row [1; 3; 1; 3] VAbs "lequ1_1313" "# clequ1Abs1x3x1x3";
   Row [1; 3; 2; 1] VAbs "lequ1_1321" "# clequ1Abs1x3x2x1";
   Row [1; 3; 2; 2] VAbs "lequ1_1322" "# clequ1Abs1x3x2x2";
   Row [1; 3; 2; 3] VAbs "lequ1_1323" "# clequ1Abs1x3x2x3";
   Row [1; 3; 3; 1] VAbs "lequ1_1331" "# clequ1Abs1x3x3x1";
   Row [1; 3; 3; 2] VAbs "lequ1_1332" "# clequ1Abs1x3x3x2";
   Row [1; 3; 3; 3] VAbs "lequ1_1333" "# clequ1Abs1x3x3x3";
   Row [2; 1; 1; 1] VAbs "lequ1_2111" "# clequ1Abs2x1x1x1";
   Row [2; 1; 1; 2] VAbs "lequ1_2112" "# clequ1Abs2x1x1x2";
   Row [2; 1; 1; 3] VAbs "lequ1_2113" "# clequ1Abs2x1x1x3";
   Row [2; 1; 2; 1] VAbs "lequ1_2121" "# clequ1Abs2x1x2x1";
   Row [2; 1; 2; 2] VAbs "lequ1_2122" "# clequ1Abs2x1x2x2";
   Row [2; 1; 2; 3] VAbs "lequ1_2123" "# clequ1Abs2x1x2x3";
   Row [2; 1; 3; 1] VAbs "lequ1_2131" "# clequ1Abs2x1x3x1";
   Row [2; 1; 3; 2] VAbs "lequ1_2132" "# clequ1Abs2x1x3x2";
   Row [2; 1; 3; 3] VAbs "lequ1_2133" "# clequ1Abs2x1x3x3";
   Row [2; 2; 1; 1] VAbs "lequ1_2211" "# clequ1Abs2x2x1x1";
   Row [2; 2; 1; 2] VAbs "lequ1_2212" "# clequ1Abs2x2x1x2";
   Row [2; 2; 1; 3] VAbs "lequ1_2213" "# clequ1Abs2x2x1x3";
   Row [2; 2; 2; 1] VAbs "lequ1_2221" "# clequ1Abs2x2x2x1";
   Row [2; 2; 2; 2] VAbs "lequ1_2222" "# clequ1Abs2x2x2x2";
   Row [2; 2; 2; 3] VAbs "lequ1_2223" "# clequ1Abs2x2x2x3";
   Row [2; 2; 3; 1] VAbs "lequ1_2231" "# clequ1Abs2x2x3x1";
   Row [2; 2; 3; 2] VAbs "lequ1_2232" "# clequ1Abs2x2x3x2";
   Row [2; 2; 3; 3] VAbs "lequ1_2233" "# clequ1Abs2x2x3x3";
   Row [2; 3; 1; 1] VAbs "lequ1_2311" "# clequ1Abs2x3x1x1";
   Row [2; 3; 1; 2] VAbs "lequ1_2312" "# clequ1Abs2x3x1x2";
   Row [2; 3; 1; 3] VAbs "lequ1_2313" "# clequ1Abs2x3x1x3";
   Row [2; 3; 2; 1] VAbs "lequ1_2321" "# clequ1Abs2x3x2x1";
   Row [2; 3; 2; 2] VAbs "lequ1_2322" "# clequ1Abs2x3x2x2";
   Row [2; 3; 2; 3] VAbs "lequ1_2323" "# clequ1Abs2x3x2x3";
   Row [2; 3; 3; 1] VAbs "lequ1_2331" "# clequ1Abs2x3x3x1";
   Row [2; 3; 3; 2] VAbs "lequ1_2332" "# clequ1Abs2x3x3x2";
   Row [2; 3; 3; 3] VAbs "lequ1_2333" "# clequ1Abs2x3x3x3";
   Row [3; 1; 1; 1] VAbs "lequ1_3111" "# clequ1Abs3x1x1x1";
   Row [3; 1; 1; 2] VAbs "lequ1_3112" "# clequ1Abs3x1x1x2";
   Row [3; 1; 1; 3] VAbs "lequ1_3113" "# clequ1Abs3x1x1x3";
   Row [3; 1; 2; 1] VAbs "lequ1_3121" "# clequ1Abs3x1x2x1";
   Row [3; 1; 2; 2] VAbs "lequ1_3122" "# clequ1Abs3x1x2x2";
   Row [3; 1; 2; 3] VAbs "lequ1_3123" "# clequ1Abs3x1x2x3";
   Row [3; 1; 3; 1] VAbs "lequ1_3131" "# clequ1Abs3x1x3x1";
   Row [3; 1; 3; 2] VAbs "lequ1_3132" "# clequ1Abs3x1x3x2";
   Row [3; 1; 3; 3] VAbs "lequ1_3133" "# clequ1Abs3x1x3x3";
   Row [3; 2; 1; 1] VAbs "lequ1_3211" "# clequ1Abs3x2x1x1";
   Row [3; 2; 1; 2] VAbs "lequ1_3212" "# clequ1Abs3x2x1x2";
   Row [3; 2; 1; 3] VAbs "lequ1_3213" "# clequ1Abs3x2x1x3";
   Row [3; 2; 2; 1] VAbs "lequ1_3221" "# clequ1Abs3x2x2x1";
   Row [3; 2; 2; 2] VAbs "lequ1_3222" "# clequ1Abs3x2x2x2";
   Row [3; 2; 2; 3] VAbs "lequ1_3223" "# clequ1Abs3x2x2x3";
   Row [3; 2; 3; 1] VAbs "lequ1_3231" "# clequ1Abs3x2x3x1";
   Row [3; 2; 3; 2] VAbs "lequ1_3232" "# clequ1Abs3x2x3x2";
   Row [3; 2; 3; 3] VAbs "lequ1_3233" "# clequ1Abs3x2x3x3";
   Row [3; 3; 1; 1] VAbs "lequ1_3311" "# clequ1Abs3x3x1x1";
   Row [3; 3; 1; 2] VAbs "lequ1_3312" "# clequ1Abs3x3x1x2";
   Row [3; 3; 1; 3] VAbs "lequ1_3313" "# clequ1Abs3x3x1x3";
   Row [3; 3; 2; 1] VAbs "lequ1_3321" "# clequ1Abs3x3x2x1";
   Row [3; 3; 2; 2] VAbs "lequ1_3322" "# clequ1Abs3x3x2x2";
   Row [3; 3; 2; 3] VAbs "lequ1_3323" "# clequ1Abs3x3x2x3";
   Row [3; 3; 3; 1] VAbs "lequ1_3331" "# clequ1Abs3x3x3x1";
   Row [3; 3; 3; 2] VAbs "lequ1_3332" "# clequ1Abs3x3x3x2";
   Row [3; 3; 3; 3] VAbs "lequ1_3333" "# clequ1Abs3x3x3x3"].
(** smeftsim.py 2592-2674 *)
Definition rowsA_FRBlock74 : list row :=
  [Row [1; 1; 1; 1] VAbs "lequ3_1111" "# clequ3Abs1x1x1x1";
   Row [1; 1; 1; 2] VAbs "lequ3_1112" "# clequ3Abs1x1x1x2";
   Row [1; 1; 1; 3] VAbs "lequ3_1113" "# clequ3Abs1x1x1x3";
   Row [1; 1; 2; 1] VAbs "lequ3_1121" "# clequ3Abs1x1x2x1";
   Row [1; 1; 2; 2] VAbs "lequ3_1122" "# clequ3Abs1x1x2x2";
   Row [1; 1; 2; 3] VAbs "lequ3_1123" "# clequ3Abs1x1x2x3";
   Row [1; 1; 3; 1] VAbs "lequ3_1131" "# clequ3Abs1x1x3x1";
   Row [1; 1; 3; 2] VAbs "lequ3_1132" "# clequ3Abs1x1x3x2";
   Row [1; 1; 3; 3] VAbs "lequ3_1133" "# clequ3Abs1x1x3x3";
   Row [1; 2; 1; 1] VAbs "lequ3_1211" "# clequ3Abs1x2x1x1";
   Row [1; 2; 1; 2] VAbs "lequ3_1212" "# clequ3Abs1x2x1x2";
   Row [1; 2; 1; 3] VAbs "lequ3_1213" "# clequ3Abs1x2x1x3";
   Row [1; 2; 2; 1] VAbs "lequ3_1221" "# clequ3Abs1x2x2x1";
   Row [1; 2; 2; 2] VAbs "lequ3_1222" "# clequ3Abs1x2x2x2";
   Row [1; 2; 2; 3] VAbs "lequ3_1223" "# clequ3Abs1x2x2x3";
   Row [1; 2; 3; 1] VAbs "lequ3_1231" "# clequ3Abs1x2x3x1";
   Row [1; 2; 3; 2] VAbs "lequ3_1232" "# clequ3Abs1x2x3x2";
   Row [1; 2; 3; 3] VAbs "lequ3_1233" "# clequ3Abs1x2x3x3";
   Row [1; 3; 1; 1] VAbs "lequ3_1311" "# clequ3Abs1x3x1x1";
   Row [1; 3; 1; 2] VAbs "lequ3_1312" "# clequ3Abs1x3x1x2";
   Row [1; 3; 1; 3] VAbs "lequ3_1313" "# clequ3Abs1x3x1x3";
   Row [1; 3; 2; 1] VAbs "lequ3_1321" "# clequ3Abs1x3x2x1";
   Row [1; 3; 2; 2] VAbs "lequ3_1322" "# clequ3Abs1x3x2x2";
   Row [1; 3; 2; 3] VAbs "lequ3_1323" "# clequ3Abs1x3x2x3";
   Row [1; 3; 3; 1] VAbs "lequ3_1331" "# clequ3Abs1x3x3x1";
   Row [1; 3; 3; 2] VAbs "lequ3_1332" "# clequ3Abs1x3x3x2";
   Row [1; 3; 3; 3] VAbs "lequ3_1333" "# clequ3Abs1x3x3x3";
   Row [2; 1; 1; 1] VAbs "lequ3_2111" "# clequ3Abs2x1x1x1";
   Row [2; 1; 1; 2] VAbs "lequ3_2112" "# clequ3Abs2x1x1x2";
   Row [2; 1; 1; 3] VAbs "lequ3_2113" "# clequ3Abs2x1x1x3";
   Row [2; 1; 2; 1] VAbs "lequ3_2121" "# clequ3Abs2x1x2x1";
   Row [2; 1; 2; 2] VAbs "lequ3_2122" "# clequ3Abs2x1x2x2";
   Row [2; 1; 2; 3] VAbs "lequ3_2123" "# clequ3Abs2x1x2x3";
   Row [2; 1; 3; 1] VAbs "lequ3_2131" "# clequ3Abs2x1x3x1";
   Row [2; 1; 3; 2] VAbs "lequ3_2132" "# clequ3Abs2x1x3x2";
   Row [2; 1; 3; 3] VAbs "lequ3_2133" "# clequ3Abs2x1x3x3";
   Row [2; 2; 1; 1] VAbs "lequ3_2211" "# clequ3Abs2x2x1x1";
   Row [2; 2; 1; 2] VAbs "lequ3_2212" "# clequ3Abs2x2x1x2";
   Row [2; 2; 1; 3] VAbs "lequ3_2213" "# clequ3Abs2x2x1x3";
   Row [2; 2; 2; 1] VAbs "lequ3_2221" "# clequ3Abs2x2x2x1";
   Row [2; 2; 2; 2] VAbs "lequ3_2222" "# clequ3Abs2x2x2x2";
   Row [2; 2; 2; 3] VAbs "lequ3_2223" "# clequ3Abs2x2x2x3";
   Row [2; 2; 3; 1] VAbs "lequ3_2231" "# clequ3Abs2x2x3x1";
   Row [2; 2; 3; 2] VAbs "lequ3_2232" "# clequ3Abs2x2x3x2";
   Row [2; 2; 3; 3] VAbs "lequ3_2233" "# clequ3Abs2x2x3x3";
   Row [2; 3; 1; 1] VAbs "lequ3_2311" "# clequ3Abs2x3x1x1";
   Row [2; 3; 1; 2] VAbs "lequ3_2312" "# clequ3Abs2x3x1x2";
   Row [2; 3; 1; 3] VAbs "lequ3_2313" "# clequ3Abs2x3x1x3";
   Row [2; 3; 2; 1] VAbs "lequ3_2321" "# clequ3Abs2x3x2x1";
   Row [2; 3; 2; 2] VAbs "lequ3_2322" "# clequ3Abs2x3x2x2";
   Row [2; 3; 2; 3] VAbs "lequ3_2323" "# clequ3Abs2x3x2x3";
   Row [2; 3; 3; 1] VAbs "lequ3_2331" "# clequ3Abs2x3x3x1";
   Row [2; 3; 3; 2] VAbs "lequ3_2332" "# clequ3Abs2x3x3x2";
   Row [2; 3; 3; 3] VAbs "lequ3_2333" "# clequ3Abs2x3x3x3";
   Row [3; 1; 1; 1] VAbs "lequ3_3111" "# clequ3Abs3x1x1x1";
   Row [3; 1; 1; 2] VAbs "lequ3_3112" "# clequ3Abs3x1x1x2";
   Row [3; 1; 1; 3] VAbs "lequ3_3113" "# clequ3Abs3x1x1x3";
   Row [3; 1; 2; 1] VAbs "lequ3_3121" "# clequ3Abs3x1x2x1";
   Row [3; 1; 2; 2] VAbs "lequ3_3122" "# clequ3Abs3x1x2x2";
   Row [3; 1; 2; 3] VAbs "lequ3_3123" "# clequ3Abs3x1x2x3";
   Row [3; 1; 3; 1] VAbs "lequ3_3131" "# clequ3Abs3x1x3x1";
   Row [3; 1; 3; 2] VAbs "lequ3_3132" "# clequ3Abs3x1x3x2";
   Row [3; 1; 3; 3] VAbs "lequ3_3133" "# clequ3Abs3x1x3x3";
   Row [3; 2; 1; 1] VAbs "lequ3_3211" "# clequ3Abs3x2x1x1";
   Row [3; 2; 1; 2] VAbs "lequ3_3212" "# clequ3Abs3x2x1x2";
   Row [3; 2; 1; 3] VAbs "lequ3_3213" "# clequ3Abs3x2x1x3";
   Row [3; 2; 2; 1] VAbs "lequ3_3221" "# clequ3Abs3x2x2x1";
   Row [3; 2; 2; 2] VAbs "lequ3_3222" "# clequ3Abs3x2x2x2";
   Row [3; 2; 2; 3] VAbs "lequ3_3223" "# clequ3Abs3x2x2x3";
   Row [3; 2; 3; 1] VAbs "lequ3_3231" "# clequ3Abs3x2x3x1";
   Row [3; 2; 3; 2] VAbs "lequ3_3232" "# clequ3Abs3x2x3x2";
   Row [3; 2; 3; 3] VAbs "lequ3_3233" "# clequ3Abs3x2x3x3";
   Row [3; 3; 1; 1] VAbs "lequ3_3311" "# clequ3Abs3x3x1x1";
   Row [3; 3; 1; 2] VAbs "lequ3_3312" "# clequ3Abs3x3x1x2";
   Row [3; 3; 1; 3] VAbs "lequ3_3313" "# clequ3Abs3x3x1x3";
   Row [3; 3; 2; 1] VAbs "lequ3_3321" "# clequ3Abs3x3x2x1";
   Row [3; 3; 2; 2] VAbs "lequ3_3322" "# clequ3Abs3x3x2x2";
   Row [3; 3; 2; 3] VAbs "lequ3_3323" "# clequ3Abs3x3x2x3";
   Row [3; 3; 3; 1] VAbs "lequ3_3331" "# clequ3Abs3x3x3x1";
   Row [3; 3; 3; 2] VAbs "lequ3_3332" "# clequ3Abs3x3x3x2";
   Row [3; 3; 3; 3] VAbs "lequ3_3333" "# clequ3Abs3x3x3x3"].
(** smeftsim.py 2676-2686 *)
Definition rowsA_FRBlock8 : list row :=
  [Row [1; 1] VAngle "dW_11" "# cdWPh1x1";
   Row [1; 2] VAngle "dW_12" "# cdWPh1x2";
   Row [1; 3] VAngle "dW_13" "# cdWPh1x3";
   Row [2; 1] VAngle "dW_21" "# cdWPh2x1";
   Row [2; 2] VAngle "dW_22" "# cdWPh2x2";
   Row [2; 3] VAngle "dW_23" "# cdWPh2x3";
   Row [3; 1] VAngle "dW_31" "# cdWPh3x1";
   Row [3; 2] VAngle "dW_32" "# cdWPh3x2";
   Row [3; 3] VAngle "dW_33" "# cdWPh3x3"].
(** smeftsim.py 2688-2698 *)
Definition rowsA_FRBlock9 : list row :=
  [Row [1; 1] VAngle "dB_11" "# cdBPh1x1";
   Row [1; 2] VAngle "dB_12" "# cdBPh1x2";
   Row [1; 3] VAngle "dB_13" "# cdBPh1x3";
   Row [2; 1] VAngle "dB_21" "# cdBPh2x1";
   Row [2; 2] VAngle "dB_22" "# cdBPh2x2";
   Row [2; 3] VAngle "dB_23" "# cdBPh2x3";
   Row [3; 1] VAngle "dB_31" "# cdBPh3x1";
   Row [3; 2] VAngle "dB_32" "# cdBPh3x2";
   Row [3; 3] VAngle "dB_33" "# cdBPh3x3"].
(** smeftsim.py 95-2701 *)
Definition tableA : list (string * list row) :=
  [("FRBlock", rowsA_FRBlock);
   ("FRBlock10", rowsA_FRBlock10);
   ("FRBlock11", rowsA_FRBlock11);
   ("FRBlock12", rowsA_FRBlock12);
   ("FRBlock13", rowsA_FRBlock13);
   ("FRBlock14", rowsA_FRBlock14);
   ("FRBlock15", rowsA_FRBlock15);
   ("FRBlock16", rowsA_FRBlock16);
   ("FRBlock17", rowsA_FRBlock17);
   ("FRBlock18", rowsA_FRBlock18);
   ("FRBlock19", rowsA_FRBlock19);
   ("FRBlock2", rowsA_FRBlock2);
   ("FRBlock20", rowsA_FRBlock20);
   ("FRBlock21", rowsA_FRBlock21);
   ("FRBlock25", rowsA_FRBlock25);
   ("FRBlock26", rowsA_FRBlock26);
   ("FRBlock27", rowsA_FRBlock27);
   ("FRBlock28", rowsA_FRBlock28);
   ("FRBlock29", rowsA_FRBlock29);
   ("FRBlock3", rowsA_FRBlock3);
   ("FRBlock30", rowsA_FRBlock30);
   ("FRBlock31", rowsA_FRBlock31);
   ("FRBlock32", rowsA_FRBlock32);
   ("FRBlock4", rowsA_FRBlock4);
   ("FRBlock48", rowsA_FRBlock48);
   ("FRBlock5", rowsA_FRBlock5);
   ("FRBlock6", rowsA_FRBlock6);
   ("FRBlock7", rowsA_FRBlock7);
   ("FRBlock70", rowsA_FRBlock70);
   ("FRBlock71", rowsA_FRBlock71);
   ("FRBlock72", rowsA_FRBlock72);
   ("FRBlock73", rowsA_FRBlock73);
   ("FRBlock74", rowsA_FRBlock74);
   ("FRBlock8", rowsA_FRBlock8);
   ("FRBlock9", rowsA_FRBlock9)].
(** smeftsim.py 2705-4164 *)
Definition rowsB_FRBlock : list row :=
  [Row [1] VAbsAll "phil1_11" "# cHl1Abs11";
   Row [2] VAbsAll "phil1_12" "# cHl1Abs12";
   Row [3] VAbsAll "phil1_13" "# cHl1Abs13";
   Row [4] VAbsAll "phil1_22" "# cHl1Abs22";
   Row [5] VAbsAll "phil1_23" "# cHl1Abs23";
   Row [6] VAbsAll "phil1_33" "# cHl1Abs33";
   Row [7] VAngle "phil1_12" "# cHl1Ph12";
   Row [8] VAngle "phil1_13" "# cHl1Ph13";
   Row [9] VAngle "phil1_23" "# cHl1Ph23";
   Row [10] VAbsAll "phil3_11" "# cHL3Abs11";
   Row [11] VAbsAll "phil3_12" "# cHL3Abs12";
   Row [12] VAbsAll "phil3_13" "# cHL3Abs13";
   Row [13] VAbsAll "phil3_22" "# cHL3Abs22";
   Row [14] VAbsAll "phil3_23" "# cHL3Abs23";
   Row [15] VAbsAll "phil3_33" "# cHL3Abs33";
   Row [16] VAngle "phil3_12" "# cHL3Ph12";
   Row [17] VAngle "phil3_13" "# cHL3Ph13";
   Row [18] VAngle "phil3_23" "# cHL3Ph23";
   Row [19] VAbsAll "phiq1_11" "# cHq1Abs11";
   Row [20] VAbsAll "phiq1_12" "# cHq1Abs12";
   Row [21] VAbsAll "phiq1_13" "# cHq1Abs13";
   Row [22] VAbsAll "phiq1_22" "# cHq1Abs22";
   Row [23] VAbsAll "phiq1_23" "# cHq1Abs23";
   Row [24] VAbsAll "phiq1_33" "# cHq1Abs33";
   Row [25] VAngle "phiq1_12" "# cHq1Ph12";
   Row [26] VAngle "phiq1_13" "# cHq1Ph13";
   Row [27] VAngle "phiq1_23" "# cHq1Ph23";
   Row [28] VAbsAll "phiq3_11" "# cHQ3Abs11";
   Row [29] VAbsAll "phiq3_12" "# cHQ3Abs12";
   Row [30] VAbsAll "phiq3_13" "# cHQ3Abs13";
   Row [31] VAbsAll "phiq3_22" "# cHQ3Abs22";
   Row [32] VAbsAll "phiq3_23" "# cHQ3Abs23";
   Row [33] VAbsAll "phiq3_33" "# cHQ3Abs33";
   Row [34] VAngle "phiq3_12" "# cHQ3Ph12";
   Row [35] VAngle "phiq3_13" "# cHQ3Ph13";
   Row [36] VAngle "phiq3_23" "# cHQ3Ph23";
   Row [37] VAbsAll "phiu_11" "# cHuAbs11";
   Row [38] VAbsAll "phiu_12" "# cHuAbs12";
   Row [39] VAbsAll "phiu_13" "# cHuAbs13";
   Row [40] VAbsAll "phiu_22" "# cHuAbs22";
   Row [41] VAbsAll "phiu_23" "# cHuAbs23";
   Row [42] VAbsAll "phiu_33" "# cHuAbs33";
   Row [43] VAngle "phiu_12" "# cHuPh12";
   Row [44] VAngle "phiu_13" "# cHuPh13";
   Row [45] VAngle "phiu_23" "# cHuPh23";
   Row [46] VAbsAll "phid_11" "# cHdAbs11";
   Row [47] VAbsAll "phid_12" "# cHdAbs12";
   Row [48] VAbsAll "phid_13" "# cHdAbs13";
   Row [49] VAbsAll "phid_22" "# cHdAbs22";
   Row [50] VAbsAll "phid_23" "# cHdAbs23";
   Row [51] VAbsAll "phid_33" "# cHdAbs33";
   Row [52] VAngle "phid_12" "# cHdPh12";
   Row [53] VAngle "phid_13" "# cHdPh13";
   Row [54] VAngle "phid_23" "# cHdPh23";
   Row [55] VAbsAll "phie_11" "# cHeAbs11";
   Row [56] VAbsAll "phie_12" "# cHeAbs12";
   Row [57] VAbsAll "phie_13" "# cHeAbs13";
   Row [58] VAbsAll "phie_22" "# cHeAbs22";
   Row [59] VAbsAll "phie_23" "# cHeAbs23";
   Row [60] VAbsAll "phie_33" "# cHeAbs33";
   Row [61] VAngle "phie_12" "# cHePh12";
   Row [62] VAngle "phie_13" "# cHePh13";
   Row [63] VAngle "phie_23" "# cHePh23";
   Row [64] VRaw "ll_1111" "# cllAbs1111";
   Row [65] VRaw "ll_1122" "# cllAbs1122";
   Row [66] VRaw "ll_1221" "# cllAbs1221";
   Row [67] VRaw "ll_1133" "# cllAbs1133";
   Row [68] VRaw "ll_1331" "# cllAbs1331";
   Row [69] VRaw "ll_2222" "# cllAbs2222";
   Row [70] VRaw "ll_2233" "# cllAbs2233";
   Row [71] VRaw "ll_2332" "# cllAbs2332";
   Row [72] VRaw "ll_3333" "# cllAbs3333";
   Row [73] VAbs "ll_1112" "# cllAbs1112";
   Row [74] VAbs "ll_1113" "# cllAbs1113";
   Row [75] VAbs "ll_1123" "# cllAbs1123";
   Row [76] VAbs "ll_1212" "# cllAbs1212";
   Row [77] VAbs "ll_1213" "# cllAbs1213";
   Row [78] VAbs "ll_1231" "# cllAbs1231";
   Row [79] VAbs "ll_1222" "# cllAbs1222";
   Row [80] VAbs "ll_1223" "# cllAbs1223";
   Row [81] VAbs "ll_1232" "# cllAbs1232";
   Row [82] VAbs "ll_1233" "# cllAbs1233";
   Row [83] VAbs "ll_1313" "# cllAbs1313";
   Row [84] VAbs "ll_1322" "# cllAbs1322";
   Row [85] VAbs "ll_1332" "# cllAbs1332";
   Row [86] VAbs "ll_1323" "# cllAbs1323";
   Row [87] VAbs "ll_1333" "# cllAbs1333";
   Row [88] VAbs "ll_2223" "# cllAbs2223";
   Row [89] VAbs "ll_2323" "# cllAbs2323";
   Row [90] VAbs "ll_2333" "# cllAbs3323";
   Row [91] VAngle "ll_1112" "# cllPh1112";
   Row [92] VAngle "ll_1113" "# cllPh1113";
   Row [93] VAngle "ll_1123" "# cllPh1123";
   Row [94] VAngle "ll_1212" "# cllPh1212";
   Row [95] VAngle "ll_1213" "# cllPh1213";
   Row [96] VAngle "ll_1231" "# cllPh1231";
   Row [97] VAngle "ll_1222" "# cllPh1222";
   Row [98] VAngle "ll_1223" "# cllPh1223";
   Row [99] VAngle "ll_1232" "# cllPh1232";
   Row [100] VAngle "ll_1233" "# cllPh1233";
   Row [101] VAngle "ll_1313" "# cllPh1313";
   Row [102] VAngle "ll_1322" "# cllPh1322";
   Row [103] VAngle "ll_1332" "# cllPh1332";
   Row [104] VAngle "ll_1323" "# cllPh1323";
   Row [105] VAngle "ll_1333" "# cllPh1333";
   Row [106] VAngle "ll_2223" "# cllPh2223";
   Row [107] VAngle "ll_2323" "# cllPh2323";
   Row [108] VAngle "ll_2333" "# cllPh3323";
   Row [109] VRaw "qq1_1111" "# cqq1Abs1111";
   Row [110] VRaw "qq1_1122" "# cqq1Abs1122";
   Row [111] VRaw "qq1_1221" "# cqq1Abs1221";
   Row [112] VRaw "qq1_1133" "# cqq1Abs1133";
   Row [113] VRaw "qq1_1331" "# cqq1Abs1331";
   Row [114] VRaw "qq1_2222" "# cqq1Abs2222";
   Row [115] VRaw "qq1_2233" "# cqq1Abs2233";
   Row [116] VRaw "qq1_2332" "# cqq1Abs2332";
   Row [117] VRaw "qq1_3333" "# cqq1Abs3333";
   Row [118] VAbs "qq1_1112" "# cqq1Abs1112";
   Row [119] VAbs "qq1_1113" "# cqq1Abs1113";
   Row [120] VAbs "qq1_1123" "# cqq1Abs1123";
   Row [121] VAbs "qq1_1212" "# cqq1Abs1212";
   Row [122] VAbs "qq1_1213" "# cqq1Abs1213";
   Row [123] VAbs "qq1_1231" "# cqq1Abs1231";
   Row [124] VAbs "qq1_1222" "# cqq1Abs1222";
   Row [125] VAbs "qq1_1223" "# cqq1Abs1223";
   Row [126] VAbs "qq1_1232" "# cqq1Abs1232";
   Row [127] VAbs "qq1_1233" "# cqq1Abs1233";
   Row [128] VAbs "qq1_1313" "# cqq1Abs1313";
   Row [129] VAbs "qq1_1322" "# cqq1Abs1322";
   Row [130] VAbs "qq1_1332" "# cqq1Abs1332";
   Row [131] VAbs "qq1_1323" "# cqq1Abs1323";
   Row [132] VAbs "qq1_1333" "# cqq1Abs1333";
   Row [133] VAbs "qq1_2223" "# cqq1Abs2223";
   Row [134] VAbs "qq1_2323" "# cqq1Abs2323";
   Row [135] VAbs "qq1_2333" "# cqq1Abs3323";
   Row [136] VAngle "qq1_1112" "# cqq1Ph1112";
   Row [137] VAngle "qq1_1113" "# cqq1Ph1113";
   Row [138] VAngle "qq1_1123" "# cqq1Ph1123";
   Row [139] VAngle "qq1_1212" "# cqq1Ph1212";
   Row [140] VAngle "qq1_1213" "# cqq1Ph1213";
   Row [141] VAngle "qq1_1231" "# cqq1Ph1231";
   Row [142] VAngle "qq1_1222" "# cqq1Ph1222";
   Row [143] VAngle "qq1_1223" "# cqq1Ph1223";
   Row [144] VAngle "qq1_1232" "# cqq1Ph1232";
   Row [145] VAngle "qq1_1233" "# cqq1Ph1233";
   Row [146] VAngle "qq1_1313" "# cqq1Ph1313";
   Row [147] VAngle "qq1_1322" "# cqq1Ph1322";
   Row [148] VAngle "qq1_1332" "# cqq1Ph1332";
   Row [149] VAngle "qq1_1323" "# cqq1Ph1323";
   Row [150] VAngle "qq1_1333" "# cqq1Ph1333";
   Row [151] VAngle "qq1_2223" "# cqq1Ph2223";
   Row [152] VAngle "qq1_2323" "# cqq1Ph2323";
   Row [153] VAngle "qq1_2333" "# cqq1Ph3323";
   Row [154] VRaw "qq3_1111" "# cQQ3Abs1111";
   Row [155] VRaw "qq3_1122" "# cQQ3Abs1122";
   Row [156] VRaw "qq3_1221" "# cQQ3Abs1221";
   Row [157] VRaw "qq3_1133" "# cQQ3Abs1133";
   Row [158] VRaw "qq3_1331" "# cQQ3Abs1331";
   Row [159] VRaw "qq3_2222" "# cQQ3Abs2222";
   Row [160] VRaw "qq3_2233" "# cQQ3Abs2233";
   Row [161] VRaw "qq3_2332" "# cQQ3Abs2332";
   Row [162] VRaw "qq3_3333" "# cQQ3Abs3333";
   Row [163] VAbs "qq3_1112" "# cQQ3Abs1112";
   Row [164] VAbs "qq3_1113" "# cQQ3Abs1113";
   Row [165] VAbs "qq3_1123" "# cQQ3Abs1123";
   Row [166] VAbs "qq3_1212" "# cQQ3Abs1212";
   Row [167] VAbs "qq3_1213" "# cQQ3Abs1213";
   Row [168] VAbs "qq3_1231" "# cQQ3Abs1231";
   Row [169] VAbs "qq3_1222" "# cQQ3Abs1222";
   Row [170] VAbs "qq3_1223" "# cQQ3Abs1223";
   Row [171] VAbs "qq3_1232" "# cQQ3Abs1232";
   Row [172] VAbs "qq3_1233" "# cQQ3Abs1233";
   Row [173] VAbs "qq3_1313" "# cQQ3Abs1313";
   Row [174] VAbs "qq3_1322" "# cQQ3Abs1322";
   Row [175] VAbs "qq3_1332" "# cQQ3Abs1332";
   Row [176] VAbs "qq3_1323" "# cQQ3Abs1323";
   Row [177] VAbs "qq3_1333" "# cQQ3Abs1333";
   Row [178] VAbs "qq3_2223" "# cQQ3Abs2223";
   Row [179] VAbs "qq3_2323" "# cQQ3Abs2323";
   Row [180] VAbs "qq3_2333" "# cQQ3Abs3323";
   Row [181] VAngle "qq3_1112" "# cQQ3Ph1112";
   Row [182] VAngle "qq3_1113" "# cQQ3Ph1113";
   Row [183] VAngle "qq3_1123" "# cQQ3Ph1123";
   Row [184] VAngle "qq3_1212" "# cQQ3Ph1212";
   Row [185] VAngle "qq3_1213" "# cQQ3Ph1213";
   Row [186] VAngle "qq3_1231" "# cQQ3Ph1231";
   Row [187] VAngle "qq3_1222" "# cQQ3Ph1222";
   Row [188] VAngle "qq3_1223" "# cQQ3Ph1223";
   Row [189] VAngle "qq3_1232" "# cQQ3Ph1232";
   Row [190] VAngle "qq3_1233" "# cQQ3Ph1233";
   Row [191] VAngle "qq3_1313" "# cQQ3Ph1313";
   Row [192] VAngle "qq3_1322" "# cQQ3Ph1322";
   Row [193] VAngle "qq3_1332" "# cQQ3Ph1332";
   Row [194] VAngle "qq3_1323" "# cQQ3Ph1323";
   Row [195] VAngle "qq3_1333" "# cQQ3Ph1333";
   Row [196] VAngle "qq3_2223" "# cQQ3Ph2223";
   Row [197] VAngle "qq3_2323" "# cQQ3Ph2323";
   Row [198] VAngle "qq3_2333" "# cQQ3Ph3323";
   Row [199] VRaw "lq1_1111" "# clq1Abs1111";
   Row [200] VAbs "lq1_1112" "# clq1Abs1112";
   Row [201] VAbs "lq1_1113" "# clq1Abs1113";
   Row [202] VAbs "lq1_1123" "# clq1Abs1123";
   Row [203] VRaw "lq1_1122" "# clq1Abs1122";
   Row [204] VRaw "lq1_1133" "# clq1Abs1133";
   Row [205] VAbs "lq1_1211" "# clq1Abs1211";
   Row [206] VAbs "lq1_1212" "# clq1Abs1212";
   Row [207] VAbs "lq1_1221" "# clq1Abs1221";
   Row [208] VAbs "lq1_1213" "# clq1Abs1213";
   Row [209] VAbs "lq1_1231" "# clq1Abs1231";
   Row [210] VAbs "lq1_1222" "# clq1Abs1222";
   Row [211] VAbs "lq1_1223" "# clq1Abs1223";
   Row [212] VAbs "lq1_1232" "# clq1Abs1232";
   Row [213] VAbs "lq1_1233" "# clq1Abs1233";
   Row [214] VAbs "lq1_1311" "# clq1Abs1311";
   Row [215] VAbs "lq1_1312" "# clq1Abs1312";
   Row [216] VAbs "lq1_1313" "# clq1Abs1313";
   Row [217] VAbs "lq1_1331" "# clq1Abs1331";
   Row [218] VAbs "lq1_1321" "# clq1Abs1321";
   Row [219] VAbs "lq1_1322" "# clq1Abs1322";
   Row [220] VAbs "lq1_1332" "# clq1Abs1332";
   Row [221] VAbs "lq1_1323" "# clq1Abs1323";
   Row [222] VAbs "lq1_1333" "# clq1Abs1333";
   Row [223] VRaw "lq1_2211" "# clq1Abs2211";
   Row [224] VAbs "lq1_2212" "# clq1Abs2212";
   Row [225] VAbs "lq1_2213" "# clq1Abs2213";
   Row [226] VRaw "lq1_2222" "# clq1Abs2222";
   Row [227] VAbs "lq1_2223" "# clq1Abs2223";
   Row [228] VRaw "lq1_2233" "# clq1Abs2233";
   Row [229] VAbs "lq1_2311" "# clq1Abs2311";
   Row [230] VAbs "lq1_2312" "# clq1Abs2312";
   Row [231] VAbs "lq1_2313" "# clq1Abs2313";
   Row [232] VAbs "lq1_2321" "# clq1Abs2321";
   Row [233] VAbs "lq1_2322" "# clq1Abs2322";
   Row [234] VAbs "lq1_2323" "# clq1Abs2323";
   Row [235] VAbs "lq1_2331" "# clq1Abs2331";
   Row [236] VAbs "lq1_2332" "# clq1Abs2332";
   Row [237] VAbs "lq1_2333" "# clq1Abs2333";
   Row [238] VRaw "lq1_3311" "# clq1Abs3311";
   Row [239] VAbs "lq1_3312" "# clq1Abs3312";
   Row [240] VAbs "lq1_3313" "# clq1Abs3313";
   Row [241] VRaw "lq1_3322" "# clq1Abs3322";
   Row [242] VRaw "lq1_3333" "# clq1Abs3333";
   Row [243] VAbs "lq1_3323" "# clq1Abs3323";
   Row [244] VAngle "lq1_1112" "# clq1Ph1112";
   Row [245] VAngle "lq1_2212" "# clq1Ph2212";
   Row [246] VAngle "lq1_1113" "# clq1Ph1113";
   Row [247] VAngle "lq1_1123" "# clq1Ph1123";
   Row [248] VAngle "lq1_1211" "# clq1Ph1211";
   Row [249] VAngle "lq1_1212" "# clq1Ph1212";
   Row [250] VAngle "lq1_1221" "# clq1Ph1221";
   Row [251] VAngle "lq1_1213" "# clq1Ph1213";
   Row [252] VAngle "lq1_1231" "# clq1Ph1231";
   Row [253] VAngle "lq1_1222" "# clq1Ph1222";
   Row [254] VAngle "lq1_1223" "# clq1Ph1223";
   Row [255] VAngle "lq1_1232" "# clq1Ph1232";
   Row [256] VAngle "lq1_1233" "# clq1Ph1233";
   Row [257] VAngle "lq1_1311" "# clq1Ph1311";
   Row [258] VAngle "lq1_1312" "# clq1Ph1312";
   Row [259] VAngle "lq1_1313" "# clq1Ph1313";
   Row [260] VAngle "lq1_1331" "# clq1Ph1331";
   Row [261] VAngle "lq1_1321" "# clq1Ph1321";
   Row [262] VAngle "lq1_1322" "# clq1Ph1322";
   Row [263] VAngle "lq1_1332" "# clq1Ph1332";
   Row [264] VAngle "lq1_1323" "# clq1Ph1323";
   Row [265] VAngle "lq1_1333" "# clq1Ph1333";
   Row [266] VAngle "lq1_2213" "# clq1Ph2213";
   Row [267] VAngle "lq1_2223" "# clq1Ph2223";
   Row [268] VAngle "lq1_2311" "# clq1Ph2311";
   Row [269] VAngle "lq1_2312" "# clq1Ph2312";
   Row [270] VAngle "lq1_2313" "# clq1Ph2313";
   Row [271] VAngle "lq1_2321" "# clq1Ph2321";
   Row [272] VAngle "lq1_2322" "# clq1Ph2322";
   Row [273] VAngle "lq1_2323" "# clq1Ph2323";
   Row [274] VAngle "lq1_2331" "# clq1Ph2331";
   Row [275] VAngle "lq1_2332" "# clq1Ph2332";
   Row [276] VAngle "lq1_2333" "# clq1Ph2333";
   Row [277] VAngle "lq1_3323" "# clq1Ph3323";
   Row [278] VAngle "lq1_3312" "# clq1Ph3312";
   Row [279] VAngle "lq1_3313" "# clq1Ph3313";
   Row [280] VRaw "lq3_1111" "# cLQ3Abs1111";
   Row [281] VAbs "lq3_1112" "# cLQ3Abs1112";
   Row [282] VAbs "lq3_1113" "# cLQ3Abs1113";
   Row [283] VAbs "lq3_1123" "# cLQ3Abs1123";
   Row [284] VRaw "lq3_1122" "# cLQ3Abs1122";
   Row [285] VRaw "lq3_1133" "# cLQ3Abs1133";
   Row [286] VAbs "lq3_1211" "# cLQ3Abs1211";
   Row [287] VAbs "lq3_1212" "# cLQ3Abs1212";
   Row [288] VAbs "lq3_1221" "# cLQ3Abs1221";
   Row [289] VAbs "lq3_1213" "# cLQ3Abs1213";
   Row [290] VAbs "lq3_1231" "# cLQ3Abs1231";
   Row [291] VAbs "lq3_1222" "# cLQ3Abs1222";
   Row [292] VAbs "lq3_1223" "# cLQ3Abs1223";
   Row [293] VAbs "lq3_1232" "# cLQ3Abs1232";
   Row [294] VAbs "lq3_1233" "# cLQ3Abs1233";
   Row [295] VAbs "lq3_1311" "# cLQ3Abs1311";
   Row [296] VAbs "lq3_1312" "# cLQ3Abs1312";
   Row [297] VAbs "lq3_1313" "# cLQ3Abs1313";
   Row [298] VAbs "lq3_1331" "# cLQ3Abs1331";
   Row [299] VAbs "lq3_1321" "# cLQ3Abs1321";
   Row [300] VAbs "lq3_1322" "# cLQ3Abs1322";
   Row [301] VAbs "lq3_1332" "# cLQ3Abs1332";
   Row [302] VAbs "lq3_1323" "# cLQ3Abs1323";
   Row [303] VAbs "lq3_1333" "# cLQ3Abs1333";
   Row [304] VRaw "lq3_2211" "# cLQ3Abs2211";
   Row [305] VAbs "lq3_2212" "# cLQ3Abs2212";
   Row [306] VAbs "lq3_2213" "# cLQ3Abs2213";
   Row [307] VRaw "lq3_2222" "# cLQ3Abs2222";
   Row [308] VAbs "lq3_2223" "# cLQ3Abs2223";
   Row [309] VRaw "lq3_2233" "# cLQ3Abs2233";
   Row [310] VAbs "lq3_2311" "# cLQ3Abs2311";
   Row [311] VAbs "lq3_2312" "# cLQ3Abs2312";
   Row [312] VAbs "lq3_2313" "# cLQ3Abs2313";
   Row [313] VAbs "lq3_2321" "# cLQ3Abs2321";
   Row [314] VAbs "lq3_2322" "# cLQ3Abs2322";
   Row [315] VAbs "lq3_2323" "# cLQ3Abs2323";
   Row [316] VAbs "lq3_2331" "# cLQ3Abs2331";
   Row [317] VAbs "lq3_2332" "# cLQ3Abs2332";
   Row [318] VAbs "lq3_2333" "# cLQ3Abs2333";
   Row [319] VRaw "lq3_3311" "# cLQ3Abs3311";
   Row [320] VAbs "lq3_3312" "# cLQ3Abs3312";
   Row [321] VAbs "lq3_3313" "# cLQ3Abs3313";
   Row [322] VRaw "lq3_3322" "# cLQ3Abs3322";
   Row [323] VRaw "lq3_3333" "# cLQ3Abs3333";
   Row [324] VAbs "lq3_3323" "# cLQ3Abs3323";
   Row [325] VAngle "lq3_1112" "# cLQ3Ph1112";
   Row [326] VAngle "lq3_2212" "# cLQ3Ph2212";
   Row [327] VAngle "lq3_1113" "# cLQ3Ph1113";
   Row [328] VAngle "lq3_1123" "# cLQ3Ph1123";
   Row [329] VAngle "lq3_1211" "# cLQ3Ph1211";
   Row [330] VAngle "lq3_1212" "# cLQ3Ph1212";
   Row [331] VAngle "lq3_1221" "# cLQ3Ph1221";
   Row [332] VAngle "lq3_1213" "# cLQ3Ph1213";
   Row [333] VAngle "lq3_1231" "# cLQ3Ph1231";
   Row [334] VAngle "lq3_1222" "# cLQ3Ph1222";
   Row [335] VAngle "lq3_1223" "# cLQ3Ph1223";
   Row [336] VAngle "lq3_1232" "# cLQ3Ph1232";
   Row [337] VAngle "lq3_1233" "# cLQ3Ph1233";
   Row [338] VAngle "lq3_1311" "# cLQ3Ph1311";
   Row [339] VAngle "lq3_1312" "# cLQ3Ph1312";
   Row [340] VAngle "lq3_1313" "# cLQ3Ph1313";
   Row [341] VAngle "lq3_1331" "# cLQ3Ph1331";
   Row [342] VAngle "lq3_1321" "# cLQ3Ph1321";
   Row [343] VAngle "lq3_1322" "# cLQ3Ph1322";
   Row [344] VAngle "lq3_1332" "# cLQ3Ph1332";
   Row [345] VAngle "lq3_1323" "# cLQ3Ph1323";
   Row [346] VAngle "lq3_1333" "# cLQ3Ph1333";
   Row [347] VAngle "lq3_2213" "# cLQ3Ph2213";
   Row [348] VAngle "lq3_2223" "# cLQ3Ph2223";
   Row [349] VAngle "lq3_2311" "# cLQ3Ph2311";
   Row [350] VAngle "lq3_2312" "# cLQ3Ph2312";
   Row [351] VAngle "lq3_2313" "# cLQ3Ph2313";
   Row [352] VAngle "lq3_2321" "# cLQ3Ph2321";
   Row [353] VAngle "lq3_2322" "# cLQ3Ph2322";
   Row [354] VAngle "lq3_2323" "# cLQ3Ph2323";
   Row [355] VAngle "lq3_2331" "# cLQ3Ph2331";
   Row [356] VAngle "lq3_2332" "# cLQ3Ph2332";
   Row [357] VAngle "lq3_2333" "# cLQ3Ph2333";
   Row [358] VAngle "lq3_3323" "# cLQ3Ph3323";
   Row [359] VAngle "lq3_3312" "# cLQ3Ph3312";
   Row [360] VAngle "lq3_3313" "# cLQ3Ph3313";
   Row [361] VRaw "uu_1111" "# cuuAbs1111";
   Row [362] VRaw "uu_1122" "# cuuAbs1122";
   Row [363] VRaw "uu_1221" "# cuuAbs1221";
   Row [364] VRaw "uu_1133" "# cuuAbs1133";
   Row [365] VRaw "uu_1331" "# cuuAbs1331";
   Row [366] VRaw "uu_2222" "# cuuAbs2222";
   Row [367] VRaw "uu_2233" "# cuuAbs2233";
   Row [368] VRaw "uu_2332" "# cuuAbs2332";
   Row [369] VRaw "uu_3333" "# cuuAbs3333";
   Row [370] VAbs "uu_1112" "# cuuAbs1112";
   Row [371] VAbs "uu_1113" "# cuuAbs1113";
   Row [372] VAbs "uu_1123" "# cuuAbs1123";
   Row [373] VAbs "uu_1212" "# cuuAbs1212";
   Row [374] VAbs "uu_1213" "# cuuAbs1213";
   Row [375] VAbs "uu_1231" "# cuuAbs1231";
   Row [376] VAbs "uu_1222" "# cuuAbs1222";
   Row [377] VAbs "uu_1223" "# cuuAbs1223";
   Row [378] VAbs "uu_1232" "# cuuAbs1232";
   Row [379] VAbs "uu_1233" "# cuuAbs1233";
   Row [380] VAbs "uu_1313" "# cuuAbs1313";
   Row [381] VAbs "uu_1322" "# cuuAbs1322";
   Row [382] VAbs "uu_1332" "# cuuAbs1332";
   Row [383] VAbs "uu_1323" "# cuuAbs1323";
   Row [384] VAbs "uu_1333" "# cuuAbs1333";
   Row [385] VAbs "uu_2223" "# cuuAbs2223";
   Row [386] VAbs "uu_2323" "# cuuAbs2323";
   Row [387] VAbs "uu_2333" "# cuuAbs3323";
   Row [388] VAngle "uu_1112" "# cuuPh1112";
   Row [389] VAngle "uu_1113" "# cuuPh1113";
   Row [390] VAngle "uu_1123" "# cuuPh1123";
   Row [391] VAngle "uu_1212" "# cuuPh1212";
   Row [392] VAngle "uu_1213" "# cuuPh1213";
   Row [393] VAngle "uu_1231" "# cuuPh1231";
   Row [394] VAngle "uu_1222" "# cuuPh1222";
   Row [395] VAngle "uu_1223" "# cuuPh1223";
   Row [396] VAngle "uu_1232" "# cuuPh1232";
   Row [397] VAngle "uu_1233" "# cuuPh1233";
   Row [398] VAngle "uu_1313" "# cuuPh1313";
   Row [399] VAngle "uu_1322" "# cuuPh1322";
   Row [400] VAngle "uu_1332" "# cuuPh1332";
   Row [401] VAngle "uu_1323" "# cuuPh1323";
   Row [402] VAngle "uu_1333" "# cuuPh1333";
   Row [403] VAngle "uu_2223" "# cuuPh2223";
   Row [404] VAngle "uu_2323" "# cuuPh2323";
   Row [405] VAngle "uu_2333" "# cuuPh3323";
   Row [406] VRaw "dd_1111" "# cddAbs1111";
   Row [407] VRaw "dd_1122" "# cddAbs1122";
   Row [408] VRaw "dd_1221" "# cddAbs1221";
   Row [409] VRaw "dd_1133" "# cddAbs1133";
   Row [410] VRaw "dd_1331" "# cddAbs1331";
   Row [411] VRaw "dd_2222" "# cddAbs2222";
   Row [412] VRaw "dd_2233" "# cddAbs2233";
   Row [413] VRaw "dd_2332" "# cddAbs2332";
   Row [414] VRaw "dd_3333" "# cddAbs3333";
   Row [415] VAbs "dd_1112" "# cddAbs1112";
   Row [416] VAbs "dd_1113" "# cddAbs1113";
   Row [417] VAbs "dd_1123" "# cddAbs1123";
   Row [418] VAbs "dd_1212" "# cddAbs1212";
   Row [419] VAbs "dd_1213" "# cddAbs1213";
   Row [420] VAbs "dd_1231" "# cddAbs1231";
   Row [421] VAbs "dd_1222" "# cddAbs1222";
   Row [422] VAbs "dd_1223" "# cddAbs1223";
   Row [423] VAbs "dd_1232" "# cddAbs1232";
   Row [424] VAbs "dd_1233" "# cddAbs1233";
   Row [425] VAbs "dd_1313" "# cddAbs1313";
   Row [426] VAbs "dd_1322" "# cddAbs1322";
   Row [427] VAbs "dd_1332" "# cddAbs1332";
   Row [428] VAbs "dd_1323" "# cddAbs1323";
   Row [429] VAbs "dd_1333" "# cddAbs1333";
   Row [430] VAbs "dd_2223" "# cddAbs2223";
   Row [431] VAbs "dd_2323" "# cddAbs2323";
   Row [432] VAbs "dd_2333" "# cddAbs3323";
   Row [433] VAngle "dd_1112" "# cddPh1112";
   Row [434] VAngle "dd_1113" "# cddPh1113";
   Row [435] VAngle "dd_1123" "# cddPh1123";
   Row [436] VAngle "dd_1212" "# cddPh1212";
   Row [437] VAngle "dd_1213" "# cddPh1213";
   Row [438] VAngle "dd_1231" "# cddPh1231";
   Row [439] VAngle "dd_1222" "# cddPh1222";
   Row [440] VAngle "dd_1223" "# cddPh1223";
   Row [441] VAngle "dd_1232" "# cddPh1232";
   Row [442] VAngle "dd_1233" "# cddPh1233";
   Row [443] VAngle "dd_1313" "# cddPh1313";
   Row [444] VAngle "dd_1322" "# cddPh1322";
   Row [445] VAngle "dd_1332" "# cddPh1332";
   Row [446] VAngle "dd_1323" "# cddPh1323";
   Row [447] VAngle "dd_1333" "# cddPh1333";
   Row [448] VAngle "dd_2223" "# cddPh2223";
   Row [449] VAngle "dd_2323" "# cddPh2323";
   Row [450] VAngle "dd_2333" "# cddPh3323";
   Row [451] VRaw "ee_1111" "# ceeAbs1111";
   Row [452] VRaw "ee_2222" "# ceeAbs2222";
   Row [453] VRaw "ee_3333" "# ceeAbs3333";
   Row [454] VRaw "ee_1122" "# ceeAbs1122";
   Row [455] VRaw "ee_1133" "# ceeAbs1133";
   Row [456] VRaw "ee_2233" "# ceeAbs2233";
   Row [457] VAbs "ee_1212" "# ceeAbs1212";
   Row [458] VAbs "ee_1213" "# ceeAbs1213";
   Row [459] VAbs "ee_1232" "# ceeAbs1232";
   Row [460] VAbs "ee_1313" "# ceeAbs1313";
   Row [461] VAbs "ee_1323" "# ceeAbs1323";
   Row [462] VAbs "ee_2323" "# ceeAbs2323";
   Row [463] VAbs "ee_1112" "# ceeAbs1112";
   Row [464] VAbs "ee_1222" "# ceeAbs1222";
   Row [465] VAbs "ee_1233" "# ceeAbs1233";
   Row [466] VAbs "ee_1113" "# ceeAbs1113";
   Row [467] VAbs "ee_1223" "# ceeAbs1322";
   Row [468] VAbs "ee_1333" "# ceeAbs1333";
   Row [469] VAbs "ee_1123" "# ceeAbs1123";
   Row [470] VAbs "ee_2223" "# ceeAbs2223";
   Row [471] VAbs "ee_2333" "# ceeAbs3323";
   Row [472] VAngle "ee_1112" "# ceePh1112";
   Row [473] VAngle "ee_1113" "# ceePh1113";
   Row [474] VAngle "ee_1123" "# ceePh1123";
   Row [475] VAngle "ee_1212" "# ceePh1212";
   Row [476] VAngle "ee_1213" "# ceePh1213";
   Row [477] VAngle "ee_1323" "# ceePh1323";
   Row [478] VAngle "ee_1222" "# ceePh1222";
   Row [479] VAngle "ee_2333" "# ceePh3323";
   Row [480] VAngle "ee_1232" "# ceePh1232";
   Row [481] VAngle "ee_1233" "# ceePh1233";
   Row [482] VAngle "ee_1313" "# ceePh1313";
   Row [483] VAngle "ee_1223" "# ceePh1322";
   Row [484] VAngle "ee_1333" "# ceePh1333";
   Row [485] VAngle "ee_2223" "# ceePh2223";
   Row [486] VAngle "ee_2323" "# ceePh2323";
   Row [487] VRaw "ud1_1111" "# cud1Abs1111";
   Row [488] VAbs "ud1_1112" "# cud1Abs1112";
   Row [489] VAbs "ud1_1113" "# cud1Abs1113";
   Row [490] VAbs "ud1_1123" "# cud1Abs1123";
   Row [491] VRaw "ud1_1122" "# cud1Abs1122";
   Row [492] VRaw "ud1_1133" "# cud1Abs1133";
   Row [493] VAbs "ud1_1211" "# cud1Abs1211";
   Row [494] VAbs "ud1_1212" "# cud1Abs1212";
   Row [495] VAbs "ud1_1221" "# cud1Abs1221";
   Row [496] VAbs "ud1_1213" "# cud1Abs1213";
   Row [497] VAbs "ud1_1231" "# cud1Abs1231";
   Row [498] VAbs "ud1_1222" "# cud1Abs1222";
   Row [499] VAbs "ud1_1223" "# cud1Abs1223";
   Row [500] VAbs "ud1_1232" "# cud1Abs1232";
   Row [501] VAbs "ud1_1233" "# cud1Abs1233";
   Row [502] VAbs "ud1_1311" "# cud1Abs1311";
   Row [503] VAbs "ud1_1312" "# cud1Abs1312";
   Row [504] VAbs "ud1_1313" "# cud1Abs1313";
   Row [505] VAbs "ud1_1331" "# cud1Abs1331";
   Row [506] VAbs "ud1_1321" "# cud1Abs1321";
   Row [507] VAbs "ud1_1322" "# cud1Abs1322";
   Row [508] VAbs "ud1_1332" "# cud1Abs1332";
   Row [509] VAbs "ud1_1323" "# cud1Abs1323";
   Row [510] VAbs "ud1_1333" "# cud1Abs1333";
   Row [511] VRaw "ud1_2211" "# cud1Abs2211";
   Row [512] VAbs "ud1_2212" "# cud1Abs2212";
   Row [513] VAbs "ud1_2213" "# cud1Abs2213";
   Row [514] VRaw "ud1_2222" "# cud1Abs2222";
   Row [515] VAbs "ud1_2223" "# cud1Abs2223";
   Row [516] VRaw "ud1_2233" "# cud1Abs2233";
   Row [517] VAbs "ud1_2311" "# cud1Abs2311";
   Row [518] VAbs "ud1_2312" "# cud1Abs2312";
   Row [519] VAbs "ud1_2313" "# cud1Abs2313";
   Row [520] VAbs "ud1_2321" "# cud1Abs2321";
   Row [521] VAbs "ud1_2322" "# cud1Abs2322";
   Row [522] VAbs "ud1_2323" "# cud1Abs2323";
   Row [523] VAbs "ud1_2331" "# cud1Abs2331";
   Row [524] VAbs "ud1_2332" "# cud1Abs2332";
   Row [525] VAbs "ud1_2333" "# cud1Abs2333";
   Row [526] VRaw "ud1_3311" "# cud1Abs3311";
   Row [527] VAbs "ud1_3312" "# cud1Abs3312";
   Row [528] VAbs "ud1_3313" "# cud1Abs3313";
   Row [529] VRaw "ud1_3322" "# cud1Abs3322";
   Row [530] VRaw "ud1_3333" "# cud1Abs3333";
   Row [531] VAbs "ud1_3323" "# cud1Abs3323";
   Row [532] VAngle "ud1_1112" "# cud1Ph1112";
   Row [533] VAngle "ud1_2212" "# cud1Ph2212";
   Row [534] VAngle "ud1_1113" "# cud1Ph1113";
   Row [535] VAngle "ud1_1123" "# cud1Ph1123";
   Row [536] VAngle "ud1_1211" "# cud1Ph1211";
   Row [537] VAngle "ud1_1212" "# cud1Ph1212";
   Row [538] VAngle "ud1_1221" "# cud1Ph1221";
   Row [539] VAngle "ud1_1213" "# cud1Ph1213";
   Row [540] VAngle "ud1_1231" "# cud1Ph1231";
   Row [541] VAngle "ud1_1222" "# cud1Ph1222";
   Row [542] VAngle "ud1_1223" "# cud1Ph1223";
   Row [543] VAngle "ud1_1232" "# cud1Ph1232";
   Row [544] VAngle "ud1_1233" "# cud1Ph1233";
   Row [545] VAngle "ud1_1311" "# cud1Ph1311";
   Row [546] VAngle "ud1_1312" "# cud1Ph1312";
   Row [547] VAngle "ud1_1313" "# cud1Ph1313";
   Row [548] VAngle "ud1_1331" "# cud1Ph1331";
   Row [549] VAngle "ud1_1321" "# cud1Ph1321";
   Row [550] VAngle "ud1_1322" "# cud1Ph1322";
   Row [551] VAngle "ud1_1332" "# cud1Ph1332";
   Row [552] VAngle "ud1_1323" "# cud1Ph1323";
   Row [553] VAngle "ud1_1333" "# cud1Ph1333";
   Row [554] VAngle "ud1_2213" "# cud1Ph2213";
   Row [555] VAngle "ud1_2223" "# cud1Ph2223";
   Row [556] VAngle "ud1_2311" "# cud1Ph2311";
   Row [557] VAngle "ud1_2312" "# cud1Ph2312";
   Row [558] VAngle "ud1_2313" "# cud1Ph2313";
   Row [559] VAngle "ud1_2321" "# cud1Ph2321";
   Row [560] VAngle "ud1_2322" "# cud1Ph2322";
   Row [561] VAngle "ud1_2323" "# cud1Ph2323";
   Row [562] VAngle "ud1_2331" "# cud1Ph2331";
   Row [563] VAngle "ud1_2332" "# cud1Ph2332";
   Row [564] VAngle "ud1_2333" "# cud1Ph2333";
   Row [565] VAngle "ud1_3323" "# cud1Ph3323";
   Row [566] VAngle "ud1_3312" "# cud1Ph3312";
   Row [567] VAngle "ud1_3313" "# cud1Ph3313";
   Row [568] VRaw "ud8_1111" "# cUD8Abs1111";
   Row [569] VAbs "ud8_1112" "# cUD8Abs1112";
   Row [570] VAbs "ud8_1113" "# cUD8Abs1113";
   Row [571] VAbs "ud8_1123" "# cUD8Abs1123";
   Row [572] VRaw "ud8_1122" "# cUD8Abs1122";
   Row [573] VRaw "ud8_1133" "# cUD8Abs1133";
   Row [574] VAbs "ud8_1211" "# cUD8Abs1211";
   Row [575] VAbs "ud8_1212" "# cUD8Abs1212";
   Row [576] VAbs "ud8_1221" "# cUD8Abs1221";
   Row [577] VAbs "ud8_1213" "# cUD8Abs1213";
   Row [578] VAbs "ud8_1231" "# cUD8Abs1231";
   Row [579] VAbs "ud8_1222" "# cUD8Abs1222";
   Row [580] VAbs "ud8_1223" "# cUD8Abs1223";
   Row [581] VAbs "ud8_1232" "# cUD8Abs1232";
   Row [582] VAbs "ud8_1233" "# cUD8Abs1233";
   Row [583] VAbs "ud8_1311" "# cUD8Abs1311";
   Row [584] VAbs "ud8_1312" "# cUD8Abs1312";
   Row [585] VAbs "ud8_1313" "# cUD8Abs1313";
   Row [586] VAbs "ud8_1331" "# cUD8Abs1331";
   Row [587] VAbs "ud8_1321" "# cUD8Abs1321";
   Row [588] VAbs "ud8_1322" "# cUD8Abs1322";
   Row [589] VAbs "ud8_1332" "# cUD8Abs1332";
   Row [590] VAbs "ud8_1323" "# cUD8Abs1323";
   Row [591] VAbs "ud8_1333" "# cUD8Abs1333";
   Row [592] VRaw "ud8_2211" "# cUD8Abs2211";
   Row [593] VAbs "ud8_2212" "# cUD8Abs2212";
   Row [594] VAbs "ud8_2213" "# cUD8Abs2213";
   Row [595] VRaw "ud8_2222" "# cUD8Abs2222";
   Row [596] VAbs "ud8_2223" "# cUD8Abs2223";
   Row [597] VRaw "ud8_2233" "# cUD8Abs2233";
   Row [598] VAbs "ud8_2311" "# cUD8Abs2311";
   Row [599] VAbs "ud8_2312" "# cUD8Abs2312";
   Row [600] VAbs "ud8_2313" "# cUD8Abs2313";
   Row [601] VAbs "ud8_2321" "# cUD8Abs2321";
   Row [602] VAbs "ud8_2322" "# cUD8Abs2322";
   Row [603] VAbs "ud8_2323" "# cUD8Abs2323";
   Row [604] VAbs "ud8_2331" "# cUD8Abs2331";
   Row [605] VAbs "ud8_2332" "# cUD8Abs2332";
   Row [606] VAbs "ud8_2333" "# cUD8Abs2333";
   Row [607] VRaw "ud8_3311" "# cUD8Abs3311";
   Row [608] VAbs "ud8_3312" "# cUD8Abs3312";
   Row [609] VAbs "ud8_3313" "# cUD8Abs3313";
   Row [610] VRaw "ud8_3322" "# cUD8Abs3322";
   Row [611] VRaw "ud8_3333" "# cUD8Abs3333";
   Row [612] VAbs "ud8_3323" "# cUD8Abs3323";
   Row [613] VAngle "ud8_1112" "# cUD8Ph1112";
   Row [614] VAngle "ud8_2212" "# cUD8Ph2212";
   Row [615] VAngle "ud8_1113" "# cUD8Ph1113";
   Row [616] VAngle "ud8_1123" "# cUD8Ph1123";
   Row [617] VAngle "ud8_1211" "# cUD8Ph1211";
   Row [618] VAngle "ud8_1212" "# cUD8Ph1212";
   Row [619] VAngle "ud8_1221" "# cUD8Ph1221";
   Row [620] VAngle "ud8_1213" "# cUD8Ph1213";
   Row [621] VAngle "ud8_1231" "# cUD8Ph1231";
   Row [622] VAngle "ud8_1222" "# cUD8Ph1222";
   Row [623] VAngle "ud8_1223" "# cUD8Ph1223";
   Row [624] VAngle "ud8_1232" "# cUD8Ph1232";
   Row [625] VAngle "ud8_1233" "# cUD8Ph1233";
   Row [626] VAngle "ud8_1311" "# cUD8Ph1311";
   Row [627] VAngle "ud8_1312" "# cUD8Ph1312";
   Row [628] VAngle "ud8_1313" "# cUD8Ph1313";
   Row [629] VAngle "ud8_1331" "# cUD8Ph1331";
   Row [630] VAngle "ud8_1321" "# cUD8Ph1321";
   Row [631] VAngle "ud8_1322" "# cUD8Ph1322";
   Row [632] VAngle "ud8_1332" "# cUD8Ph1332";
   Row [633] VAngle "ud8_1323" "# cUD8Ph1323";
   Row [634] VAngle "ud8_1333" "# cUD8Ph1333";
   Row [635] VAngle "ud8_2213" "# cUD8Ph2213";
   Row [636] VAngle "ud8_2223" "# cUD8Ph2223";
   Row [637] VAngle "ud8_2311" "# cUD8Ph2311";
   Row [638] VAngle "ud8_2312" "# cUD8Ph2312";
   Row [639] VAngle "ud8_2313" "# cUD8Ph2313";
   Row [640] VAngle "ud8_2321" "# cUD8Ph2321";
   Row [641] VAngle "ud8_2322" "# cUD8Ph2322";
   Row [642] VAngle "ud8_2323" "# cUD8Ph2323";
   Row [643] VAngle "ud8_2331" "# cUD8Ph2331";
   Row [644] VAngle "ud8_2332" "# cUD8Ph2332";
   Row [645] VAngle "ud8_2333" "# cUD8Ph2333";
   Row [646] VAngle "ud8_3323" "# cUD8Ph3323";
   Row [647] VAngle "ud8_3312" "# cUD8Ph3312";
   Row [648] VAngle "ud8_3313" "# cUD8Ph3313";
   Row [649] VRaw "eu_1111" "# ceuAbs1111";
   Row [650] VAbs "eu_1112" "# ceuAbs1112";
   Row [651] VAbs "eu_1113" "# ceuAbs1113";
   Row [652] VAbs "eu_1123" "# ceuAbs1123";
   Row [653] VRaw "eu_1122" "# ceuAbs1122";
   Row [654] VRaw "eu_1133" "# ceuAbs1133";
   Row [655] VAbs "eu_1211" "# ceuAbs1211";
   Row [656] VAbs "eu_1212" "# ceuAbs1212";
   Row [657] VAbs "eu_1221" "# ceuAbs1221";
   Row [658] VAbs "eu_1213" "# ceuAbs1213";
   Row [659] VAbs "eu_1231" "# ceuAbs1231";
   Row [660] VAbs "eu_1222" "# ceuAbs1222";
   Row [661] VAbs "eu_1223" "# ceuAbs1223";
   Row [662] VAbs "eu_1232" "# ceuAbs1232";
   Row [663] VAbs "eu_1233" "# ceuAbs1233";
   Row [664] VAbs "eu_1311" "# ceuAbs1311";
   Row [665] VAbs "eu_1312" "# ceuAbs1312";
   Row [666] VAbs "eu_1313" "# ceuAbs1313";
   Row [667] VAbs "eu_1331" "# ceuAbs1331";
   Row [668] VAbs "eu_1321" "# ceuAbs1321";
   Row [669] VAbs "eu_1322" "# ceuAbs1322";
   Row [670] VAbs "eu_1332" "# ceuAbs1332";
   Row [671] VAbs "eu_1323" "# ceuAbs1323";
   Row [672] VAbs "eu_1333" "# ceuAbs1333";
   Row [673] VRaw "eu_2211" "# ceuAbs2211";
   Row [674] VAbs "eu_2212" "# ceuAbs2212";
   Row [675] VAbs "eu_2213" "# ceuAbs2213";
   Row [676] VRaw "eu_2222" "# ceuAbs2222";
   Row [677] VAbs "eu_2223" "# ceuAbs2223";
   Row [678] VRaw "eu_2233" "# ceuAbs2233";
   Row [679] VAbs "eu_2311" "# ceuAbs2311";
   Row [680] VAbs "eu_2312" "# ceuAbs2312";
   Row [681] VAbs "eu_2313" "# ceuAbs2313";
   Row [682] VAbs "eu_2321" "# ceuAbs2321";
   Row [683] VAbs "eu_2322" "# ceuAbs2322";
   Row [684] VAbs "eu_2323" "# ceuAbs2323";
   Row [685] VAbs "eu_2331" "# ceuAbs2331";
   Row [686] VAbs "eu_2332" "# ceuAbs2332";
   Row [687] VAbs "eu_2333" "# ceuAbs2333";
   Row [688] VRaw "eu_3311" "# ceuAbs3311";
   Row [689] VAbs "eu_3312" "# ceuAbs3312";
   Row [690] VAbs "eu_3313" "# ceuAbs3313";
   Row [691] VRaw "eu_3322" "# ceuAbs3322";
   Row [692] VRaw "eu_3333" "# ceuAbs3333";
   Row [693] VAbs "eu_3323" "# ceuAbs3323";
   Row [694] VAngle "eu_1112" "# ceuPh1112";
   Row [695] VAngle "eu_2212" "# ceuPh2212";
   Row [696] VAngle "eu_1113" "# ceuPh1113";
   Row [697] VAngle "eu_1123" "# ceuPh1123";
   Row [698] VAngle "eu_1211" "# ceuPh1211";
   Row [699] VAngle "eu_1212" "# ceuPh1212";
   Row [700] VAngle "eu_1221" "# ceuPh1221";
   Row [701] VAngle "eu_1213" "# ceuPh1213";
   Row [702] VAngle "eu_1231" "# ceuPh1231";
   Row [703] VAngle "eu_1222" "# ceuPh1222";
   Row [704] VAngle "eu_1223" "# ceuPh1223";
   Row [705] VAngle "eu_1232" "# ceuPh1232";
   Row [706] VAngle "eu_1233" "# ceuPh1233";
   Row [707] VAngle "eu_1311" "# ceuPh1311";
   Row [708] VAngle "eu_1312" "# ceuPh1312";
   Row [709] VAngle "eu_1313" "# ceuPh1313";
   Row [710] VAngle "eu_1331" "# ceuPh1331";
   Row [711] VAngle "eu_1321" "# ceuPh1321";
   Row [712] VAngle "eu_1322" "# ceuPh1322";
   Row [713] VAngle "eu_1332" "# ceuPh1332";
   Row [714] VAngle "eu_1323" "# ceuPh1323";
   Row [715] VAngle "eu_1333" "# ceuPh1333";
   Row [716] VAngle "eu_2213" "# ceuPh2213";
   Row [717] VAngle "eu_2223" "# ceuPh2223";
   Row [718] VAngle "eu_2311" "# ceuPh2311";
   Row [719] VAngle "eu_2312" "# ceuPh2312";
   Row [720] VAngle "eu_2313" "# ceuPh2313";
   Row [721] VAngle "eu_2321" "# ceuPh2321";
   Row [722] VAngle "eu_2322" "# ceuPh2322";
   Row [723] VAngle "eu_2323" "# ceuPh2323";
   Row [724] VAngle "eu_2331" "# ceuPh2331";
   Row [725] VAngle "eu_2332" "# ceuPh2332";
   Row [726] VAngle "eu_2333" "# ceuPh2333";
   Row [727] VAngle "eu_3323" "# ceuPh3323";
   Row [728] VAngle "eu_3312" "# ceuPh3312";
   Row [729] VAngle "eu_3313" "# ceuPh3313";
   Row [730] VRaw "ed_1111" "# cedAbs1111";
   Row [731] VAbs "ed_1112" "# cedAbs1112";
   Row [732] VAbs "ed_1113" "# cedAbs1113";
   Row [733] VAbs "ed_1123" "# cedAbs1123";
   Row [734] VRaw "ed_1122" "# cedAbs1122";
   Row [735] VRaw "ed_1133" "# cedAbs1133";
   Row [736] VAbs "ed_1211" "# cedAbs1211";
   Row [737] VAbs "ed_1212" "# cedAbs1212";
   Row [738] VAbs "ed_1221" "# cedAbs1221";
   Row [739] VAbs "ed_1213" "# cedAbs1213";
   Row [740] VAbs "ed_1231" "# cedAbs1231";
   Row [741] VAbs "ed_1222" "# cedAbs1222";
   Row [742] VAbs "ed_1223" "# cedAbs1223";
   Row [743] VAbs "ed_1232" "# cedAbs1232";
   Row [744] VAbs "ed_1233" "# cedAbs1233";
   Row [745] VAbs "ed_1311" "# cedAbs1311";
   Row [746] VAbs "ed_1312" "# cedAbs1312";
   Row [747] VAbs "ed_1313" "# cedAbs1313";
   Row [748] VAbs "ed_1331" "# cedAbs1331";
   Row [749] VAbs "ed_1321" "# cedAbs1321";
   Row [750] VAbs "ed_1322" "# cedAbs1322";
   Row [751] VAbs "ed_1332" "# cedAbs1332";
   Row [752] VAbs "ed_1323" "# cedAbs1323";
   Row [753] VAbs "ed_1333" "# cedAbs1333";
   Row [754] VRaw "ed_2211" "# cedAbs2211";
   Row [755] VAbs "ed_2212" "# cedAbs2212";
   Row [756] VAbs "ed_2213" "# cedAbs2213";
   Row [757] VRaw "ed_2222" "# cedAbs2222";
   Row [758] VAbs "ed_2223" "# cedAbs2223";
   Row [759] VRaw "ed_2233" "# cedAbs2233";
   Row [760] VAbs "ed_2311" "# cedAbs2311";
   Row [761] VAbs "ed_2312" "# cedAbs2312";
   Row [762] VAbs "ed_2313" "# cedAbs2313";
   Row [763] VAbs "ed_2321" "# cedAbs2321";
   Row [764] VAbs "ed_2322" "# cedAbs2322";
   Row [765] VAbs "ed_2323" "# cedAbs2323";
   Row [766] VAbs "ed_2331" "# cedAbs2331";
   Row [767] VAbs "ed_2332" "# cedAbs2332";
   Row [768] VAbs "ed_2333" "# cedAbs2333";
   Row [769] VRaw "ed_3311" "# cedAbs3311";
   Row [770] VAbs "ed_3312" "# cedAbs3312";
   Row [771] VAbs "ed_3313" "# cedAbs3313";
   Row [772] VRaw "ed_3322" "# cedAbs3322";
   Row [773] VRaw "ed_3333" "# cedAbs3333";
   Row [774] VAbs "ed_3323" "# cedAbs3323";
   Row [775] VAngle "ed_1112" "# cedPh1112";
   Row [776] VAngle "ed_2212" "# cedPh2212";
   Row [777] VAngle "ed_1113" "# cedPh1113";
   Row [778] VAngle "ed_1123" "# cedPh1123";
   Row [779] VAngle "ed_1211" "# cedPh1211";
   Row [780] VAngle "ed_1212" "# cedPh1212";
   Row [781] VAngle "ed_1221" "# cedPh1221";
   Row [782] VAngle "ed_1213" "# cedPh1213";
   Row [783] VAngle "ed_1231" "# cedPh1231";
   Row [784] VAngle "ed_1222" "# cedPh1222";
   Row [785] VAngle "ed_1223" "# cedPh1223";
   Row [786] VAngle "ed_1232" "# cedPh1232";
   Row [787] VAngle "ed_1233" "# cedPh1233";
   Row [788] VAngle "ed_1311" "# cedPh1311";
   Row [789] VAngle "ed_1312" "# cedPh1312";
   Row [790] VAngle "ed_1313" "# cedPh1313";
   Row [791] VAngle "ed_1331" "# cedPh1331";
   Row [792] VAngle "ed_1321" "# cedPh1321";
   Row [793] VAngle "ed_1322" "# cedPh1322";
   Row [794] VAngle "ed_1332" "# cedPh1332";
   Row [795] VAngle "ed_1323" "# cedPh1323";
   Row [796] VAngle "ed_1333" "# cedPh1333";
   Row [797] VAngle "ed_2213" "# cedPh2213";
   Row [798] VAngle "ed_2223" "# cedPh2223";
   Row [799] VAngle "ed_2311" "# cedPh2311";
   Row [800] VAngle "ed_2312" "# cedPh2312";
   Row [801] VAngle "ed_2313" "# cedPh2313";
   Row [802] VAngle "ed_2321" "# cedPh2321";
   Row [803] VAngle "ed_2322" "# cedPh2322";
   Row [804] VAngle "ed_2323" "# cedPh2323";
   Row [805] VAngle "ed_2331" "# cedPh2331";
   Row [806] VAngle "ed_2332" "# cedPh2332";
   Row [807] VAngle "ed_2333" "# cedPh2333";
   Row [808] VAngle "ed_3323" "# cedPh3323";
   Row [809] VAngle "ed_3312" "# cedPh3312";
   Row [810] VAngle "ed_3313" "# cedPh3313";
   Row [811] VRaw "qu1_1111" "# cqu1Abs1111";
   Row [812] VAbs "qu1_1112" "# cqu1Abs1112";
   Row [813] VAbs "qu1_1113" "# cqu1Abs1113";
   Row [814] VAbs "qu1_1123" "# cqu1Abs1123";
   Row [815] VRaw "qu1_1122" "# cqu1Abs1122";
   Row [816] VRaw "qu1_1133" "# cqu1Abs1133";
   Row [817] VAbs "qu1_1211" "# cqu1Abs1211";
   Row [818] VAbs "qu1_1212" "# cqu1Abs1212";
   Row [819] VAbs "qu1_1221" "# cqu1Abs1221";
   Row [820] VAbs "qu1_1213" "# cqu1Abs1213";
   Row [821] VAbs "qu1_1231" "# cqu1Abs1231";
   Row [822] VAbs "qu1_1222" "# cqu1Abs1222";
   Row [823] VAbs "qu1_1223" "# cqu1Abs1223";
   Row [824] VAbs "qu1_1232" "# cqu1Abs1232";
   Row [825] VAbs "qu1_1233" "# cqu1Abs1233";
   Row [826] VAbs "qu1_1311" "# cqu1Abs1311";
   Row [827] VAbs "qu1_1312" "# cqu1Abs1312";
   Row [828] VAbs "qu1_1313" "# cqu1Abs1313";
   Row [829] VAbs "qu1_1331" "# cqu1Abs1331";
   Row [830] VAbs "qu1_1321" "# cqu1Abs1321";
   Row [831] VAbs "qu1_1322" "# cqu1Abs1322";
   Row [832] VAbs "qu1_1332" "# cqu1Abs1332";
   Row [833] VAbs "qu1_1323" "# cqu1Abs1323";
   Row [834] VAbs "qu1_1333" "# cqu1Abs1333";
   Row [835] VRaw "qu1_2211" "# cqu1Abs2211";
   Row [836] VAbs "qu1_2212" "# cqu1Abs2212";
   Row [837] VAbs "qu1_2213" "# cqu1Abs2213";
   Row [838] VRaw "qu1_2222" "# cqu1Abs2222";
   Row [839] VAbs "qu1_2223" "# cqu1Abs2223";
   Row [840] VRaw "qu1_2233" "# cqu1Abs2233";
   Row [841] VAbs "qu1_2311" "# cqu1Abs2311";
   Row [842] VAbs "qu1_2312" "# cqu1Abs2312";
   Row [843] VAbs "qu1_2313" "# cqu1Abs2313";
   Row [844] VAbs "qu1_2321" "# cqu1Abs2321";
   Row [845] VAbs "qu1_2322" "# cqu1Abs2322";
   Row [846] VAbs "qu1_2323" "# cqu1Abs2323";
   Row [847] VAbs "qu1_2331" "# cqu1Abs2331";
   Row [848] VAbs "qu1_2332" "# cqu1Abs2332";
   Row [849] VAbs "qu1_2333" "# cqu1Abs2333";
   Row [850] VRaw "qu1_3311" "# cqu1Abs3311";
   Row [851] VAbs "qu1_3312" "# cqu1Abs3312";
   Row [852] VAbs "qu1_3313" "# cqu1Abs3313";
   Row [853] VRaw "qu1_3322" "# cqu1Abs3322";
   Row [854] VRaw "qu1_3333" "# cqu1Abs3333";
   Row [855] VAbs "qu1_3323" "# cqu1Abs3323";
   Row [856] VAngle "qu1_1112" "# cqu1Ph1112";
   Row [857] VAngle "qu1_2212" "# cqu1Ph2212";
   Row [858] VAngle "qu1_1113" "# cqu1Ph1113";
   Row [859] VAngle "qu1_1123" "# cqu1Ph1123";
   Row [860] VAngle "qu1_1211" "# cqu1Ph1211";
   Row [861] VAngle "qu1_1212" "# cqu1Ph1212";
   Row [862] VAngle "qu1_1221" "# cqu1Ph1221";
   Row [863] VAngle "qu1_1213" "# cqu1Ph1213";
   Row [864] VAngle "qu1_1231" "# cqu1Ph1231";
   Row [865] VAngle "qu1_1222" "# cqu1Ph1222";
   Row [866] VAngle "qu1_1223" "# cqu1Ph1223";
   Row [867] VAngle "qu1_1232" "# cqu1Ph1232";
   Row [868] VAngle "qu1_1233" "# cqu1Ph1233";
   Row [869] VAngle "qu1_1311" "# cqu1Ph1311";
   Row [870] VAngle "qu1_1312" "# cqu1Ph1312";
   Row [871] VAngle "qu1_1313" "# cqu1Ph1313";
   Row [872] VAngle "qu1_1331" "# cqu1Ph1331";
   Row [873] VAngle "qu1_1321" "# cqu1Ph1321";
   Row [874] VAngle "qu1_1322" "# cqu1Ph1322";
   Row [875] VAngle "qu1_1332" "# cqu1Ph1332";
   Row [876] VAngle "qu1_1323" "# cqu1Ph1323";
   Row [877] VAngle "qu1_1333" "# cqu1Ph1333";
   Row [878] VAngle "qu1_2213" "# cqu1Ph2213";
   Row [879] VAngle "qu1_2223" "# cqu1Ph2223";
   Row [880] VAngle "qu1_2311" "# cqu1Ph2311";
   Row [881] VAngle "qu1_2312" "# cqu1Ph2312";
   Row [882] VAngle "qu1_2313" "# cqu1Ph2313";
   Row [883] VAngle "qu1_2321" "# cqu1Ph2321";
   Row [884] VAngle "qu1_2322" "# cqu1Ph2322";
   Row [885] VAngle "qu1_2323" "# cqu1Ph2323";
   Row [886] VAngle "qu1_2331" "# cqu1Ph2331";
   Row [887] VAngle "qu1_2332" "# cqu1Ph2332";
   Row [888] VAngle "qu1_2333" "# cqu1Ph2333";
   Row [889] VAngle "qu1_3323" "# cqu1Ph3323";
   Row [890] VAngle "qu1_3312" "# cqu1Ph3312";
   Row [891] VAngle "qu1_3313" "# cqu1Ph3313";
   Row [892] VRaw "qu8_1111" "# cQU8Abs1111";
   Row [893] VAbs "qu8_1112" "# cQU8Abs1112";
   Row [894] VAbs "qu8_1113" "# cQU8Abs1113";
   Row [895] VAbs "qu8_1123" "# cQU8Abs1123";
   Row [896] VRaw "qu8_1122" "# cQU8Abs1122";
   Row [897] VRaw "qu8_1133" "# cQU8Abs1133";
   Row [898] VAbs "qu8_1211" "# cQU8Abs1211";
   Row [899] VAbs "qu8_1212" "# cQU8Abs1212";
   Row [900] VAbs "qu8_1221" "# cQU8Abs1221";
   Row [901] VAbs "qu8_1213" "# cQU8Abs1213";
   Row [902] VAbs "qu8_1231" "# cQU8Abs1231";
   Row [903] VAbs "qu8_1222" "# cQU8Abs1222";
   Row [904] VAbs "qu8_1223" "# cQU8Abs1223";
   Row [905] VAbs "qu8_1232" "# cQU8Abs1232";
   Row [906] VAbs "qu8_1233" "# cQU8Abs1233";
   Row [907] VAbs "qu8_1311" "# cQU8Abs1311";
   Row [908] VAbs "qu8_1312" "# cQU8Abs1312";
   Row [909] VAbs "qu8_1313" "# cQU8Abs1313";
   Row [910] VAbs "qu8_1331" "# cQU8Abs1331";
   Row [911] VAbs "qu8_1321" "# cQU8Abs1321";
   Row [912] VAbs "qu8_1322" "# cQU8Abs1322";
   Row [913] VAbs "qu8_1332" "# cQU8Abs1332";
   Row [914] VAbs "qu8_1323" "# cQU8Abs1323";
   Row [915] VAbs "qu8_1333" "# cQU8Abs1333";
   Row [916] VRaw "qu8_2211" "# cQU8Abs2211";
   Row [917] VAbs "qu8_2212" "# cQU8Abs2212";
   Row [918] VAbs "qu8_2213" "# cQU8Abs2213";
   Row [919] VRaw "qu8_2222" "# cQU8Abs2222";
   Row [920] VAbs "qu8_2223" "# cQU8Abs2223";
   Row [921] VRaw "qu8_2233" "# cQU8Abs2233";
   Row [922] VAbs "qu8_2311" "# cQU8Abs2311";
   Row [923] VAbs "qu8_2312" "# cQU8Abs2312";
   Row [924] VAbs "qu8_2313" "# cQU8Abs2313";
   Row [925] VAbs "qu8_2321" "# cQU8Abs2321";
   Row [926] VAbs "qu8_2322" "# cQU8Abs2322";
   Row [927] VAbs "qu8_2323" "# cQU8Abs2323";
   Row [928] VAbs "qu8_2331" "# cQU8Abs2331";
   Row [929] VAbs "qu8_2332" "# cQU8Abs2332";
   Row [930] VAbs "qu8_2333" "# cQU8Abs2333";
   Row [931] VRaw "qu8_3311" "# cQU8Abs3311";
   Row [932] VAbs "qu8_3312" "# cQU8Abs3312";
   Row [933] VAbs "qu8_3313" "# cQU8Abs3313";
   Row [934] VRaw "qu8_3322" "# cQU8Abs3322";
   Row [935] VRaw "qu8_3333" "# cQU8Abs3333";
   Row [936] VAbs "qu8_3323" "# cQU8Abs3323";
   Row [937] VAngle "qu8_1112" "# cQU8Ph1112";
   Row [938] VAngle "qu8_2212" "# cQU8Ph2212";
   Row [939] VAngle "qu8_1113" "# cQU8Ph1113";
   Row [940] VAngle "qu8_1123" "# cQU8Ph1123";
   Row [941] VAngle "qu8_1211" "# cQU8Ph1211";
   Row [942] VAngle "qu8_1212" "# cQU8Ph1212";
   Row [943] VAngle "qu8_1221" "# cQU8Ph1221";
   Row [944] VAngle "qu8_1213" "# cQU8Ph1213";
   Row [945] VAngle "qu8_1231" "# cQU8Ph1231";
   Row [946] VAngle "qu8_1222" "# cQU8Ph1222";
   Row [947] VAngle "qu8_1223" "# cQU8Ph1223";
   Row [948] VAngle "qu8_1232" "# cQU8Ph1232";
   Row [949] VAngle "qu8_1233" "# cQU8Ph1233";
   Row [950] VAngle "qu8_1311" "# cQU8Ph1311";
   Row [951] VAngle "qu8_1312" "# cQU8Ph1312";
   Row [952] VAngle "qu8_1313" "# cQU8Ph1313";
   Row [953] VAngle "qu8_1331" "# cQU8Ph1331";
   Row [954] VAngle "qu8_1321" "# cQU8Ph1321";
   Row [955] VAngle "qu8_1322" "# cQU8Ph1322";
   Row [956] VAngle "qu8_1332" "# cQU8Ph1332";
   Row [957] VAngle "qu8_1323" "# cQU8Ph1323";
   Row [958] VAngle "qu8_1333" "# cQU8Ph1333";
   Row [959] VAngle "qu8_2213" "# cQU8Ph2213";
   Row [960] VAngle "qu8_2223" "# cQU8Ph2223";
   Row [961] VAngle "qu8_2311" "# cQU8Ph2311";
   Row [962] VAngle "qu8_2312" "# cQU8Ph2312";
   Row [963] VAngle "qu8_2313" "# cQU8Ph2313";
   Row [964] VAngle "qu8_2321" "# cQU8Ph2321";
   Row [965] VAngle "qu8_2322" "# cQU8Ph2322";
   Row [966] VAngle "qu8_2323" "# cQU8Ph2323";
   Row [967] VAngle "qu8_2331" "# cQU8Ph2331";
   Row [968] VAngle "qu8_2332" "# cQU8Ph2332";
   Row [969] VAngle "qu8_2333" "# cQU8Ph2333";
   Row [970] VAngle "qu8_3323" "# cQU8Ph3323";
   Row [971] VAngle "qu8_3312" "# cQU8Ph3312";
   Row [972] VAngle "qu8_3313" "# cQU8Ph3313";
   Row [973] VRaw "qd1_1111" "# cqd1Abs1111";
   Row [974] VAbs "qd1_1112" "# cqd1Abs1112";
   Row [975] VAbs "qd1_1113" "# cqd1Abs1113";
   Row [976] VAbs "qd1_1123" "# cqd1Abs1123";
   Row [977] VRaw "qd1_1122" "# cqd1Abs1122";
   Row [978] VRaw "qd1_1133" "# cqd1Abs1133";
   Row [979] VAbs "qd1_1211" "# cqd1Abs1211";
   Row [980] VAbs "qd1_1212" "# cqd1Abs1212";
   Row [981] VAbs "qd1_1221" "# cqd1Abs1221";
   Row [982] VAbs "qd1_1213" "# cqd1Abs1213";
   Row [983] VAbs "qd1_1231" "# cqd1Abs1231";
   Row [984] VAbs "qd1_1222" "# cqd1Abs1222";
   Row [985] VAbs "qd1_1223" "# cqd1Abs1223";
   Row [986] VAbs "qd1_1232" "# cqd1Abs1232";
   Row [987] VAbs "qd1_1233" "# cqd1Abs1233";
   Row [988] VAbs "qd1_1311" "# cqd1Abs1311";
   Row [989] VAbs "qd1_1312" "# cqd1Abs1312";
   Row [990] VAbs "qd1_1313" "# cqd1Abs1313";
   Row [991] VAbs "qd1_1331" "# cqd1Abs1331";
   Row [992] VAbs "qd1_1321" "# cqd1Abs1321";
   Row [993] VAbs "qd1_1322" "# cqd1Abs1322";
   Row [994] VAbs "qd1_1332" "# cqd1Abs1332";
   Row [995] VAbs "qd1_1323" "# cqd1Abs1323";
   Row [996] VAbs "qd1_1333" "# cqd1Abs1333";
   Row [997] VRaw "qd1_2211" "# cqd1Abs2211";
   Row [998] VAbs "qd1_2212" "# cqd1Abs2212";
   Row [999] VAbs "qd1_2213" "# cqd1Abs2213";
   Row [1000] VRaw "qd1_2222" "# cqd1Abs2222";
   Row [1001] VAbs "qd1_2223" "# cqd1Abs2223";
   Row [1002] VRaw "qd1_2233" "# cqd1Abs2233";
   Row [1003] VAbs "qd1_2311" "# cqd1Abs2311";
   Row [1004] VAbs "qd1_2312" "# cqd1Abs2312";
   Row [1005] VAbs "qd1_2313" "# cqd1Abs2313";
   Row [1006] VAbs "qd1_2321" "# cqd1Abs2321";
   Row [1007] VAbs "qd1_2322" "# cqd1Abs2322";
   Row [1008] VAbs "qd1_2323" "# cqd1Abs2323";
   Row [1009] VAbs "qd1_2331" "# cqd1Abs2331";
   Row [1010] VAbs "qd1_2332" "# cqd1Abs2332";
   Row [1011] VAbs "qd1_2333" "# cqd1Abs2333";
   Row [1012] VRaw "qd1_3311" "# cqd1Abs3311";
   Row [1013] VAbs "qd1_3312" "# cqd1Abs3312";
   Row [1014] VAbs "qd1_3313" "# cqd1Abs3313";
   Row [1015] VRaw "qd1_3322" "# cqd1Abs3322";
   Row [1016] VRaw "qd1_3333" "# cqd1Abs3333";
   Row [1017] VAbs "qd1_3323" "# cqd1Abs3323";
   Row [1018] VAngle "qd1_1112" "# cqd1Ph1112";
   Row [1019] VAngle "qd1_2212" "# cqd1Ph2212";
   Row [1020] VAngle "qd1_1113" "# cqd1Ph1113";
   Row [1021] VAngle "qd1_1123" "# cqd1Ph1123";
   Row [1022] VAngle "qd1_1211" "# cqd1Ph1211";
   Row [1023] VAngle "qd1_1212" "# cqd1Ph1212";
   Row [1024] VAngle "qd1_1221" "# cqd1Ph1221";
   Row [1025] VAngle "qd1_1213" "# cqd1Ph1213";
   Row [1026] VAngle "qd1_1231" "# cqd1Ph1231";
   Row [1027] VAngle "qd1_1222" "# cqd1Ph1222";
   Row [1028] VAngle "qd1_1223" "# cqd1Ph1223";
   Row [1029] VAngle "qd1_1232" "# cqd1Ph1232";
   Row [1030] VAngle "qd1_1233" "# cqd1Ph1233";
   Row [1031] VAngle "qd1_1311" "# cqd1Ph1311";
   Row [1032] VAngle "qd1_1312" "# cqd1Ph1312";
   Row [1033] VAngle "qd1_1313" "# cqd1Ph1313";
   Row [1034] VAngle "qd1_1331" "# cqd1Ph1331";
   Row [1035] VAngle "qd1_1321" "# cqd1Ph1321";
   Row [1036] VAngle "qd1_1322" "# cqd1Ph1322";
   Row [1037] VAngle "qd1_1332" "# cqd1Ph1332";
   Row [1038] VAngle "qd1_1323" "# cqd1Ph1323";
   Row [1039] VAngle "qd1_1333" "# cqd1Ph1333";
   Row [1040] VAngle "qd1_2213" "# cqd1Ph2213";
   Row [1041] VAngle "qd1_2223" "# cqd1Ph2223";
   Row [1042] VAngle "qd1_2311" "# cqd1Ph2311";
   Row [1043] VAngle "qd1_2312" "# cqd1Ph2312";
   Row [1044] VAngle "qd1_2313" "# cqd1Ph2313";
   Row [1045] VAngle "qd1_2321" "# cqd1Ph2321";
   Row [1046] VAngle "qd1_2322" "# cqd1Ph2322";
   Row [1047] VAngle "qd1_2323" "# cqd1Ph2323";
   Row [1048] VAngle "qd1_2331" "# cqd1Ph2331";
   Row [1049] VAngle "qd1_2332" "# cqd1Ph2332";
   Row [1050] VAngle "qd1_2333" "# cqd1Ph2333";
   Row [1051] VAngle "qd1_3323" "# cqd1Ph3323";
   Row [1052] VAngle "qd1_3312" "# cqd1Ph3312";
   Row [1053] VAngle "qd1_3313" "# cqd1Ph3313";
   Row [1054] VRaw "qd8_1111" "# cQD8Abs1111";
   Row [1055] VAbs "qd8_1112" "# cQD8Abs1112";
   Row [1056] VAbs "qd8_1113" "# cQD8Abs1113";
   Row [1057] VAbs "qd8_1123" "# cQD8Abs1123";
   Row [1058] VRaw "qd8_1122" "# cQD8Abs1122";
   Row [1059] VRaw "qd8_1133" "# cQD8Abs1133";
   Row [1060] VAbs "qd8_1211" "# cQD8Abs1211";
   Row [1061] VAbs "qd8_1212" "# cQD8Abs1212";
   Row [1062] VAbs "qd8_1221" "# cQD8Abs1221";
   Row [1063] VAbs "qd8_1213" "# cQD8Abs1213";
   Row [1064] VAbs "qd8_1231" "# cQD8Abs1231";
   Row [1065] VAbs "qd8_1222" "# cQD8Abs1222";
   Row [1066] VAbs "qd8_1223" "# cQD8Abs1223";
   Row [1067] VAbs "qd8_1232" "# cQD8Abs1232";
   Row [1068] VAbs "qd8_1233" "# cQD8Abs1233";
   Row [1069] VAbs "qd8_1311" "# cQD8Abs1311";
   Row [1070] VAbs "qd8_1312" "# cQD8Abs1312";
   Row [1071] VAbs "qd8_1313" "# cQD8Abs1313";
   Row [1072] VAbs "qd8_1331" "# cQD8Abs1331";
   Row [1073] VAbs "qd8_1321" "# cQD8Abs1321";
   Row [1074] VAbs "qd8_1322" "# cQD8Abs1322";
   Row [1075] VAbs "qd8_1332" "# cQD8Abs1332";
   Row [1076] VAbs "qd8_1323" "# cQD8Abs1323";
   Row [1077] VAbs "qd8_1333" "# cQD8Abs1333";
   Row [1078] VRaw "qd8_2211" "# cQD8Abs2211";
   Row [1079] VAbs "qd8_2212" "# cQD8Abs2212";
   Row [1080] VAbs "qd8_2213" "# cQD8Abs2213";
   Row [1081] VRaw "qd8_2222" "# cQD8Abs2222";
   Row [1082] VAbs "qd8_2223" "# cQD8Abs2223";
   Row [1083] VRaw "qd8_2233" "# cQD8Abs2233";
   Row [1084] VAbs "qd8_2311" "# cQD8Abs2311";
   Row [1085] VAbs "qd8_2312" "# cQD8Abs2312";
   Row [1086] VAbs "qd8_2313" "# cQD8Abs2313";
   Row [1087] VAbs "qd8_2321" "# cQD8Abs2321";
   Row [1088] VAbs "qd8_2322" "# cQD8Abs2322";
   Row [1089] VAbs "qd8_2323" "# cQD8Abs2323";
   Row [1090] VAbs "qd8_2331" "# cQD8Abs2331";
   Row [1091] VAbs "qd8_2332" "# cQD8Abs2332";
   Row [1092] VAbs "qd8_2333" "# cQD8Abs2333";
   Row [1093] VRaw "qd8_3311" "# cQD8Abs3311";
   Row [1094] VAbs "qd8_3312" "# cQD8Abs3312";
   Row [1095] VAbs "qd8_3313" "# cQD8Abs3313";
   Row [1096] VRaw "qd8_3322" "# cQD8Abs3322";
   Row [1097] VRaw "qd8_3333" "# cQD8Abs3333";
   Row [1098] VAbs "qd8_3323" "# cQD8Abs3323";
   Row [1099] VAngle "qd8_1112" "# cQD8Ph1112";
   Row [1100] VAngle "qd8_2212" "# cQD8Ph2212";
   Row [1101] VAngle "qd8_1113" "# cQD8Ph1113";
   Row [1102] VAngle "qd8_1123" "# cQD8Ph1123";
   Row [1103] VAngle "qd8_1211" "# cQD8Ph1211";
   Row [1104] VAngle "qd8_1212" "# cQD8Ph1212";
   Row [1105] VAngle "qd8_1221" "# cQD8Ph1221";
   Row [1106] VAngle "qd8_1213" "# cQD8Ph1213";
   Row [1107] VAngle "qd8_1231" "# cQD8Ph1231";
   Row [1108] VAngle "qd8_1222" "# cQD8Ph1222";
   Row [1109] VAngle "qd8_1223" "# cQD8Ph1223";
   Row [1110] VAngle "qd8_1232" "# cQD8Ph1232";
   Row [1111] VAngle "qd8_1233" "# cQD8Ph1233";
   Row [1112] VAngle "qd8_1311" "# cQD8Ph1311";
   Row [1113] VAngle "qd8_1312" "# cQD8Ph1312";
   Row [1114] VAngle "qd8_1313" "# cQD8Ph1313";
   Row [1115] VAngle "qd8_1331" "# cQD8Ph1331";
   Row [1116] VAngle "qd8_1321" "# cQD8Ph1321";
   Row [1117] VAngle "qd8_1322" "# cQD8Ph1322";
   Row [1118] VAngle "qd8_1332" "# cQD8Ph1332";
   Row [1119] VAngle "qd8_1323" "# cQD8Ph1323";
   Row [1120] VAngle "qd8_1333" "# cQD8Ph1333";
   Row [1121] VAngle "qd8_2213" "# cQD8Ph2213";
   Row [1122] VAngle "qd8_2223" "# cQD8Ph2223";
   Row [1123] VAngle "qd8_2311" "# cQD8Ph2311";
   Row [1124] VAngle "qd8_2312" "# cQD8Ph2312";
   Row [1125] VAngle "qd8_2313" "# cQD8Ph2313";
   Row [1126] VAngle "qd8_2321" "# cQD8Ph2321";
   Row [1127] VAngle "qd8_2322" "# cQD8Ph2322";
   Row [1128] VAngle "qd8_2323" "# cQD8Ph2323";
   Row [1129] VAngle "qd8_2331" "# cQD8Ph2331";
   Row [1130] VAngle "qd8_2332" "# cQD8Ph2332";
   Row [1131] VAngle "qd8_2333" "# cQD8Ph2333";
   Row [1132] VAngle "qd8_3323" "# cQD8Ph3323";
   Row [1133] VAngle "qd8_3312" "# cQD8Ph3312";
   Row [1134] VAngle "qd8_3313" "# cQD8Ph3313";
   Row [1135] VRaw "le_1111" "# cleAbs1111";
   Row [1136] VAbs "le_1112" "# cleAbs1112";
   Row [1137] VAbs "le_1113" "# cleAbs1113";
   Row [1138] VAbs "le_1123" "# cleAbs1123";
   Row [1139] VRaw "le_1122" "# cleAbs1122";
   Row [1140] VRaw "le_1133" "# cleAbs1133";
   Row [1141] VAbs "le_1211" "# cleAbs1211";
   Row [1142] VAbs "le_1212" "# cleAbs1212";
   Row [1143] VAbs "le_1221" "# cleAbs1221";
   Row [1144] VAbs "le_1213" "# cleAbs1213";
   Row [1145] VAbs "le_1231" "# cleAbs1231";
   Row [1146] VAbs "le_1222" "# cleAbs1222";
   Row [1147] VAbs "le_1223" "# cleAbs1223";
   Row [1148] VAbs "le_1232" "# cleAbs1232";
   Row [1149] VAbs "le_1233" "# cleAbs1233";
   Row [1150] VAbs "le_1311" "# cleAbs1311";
   Row [1151] VAbs "le_1312" "# cleAbs1312";
   Row [1152] VAbs "le_1313" "# cleAbs1313";
   Row [1153] VAbs "le_1331" "# cleAbs1331";
   Row [1154] VAbs "le_1321" "# cleAbs1321";
   Row [1155] VAbs "le_1322" "# cleAbs1322";
   Row [1156] VAbs "le_1332" "# cleAbs1332";
   Row [1157] VAbs "le_1323" "# cleAbs1323";
   Row [1158] VAbs "le_1333" "# cleAbs1333";
   Row [1159] VRaw "le_2211" "# cleAbs2211";
   Row [1160] VAbs "le_2212" "# cleAbs2212";
   Row [1161] VAbs "le_2213" "# cleAbs2213";
   Row [1162] VRaw "le_2222" "# cleAbs2222";
   Row [1163] VAbs "le_2223" "# cleAbs2223";
   Row [1164] VRaw "le_2233" "# cleAbs2233";
   Row [1165] VAbs "le_2311" "# cleAbs2311";
   Row [1166] VAbs "le_2312" "# cleAbs2312";
   Row [1167] VAbs "le_2313" "# cleAbs2313";
   Row [1168] VAbs "le_2321" "# cleAbs2321";
   Row [1169] VAbs "le_2322" "# cleAbs2322";
   Row [1170] VAbs "le_2323" "# cleAbs2323";
   Row [1171] VAbs "le_2331" "# cleAbs2331";
   Row [1172] VAbs "le_2332" "# cleAbs2332";
   Row [1173] VAbs "le_2333" "# cleAbs2333";
   Row [1174] VRaw "le_3311" "# cleAbs3311";
   Row [1175] VAbs "le_3312" "# cleAbs3312";
   Row [1176] VAbs "le_3313" "# cleAbs3313";
   Row [1177] VRaw "le_3322" "# cleAbs3322";
   Row [1178] VRaw "le_3333" "# cleAbs3333";
   Row [1179] VAbs "le_3323" "# cleAbs3323";
   Row [1180] VAngle "le_1112" "# clePh1112";
   Row [1181] VAngle "le_2212" "# clePh2212";
   Row [1182] VAngle "le_1113" "# clePh1113";
   Row [1183] VAngle "le_1123" "# clePh1123";
   Row [1184] VAngle "le_1211" "# clePh1211";
   Row [1185] VAngle "le_1212" "# clePh1212";
   Row [1186] VAngle "le_1221" "# clePh1221";
   Row [1187] VAngle "le_1213" "# clePh1213";
   Row [1188] VAngle "le_1231" "# clePh1231";
   Row [1189] VAngle "le_1222" "# clePh1222";
   Row [1190] VAngle "le_1223" "# clePh1223";
   Row [1191] VAngle "le_1232" "# clePh1232";
   Row [1192] VAngle "le_1233" "# clePh1233";
   Row [1193] VAngle "le_1311" "# clePh1311";
   Row [1194] VAngle "le_1312" "# clePh1312";
   Row [1195] VAngle "le_1313" "# clePh1313";
   Row [1196] VAngle "le_1331" "# clePh1331";
   Row [1197] VAngle "le_1321" "# clePh1321";
   Row [1198] VAngle "le_1322" "# clePh1322";
   Row [1199] VAngle "le_1332" "# clePh1332";
   Row [1200] VAngle "le_1323" "# clePh1323";
   Row [1201] VAngle "le_1333" "# clePh1333";
   Row [1202] VAngle "le_2213" "# clePh2213";
   Row [1203] VAngle "le_2223" "# clePh2223";
   Row [1204] VAngle "le_2311" "# clePh2311";
   Row [1205] VAngle "le_2312" "# clePh2312";
   Row [1206] VAngle "le_2313" "# clePh2313";
   Row [1207] VAngle "le_2321" "# clePh2321";
   Row [1208] VAngle "le_2322" "# clePh2322";
   Row [1209] VAngle "le_2323" "# clePh2323";
   Row [1210] VAngle "le_2331" "# clePh2331";
   Row [1211] VAngle "le_2332" "# clePh2332";
   Row [1212] VAngle "le_2333" "# clePh2333";
   Row [1213] VAngle "le_3323" "# clePh3323";
   Row [1214] VAngle "le_3312" "# clePh3312";
   Row [1215] VAngle "le_3313" "# clePh3313";
   Row [1216] VRaw "lu_1111" "# cluAbs1111";
   Row [1217] VAbs "lu_1112" "# cluAbs1112";
   Row [1218] VAbs "lu_1113" "# cluAbs1113";
   Row [1219] VAbs "lu_1123" "# cluAbs1123";
   Row [1220] VRaw "lu_1122" "# cluAbs1122";
   Row [1221] VRaw "lu_1133" "# cluAbs1133";
   Row [1222] VAbs "lu_1211" "# cluAbs1211";
   Row [1223] VAbs "lu_1212" "# cluAbs1212";
   Row [1224] VAbs "lu_1221" "# cluAbs1221";
   Row [1225] VAbs "lu_1213" "# cluAbs1213";
   Row [1226] VAbs "lu_1231" "# cluAbs1231";
   Row [1227] VAbs "lu_1222" "# cluAbs1222";
   Row [1228] VAbs "lu_1223" "# cluAbs1223";
   Row [1229] VAbs "lu_1232" "# cluAbs1232";
   Row [1230] VAbs "lu_1233" "# cluAbs1233";
   Row [1231] VAbs "lu_1311" "# cluAbs1311";
   Row [1232] VAbs "lu_1312" "# cluAbs1312";
   Row [1233] VAbs "lu_1313" "# cluAbs1313";
   Row [1234] VAbs "lu_1331" "# cluAbs1331";
   Row [1235] VAbs "lu_1321" "# cluAbs1321";
   Row [1236] VAbs "lu_1322" "# cluAbs1322";
   Row [1237] VAbs "lu_1332" "# cluAbs1332";
   Row [1238] VAbs "lu_1323" "# cluAbs1323";
   Row [1239] VAbs "lu_1333" "# cluAbs1333";
   Row [1240] VRaw "lu_2211" "# cluAbs2211";
   Row [1241] VAbs "lu_2212" "# cluAbs2212";
   Row [1242] VAbs "lu_2213" "# cluAbs2213";
   Row [1243] VRaw "lu_2222" "# cluAbs2222";
   Row [1244] VAbs "lu_2223" "# cluAbs2223";
   Row [1245] VRaw "lu_2233" "# cluAbs2233";
   Row [1246] VAbs "lu_2311" "# cluAbs2311";
   Row [1247] VAbs "lu_2312" "# cluAbs2312";
   Row [1248] VAbs "lu_2313" "# cluAbs2313";
   Row [1249] VAbs "lu_2321" "# cluAbs2321";
   Row [1250] VAbs "lu_2322" "# cluAbs2322";
   Row [1251] VAbs "lu_2323" "# cluAbs2323";
   Row [1252] VAbs "lu_2331" "# cluAbs2331";
   Row [1253] VAbs "lu_2332" "# cluAbs2332";
   Row [1254] VAbs "lu_2333" "# cluAbs2333";
   Row [1255] VRaw "lu_3311" "# cluAbs3311";
   Row [1256] VAbs "lu_3312" "# cluAbs3312";
   Row [1257] VAbs "lu_3313" "# cluAbs3313";
   Row [1258] VRaw "lu_3322" "# cluAbs3322";
   Row [1259] VRaw "lu_3333" "# cluAbs3333";
   Row [1260] VAbs "lu_3323" "# cluAbs3323";
   Row [1261] VAngle "lu_1112" "# cluPh1112";
   Row [1262] VAngle "lu_2212" "# cluPh2212";
   Row [1263] VAngle "lu_1113" "# cluPh1113";
   Row [1264] VAngle "lu_1123" "# cluPh1123";
   Row [1265] VAngle "lu_1211" "# cluPh1211";
   Row [1266] VAngle "lu_1212" "# cluPh1212";
   Row [1267] VAngle "lu_1221" "# cluPh1221";
   Row [1268] VAngle "lu_1213" "# cluPh1213";
   Row [1269] VAngle "lu_1231" "# cluPh1231";
   Row [1270] VAngle "lu_1222" "# cluPh1222";
   Row [1271] VAngle "lu_1223" "# cluPh1223";
   Row [1272] VAngle "lu_1232" "# cluPh1232";
   Row [1273] VAngle "lu_1233" "# cluPh1233";
   Row [1274] VAngle "lu_1311" "# cluPh1311";
   Row [1275] VAngle "lu_1312" "# cluPh1312";
   Row [1276] VAngle "lu_1313" "# cluPh1313";
   Row [1277] VAngle "lu_1331" "# cluPh1331";
   Row [1278] VAngle "lu_1321" "# cluPh1321";
   Row [1279] VAngle "lu_1322" "# cluPh1322";
   Row [1280] VAngle "lu_1332" "# cluPh1332";
   Row [1281] VAngle "lu_1323" "# cluPh1323";
   Row [1282] VAngle "lu_1333" "# cluPh1333";
   Row [1283] VAngle "lu_2213" "# cluPh2213";
   Row [1284] VAngle "lu_2223" "# cluPh2223";
   Row [1285] VAngle "lu_2311" "# cluPh2311";
   Row [1286] VAngle "lu_2312" "# cluPh2312";
   Row [1287] VAngle "lu_2313" "# cluPh2313";
   Row [1288] VAngle "lu_2321" "# cluPh2321";
   Row [1289] VAngle "lu_2322" "# cluPh2322";
   Row [1290] VAngle "lu_2323" "# cluPh2323";
   Row [1291] VAngle "lu_2331" "# cluPh2331";
   Row [1292] VAngle "lu_2332" "# cluPh2332";
   Row [1293] VAngle "lu_2333" "# cluPh2333";
   Row [1294] VAngle "lu_3323" "# cluPh3323";
   Row [1295] VAngle "lu_3312" "# cluPh3312";
   Row [1296] VAngle "lu_3313" "# cluPh3313";
   Row [1297] VRaw "ld_1111" "# cldAbs1111";
   Row [1298] VAbs "ld_1112" "# cldAbs1112";
   Row [1299] VAbs "ld_1113" "# cldAbs1113";
   Row [1300] VAbs "ld_1123" "# cldAbs1123";
   Row [1301] VRaw "ld_1122" "# cldAbs1122";
   Row [1302] VRaw "ld_1133" "# cldAbs1133";
   Row [1303] VAbs "ld_1211" "# cldAbs1211";
   Row [1304] VAbs "ld_1212" "# cldAbs1212";
   Row [1305] VAbs "ld_1221" "# cldAbs1221";
   Row [1306] VAbs "ld_1213" "# cldAbs1213";
   Row [1307] VAbs "ld_1231" "# cldAbs1231";
   Row [1308] VAbs "ld_1222" "# cldAbs1222";
   Row [1309] VAbs "ld_1223" "# cldAbs1223";
   Row [1310] VAbs "ld_1232" "# cldAbs1232";
   Row [1311] VAbs "ld_1233" "# cldAbs1233";
   Row [1312] VAbs "ld_1311" "# cldAbs1311";
   Row [1313] VAbs "ld_1312" "# cldAbs1312";
   Row [1314] VAbs "ld_1313" "# cldAbs1313";
   Row [1315] VAbs "ld_1331" "# cldAbs1331";
   Row [1316] VAbs "ld_1321" "# cldAbs1321";
   Row [1317] VAbs "ld_1322" "# cldAbs1322";
   Row [1318] VAbs "ld_1332" "# cldAbs1332";
   Row [1319] VAbs "ld_1323" "# cldAbs1323";
   Row [1320] VAbs "ld_1333" "# cldAbs1333";
   Row [1321] VRaw "ld_2211" "# cldAbs2211";
   Row [1322] VAbs "ld_2212" "# cldAbs2212";
   Row [1323] VAbs "ld_2213" "# cldAbs2213";
   Row [1324] VRaw "ld_2222" "# cldAbs2222";
   Row [1325] VAbs "ld_2223" "# cldAbs2223";
   Row [1326] VRaw "ld_2233" "# cldAbs2233";
   Row [1327] VAbs "ld_2311" "# cldAbs2311";
   Row [1328] VAbs "ld_2312" "# cldAbs2312";
   Row [1329] VAbs "ld_2313" "# cldAbs2313";
   Row [1330] VAbs "ld_2321" "# cldAbs2321";
   Row [1331] VAbs "ld_2322" "# cldAbs2322";
   Row [1332] VAbs "ld_2323" "# cldAbs2323";
   Row [1333] VAbs "ld_2331" "# cldAbs2331";
   Row [1334] VAbs "ld_2332" "# cldAbs2332";
   Row [1335] VAbs "ld_2333" "# cldAbs2333";
   Row [1336] VRaw "ld_3311" "# cldAbs3311";
   Row [1337] VAbs "ld_3312" "# cldAbs3312";
   Row [1338] VAbs "ld_3313" "# cldAbs3313";
   Row [1339] VRaw "ld_3322" "# cldAbs3322";
   Row [1340] VRaw "ld_3333" "# cldAbs3333";
   Row [1341] VAbs "ld_3323" "# cldAbs3323";
   Row [1342] VAngle "ld_1112" "# cldPh1112";
   Row [1343] VAngle "ld_2212" "# cldPh2212";
   Row [1344] VAngle "ld_1113" "# cldPh1113";
   Row [1345] VAngle "ld_1123" "# cldPh1123";
   Row [1346] VAngle "ld_1211" "# cldPh1211";
   Row [1347] VAngle "ld_1212" "# cldPh1212";
   Row [1348] VAngle "ld_1221" "# cldPh1221";
   Row [1349] VAngle "ld_1213" "# cldPh1213";
   Row [1350] VAngle "ld_1231" "# cldPh1231";
   Row [1351] VAngle "ld_1222" "# cldPh1222";
   Row [1352] VAngle "ld_1223" "# cldPh1223";
   Row [1353] VAngle "ld_1232" "# cldPh1232";
   Row [1354] VAngle "ld_1233" "# cldPh1233";
   Row [1355] VAngle "ld_1311" "# cldPh1311";
   Row [1356] VAngle "ld_1312" "# cldPh1312";
   Row [1357] VAngle "ld_1313" "# cldPh1313";
   Row [1358] VAngle "ld_1331" "# cldPh1331";
   Row [1359] VAngle "ld_1321" "# cldPh1321";
   Row [1360] VAngle "ld_1322" "# cldPh1322";
   Row [1361] VAngle "ld_1332" "# cldPh1332";
   Row [1362] VAngle "ld_1323" "# cldPh1323";
   Row [1363] VAngle "ld_1333" "# cldPh1333";
   Row [1364] VAngle "ld_2213" "# cldPh2213";
   Row [1365] VAngle "ld_2223" "# cldPh2223";
   Row [1366] VAngle "ld_2311" "# cldPh2311";
   Row [1367] VAngle "ld_2312" "# cldPh2312";
   Row [1368] VAngle "ld_2313" "# cldPh2313";
   Row [1369] VAngle "ld_2321" "# cldPh2321";
   Row [1370] VAngle "ld_2322" "# cldPh2322";
   Row [1371] VAngle "ld_2323" "# cldPh2323";
   Row [1372] VAngle "ld_2331" "# cldPh2331";
   Row [1373] VAngle "ld_2332" "# cldPh2332";
   Row [1374] VAngle "ld_2333" "# cldPh2333";
   Row [1375] VAngle "ld_3323" "# cldPh3323";
   Row [1376] VAngle "ld_3312" "# cldPh3312";
   Row [1377] VAngle "ld_3313" "# cldPh3313";
   Row [1378] VRaw "qe_1111" "# cqeAbs1111";
   Row [1379] VAbs "qe_1112" "# cqeAbs1112";
   Row [1380] VAbs "qe_1113" "# cqeAbs1113";
   Row [1381] VAbs "qe_1123" "# cqeAbs1123";
   Row [1382] VRaw "qe_1122" "# cqeAbs1122";
   Row [1383] VRaw "qe_1133" "# cqeAbs1133";
   Row [1384] VAbs "qe_1211" "# cqeAbs1211";
   Row [1385] VAbs "qe_1212" "# cqeAbs1212";
   Row [1386] VAbs "qe_1221" "# cqeAbs1221";
   Row [1387] VAbs "qe_1213" "# cqeAbs1213";
   Row [1388] VAbs "qe_1231" "# cqeAbs1231";
   Row [1389] VAbs "qe_1222" "# cqeAbs1222";
   Row [1390] VAbs "qe_1223" "# cqeAbs1223";
   Row [1391] VAbs "qe_1232" "# cqeAbs1232";
   Row [1392] VAbs "qe_1233" "# cqeAbs1233";
   Row [1393] VAbs "qe_1311" "# cqeAbs1311";
   Row [1394] VAbs "qe_1312" "# cqeAbs1312";
   Row [1395] VAbs "qe_1313" "# cqeAbs1313";
   Row [1396] VAbs "qe_1331" "# cqeAbs1331";
   Row [1397] VAbs "qe_1321" "# cqeAbs1321";
   Row [1398] VAbs "qe_1322" "# cqeAbs1322";
   Row [1399] VAbs "qe_1332" "# cqeAbs1332";
   Row [1400] VAbs "qe_1323" "# cqeAbs1323";
   Row [1401] VAbs "qe_1333" "# cqeAbs1333";
   Row [1402] VRaw "qe_2211" "# cqeAbs2211";
   Row [1403] VAbs "qe_2212" "# cqeAbs2212";
   Row [1404] VAbs "qe_2213" "# cqeAbs2213";
   Row [1405] VRaw "qe_2222" "# cqeAbs2222";
   Row [1406] VAbs "qe_2223" "# cqeAbs2223";
   Row [1407] VRaw "qe_2233" "# cqeAbs2233";
   Row [1408] VAbs "qe_2311" "# cqeAbs2311";
   Row [1409] VAbs "qe_2312" "# cqeAbs2312";
   Row [1410] VAbs "qe_2313" "# cqeAbs2313";
   Row [1411] VAbs "qe_2321" "# cqeAbs2321";
   Row [1412] VAbs "qe_2322" "# cqeAbs2322";
   Row [1413] VAbs "qe_2323" "# cqeAbs2323";
   Row [1414] VAbs "qe_2331" "# cqeAbs2331";
   Row [1415] VAbs "qe_2332" "# cqeAbs2332";
   Row [1416] VAbs "qe_2333" "# cqeAbs2333";
   Row [1417] VRaw "qe_3311" "# cqeAbs3311";
   Row [1418] VAbs "qe_3312" "# cqeAbs3312";
   Row [1419] VAbs "qe_3313" "# cqeAbs3313";
   Row [1420] VRaw "qe_3322" "# cqeAbs3322";
   Row [1421] VRaw "qe_3333" "# cqeAbs3333";
   Row [1422] VAbs "qe_3323" "# cqeAbs3323";
   Row [1423] VAngle "qe_1112" "# cqePh1112";
   Row [1424] VAngle "qe_2212" "# cqePh2212";
   Row [1425] VAngle "qe_1113" "# cqePh1113";
   Row [1426] VAngle "qe_1123" "# cqePh1123";
   Row [1427] VAngle "qe_1211" "# cqePh1211";
   Row [1428] VAngle "qe_1212" "# cqePh1212";
   Row [1429] VAngle "qe_1221" "# cqePh1221";
   Row [1430] VAngle "qe_1213" "# cqePh1213";
   Row [1431] VAngle "qe_1231" "# cqePh1231";
   Row [1432] VAngle "qe_1222" "# cqePh1222";
   Row [1433] VAngle "qe_1223" "# cqePh1223";
   Row [1434] VAngle "qe_1232" "# cqePh1232";
   Row [1435] VAngle "qe_1233" "# cqePh1233";
   Row [1436] VAngle "qe_1311" "# cqePh1311";
   Row [1437] VAngle "qe_1312" "# cqePh1312";
   Row [1438] VAngle "qe_1313" "# cqePh1313";
   Row [1439] VAngle "qe_1331" "# cqePh1331";
   Row [1440] VAngle "qe_1321" "# cqePh1321";
   Row [1441] VAngle "qe_1322" "# cqePh1322";
   Row [1442] VAngle "qe_1332" "# cqePh1332";
   Row [1443] VAngle "qe_1323" "# cqePh1323";
   Row [1444] VAngle "qe_1333" "# cqePh1333";
   Row [1445] VAngle "qe_2213" "# cqePh2213";
   Row [1446] VAngle "qe_2223" "# cqePh2223";
   Row [1447] VAngle "qe_2311" "# cqePh2311";
   Row [1448] VAngle "qe_2312" "# cqePh2312";
   Row [1449] VAngle "qe_2313" "# cqePh2313";
   Row [1450] VAngle "qe_2321" "# cqePh2321";
   Row [1451] VAngle "qe_2322" "# cqePh2322";
   Row [1452] VAngle "qe_2323" "# cqePh2323";
   Row [1453] VAngle "qe_2331" "# cqePh2331";
   Row [1454] VAngle "qe_2332" "# cqePh2332";
   Row [1455] VAngle "qe_2333" "# cqePh2333";
   Row [1456] VAngle "qe_3323" "# cqePh3323";
   Row [1457] VAngle "qe_3312" "# cqePh3312";
   Row [1458] VAngle "qe_3313" "# cqePh3313"].
(** smeftsim.py 4166-4176 *)
Definition rowsB_FRBlock10 : list row :=
  [Row [1; 1] VAngle "uphi_11" "# cuHPh1x1";
   Row [1; 2] VAngle "uphi_12" "# cuHPh1x2";
   Row [1; 3] VAngle "uphi_13" "# cuHPh1x3";
   Row [2; 1] VAngle "uphi_21" "# cuHPh2x1";
   Row [2; 2] VAngle "uphi_22" "# cuHPh2x2";
   Row [2; 3] VAngle "uphi_23" "# cuHPh2x3";
   Row [3; 1] VAngle "uphi_31" "# cuHPh3x1";
   Row [3; 2] VAngle "uphi_32" "# cuHPh3x2";
   Row [3; 3] VAngle "uphi_33" "# cuHPh3x3"].
(** smeftsim.py 4178-4188 *)
Definition rowsB_FRBlock11 : list row :=
  [Row [1; 1] VAngle "dphi_11" "# cdHPh1x1";
   Row [1; 2] VAngle "dphi_12" "# cdHPh1x2";
   Row [1; 3] VAngle "dphi_13" "# cdHPh1x3";
   Row [2; 1] VAngle "dphi_21" "# cdHPh2x1";
   Row [2; 2] VAngle "dphi_22" "# cdHPh2x2";
   Row [2; 3] VAngle "dphi_23" "# cdHPh2x3";
   Row [3; 1] VAngle "dphi_31" "# cdHPh3x1";
   Row [3; 2] VAngle "dphi_32" "# cdHPh3x2";
   Row [3; 3] VAngle "dphi_33" "# cdHPh3x3"].
(** smeftsim.py 4190-4200 *)
Definition rowsB_FRBlock15 : list row :=
  [Row [1; 1] VAbs "eW_11" "# ceWAbs1x1";
   Row [1; 2] VAbs "eW_12" "# ceWAbs1x2";
   Row [1; 3] VAbs "eW_13" "# ceWAbs1x3";
   Row [2; 1] VAbs "eW_21" "# ceWAbs2x1";
   Row [2; 2] VAbs "eW_22" "# ceWAbs2x2";
   Row [2; 3] VAbs "eW_23" "# ceWAbs2x3";
   Row [3; 1] VAbs "eW_31" "# ceWAbs3x1";
   Row [3; 2] VAbs "eW_32" "# ceWAbs3x2";
   Row [3; 3] VAbs "eW_33" "# ceWAbs3x3"].
(** smeftsim.py 4202-4212 *)
Definition rowsB_FRBlock16 : list row :=
  [Row [1; 1] VAngle "eW_11" "# ceWPh1x1";
   Row [1; 2] VAngle "eW_12" "# ceWPh1x2";
   Row [1; 3] VAngle "eW_13" "# ceWPh1x3";
   Row [2; 1] VAngle "eW_21" "# ceWPh2x1";
   Row [2; 2] VAngle "eW_22" "# ceWPh2x2";
   Row [2; 3] VAngle "eW_23" "# ceWPh2x3";
   Row [3; 1] VAngle "eW_31" "# ceWPh3x1";
   Row [3; 2] VAngle "eW_32" "# ceWPh3x2";
   Row [3; 3] VAngle "eW_33" "# ceWPh3x3"].
(** smeftsim.py 4214-4224 *)
Definition rowsB_FRBlock18 : list row :=
  [Row [1; 1] VAbs "eB_11" "# ceBAbs1x1";
   Row [1; 2] VAbs "eB_12" "# ceBAbs1x2";
   Row [1; 3] VAbs "eB_13" "# ceBAbs1x3";
   Row [2; 1] VAbs "eB_21" "# ceBAbs2x1";
   Row [2; 2] VAbs "eB_22" "# ceBAbs2x2";
   Row [2; 3] VAbs "eB_23" "# ceBAbs2x3";
   Row [3; 1] VAbs "eB_31" "# ceBAbs3x1";
   Row [3; 2] VAbs "eB_32" "# ceBAbs3x2";
   Row [3; 3] VAbs "eB_33" "# ceBAbs3x3"].
(** smeftsim.py 4226-4236 *)
Definition rowsB_FRBlock19 : list row :=
  [Row [1; 1] VAngle "eB_11" "# ceBPh1x1";
   Row [1; 2] VAngle "eB_12" "# ceBPh1x2";
   Row [1; 3] VAngle "eB_13" "# ceBPh1x3";
   Row [2; 1] VAngle "eB_21" "# ceBPh2x1";
   Row [2; 2] VAngle "eB_22" "# ceBPh2x2";
   Row [2; 3] VAngle "eB_23" "# ceBPh2x3";
   Row [3; 1] VAngle "eB_31" "# ceBPh3x1";
   Row [3; 2] VAngle "eB_32" "# ceBPh3x2";
   Row [3; 3] VAngle "eB_33" "# ceBPh3x3"].
(** smeftsim.py 4238-4248 *)
Definition rowsB_FRBlock21 : list row :=
  [Row [1; 1] VAbs "uG_11" "# cuGAbs1x1";
   Row [1; 2] VAbs "uG_12" "# cuGAbs1x2";
   Row [1; 3] VAbs "uG_13" "# cuGAbs1x3";
   Row [2; 1] VAbs "uG_21" "# cuGAbs2x1";
   Row [2; 2] VAbs "uG_22" "# cuGAbs2x2";
   Row [2; 3] VAbs "uG_23" "# cuGAbs2x3";
   Row [3; 1] VAbs "uG_31" "# cuGAbs3x1";
   Row [3; 2] VAbs "uG_32" "# cuGAbs3x2";
   Row [3; 3] VAbs "uG_33" "# cuGAbs3x3"].
(** smeftsim.py 4250-4260 *)
Definition rowsB_FRBlock22 : list row :=
  [Row [1; 1] VAngle "uG_11" "# cuGPh1x1";
   Row [1; 2] VAngle "uG_12" "# cuGPh1x2";
   Row [1; 3] VAngle "uG_13" "# cuGPh1x3";
   Row [2; 1] VAngle "uG_21" "# cuGPh2x1";
   Row [2; 2] VAngle "uG_22" "# cuGPh2x2";
   Row [2; 3] VAngle "uG_23" "# cuGPh2x3";
   Row [3; 1] VAngle "uG_31" "# cuGPh3x1";
   Row [3; 2] VAngle "uG_32" "# cuGPh3x2";
   Row [3; 3] VAngle "uG_33" "# cuGPh3x3"].
(** smeftsim.py 4262-4272 *)
Definition rowsB_FRBlock24 : list row :=
  [Row [1; 1] VAbs "uW_11" "# cuWAbs1x1";
   Row [1; 2] VAbs "uW_12" "# cuWAbs1x2";
   Row [1; 3] VAbs "uW_13" "# cuWAbs1x3";
   Row [2; 1] VAbs "uW_21" "# cuWAbs2x1";
   Row [2; 2] VAbs "uW_22" "# cuWAbs2x2";
   Row [2; 3] VAbs "uW_23" "# cuWAbs2x3";
   Row [3; 1] VAbs "uW_31" "# cuWAbs3x1";
   Row [3; 2] VAbs "uW_32" "# cuWAbs3x2";
   Row [3; 3] VAbs "uW_33" "# cuWAbs3x3"].
(** smeftsim.py 4274-4284 *)
Definition rowsB_FRBlock25 : list row :=
  [Row [1; 1] VAngle "uW_11" "# cuWPh1x1";
   Row [1; 2] VAngle "uW_12" "# cuWPh1x2";
   Row [1; 3] VAngle "uW_13" "# cuWPh1x3";
   Row [2; 1] VAngle "uW_21" "# cuWPh2x1";
   Row [2; 2] VAngle "uW_22" "# cuWPh2x2";
   Row [2; 3] VAngle "uW_23" "# cuWPh2x3";
   Row [3; 1] VAngle "uW_31" "# cuWPh3x1";
   Row [3; 2] VAngle "uW_32" "# cuWPh3x2";
   Row [3; 3] VAngle "uW_33" "# cuWPh3x3"].
(** smeftsim.py 4286-4296 *)
Definition rowsB_FRBlock27 : list row :=
  [Row [1; 1] VAbs "uB_11" "# cuBAbs1x1";
   Row [1; 2] VAbs "uB_12" "# cuBAbs1x2";
   Row [1; 3] VAbs "uB_13" "# cuBAbs1x3";
   Row [2; 1] VAbs "uB_21" "# cuBAbs2x1";
   Row [2; 2] VAbs "uB_22" "# cuBAbs2x2";
   Row [2; 3] VAbs "uB_23" "# cuBAbs2x3";
   Row [3; 1] VAbs "uB_31" "# cuBAbs3x1";
   Row [3; 2] VAbs "uB_32" "# cuBAbs3x2";
   Row [3; 3] VAbs "uB_33" "# cuBAbs3x3"].
(** smeftsim.py 4298-4308 *)
Definition rowsB_FRBlock28 : list row :=
  [Row [1; 1] VAngle "uB_11" "# cuBPh1x1";
   Row [1; 2] VAngle "uB_12" "# cuBPh1x2";
   Row [1; 3] VAngle "uB_13" "# cuBPh1x3";
   Row [2; 1] VAngle "uB_21" "# cuBPh2x1";
   Row [2; 2] VAngle "uB_22" "# cuBPh2x2";
   Row [2; 3] VAngle "uB_23" "# cuBPh2x3";
   Row [3; 1] VAngle "uB_31" "# cuBPh3x1";
   Row [3; 2] VAngle "uB_32" "# cuBPh3x2";
   Row [3; 3] VAngle "uB_33" "# cuBPh3x3"].
(** smeftsim.py 4310-4320 *)
Definition rowsB_FRBlock30 : list row :=
  [Row [1; 1] VAbs "dG_11" "# cdGAbs1x1";
   Row [1; 2] VAbs "dG_12" "# cdGAbs1x2";
   Row [1; 3] VAbs "dG_13" "# cdGAbs1x3";
   Row [2; 1] VAbs "dG_21" "# cdGAbs2x1";
   Row [2; 2] VAbs "dG_22" "# cdGAbs2x2";
   Row [2; 3] VAbs "dG_23" "# cdGAbs2x3";
   Row [3; 1] VAbs "dG_31" "# cdGAbs3x1";
   Row [3; 2] VAbs "dG_32" "# cdGAbs3x2";
   Row [3; 3] VAbs "dG_33" "# cdGAbs3x3"].
(** smeftsim.py 4322-4332 *)
Definition rowsB_FRBlock31 : list row :=
  [Row [1; 1] VAngle "dG_11" "# cdGPh1x1";
   Row [1; 2] VAngle "dG_12" "# cdGPh1x2";
   Row [1; 3] VAngle "dG_13" "# cdGPh1x3";
   Row [2; 1] VAngle "dG_21" "# cdGPh2x1";
   Row [2; 2] VAngle "dG_22" "# cdGPh2x2";
   Row [2; 3] VAngle "dG_23" "# cdGPh2x3";
   Row [3; 1] VAngle "dG_31" "# cdGPh3x1";
   Row [3; 2] VAngle "dG_32" "# cdGPh3x2";
   Row [3; 3] VAngle "dG_33" "# cdGPh3x3"].
(** smeftsim.py 4334-4344 *)
Definition rowsB_FRBlock33 : list row :=
  [Row [1; 1] VAbs "dW_11" "# cdWAbs1x1";
   Row [1; 2] VAbs "dW_12" "# cdWAbs1x2";
   Row [1; 3] VAbs "dW_13" "# cdWAbs1x3";
   Row [2; 1] VAbs "dW_21" "# cdWAbs2x1";
   Row [2; 2] VAbs "dW_22" "# cdWAbs2x2";
   Row [2; 3] VAbs "dW_23" "# cdWAbs2x3";
   Row [3; 1] VAbs "dW_31" "# cdWAbs3x1";
   Row [3; 2] VAbs "dW_32" "# cdWAbs3x2";
   Row [3; 3] VAbs "dW_33" "# cdWAbs3x3"].
(** smeftsim.py 4346-4356 *)
Definition rowsB_FRBlock34 : list row :=
  [Row [1; 1] VAngle "dW_11" "# cdWPh1x1";
   Row [1; 2] VAngle "dW_12" "# cdWPh1x2";
   Row [1; 3] VAngle "dW_13" "# cdWPh1x3";
   Row [2; 1] VAngle "dW_21" "# cdWPh2x1";
   Row [2; 2] VAngle "dW_22" "# cdWPh2x2";
   Row [2; 3] VAngle "dW_23" "# cdWPh2x3";
   Row [3; 1] VAngle "dW_31" "# cdWPh3x1";
   Row [3; 2] VAngle "dW_32" "# cdWPh3x2";
   Row [3; 3] VAngle "dW_33" "# cdWPh3x3"].
(** smeftsim.py 4358-4368 *)
Definition rowsB_FRBlock36 : list row :=
  [Row [1; 1] VAbs "dB_11" "# cdBAbs1x1";
   Row [1; 2] VAbs "dB_12" "# cdBAbs1x2";
   Row [1; 3] VAbs "dB_13" "# cdBAbs1x3";
   Row [2; 1] VAbs "dB_21" "# cdBAbs2x1";
   Row [2; 2] VAbs "dB_22" "# cdBAbs2x2";
   Row [2; 3] VAbs "dB_23" "# cdBAbs2x3";
   Row [3; 1] VAbs "dB_31" "# cdBAbs3x1";
   Row [3; 2] VAbs "dB_32" "# cdBAbs3x2";
   Row [3; 3] VAbs "dB_33" "# cdBAbs3x3"].
(** smeftsim.py 4370-4380 *)
Definition rowsB_FRBlock37 : list row :=
  [Row [1; 1] VAngle "dB_11" "# cdBPh1x1";
   Row [1; 2] VAngle "dB_12" "# cdBPh1x2";
   Row [1; 3] VAngle "dB_13" "# cdBPh1x3";
   Row [2; 1] VAngle "dB_21" "# cdBPh2x1";
   Row [2; 2] VAngle "dB_22" "# cdBPh2x2";
   Row [2; 3] VAngle "dB_23" "# cdBPh2x3";
   Row [3; 1] VAngle "dB_31" "# cdBPh3x1";
   Row [3; 2] VAngle "dB_32" "# cdBPh3x2";
   Row [3; 3] VAngle "dB_33" "# cdBPh3x3"].
(** smeftsim.py 4382-4392 *)
Definition rowsB_FRBlock45 : list row :=
  [Row [1; 1] VAbs "phiud_11" "# cHudAbs1x1";
   Row [1; 2] VAbs "phiud_12" "# cHudAbs1x2";
   Row [1; 3] VAbs "phiud_13" "# cHudAbs1x3";
   Row [2; 1] VAbs "phiud_21" "# cHudAbs2x1";
   Row [2; 2] VAbs "phiud_22" "# cHudAbs2x2";
   Row [2; 3] VAbs "phiud_23" "# cHudAbs2x3";
   Row [3; 1] VAbs "phiud_31" "# cHudAbs3x1";
   Row [3; 2] VAbs "phiud_32" "# cHudAbs3x2";
   Row [3; 3] VAbs "phiud_33" "# cHudAbs3x3"].
(** smeftsim.py 4394-4404 *)
Definition rowsB_FRBlock46 : list row :=
  [Row [1; 1] VAngle "phiud_11" "# cHudPh1x1";
   Row [1; 2] VAngle "phiud_12" "# cHudPh1x2";
   Row [1; 3] VAngle "phiud_13" "# cHudPh1x3";
   Row [2; 1] VAngle "phiud_21" "# cHudPh2x1";
   Row [2; 2] VAngle "phiud_22" "# cHudPh2x2";
   Row [2; 3] VAngle "phiud_23" "# cHudPh2x3";
   Row [3; 1] VAngle "phiud_31" "# cHudPh3x1";
   Row [3; 2] VAngle "phiud_32" "# cHudPh3x2";
   Row [3; 3] VAngle "phiud_33" "# cHudPh3x3"].
(** smeftsim.py 4406-4416 *)
Definition rowsB_FRBlock6 : list row :=
  [Row [1; 1] VAbs "ephi_11" "# ceHAbs1x1";
   Row [1; 2] VAbs "ephi_12" "# ceHAbs1x2";
   Row [1; 3] VAbs "ephi_13" "# ceHAbs1x3";
   Row [2; 1] VAbs "ephi_21" "# ceHAbs2x1";
   Row [2; 2] VAbs "ephi_22" "# ceHAbs2x2";
   Row [2; 3] VAbs "ephi_23" "# ceHAbs2x3";
   Row [3; 1] VAbs "ephi_31" "# ceHAbs3x1";
   Row [3; 2] VAbs "ephi_32" "# ceHAbs3x2";
   Row [3; 3] VAbs "ephi_33" "# ceHAbs3x3"].
(** smeftsim.py 4418-4500 *)
Definition rowsB_FRBlock69 : list row :=
  [Row [1; 1; 1; 1] VAbs "ledq_1111" "# cledqAbs1x1x1x1";
   Row [1; 1; 1; 2] VAbs "ledq_1112" "# cledqAbs1x1x1x2";
   Row [1; 1; 1; 3] VAbs "ledq_1113" "# cledqAbs1x1x1x3";
   Row [1; 1; 2; 1] VAbs "ledq_1121" "# cledqAbs1x1x2x1";
   Row [1; 1; 2; 2] VAbs "ledq_1122" "# cledqAbs1x1x2x2";
   Row [1; 1; 2; 3] VAbs "ledq_1123" "# cledqAbs1x1x2x3";
   Row [1; 1; 3; 1] VAbs "ledq_1131" "# cledqAbs1x1x3x1";
   Row [1; 1; 3; 2] VAbs "ledq_1132" "# cledqAbs1x1x3x2";
   Row [1; 1; 3; 3] VAbs "ledq_1133" "# cledqAbs1x1x3x3";
   Row [1; 2; 1; 1] VAbs "ledq_1211" "# cledqAbs1x2x1x1";
   Row [1; 2; 1; 2] VAbs "ledq_1212" "# cledqAbs1x2x1x2";
   Row [1; 2; 1; 3] VAbs "ledq_1213" "# cledqAbs1x2x1x3";
   Row [1; 2; 2; 1] VAbs "ledq_1221" "# cledqAbs1x2x2x1";
   Row [1; 2; 2; 2] VAbs "ledq_1222" "# cledqAbs1x2x2x2";
   Row [1; 2; 2; 3] VAbs "ledq_1223" "# cledqAbs1x2x2x3";
   Row [1; 2; 3; 1] VAbs "ledq_1231" "# cledqAbs1x2x3x1";
   Row [1; 2; 3; 2] VAbs "ledq_1232" "# cledqAbs1x2x3x2";
   Row [1; 2; 3; 3] VAbs "ledq_1233" "# cledqAbs1x2x3x3";
   Row [1; 3; 1; 1] VAbs "ledq_1311" "# cledqAbs1x3x1x1";
   Row [1; 3; 1; 2] VAbs "ledq_1312" "# cledqAbs1x3x1x2";
   Row [1; 3; 1; 3] VAbs "ledq_1313" "# cledqAbs1x3x1x3";
   Row [1; 3; 2; 1] VAbs "ledq_1321" "# cledqAbs1x3x2x1";
   Row [1; 3; 2; 2] VAbs "ledq_1322" "# cledqAbs1x3x2x2";
   Row [1; 3; 2; 3] VAbs "ledq_1323" "# cledqAbs1x3x2x3";
   Row [1; 3; 3; 1] VAbs "ledq_1331" "# cledqAbs1x3x3x1";
   Row [1; 3; 3; 2] VAbs "ledq_1332" "# cledqAbs1x3x3x2";
   Row [1; 3; 3; 3] VAbs "ledq_1333" "# cledqAbs1x3x3x3";
   Row [2; 1; 1; 1] VAbs "ledq_2111" "# cledqAbs2x1x1x1";
   Row [2; 1; 1; 2] VAbs "ledq_2112" "# cledqAbs2x1x1x2";
   Row [2; 1; 1; 3] VAbs "ledq_2113" "# cledqAbs2x1x1x3";
   Row [2; 1; 2; 1] VAbs "ledq_2121" "# cledqAbs2x1x2x1";
   Row [2; 1; 2; 2] VAbs "ledq_2122" "# cledqAbs2x1x2x2";
   Row [2; 1; 2; 3] VAbs "ledq_2123" "# cledqAbs2x1x2x3";
   Row [2; 1; 3; 1] VAbs "ledq_2131" "# cledqAbs2x1x3x1";
   Row [2; 1; 3; 2] VAbs "ledq_2132" "# cledqAbs2x1x3x2";
   Row [2; 1; 3; 3] VAbs "ledq_2133" "# cledqAbs2x1x3x3";
   Row [2; 2; 1; 1] VAbs "ledq_2211" "# cledqAbs2x2x1x1";
   Row [2; 2; 1; 2] VAbs "ledq_2212" "# cledqAbs2x2x1x2";
   Row [2; 2; 1; 3] VAbs "ledq_2213" "# cledqAbs2x2x1x3";
   Row [2; 2; 2; 1] VAbs "ledq_2221" "# cledqAbs2x2x2x1";
   Row [2; 2; 2; 2] VAbs "ledq_2222" "# cledqAbs2x2x2x2";
   Row [2; 2; 2; 3] VAbs "ledq_2223" "# cledqAbs2x2x2x3";
   Row [2; 2; 3; 1] VAbs "ledq_2231" "# cledqAbs2x2x3x1";
   Row [2; 2; 3; 2] VAbs "ledq_2232" "# cledqAbs2x2x3x2";
   Row [2; 2; 3; 3] VAbs "ledq_2233" "# cledqAbs2x2x3x3";
   Row [2; 3; 1; 1] VAbs "ledq_2311" "# cledqAbs2x3x1x1";
   Row [2; 3; 1; 2] VAbs "ledq_2312" "# cledqAbs2x3x1x2";
   Row [2; 3; 1; 3] VAbs "ledq_2313" "# cledqAbs2x3x1x3";
   Row [2; 3; 2; 1] VAbs "ledq_2321" "# cledqAbs2x3x2x1";
   Row [2; 3; 2; 2] VAbs "ledq_2322" "# cledqAbs2x3x2x2";
   Row [2; 3; 2; 3] VAbs "ledq_2323" "# cledqAbs2x3x2x3";
   Row [2; 3; 3; 1] VAbs "ledq_2331" "# cledqAbs2x3x3x1";
   Row [2; 3; 3; 2] VAbs "ledq_2332" "# cledqAbs2x3x3x2";
   Row [2; 3; 3; 3] VAbs "ledq_2333" "# cledqAbs2x3x3x3";
   Row [3; 1; 1; 1] VAbs "ledq_3111" "# cledqAbs3x1x1x1";
   Row [3; 1; 1; 2] VAbs "ledq_3112" "# cledqAbs3x1x1x2";
   Row [3; 1; 1; 3] VAbs "ledq_3113" "# cledqAbs3x1x1x3";
   Row [3; 1; 2; 1] VAbs "ledq_3121" "# cledqAbs3x1x2x1";
   Row [3; 1; 2; 2] VAbs "ledq_3122" "# cledqAbs3x1x2x2";
   Row [3; 1; 2; 3] VAbs "ledq_3123" "# cledqAbs3x1x2x3";
   Row [3; 1; 3; 1] VAbs "ledq_3131" "# cledqAbs3x1x3x1";
   Row [3; 1; 3; 2] VAbs "ledq_3132" "# cledqAbs3x1x3x2";
   Row [3; 1; 3; 3] VAbs "ledq_3133" "# cledqAbs3x1x3x3";
   Row [3; 2; 1; 1] VAbs "ledq_3211" "# cledqAbs3x2x1x1";
   Row [3; 2; 1; 2] VAbs "ledq_3212" "# cledqAbs3x2x1x2";
   Row [3; 2; 1; 3] VAbs "ledq_3213" "# cledqAbs3x2x1x3";
   Row [3; 2; 2; 1] VAbs "ledq_3221" "# cledqAbs3x2x2x1";
   Row [3; 2; 2; 2] VAbs "ledq_3222" "# cledqAbs3x2x2x2";
   Row [3; 2; 2; 3] VAbs "ledq_3223" "# cledqAbs3x2x2x3";
   Row [3; 2; 3; 1] VAbs "ledq_3231" "# cledqAbs3x2x3x1";
   Row [3; 2; 3; 2] VAbs "ledq_3232" "# cledqAbs3x2x3x2";
   Row [3; 2; 3; 3] VAbs "ledq_3233" "# cledqAbs3x2x3x3";
   Row [3; 3; 1; 1] VAbs "ledq_3311" "# cledqAbs3x3x1x1";
   Row [3; 3; 1; 2] VAbs "ledq_3312" "# cledqAbs3x3x1x2";
   Row [3; 3; 1; 3] VAbs "ledq_3313" "# cledqAbs3x3x1x3";
   Row [3; 3; 2; 1] VAbs "ledq_3321" "# cledqAbs3x3x2x1";
   Row [3; 3; 2; 2] VAbs "ledq_3322" "# cledqAbs3x3x2x2";
   Row [3; 3; 2; 3] VAbs "ledq_3323" "# cledqAbs3x3x2x3";
   Row [3; 3; 3; 1] VAbs "ledq_3331" "# cledqAbs3x3x3x1";
   Row [3; 3; 3; 2] VAbs "ledq_3332" "# cledqAbs3x3x3x2";
   Row [3; 3; 3; 3] VAbs "ledq_3333" "# cledqAbs3x3x3x3"].
(** smeftsim.py 4502-4512 *)
Definition rowsB_FRBlock7 : list row :=
  [Row [1; 1] VAbs "uphi_11" "# cuHAbs1x1";
   Row [1; 2] VAbs "uphi_12" "# cuHAbs1x2";
   Row [1; 3] VAbs "uphi_13" "# cuHAbs1x3";
   Row [2; 1] VAbs "uphi_21" "# cuHAbs2x1";
   Row [2; 2] VAbs "uphi_22" "# cuHAbs2x2";
   Row [2; 3] VAbs "uphi_23" "# cuHAbs2x3";
   Row [3; 1] VAbs "uphi_31" "# cuHAbs3x1";
   Row [3; 2] VAbs "uphi_32" "# cuHAbs3x2";
   Row [3; 3] VAbs "uphi_33" "# cuHAbs3x3"].
(** smeftsim.py 4514-4596 *)
Definition rowsB_FRBlock70 : list row :=
  [Row [1; 1; 1; 1] VAngle "ledq_1111" "# cledqPh1x1x1x1";
   Row [1; 1; 1; 2] VAngle "ledq_1112" "# cledqPh1x1x1x2";
   Row [1; 1; 1; 3] VAngle "ledq_1113" "# cledqPh1x1x1x3";
   Row [1; 1; 2; 1] VAngle "ledq_1121" "# cledqPh1x1x2x1";
   Row [1; 1; 2; 2] VAngle "ledq_1122" "# cledqPh1x1x2x2";
   Row [1; 1; 2; 3] VAngle "ledq_1123" "# cledqPh1x1x2x3";
   Row [1; 1; 3; 1] VAngle "ledq_1131" "# cledqPh1x1x3x1";
   Row [1; 1; 3; 2] VAngle "ledq_1132" "# cledqPh1x1x3x2";
   Row [1; 1; 3; 3] VAngle "ledq_1133" "# cledqPh1x1x3x3";
   Row [1; 2; 1; 1] VAngle "ledq_1211" "# cledqPh1x2x1x1";
   Row [1; 2; 1; 2] VAngle "ledq_1212" "# cledqPh1x2x1x2";
   Row [1; 2; 1; 3] VAngle "ledq_1213" "# cledqPh1x2x1x3";
   Row [1; 2; 2; 1] VAngle "ledq_1221" "# cledqPh1x2x2x1";
   Row [1; 2; 2; 2] VAngle "ledq_1222" "# cledqPh1x2x2x2";
   Row [1; 2; 2; 3] VAngle "ledq_1223" "# cledqPh1x2x2x3";
   Row [1; 2; 3; 1] VAngle "ledq_1231" "# cledqPh1x2x3x1";
   Row [1; 2; 3; 2] VAngle "ledq_1232" "# cledqPh1x2x3x2";
   Row [1; 2; 3; 3] VAngle "ledq_1233" "# cledqPh1x2x3x3";
   Row [1; 3; 1; 1] VAngle "ledq_1311" "# cledqPh1x3x1x1";
   Row [1; 3; 1; 2] VAngle "ledq_1312" "# cledqPh1x3x1x2";
   Row [1; 3; 1; 3] VAngle "ledq_1313" "# cledqPh1x3x1x3";
   Row [1; 3; 2; 1] VAngle "ledq_1321" "# cledqPh1x3x2x1";
   Row [1; 3; 2; 2] VAngle "ledq_1322" "# cledqPh1x3x2x2";
   Row [1; 3; 2; 3] VAngle "ledq_1323" "# cledqPh1x3x2x3";
   Row [1; 3; 3; 1] VAngle "ledq_1331" "# cledqPh1x3x3x1";
   Row [1; 3; 3; 2] VAngle "ledq_1332" "# cledqPh1x3x3x2";
   Row [1; 3; 3; 3] VAngle "ledq_1333" "# cledqPh1x3x3x3";
   Row [2; 1; 1; 1] VAngle "ledq_2111" "# cledqPh2x1x1x1";
   Row [2; 1; 1; 2] VAngle "ledq_2112" "# cledqPh2x1x1x2";
   Row [2; 1; 1; 3] VAngle "ledq_2113" "# cledqPh2x1x1x3";
   Row [2; 1; 2; 1] VAngle "ledq_2121" "# cledqPh2x1x2x1";
   Row [2; 1; 2; 2] VAngle "ledq_2122" "# cledqPh2x1x2x2";
   Row [2; 1; 2; 3] VAngle "ledq_2123" "# cledqPh2x1x2x3";
   Row [2; 1; 3; 1] VAngle "ledq_2131" "# cledqPh2x1x3x1";
   Row [2; 1; 3; 2] VAngle "ledq_2132" "# cledqPh2x1x3x2";
   Row [2; 1; 3; 3] VAngle "ledq_2133" "# cledqPh2x1x3x3";
   Row [2; 2; 1; 1] VAngle "ledq_2211" "# cledqPh2x2x1x1";
   Row [2; 2; 1; 2] VAngle "ledq_2212" "# cledqPh2x2x1x2";
   Row [2; 2; 1; 3] VAngle "ledq_2213" "# cledqPh2x2x1x3";
   Row [2; 2; 2; 1] VAngle "ledq_2221" "# cledqPh2x2x2x1";
   Row [2; 2; 2; 2] VAngle "ledq_2222" "# cledqPh2x2x2x2";
   Row [2; 2; 2; 3] VAngle "ledq_2223" "# cledqPh2x2x2x3";
   Row [2; 2; 3; 1] VAngle "ledq_2231" "# cledqPh2x2x3x1";
   Row [2; 2; 3; 2] VAngle "ledq_2232" "# cledqPh2x2x3x2";
   Row [2; 2; 3; 3] VAngle "ledq_2233" "# cledqPh2x2x3x3";
   Row [2; 3; 1; 1] VAngle "ledq_2311" "# cledqPh2x3x1x1";
   Row [2; 3; 1; 2] VAngle "ledq_2312" "# cledqPh2x3x1x2";
   Row [2; 3; 1; 3] VAngle "ledq_2313" "# cledqPh2x3x1x3";
   Row [2; 3; 2; 1] VAngle "ledq_2321" "# cledqPh2x3x2x1";
   Row [2; 3; 2; 2] VAngle "ledq_2322" "# cledqPh2x3x2x2";
   Row [2; 3; 2; 3] VAngle "ledq_2323" "# cledqPh2x3x2x3";
   Row [2; 3; 3; 1] VAngle "ledq_2331" "# cledqPh2x3x3x1";
   Row [2; 3; 3; 2] VAngle "ledq_2332" "# cledqPh2x3x3x2";
   Row [2; 3; 3; 3] VAngle "ledq_2333" "# cledqPh2x3x3x3";
   Row [3; 1; 1; 1] VAngle "ledq_3111" "# cledqPh3x1x1x1";
   Row [3; 1; 1; 2] VAngle "ledq_3112" "# cledqPh3x1x1x2";
   Row [3; 1; 1; 3] VAngle "ledq_3113" "# cledqPh3x1x1x3";
   Row [3; 1; 2; 1] VAngle "ledq_3121" "# cledqPh3x1x2x1";
   Row [3; 1; 2; 2] VAngle "ledq_3122" "# cledqPh3x1x2x2";
   Row [3; 1; 2; 3] VAngle "ledq_3123" "# cledqPh3x1x2x3";
   Row [3; 1; 3; 1] VAngle "ledq_3131" "# cledqPh3x1x3x1";
   Row [3; 1; 3; 2] VAngle "ledq_3132" "# cledqPh3x1x3x2";
   Row [3; 1; 3; 3] VAngle "ledq_3133" "# cledqPh3x1x3x3";
   Row [3; 2; 1; 1] VAngle "ledq_3211" "# cledqPh3x2x1x1";
   Row [3; 2; 1; 2] VAngle "ledq_3212" "# cledqPh3x2x1x2";
   Row [3; 2; 1; 3] VAngle "ledq_3213" "# cledqPh3x2x1x3";
   Row [3; 2; 2; 1] VAngle "ledq_3221" "# cledqPh3x2x2x1";
   Row [3; 2; 2; 2] VAngle "ledq_3222" "# cledqPh3x2x2x2";
   Row [3; 2; 2; 3] VAngle "ledq_3223" "# cledqPh3x2x2x3";
   Row [3; 2; 3; 1] VAngle "ledq_3231" "# cledqPh3x2x3x1";
   Row [3; 2; 3; 2] VAngle "ledq_3232" "# cledqPh3x2x3x2";
   Row [3; 2; 3; 3] VAngle "ledq_3233" "# cledqPh3x2x3x3";
   Row [3; 3; 1; 1] VAngle "ledq_3311" "# cledqPh3x3x1x1";
   Row [3; 3; 1; 2] VAngle "ledq_3312" "# cledqPh3x3x1x2";
   Row [3; 3; 1; 3] VAngle "ledq_3313" "# cledqPh3x3x1x3";
   Row [3; 3; 2; 1] VAngle "ledq_3321" "# cledqPh3x3x2x1";
   Row [3; 3; 2; 2] VAngle "ledq_3322" "# cledqPh3x3x2x2";
   Row [3; 3; 2; 3] VAngle "ledq_3323" "# cledqPh3x3x2x3";
   Row [3; 3; 3; 1] VAngle "ledq_3331" "# cledqPh3x3x3x1";
   Row [3; 3; 3; 2] VAngle "ledq_3332" "# cledqPh3x3x3x2";
   Row [3; 3; 3; 3] VAngle "ledq_3333" "# cledqPh3x3x3x3"].
(** smeftsim.py 4598-4680 *)
Definition rowsB_FRBlock72 : list row :=
  [Row [1; 1; 1; 1] VAbs "quqd1_1111" "# cquqd1Abs1x1x1x1";
   Row [1; 1; 1; 2] VAbs "quqd1_1112" "# cquqd1Abs1x1x1x2";
   Row [1; 1; 1; 3] VAbs "quqd1_1113" "# cquqd1Abs1x1x1x3";
   Row [1; 1; 2; 1] VAbs "quqd1_1121" "# cquqd1Abs1x1x2x1";
   Row [1; 1; 2; 2] VAbs "quqd1_1122" "# cquqd1Abs1x1x2x2";
   Row [1; 1; 2; 3] VAbs "quqd1_1123" "# cquqd1Abs1x1x2x3";
   Row [1; 1; 3; 1] VAbs "quqd1_1131" "# cquqd1Abs1x1x3x1";
   Row [1; 1; 3; 2] VAbs "quqd1_1132" "# cquqd1Abs1x1x3x2";
   Row [1; 1; 3; 3] VAbs "quqd1_1133" "# cquqd1Abs1x1x3x3";
   Row [1; 2; 1; 1] VAbs "quqd1_1211" "# cquqd1Abs1x2x1x1";
   Row [1; 2; 1; 2] VAbs "quqd1_1212" "# cquqd1Abs1x2x1x2";
   Row [1; 2; 1; 3] VAbs "quqd1_1213" "# cquqd1Abs1x2x1x3";
   Row [1; 2; 2; 1] VAbs "quqd1_1221" "# cquqd1Abs1x2x2x1";
   Row [1; 2; 2; 2] VAbs "quqd1_1222" "# cquqd1Abs1x2x2x2";
   Row [1; 2; 2; 3] VAbs "quqd1_1223" "# cquqd1Abs1x2x2x3";
   Row [1; 2; 3; 1] VAbs "quqd1_1231" "# cquqd1Abs1x2x3x1";
   Row [1; 2; 3; 2] VAbs "quqd1_1232" "# cquqd1Abs1x2x3x2";
   Row [1; 2; 3; 3] VAbs "quqd1_1233" "# cquqd1Abs1x2x3x3";
   Row [1; 3; 1; 1] VAbs "quqd1_1311" "# cquqd1Abs1x3x1x1";
   Row [1; 3; 1; 2] VAbs "quqd1_1312" "# cquqd1Abs1x3x1x2";
   Row [1; 3; 1; 3] VAbs "quqd1_1313" "# cquqd1Abs1x3x1x3";
   Row [1; 3; 2; 1] VAbs "quqd1_1321" "# cquqd1Abs1x3x2x1";
   Row [1; 3; 2; 2] VAbs "quqd1_1322" "# cquqd1Abs1x3x2x2";
   Row [1; 3; 2; 3] VAbs "quqd1_1323" "# cquqd1Abs1x3x2x3";
   Row [1; 3; 3; 1] VAbs "quqd1_1331" "# cquqd1Abs1x3x3x1";
   Row [1; 3; 3; 2] VAbs "quqd1_1332" "# cquqd1Abs1x3x3x2";
   Row [1; 3; 3; 3] VAbs "quqd1_1333" "# cquqd1Abs1x3x3x3";
   Row [2; 1; 1; 1] VAbs "quqd1_2111" "# cquqd1Abs2x1x1x1";
   Row [2; 1; 1; 2] VAbs "quqd1_2112" "# cquqd1Abs2x1x1x2";
   Row [2; 1; 1; 3] VAbs "quqd1_2113" "# cquqd1Abs2x1x1x3";
   Row [2; 1; 2; 1] VAbs "quqd1_2121" "# cquqd1Abs2x1x2x1";
   Row [2; 1; 2; 2] VAbs "quqd1_2122" "# cquqd1Abs2x1x2x2";
   Row [2; 1; 2; 3] VAbs "quqd1_2123" "# cquqd1Abs2x1x2x3";
   Row [2; 1; 3; 1] VAbs "quqd1_2131" "# cquqd1Abs2x1x3x1";
   Row [2; 1; 3; 2] VAbs "quqd1_2132" "# cquqd1Abs2x1x3x2";
   Row [2; 1; 3; 3] VAbs "quqd1_2133" "# cquqd1Abs2x1x3x3";
   Row [2; 2; 1; 1] VAbs "quqd1_2211" "# cquqd1Abs2x2x1x1";
   Row [2; 2; 1; 2] VAbs "quqd1_2212" "# cquqd1Abs2x2x1x2";
   Row [2; 2; 1; 3] VAbs "quqd1_2213" "# cquqd1Abs2x2x1x3";
   Row [2; 2; 2; 1] VAbs "quqd1_2221" "# cquqd1Abs2x2x2x1";
   Row [2; 2; 2; 2] VAbs "quqd1_2222" "# cquqd1Abs2x2x2x2";
   Row [2; 2; 2; 3] VAbs "quqd1_2223" "# cquqd1Abs2x2x2x3";
   Row [2; 2; 3; 1] VAbs "quqd1_2231" "# cquqd1Abs2x2x3x1";
   Row [2; 2; 3; 2] VAbs "quqd1_2232" "# cquqd1Abs2x2x3x2";
   Row [2; 2; 3; 3] VAbs "quqd1_2233" "# cquqd1Abs2x2x3x3";
   Row [2; 3; 1; 1] VAbs "quqd1_2311" "# cquqd1Abs2x3x1x1";
   Row [2; 3; 1; 2] VAbs "quqd1_2312" "# cquqd1Abs2x3x1x2";
   Row [2; 3; 1; 3] VAbs "quqd1_2313" "# cquqd1Abs2x3x1x3";
   Row [2; 3; 2; 1] VAbs "quqd1_2321" "# cquqd1Abs2x3x2x1";
   Row [2; 3; 2; 2] VAbs "quqd1_2322" "# cquqd1Abs2x3x2x2";
   Row [2; 3; 2; 3] VAbs "quqd1_2323" "# cquqd1Abs2x3x2x3";
   Row [2; 3; 3; 1] VAbs "quqd1_2331" "# cquqd1Abs2x3x3x1";
   Row [2; 3; 3; 2] VAbs "quqd1_2332" "# cquqd1Abs2x3x3x2";
   Row [2; 3; 3; 3] VAbs "quqd1_2333" "# cquqd1Abs2x3x3x3";
   Row [3; 1; 1; 1] VAbs "quqd1_3111" "# cquqd1Abs3x1x1x1";
   Row [3; 1; 1; 2] VAbs "quqd1_3112" "# cquqd1Abs3x1x1x2";
   Row [3; 1; 1; 3] VAbs "quqd1_3113" "# cquqd1Abs3x1x1x3";
   Row [3; 1; 2; 1] VAbs "quqd1_3121" "# cquqd1Abs3x1x2x1";
   Row [3; 1; 2; 2] VAbs "quqd1_3122" "# cquqd1Abs3x1x2x2";
   Row [3; 1; 2; 3] VAbs "quqd1_3123" "# cquqd1Abs3x1x2x3";
   Row [3; 1; 3; 1] VAbs "quqd1_3131" "# cquqd1Abs3x1x3x1";
   Row [3; 1; 3; 2] VAbs "quqd1_3132" "# cquqd1Abs3x1x3x2";
   Row [3; 1; 3; 3] VAbs "quqd1_3133" "# cquqd1Abs3x1x3x3";
   Row [3; 2; 1; 1] VAbs "quqd1_3211" "# cquqd1Abs3x2x1x1";
   Row [3; 2; 1; 2] VAbs "quqd1_3212" "# cquqd1Abs3x2x1x2";
   Row [3; 2; 1; 3] VAbs "quqd1_3213" "# cquqd1Abs3x2x1x3";
   Row [3; 2; 2; 1] VAbs "quqd1_3221" "# cquqd1Abs3x2x2x1";
   Row [3; 2; 2; 2] VAbs "quqd1_3222" "# cquqd1Abs3x2x2x2";
   Row [3; 2; 2; 3] VAbs "quqd1_3223" "# cquqd1Abs3x2x2x3";
   Row [3; 2; 3; 1] VAbs "quqd1_3231" "# cquqd1Abs3x2x3x1";
   Row [3; 2; 3; 2] VAbs "quqd1_3232" "# cquqd1Abs3x2x3x2";
   Row [3; 2; 3; 3] VAbs "quqd1_3233" "# cquqd1Abs3x2x3x3";
   Row [3; 3; 1; 1] VAbs "quqd1_3311" "# cquqd1Abs3x3x1x1";
   Row [3; 3; 1; 2] VAbs "quqd1_3312" "# cquqd1Abs3x3x1x2";
   Row [3; 3; 1; 3] VAbs "quqd1_3313" "# cquqd1Abs3x3x1x3";
   Row [3; 3; 2; 1] VAbs "quqd1_3321" "# cquqd1Abs3x3x2x1";
   Row [3; 3; 2; 2] VAbs "quqd1_3322" "# cquqd1Abs3x3x2x2";
   Row [3; 3; 2; 3] VAbs "quqd1_3323" "# cquqd1Abs3x3x2x3";
   Row [3; 3; 3; 1] VAbs "quqd1_3331" "# cquqd1Abs3x3x3x1";
   Row [3; 3; 3; 2] VAbs "quqd1_3332" "# cquqd1Abs3x3x3x2";
   Row [3; 3; 3; 3] VAbs "quqd1_3333" "# cquqd1Abs3x3x3x3"].
(** smeftsim.py 4682-4764 *)
Definition rowsB_FRBlock73 : list row :=
  [Row [1; 1; 1; 1] VAngle "quqd1_1111" "# cquqd1Ph1x1x1x1";
   Row [1; 1; 1; 2] VAngle "quqd1_1112" "# cquqd1Ph1x1x1x2";
   Row [1; 1; 1; 3] VAngle "quqd1_1113" "# cquqd1Ph1x1x1x3";
   Row [1; 1; 2; 1] VAngle "quqd1_1121" "# cquqd1Ph1x1x2x1";
   Row [1; 1; 2; 2] VAngle "quqd1_1122" "# cquqd1Ph1x1x2x2";
   Row [1; 1; 2; 3] VAngle "quqd1_1123" "# cquqd1Ph1x1x2x3";
   Row [1; 1; 3; 1] VAngle "quqd1_1131" "# cquqd1Ph1x1x3x1";
   Row [1; 1; 3; 2] VAngle "quqd1_1132" "# cquqd1Ph1x1x3x2";
   Row [1; 1; 3; 3] VAngle "quqd1_1133" "# cquqd1Ph1x1x3x3";
   Row [1; 2; 1; 1] VAngle "quqd1_1211" "# cquqd1Ph1x2x1x1";
   Row [1; 2; 1; 2] VAngle "quqd1_1212" "# cquqd1Ph1x2x1x2";
   Row [1; 2; 1; 3] VAngle "quqd1_1213" "# cquqd1Ph1x2x1x3";
   Row [1; 2; 2; 1] VAngle "quqd1_1221" "# cquqd1Ph1x2x2x1";
   Row [1; 2; 2; 2] VAngle "quqd1_1222" "# cquqd1Ph1x2x2x2";
   Row [1; 2; 2; 3] VAngle "quqd1_1223" "# cquqd1Ph1x2x2x3";
   Row [1; 2; 3; 1] VAngle "quqd1_1231" "# cquqd1Ph1x2x3x1";
   Row [1; 2; 3; 2] VAngle "quqd1_1232" "# cquqd1Ph1x2x3x2";
   Row [1; 2; 3; 3] VAngle "quqd1_1233" "# cquqd1Ph1x2x3x3";
   Row [1; 3; 1; 1] VAngle "quqd1_1311" "# cquqd1Ph1x3x1x1";
   Row [1; 3; 1; 2] VAngle "quqd1_1312" "# cquqd1Ph1x3x1x2";
   Row [1; 3; 1; 3] VAngle "quqd1_1313" "# cquqd1Ph1x3x1x3";
   Row [1; 3; 2; 1] VAngle "quqd1_1321" "# cquqd1Ph1x3x2x1";
   Row [1; 3; 2; 2] VAngle "quqd1_1322" "# cquqd1Ph1x3x2x2";
   Row [1; 3; 2; 3] VAngle "quqd1_1323" "# cquqd1Ph1x3x2x3";
   Row [1; 3; 3; 1] VAngle "quqd1_1331" "# cquqd1Ph1x3x3x1";
   Row [1; 3; 3; 2] VAngle "quqd1_1332" "# cquqd1Ph1x3x3x2";
   Row [1; 3; 3; 3] VAngle "quqd1_1333" "# cquqd1Ph1x3x3x3";
   Row [2; 1; 1; 1] VAngle "quqd1_2111" "# cquqd1Ph2x1x1x1";
   Row [2; 1; 1; 2] VAngle "quqd1_2112" "# cquqd1Ph2x1x1x2";
   Row [2; 1; 1; 3] VAngle "quqd1_2113" "# cquqd1Ph2x1x1x3";
   Row [2; 1; 2; 1] VAngle "quqd1_2121" "# cquqd1Ph2x1x2x1";
   Row [2; 1; 2; 2] VAngle "quqd1_2122" "# cquqd1Ph2x1x2x2";
   Row [2; 1; 2; 3] VAngle "quqd1_2123" "# cquqd1Ph2x1x2x3";
   Row [2; 1; 3; 1] VAngle "quqd1_2131" "# cquqd1Ph2x1x3x1";
   Row [2; 1; 3; 2] VAngle "quqd1_2132" "# cquqd1Ph2x1x3x2";
   Row [2; 1; 3; 3] VAngle "quqd1_2133" "# cquqd1Ph2x1x3x3";
   Row [2; 2; 1; 1] VAngle "quqd1_2211" "# cquqd1Ph2x2x1x1";
   Row [2; 2; 1; 2] VAngle "quqd1_2212" "# cquqd1Ph2x2x1x2";
   Row [2; 2; 1; 3] VAngle "quqd1_2213" "# cquqd1Ph2x2x1x3";
   Row [2; 2; 2; 1] VAngle "quqd1_2221" "# cquqd1Ph2x2x2x1";
   Row [2; 2; 2; 2] VAngle "quqd1_2222" "# cquqd1Ph2x2x2x2";
   Row [2; 2; 2; 3] VAngle "quqd1_2223" "# cquqd1Ph2x2x2x3";
   Row [2; 2; 3; 1] VAngle "quqd1_2231" "# cquqd1Ph2x2x3x1";
   Row [2; 2; 3; 2] VAngle "quqd1_2232" "# cquqd1Ph2x2x3x2";
   Row [2; 2; 3; 3] VAngle "quqd1_2233" "# cquqd1Ph2x2x3x3";
   Row [2; 3; 1; 1] VAngle "quqd1_2311" "# cquqd1Ph2x3x1x1";
   Row [2; 3; 1; 2] VAngle "quqd1_2312" "# cquqd1Ph2x3x1x2";
   Row [2; 3; 1; 3] VAngle "quqd1_2313" "# cquqd1Ph2x3x1x3";
   Row [2; 3; 2; 1] VAngle "quqd1_2321" "# cquqd1Ph2x3x2x1";
   Row [2; 3; 2; 2] VAngle "quqd1_2322" "# cquqd1Ph2x3x2x2";
   Row [2; 3; 2; 3] VAngle "quqd1_2323" "# cquqd1Ph2x3x2x3";
   Row [2; 3; 3; 1] VAngle "quqd1_2331" "# cquqd1Ph2x3x3x1";
   Row [2; 3; 3; 2] VAngle "quqd1_2332" "# cquqd1Ph2x3x3x2";
   Row [2; 3; 3; 3] VAngle "quqd1_2333" "# cquqd1Ph2x3x3x3";
   Row [3; 1; 1; 1] VAngle "quqd1_3111" "# cquqd1Ph3x1x1x1";
   Row [3; 1; 1; 2] VAngle "quqd1_3112" "# cquqd1Ph3x1x1x2";
   Row [3; 1; 1; 3] VAngle "quqd1_3113" "# cquqd1Ph3x1x1x3";
   Row [3; 1; 2; 1] VAngle "quqd1_3121" "# cquqd1Ph3x1x2x1";
   Row [3; 1; 2; 2] VAngle "quqd1_3122" "# cquqd1Ph3x1x2x2";
   Row [3; 1; 2; 3] VAngle "quqd1_3123" "# cquqd1Ph3x1x2x3";
   Row [3; 1; 3; 1] VAngle "quqd1_3131" "# cquqd1Ph3x1x3x1";
   Row [3; 1; 3; 2] VAngle "quqd1_3132" "# cquqd1Ph3x1x3x2";
   Row [3; 1; 3; 3] VAngle "quqd1_3133" "# cquqd1Ph3x1x3x3";
   Row [3; 2; 1; 1] VAngle "quqd1_3211" "# cquqd1Ph3x2x1x1";
   Row [3; 2; 1; 2] VAngle "quqd1_3212" "# cquqd1Ph3x2x1x2";
   Row [3; 2; 1; 3] VAngle "quqd1_3213" "# cquqd1Ph3x2x1x3";
   Row [3; 2; 2; 1] VAngle "quqd1_3221" "# cquqd1Ph3x2x2x1";
   Row [3; 2; 2; 2] VAngle "quqd1_3222" "# cquqd1Ph3x2x2x2";
   Row [3; 2; 2; 3] VAngle "quqd1_3223" "# cquqd1Ph3x2x2x3";
   Row [3; 2; 3; 1] VAngle "quqd1_3231" "# cquqd1Ph3x2x3x1";
   Row [3; 2; 3; 2] VAngle "quqd1_3232" "# cquqd1Ph3x2x3x2";
   Row [3; 2; 3; 3] VAngle "quqd1_3233" "# cquqd1Ph3x2x3x3";
   Row [3; 3; 1; 1] VAngle "quqd1_3311" "# cquqd1Ph3x3x1x1";
   Row [3; 3; 1; 2] VAngle "quqd1_3312" "# cquqd1Ph3x3x1x2";
   Row [3; 3; 1; 3] VAngle "quqd1_3313" "# cquqd1Ph3x3x1x3";
   Row [3; 3; 2; 1] VAngle "quqd1_3321" "# cquqd1Ph3x3x2x1";
   Row [3; 3; 2; 2] VAngle "quqd1_3322" "# cquqd1Ph3x3x2x2";
   Row [3; 3; 2; 3] VAngle "quqd1_3323" "# cquqd1Ph3x3x2x3";
   Row [3; 3; 3; 1] VAngle "quqd1_3331" "# cquqd1Ph3x3x3x1";
   Row [3; 3; 3; 2] VAngle "quqd1_3332" "# cquqd1Ph3x3x3x2";
   Row [3; 3; 3; 3] VAngle "quqd1_3333" "# cquqd1Ph3x3x3x3"].
(** smeftsim.py 4766-4848 *)
Definition rowsB_FRBlock75 : list row :=
  [Row [1; 1; 1; 1] VAbs "quqd8_1111" "# cQUQD8Abs1x1x1x1";
   Row [1; 1; 1; 2] VAbs "quqd8_1112" "# cQUQD8Abs1x1x1x2";
   Row [1; 1; 1; 3] VAbs "quqd8_1113" "# cQUQD8Abs1x1x1x3";
   Row [1; 1; 2; 1] VAbs "quqd8_1121" "# cQUQD8Abs1x1x2x1";
   Row [1; 1; 2; 2] VAbs "quqd8_1122" "# cQUQD8Abs1x1x2x2";
   Row [1; 1; 2; 3] VAbs "quqd8_1123" "# cQUQD8Abs1x1x2x3";
   Row [1; 1; 3; 1] VAbs "quqd8_1131" "# cQUQD8Abs1x1x3x1";
   Row [1; 1; 3; 2] VAbs "quqd8_1132" "# cQUQD8Abs1x1x3x2";
   Row [1; 1; 3; 3] VAbs "quqd8_1133" "# cQUQD8Abs1x1x3x3";
   Row [1; 2; 1; 1] VAbs "quqd8_1211" "# cQUQD8Abs1x2x1x1";
   Row [1; 2; 1; 2] VAbs "quqd8_1212" "# cQUQD8Abs1x2x1x2";
   Row [1; 2; 1; 3] VAbs "quqd8_1213" "# cQUQD8Abs1x2x1x3";
   Row [1; 2; 2; 1] VAbs "quqd8_1221" "# cQUQD8Abs1x2x2x1";
   Row [1; 2; 2; 2] VAbs "quqd8_1222" "# cQUQD8Abs1x2x2x2";
   Row [1; 2; 2; 3] VAbs "quqd8_1223" "# cQUQD8Abs1x2x2x3";
   Row [1; 2; 3; 1] VAbs "quqd8_1231" "# cQUQD8Abs1x2x3x1";
   Row [1; 2; 3; 2] VAbs "quqd8_1232" "# cQUQD8Abs1x2x3x2";
   Row [1; 2; 3; 3] VAbs "quqd8_1233" "# cQUQD8Abs1x2x3x3";
   Row [1; 3; 1; 1] VAbs "quqd8_1311" "# cQUQD8Abs1x3x1x1";
   Row [1; 3; 1; 2] VAbs "quqd8_1312" "# cQUQD8Abs1x3x1x2";
   Row [1; 3; 1; 3] VAbs "quqd8_1313" "# cQUQD8Abs1x3x1x3";
   Row [1; 3; 2; 1] VAbs "quqd8_1321" "# cQUQD8Abs1x3x2x1";
   Row [1; 3; 2; 2] VAbs "quqd8_1322" "# cQUQD8Abs1x3x2x2";
   Row [1; 3; 2; 3] VAbs "quqd8_1323" "# cQUQD8Abs1x3x2x3";
   Row [1; 3; 3; 1] VAbs "quqd8_1331" "# cQUQD8Abs1x3x3x1";
   Row [1; 3; 3; 2] VAbs "quqd8_1332" "# cQUQD8Abs1x3x3x2";
   Row [1; 3; 3; 3] VAbs "quqd8_1333" "# cQUQD8Abs1x3x3x3";
   Row [2; 1; 1; 1] VAbs "quqd8_2111" "# cQUQD8Abs2x1x1x1";
   Row [2; 1; 1; 2] VAbs "quqd8_2112" "# cQUQD8Abs2x1x1x2";
   Row [2; 1; 1; 3] VAbs "quqd8_2113" "# cQUQD8Abs2x1x1x3";
   Row [2; 1; 2; 1] VAbs "quqd8_2121" "# cQUQD8Abs2x1x2x1";
   Row [2; 1; 2; 2] VAbs "quqd8_2122" "# cQUQD8Abs2x1x2x2";
   Row [2; 1; 2; 3] VAbs "quqd8_2123" "# cQUQD8Abs2x1x2x3";
   Row [2; 1; 3; 1] VAbs "quqd8_2131" "# cQUQD8Abs2x1x3x1";
   Row [2; 1; 3; 2] VAbs "quqd8_2132" "# cQUQD8Abs2x1x3x2";
   Row [2; 1; 3; 3] VAbs "quqd8_2133" "# cQUQD8Abs2x1x3x3";
   Row [2; 2; 1; 1] VAbs "quqd8_2211" "# cQUQD8Abs2x2x1x1";
   Row [2; 2; 1; 2] VAbs "quqd8_2212" "# cQUQD8Abs2x2x1x2";
   Row [2; 2; 1; 3] VAbs "quqd8_2213" "# cQUQD8Abs2x2x1x3";
   Row [2; 2; 2; 1] VAbs "quqd8_2221" "# cQUQD8Abs2x2x2x1";
   Row [2; 2; 2; 2] VAbs "quqd8_2222" "# cQUQD8Abs2x2x2x2";
   Row [2; 2; 2; 3] VAbs "quqd8_2223" "# cQUQD8Abs2x2x2x3";
   Row [2; 2; 3; 1] VAbs "quqd8_2231" "# cQUQD8Abs2x2x3x1";
   Row [2; 2; 3; 2] VAbs "quqd8_2232" "# cQUQD8Abs2x2x3x2";
   Row [2; 2; 3; 3] VAbs "quqd8_2233" "# cQUQD8Abs2x2x3x3";
   Row [2; 3; 1; 1] VAbs "quqd8_2311" "# cQUQD8Abs2x3x1x1";
   Row [2; 3; 1; 2] VAbs "quqd8_2312" "# cQUQD8Abs2x3x1x2";
   Row [2; 3; 1; 3] VAbs "quqd8_2313" "# cQUQD8Abs2x3x1x3";
   Row [2; 3; 2; 1] VAbs "quqd8_2321" "# cQUQD8Abs2x3x2x1";
   Row [2; 3; 2; 2] VAbs "quqd8_2322" "# cQUQD8Abs2x3x2x2";
   Row [2; 3; 2; 3] VAbs "quqd8_2323" "# cQUQD8Abs2x3x2x3";
   Row [2; 3; 3; 1] VAbs "quqd8_2331" "# cQUQD8Abs2x3x3x1";
   Row [2; 3; 3; 2] VAbs "quqd8_2332" "# cQUQD8Abs2x3x3x2";
   Row [2; 3; 3; 3] VAbs "quqd8_2333" "# cQUQD8Abs2x3x3x3";
   Row [3; 1; 1; 1] VAbs "quqd8_3111" "# cQUQD8Abs3x1x1x1";
   Row [3; 1; 1; 2] VAbs "quqd8_3112" "# cQUQD8Abs3x1x1x2";
   Row [3; 1; 1; 3] VAbs "quqd8_3113" "# cQUQD8Abs3x1x1x3";
   Row [3; 1; 2; 1] VAbs "quqd8_3121" "# cQUQD8Abs3x1x2x1";
   Row [3; 1; 2; 2] VAbs "quqd8_3122" "# cQUQD8Abs3x1x2x2";
   Row [3; 1; 2; 3] VAbs "quqd8_3123" "# cQUQD8Abs3x1x2x3";
   Row [3; 1; 3; 1] VAbs "quqd8_3131" "# cQUQD8Abs3x1x3x1";
   Row [3; 1; 3; 2] VAbs "quqd8_3132" "# cQUQD8Abs3x1x3x2";
   Row [3; 1; 3; 3] VAbs "quqd8_3133" "# cQUQD8Abs3x1x3x3";
   Row [3; 2; 1; 1] VAbs "quqd8_3211" "# cQUQD8Abs3x2x1x1";
   Row [3; 2; 1; 2] VAbs "quqd8_3212" "# cQUQD8Abs3x2x1x2";
   Row [3; 2; 1; 3] VAbs "quqd8_3213" "# cQUQD8Abs3x2x1x3";
   Row [3; 2; 2; 1] VAbs "quqd8_3221" "# cQUQD8Abs3x2x2x1";
   Row [3; 2; 2; 2] VAbs "quqd8_3222" "# cQUQD8Abs3x2x2x2";
   Row [3; 2; 2; 3] VAbs "quqd8_3223" "# cQUQD8Abs3x2x2x3";
   Row [3; 2; 3; 1] VAbs "quqd8_3231" "# cQUQD8Abs3x2x3x1";
   Row [3; 2; 3; 2] VAbs "quqd8_3232" "# cQUQD8Abs3x2x3x2";
   Row [3; 2; 3; 3] VAbs "quqd8_3233" "# cQUQD8Abs3x2x3x3";
   Row [3; 3; 1; 1] VAbs "quqd8_3311" "# cQUQD8Abs3x3x1x1";
   Row [3; 3; 1; 2] VAbs "quqd8_3312" "# cQUQD8Abs3x3x1x2";
   Row [3; 3; 1; 3] VAbs "quqd8_3313" "# cQUQD8Abs3x3x1x3";
   Row [3; 3; 2; 1] VAbs "quqd8_3321" "# cQUQD8Abs3x3x2x1";
   Row [3; 3; 2; 2] VAbs "quqd8_3322" "# cQUQD8Abs3x3x2x2";
   Row [3; 3; 2; 3] VAbs "quqd8_3323" "# cQUQD8Abs3x3x2x3";
   Row [3; 3; 3; 1] VAbs "quqd8_3331" "# cQUQD8Abs3x3x3x1";
   Row [3; 3; 3; 2] VAbs "quqd8_3332" "# cQUQD8Abs3x3x3x2";
   Row [3; 3; 3; 3] VAbs "quqd8_3333" "# cQUQD8Abs3x3x3x3"].
(** smeftsim.py 4850-4932 *)
Definition rowsB_FRBlock76 : list row :=
  [Row [1; 1; 1; 1] VAngle "quqd8_1111" "# cQUQD8Ph1x1x1x1";
   Row [1; 1; 1; 2] VAngle "quqd8_1112" "# cQUQD8Ph1x1x1x2";
   Row [1; 1; 1; 3] VAngle "quqd8_1113" "# cQUQD8Ph1x1x1x3";
   Row [1; 1; 2; 1] VAngle "quqd8_1121" "# cQUQD8Ph1x1x2x1";
   Row [1; 1; 2; 2] VAngle "quqd8_1122" "# cQUQD8Ph1x1x2x2";
   Row [1; 1; 2; 3] VAngle "quqd8_1123" "# cQUQD8Ph1x1x2x3";
   Row [1; 1; 3; 1] VAngle "quqd8_1131" "# cQUQD8Ph1x1x3x1";
   Row [1; 1; 3; 2] VAngle "quqd8_1132" "# cQUQD8Ph1x1x3x2";
   Row [1; 1; 3; 3] VAngle "quqd8_1133" "# cQUQD8Ph1x1x3x3";
   Row [1; 2; 1; 1] VAngle "quqd8_1211" "# cQUQD8Ph1x2x1x1";
   Row [1; 2; 1; 2] VAngle "quqd8_1212" "# cQUQD8Ph1x2x1x2";
   Row [1; 2; 1; 3] VAngle "quqd8_1213" "# cQUQD8Ph1x2x1x3";
   Row [1; 2; 2; 1] VAngle "quqd8_1221" "# cQUQD8Ph1x2x2x1";
   Row [1; 2; 2; 2] VAngle "quqd8_1222" "# cQUQD8Ph1x2x2x2";
   Row [1; 2; 2; 3] VAngle "quqd8_1223" "# cQUQD8Ph1x2x2x3";
   Row [1; 2; 3; 1] VAngle "quqd8_1231" "# cQUQD8Ph1x2x3x1";
   Row [1; 2; 3; 2] VAngle "quqd8_1232" "# cQUQD8Ph1x2x3x2";
   Row [1; 2; 3; 3] VAngle "quqd8_1233" "# cQUQD8Ph1x2x3x3";
   Row [1; 3; 1; 1] VAngle "quqd8_1311" "# cQUQD8Ph1x3x1x1";
   Row [1; 3; 1; 2] VAngle "quqd8_1312" "# cQUQD8Ph1x3x1x2";
   Row [1; 3; 1; 3] VAngle "quqd8_1313" "# cQUQD8Ph1x3x1x3";
   Row [1; 3; 2; 1] VAngle "quqd8_1321" "# cQUQD8Ph1x3x2x1";
   Row [1; 3; 2; 2] VAngle "quqd8_1322" "# cQUQD8Ph1x3x2x2";
   Row [1; 3; 2; 3] VAngle "quqd8_1323" "# cQUQD8Ph1x3x2x3";
   Row [1; 3; 3; 1] VAngle "quqd8_1331" "# cQUQD8Ph1x3x3x1";
   Row [1; 3; 3; 2] VAngle "quqd8_1332" "# cQUQD8Ph1x3x3x2";
   Row [1; 3; 3; 3] VAngle "quqd8_1333" "# cQUQD8Ph1x3x3x3";
   Row [2; 1; 1; 1] VAngle "quqd8_2111" "# cQUQD8Ph2x1x1x1";
   Row [2; 1; 1; 2] VAngle "quqd8_2112" "# cQUQD8Ph2x1x1x2";
   Row [2; 1; 1; 3] VAngle "quqd8_2113" "# cQUQD8Ph2x1x1x3";
   Row [2; 1; 2; 1] VAngle "quqd8_2121" "# cQUQD8Ph2x1x2x1";
   Row [2; 1; 2; 2] VAngle "quqd8_2122" "# cQUQD8Ph2x1x2x2";
   Row [2; 1; 2; 3] VAngle "quqd8_2123" "# cQUQD8Ph2x1x2x3";
   Row [2; 1; 3; 1] VAngle "quqd8_2131" "# cQUQD8Ph2x1x3x1";
   Row [2; 1; 3; 2] VAngle "quqd8_2132" "# cQUQD8Ph2x1x3x2";
   Row [2; 1; 3; 3] VAngle "quqd8_2133" "# cQUQD8Ph2x1x3x3";
   Row [2; 2; 1; 1] VAngle "quqd8_2211" "# cQUQD8Ph2x2x1x1";
   Row [2; 2; 1; 2] VAngle "quqd8_2212" "# cQUQD8Ph2x2x1x2";
   Row [2; 2; 1; 3] VAngle "quqd8_2213" "# cQUQD8Ph2x2x1x3";
   Row [2; 2; 2; 1] VAngle "quqd8_2221" "# cQUQD8Ph2x2x2x1";
   Row [2; 2; 2; 2] VAngle "quqd8_2222" "# cQUQD8Ph2x2x2x2";
   Row [2; 2; 2; 3] VAngle "quqd8_2223" "# cQUQD8Ph2x2x2x3";
   Row [2; 2; 3; 1] VAngle "quqd8_2231" "# cQUQD8Ph2x2x3x1";
   Row [2; 2; 3; 2] VAngle "quqd8_2232" "# cQUQD8Ph2x2x3x2";
   Row [2; 2; 3; 3] VAngle "quqd8_2233" "# cQUQD8Ph2x2x3x3";
   Row [2; 3; 1; 1] VAngle "quqd8_2311" "# cQUQD8Ph2x3x1x1";
   Row [2; 3; 1; 2] VAngle "quqd8_2312" "# cQUQD8Ph2x3x1x2";
   Row [2; 3; 1; 3] VAngle "quqd8_2313" "# cQUQD8Ph2x3x1x3";
   Row [2; 3; 2; 1] VAngle "quqd8_2321" "# cQUQD8Ph2x3x2x1";
   Row [2; 3; 2; 2] VAngle "quqd8_2322" "# cQUQD8Ph2x3x2x2";
   Row [2; 3; 2; 3] VAngle "quqd8_2323" "# cQUQD8Ph2x3x2x3";
   Row [2; 3; 3; 1] VAngle "quqd8_2331" "# cQUQD8Ph2x3x3x1";
   Row [2; 3; 3; 2] VAngle "quqd8_2332" "# cQUQD8Ph2x3x3x2";
   Row [2; 3; 3; 3] VAngle "quqd8_2333" "# cQUQD8Ph2x3x3x3";
   Row [3; 1; 1; 1] VAngle "quqd8_3111" "# cQUQD8Ph3x1x1x1";
   Row [3; 1; 1; 2] VAngle "quqd8_3112" "# cQUQD8Ph3x1x1x2";
   Row [3; 1; 1; 3] VAngle "quqd8_3113" "# cQUQD8Ph3x1x1x3";
   Row [3; 1; 2; 1] VAngle "quqd8_3121" "# cQUQD8Ph3x1x2x1";
   Row [3; 1; 2; 2] VAngle "quqd8_3122" "# cQUQD8Ph3x1x2x2";
   Row [3; 1; 2; 3] VAngle "quqd8_3123" "# cQUQD8Ph3x1x2x3";
   Row [3; 1; 3; 1] VAngle "quqd8_3131" "# cQUQD8Ph3x1x3x1";
   Row [3; 1; 3; 2] VAngle "quqd8_3132" "# cQUQD8Ph3x1x3x2";
   Row [3; 1; 3; 3] VAngle "quqd8_3133" "# cQUQD8Ph3x1x3x3";
   Row [3; 2; 1; 1] VAngle "quqd8_3211" "# cQUQD8Ph3x2x1x1";
   Row [3; 2; 1; 2] VAngle "quqd8_3212" "# cQUQD8Ph3x2x1x2";
   Row [3; 2; 1; 3] VAngle "quqd8_3213" "# cQUQD8Ph3x2x1x3";
   Row [3; 2; 2; 1] VAngle "quqd8_3221" "# cQUQD8Ph3x2x2x1";
   Row [3; 2; 2; 2] VAngle "quqd8_3222" "# cQUQD8Ph3x2x2x2";
   Row [3; 2; 2; 3] VAngle "quqd8_3223" "# cQUQD8Ph3x2x2x3";
   Row [3; 2; 3; 1] VAngle "quqd8_3231" "# cQUQD8Ph3x2x3x1";
   Row [3; 2; 3; 2] VAngle "quqd8_3232" "# cQUQD8Ph3x2x3x2";
   Row [3; 2; 3; 3] VAngle "quqd8_3233" "# cQUQD8Ph3x2x3x3";
   Row [3; 3; 1; 1] VAngle "quqd8_3311" "# cQUQD8Ph3x3x1x1";
   Row [3; 3; 1; 2] VAngle "quqd8_3312" "# cQUQD8Ph3x3x1x2";
   Row [3; 3; 1; 3] VAngle "quqd8_3313" "# cQUQD8Ph3x3x1x3";
   Row [3; 3; 2; 1] VAngle "quqd8_3321" "# cQUQD8Ph3x3x2x1";
   Row [3; 3; 2; 2] VAngle "quqd8_3322" "# cQUQD8Ph3x3x2x2";
   Row [3; 3; 2; 3] VAngle "quqd8_3323" "# cQUQD8Ph3x3x2x3";
   Row [3; 3; 3; 1] VAngle "quqd8_3331" "# cQUQD8Ph3x3x3x1";
   Row [3; 3; 3; 2] VAngle "quqd8_3332" "# cQUQD8Ph3x3x3x2";
   Row [3; 3; 3; 3] VAngle "quqd8_3333" "# cQUQD8Ph3x3x3x3"].
(** smeftsim.py 4934-5016 *)
Definition rowsB_FRBlock78 : list row :=
  [Row [1; 1; 1; 1] VAbs "lequ1_1111" "# clequ1Abs1x1x1x1";
   Row [1; 1; 1; 2] VAbs "lequ1_1112" "# clequ1Abs1x1x1x2";
   Row [1; 1; 1; 3] VAbs "lequ1_1113" "# clequ1Abs1x1x1x3";
   Row [1; 1; 2; 1] VAbs "lequ1_1121" "# clequ1Abs1x1x2x1";
   Row [1; 1; 2; 2] VAbs "lequ1_1122" "# clequ1Abs1x1x2x2";
   Row [1; 1; 2; 3] VAbs "lequ1_1123" "# clequ1Abs1x1x2x3";
   Row [1; 1; 3; 1] VAbs "lequ1_1131" "# clequ1Abs1x1x3x1";
   Row [1; 1; 3; 2] VAbs "lequ1_1132" "# clequ1Abs1x1x3x2";
   Row [1; 1; 3; 3] VAbs "lequ1_1133" "# clequ1Abs1x1x3x3";
   Row [1; 2; 1; 1] VAbs "lequ1_1211" "# clequ1Abs1x2x1x1";
   Row [1; 2; 1; 2] VAbs "lequ1_1212" "# clequ1Abs1x2x1x2";
   Row [1; 2; 1; 3] VAbs "lequ1_1213" "# clequ1Abs1x2x1x3";
   Row [1; 2; 2; 1] VAbs "lequ1_1221" "# clequ1Abs1x2x2x1";
   Row [1; 2; 2; 2] VAbs "lequ1_1222" "# clequ1Abs1x2x2x2";
   Row [1; 2; 2; 3] VAbs "lequ1_1223" "# clequ1Abs1x2x2x3";
   Row [1; 2; 3; 1] VAbs "lequ1_1231" "# clequ1Abs1x2x3x1";
   Row [1; 2; 3; 2] VAbs "lequ1_1232" "# clequ1Abs1x2x3x2";
   Row [1; 2; 3; 3] VAbs "lequ1_1233" "# clequ1Abs1x2x3x3";
   Row [1; 3; 1; 1] VAbs "lequ1_1311" "# clequ1Abs1x3x1x1";
   Row [1; 3; 1; 2] VAbs "lequ1_1312" "# clequ1Abs1x3x1x2";
   Row [1; 3; 1; 3] VAbs "lequ1_1313" "# clequ1Abs1x3x1x3";
   Row [1; 3; 2; 1] VAbs "lequ1_1321" "# clequ1Abs1x3x2x1";
   Row [1; 3; 2; 2] VAbs "lequ1_1322" "# clequ1Abs1x3x2x2";
   Row [1; 3; 2; 3] VAbs "lequ1_1323" "# clequ1Abs1x3x2x3";
   Row [1; 3; 3; 1] VAbs "lequ1_1331" "# clequ1Abs1x3x3x1";
   Row [1; 3; 3; 2] VAbs "lequ1_1332" "# clequ1Abs1x3x3x2";
   Row [1; 3; 3; 3] VAbs "lequ1_1333" "# clequ1Abs1x3x3x3";
   Row [2; 1; 1; 1] VAbs "lequ1_2111" "# clequ1Abs2x1x1x1";
   Row [2; 1; 1; 2] VAbs "lequ1_2112" "# clequ1Abs2x1x1x2";
   Row [2; 1; 1; 3] VAbs "lequ1_2113" "# clequ1Abs2x1x1x3";
   Row [2; 1; 2; 1] VAbs "lequ1_2121" "# clequ1Abs2x1x2x1";
   Row [2; 1; 2; 2] VAbs "lequ1_2122" "# clequ1Abs2x1x2x2";
   Row [2; 1; 2; 3] VAbs "lequ1_2123" "# clequ1Abs2x1x2x3";
   Row [2; 1; 3; 1] VAbs "lequ1_2131" "# clequ1Abs2x1x3x1";
   Row [2; 1; 3; 2] VAbs "lequ1_2132" "# clequ1Abs2x1x3x2";
   Row [2; 1; 3; 3] VAbs "lequ1_2133" "# clequ1Abs2x1x3x3";
   Row [2; 2; 1; 1] VAbs "lequ1_2211" "# clequ1Abs2x2x1x1";
   Row [2; 2; 1; 2] VAbs "lequ1_2212" "# clequ1Abs2x2x1x2";
   Row [2; 2; 1; 3] VAbs "lequ1_2213" "# clequ1Abs2x2x1x3";
   Row [2; 2; 2; 1] VAbs "lequ1_2221" "# clequ1Abs2x2x2x1";
   Row [2; 2; 2; 2] VAbs "lequ1_2222" "# clequ1Abs2x2x2x2";
   Row [2; 2; 2; 3] VAbs "lequ1_2223" "# clequ1Abs2x2x2x3";
   Row [2; 2; 3; 1] VAbs "lequ1_2231" "# clequ1Abs2x2x3x1";
   Row [2; 2; 3; 2] VAbs "lequ1_2232" "# clequ1Abs2x2x3x2";
   Row [2; 2; 3; 3] VAbs "lequ1_2233" "# clequ1Abs2x2x3x3";
   Row [2; 3; 1; 1] VAbs "lequ1_2311" "# clequ1Abs2x3x1x1";
   Row [2; 3; 1; 2] VAbs "lequ1_2312" "# clequ1Abs2x3x1x2";
   Row [2; 3; 1; 3] VAbs "lequ1_2313" "# clequ1Abs2x3x1x3";
   Row [2; 3; 2; 1] VAbs "lequ1_2321" "# clequ1Abs2x3x2x1";
   Row [2; 3; 2; 2] VAbs "lequ1_2322" "# clequ1Abs2x3x2x2";
   Row [2; 3; 2; 3] VAbs "lequ1_2323" "# clequ1Abs2x3x2x3";
   Row [2; 3; 3; 1] VAbs "lequ1_2331" "# clequ1Abs2x3x3x1";
   Row [2; 3; 3; 2] VAbs "lequ1_2332" "# clequ1Abs2x3x3x2";
   Row [2; 3; 3; 3] VAbs "lequ1_2333" "# clequ1Abs2x3x3x3";
   Row [3; 1; 1; 1] VAbs "lequ1_3111" "# clequ1Abs3x1x1x1";
   Row [3; 1; 1; 2] VAbs "lequ1_3112" "# clequ1Abs3x1x1x2";
   Row [3; 1; 1; 3] VAbs "lequ1_3113" "# clequ1Abs3x1x1x3";
   Row [3; 1; 2; 1] VAbs "lequ1_3121" "# clequ1Abs3x1x2x1";
   Row [3; 1; 2; 2] VAbs "lequ1_3122" "# clequ1Abs3x1x2x2";
   Row [3; 1; 2; 3] VAbs "lequ1_3123" "# clequ1Abs3x1x2x3";
   Row [3; 1; 3; 1] VAbs "lequ1_3131" "# clequ1Abs3x1x3x1";
   Row [3; 1; 3; 2] VAbs "lequ1_3132" "# clequ1Abs3x1x3x2";
   Row [3; 1; 3; 3] VAbs "lequ1_3133" "# clequ1Abs3x1x3x3";
   Row [3; 2; 1; 1] VAbs "lequ1_3211" "# clequ1Abs3x2x1x1";
   Row [3; 2; 1; 2] VAbs "lequ1_3212" "# clequ1Abs3x2x1x2";
   Row [3; 2; 1; 3] VAbs "lequ1_3213" "# clequ1Abs3x2x1x3";
   Row [3; 2; 2; 1] VAbs "lequ1_3221" "# clequ1Abs3x2x2x1";
   Row [3; 2; 2; 2] VAbs "lequ1_3222" "# clequ1Abs3x2x2x2";
   Row [3; 2; 2; 3] VAbs "lequ1_3223" "# clequ1Abs3x2x2x3";
   Row [3; 2; 3; 1] VAbs "lequ1_3231" "# clequ1Abs3x2x3x1";
   Row [3; 2; 3; 2] VAbs "lequ1_3232" "# clequ1Abs3x2x3x2";
   Row [3; 2; 3; 3] VAbs "lequ1_3233" "# clequ1Abs3x2x3x3";
   Row [3; 3; 1; 1] VAbs "lequ1_3311" "# clequ1Abs3x3x1x1";
   Row [3; 3; 1; 2] VAbs "lequ1_3312" "# clequ1Abs3x3x1x2";
   Row [3; 3; 1; 3] VAbs "lequ1_3313" "# clequ1Abs3x3x1x3";
   Row [3; 3; 2; 1] VAbs "lequ1_3321" "# clequ1Abs3x3x2x1";
   Row [3; 3; 2; 2] VAbs "lequ1_3322" "# clequ1Abs3x3x2x2";
   Row [3; 3; 2; 3] VAbs "lequ1_3323" "# clequ1Abs3x3x2x3";
   Row [3; 3; 3; 1] VAbs "lequ1_3331" "# clequ1Abs3x3x3x1";
   Row [3; 3; 3; 2] VAbs "lequ1_3332" "# clequ1Abs3x3x3x2";
   Row [3; 3; 3; 3] VAbs "lequ1_3333" "# clequ1Abs3x3x3x3"].
(** smeftsim.py 5018-5100 *)
Definition rowsB_FRBlock79 : list row :=
  [Row [1; 1; 1; 1] VAngle "lequ1_1111" "# clequ1Ph1x1x1x1";
   Row [1; 1; 1; 2] VAngle "lequ1_1112" "# clequ1Ph1x1x1x2";
   Row [1; 1; 1; 3] VAngle "lequ1_1113" "# clequ1Ph1x1x1x3";
   Row [1; 1; 2; 1] VAngle "lequ1_1121" "# clequ1Ph1x1x2x1";
   Row [1; 1; 2; 2] VAngle "lequ1_1122" "# clequ1Ph1x1x2x2";
   Row [1; 1; 2; 3] VAngle "lequ1_1123" "# clequ1Ph1x1x2x3";
   Row [1; 1; 3; 1] VAngle "lequ1_1131" "# clequ1Ph1x1x3x1";
   Row [1; 1; 3; 2] VAngle "lequ1_1132" "# clequ1Ph1x1x3x2";
   Row [1; 1; 3; 3] VAngle "lequ1_1133" "# clequ1Ph1x1x3x3";
   Row [1; 2; 1; 1] VAngle "lequ1_1211" "# clequ1Ph1x2x1x1";
   Row [1; 2; 1; 2] VAngle "lequ1_1212" "# clequ1Ph1x2x1x2";
   Row [1; 2; 1; 3] VAngle "lequ1_1213" "# clequ1Ph1x2x1x3";
   Row [1; 2; 2; 1] VAngle "lequ1_1221" "# clequ1Ph1x2x2x1";
   Row [1; 2; 2; 2] VAngle "lequ1_1222" "# clequ1Ph1x2x2x2";
   Row [1; 2; 2; 3] VAngle "lequ1_1223" "# clequ1Ph1x2x2x3";
   Row [1; 2; 3; 1] VAngle "lequ1_1231" "# clequ1Ph1x2x3x1";
   Row [1; 2; 3; 2] VAngle "lequ1_1232" "# clequ1Ph1x2x3x2";
   Row [1; 2; 3; 3] VAngle "lequ1_1233" "# clequ1Ph1x2x3x3";
   Row [1; 3; 1; 1] VAngle "lequ1_1311" "# clequ1Ph1x3x1x1";
   Row [1; 3; 1; 2] VAngle "lequ1_1312" "# clequ1Ph1x3x1x2";
   Row [1; 3; 1; 3] VAngle "lequ1_1313" "# clequ1Ph1x3x1x3";
   Row [1; 3; 2; 1] VAngle "lequ1_1321" "# clequ1Ph1x3x2x1";
   Row [1; 3; 2; 2] VAngle "lequ1_1322" "# clequ1Ph1x3x2x2";
   Row [1; 3; 2; 3] VAngle "lequ1_1323" "# clequ1Ph1x3x2x3";
   Row [1; 3; 3; 1] VAngle "lequ1_1331" "# clequ1Ph1x3x3x1";
   Row [1; 3; 3; 2] VAngle "lequ1_1332" "# clequ1Ph1x3x3x2";
   Row [1; 3; 3; 3] VAngle "lequ1_1333" "# clequ1Ph1x3x3x3";
   Row [2; 1; 1; 1] VAngle "lequ1_2111" "# clequ1Ph2x1x1x1";
   Row [2; 1; 1; 2] VAngle "lequ1_2112" "# clequ1Ph2x1x1x2";
   Row [2; 1; 1; 3] VAngle "lequ1_2113" "# clequ1Ph2x1x1x3";
   Row [2; 1; 2; 1] VAngle "lequ1_2121" "# clequ1Ph2x1x2x1";
   Row [2; 1; 2; 2] VAngle "lequ1_2122" "# clequ1Ph2x1x2x2";
   Row [2; 1; 2; 3] VAngle "lequ1_2123" "# clequ1Ph2x1x2x3";
   Row [2; 1; 3; 1] VAngle "lequ1_2131" "# clequ1Ph2x1x3x1";
   Row [2; 1; 3; 2] VAngle "lequ1_2132" "# clequ1Ph2x1x3x2";
   Row [2; 1; 3; 3] VAngle "lequ1_2133" "# clequ1Ph2x1x3x3";
   Row [2; 2; 1; 1] VAngle "lequ1_2211" "# clequ1Ph2x2x1x1";
   Row [2; 2; 1; 2] VAngle "lequ1_2212" "# clequ1Ph2x2x1x2";
   Row [2; 2; 1; 3] VAngle "lequ1_2213" "# clequ1Ph2x2x1x3";
   Row [2; 2; 2; 1] VAngle "lequ1_2221" "# clequ1Ph2x2x2x1";
   Row [2; 2; 2; 2] VAngle "lequ1_2222" "# clequ1Ph2x2x2x2";
   Row [2; 2; 2; 3] VAngle "lequ1_2223" "# clequ1Ph2x2x2x3";
   Row [2; 2; 3; 1] VAngle "lequ1_2231" "# clequ1Ph2x2x3x1";
   Row [2; 2; 3; 2] VAngle "lequ1_2232" "# clequ1Ph2x2x3x2";
   Row [2; 2; 3; 3] VAngle "lequ1_2233" "# clequ1Ph2x2x3x3";
   Row [2; 3; 1; 1] VAngle "lequ1_2311" "# clequ1Ph2x3x1x1";
   Row [2; 3; 1; 2] VAngle "lequ1_2312" "# clequ1Ph2x3x1x2";
   Row [2; 3; 1; 3] VAngle "lequ1_2313" "# clequ1Ph2x3x1x3";
   Row [2; 3; 2; 1] VAngle "lequ1_2321" "# clequ1Ph2x3x2x1";
   Row [2; 3; 2; 2] VAngle "lequ1_2322" "# clequ1Ph2x3x2x2";
   Row [2; 3; 2; 3] VAngle "lequ1_2323" "# clequ1Ph2x3x2x3";
   Row [2; 3; 3; 1] VAngle "lequ1_2331" "# clequ1Ph2x3x3x1";
   Row [2; 3; 3; 2] VAngle "lequ1_2332" "# clequ1Ph2x3x3x2";
   Row [2; 3; 3; 3] VAngle "lequ1_2333" "# clequ1Ph2x3x3x3";
   Row [3; 1; 1; 1] VAngle "lequ1_3111" "# clequ1Ph3x1x1x1";
   Row [3; 1; 1; 2] VAngle "lequ1_3112" "# clequ1Ph3x1x1x2";
   Row [3; 1; 1; 3] VAngle "lequ1_3113" "# clequ1Ph3x1x1x3";
   Row [3; 1; 2; 1] VAngle "lequ1_3121" "# clequ1Ph3x1x2x1";
   Row [3; 1; 2; 2] VAngle "lequ1_3122" "# clequ1Ph3x1x2x2";
   Row [3; 1; 2; 3] VAngle "lequ1_3123" "# clequ1Ph3x1x2x3";
   Row [3; 1; 3; 1] VAngle "lequ1_3131" "# clequ1Ph3x1x3x1";
   Row [3; 1; 3; 2] VAngle "lequ1_3132" "# clequ1Ph3x1x3x2";
   Row [3; 1; 3; 3] VAngle "lequ1_3133" "# clequ1Ph3x1x3x3";
   Row [3; 2; 1; 1] VAngle "lequ1_3211" "# clequ1Ph3x2x1x1";
   Row [3; 2; 1; 2] VAngle "lequ1_3212" "# clequ1Ph3x2x1x2";
   Row [3; 2; 1; 3] VAngle "lequ1_3213" "# clequ1Ph3x2x1x3";
   Row [3; 2; 2; 1] VAngle "lequ1_3221" "# clequ1Ph3x2x2x1";
   Row [3; 2; 2; 2] VAngle "lequ1_3222" "# clequ1Ph3x2x2x2";
   Row [3; 2; 2; 3] VAngle "lequ1_3223" "# clequ1Ph3x2x2x3";
   Row [3; 2; 3; 1] VAngle "lequ1_3231" "# clequ1Ph3x2x3x1";
   Row [3; 2; 3; 2] VAngle "lequ1_3232" "# clequ1Ph3x2x3x2";
   Row [3; 2; 3; 3] VAngle "lequ1_3233" "# clequ1Ph3x2x3x3";
   Row [3; 3; 1; 1] VAngle "lequ1_3311" "# clequ1Ph3x3x1x1";
   Row [3; 3; 1; 2] VAngle "lequ1_3312" "# clequ1Ph3x3x1x2";
   Row [3; 3; 1; 3] VAngle "lequ1_3313" "# clequ1Ph3x3x1x3";
   Row [3; 3; 2; 1] VAngle "lequ1_3321" "# clequ1Ph3x3x2x1";
   Row [3; 3; 2; 2] VAngle "lequ1_3322" "# clequ1Ph3x3x2x2";
   Row [3; 3; 2; 3] VAngle "lequ1_3323" "# clequ1Ph3x3x2x3";
   Row [3; 3; 3; 1] VAngle "lequ1_3331" "# clequ1Ph3x3x3x1";
   Row [3; 3; 3; 2] VAngle "lequ1_3332" "# clequ1Ph3x3x3x2";
   Row [3; 3; 3; 3] VAngle "lequ1_3333" "# clequ1Ph3x3x3x3"].
(** smeftsim.py 5102-5112 *)
Definition rowsB_FRBlock8 : list row :=
  [Row [1; 1] VAbs "dphi_11" "# cdHAbs1x1";
   Row [1; 2] VAbs "dphi_12" "# cdHAbs1x2";
   Row [1; 3] VAbs "dphi_13" "# cdHAbs1x3";
   Row [2; 1] VAbs "dphi_21" "# cdHAbs2x1";
   Row [2; 2] VAbs "dphi_22" "# cdHAbs2x2";
   Row [2; 3] VAbs "dphi_23" "# cdHAbs2x3";
   Row [3; 1] VAbs "dphi_31" "# cdHAbs3x1";
   Row [3; 2] VAbs "dphi_32" "# cdHAbs3x2";
   Row [3; 3] VAbs "dphi_33" "# cdHAbs3x3"].
(** smeftsim.py 5114-5196 *)
Definition rowsB_FRBlock81 : list row :=
  [Row [1; 1; 1; 1] VAbs "lequ3_1111" "# cLeQu3Abs1x1x1x1";
   Row [1; 1; 1; 2] VAbs "lequ3_1112" "# cLeQu3Abs1x1x1x2";
   Row [1; 1; 1; 3] VAbs "lequ3_1113" "# cLeQu3Abs1x1x1x3";
   Row [1; 1; 2; 1] VAbs "lequ3_1121" "# cLeQu3Abs1x1x2x1";
   Row [1; 1; 2; 2] VAbs "lequ3_1122" "# cLeQu3Abs1x1x2x2";
   Row [1; 1; 2; 3] VAbs "lequ3_1123" "# cLeQu3Abs1x1x2x3";
   Row [1; 1; 3; 1] VAbs "lequ3_1131" "# cLeQu3Abs1x1x3x1";
   Row [1; 1; 3; 2] VAbs "lequ3_1132" "# cLeQu3Abs1x1x3x2";
   Row [1; 1; 3; 3] VAbs "lequ3_1133" "# cLeQu3Abs1x1x3x3";
   Row [1; 2; 1; 1] VAbs "lequ3_1211" "# cLeQu3Abs1x2x1x1";
   Row [1; 2; 1; 2] VAbs "lequ3_1212" "# cLeQu3Abs1x2x1x2";
   Row [1; 2; 1; 3] VAbs "lequ3_1213" "# cLeQu3Abs1x2x1x3";
   Row [1; 2; 2; 1] VAbs "lequ3_1221" "# cLeQu3Abs1x2x2x1";
   Row [1; 2; 2; 2] VAbs "lequ3_1222" "# cLeQu3Abs1x2x2x2";
   Row [1; 2; 2; 3] VAbs "lequ3_1223" "# cLeQu3Abs1x2x2x3";
   Row [1; 2; 3; 1] VAbs "lequ3_1231" "# cLeQu3Abs1x2x3x1";
   Row [1; 2; 3; 2] VAbs "lequ3_1232" "# cLeQu3Abs1x2x3x2";
   Row [1; 2; 3; 3] VAbs "lequ3_1233" "# cLeQu3Abs1x2x3x3";
   Row [1; 3; 1; 1] VAbs "lequ3_1311" "# cLeQu3Abs1x3x1x1";
   Row [1; 3; 1; 2] VAbs "lequ3_1312" "# cLeQu3Abs1x3x1x2";
   Row [1; 3; 1; 3] VAbs "lequ3_1313" "# cLeQu3Abs1x3x1x3";
   Row [1; 3; 2; 1] VAbs "lequ3_1321" "# cLeQu3Abs1x3x2x1";
   Row [1; 3; 2; 2] VAbs "lequ3_1322" "# cLeQu3Abs1x3x2x2";
   Row [1; 3; 2; 3] VAbs "lequ3_1323" "# cLeQu3Abs1x3x2x3";
   Row [1; 3; 3; 1] VAbs "lequ3_1331" "# cLeQu3Abs1x3x3x1";
   Row [1; 3; 3; 2] VAbs "lequ3_1332" "# cLeQu3Abs1x3x3x2";
   Row [1; 3; 3; 3] VAbs "lequ3_1333" "# cLeQu3Abs1x3x3x3";
   Row [2; 1; 1; 1] VAbs "lequ3_2111" "# cLeQu3Abs2x1x1x1";
   Row [2; 1; 1; 2] VAbs "lequ3_2112" "# cLeQu3Abs2x1x1x2";
   Row [2; 1; 1; 3] VAbs "lequ3_2113" "# cLeQu3Abs2x1x1x3";
   Row [2; 1; 2; 1] VAbs "lequ3_2121" "# cLeQu3Abs2x1x2x1";
   Row [2; 1; 2; 2] VAbs "lequ3_2122" "# cLeQu3Abs2x1x2x2";
   Row [2; 1; 2; 3] VAbs "lequ3_2123" "# cLeQu3Abs2x1x2x3";
   Row [2; 1; 3; 1] VAbs "lequ3_2131" "# cLeQu3Abs2x1x3x1";
   Row [2; 1; 3; 2] VAbs "lequ3_2132" "# cLeQu3Abs2x1x3x2";
   Row [2; 1; 3; 3] VAbs "lequ3_2133" "# cLeQu3Abs2x1x3x3";
   Row [2; 2; 1; 1] VAbs "lequ3_2211" "# cLeQu3Abs2x2x1x1";
   Row [2; 2; 1; 2] VAbs "lequ3_2212" "# cLeQu3Abs2x2x1x2";
   Row [2; 2; 1; 3] VAbs "lequ3_2213" "# cLeQu3Abs2x2x1x3";
   Row [2; 2; 2; 1] VAbs "lequ3_2221" "# cLeQu3Abs2x2x2x1";
   Row [2; 2; 2; 2] VAbs "lequ3_2222" "# cLeQu3Abs2x2x2x2";
   Row [2; 2; 2; 3] VAbs "lequ3_2223" "# cLeQu3Abs2x2x2x3";
   Row [2; 2; 3; 1] VAbs "lequ3_2231" "# cLeQu3Abs2x2x3x1";
   Row [2; 2; 3; 2] VAbs "lequ3_2232" "# cLeQu3Abs2x2x3x2";
   Row [2; 2; 3; 3] VAbs "lequ3_2233" "# cLeQu3Abs2x2x3x3";
   Row [2; 3; 1; 1] VAbs "lequ3_2311" "# cLeQu3Abs2x3x1x1";
   Row [2; 3; 1; 2] VAbs "lequ3_2312" "# cLeQu3Abs2x3x1x2";
   Row [2; 3; 1; 3] VAbs "lequ3_2313" "# cLeQu3Abs2x3x1x3";
   Row [2; 3; 2; 1] VAbs "lequ3_2321" "# cLeQu3Abs2x3x2x1";
   Row [2; 3; 2; 2] VAbs "lequ3_2322" "# cLeQu3Abs2x3x2x2";
   Row [2; 3; 2; 3] VAbs "lequ3_2323" "# cLeQu3Abs2x3x2x3";
   Row [2; 3; 3; 1] VAbs "lequ3_2331" "# cLeQu3Abs2x3x3x1";
   Row [2; 3; 3; 2] VAbs "lequ3_2332" "# cLeQu3Abs2x3x3x2";
   Row [2; 3; 3; 3] VAbs "lequ3_2333" "# cLeQu3Abs2x3x3x3";
   Row [3; 1; 1; 1] VAbs "lequ3_3111" "# cLeQu3Abs3x1x1x1";
   Row [3; 1; 1; 2] VAbs "lequ3_3112" "# cLeQu3Abs3x1x1x2";
   Row [3; 1; 1; 3] VAbs "lequ3_3113" "# cLeQu3Abs3x1x1x3";
   Row [3; 1; 2; 1] VAbs "lequ3_3121" "# cLeQu3Abs3x1x2x1";
   Row [3; 1; 2; 2] VAbs "lequ3_3122" "# cLeQu3Abs3x1x2x2";
   Row [3; 1; 2; 3] VAbs "lequ3_3123" "# cLeQu3Abs3x1x2x3";
   Row [3; 1; 3; 1] VAbs "lequ3_3131" "# cLeQu3Abs3x1x3x1";
   Row [3; 1; 3; 2] VAbs "lequ3_3132" "# cLeQu3Abs3x1x3x2";
   Row [3; 1; 3; 3] VAbs "lequ3_3133" "# cLeQu3Abs3x1x3x3";
   Row [3; 2; 1; 1] VAbs "lequ3_3211" "# cLeQu3Abs3x2x1x1";
   Row [3; 2; 1; 2] VAbs "lequ3_3212" "# cLeQu3Abs3x2x1x2";
   Row [3; 2; 1; 3] VAbs "lequ3_3213" "# cLeQu3Abs3x2x1x3";
   Row [3; 2; 2; 1] VAbs "lequ3_3221" "# cLeQu3Abs3x2x2x1";
   Row [3; 2; 2; 2] VAbs "lequ3_3222" "# cLeQu3Abs3x2x2x2";
   Row [3; 2; 2; 3] VAbs "lequ3_3223" "# cLeQu3Abs3x2x2x3";
   Row [3; 2; 3; 1] VAbs "lequ3_3231" "# cLeQu3Abs3x2x3x1";
   Row [3; 2; 3; 2] VAbs "lequ3_3232" "# cLeQu3Abs3x2x3x2";
   Row [3; 2; 3; 3] VAbs "lequ3_3233" "# cLeQu3Abs3x2x3x3";
   Row [3; 3; 1; 1] VAbs "lequ3_3311" "# cLeQu3Abs3x3x1x1";
   Row [3; 3; 1; 2] VAbs "lequ3_3312" "# cLeQu3Abs3x3x1x2";
   Row [3; 3; 1; 3] VAbs "lequ3_3313" "# cLeQu3Abs3x3x1x3";
   Row [3; 3; 2; 1] VAbs "lequ3_3321" "# cLeQu3Abs3x3x2x1";
   Row [3; 3; 2; 2] VAbs "lequ3_3322" "# cLeQu3Abs3x3x2x2";
   Row [3; 3; 2; 3] VAbs "lequ3_3323" "# cLeQu3Abs3x3x2x3";
   Row [3; 3; 3; 1] VAbs "lequ3_3331" "# cLeQu3Abs3x3x3x1";
   Row [3; 3; 3; 2] VAbs "lequ3_3332" "# cLeQu3Abs3x3x3x2";
   Row [3; 3; 3; 3] VAbs "lequ3_3333" "# cLeQu3Abs3x3x3x3"].
(** smeftsim.py 5198-5280 *)
Definition rowsB_FRBlock82 : list row :=
  [Row [1; 1; 1; 1] VAngle "lequ3_1111" "# cLeQu3Ph1x1x1x1";
   Row [1; 1; 1; 2] VAngle "lequ3_1112" "# cLeQu3Ph1x1x1x2";
   Row [1; 1; 1; 3] VAngle "lequ3_1113" "# cLeQu3Ph1x1x1x3";
   Row [1; 1; 2; 1] VAngle "lequ3_1121" "# cLeQu3Ph1x1x2x1";
   Row [1; 1; 2; 2] VAngle "lequ3_1122" "# cLeQu3Ph1x1x2x2";
   Row [1; 1; 2; 3] VAngle "lequ3_1123" "# cLeQu3Ph1x1x2x3";
   Row [1; 1; 3; 1] VAngle "lequ3_1131" "# cLeQu3Ph1x1x3x1";
   Row [1; 1; 3; 2] VAngle "lequ3_1132" "# cLeQu3Ph1x1x3x2";
   Row [1; 1; 3; 3] VAngle "lequ3_1133" "# cLeQu3Ph1x1x3x3";
   Row [1; 2; 1; 1] VAngle "lequ3_1211" "# cLeQu3Ph1x2x1x1";
   Row [1; 2; 1; 2] VAngle "lequ3_1212" "# cLeQu3Ph1x2x1x2";
   Row [1; 2; 1; 3] VAngle "lequ3_1213" "# cLeQu3Ph1x2x1x3";
   Row [1; 2; 2; 1] VAngle "lequ3_1221" "# cLeQu3Ph1x2x2x1";
   Row [1; 2; 2; 2] VAngle "lequ3_1222" "# cLeQu3Ph1x2x2x2";
   Row [1; 2; 2; 3] VAngle "lequ3_1223" "# cLeQu3Ph1x2x2x3";
   Row [1; 2; 3; 1] VAngle "lequ3_1231" "# cLeQu3Ph1x2x3x1";
   Row [1; 2; 3; 2] VAngle "lequ3_1232" "# cLeQu3Ph1x2x3x2";
   Row [1; 2; 3; 3] VAngle "lequ3_1233" "# cLeQu3Ph1x2x3x3";
   Row [1; 3; 1; 1] VAngle "lequ3_1311" "# cLeQu3Ph1x3x1x1";
   Row [1; 3; 1; 2] VAngle "lequ3_1312" "# cLeQu3Ph1x3x1x2";
   Row [1; 3; 1; 3] VAngle "lequ3_1313" "# cLeQu3Ph1x3x1x3";
   Row [1; 3; 2; 1] VAngle "lequ3_1321" "# cLeQu3Ph1x3x2x1";
   Row [1; 3; 2; 2] VAngle "lequ3_1322" "# cLeQu3Ph1x3x2x2";
   Row [1; 3; 2; 3] VAngle "lequ3_1323" "# cLeQu3Ph1x3x2x3";
   Row [1; 3; 3; 1] VAngle "lequ3_1331" "# cLeQu3Ph1x3x3x1";
   Row [1; 3; 3; 2] VAngle "lequ3_1332" "# cLeQu3Ph1x3x3x2";
   Row [1; 3; 3; 3] VAngle "lequ3_1333" "# cLeQu3Ph1x3x3x3";
   Row [2; 1; 1; 1] VAngle "lequ3_2111" "# cLeQu3Ph2x1x1x1";
   Row [2; 1; 1; 2] VAngle "lequ3_2112" "# cLeQu3Ph2x1x1x2";
   Row [2; 1; 1; 3] VAngle "lequ3_2113" "# cLeQu3Ph2x1x1x3";
   Row [2; 1; 2; 1] VAngle "lequ3_2121" "# cLeQu3Ph2x1x2x1";
   Row [2; 1; 2; 2] VAngle "lequ3_2122" "# cLeQu3Ph2x1x2x2";
   Row [2; 1; 2; 3] VAngle "lequ3_2123" "# cLeQu3Ph2x1x2x3";
   Row [2; 1; 3; 1] VAngle "lequ3_2131" "# cLeQu3Ph2x1x3x1";
   Row [2; 1; 3; 2] VAngle "lequ3_2132" "# cLeQu3Ph2x1x3x2";
   Row [2; 1; 3; 3] VAngle "lequ3_2133" "# cLeQu3Ph2x1x3x3";
   Row [2; 2; 1; 1] VAngle "lequ3_2211" "# cLeQu3Ph2x2x1x1";
   Row [2; 2; 1; 2] VAngle "lequ3_2212" "# cLeQu3Ph2x2x1x2";
   Row [2; 2; 1; 3] VAngle "lequ3_2213" "# cLeQu3Ph2x2x1x3";
   Row [2; 2; 2; 1] VAngle "lequ3_2221" "# cLeQu3Ph2x2x2x1";
   Row [2; 2; 2; 2] VAngle "lequ3_2222" "# cLeQu3Ph2x2x2x2";
   Row [2; 2; 2; 3] VAngle "lequ3_2223" "# cLeQu3Ph2x2x2x3";
   Row [2; 2; 3; 1] VAngle "lequ3_2231" "# cLeQu3Ph2x2x3x1";
   Row [2; 2; 3; 2] VAngle "lequ3_2232" "# cLeQu3Ph2x2x3x2";
   Row [2; 2; 3; 3] VAngle "lequ3_2233" "# cLeQu3Ph2x2x3x3";
   Row [2; 3; 1; 1] VAngle "lequ3_2311" "# cLeQu3Ph2x3x1x1";
   Row [2; 3; 1; 2] VAngle "lequ3_2312" "# cLeQu3Ph2x3x1x2";
   Row [2; 3; 1; 3] VAngle "lequ3_2313" "# cLeQu3Ph2x3x1x3";
   Row [2; 3; 2; 1] VAngle "lequ3_2321" "# cLeQu3Ph2x3x2x1";
   Row [2; 3; 2; 2] VAngle "lequ3_2322" "# cLeQu3Ph2x3x2x2";
   Row [2; 3; 2; 3] VAngle "lequ3_2323" "# cLeQu3Ph2x3x2x3";
   Row [2; 3; 3; 1] VAngle "lequ3_2331" "# cLeQu3Ph2x3x3x1";
   Row [2; 3; 3; 2] VAngle "lequ3_2332" "# cLeQu3Ph2x3x3x2";
   Row [2; 3; 3; 3] VAngle "lequ3_2333" "# cLeQu3Ph2x3x3x3";
   Row [3; 1; 1; 1] VAngle "lequ3_3111" "# cLeQu3Ph3x1x1x1";
   Row [3; 1; 1; 2] VAngle "lequ3_3112" "# cLeQu3Ph3x1x1x2";
   Row [3; 1; 1; 3] VAngle "lequ3_3113" "# cLeQu3Ph3x1x1x3";
   Row [3; 1; 2; 1] VAngle "lequ3_3121" "# cLeQu3Ph3x1x2x1";
   Row [3; 1; 2; 2] VAngle "lequ3_3122" "# cLeQu3Ph3x1x2x2";
   Row [3; 1; 2; 3] VAngle "lequ3_3123" "# cLeQu3Ph3x1x2x3";
   Row [3; 1; 3; 1] VAngle "lequ3_3131" "# cLeQu3Ph3x1x3x1";
   Row [3; 1; 3; 2] VAngle "lequ3_3132" "# cLeQu3Ph3x1x3x2";
   Row [3; 1; 3; 3] VAngle "lequ3_3133" "# cLeQu3Ph3x1x3x3";
   Row [3; 2; 1; 1] VAngle "lequ3_3211" "# cLeQu3Ph3x2x1x1";
   Row [3; 2; 1; 2] VAngle "lequ3_3212" "# cLeQu3Ph3x2x1x2";
   Row [3; 2; 1; 3] VAngle "lequ3_3213" "# cLeQu3Ph3x2x1x3";
   Row [3; 2; 2; 1] VAngle "lequ3_3221" "# cLeQu3Ph3x2x2x1";
   Row [3; 2; 2; 2] VAngle "lequ3_3222" "# cLeQu3Ph3x2x2x2";
   Row [3; 2; 2; 3] VAngle "lequ3_3223" "# cLeQu3Ph3x2x2x3";
   Row [3; 2; 3; 1] VAngle "lequ3_3231" "# cLeQu3Ph3x2x3x1";
   Row [3; 2; 3; 2] VAngle "lequ3_3232" "# cLeQu3Ph3x2x3x2";
   Row [3; 2; 3; 3] VAngle "lequ3_3233" "# cLeQu3Ph3x2x3x3";
   Row [3; 3; 1; 1] VAngle "lequ3_3311" "# cLeQu3Ph3x3x1x1";
   Row [3; 3; 1; 2] VAngle "lequ3_3312" "# cLeQu3Ph3x3x1x2";
   Row [3; 3; 1; 3] VAngle "lequ3_3313" "# cLeQu3Ph3x3x1x3";
   Row [3; 3; 2; 1] VAngle "lequ3_3321" "# cLeQu3Ph3x3x2x1";
   Row [3; 3; 2; 2] VAngle "lequ3_3322" "# cLeQu3Ph3x3x2x2";
   Row [3; 3; 2; 3] VAngle "lequ3_3323" "# cLeQu3Ph3x3x2x3";
   Row [3; 3; 3; 1] VAngle "lequ3_3331" "# cLeQu3Ph3x3x3x1";
   Row [3; 3; 3; 2] VAngle "lequ3_3332" "# cLeQu3Ph3x3x3x2";
   Row [3; 3; 3; 3] VAngle "lequ3_3333" "# cLeQu3Ph3x3x3x3"].
(** smeftsim.py 5282-5292 *)
Definition rowsB_FRBlock9 : list row :=
  [Row [1; 1] VAngle "ephi_11" "# ceHPh1x1";
   Row [1; 2] VAngle "ephi_12" "# ceHPh1x2";
   Row [1; 3] VAngle "ephi_13" "# ceHPh1x3";
   Row [2; 1] VAngle "ephi_21" "# ceHPh2x1";
   Row [2; 2] VAngle "ephi_22" "# ceHPh2x2";
   Row [2; 3] VAngle "ephi_23" "# ceHPh2x3";
   Row [3; 1] VAngle "ephi_31" "# ceHPh3x1";
   Row [3; 2] VAngle "ephi_32" "# ceHPh3x2";
   Row [3; 3] VAngle "ephi_33" "# ceHPh3x3"].
(** smeftsim.py 5294-5311 *)
Definition rowsB_NEWCOUP : list row :=
  [Row [0] VLambda "" "# Lambda";
   Row [1] VRaw "phiBox" "# cHBox";
   Row [2] VRaw "phiD" "# cHDD";
   Row [3] VRaw "phi" "# cH";
   Row [4] VRaw "phiB" "# cHB";
   Row [5] VRaw "phiW" "# cHW";
   Row [6] VRaw "phiWB" "# cHWB";
   Row [7] VRaw "phiG" "# cHG";
   Row [8] VRaw "W" "# cW";
   Row [9] VRaw "G" "# cG";
   Row [10] VRaw "Wtilde" "# cWtil";
   Row [11] VRaw "Gtilde" "# cGtil";
   Row [12] VRaw "phiBtilde" "# cHBtil";
   Row [13] VRaw "phiWtilde" "# cHWtil";
   Row [14] VRaw "phiWtildeB" "# cHWBtil";
   Row [15] VRaw "phiGtilde" "# cHGtil"].
(** smeftsim.py 2705-5311 *)
Definition tableB : list (string * list row) :=
  [("FRBlock", rowsB_FRBlock);
   ("FRBlock10", rowsB_FRBlock10);
   ("FRBlock11", rowsB_FRBlock11);
   ("FRBlock15", rowsB_FRBlock15);
   ("FRBlock16", rowsB_FRBlock16);
   ("FRBlock18", rowsB_FRBlock18);
   ("FRBlock19", rowsB_FRBlock19);
   ("FRBlock21", rowsB_FRBlock21);
   ("FRBlock22", rowsB_FRBlock22);
   ("FRBlock24", rowsB_FRBlock24);
   ("FRBlock25", rowsB_FRBlock25);
   ("FRBlock27", rowsB_FRBlock27);
   ("FRBlock28", rowsB_FRBlock28);
   ("FRBlock30", rowsB_FRBlock30);
   ("FRBlock31", rowsB_FRBlock31);
   ("FRBlock33", rowsB_FRBlock33);
   ("FRBlock34", rowsB_FRBlock34);
   ("FRBlock36", rowsB_FRBlock36);
   ("FRBlock37", rowsB_FRBlock37);
   ("FRBlock45", rowsB_FRBlock45);
   ("FRBlock46", rowsB_FRBlock46);
   ("FRBlock6", rowsB_FRBlock6);
   ("FRBlock69", rowsB_FRBlock69);
   ("FRBlock7", rowsB_FRBlock7);
   ("FRBlock70", rowsB_FRBlock70);
   ("FRBlock72", rowsB_FRBlock72);
   ("FRBlock73", rowsB_FRBlock73);
   ("FRBlock75", rowsB_FRBlock75);
   ("FRBlock76", rowsB_FRBlock76);
   ("FRBlock78", rowsB_FRBlock78);
   ("FRBlock79", rowsB_FRBlock79);
   ("FRBlock8", rowsB_FRBlock8);
   ("FRBlock81", rowsB_FRBlock81);
   ("FRBlock82", rowsB_FRBlock82);
   ("FRBlock9", rowsB_FRBlock9);
   ("NEWCOUP", rowsB_NEWCOUP)].
(** SMEFTsim_param_card_elements.py 1-89, split at the line ends *)
Definition preamble_A_lines : list string :=
  ["";
   "######################################################################";
   "## PARAM_CARD FOR SMEFTSIM SET A v2.0 - FLAVOR_GENERAL ALPHA_INPUTS  #####";
   "######################################################################";
   "";
   "###################################";
   "## INFORMATION FOR SMINPUTS";
   "###################################";
   "Block SMINPUTS ";
   "    1 7.815553e-03 # aEW ";
   "    2 1.166379e-05 # Gf ";
   "    3 1.181000e-01 # aS ";
   "";
   "###################################";
   "## INFORMATION FOR MASS";
   "###################################";
   "Block MASS ";
   "    1 4.700000e-03 # MD ";
   "    2 2.200000e-03 # MU ";
   "    3 9.600000e-02 # MS ";
   "    4 1.280000e+00 # MC ";
   "    5 4.180000e+00 # MB ";
   "    6 1.732000e+02 # MT ";
   "   11 5.110000e-04 # Me ";
   "   13 1.056600e-01 # MMU ";
   "   15 1.777000e+00 # MTA ";
   "   23 9.118760e+01 # MZ ";
   "   25 1.250900e+02 # MH ";
   "##  Not dependent paramater.";
   "## Those values should be edited following analytical the ";
   "## analytical expression. Some generator could simply ignore ";
   "## those values and use the analytical expression";
   "  22 0.000000 # a : 0.0 ";
   "  24 73.187688 # W+ : dMW + MW0 ";
   "  21 0.000000 # g : 0.0 ";
   "  9000001 0.000000 # ghA : 0.0 ";
   "  9000003 73.187688 # ghWp : dMW + MW0 ";
   "  9000004 73.187688 # ghWm : dMW + MW0 ";
   "  82 0.000000 # ghG : 0.0 ";
   "  12 0.000000 # ve : 0.0 ";
   "  14 0.000000 # vm : 0.0 ";
   "  16 0.000000 # vt : 0.0 ";
   "  251 73.187688 # G+ : dMW + MW0 ";
   "  9000002 91.187600 # ghZ : MZ ";
   "  250 91.187600 # G0 : MZ ";
   "";
   "###################################";
   "## INFORMATION FOR DECAY";
   "###################################";
   "DECAY   6 1.508336e+00 ";
   "DECAY  23 2.495200e+00 ";
   "DECAY  24 2.085000e+00 ";
   "DECAY  25 4.070000e-03 ";
   "##  Not dependent paramater.";
   "## Those values should be edited following analytical the ";
   "## analytical expression. Some generator could simply ignore ";
   "## those values and use the analytical expression";
   "DECAY  22 0.000000 # a : 0.0 ";
   "DECAY  21 0.000000 # g : 0.0 ";
   "DECAY  9000001 0.000000 # ghA : 0.0 ";
   "DECAY  82 0.000000 # ghG : 0.0 ";
   "DECAY  12 0.000000 # ve : 0.0 ";
   "DECAY  14 0.000000 # vm : 0.0 ";
   "DECAY  16 0.000000 # vt : 0.0 ";
   "DECAY  11 0.000000 # e- : 0.0 ";
   "DECAY  13 0.000000 # mu- : 0.0 ";
   "DECAY  15 0.000000 # ta- : 0.0 ";
   "DECAY  2 0.000000 # u : 0.0 ";
   "DECAY  4 0.000000 # c : 0.0 ";
   "DECAY  1 0.000000 # d : 0.0 ";
   "DECAY  3 0.000000 # s : 0.0 ";
   "DECAY  5 0.000000 # b : 0.0 ";
   "DECAY  9000002 2.495200 # ghZ : WZ ";
   "DECAY  9000003 2.085000 # ghWp : WW ";
   "DECAY  9000004 2.085000 # ghWm : WW ";
   "DECAY  250 2.495200 # G0 : WZ ";
   "DECAY  251 2.085000 # G+ : WW ";
   "";
   "###################################";
   "## INFORMATION FOR CKMBLOCK";
   "###################################";
   "Block CKMBLOCK ";
   "    1 2.277360e-01 # cabi ";
   "    2 2.250600e-01 # CKMlambda ";
   "    3 8.110000e-01 # CKMA ";
   "    4 1.240000e-01 # CKMrho ";
   "    5 3.560000e-01 # CKMeta ";
   "    ";
   ""].
(** SMEFTsim_param_card_elements.py 91-145, split at the line ends *)
Definition postamble_A_lines : list string :=
  ["";
   "";
   "###################################";
   "## INFORMATION FOR YUKAWA";
   "###################################";
   "Block YUKAWA ";
   "    1 4.700000e-03 # ymdo ";
   "    2 2.200000e-03 # ymup ";
   "    3 9.600000e-02 # yms ";
   "    4 1.280000e+00 # ymc ";
   "    5 4.180000e+00 # ymb ";
   "    6 1.732000e+02 # ymt ";
   "   11 5.110000e-04 # yme ";
   "   13 1.056600e-01 # ymm ";
   "   15 1.777000e+00 # ymtau ";
   "#===========================================================";
   "# QUANTUM NUMBERS OF NEW STATE(S) (NON SM PDG CODE)";
   "#===========================================================";
   "";
   "Block QNUMBERS 9000001  # ghA ";
   "        1 0  # 3 times electric charge";
   "        2 -1  # number of spin states (2S+1)";
   "        3 1  # colour rep (1: singlet, 3: triplet, 8: octet)";
   "        4 1  # Particle/Antiparticle distinction (0=own anti)";
   "Block QNUMBERS 9000002  # ghZ ";
   "        1 0  # 3 times electric charge";
   "        2 -1  # number of spin states (2S+1)";
   "        3 1  # colour rep (1: singlet, 3: triplet, 8: octet)";
   "        4 1  # Particle/Antiparticle distinction (0=own anti)";
   "Block QNUMBERS 9000003  # ghWp ";
   "        1 3  # 3 times electric charge";
   "        2 -1  # number of spin states (2S+1)";
   "        3 1  # colour rep (1: singlet, 3: triplet, 8: octet)";
   "        4 1  # Particle/Antiparticle distinction (0=own anti)";
   "Block QNUMBERS 9000004  # ghWm ";
   "        1 -3  # 3 times electric charge";
   "        2 -1  # number of spin states (2S+1)";
   "        3 1  # colour rep (1: singlet, 3: triplet, 8: octet)";
   "        4 1  # Particle/Antiparticle distinction (0=own anti)";
   "Block QNUMBERS 82  # ghG ";
   "        1 0  # 3 times electric charge";
   "        2 -1  # number of spin states (2S+1)";
   "        3 8  # colour rep (1: singlet, 3: triplet, 8: octet)";
   "        4 1  # Particle/Antiparticle distinction (0=own anti)";
   "Block QNUMBERS 250  # G0 ";
   "        1 0  # 3 times electric charge";
   "        2 1  # number of spin states (2S+1)";
   "        3 1  # colour rep (1: singlet, 3: triplet, 8: octet)";
   "        4 0  # Particle/Antiparticle distinction (0=own anti)";
   "Block QNUMBERS 251  # G+ ";
   "        1 3  # 3 times electric charge";
   "        2 1  # number of spin states (2S+1)";
   "        3 1  # colour rep (1: singlet, 3: triplet, 8: octet)";
   "        4 1  # Particle/Antiparticle distinction (0=own anti)";
   ""].
(** SMEFTsim_param_card_elements.py 149-242, split at the line ends *)
Definition preamble_B_lines : list string :=
  ["";
   "######################################################################";
   "## PARAM_CARD FOR SMEFTSIM SET B  - FLAVOR_GENERAL ALPHA_INPUTS  #####";
   "######################################################################";
   "";
   "###################################";
   "## INFORMATION FOR SMINPUTS";
   "###################################";
   "Block SMINPUTS ";
   "    1 1.279000e+02 # aEWM1 ";
   "    2 1.166370e-05 # Gf ";
   "    3 1.181000e-01 # aS ";
   "";
   "###################################";
   "## INFORMATION FOR MASS";
   "###################################";
   "Block MASS ";
   "    1 4.700000e-03 # MD ";
   "    2 2.200000e-03 # MU ";
   "    3 9.600000e-02 # MS ";
   "    4 1.280000e+00 # MC ";
   "    5 4.180000e+00 # MB ";
   "    6 1.731000e+02 # MT ";
   "   11 5.110000e-04 # Me ";
   "   13 1.056600e-01 # MMU ";
   "   15 1.777000e+00 # MTA ";
   "   23 9.118750e+01 # MZ ";
   "   25 1.250900e+02 # MH ";
   "##  Not dependent paramater.";
   "## Those values should be edited following analytical the ";
   "## analytical expression. Some generator could simply ignore ";
   "## those values and use the analytical expression";
   "  22 0.000000 # a : 0.0 ";
   "  24 79.824234 # W+ : dMW + MW0 ";
   "  21 0.000000 # g : 0.0 ";
   "  9000001 0.000000 # ghA : 0.0 ";
   "  9000003 79.824234 # ghWp : dMW + MW0 ";
   "  9000004 79.824234 # ghWm : dMW + MW0 ";
   "  82 0.000000 # ghG : 0.0 ";
   "  12 0.000000 # ve : 0.0 ";
   "  14 0.000000 # vm : 0.0 ";
   "  16 0.000000 # vt : 0.0 ";
   "  251 79.824234 # G+ : dMW + MW0 ";
   "  9000002 91.187500 # ghZ : MZ ";
   "  250 91.187500 # G0 : MZ ";
   "";
   "###################################";
   "## INFORMATION FOR DECAY";
   "###################################";
   "DECAY   6 1.508336e+00 ";
   "DECAY  23 2.495200e+00 ";
   "DECAY  24 2.085000e+00 ";
   "DECAY  25 4.070000e-03 ";
   "##  Not dependent paramater.";
   "## Those values should be edited following analytical the ";
   "## analytical expression. Some generator could simply ignore ";
   "## those values and use the analytical expression";
   "DECAY  22 0.000000 # a : 0.0 ";
   "DECAY  21 0.000000 # g : 0.0 ";
   "DECAY  9000001 0.000000 # ghA : 0.0 ";
   "DECAY  82 0.000000 # ghG : 0.0 ";
   "DECAY  12 0.000000 # ve : 0.0 ";
   "DECAY  14 0.000000 # vm : 0.0 ";
   "DECAY  16 0.000000 # vt : 0.0 ";
   "DECAY  11 0.000000 # e- : 0.0 ";
   "DECAY  13 0.000000 # mu- : 0.0 ";
   "DECAY  15 0.000000 # ta- : 0.0 ";
   "DECAY  2 0.000000 # u : 0.0 ";
   "DECAY  4 0.000000 # c : 0.0 ";
   "DECAY  1 0.000000 # d : 0.0 ";
   "DECAY  3 0.000000 # s : 0.0 ";
   "DECAY  5 0.000000 # b : 0.0 ";
   "DECAY  9000002 2.495200 # ghZ : WZ ";
   "DECAY  9000003 2.085000 # ghWp : WW ";
   "DECAY  9000004 2.085000 # ghWm : WW ";
   "DECAY  250 2.495200 # G0 : WZ ";
   "DECAY  251 2.085000 # G+ : WW ";
   "";
   "###################################";
   "## INFORMATION FOR CKMBLOCK";
   "###################################";
   "Block CKMBLOCK ";
   "    1 2.277360e-01 # cabi ";
   "    2 9.743400e-01 # CKM11 ";
   "    3 2.250600e-01 # CKM12 ";
   "    4 3.570000e-03 # CKM13 ";
   "    5 2.249200e-01 # CKM21 ";
   "    6 9.735100e-01 # CKM22 ";
   "    7 4.110000e-02 # CKM23 ";
   "    8 8.750000e-03 # CKM31 ";
   "    9 4.030000e-02 # CKM32 ";
   "   10 9.991500e-01 # CKM33 ";
   "    ";
   ""].
(** SMEFTsim_param_card_elements.py 244-304, split at the line ends *)
Definition postamble_B_lines : list string :=
  ["";
   "";
   "###################################";
   "## INFORMATION FOR NEWCOUPAUX";
   "###################################";
   "Block NEWCOUPaux ";
   "    0 1.000000e+00 # WC ";
   "";
   "###################################";
   "## INFORMATION FOR YUKAWA";
   "###################################";
   "Block YUKAWA ";
   "    1 4.700000e-03 # ymdo ";
   "    2 2.200000e-03 # ymup ";
   "    3 9.600000e-02 # yms ";
   "    4 1.280000e+00 # ymc ";
   "    5 4.180000e+00 # ymb ";
   "    6 1.731000e+02 # ymt ";
   "   11 5.110000e-04 # yme ";
   "   13 1.056600e-01 # ymm ";
   "   15 1.777000e+00 # ymtau ";
   "#===========================================================";
   "# QUANTUM NUMBERS OF NEW STATE(S) (NON SM PDG CODE)";
   "#===========================================================";
   "";
   "Block QNUMBERS 9000001  # ghA ";
   "        1 0  # 3 times electric charge";
   "        2 -1  # number of spin states (2S+1)";
   "        3 1  # colour rep (1: singlet, 3: triplet, 8: octet)";
   "        4 1  # Particle/Antiparticle distinction (0=own anti)";
   "Block QNUMBERS 9000002  # ghZ ";
   "        1 0  # 3 times electric charge";
   "        2 -1  # number of spin states (2S+1)";
   "        3 1  # colour rep (1: singlet, 3: triplet, 8: octet)";
   "        4 1  # Particle/Antiparticle distinction (0=own anti)";
   "Block QNUMBERS 9000003  # ghWp ";
   "        1 3  # 3 times electric charge";
   "        2 -1  # number of spin states (2S+1)";
   "        3 1  # colour rep (1: singlet, 3: triplet, 8: octet)";
   "        4 1  # Particle/Antiparticle distinction (0=own anti)";
   "Block QNUMBERS 9000004  # ghWm ";
   "        1 -3  # 3 times electric charge";
   "        2 -1  # number of spin states (2S+1)";
   "        3 1  # colour rep (1: singlet, 3: triplet, 8: octet)";
   "        4 1  # Particle/Antiparticle distinction (0=own anti)";
   "Block QNUMBERS 82  # ghG ";
   "        1 0  # 3 times electric charge";
   "        2 -1  # number of spin states (2S+1)";
   "        3 8  # colour rep (1: singlet, 3: triplet, 8: octet)";
   "        4 1  # Particle/Antiparticle distinction (0=own anti)";
   "Block QNUMBERS 250  # G0 ";
   "        1 0  # 3 times electric charge";
   "        2 1  # number of spin states (2S+1)";
   "        3 1  # colour rep (1: singlet, 3: triplet, 8: octet)";
   "        4 0  # Particle/Antiparticle distinction (0=own anti)";
   "Block QNUMBERS 251  # G+ ";
   "        1 3  # 3 times electric charge";
   "        2 1  # number of spin states (2S+1)";
   "        3 1  # colour rep (1: singlet, 3: triplet, 8: octet)";
   "        4 1  # Particle/Antiparticle distinction (0=own anti)";
   ""].
