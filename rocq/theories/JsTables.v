(** The tables of /repo/vanillaplusjs/build/js/derived_core_properties.py, written by
    tools/mktables.py from the text of that file.  A [\u] in a python string takes four
    digits, so a five digit code point in the file is two characters of the set. *)
From Coq Require Import List NArith.
Import ListNotations.
Open Scope N_scope.

(** EXACT_MATCHES_ID_START, lines 1-3 *)
Definition exact_matches_id_start : list N := [
  170; 181; 186; 443; 660; 748; 750; 884; 890; 895; 902; 908; 1369; 1600; 1749; 1791; 1808; 1969; 2042; 2074; 2084;
  2088; 2249; 2365; 2384; 2417; 2482; 2493; 2510; 2556; 2654; 2749; 2768; 2809; 2877; 2929; 2947; 2972; 3024; 3133;
  3165; 3200; 3261; 3389; 3406; 3517; 3654; 3716; 3749; 3773; 3782; 3840; 4159; 4193; 4238; 4295; 4301; 4348; 4696;
  4800; 6103; 6108; 6211; 6314; 6823; 7418; 7544; 8025; 8027; 8029; 8126; 8305; 8319; 8450; 8455; 8469; 8472; 8484;
  8486; 8488; 8494; 8505; 8526; 11559; 11565; 11631; 12293; 12294; 12295; 12347; 12348; 12447; 12543; 40981; 42508;
  42606; 42623; 42864; 42888; 42895; 42963; 42999; 43002; 43259; 43471; 43494; 43632; 43642; 43697; 43712; 43714;
  43741; 43762; 43881; 64285; 64318; 65392; 4148; 49; 4148; 65; 4224; 56; 4227; 67; 4256; 48; 4338; 55; 4359; 53;
  4372; 52; 4372; 55; 4375; 54; 4381; 65; 4381; 67; 4392; 56; 4403; 68; 4405; 48; 4428; 55; 4452; 52; 4459; 56;
  4496; 57; 4499; 70; 4500; 49; 4510; 49; 4510; 51; 4512; 48; 4515; 65; 4517; 48; 4521; 68; 4548; 48; 4564; 54;
  4569; 56; 4603; 48; 5877; 48; 5886; 51; 7498; 50; 7499; 66; 7508; 54; 7664; 65; 7700; 69; 7828; 66; 7906; 52;
  7906; 55; 7907; 57; 7907; 66; 7908; 50; 7908; 55; 7908; 57; 7908; 66; 7909; 52; 7909; 55; 7909; 57; 7909; 66;
  7909; 68; 7909; 70; 7910; 52; 7911; 69].

(** MATCH_RANGES_ID_START, lines 5-561 *)
Definition match_ranges_id_start : list (N * N) := [
  (65, 90); (97, 122); (192, 214); (216, 246); (248, 442); (444, 447); (448, 451); (452, 659); (661, 687); (688, 705);
  (710, 721); (736, 740); (880, 883); (886, 887); (891, 893); (904, 906); (910, 929); (931, 1013); (1015, 1153);
  (1162, 1327); (1329, 1366); (1376, 1416); (1488, 1514); (1519, 1522); (1568, 1599); (1601, 1610); (1646, 1647);
  (1649, 1747); (1765, 1766); (1774, 1775); (1786, 1788); (1810, 1839); (1869, 1957); (1994, 2026); (2036, 2037);
  (2048, 2069); (2112, 2136); (2144, 2154); (2160, 2183); (2185, 2190); (2208, 2248); (2308, 2361); (2392, 2401);
  (2418, 2432); (2437, 2444); (2447, 2448); (2451, 2472); (2474, 2480); (2486, 2489); (2524, 2525); (2527, 2529);
  (2544, 2545); (2565, 2570); (2575, 2576); (2579, 2600); (2602, 2608); (2610, 2611); (2613, 2614); (2616, 2617);
  (2649, 2652); (2674, 2676); (2693, 2701); (2703, 2705); (2707, 2728); (2730, 2736); (2738, 2739); (2741, 2745);
  (2784, 2785); (2821, 2828); (2831, 2832); (2835, 2856); (2858, 2864); (2866, 2867); (2869, 2873); (2908, 2909);
  (2911, 2913); (2949, 2954); (2958, 2960); (2962, 2965); (2969, 2970); (2974, 2975); (2979, 2980); (2984, 2986);
  (2990, 3001); (3077, 3084); (3086, 3088); (3090, 3112); (3114, 3129); (3160, 3162); (3168, 3169); (3205, 3212);
  (3214, 3216); (3218, 3240); (3242, 3251); (3253, 3257); (3293, 3294); (3296, 3297); (3313, 3314); (3332, 3340);
  (3342, 3344); (3346, 3386); (3412, 3414); (3423, 3425); (3450, 3455); (3461, 3478); (3482, 3505); (3507, 3515);
  (3520, 3526); (3585, 3632); (3634, 3635); (3648, 3653); (3713, 3714); (3718, 3722); (3724, 3747); (3751, 3760);
  (3762, 3763); (3776, 3780); (3804, 3807); (3904, 3911); (3913, 3948); (3976, 3980); (4096, 4138); (4176, 4181);
  (4186, 4189); (4197, 4198); (4206, 4208); (4213, 4225); (4256, 4293); (4304, 4346); (4349, 4351); (4352, 4680);
  (4682, 4685); (4688, 4694); (4698, 4701); (4704, 4744); (4746, 4749); (4752, 4784); (4786, 4789); (4792, 4798);
  (4802, 4805); (4808, 4822); (4824, 4880); (4882, 4885); (4888, 4954); (4992, 5007); (5024, 5109); (5112, 5117);
  (5121, 5740); (5743, 5759); (5761, 5786); (5792, 5866); (5870, 5872); (5873, 5880); (5888, 5905); (5919, 5937);
  (5952, 5969); (5984, 5996); (5998, 6000); (6016, 6067); (6176, 6210); (6212, 6264); (6272, 6276); (6277, 6278);
  (6279, 6312); (6320, 6389); (6400, 6430); (6480, 6509); (6512, 6516); (6528, 6571); (6576, 6601); (6656, 6678);
  (6688, 6740); (6917, 6963); (6981, 6988); (7043, 7072); (7086, 7087); (7098, 7141); (7168, 7203); (7245, 7247);
  (7258, 7287); (7288, 7293); (7296, 7304); (7312, 7354); (7357, 7359); (7401, 7404); (7406, 7411); (7413, 7414);
  (7424, 7467); (7468, 7530); (7531, 7543); (7545, 7578); (7579, 7615); (7680, 7957); (7960, 7965); (7968, 8005);
  (8008, 8013); (8016, 8023); (8031, 8061); (8064, 8116); (8118, 8124); (8130, 8132); (8134, 8140); (8144, 8147);
  (8150, 8155); (8160, 8172); (8178, 8180); (8182, 8188); (8336, 8348); (8458, 8467); (8473, 8477); (8490, 8493);
  (8495, 8500); (8501, 8504); (8508, 8511); (8517, 8521); (8544, 8578); (8579, 8580); (8581, 8584); (11264, 11387);
  (11388, 11389); (11390, 11492); (11499, 11502); (11506, 11507); (11520, 11557); (11568, 11623); (11648, 11670);
  (11680, 11686); (11688, 11694); (11696, 11702); (11704, 11710); (11712, 11718); (11720, 11726); (11728, 11734);
  (11736, 11742); (12321, 12329); (12337, 12341); (12344, 12346); (12353, 12438); (12443, 12444); (12445, 12446);
  (12449, 12538); (12540, 12542); (12549, 12591); (12593, 12686); (12704, 12735); (12784, 12799); (13312, 19903);
  (19968, 40980); (40982, 42124); (42192, 42231); (42232, 42237); (42240, 42507); (42512, 42527); (42538, 42539);
  (42560, 42605); (42624, 42651); (42652, 42653); (42656, 42725); (42726, 42735); (42775, 42783); (42786, 42863);
  (42865, 42887); (42891, 42894); (42896, 42954); (42960, 42961); (42965, 42969); (42994, 42996); (42997, 42998);
  (43000, 43001); (43003, 43009); (43011, 43013); (43015, 43018); (43020, 43042); (43072, 43123); (43138, 43187);
  (43250, 43255); (43261, 43262); (43274, 43301); (43312, 43334); (43360, 43388); (43396, 43442); (43488, 43492);
  (43495, 43503); (43514, 43518); (43520, 43560); (43584, 43586); (43588, 43595); (43616, 43631); (43633, 43638);
  (43646, 43695); (43701, 43702); (43705, 43709); (43739, 43740); (43744, 43754); (43763, 43764); (43777, 43782);
  (43785, 43790); (43793, 43798); (43808, 43814); (43816, 43822); (43824, 43866); (43868, 43871); (43872, 43880);
  (43888, 43967); (43968, 44002); (44032, 55203); (55216, 55238); (55243, 55291); (63744, 64109); (64112, 64217);
  (64256, 64262); (64275, 64279); (64287, 64296); (64298, 64310); (64312, 64316); (64320, 64321); (64323, 64324);
  (64326, 64433); (64467, 64829); (64848, 64911); (64914, 64967); (65008, 65019); (65136, 65140); (65142, 65276);
  (65313, 65338); (65345, 65370); (65382, 65391); (65393, 65437); (65438, 65439); (65440, 65470); (65474, 65479);
  (65482, 65487); (65490, 65495); (65498, 65500); (65536, 65547); (65549, 65574); (65576, 65594); (65596, 65597);
  (65599, 65613); (65616, 65629); (65664, 65786); (65856, 65908); (66176, 66204); (66208, 66256); (66304, 66335);
  (66349, 66368); (66370, 66377); (66384, 66421); (66432, 66461); (66464, 66499); (66504, 66511); (66513, 66517);
  (66560, 66639); (66640, 66717); (66736, 66771); (66776, 66811); (66816, 66855); (66864, 66915); (66928, 66938);
  (66940, 66954); (66956, 66962); (66964, 66965); (66967, 66977); (66979, 66993); (66995, 67001); (67003, 67004);
  (67072, 67382); (67392, 67413); (67424, 67431); (67456, 67461); (67463, 67504); (67506, 67514); (67584, 67589);
  (67594, 67637); (67639, 67640); (67647, 67669); (67680, 67702); (67712, 67742); (67808, 67826); (67828, 67829);
  (67840, 67861); (67872, 67897); (67968, 68023); (68030, 68031); (68112, 68115); (68117, 68119); (68121, 68149);
  (68192, 68220); (68224, 68252); (68288, 68295); (68297, 68324); (68352, 68405); (68416, 68437); (68448, 68466);
  (68480, 68497); (68608, 68680); (68736, 68786); (68800, 68850); (68864, 68899); (69248, 69289); (69296, 69297);
  (69376, 69404); (69424, 69445); (69488, 69505); (69552, 69572); (69600, 69622); (69635, 69687); (69745, 69746);
  (69763, 69807); (69840, 69864); (69891, 69926); (69968, 70002); (70019, 70066); (70081, 70084); (70144, 70161);
  (70163, 70187); (70272, 70278); (70282, 70285); (70287, 70301); (70303, 70312); (70320, 70366); (70405, 70412);
  (70415, 70416); (70419, 70440); (70442, 70448); (70450, 70451); (70453, 70457); (70493, 70497); (70656, 70708);
  (70727, 70730); (70751, 70753); (70784, 70831); (70852, 70853); (71040, 71086); (71128, 71131); (71168, 71215);
  (71296, 71338); (71424, 71450); (71488, 71494); (71680, 71723); (71840, 71903); (71935, 71942); (71948, 71955);
  (71957, 71958); (71960, 71983); (72096, 72103); (72106, 72144); (72203, 72242); (72284, 72329); (72368, 72440);
  (72704, 72712); (72714, 72750); (72818, 72847); (72960, 72966); (72968, 72969); (72971, 73008); (73056, 73061);
  (73063, 73064); (73066, 73097); (73440, 73458); (73728, 74649); (74752, 74862); (74880, 75075); (77712, 77808);
  (77824, 78894); (82944, 83526); (92160, 92728); (92736, 92766); (92784, 92862); (92880, 92909); (92928, 92975);
  (92992, 92995); (93027, 93047); (93053, 93071); (93760, 93823); (93952, 94026); (94099, 94111); (94176, 94177);
  (94208, 100343); (100352, 101589); (101632, 101640); (110576, 110579); (110581, 110587); (110589, 110590); (110592, 110882);
  (110928, 110930); (110948, 110951); (110960, 111355); (113664, 113770); (113776, 113788); (113792, 113800); (113808, 113817);
  (119808, 119892); (119894, 119964); (119966, 119967); (119973, 119974); (119977, 119980); (119982, 119993); (119997, 120003);
  (120005, 120069); (120071, 120074); (120077, 120084); (120086, 120092); (120094, 120121); (120123, 120126); (120128, 120132);
  (120138, 120144); (120146, 120485); (120488, 120512); (120514, 120538); (120540, 120570); (120572, 120596); (120598, 120628);
  (120630, 120654); (120656, 120686); (120688, 120712); (120714, 120744); (120746, 120770); (120772, 120779); (122624, 122633);
  (122635, 122654); (123136, 123180); (123191, 123197); (123536, 123565); (123584, 123627); (124896, 124902); (124904, 124907);
  (124909, 124910); (124912, 124926); (124928, 125124); (125184, 125251); (126464, 126467); (126469, 126495); (126497, 126498);
  (126505, 126514); (126516, 126519); (126541, 126543); (126545, 126546); (126561, 126562); (126567, 126570); (126572, 126578);
  (126580, 126583); (126585, 126588); (126592, 126601); (126603, 126619); (126625, 126627); (126629, 126633); (126635, 126651);
  (131072, 173791); (173824, 177976); (177984, 178205); (178208, 183969); (183984, 191456); (194560, 195101); (196608, 201546)
  ].

(** EXACT_MATCHES_ID_CONTINUE, lines 563-565 *)
Definition exact_matches_id_continue : list N := [
  95; 170; 181; 183; 186; 443; 660; 748; 750; 884; 890; 895; 902; 903; 908; 1369; 1471; 1479; 1600; 1648; 1749;
  1791; 1808; 1809; 1969; 2042; 2045; 2074; 2084; 2088; 2249; 2307; 2362; 2363; 2364; 2365; 2381; 2384; 2417; 2433;
  2482; 2492; 2493; 2509; 2510; 2519; 2556; 2558; 2563; 2620; 2641; 2654; 2677; 2691; 2748; 2749; 2761; 2765; 2768;
  2809; 2817; 2876; 2877; 2878; 2879; 2880; 2893; 2903; 2929; 2946; 2947; 2972; 3008; 3021; 3024; 3031; 3072; 3076;
  3132; 3133; 3165; 3200; 3201; 3260; 3261; 3262; 3263; 3270; 3389; 3405; 3406; 3415; 3457; 3517; 3530; 3542; 3633;
  3654; 3716; 3749; 3761; 3773; 3782; 3840; 3893; 3895; 3897; 3967; 4038; 4145; 4152; 4159; 4193; 4226; 4237; 4238;
  4239; 4253; 4295; 4301; 4348; 4696; 4800; 5909; 5940; 6070; 6086; 6103; 6108; 6109; 6159; 6211; 6313; 6314; 6450;
  6618; 6683; 6741; 6742; 6743; 6752; 6753; 6754; 6783; 6823; 6916; 6964; 6965; 6971; 6972; 6978; 7042; 7073; 7082;
  7142; 7143; 7149; 7150; 7393; 7405; 7412; 7415; 7418; 7544; 8025; 8027; 8029; 8126; 8276; 8305; 8319; 8417; 8450;
  8455; 8469; 8472; 8484; 8486; 8488; 8494; 8505; 8526; 11559; 11565; 11631; 11647; 12293; 12294; 12295; 12347;
  12348; 12447; 12543; 40981; 42508; 42606; 42607; 42623; 42864; 42888; 42895; 42963; 42999; 43002; 43010; 43014;
  43019; 43047; 43052; 43259; 43263; 43395; 43443; 43471; 43493; 43494; 43587; 43596; 43597; 43632; 43642; 43643;
  43644; 43645; 43696; 43697; 43712; 43713; 43714; 43741; 43755; 43762; 43765; 43766; 43881; 44005; 44008; 44012;
  44013; 64285; 64286; 64318; 65343; 65392; 4127; 68; 4142; 48; 4148; 49; 4148; 65; 4224; 56; 4227; 67; 4256; 48;
  4259; 70; 4338; 55; 4352; 48; 4352; 49; 4352; 50; 4359; 48; 4359; 53; 4360; 50; 4364; 50; 4370; 67; 4372; 52;
  4372; 55; 4375; 51; 4375; 54; 4376; 50; 4380; 69; 4380; 70; 4381; 65; 4381; 67; 4387; 52; 4387; 53; 4387; 69;
  4392; 56; 4397; 70; 4403; 68; 4404; 48; 4405; 48; 4405; 55; 4420; 53; 4420; 54; 4421; 69; 4427; 57; 4427; 65;
  4428; 49; 4428; 55; 4443; 69; 4451; 68; 4451; 69; 4452; 52; 4458; 66; 4458; 67; 4458; 68; 4459; 54; 4459; 55;
  4459; 56; 4466; 54; 4483; 56; 4496; 57; 4499; 68; 4499; 69; 4499; 70; 4500; 48; 4500; 49; 4500; 50; 4500; 51;
  4510; 48; 4510; 49; 4510; 51; 4510; 52; 4512; 48; 4515; 57; 4515; 65; 4516; 55; 4517; 48; 4521; 55; 4521; 68;
  4546; 70; 4547; 69; 4547; 70; 4548; 48; 4554; 57; 4555; 49; 4555; 52; 4563; 65; 4564; 54; 4564; 55; 4569; 53;
  4569; 54; 4569; 55; 4569; 56; 4603; 48; 5876; 70; 5877; 48; 5886; 51; 5886; 52; 7498; 50; 7499; 66; 7508; 54;
  7591; 53; 7592; 52; 7664; 65; 7700; 69; 7722; 69; 7828; 66; 7906; 52; 7906; 55; 7907; 57; 7907; 66; 7908; 50;
  7908; 55; 7908; 57; 7908; 66; 7909; 52; 7909; 55; 7909; 57; 7909; 66; 7909; 68; 7909; 70; 7910; 52; 7911; 69].

(** MATCH_RANGES_ID_CONTINUE, lines 567-1518 *)
Definition match_ranges_id_continue : list (N * N) := [
  (48, 57); (65, 90); (97, 122); (192, 214); (216, 246); (248, 442); (444, 447); (448, 451); (452, 659); (661, 687);
  (688, 705); (710, 721); (736, 740); (768, 879); (880, 883); (886, 887); (891, 893); (904, 906); (910, 929); (931, 1013);
  (1015, 1153); (1155, 1159); (1162, 1327); (1329, 1366); (1376, 1416); (1425, 1469); (1473, 1474); (1476, 1477);
  (1488, 1514); (1519, 1522); (1552, 1562); (1568, 1599); (1601, 1610); (1611, 1631); (1632, 1641); (1646, 1647);
  (1649, 1747); (1750, 1756); (1759, 1764); (1765, 1766); (1767, 1768); (1770, 1773); (1774, 1775); (1776, 1785);
  (1786, 1788); (1810, 1839); (1840, 1866); (1869, 1957); (1958, 1968); (1984, 1993); (1994, 2026); (2027, 2035);
  (2036, 2037); (2048, 2069); (2070, 2073); (2075, 2083); (2085, 2087); (2089, 2093); (2112, 2136); (2137, 2139);
  (2144, 2154); (2160, 2183); (2185, 2190); (2200, 2207); (2208, 2248); (2250, 2273); (2275, 2306); (2308, 2361);
  (2366, 2368); (2369, 2376); (2377, 2380); (2382, 2383); (2385, 2391); (2392, 2401); (2402, 2403); (2406, 2415);
  (2418, 2432); (2434, 2435); (2437, 2444); (2447, 2448); (2451, 2472); (2474, 2480); (2486, 2489); (2494, 2496);
  (2497, 2500); (2503, 2504); (2507, 2508); (2524, 2525); (2527, 2529); (2530, 2531); (2534, 2543); (2544, 2545);
  (2561, 2562); (2565, 2570); (2575, 2576); (2579, 2600); (2602, 2608); (2610, 2611); (2613, 2614); (2616, 2617);
  (2622, 2624); (2625, 2626); (2631, 2632); (2635, 2637); (2649, 2652); (2662, 2671); (2672, 2673); (2674, 2676);
  (2689, 2690); (2693, 2701); (2703, 2705); (2707, 2728); (2730, 2736); (2738, 2739); (2741, 2745); (2750, 2752);
  (2753, 2757); (2759, 2760); (2763, 2764); (2784, 2785); (2786, 2787); (2790, 2799); (2810, 2815); (2818, 2819);
  (2821, 2828); (2831, 2832); (2835, 2856); (2858, 2864); (2866, 2867); (2869, 2873); (2881, 2884); (2887, 2888);
  (2891, 2892); (2901, 2902); (2908, 2909); (2911, 2913); (2914, 2915); (2918, 2927); (2949, 2954); (2958, 2960);
  (2962, 2965); (2969, 2970); (2974, 2975); (2979, 2980); (2984, 2986); (2990, 3001); (3006, 3007); (3009, 3010);
  (3014, 3016); (3018, 3020); (3046, 3055); (3073, 3075); (3077, 3084); (3086, 3088); (3090, 3112); (3114, 3129);
  (3134, 3136); (3137, 3140); (3142, 3144); (3146, 3149); (3157, 3158); (3160, 3162); (3168, 3169); (3170, 3171);
  (3174, 3183); (3202, 3203); (3205, 3212); (3214, 3216); (3218, 3240); (3242, 3251); (3253, 3257); (3264, 3268);
  (3271, 3272); (3274, 3275); (3276, 3277); (3285, 3286); (3293, 3294); (3296, 3297); (3298, 3299); (3302, 3311);
  (3313, 3314); (3328, 3329); (3330, 3331); (3332, 3340); (3342, 3344); (3346, 3386); (3387, 3388); (3390, 3392);
  (3393, 3396); (3398, 3400); (3402, 3404); (3412, 3414); (3423, 3425); (3426, 3427); (3430, 3439); (3450, 3455);
  (3458, 3459); (3461, 3478); (3482, 3505); (3507, 3515); (3520, 3526); (3535, 3537); (3538, 3540); (3544, 3551);
  (3558, 3567); (3570, 3571); (3585, 3632); (3634, 3635); (3636, 3642); (3648, 3653); (3655, 3662); (3664, 3673);
  (3713, 3714); (3718, 3722); (3724, 3747); (3751, 3760); (3762, 3763); (3764, 3772); (3776, 3780); (3784, 3789);
  (3792, 3801); (3804, 3807); (3864, 3865); (3872, 3881); (3902, 3903); (3904, 3911); (3913, 3948); (3953, 3966);
  (3968, 3972); (3974, 3975); (3976, 3980); (3981, 3991); (3993, 4028); (4096, 4138); (4139, 4140); (4141, 4144);
  (4146, 4151); (4153, 4154); (4155, 4156); (4157, 4158); (4160, 4169); (4176, 4181); (4182, 4183); (4184, 4185);
  (4186, 4189); (4190, 4192); (4194, 4196); (4197, 4198); (4199, 4205); (4206, 4208); (4209, 4212); (4213, 4225);
  (4227, 4228); (4229, 4230); (4231, 4236); (4240, 4249); (4250, 4252); (4256, 4293); (4304, 4346); (4349, 4351);
  (4352, 4680); (4682, 4685); (4688, 4694); (4698, 4701); (4704, 4744); (4746, 4749); (4752, 4784); (4786, 4789);
  (4792, 4798); (4802, 4805); (4808, 4822); (4824, 4880); (4882, 4885); (4888, 4954); (4957, 4959); (4969, 4977);
  (4992, 5007); (5024, 5109); (5112, 5117); (5121, 5740); (5743, 5759); (5761, 5786); (5792, 5866); (5870, 5872);
  (5873, 5880); (5888, 5905); (5906, 5908); (5919, 5937); (5938, 5939); (5952, 5969); (5970, 5971); (5984, 5996);
  (5998, 6000); (6002, 6003); (6016, 6067); (6068, 6069); (6071, 6077); (6078, 6085); (6087, 6088); (6089, 6099);
  (6112, 6121); (6155, 6157); (6160, 6169); (6176, 6210); (6212, 6264); (6272, 6276); (6277, 6278); (6279, 6312);
  (6320, 6389); (6400, 6430); (6432, 6434); (6435, 6438); (6439, 6440); (6441, 6443); (6448, 6449); (6451, 6456);
  (6457, 6459); (6470, 6479); (6480, 6509); (6512, 6516); (6528, 6571); (6576, 6601); (6608, 6617); (6656, 6678);
  (6679, 6680); (6681, 6682); (6688, 6740); (6744, 6750); (6755, 6756); (6757, 6764); (6765, 6770); (6771, 6780);
  (6784, 6793); (6800, 6809); (6832, 6845); (6847, 6862); (6912, 6915); (6917, 6963); (6966, 6970); (6973, 6977);
  (6979, 6980); (6981, 6988); (6992, 7001); (7019, 7027); (7040, 7041); (7043, 7072); (7074, 7077); (7078, 7079);
  (7080, 7081); (7083, 7085); (7086, 7087); (7088, 7097); (7098, 7141); (7144, 7145); (7146, 7148); (7151, 7153);
  (7154, 7155); (7168, 7203); (7204, 7211); (7212, 7219); (7220, 7221); (7222, 7223); (7232, 7241); (7245, 7247);
  (7248, 7257); (7258, 7287); (7288, 7293); (7296, 7304); (7312, 7354); (7357, 7359); (7376, 7378); (7380, 7392);
  (7394, 7400); (7401, 7404); (7406, 7411); (7413, 7414); (7416, 7417); (7424, 7467); (7468, 7530); (7531, 7543);
  (7545, 7578); (7579, 7615); (7616, 7679); (7680, 7957); (7960, 7965); (7968, 8005); (8008, 8013); (8016, 8023);
  (8031, 8061); (8064, 8116); (8118, 8124); (8130, 8132); (8134, 8140); (8144, 8147); (8150, 8155); (8160, 8172);
  (8178, 8180); (8182, 8188); (8255, 8256); (8336, 8348); (8400, 8412); (8421, 8432); (8458, 8467); (8473, 8477);
  (8490, 8493); (8495, 8500); (8501, 8504); (8508, 8511); (8517, 8521); (8544, 8578); (8579, 8580); (8581, 8584);
  (11264, 11387); (11388, 11389); (11390, 11492); (11499, 11502); (11503, 11505); (11506, 11507); (11520, 11557);
  (11568, 11623); (11648, 11670); (11680, 11686); (11688, 11694); (11696, 11702); (11704, 11710); (11712, 11718);
  (11720, 11726); (11728, 11734); (11736, 11742); (11744, 11775); (12321, 12329); (12330, 12333); (12334, 12335);
  (12337, 12341); (12344, 12346); (12353, 12438); (12441, 12442); (12443, 12444); (12445, 12446); (12449, 12538);
  (12540, 12542); (12549, 12591); (12593, 12686); (12704, 12735); (12784, 12799); (13312, 19903); (19968, 40980);
  (40982, 42124); (42192, 42231); (42232, 42237); (42240, 42507); (42512, 42527); (42528, 42537); (42538, 42539);
  (42560, 42605); (42612, 42621); (42624, 42651); (42652, 42653); (42654, 42655); (42656, 42725); (42726, 42735);
  (42736, 42737); (42775, 42783); (42786, 42863); (42865, 42887); (42891, 42894); (42896, 42954); (42960, 42961);
  (42965, 42969); (42994, 42996); (42997, 42998); (43000, 43001); (43003, 43009); (43011, 43013); (43015, 43018);
  (43020, 43042); (43043, 43044); (43045, 43046); (43072, 43123); (43136, 43137); (43138, 43187); (43188, 43203);
  (43204, 43205); (43216, 43225); (43232, 43249); (43250, 43255); (43261, 43262); (43264, 43273); (43274, 43301);
  (43302, 43309); (43312, 43334); (43335, 43345); (43346, 43347); (43360, 43388); (43392, 43394); (43396, 43442);
  (43444, 43445); (43446, 43449); (43450, 43451); (43452, 43453); (43454, 43456); (43472, 43481); (43488, 43492);
  (43495, 43503); (43504, 43513); (43514, 43518); (43520, 43560); (43561, 43566); (43567, 43568); (43569, 43570);
  (43571, 43572); (43573, 43574); (43584, 43586); (43588, 43595); (43600, 43609); (43616, 43631); (43633, 43638);
  (43646, 43695); (43698, 43700); (43701, 43702); (43703, 43704); (43705, 43709); (43710, 43711); (43739, 43740);
  (43744, 43754); (43756, 43757); (43758, 43759); (43763, 43764); (43777, 43782); (43785, 43790); (43793, 43798);
  (43808, 43814); (43816, 43822); (43824, 43866); (43868, 43871); (43872, 43880); (43888, 43967); (43968, 44002);
  (44003, 44004); (44006, 44007); (44009, 44010); (44016, 44025); (44032, 55203); (55216, 55238); (55243, 55291);
  (63744, 64109); (64112, 64217); (64256, 64262); (64275, 64279); (64287, 64296); (64298, 64310); (64312, 64316);
  (64320, 64321); (64323, 64324); (64326, 64433); (64467, 64829); (64848, 64911); (64914, 64967); (65008, 65019);
  (65024, 65039); (65056, 65071); (65075, 65076); (65101, 65103); (65136, 65140); (65142, 65276); (65296, 65305);
  (65313, 65338); (65345, 65370); (65382, 65391); (65393, 65437); (65438, 65439); (65440, 65470); (65474, 65479);
  (65482, 65487); (65490, 65495); (65498, 65500); (65536, 65547); (65549, 65574); (65576, 65594); (65596, 65597);
  (65599, 65613); (65616, 65629); (65664, 65786); (65856, 65908); (66176, 66204); (66208, 66256); (66304, 66335);
  (66349, 66368); (66370, 66377); (66384, 66421); (66422, 66426); (66432, 66461); (66464, 66499); (66504, 66511);
  (66513, 66517); (66560, 66639); (66640, 66717); (66720, 66729); (66736, 66771); (66776, 66811); (66816, 66855);
  (66864, 66915); (66928, 66938); (66940, 66954); (66956, 66962); (66964, 66965); (66967, 66977); (66979, 66993);
  (66995, 67001); (67003, 67004); (67072, 67382); (67392, 67413); (67424, 67431); (67456, 67461); (67463, 67504);
  (67506, 67514); (67584, 67589); (67594, 67637); (67639, 67640); (67647, 67669); (67680, 67702); (67712, 67742);
  (67808, 67826); (67828, 67829); (67840, 67861); (67872, 67897); (67968, 68023); (68030, 68031); (68097, 68099);
  (68101, 68102); (68108, 68111); (68112, 68115); (68117, 68119); (68121, 68149); (68152, 68154); (68192, 68220);
  (68224, 68252); (68288, 68295); (68297, 68324); (68325, 68326); (68352, 68405); (68416, 68437); (68448, 68466);
  (68480, 68497); (68608, 68680); (68736, 68786); (68800, 68850); (68864, 68899); (68900, 68903); (68912, 68921);
  (69248, 69289); (69291, 69292); (69296, 69297); (69376, 69404); (69424, 69445); (69446, 69456); (69488, 69505);
  (69506, 69509); (69552, 69572); (69600, 69622); (69635, 69687); (69688, 69702); (69734, 69743); (69745, 69746);
  (69747, 69748); (69759, 69761); (69763, 69807); (69808, 69810); (69811, 69814); (69815, 69816); (69817, 69818);
  (69840, 69864); (69872, 69881); (69888, 69890); (69891, 69926); (69927, 69931); (69933, 69940); (69942, 69951);
  (69957, 69958); (69968, 70002); (70016, 70017); (70019, 70066); (70067, 70069); (70070, 70078); (70079, 70080);
  (70081, 70084); (70089, 70092); (70096, 70105); (70144, 70161); (70163, 70187); (70188, 70190); (70191, 70193);
  (70194, 70195); (70198, 70199); (70272, 70278); (70282, 70285); (70287, 70301); (70303, 70312); (70320, 70366);
  (70368, 70370); (70371, 70378); (70384, 70393); (70400, 70401); (70402, 70403); (70405, 70412); (70415, 70416);
  (70419, 70440); (70442, 70448); (70450, 70451); (70453, 70457); (70459, 70460); (70462, 70463); (70465, 70468);
  (70471, 70472); (70475, 70477); (70493, 70497); (70498, 70499); (70502, 70508); (70512, 70516); (70656, 70708);
  (70709, 70711); (70712, 70719); (70720, 70721); (70722, 70724); (70727, 70730); (70736, 70745); (70751, 70753);
  (70784, 70831); (70832, 70834); (70835, 70840); (70843, 70846); (70847, 70848); (70850, 70851); (70852, 70853);
  (70864, 70873); (71040, 71086); (71087, 71089); (71090, 71093); (71096, 71099); (71100, 71101); (71103, 71104);
  (71128, 71131); (71132, 71133); (71168, 71215); (71216, 71218); (71219, 71226); (71227, 71228); (71231, 71232);
  (71248, 71257); (71296, 71338); (71342, 71343); (71344, 71349); (71360, 71369); (71424, 71450); (71453, 71455);
  (71456, 71457); (71458, 71461); (71463, 71467); (71472, 71481); (71488, 71494); (71680, 71723); (71724, 71726);
  (71727, 71735); (71737, 71738); (71840, 71903); (71904, 71913); (71935, 71942); (71948, 71955); (71957, 71958);
  (71960, 71983); (71984, 71989); (71991, 71992); (71995, 71996); (72016, 72025); (72096, 72103); (72106, 72144);
  (72145, 72147); (72148, 72151); (72154, 72155); (72156, 72159); (72193, 72202); (72203, 72242); (72243, 72248);
  (72251, 72254); (72273, 72278); (72279, 72280); (72281, 72283); (72284, 72329); (72330, 72342); (72344, 72345);
  (72368, 72440); (72704, 72712); (72714, 72750); (72752, 72758); (72760, 72765); (72784, 72793); (72818, 72847);
  (72850, 72871); (72874, 72880); (72882, 72883); (72885, 72886); (72960, 72966); (72968, 72969); (72971, 73008);
  (73009, 73014); (73020, 73021); (73023, 73029); (73040, 73049); (73056, 73061); (73063, 73064); (73066, 73097);
  (73098, 73102); (73104, 73105); (73107, 73108); (73120, 73129); (73440, 73458); (73459, 73460); (73461, 73462);
  (73728, 74649); (74752, 74862); (74880, 75075); (77712, 77808); (77824, 78894); (82944, 83526); (92160, 92728);
  (92736, 92766); (92768, 92777); (92784, 92862); (92864, 92873); (92880, 92909); (92912, 92916); (92928, 92975);
  (92976, 92982); (92992, 92995); (93008, 93017); (93027, 93047); (93053, 93071); (93760, 93823); (93952, 94026);
  (94033, 94087); (94095, 94098); (94099, 94111); (94176, 94177); (94192, 94193); (94208, 100343); (100352, 101589);
  (101632, 101640); (110576, 110579); (110581, 110587); (110589, 110590); (110592, 110882); (110928, 110930); (110948, 110951);
  (110960, 111355); (113664, 113770); (113776, 113788); (113792, 113800); (113808, 113817); (113821, 113822); (118528, 118573);
  (118576, 118598); (119141, 119142); (119143, 119145); (119149, 119154); (119163, 119170); (119173, 119179); (119210, 119213);
  (119362, 119364); (119808, 119892); (119894, 119964); (119966, 119967); (119973, 119974); (119977, 119980); (119982, 119993);
  (119997, 120003); (120005, 120069); (120071, 120074); (120077, 120084); (120086, 120092); (120094, 120121); (120123, 120126);
  (120128, 120132); (120138, 120144); (120146, 120485); (120488, 120512); (120514, 120538); (120540, 120570); (120572, 120596);
  (120598, 120628); (120630, 120654); (120656, 120686); (120688, 120712); (120714, 120744); (120746, 120770); (120772, 120779);
  (120782, 120831); (121344, 121398); (121403, 121452); (121499, 121503); (121505, 121519); (122624, 122633); (122635, 122654);
  (122880, 122886); (122888, 122904); (122907, 122913); (122915, 122916); (122918, 122922); (123136, 123180); (123184, 123190);
  (123191, 123197); (123200, 123209); (123536, 123565); (123584, 123627); (123628, 123631); (123632, 123641); (124896, 124902);
  (124904, 124907); (124909, 124910); (124912, 124926); (124928, 125124); (125136, 125142); (125184, 125251); (125252, 125258);
  (125264, 125273); (126464, 126467); (126469, 126495); (126497, 126498); (126505, 126514); (126516, 126519); (126541, 126543);
  (126545, 126546); (126561, 126562); (126567, 126570); (126572, 126578); (126580, 126583); (126585, 126588); (126592, 126601);
  (126603, 126619); (126625, 126627); (126629, 126633); (126635, 126651); (130032, 130041); (131072, 173791); (173824, 177976);
  (177984, 178205); (178208, 183969); (183984, 191456); (194560, 195101); (196608, 201546); (917760, 917999)].
