(** * Unicode character tables (GENERATED by tools/gen_unicode.py; do not edit).

    CPython's own tables, Unicode 14.0.0: [str.isspace], [str.isdecimal],
    [str.isalnum], [str.lower], [str.upper], and unicodedata's canonical
    decomposition, combining class and composition data.  They stand for
    CPython data, not for code in /repo. *)
From Coq Require Import List NArith.
Import ListNotations.
Open Scope N_scope.

Definition space_ranges : list (N * N) :=
  [(9, 13); (28, 32); (133, 133); (160, 160); (5760, 5760); (8192, 8202);
   (8232, 8233); (8239, 8239); (8287, 8287); (12288, 12288)].

Definition digit_ranges : list (N * N) :=
  [(48, 57); (1632, 1641); (1776, 1785); (1984, 1993); (2406, 2415); (2534, 2543);
   (2662, 2671); (2790, 2799); (2918, 2927); (3046, 3055); (3174, 3183); (3302, 3311);
   (3430, 3439); (3558, 3567); (3664, 3673); (3792, 3801); (3872, 3881); (4160, 4169);
   (4240, 4249); (6112, 6121); (6160, 6169); (6470, 6479); (6608, 6617); (6784, 6793);
   (6800, 6809); (6992, 7001); (7088, 7097); (7232, 7241); (7248, 7257); (42528, 42537);
   (43216, 43225); (43264, 43273); (43472, 43481); (43504, 43513); (43600, 43609); (44016, 44025);
   (65296, 65305); (66720, 66729); (68912, 68921); (69734, 69743); (69872, 69881); (69942, 69951);
   (70096, 70105); (70384, 70393); (70736, 70745); (70864, 70873); (71248, 71257); (71360, 71369);
   (71472, 71481); (71904, 71913); (72016, 72025); (72784, 72793); (73040, 73049); (73120, 73129);
   (92768, 92777); (92864, 92873); (93008, 93017); (120782, 120831); (123200, 123209); (123632, 123641);
   (125264, 125273); (130032, 130041)].

Definition alnum_ranges : list (N * N) :=
  [(48, 57); (65, 90); (97, 122); (170, 170); (178, 179); (181, 181);
   (185, 186); (188, 190); (192, 214); (216, 246); (248, 705); (710, 721);
   (736, 740); (748, 748); (750, 750); (880, 884); (886, 887); (890, 893);
   (895, 895); (902, 902); (904, 906); (908, 908); (910, 929); (931, 1013);
   (1015, 1153); (1162, 1327); (1329, 1366); (1369, 1369); (1376, 1416); (1488, 1514);
   (1519, 1522); (1568, 1610); (1632, 1641); (1646, 1647); (1649, 1747); (1749, 1749);
   (1765, 1766); (1774, 1788); (1791, 1791); (1808, 1808); (1810, 1839); (1869, 1957);
   (1969, 1969); (1984, 2026); (2036, 2037); (2042, 2042); (2048, 2069); (2074, 2074);
   (2084, 2084); (2088, 2088); (2112, 2136); (2144, 2154); (2160, 2183); (2185, 2190);
   (2208, 2249); (2308, 2361); (2365, 2365); (2384, 2384); (2392, 2401); (2406, 2415);
   (2417, 2432); (2437, 2444); (2447, 2448); (2451, 2472); (2474, 2480); (2482, 2482);
   (2486, 2489); (2493, 2493); (2510, 2510); (2524, 2525); (2527, 2529); (2534, 2545);
   (2548, 2553); (2556, 2556); (2565, 2570); (2575, 2576); (2579, 2600); (2602, 2608);
   (2610, 2611); (2613, 2614); (2616, 2617); (2649, 2652); (2654, 2654); (2662, 2671);
   (2674, 2676); (2693, 2701); (2703, 2705); (2707, 2728); (2730, 2736); (2738, 2739);
   (2741, 2745); (2749, 2749); (2768, 2768); (2784, 2785); (2790, 2799); (2809, 2809);
   (2821, 2828); (2831, 2832); (2835, 2856); (2858, 2864); (2866, 2867); (2869, 2873);
   (2877, 2877); (2908, 2909); (2911, 2913); (2918, 2927); (2929, 2935); (2947, 2947);
   (2949, 2954); (2958, 2960); (2962, 2965); (2969, 2970); (2972, 2972); (2974, 2975);
   (2979, 2980); (2984, 2986); (2990, 3001); (3024, 3024); (3046, 3058); (3077, 3084);
   (3086, 3088); (3090, 3112); (3114, 3129); (3133, 3133); (3160, 3162); (3165, 3165);
   (3168, 3169); (3174, 3183); (3192, 3198); (3200, 3200); (3205, 3212); (3214, 3216);
   (3218, 3240); (3242, 3251); (3253, 3257); (3261, 3261); (3293, 3294); (3296, 3297);
   (3302, 3311); (3313, 3314); (3332, 3340); (3342, 3344); (3346, 3386); (3389, 3389);
   (3406, 3406); (3412, 3414); (3416, 3425); (3430, 3448); (3450, 3455); (3461, 3478);
   (3482, 3505); (3507, 3515); (3517, 3517); (3520, 3526); (3558, 3567); (3585, 3632);
   (3634, 3635); (3648, 3654); (3664, 3673); (3713, 3714); (3716, 3716); (3718, 3722);
   (3724, 3747); (3749, 3749); (3751, 3760); (3762, 3763); (3773, 3773); (3776, 3780);
   (3782, 3782); (3792, 3801); (3804, 3807); (3840, 3840); (3872, 3891); (3904, 3911);
   (3913, 3948); (3976, 3980); (4096, 4138); (4159, 4169); (4176, 4181); (4186, 4189);
   (4193, 4193); (4197, 4198); (4206, 4208); (4213, 4225); (4238, 4238); (4240, 4249);
   (4256, 4293); (4295, 4295); (4301, 4301); (4304, 4346); (4348, 4680); (4682, 4685);
   (4688, 4694); (4696, 4696); (4698, 4701); (4704, 4744); (4746, 4749); (4752, 4784);
   (4786, 4789); (4792, 4798); (4800, 4800); (4802, 4805); (4808, 4822); (4824, 4880);
   (4882, 4885); (4888, 4954); (4969, 4988); (4992, 5007); (5024, 5109); (5112, 5117);
   (5121, 5740); (5743, 5759); (5761, 5786); (5792, 5866); (5870, 5880); (5888, 5905);
   (5919, 5937); (5952, 5969); (5984, 5996); (5998, 6000); (6016, 6067); (6103, 6103);
   (6108, 6108); (6112, 6121); (6128, 6137); (6160, 6169); (6176, 6264); (6272, 6276);
   (6279, 6312); (6314, 6314); (6320, 6389); (6400, 6430); (6470, 6509); (6512, 6516);
   (6528, 6571); (6576, 6601); (6608, 6618); (6656, 6678); (6688, 6740); (6784, 6793);
   (6800, 6809); (6823, 6823); (6917, 6963); (6981, 6988); (6992, 7001); (7043, 7072);
   (7086, 7141); (7168, 7203); (7232, 7241); (7245, 7293); (7296, 7304); (7312, 7354);
   (7357, 7359); (7401, 7404); (7406, 7411); (7413, 7414); (7418, 7418); (7424, 7615);
   (7680, 7957); (7960, 7965); (7968, 8005); (8008, 8013); (8016, 8023); (8025, 8025);
   (8027, 8027); (8029, 8029); (8031, 8061); (8064, 8116); (8118, 8124); (8126, 8126);
   (8130, 8132); (8134, 8140); (8144, 8147); (8150, 8155); (8160, 8172); (8178, 8180);
   (8182, 8188); (8304, 8305); (8308, 8313); (8319, 8329); (8336, 8348); (8450, 8450);
   (8455, 8455); (8458, 8467); (8469, 8469); (8473, 8477); (8484, 8484); (8486, 8486);
   (8488, 8488); (8490, 8493); (8495, 8505); (8508, 8511); (8517, 8521); (8526, 8526);
   (8528, 8585); (9312, 9371); (9450, 9471); (10102, 10131); (11264, 11492); (11499, 11502);
   (11506, 11507); (11517, 11517); (11520, 11557); (11559, 11559); (11565, 11565); (11568, 11623);
   (11631, 11631); (11648, 11670); (11680, 11686); (11688, 11694); (11696, 11702); (11704, 11710);
   (11712, 11718); (11720, 11726); (11728, 11734); (11736, 11742); (11823, 11823); (12293, 12295);
   (12321, 12329); (12337, 12341); (12344, 12348); (12353, 12438); (12445, 12447); (12449, 12538);
   (12540, 12543); (12549, 12591); (12593, 12686); (12690, 12693); (12704, 12735); (12784, 12799);
   (12832, 12841); (12872, 12879); (12881, 12895); (12928, 12937); (12977, 12991); (13312, 19903);
   (19968, 42124); (42192, 42237); (42240, 42508); (42512, 42539); (42560, 42606); (42623, 42653);
   (42656, 42735); (42775, 42783); (42786, 42888); (42891, 42954); (42960, 42961); (42963, 42963);
   (42965, 42969); (42994, 43009); (43011, 43013); (43015, 43018); (43020, 43042); (43056, 43061);
   (43072, 43123); (43138, 43187); (43216, 43225); (43250, 43255); (43259, 43259); (43261, 43262);
   (43264, 43301); (43312, 43334); (43360, 43388); (43396, 43442); (43471, 43481); (43488, 43492);
   (43494, 43518); (43520, 43560); (43584, 43586); (43588, 43595); (43600, 43609); (43616, 43638);
   (43642, 43642); (43646, 43695); (43697, 43697); (43701, 43702); (43705, 43709); (43712, 43712);
   (43714, 43714); (43739, 43741); (43744, 43754); (43762, 43764); (43777, 43782); (43785, 43790);
   (43793, 43798); (43808, 43814); (43816, 43822); (43824, 43866); (43868, 43881); (43888, 44002);
   (44016, 44025); (44032, 55203); (55216, 55238); (55243, 55291); (63744, 64109); (64112, 64217);
   (64256, 64262); (64275, 64279); (64285, 64285); (64287, 64296); (64298, 64310); (64312, 64316);
   (64318, 64318); (64320, 64321); (64323, 64324); (64326, 64433); (64467, 64829); (64848, 64911);
   (64914, 64967); (65008, 65019); (65136, 65140); (65142, 65276); (65296, 65305); (65313, 65338);
   (65345, 65370); (65382, 65470); (65474, 65479); (65482, 65487); (65490, 65495); (65498, 65500);
   (65536, 65547); (65549, 65574); (65576, 65594); (65596, 65597); (65599, 65613); (65616, 65629);
   (65664, 65786); (65799, 65843); (65856, 65912); (65930, 65931); (66176, 66204); (66208, 66256);
   (66273, 66299); (66304, 66339); (66349, 66378); (66384, 66421); (66432, 66461); (66464, 66499);
   (66504, 66511); (66513, 66517); (66560, 66717); (66720, 66729); (66736, 66771); (66776, 66811);
   (66816, 66855); (66864, 66915); (66928, 66938); (66940, 66954); (66956, 66962); (66964, 66965);
   (66967, 66977); (66979, 66993); (66995, 67001); (67003, 67004); (67072, 67382); (67392, 67413);
   (67424, 67431); (67456, 67461); (67463, 67504); (67506, 67514); (67584, 67589); (67592, 67592);
   (67594, 67637); (67639, 67640); (67644, 67644); (67647, 67669); (67672, 67702); (67705, 67742);
   (67751, 67759); (67808, 67826); (67828, 67829); (67835, 67867); (67872, 67897); (67968, 68023);
   (68028, 68047); (68050, 68096); (68112, 68115); (68117, 68119); (68121, 68149); (68160, 68168);
   (68192, 68222); (68224, 68255); (68288, 68295); (68297, 68324); (68331, 68335); (68352, 68405);
   (68416, 68437); (68440, 68466); (68472, 68497); (68521, 68527); (68608, 68680); (68736, 68786);
   (68800, 68850); (68858, 68899); (68912, 68921); (69216, 69246); (69248, 69289); (69296, 69297);
   (69376, 69415); (69424, 69445); (69457, 69460); (69488, 69505); (69552, 69579); (69600, 69622);
   (69635, 69687); (69714, 69743); (69745, 69746); (69749, 69749); (69763, 69807); (69840, 69864);
   (69872, 69881); (69891, 69926); (69942, 69951); (69956, 69956); (69959, 69959); (69968, 70002);
   (70006, 70006); (70019, 70066); (70081, 70084); (70096, 70106); (70108, 70108); (70113, 70132);
   (70144, 70161); (70163, 70187); (70272, 70278); (70280, 70280); (70282, 70285); (70287, 70301);
   (70303, 70312); (70320, 70366); (70384, 70393); (70405, 70412); (70415, 70416); (70419, 70440);
   (70442, 70448); (70450, 70451); (70453, 70457); (70461, 70461); (70480, 70480); (70493, 70497);
   (70656, 70708); (70727, 70730); (70736, 70745); (70751, 70753); (70784, 70831); (70852, 70853);
   (70855, 70855); (70864, 70873); (71040, 71086); (71128, 71131); (71168, 71215); (71236, 71236);
   (71248, 71257); (71296, 71338); (71352, 71352); (71360, 71369); (71424, 71450); (71472, 71483);
   (71488, 71494); (71680, 71723); (71840, 71922); (71935, 71942); (71945, 71945); (71948, 71955);
   (71957, 71958); (71960, 71983); (71999, 71999); (72001, 72001); (72016, 72025); (72096, 72103);
   (72106, 72144); (72161, 72161); (72163, 72163); (72192, 72192); (72203, 72242); (72250, 72250);
   (72272, 72272); (72284, 72329); (72349, 72349); (72368, 72440); (72704, 72712); (72714, 72750);
   (72768, 72768); (72784, 72812); (72818, 72847); (72960, 72966); (72968, 72969); (72971, 73008);
   (73030, 73030); (73040, 73049); (73056, 73061); (73063, 73064); (73066, 73097); (73112, 73112);
   (73120, 73129); (73440, 73458); (73648, 73648); (73664, 73684); (73728, 74649); (74752, 74862);
   (74880, 75075); (77712, 77808); (77824, 78894); (82944, 83526); (92160, 92728); (92736, 92766);
   (92768, 92777); (92784, 92862); (92864, 92873); (92880, 92909); (92928, 92975); (92992, 92995);
   (93008, 93017); (93019, 93025); (93027, 93047); (93053, 93071); (93760, 93846); (93952, 94026);
   (94032, 94032); (94099, 94111); (94176, 94177); (94179, 94179); (94208, 100343); (100352, 101589);
   (101632, 101640); (110576, 110579); (110581, 110587); (110589, 110590); (110592, 110882); (110928, 110930);
   (110948, 110951); (110960, 111355); (113664, 113770); (113776, 113788); (113792, 113800); (113808, 113817);
   (119520, 119539); (119648, 119672); (119808, 119892); (119894, 119964); (119966, 119967); (119970, 119970);
   (119973, 119974); (119977, 119980); (119982, 119993); (119995, 119995); (119997, 120003); (120005, 120069);
   (120071, 120074); (120077, 120084); (120086, 120092); (120094, 120121); (120123, 120126); (120128, 120132);
   (120134, 120134); (120138, 120144); (120146, 120485); (120488, 120512); (120514, 120538); (120540, 120570);
   (120572, 120596); (120598, 120628); (120630, 120654); (120656, 120686); (120688, 120712); (120714, 120744);
   (120746, 120770); (120772, 120779); (120782, 120831); (122624, 122654); (123136, 123180); (123191, 123197);
   (123200, 123209); (123214, 123214); (123536, 123565); (123584, 123627); (123632, 123641); (124896, 124902);
   (124904, 124907); (124909, 124910); (124912, 124926); (124928, 125124); (125127, 125135); (125184, 125251);
   (125259, 125259); (125264, 125273); (126065, 126123); (126125, 126127); (126129, 126132); (126209, 126253);
   (126255, 126269); (126464, 126467); (126469, 126495); (126497, 126498); (126500, 126500); (126503, 126503);
   (126505, 126514); (126516, 126519); (126521, 126521); (126523, 126523); (126530, 126530); (126535, 126535);
   (126537, 126537); (126539, 126539); (126541, 126543); (126545, 126546); (126548, 126548); (126551, 126551);
   (126553, 126553); (126555, 126555); (126557, 126557); (126559, 126559); (126561, 126562); (126564, 126564);
   (126567, 126570); (126572, 126578); (126580, 126583); (126585, 126588); (126590, 126590); (126592, 126601);
   (126603, 126619); (126625, 126627); (126629, 126633); (126635, 126651); (127232, 127244); (130032, 130041);
   (131072, 173791); (173824, 177976); (177984, 178205); (178208, 183969); (183984, 191456); (194560, 195101);
   (196608, 201546)].

Definition letter_ranges : list (N * N) :=
  [(65, 90); (97, 122); (170, 170); (181, 181); (186, 186); (192, 214);
   (216, 246); (248, 705); (710, 721); (736, 740); (748, 748); (750, 750);
   (880, 884); (886, 887); (890, 893); (895, 895); (902, 902); (904, 906);
   (908, 908); (910, 929); (931, 1013); (1015, 1153); (1162, 1327); (1329, 1366);
   (1369, 1369); (1376, 1416); (1488, 1514); (1519, 1522); (1568, 1610); (1646, 1647);
   (1649, 1747); (1749, 1749); (1765, 1766); (1774, 1775); (1786, 1788); (1791, 1791);
   (1808, 1808); (1810, 1839); (1869, 1957); (1969, 1969); (1994, 2026); (2036, 2037);
   (2042, 2042); (2048, 2069); (2074, 2074); (2084, 2084); (2088, 2088); (2112, 2136);
   (2144, 2154); (2160, 2183); (2185, 2190); (2208, 2249); (2308, 2361); (2365, 2365);
   (2384, 2384); (2392, 2401); (2417, 2432); (2437, 2444); (2447, 2448); (2451, 2472);
   (2474, 2480); (2482, 2482); (2486, 2489); (2493, 2493); (2510, 2510); (2524, 2525);
   (2527, 2529); (2544, 2545); (2556, 2556); (2565, 2570); (2575, 2576); (2579, 2600);
   (2602, 2608); (2610, 2611); (2613, 2614); (2616, 2617); (2649, 2652); (2654, 2654);
   (2674, 2676); (2693, 2701); (2703, 2705); (2707, 2728); (2730, 2736); (2738, 2739);
   (2741, 2745); (2749, 2749); (2768, 2768); (2784, 2785); (2809, 2809); (2821, 2828);
   (2831, 2832); (2835, 2856); (2858, 2864); (2866, 2867); (2869, 2873); (2877, 2877);
   (2908, 2909); (2911, 2913); (2929, 2929); (2947, 2947); (2949, 2954); (2958, 2960);
   (2962, 2965); (2969, 2970); (2972, 2972); (2974, 2975); (2979, 2980); (2984, 2986);
   (2990, 3001); (3024, 3024); (3077, 3084); (3086, 3088); (3090, 3112); (3114, 3129);
   (3133, 3133); (3160, 3162); (3165, 3165); (3168, 3169); (3200, 3200); (3205, 3212);
   (3214, 3216); (3218, 3240); (3242, 3251); (3253, 3257); (3261, 3261); (3293, 3294);
   (3296, 3297); (3313, 3314); (3332, 3340); (3342, 3344); (3346, 3386); (3389, 3389);
   (3406, 3406); (3412, 3414); (3423, 3425); (3450, 3455); (3461, 3478); (3482, 3505);
   (3507, 3515); (3517, 3517); (3520, 3526); (3585, 3632); (3634, 3635); (3648, 3654);
   (3713, 3714); (3716, 3716); (3718, 3722); (3724, 3747); (3749, 3749); (3751, 3760);
   (3762, 3763); (3773, 3773); (3776, 3780); (3782, 3782); (3804, 3807); (3840, 3840);
   (3904, 3911); (3913, 3948); (3976, 3980); (4096, 4138); (4159, 4159); (4176, 4181);
   (4186, 4189); (4193, 4193); (4197, 4198); (4206, 4208); (4213, 4225); (4238, 4238);
   (4256, 4293); (4295, 4295); (4301, 4301); (4304, 4346); (4348, 4680); (4682, 4685);
   (4688, 4694); (4696, 4696); (4698, 4701); (4704, 4744); (4746, 4749); (4752, 4784);
   (4786, 4789); (4792, 4798); (4800, 4800); (4802, 4805); (4808, 4822); (4824, 4880);
   (4882, 4885); (4888, 4954); (4992, 5007); (5024, 5109); (5112, 5117); (5121, 5740);
   (5743, 5759); (5761, 5786); (5792, 5866); (5873, 5880); (5888, 5905); (5919, 5937);
   (5952, 5969); (5984, 5996); (5998, 6000); (6016, 6067); (6103, 6103); (6108, 6108);
   (6176, 6264); (6272, 6276); (6279, 6312); (6314, 6314); (6320, 6389); (6400, 6430);
   (6480, 6509); (6512, 6516); (6528, 6571); (6576, 6601); (6656, 6678); (6688, 6740);
   (6823, 6823); (6917, 6963); (6981, 6988); (7043, 7072); (7086, 7087); (7098, 7141);
   (7168, 7203); (7245, 7247); (7258, 7293); (7296, 7304); (7312, 7354); (7357, 7359);
   (7401, 7404); (7406, 7411); (7413, 7414); (7418, 7418); (7424, 7615); (7680, 7957);
   (7960, 7965); (7968, 8005); (8008, 8013); (8016, 8023); (8025, 8025); (8027, 8027);
   (8029, 8029); (8031, 8061); (8064, 8116); (8118, 8124); (8126, 8126); (8130, 8132);
   (8134, 8140); (8144, 8147); (8150, 8155); (8160, 8172); (8178, 8180); (8182, 8188);
   (8305, 8305); (8319, 8319); (8336, 8348); (8450, 8450); (8455, 8455); (8458, 8467);
   (8469, 8469); (8473, 8477); (8484, 8484); (8486, 8486); (8488, 8488); (8490, 8493);
   (8495, 8505); (8508, 8511); (8517, 8521); (8526, 8526); (8579, 8580); (11264, 11492);
   (11499, 11502); (11506, 11507); (11520, 11557); (11559, 11559); (11565, 11565); (11568, 11623);
   (11631, 11631); (11648, 11670); (11680, 11686); (11688, 11694); (11696, 11702); (11704, 11710);
   (11712, 11718); (11720, 11726); (11728, 11734); (11736, 11742); (11823, 11823); (12293, 12294);
   (12337, 12341); (12347, 12348); (12353, 12438); (12445, 12447); (12449, 12538); (12540, 12543);
   (12549, 12591); (12593, 12686); (12704, 12735); (12784, 12799); (13312, 19903); (19968, 42124);
   (42192, 42237); (42240, 42508); (42512, 42527); (42538, 42539); (42560, 42606); (42623, 42653);
   (42656, 42725); (42775, 42783); (42786, 42888); (42891, 42954); (42960, 42961); (42963, 42963);
   (42965, 42969); (42994, 43009); (43011, 43013); (43015, 43018); (43020, 43042); (43072, 43123);
   (43138, 43187); (43250, 43255); (43259, 43259); (43261, 43262); (43274, 43301); (43312, 43334);
   (43360, 43388); (43396, 43442); (43471, 43471); (43488, 43492); (43494, 43503); (43514, 43518);
   (43520, 43560); (43584, 43586); (43588, 43595); (43616, 43638); (43642, 43642); (43646, 43695);
   (43697, 43697); (43701, 43702); (43705, 43709); (43712, 43712); (43714, 43714); (43739, 43741);
   (43744, 43754); (43762, 43764); (43777, 43782); (43785, 43790); (43793, 43798); (43808, 43814);
   (43816, 43822); (43824, 43866); (43868, 43881); (43888, 44002); (44032, 55203); (55216, 55238);
   (55243, 55291); (63744, 64109); (64112, 64217); (64256, 64262); (64275, 64279); (64285, 64285);
   (64287, 64296); (64298, 64310); (64312, 64316); (64318, 64318); (64320, 64321); (64323, 64324);
   (64326, 64433); (64467, 64829); (64848, 64911); (64914, 64967); (65008, 65019); (65136, 65140);
   (65142, 65276); (65313, 65338); (65345, 65370); (65382, 65470); (65474, 65479); (65482, 65487);
   (65490, 65495); (65498, 65500); (65536, 65547); (65549, 65574); (65576, 65594); (65596, 65597);
   (65599, 65613); (65616, 65629); (65664, 65786); (66176, 66204); (66208, 66256); (66304, 66335);
   (66349, 66368); (66370, 66377); (66384, 66421); (66432, 66461); (66464, 66499); (66504, 66511);
   (66560, 66717); (66736, 66771); (66776, 66811); (66816, 66855); (66864, 66915); (66928, 66938);
   (66940, 66954); (66956, 66962); (66964, 66965); (66967, 66977); (66979, 66993); (66995, 67001);
   (67003, 67004); (67072, 67382); (67392, 67413); (67424, 67431); (67456, 67461); (67463, 67504);
   (67506, 67514); (67584, 67589); (67592, 67592); (67594, 67637); (67639, 67640); (67644, 67644);
   (67647, 67669); (67680, 67702); (67712, 67742); (67808, 67826); (67828, 67829); (67840, 67861);
   (67872, 67897); (67968, 68023); (68030, 68031); (68096, 68096); (68112, 68115); (68117, 68119);
   (68121, 68149); (68192, 68220); (68224, 68252); (68288, 68295); (68297, 68324); (68352, 68405);
   (68416, 68437); (68448, 68466); (68480, 68497); (68608, 68680); (68736, 68786); (68800, 68850);
   (68864, 68899); (69248, 69289); (69296, 69297); (69376, 69404); (69415, 69415); (69424, 69445);
   (69488, 69505); (69552, 69572); (69600, 69622); (69635, 69687); (69745, 69746); (69749, 69749);
   (69763, 69807); (69840, 69864); (69891, 69926); (69956, 69956); (69959, 69959); (69968, 70002);
   (70006, 70006); (70019, 70066); (70081, 70084); (70106, 70106); (70108, 70108); (70144, 70161);
   (70163, 70187); (70272, 70278); (70280, 70280); (70282, 70285); (70287, 70301); (70303, 70312);
   (70320, 70366); (70405, 70412); (70415, 70416); (70419, 70440); (70442, 70448); (70450, 70451);
   (70453, 70457); (70461, 70461); (70480, 70480); (70493, 70497); (70656, 70708); (70727, 70730);
   (70751, 70753); (70784, 70831); (70852, 70853); (70855, 70855); (71040, 71086); (71128, 71131);
   (71168, 71215); (71236, 71236); (71296, 71338); (71352, 71352); (71424, 71450); (71488, 71494);
   (71680, 71723); (71840, 71903); (71935, 71942); (71945, 71945); (71948, 71955); (71957, 71958);
   (71960, 71983); (71999, 71999); (72001, 72001); (72096, 72103); (72106, 72144); (72161, 72161);
   (72163, 72163); (72192, 72192); (72203, 72242); (72250, 72250); (72272, 72272); (72284, 72329);
   (72349, 72349); (72368, 72440); (72704, 72712); (72714, 72750); (72768, 72768); (72818, 72847);
   (72960, 72966); (72968, 72969); (72971, 73008); (73030, 73030); (73056, 73061); (73063, 73064);
   (73066, 73097); (73112, 73112); (73440, 73458); (73648, 73648); (73728, 74649); (74880, 75075);
   (77712, 77808); (77824, 78894); (82944, 83526); (92160, 92728); (92736, 92766); (92784, 92862);
   (92880, 92909); (92928, 92975); (92992, 92995); (93027, 93047); (93053, 93071); (93760, 93823);
   (93952, 94026); (94032, 94032); (94099, 94111); (94176, 94177); (94179, 94179); (94208, 100343);
   (100352, 101589); (101632, 101640); (110576, 110579); (110581, 110587); (110589, 110590); (110592, 110882);
   (110928, 110930); (110948, 110951); (110960, 111355); (113664, 113770); (113776, 113788); (113792, 113800);
   (113808, 113817); (119808, 119892); (119894, 119964); (119966, 119967); (119970, 119970); (119973, 119974);
   (119977, 119980); (119982, 119993); (119995, 119995); (119997, 120003); (120005, 120069); (120071, 120074);
   (120077, 120084); (120086, 120092); (120094, 120121); (120123, 120126); (120128, 120132); (120134, 120134);
   (120138, 120144); (120146, 120485); (120488, 120512); (120514, 120538); (120540, 120570); (120572, 120596);
   (120598, 120628); (120630, 120654); (120656, 120686); (120688, 120712); (120714, 120744); (120746, 120770);
   (120772, 120779); (122624, 122654); (123136, 123180); (123191, 123197); (123214, 123214); (123536, 123565);
   (123584, 123627); (124896, 124902); (124904, 124907); (124909, 124910); (124912, 124926); (124928, 125124);
   (125184, 125251); (125259, 125259); (126464, 126467); (126469, 126495); (126497, 126498); (126500, 126500);
   (126503, 126503); (126505, 126514); (126516, 126519); (126521, 126521); (126523, 126523); (126530, 126530);
   (126535, 126535); (126537, 126537); (126539, 126539); (126541, 126543); (126545, 126546); (126548, 126548);
   (126551, 126551); (126553, 126553); (126555, 126555); (126557, 126557); (126559, 126559); (126561, 126562);
   (126564, 126564); (126567, 126570); (126572, 126578); (126580, 126583); (126585, 126588); (126590, 126590);
   (126592, 126601); (126603, 126619); (126625, 126627); (126629, 126633); (126635, 126651); (131072, 173791);
   (173824, 177976); (177984, 178205); (178208, 183969); (183984, 191456); (194560, 195101); (196608, 201546)].

Definition mark_ranges : list (N * N) :=
  [(768, 879); (1155, 1161); (1425, 1469); (1471, 1471); (1473, 1474); (1476, 1477);
   (1479, 1479); (1552, 1562); (1611, 1631); (1648, 1648); (1750, 1756); (1759, 1764);
   (1767, 1768); (1770, 1773); (1809, 1809); (1840, 1866); (1958, 1968); (2027, 2035);
   (2045, 2045); (2070, 2073); (2075, 2083); (2085, 2087); (2089, 2093); (2137, 2139);
   (2200, 2207); (2250, 2273); (2275, 2307); (2362, 2364); (2366, 2383); (2385, 2391);
   (2402, 2403); (2433, 2435); (2492, 2492); (2494, 2500); (2503, 2504); (2507, 2509);
   (2519, 2519); (2530, 2531); (2558, 2558); (2561, 2563); (2620, 2620); (2622, 2626);
   (2631, 2632); (2635, 2637); (2641, 2641); (2672, 2673); (2677, 2677); (2689, 2691);
   (2748, 2748); (2750, 2757); (2759, 2761); (2763, 2765); (2786, 2787); (2810, 2815);
   (2817, 2819); (2876, 2876); (2878, 2884); (2887, 2888); (2891, 2893); (2901, 2903);
   (2914, 2915); (2946, 2946); (3006, 3010); (3014, 3016); (3018, 3021); (3031, 3031);
   (3072, 3076); (3132, 3132); (3134, 3140); (3142, 3144); (3146, 3149); (3157, 3158);
   (3170, 3171); (3201, 3203); (3260, 3260); (3262, 3268); (3270, 3272); (3274, 3277);
   (3285, 3286); (3298, 3299); (3328, 3331); (3387, 3388); (3390, 3396); (3398, 3400);
   (3402, 3405); (3415, 3415); (3426, 3427); (3457, 3459); (3530, 3530); (3535, 3540);
   (3542, 3542); (3544, 3551); (3570, 3571); (3633, 3633); (3636, 3642); (3655, 3662);
   (3761, 3761); (3764, 3772); (3784, 3789); (3864, 3865); (3893, 3893); (3895, 3895);
   (3897, 3897); (3902, 3903); (3953, 3972); (3974, 3975); (3981, 3991); (3993, 4028);
   (4038, 4038); (4139, 4158); (4182, 4185); (4190, 4192); (4194, 4196); (4199, 4205);
   (4209, 4212); (4226, 4237); (4239, 4239); (4250, 4253); (4957, 4959); (5906, 5909);
   (5938, 5940); (5970, 5971); (6002, 6003); (6068, 6099); (6109, 6109); (6155, 6157);
   (6159, 6159); (6277, 6278); (6313, 6313); (6432, 6443); (6448, 6459); (6679, 6683);
   (6741, 6750); (6752, 6780); (6783, 6783); (6832, 6862); (6912, 6916); (6964, 6980);
   (7019, 7027); (7040, 7042); (7073, 7085); (7142, 7155); (7204, 7223); (7376, 7378);
   (7380, 7400); (7405, 7405); (7412, 7412); (7415, 7417); (7616, 7679); (8400, 8432);
   (11503, 11505); (11647, 11647); (11744, 11775); (12330, 12335); (12441, 12442); (42607, 42610);
   (42612, 42621); (42654, 42655); (42736, 42737); (43010, 43010); (43014, 43014); (43019, 43019);
   (43043, 43047); (43052, 43052); (43136, 43137); (43188, 43205); (43232, 43249); (43263, 43263);
   (43302, 43309); (43335, 43347); (43392, 43395); (43443, 43456); (43493, 43493); (43561, 43574);
   (43587, 43587); (43596, 43597); (43643, 43645); (43696, 43696); (43698, 43700); (43703, 43704);
   (43710, 43711); (43713, 43713); (43755, 43759); (43765, 43766); (44003, 44010); (44012, 44013);
   (64286, 64286); (65024, 65039); (65056, 65071); (66045, 66045); (66272, 66272); (66422, 66426);
   (68097, 68099); (68101, 68102); (68108, 68111); (68152, 68154); (68159, 68159); (68325, 68326);
   (68900, 68903); (69291, 69292); (69446, 69456); (69506, 69509); (69632, 69634); (69688, 69702);
   (69744, 69744); (69747, 69748); (69759, 69762); (69808, 69818); (69826, 69826); (69888, 69890);
   (69927, 69940); (69957, 69958); (70003, 70003); (70016, 70018); (70067, 70080); (70089, 70092);
   (70094, 70095); (70188, 70199); (70206, 70206); (70367, 70378); (70400, 70403); (70459, 70460);
   (70462, 70468); (70471, 70472); (70475, 70477); (70487, 70487); (70498, 70499); (70502, 70508);
   (70512, 70516); (70709, 70726); (70750, 70750); (70832, 70851); (71087, 71093); (71096, 71104);
   (71132, 71133); (71216, 71232); (71339, 71351); (71453, 71467); (71724, 71738); (71984, 71989);
   (71991, 71992); (71995, 71998); (72000, 72000); (72002, 72003); (72145, 72151); (72154, 72160);
   (72164, 72164); (72193, 72202); (72243, 72249); (72251, 72254); (72263, 72263); (72273, 72283);
   (72330, 72345); (72751, 72758); (72760, 72767); (72850, 72871); (72873, 72886); (73009, 73014);
   (73018, 73018); (73020, 73021); (73023, 73029); (73031, 73031); (73098, 73102); (73104, 73105);
   (73107, 73111); (73459, 73462); (92912, 92916); (92976, 92982); (94031, 94031); (94033, 94087);
   (94095, 94098); (94180, 94180); (94192, 94193); (113821, 113822); (118528, 118573); (118576, 118598);
   (119141, 119145); (119149, 119154); (119163, 119170); (119173, 119179); (119210, 119213); (119362, 119364);
   (121344, 121398); (121403, 121452); (121461, 121461); (121476, 121476); (121499, 121503); (121505, 121519);
   (122880, 122886); (122888, 122904); (122907, 122913); (122915, 122916); (122918, 122922); (123184, 123190);
   (123566, 123566); (123628, 123631); (125136, 125142); (125252, 125258); (917760, 917999)].

Definition lower_table : list (N * list N) :=
  [(65, [97]); (66, [98]); (67, [99]); (68, [100]); (69, [101]); (70, [102]);
   (71, [103]); (72, [104]); (73, [105]); (74, [106]); (75, [107]); (76, [108]);
   (77, [109]); (78, [110]); (79, [111]); (80, [112]); (81, [113]); (82, [114]);
   (83, [115]); (84, [116]); (85, [117]); (86, [118]); (87, [119]); (88, [120]);
   (89, [121]); (90, [122]); (192, [224]); (193, [225]); (194, [226]); (195, [227]);
   (196, [228]); (197, [229]); (198, [230]); (199, [231]); (200, [232]); (201, [233]);
   (202, [234]); (203, [235]); (204, [236]); (205, [237]); (206, [238]); (207, [239]);
   (208, [240]); (209, [241]); (210, [242]); (211, [243]); (212, [244]); (213, [245]);
   (214, [246]); (216, [248]); (217, [249]); (218, [250]); (219, [251]); (220, [252]);
   (221, [253]); (222, [254]); (256, [257]); (258, [259]); (260, [261]); (262, [263]);
   (264, [265]); (266, [267]); (268, [269]); (270, [271]); (272, [273]); (274, [275]);
   (276, [277]); (278, [279]); (280, [281]); (282, [283]); (284, [285]); (286, [287]);
   (288, [289]); (290, [291]); (292, [293]); (294, [295]); (296, [297]); (298, [299]);
   (300, [301]); (302, [303]); (304, [105; 775]); (306, [307]); (308, [309]); (310, [311]);
   (313, [314]); (315, [316]); (317, [318]); (319, [320]); (321, [322]); (323, [324]);
   (325, [326]); (327, [328]); (330, [331]); (332, [333]); (334, [335]); (336, [337]);
   (338, [339]); (340, [341]); (342, [343]); (344, [345]); (346, [347]); (348, [349]);
   (350, [351]); (352, [353]); (354, [355]); (356, [357]); (358, [359]); (360, [361]);
   (362, [363]); (364, [365]); (366, [367]); (368, [369]); (370, [371]); (372, [373]);
   (374, [375]); (376, [255]); (377, [378]); (379, [380]); (381, [382]); (385, [595]);
   (386, [387]); (388, [389]); (390, [596]); (391, [392]); (393, [598]); (394, [599]);
   (395, [396]); (398, [477]); (399, [601]); (400, [603]); (401, [402]); (403, [608]);
   (404, [611]); (406, [617]); (407, [616]); (408, [409]); (412, [623]); (413, [626]);
   (415, [629]); (416, [417]); (418, [419]); (420, [421]); (422, [640]); (423, [424]);
   (425, [643]); (428, [429]); (430, [648]); (431, [432]); (433, [650]); (434, [651]);
   (435, [436]); (437, [438]); (439, [658]); (440, [441]); (444, [445]); (452, [454]);
   (453, [454]); (455, [457]); (456, [457]); (458, [460]); (459, [460]); (461, [462]);
   (463, [464]); (465, [466]); (467, [468]); (469, [470]); (471, [472]); (473, [474]);
   (475, [476]); (478, [479]); (480, [481]); (482, [483]); (484, [485]); (486, [487]);
   (488, [489]); (490, [491]); (492, [493]); (494, [495]); (497, [499]); (498, [499]);
   (500, [501]); (502, [405]); (503, [447]); (504, [505]); (506, [507]); (508, [509]);
   (510, [511]); (512, [513]); (514, [515]); (516, [517]); (518, [519]); (520, [521]);
   (522, [523]); (524, [525]); (526, [527]); (528, [529]); (530, [531]); (532, [533]);
   (534, [535]); (536, [537]); (538, [539]); (540, [541]); (542, [543]); (544, [414]);
   (546, [547]); (548, [549]); (550, [551]); (552, [553]); (554, [555]); (556, [557]);
   (558, [559]); (560, [561]); (562, [563]); (570, [11365]); (571, [572]); (573, [410]);
   (574, [11366]); (577, [578]); (579, [384]); (580, [649]); (581, [652]); (582, [583]);
   (584, [585]); (586, [587]); (588, [589]); (590, [591]); (880, [881]); (882, [883]);
   (886, [887]); (895, [1011]); (902, [940]); (904, [941]); (905, [942]); (906, [943]);
   (908, [972]); (910, [973]); (911, [974]); (913, [945]); (914, [946]); (915, [947]);
   (916, [948]); (917, [949]); (918, [950]); (919, [951]); (920, [952]); (921, [953]);
   (922, [954]); (923, [955]); (924, [956]); (925, [957]); (926, [958]); (927, [959]);
   (928, [960]); (929, [961]); (931, [963]); (932, [964]); (933, [965]); (934, [966]);
   (935, [967]); (936, [968]); (937, [969]); (938, [970]); (939, [971]); (975, [983]);
   (984, [985]); (986, [987]); (988, [989]); (990, [991]); (992, [993]); (994, [995]);
   (996, [997]); (998, [999]); (1000, [1001]); (1002, [1003]); (1004, [1005]); (1006, [1007]);
   (1012, [952]); (1015, [1016]); (1017, [1010]); (1018, [1019]); (1021, [891]); (1022, [892]);
   (1023, [893]); (1024, [1104]); (1025, [1105]); (1026, [1106]); (1027, [1107]); (1028, [1108]);
   (1029, [1109]); (1030, [1110]); (1031, [1111]); (1032, [1112]); (1033, [1113]); (1034, [1114]);
   (1035, [1115]); (1036, [1116]); (1037, [1117]); (1038, [1118]); (1039, [1119]); (1040, [1072]);
   (1041, [1073]); (1042, [1074]); (1043, [1075]); (1044, [1076]); (1045, [1077]); (1046, [1078]);
   (1047, [1079]); (1048, [1080]); (1049, [1081]); (1050, [1082]); (1051, [1083]); (1052, [1084]);
   (1053, [1085]); (1054, [1086]); (1055, [1087]); (1056, [1088]); (1057, [1089]); (1058, [1090]);
   (1059, [1091]); (1060, [1092]); (1061, [1093]); (1062, [1094]); (1063, [1095]); (1064, [1096]);
   (1065, [1097]); (1066, [1098]); (1067, [1099]); (1068, [1100]); (1069, [1101]); (1070, [1102]);
   (1071, [1103]); (1120, [1121]); (1122, [1123]); (1124, [1125]); (1126, [1127]); (1128, [1129]);
   (1130, [1131]); (1132, [1133]); (1134, [1135]); (1136, [1137]); (1138, [1139]); (1140, [1141]);
   (1142, [1143]); (1144, [1145]); (1146, [1147]); (1148, [1149]); (1150, [1151]); (1152, [1153]);
   (1162, [1163]); (1164, [1165]); (1166, [1167]); (1168, [1169]); (1170, [1171]); (1172, [1173]);
   (1174, [1175]); (1176, [1177]); (1178, [1179]); (1180, [1181]); (1182, [1183]); (1184, [1185]);
   (1186, [1187]); (1188, [1189]); (1190, [1191]); (1192, [1193]); (1194, [1195]); (1196, [1197]);
   (1198, [1199]); (1200, [1201]); (1202, [1203]); (1204, [1205]); (1206, [1207]); (1208, [1209]);
   (1210, [1211]); (1212, [1213]); (1214, [1215]); (1216, [1231]); (1217, [1218]); (1219, [1220]);
   (1221, [1222]); (1223, [1224]); (1225, [1226]); (1227, [1228]); (1229, [1230]); (1232, [1233]);
   (1234, [1235]); (1236, [1237]); (1238, [1239]); (1240, [1241]); (1242, [1243]); (1244, [1245]);
   (1246, [1247]); (1248, [1249]); (1250, [1251]); (1252, [1253]); (1254, [1255]); (1256, [1257]);
   (1258, [1259]); (1260, [1261]); (1262, [1263]); (1264, [1265]); (1266, [1267]); (1268, [1269]);
   (1270, [1271]); (1272, [1273]); (1274, [1275]); (1276, [1277]); (1278, [1279]); (1280, [1281]);
   (1282, [1283]); (1284, [1285]); (1286, [1287]); (1288, [1289]); (1290, [1291]); (1292, [1293]);
   (1294, [1295]); (1296, [1297]); (1298, [1299]); (1300, [1301]); (1302, [1303]); (1304, [1305]);
   (1306, [1307]); (1308, [1309]); (1310, [1311]); (1312, [1313]); (1314, [1315]); (1316, [1317]);
   (1318, [1319]); (1320, [1321]); (1322, [1323]); (1324, [1325]); (1326, [1327]); (1329, [1377]);
   (1330, [1378]); (1331, [1379]); (1332, [1380]); (1333, [1381]); (1334, [1382]); (1335, [1383]);
   (1336, [1384]); (1337, [1385]); (1338, [1386]); (1339, [1387]); (1340, [1388]); (1341, [1389]);
   (1342, [1390]); (1343, [1391]); (1344, [1392]); (1345, [1393]); (1346, [1394]); (1347, [1395]);
   (1348, [1396]); (1349, [1397]); (1350, [1398]); (1351, [1399]); (1352, [1400]); (1353, [1401]);
   (1354, [1402]); (1355, [1403]); (1356, [1404]); (1357, [1405]); (1358, [1406]); (1359, [1407]);
   (1360, [1408]); (1361, [1409]); (1362, [1410]); (1363, [1411]); (1364, [1412]); (1365, [1413]);
   (1366, [1414]); (4256, [11520]); (4257, [11521]); (4258, [11522]); (4259, [11523]); (4260, [11524]);
   (4261, [11525]); (4262, [11526]); (4263, [11527]); (4264, [11528]); (4265, [11529]); (4266, [11530]);
   (4267, [11531]); (4268, [11532]); (4269, [11533]); (4270, [11534]); (4271, [11535]); (4272, [11536]);
   (4273, [11537]); (4274, [11538]); (4275, [11539]); (4276, [11540]); (4277, [11541]); (4278, [11542]);
   (4279, [11543]); (4280, [11544]); (4281, [11545]); (4282, [11546]); (4283, [11547]); (4284, [11548]);
   (4285, [11549]); (4286, [11550]); (4287, [11551]); (4288, [11552]); (4289, [11553]); (4290, [11554]);
   (4291, [11555]); (4292, [11556]); (4293, [11557]); (4295, [11559]); (4301, [11565]); (5024, [43888]);
   (5025, [43889]); (5026, [43890]); (5027, [43891]); (5028, [43892]); (5029, [43893]); (5030, [43894]);
   (5031, [43895]); (5032, [43896]); (5033, [43897]); (5034, [43898]); (5035, [43899]); (5036, [43900]);
   (5037, [43901]); (5038, [43902]); (5039, [43903]); (5040, [43904]); (5041, [43905]); (5042, [43906]);
   (5043, [43907]); (5044, [43908]); (5045, [43909]); (5046, [43910]); (5047, [43911]); (5048, [43912]);
   (5049, [43913]); (5050, [43914]); (5051, [43915]); (5052, [43916]); (5053, [43917]); (5054, [43918]);
   (5055, [43919]); (5056, [43920]); (5057, [43921]); (5058, [43922]); (5059, [43923]); (5060, [43924]);
   (5061, [43925]); (5062, [43926]); (5063, [43927]); (5064, [43928]); (5065, [43929]); (5066, [43930]);
   (5067, [43931]); (5068, [43932]); (5069, [43933]); (5070, [43934]); (5071, [43935]); (5072, [43936]);
   (5073, [43937]); (5074, [43938]); (5075, [43939]); (5076, [43940]); (5077, [43941]); (5078, [43942]);
   (5079, [43943]); (5080, [43944]); (5081, [43945]); (5082, [43946]); (5083, [43947]); (5084, [43948]);
   (5085, [43949]); (5086, [43950]); (5087, [43951]); (5088, [43952]); (5089, [43953]); (5090, [43954]);
   (5091, [43955]); (5092, [43956]); (5093, [43957]); (5094, [43958]); (5095, [43959]); (5096, [43960]);
   (5097, [43961]); (5098, [43962]); (5099, [43963]); (5100, [43964]); (5101, [43965]); (5102, [43966]);
   (5103, [43967]); (5104, [5112]); (5105, [5113]); (5106, [5114]); (5107, [5115]); (5108, [5116]);
   (5109, [5117]); (7312, [4304]); (7313, [4305]); (7314, [4306]); (7315, [4307]); (7316, [4308]);
   (7317, [4309]); (7318, [4310]); (7319, [4311]); (7320, [4312]); (7321, [4313]); (7322, [4314]);
   (7323, [4315]); (7324, [4316]); (7325, [4317]); (7326, [4318]); (7327, [4319]); (7328, [4320]);
   (7329, [4321]); (7330, [4322]); (7331, [4323]); (7332, [4324]); (7333, [4325]); (7334, [4326]);
   (7335, [4327]); (7336, [4328]); (7337, [4329]); (7338, [4330]); (7339, [4331]); (7340, [4332]);
   (7341, [4333]); (7342, [4334]); (7343, [4335]); (7344, [4336]); (7345, [4337]); (7346, [4338]);
   (7347, [4339]); (7348, [4340]); (7349, [4341]); (7350, [4342]); (7351, [4343]); (7352, [4344]);
   (7353, [4345]); (7354, [4346]); (7357, [4349]); (7358, [4350]); (7359, [4351]); (7680, [7681]);
   (7682, [7683]); (7684, [7685]); (7686, [7687]); (7688, [7689]); (7690, [7691]); (7692, [7693]);
   (7694, [7695]); (7696, [7697]); (7698, [7699]); (7700, [7701]); (7702, [7703]); (7704, [7705]);
   (7706, [7707]); (7708, [7709]); (7710, [7711]); (7712, [7713]); (7714, [7715]); (7716, [7717]);
   (7718, [7719]); (7720, [7721]); (7722, [7723]); (7724, [7725]); (7726, [7727]); (7728, [7729]);
   (7730, [7731]); (7732, [7733]); (7734, [7735]); (7736, [7737]); (7738, [7739]); (7740, [7741]);
   (7742, [7743]); (7744, [7745]); (7746, [7747]); (7748, [7749]); (7750, [7751]); (7752, [7753]);
   (7754, [7755]); (7756, [7757]); (7758, [7759]); (7760, [7761]); (7762, [7763]); (7764, [7765]);
   (7766, [7767]); (7768, [7769]); (7770, [7771]); (7772, [7773]); (7774, [7775]); (7776, [7777]);
   (7778, [7779]); (7780, [7781]); (7782, [7783]); (7784, [7785]); (7786, [7787]); (7788, [7789]);
   (7790, [7791]); (7792, [7793]); (7794, [7795]); (7796, [7797]); (7798, [7799]); (7800, [7801]);
   (7802, [7803]); (7804, [7805]); (7806, [7807]); (7808, [7809]); (7810, [7811]); (7812, [7813]);
   (7814, [7815]); (7816, [7817]); (7818, [7819]); (7820, [7821]); (7822, [7823]); (7824, [7825]);
   (7826, [7827]); (7828, [7829]); (7838, [223]); (7840, [7841]); (7842, [7843]); (7844, [7845]);
   (7846, [7847]); (7848, [7849]); (7850, [7851]); (7852, [7853]); (7854, [7855]); (7856, [7857]);
   (7858, [7859]); (7860, [7861]); (7862, [7863]); (7864, [7865]); (7866, [7867]); (7868, [7869]);
   (7870, [7871]); (7872, [7873]); (7874, [7875]); (7876, [7877]); (7878, [7879]); (7880, [7881]);
   (7882, [7883]); (7884, [7885]); (7886, [7887]); (7888, [7889]); (7890, [7891]); (7892, [7893]);
   (7894, [7895]); (7896, [7897]); (7898, [7899]); (7900, [7901]); (7902, [7903]); (7904, [7905]);
   (7906, [7907]); (7908, [7909]); (7910, [7911]); (7912, [7913]); (7914, [7915]); (7916, [7917]);
   (7918, [7919]); (7920, [7921]); (7922, [7923]); (7924, [7925]); (7926, [7927]); (7928, [7929]);
   (7930, [7931]); (7932, [7933]); (7934, [7935]); (7944, [7936]); (7945, [7937]); (7946, [7938]);
   (7947, [7939]); (7948, [7940]); (7949, [7941]); (7950, [7942]); (7951, [7943]); (7960, [7952]);
   (7961, [7953]); (7962, [7954]); (7963, [7955]); (7964, [7956]); (7965, [7957]); (7976, [7968]);
   (7977, [7969]); (7978, [7970]); (7979, [7971]); (7980, [7972]); (7981, [7973]); (7982, [7974]);
   (7983, [7975]); (7992, [7984]); (7993, [7985]); (7994, [7986]); (7995, [7987]); (7996, [7988]);
   (7997, [7989]); (7998, [7990]); (7999, [7991]); (8008, [8000]); (8009, [8001]); (8010, [8002]);
   (8011, [8003]); (8012, [8004]); (8013, [8005]); (8025, [8017]); (8027, [8019]); (8029, [8021]);
   (8031, [8023]); (8040, [8032]); (8041, [8033]); (8042, [8034]); (8043, [8035]); (8044, [8036]);
   (8045, [8037]); (8046, [8038]); (8047, [8039]); (8072, [8064]); (8073, [8065]); (8074, [8066]);
   (8075, [8067]); (8076, [8068]); (8077, [8069]); (8078, [8070]); (8079, [8071]); (8088, [8080]);
   (8089, [8081]); (8090, [8082]); (8091, [8083]); (8092, [8084]); (8093, [8085]); (8094, [8086]);
   (8095, [8087]); (8104, [8096]); (8105, [8097]); (8106, [8098]); (8107, [8099]); (8108, [8100]);
   (8109, [8101]); (8110, [8102]); (8111, [8103]); (8120, [8112]); (8121, [8113]); (8122, [8048]);
   (8123, [8049]); (8124, [8115]); (8136, [8050]); (8137, [8051]); (8138, [8052]); (8139, [8053]);
   (8140, [8131]); (8152, [8144]); (8153, [8145]); (8154, [8054]); (8155, [8055]); (8168, [8160]);
   (8169, [8161]); (8170, [8058]); (8171, [8059]); (8172, [8165]); (8184, [8056]); (8185, [8057]);
   (8186, [8060]); (8187, [8061]); (8188, [8179]); (8486, [969]); (8490, [107]); (8491, [229]);
   (8498, [8526]); (8544, [8560]); (8545, [8561]); (8546, [8562]); (8547, [8563]); (8548, [8564]);
   (8549, [8565]); (8550, [8566]); (8551, [8567]); (8552, [8568]); (8553, [8569]); (8554, [8570]);
   (8555, [8571]); (8556, [8572]); (8557, [8573]); (8558, [8574]); (8559, [8575]); (8579, [8580]);
   (9398, [9424]); (9399, [9425]); (9400, [9426]); (9401, [9427]); (9402, [9428]); (9403, [9429]);
   (9404, [9430]); (9405, [9431]); (9406, [9432]); (9407, [9433]); (9408, [9434]); (9409, [9435]);
   (9410, [9436]); (9411, [9437]); (9412, [9438]); (9413, [9439]); (9414, [9440]); (9415, [9441]);
   (9416, [9442]); (9417, [9443]); (9418, [9444]); (9419, [9445]); (9420, [9446]); (9421, [9447]);
   (9422, [9448]); (9423, [9449]); (11264, [11312]); (11265, [11313]); (11266, [11314]); (11267, [11315]);
   (11268, [11316]); (11269, [11317]); (11270, [11318]); (11271, [11319]); (11272, [11320]); (11273, [11321]);
   (11274, [11322]); (11275, [11323]); (11276, [11324]); (11277, [11325]); (11278, [11326]); (11279, [11327]);
   (11280, [11328]); (11281, [11329]); (11282, [11330]); (11283, [11331]); (11284, [11332]); (11285, [11333]);
   (11286, [11334]); (11287, [11335]); (11288, [11336]); (11289, [11337]); (11290, [11338]); (11291, [11339]);
   (11292, [11340]); (11293, [11341]); (11294, [11342]); (11295, [11343]); (11296, [11344]); (11297, [11345]);
   (11298, [11346]); (11299, [11347]); (11300, [11348]); (11301, [11349]); (11302, [11350]); (11303, [11351]);
   (11304, [11352]); (11305, [11353]); (11306, [11354]); (11307, [11355]); (11308, [11356]); (11309, [11357]);
   (11310, [11358]); (11311, [11359]); (11360, [11361]); (11362, [619]); (11363, [7549]); (11364, [637]);
   (11367, [11368]); (11369, [11370]); (11371, [11372]); (11373, [593]); (11374, [625]); (11375, [592]);
   (11376, [594]); (11378, [11379]); (11381, [11382]); (11390, [575]); (11391, [576]); (11392, [11393]);
   (11394, [11395]); (11396, [11397]); (11398, [11399]); (11400, [11401]); (11402, [11403]); (11404, [11405]);
   (11406, [11407]); (11408, [11409]); (11410, [11411]); (11412, [11413]); (11414, [11415]); (11416, [11417]);
   (11418, [11419]); (11420, [11421]); (11422, [11423]); (11424, [11425]); (11426, [11427]); (11428, [11429]);
   (11430, [11431]); (11432, [11433]); (11434, [11435]); (11436, [11437]); (11438, [11439]); (11440, [11441]);
   (11442, [11443]); (11444, [11445]); (11446, [11447]); (11448, [11449]); (11450, [11451]); (11452, [11453]);
   (11454, [11455]); (11456, [11457]); (11458, [11459]); (11460, [11461]); (11462, [11463]); (11464, [11465]);
   (11466, [11467]); (11468, [11469]); (11470, [11471]); (11472, [11473]); (11474, [11475]); (11476, [11477]);
   (11478, [11479]); (11480, [11481]); (11482, [11483]); (11484, [11485]); (11486, [11487]); (11488, [11489]);
   (11490, [11491]); (11499, [11500]); (11501, [11502]); (11506, [11507]); (42560, [42561]); (42562, [42563]);
   (42564, [42565]); (42566, [42567]); (42568, [42569]); (42570, [42571]); (42572, [42573]); (42574, [42575]);
   (42576, [42577]); (42578, [42579]); (42580, [42581]); (42582, [42583]); (42584, [42585]); (42586, [42587]);
   (42588, [42589]); (42590, [42591]); (42592, [42593]); (42594, [42595]); (42596, [42597]); (42598, [42599]);
   (42600, [42601]); (42602, [42603]); (42604, [42605]); (42624, [42625]); (42626, [42627]); (42628, [42629]);
   (42630, [42631]); (42632, [42633]); (42634, [42635]); (42636, [42637]); (42638, [42639]); (42640, [42641]);
   (42642, [42643]); (42644, [42645]); (42646, [42647]); (42648, [42649]); (42650, [42651]); (42786, [42787]);
   (42788, [42789]); (42790, [42791]); (42792, [42793]); (42794, [42795]); (42796, [42797]); (42798, [42799]);
   (42802, [42803]); (42804, [42805]); (42806, [42807]); (42808, [42809]); (42810, [42811]); (42812, [42813]);
   (42814, [42815]); (42816, [42817]); (42818, [42819]); (42820, [42821]); (42822, [42823]); (42824, [42825]);
   (42826, [42827]); (42828, [42829]); (42830, [42831]); (42832, [42833]); (42834, [42835]); (42836, [42837]);
   (42838, [42839]); (42840, [42841]); (42842, [42843]); (42844, [42845]); (42846, [42847]); (42848, [42849]);
   (42850, [42851]); (42852, [42853]); (42854, [42855]); (42856, [42857]); (42858, [42859]); (42860, [42861]);
   (42862, [42863]); (42873, [42874]); (42875, [42876]); (42877, [7545]); (42878, [42879]); (42880, [42881]);
   (42882, [42883]); (42884, [42885]); (42886, [42887]); (42891, [42892]); (42893, [613]); (42896, [42897]);
   (42898, [42899]); (42902, [42903]); (42904, [42905]); (42906, [42907]); (42908, [42909]); (42910, [42911]);
   (42912, [42913]); (42914, [42915]); (42916, [42917]); (42918, [42919]); (42920, [42921]); (42922, [614]);
   (42923, [604]); (42924, [609]); (42925, [620]); (42926, [618]); (42928, [670]); (42929, [647]);
   (42930, [669]); (42931, [43859]); (42932, [42933]); (42934, [42935]); (42936, [42937]); (42938, [42939]);
   (42940, [42941]); (42942, [42943]); (42944, [42945]); (42946, [42947]); (42948, [42900]); (42949, [642]);
   (42950, [7566]); (42951, [42952]); (42953, [42954]); (42960, [42961]); (42966, [42967]); (42968, [42969]);
   (42997, [42998]); (65313, [65345]); (65314, [65346]); (65315, [65347]); (65316, [65348]); (65317, [65349]);
   (65318, [65350]); (65319, [65351]); (65320, [65352]); (65321, [65353]); (65322, [65354]); (65323, [65355]);
   (65324, [65356]); (65325, [65357]); (65326, [65358]); (65327, [65359]); (65328, [65360]); (65329, [65361]);
   (65330, [65362]); (65331, [65363]); (65332, [65364]); (65333, [65365]); (65334, [65366]); (65335, [65367]);
   (65336, [65368]); (65337, [65369]); (65338, [65370]); (66560, [66600]); (66561, [66601]); (66562, [66602]);
   (66563, [66603]); (66564, [66604]); (66565, [66605]); (66566, [66606]); (66567, [66607]); (66568, [66608]);
   (66569, [66609]); (66570, [66610]); (66571, [66611]); (66572, [66612]); (66573, [66613]); (66574, [66614]);
   (66575, [66615]); (66576, [66616]); (66577, [66617]); (66578, [66618]); (66579, [66619]); (66580, [66620]);
   (66581, [66621]); (66582, [66622]); (66583, [66623]); (66584, [66624]); (66585, [66625]); (66586, [66626]);
   (66587, [66627]); (66588, [66628]); (66589, [66629]); (66590, [66630]); (66591, [66631]); (66592, [66632]);
   (66593, [66633]); (66594, [66634]); (66595, [66635]); (66596, [66636]); (66597, [66637]); (66598, [66638]);
   (66599, [66639]); (66736, [66776]); (66737, [66777]); (66738, [66778]); (66739, [66779]); (66740, [66780]);
   (66741, [66781]); (66742, [66782]); (66743, [66783]); (66744, [66784]); (66745, [66785]); (66746, [66786]);
   (66747, [66787]); (66748, [66788]); (66749, [66789]); (66750, [66790]); (66751, [66791]); (66752, [66792]);
   (66753, [66793]); (66754, [66794]); (66755, [66795]); (66756, [66796]); (66757, [66797]); (66758, [66798]);
   (66759, [66799]); (66760, [66800]); (66761, [66801]); (66762, [66802]); (66763, [66803]); (66764, [66804]);
   (66765, [66805]); (66766, [66806]); (66767, [66807]); (66768, [66808]); (66769, [66809]); (66770, [66810]);
   (66771, [66811]); (66928, [66967]); (66929, [66968]); (66930, [66969]); (66931, [66970]); (66932, [66971]);
   (66933, [66972]); (66934, [66973]); (66935, [66974]); (66936, [66975]); (66937, [66976]); (66938, [66977]);
   (66940, [66979]); (66941, [66980]); (66942, [66981]); (66943, [66982]); (66944, [66983]); (66945, [66984]);
   (66946, [66985]); (66947, [66986]); (66948, [66987]); (66949, [66988]); (66950, [66989]); (66951, [66990]);
   (66952, [66991]); (66953, [66992]); (66954, [66993]); (66956, [66995]); (66957, [66996]); (66958, [66997]);
   (66959, [66998]); (66960, [66999]); (66961, [67000]); (66962, [67001]); (66964, [67003]); (66965, [67004]);
   (68736, [68800]); (68737, [68801]); (68738, [68802]); (68739, [68803]); (68740, [68804]); (68741, [68805]);
   (68742, [68806]); (68743, [68807]); (68744, [68808]); (68745, [68809]); (68746, [68810]); (68747, [68811]);
   (68748, [68812]); (68749, [68813]); (68750, [68814]); (68751, [68815]); (68752, [68816]); (68753, [68817]);
   (68754, [68818]); (68755, [68819]); (68756, [68820]); (68757, [68821]); (68758, [68822]); (68759, [68823]);
   (68760, [68824]); (68761, [68825]); (68762, [68826]); (68763, [68827]); (68764, [68828]); (68765, [68829]);
   (68766, [68830]); (68767, [68831]); (68768, [68832]); (68769, [68833]); (68770, [68834]); (68771, [68835]);
   (68772, [68836]); (68773, [68837]); (68774, [68838]); (68775, [68839]); (68776, [68840]); (68777, [68841]);
   (68778, [68842]); (68779, [68843]); (68780, [68844]); (68781, [68845]); (68782, [68846]); (68783, [68847]);
   (68784, [68848]); (68785, [68849]); (68786, [68850]); (71840, [71872]); (71841, [71873]); (71842, [71874]);
   (71843, [71875]); (71844, [71876]); (71845, [71877]); (71846, [71878]); (71847, [71879]); (71848, [71880]);
   (71849, [71881]); (71850, [71882]); (71851, [71883]); (71852, [71884]); (71853, [71885]); (71854, [71886]);
   (71855, [71887]); (71856, [71888]); (71857, [71889]); (71858, [71890]); (71859, [71891]); (71860, [71892]);
   (71861, [71893]); (71862, [71894]); (71863, [71895]); (71864, [71896]); (71865, [71897]); (71866, [71898]);
   (71867, [71899]); (71868, [71900]); (71869, [71901]); (71870, [71902]); (71871, [71903]); (93760, [93792]);
   (93761, [93793]); (93762, [93794]); (93763, [93795]); (93764, [93796]); (93765, [93797]); (93766, [93798]);
   (93767, [93799]); (93768, [93800]); (93769, [93801]); (93770, [93802]); (93771, [93803]); (93772, [93804]);
   (93773, [93805]); (93774, [93806]); (93775, [93807]); (93776, [93808]); (93777, [93809]); (93778, [93810]);
   (93779, [93811]); (93780, [93812]); (93781, [93813]); (93782, [93814]); (93783, [93815]); (93784, [93816]);
   (93785, [93817]); (93786, [93818]); (93787, [93819]); (93788, [93820]); (93789, [93821]); (93790, [93822]);
   (93791, [93823]); (125184, [125218]); (125185, [125219]); (125186, [125220]); (125187, [125221]); (125188, [125222]);
   (125189, [125223]); (125190, [125224]); (125191, [125225]); (125192, [125226]); (125193, [125227]); (125194, [125228]);
   (125195, [125229]); (125196, [125230]); (125197, [125231]); (125198, [125232]); (125199, [125233]); (125200, [125234]);
   (125201, [125235]); (125202, [125236]); (125203, [125237]); (125204, [125238]); (125205, [125239]); (125206, [125240]);
   (125207, [125241]); (125208, [125242]); (125209, [125243]); (125210, [125244]); (125211, [125245]); (125212, [125246]);
   (125213, [125247]); (125214, [125248]); (125215, [125249]); (125216, [125250]); (125217, [125251])].

Definition upper_table : list (N * list N) :=
  [(97, [65]); (98, [66]); (99, [67]); (100, [68]); (101, [69]); (102, [70]);
   (103, [71]); (104, [72]); (105, [73]); (106, [74]); (107, [75]); (108, [76]);
   (109, [77]); (110, [78]); (111, [79]); (112, [80]); (113, [81]); (114, [82]);
   (115, [83]); (116, [84]); (117, [85]); (118, [86]); (119, [87]); (120, [88]);
   (121, [89]); (122, [90]); (181, [924]); (223, [83; 83]); (224, [192]); (225, [193]);
   (226, [194]); (227, [195]); (228, [196]); (229, [197]); (230, [198]); (231, [199]);
   (232, [200]); (233, [201]); (234, [202]); (235, [203]); (236, [204]); (237, [205]);
   (238, [206]); (239, [207]); (240, [208]); (241, [209]); (242, [210]); (243, [211]);
   (244, [212]); (245, [213]); (246, [214]); (248, [216]); (249, [217]); (250, [218]);
   (251, [219]); (252, [220]); (253, [221]); (254, [222]); (255, [376]); (257, [256]);
   (259, [258]); (261, [260]); (263, [262]); (265, [264]); (267, [266]); (269, [268]);
   (271, [270]); (273, [272]); (275, [274]); (277, [276]); (279, [278]); (281, [280]);
   (283, [282]); (285, [284]); (287, [286]); (289, [288]); (291, [290]); (293, [292]);
   (295, [294]); (297, [296]); (299, [298]); (301, [300]); (303, [302]); (305, [73]);
   (307, [306]); (309, [308]); (311, [310]); (314, [313]); (316, [315]); (318, [317]);
   (320, [319]); (322, [321]); (324, [323]); (326, [325]); (328, [327]); (329, [700; 78]);
   (331, [330]); (333, [332]); (335, [334]); (337, [336]); (339, [338]); (341, [340]);
   (343, [342]); (345, [344]); (347, [346]); (349, [348]); (351, [350]); (353, [352]);
   (355, [354]); (357, [356]); (359, [358]); (361, [360]); (363, [362]); (365, [364]);
   (367, [366]); (369, [368]); (371, [370]); (373, [372]); (375, [374]); (378, [377]);
   (380, [379]); (382, [381]); (383, [83]); (384, [579]); (387, [386]); (389, [388]);
   (392, [391]); (396, [395]); (402, [401]); (405, [502]); (409, [408]); (410, [573]);
   (414, [544]); (417, [416]); (419, [418]); (421, [420]); (424, [423]); (429, [428]);
   (432, [431]); (436, [435]); (438, [437]); (441, [440]); (445, [444]); (447, [503]);
   (453, [452]); (454, [452]); (456, [455]); (457, [455]); (459, [458]); (460, [458]);
   (462, [461]); (464, [463]); (466, [465]); (468, [467]); (470, [469]); (472, [471]);
   (474, [473]); (476, [475]); (477, [398]); (479, [478]); (481, [480]); (483, [482]);
   (485, [484]); (487, [486]); (489, [488]); (491, [490]); (493, [492]); (495, [494]);
   (496, [74; 780]); (498, [497]); (499, [497]); (501, [500]); (505, [504]); (507, [506]);
   (509, [508]); (511, [510]); (513, [512]); (515, [514]); (517, [516]); (519, [518]);
   (521, [520]); (523, [522]); (525, [524]); (527, [526]); (529, [528]); (531, [530]);
   (533, [532]); (535, [534]); (537, [536]); (539, [538]); (541, [540]); (543, [542]);
   (547, [546]); (549, [548]); (551, [550]); (553, [552]); (555, [554]); (557, [556]);
   (559, [558]); (561, [560]); (563, [562]); (572, [571]); (575, [11390]); (576, [11391]);
   (578, [577]); (583, [582]); (585, [584]); (587, [586]); (589, [588]); (591, [590]);
   (592, [11375]); (593, [11373]); (594, [11376]); (595, [385]); (596, [390]); (598, [393]);
   (599, [394]); (601, [399]); (603, [400]); (604, [42923]); (608, [403]); (609, [42924]);
   (611, [404]); (613, [42893]); (614, [42922]); (616, [407]); (617, [406]); (618, [42926]);
   (619, [11362]); (620, [42925]); (623, [412]); (625, [11374]); (626, [413]); (629, [415]);
   (637, [11364]); (640, [422]); (642, [42949]); (643, [425]); (647, [42929]); (648, [430]);
   (649, [580]); (650, [433]); (651, [434]); (652, [581]); (658, [439]); (669, [42930]);
   (670, [42928]); (837, [921]); (881, [880]); (883, [882]); (887, [886]); (891, [1021]);
   (892, [1022]); (893, [1023]); (912, [921; 776; 769]); (940, [902]); (941, [904]); (942, [905]);
   (943, [906]); (944, [933; 776; 769]); (945, [913]); (946, [914]); (947, [915]); (948, [916]);
   (949, [917]); (950, [918]); (951, [919]); (952, [920]); (953, [921]); (954, [922]);
   (955, [923]); (956, [924]); (957, [925]); (958, [926]); (959, [927]); (960, [928]);
   (961, [929]); (962, [931]); (963, [931]); (964, [932]); (965, [933]); (966, [934]);
   (967, [935]); (968, [936]); (969, [937]); (970, [938]); (971, [939]); (972, [908]);
   (973, [910]); (974, [911]); (976, [914]); (977, [920]); (981, [934]); (982, [928]);
   (983, [975]); (985, [984]); (987, [986]); (989, [988]); (991, [990]); (993, [992]);
   (995, [994]); (997, [996]); (999, [998]); (1001, [1000]); (1003, [1002]); (1005, [1004]);
   (1007, [1006]); (1008, [922]); (1009, [929]); (1010, [1017]); (1011, [895]); (1013, [917]);
   (1016, [1015]); (1019, [1018]); (1072, [1040]); (1073, [1041]); (1074, [1042]); (1075, [1043]);
   (1076, [1044]); (1077, [1045]); (1078, [1046]); (1079, [1047]); (1080, [1048]); (1081, [1049]);
   (1082, [1050]); (1083, [1051]); (1084, [1052]); (1085, [1053]); (1086, [1054]); (1087, [1055]);
   (1088, [1056]); (1089, [1057]); (1090, [1058]); (1091, [1059]); (1092, [1060]); (1093, [1061]);
   (1094, [1062]); (1095, [1063]); (1096, [1064]); (1097, [1065]); (1098, [1066]); (1099, [1067]);
   (1100, [1068]); (1101, [1069]); (1102, [1070]); (1103, [1071]); (1104, [1024]); (1105, [1025]);
   (1106, [1026]); (1107, [1027]); (1108, [1028]); (1109, [1029]); (1110, [1030]); (1111, [1031]);
   (1112, [1032]); (1113, [1033]); (1114, [1034]); (1115, [1035]); (1116, [1036]); (1117, [1037]);
   (1118, [1038]); (1119, [1039]); (1121, [1120]); (1123, [1122]); (1125, [1124]); (1127, [1126]);
   (1129, [1128]); (1131, [1130]); (1133, [1132]); (1135, [1134]); (1137, [1136]); (1139, [1138]);
   (1141, [1140]); (1143, [1142]); (1145, [1144]); (1147, [1146]); (1149, [1148]); (1151, [1150]);
   (1153, [1152]); (1163, [1162]); (1165, [1164]); (1167, [1166]); (1169, [1168]); (1171, [1170]);
   (1173, [1172]); (1175, [1174]); (1177, [1176]); (1179, [1178]); (1181, [1180]); (1183, [1182]);
   (1185, [1184]); (1187, [1186]); (1189, [1188]); (1191, [1190]); (1193, [1192]); (1195, [1194]);
   (1197, [1196]); (1199, [1198]); (1201, [1200]); (1203, [1202]); (1205, [1204]); (1207, [1206]);
   (1209, [1208]); (1211, [1210]); (1213, [1212]); (1215, [1214]); (1218, [1217]); (1220, [1219]);
   (1222, [1221]); (1224, [1223]); (1226, [1225]); (1228, [1227]); (1230, [1229]); (1231, [1216]);
   (1233, [1232]); (1235, [1234]); (1237, [1236]); (1239, [1238]); (1241, [1240]); (1243, [1242]);
   (1245, [1244]); (1247, [1246]); (1249, [1248]); (1251, [1250]); (1253, [1252]); (1255, [1254]);
   (1257, [1256]); (1259, [1258]); (1261, [1260]); (1263, [1262]); (1265, [1264]); (1267, [1266]);
   (1269, [1268]); (1271, [1270]); (1273, [1272]); (1275, [1274]); (1277, [1276]); (1279, [1278]);
   (1281, [1280]); (1283, [1282]); (1285, [1284]); (1287, [1286]); (1289, [1288]); (1291, [1290]);
   (1293, [1292]); (1295, [1294]); (1297, [1296]); (1299, [1298]); (1301, [1300]); (1303, [1302]);
   (1305, [1304]); (1307, [1306]); (1309, [1308]); (1311, [1310]); (1313, [1312]); (1315, [1314]);
   (1317, [1316]); (1319, [1318]); (1321, [1320]); (1323, [1322]); (1325, [1324]); (1327, [1326]);
   (1377, [1329]); (1378, [1330]); (1379, [1331]); (1380, [1332]); (1381, [1333]); (1382, [1334]);
   (1383, [1335]); (1384, [1336]); (1385, [1337]); (1386, [1338]); (1387, [1339]); (1388, [1340]);
   (1389, [1341]); (1390, [1342]); (1391, [1343]); (1392, [1344]); (1393, [1345]); (1394, [1346]);
   (1395, [1347]); (1396, [1348]); (1397, [1349]); (1398, [1350]); (1399, [1351]); (1400, [1352]);
   (1401, [1353]); (1402, [1354]); (1403, [1355]); (1404, [1356]); (1405, [1357]); (1406, [1358]);
   (1407, [1359]); (1408, [1360]); (1409, [1361]); (1410, [1362]); (1411, [1363]); (1412, [1364]);
   (1413, [1365]); (1414, [1366]); (1415, [1333; 1362]); (4304, [7312]); (4305, [7313]); (4306, [7314]);
   (4307, [7315]); (4308, [7316]); (4309, [7317]); (4310, [7318]); (4311, [7319]); (4312, [7320]);
   (4313, [7321]); (4314, [7322]); (4315, [7323]); (4316, [7324]); (4317, [7325]); (4318, [7326]);
   (4319, [7327]); (4320, [7328]); (4321, [7329]); (4322, [7330]); (4323, [7331]); (4324, [7332]);
   (4325, [7333]); (4326, [7334]); (4327, [7335]); (4328, [7336]); (4329, [7337]); (4330, [7338]);
   (4331, [7339]); (4332, [7340]); (4333, [7341]); (4334, [7342]); (4335, [7343]); (4336, [7344]);
   (4337, [7345]); (4338, [7346]); (4339, [7347]); (4340, [7348]); (4341, [7349]); (4342, [7350]);
   (4343, [7351]); (4344, [7352]); (4345, [7353]); (4346, [7354]); (4349, [7357]); (4350, [7358]);
   (4351, [7359]); (5112, [5104]); (5113, [5105]); (5114, [5106]); (5115, [5107]); (5116, [5108]);
   (5117, [5109]); (7296, [1042]); (7297, [1044]); (7298, [1054]); (7299, [1057]); (7300, [1058]);
   (7301, [1058]); (7302, [1066]); (7303, [1122]); (7304, [42570]); (7545, [42877]); (7549, [11363]);
   (7566, [42950]); (7681, [7680]); (7683, [7682]); (7685, [7684]); (7687, [7686]); (7689, [7688]);
   (7691, [7690]); (7693, [7692]); (7695, [7694]); (7697, [7696]); (7699, [7698]); (7701, [7700]);
   (7703, [7702]); (7705, [7704]); (7707, [7706]); (7709, [7708]); (7711, [7710]); (7713, [7712]);
   (7715, [7714]); (7717, [7716]); (7719, [7718]); (7721, [7720]); (7723, [7722]); (7725, [7724]);
   (7727, [7726]); (7729, [7728]); (7731, [7730]); (7733, [7732]); (7735, [7734]); (7737, [7736]);
   (7739, [7738]); (7741, [7740]); (7743, [7742]); (7745, [7744]); (7747, [7746]); (7749, [7748]);
   (7751, [7750]); (7753, [7752]); (7755, [7754]); (7757, [7756]); (7759, [7758]); (7761, [7760]);
   (7763, [7762]); (7765, [7764]); (7767, [7766]); (7769, [7768]); (7771, [7770]); (7773, [7772]);
   (7775, [7774]); (7777, [7776]); (7779, [7778]); (7781, [7780]); (7783, [7782]); (7785, [7784]);
   (7787, [7786]); (7789, [7788]); (7791, [7790]); (7793, [7792]); (7795, [7794]); (7797, [7796]);
   (7799, [7798]); (7801, [7800]); (7803, [7802]); (7805, [7804]); (7807, [7806]); (7809, [7808]);
   (7811, [7810]); (7813, [7812]); (7815, [7814]); (7817, [7816]); (7819, [7818]); (7821, [7820]);
   (7823, [7822]); (7825, [7824]); (7827, [7826]); (7829, [7828]); (7830, [72; 817]); (7831, [84; 776]);
   (7832, [87; 778]); (7833, [89; 778]); (7834, [65; 702]); (7835, [7776]); (7841, [7840]); (7843, [7842]);
   (7845, [7844]); (7847, [7846]); (7849, [7848]); (7851, [7850]); (7853, [7852]); (7855, [7854]);
   (7857, [7856]); (7859, [7858]); (7861, [7860]); (7863, [7862]); (7865, [7864]); (7867, [7866]);
   (7869, [7868]); (7871, [7870]); (7873, [7872]); (7875, [7874]); (7877, [7876]); (7879, [7878]);
   (7881, [7880]); (7883, [7882]); (7885, [7884]); (7887, [7886]); (7889, [7888]); (7891, [7890]);
   (7893, [7892]); (7895, [7894]); (7897, [7896]); (7899, [7898]); (7901, [7900]); (7903, [7902]);
   (7905, [7904]); (7907, [7906]); (7909, [7908]); (7911, [7910]); (7913, [7912]); (7915, [7914]);
   (7917, [7916]); (7919, [7918]); (7921, [7920]); (7923, [7922]); (7925, [7924]); (7927, [7926]);
   (7929, [7928]); (7931, [7930]); (7933, [7932]); (7935, [7934]); (7936, [7944]); (7937, [7945]);
   (7938, [7946]); (7939, [7947]); (7940, [7948]); (7941, [7949]); (7942, [7950]); (7943, [7951]);
   (7952, [7960]); (7953, [7961]); (7954, [7962]); (7955, [7963]); (7956, [7964]); (7957, [7965]);
   (7968, [7976]); (7969, [7977]); (7970, [7978]); (7971, [7979]); (7972, [7980]); (7973, [7981]);
   (7974, [7982]); (7975, [7983]); (7984, [7992]); (7985, [7993]); (7986, [7994]); (7987, [7995]);
   (7988, [7996]); (7989, [7997]); (7990, [7998]); (7991, [7999]); (8000, [8008]); (8001, [8009]);
   (8002, [8010]); (8003, [8011]); (8004, [8012]); (8005, [8013]); (8016, [933; 787]); (8017, [8025]);
   (8018, [933; 787; 768]); (8019, [8027]); (8020, [933; 787; 769]); (8021, [8029]); (8022, [933; 787; 834]); (8023, [8031]);
   (8032, [8040]); (8033, [8041]); (8034, [8042]); (8035, [8043]); (8036, [8044]); (8037, [8045]);
   (8038, [8046]); (8039, [8047]); (8048, [8122]); (8049, [8123]); (8050, [8136]); (8051, [8137]);
   (8052, [8138]); (8053, [8139]); (8054, [8154]); (8055, [8155]); (8056, [8184]); (8057, [8185]);
   (8058, [8170]); (8059, [8171]); (8060, [8186]); (8061, [8187]); (8064, [7944; 921]); (8065, [7945; 921]);
   (8066, [7946; 921]); (8067, [7947; 921]); (8068, [7948; 921]); (8069, [7949; 921]); (8070, [7950; 921]); (8071, [7951; 921]);
   (8072, [7944; 921]); (8073, [7945; 921]); (8074, [7946; 921]); (8075, [7947; 921]); (8076, [7948; 921]); (8077, [7949; 921]);
   (8078, [7950; 921]); (8079, [7951; 921]); (8080, [7976; 921]); (8081, [7977; 921]); (8082, [7978; 921]); (8083, [7979; 921]);
   (8084, [7980; 921]); (8085, [7981; 921]); (8086, [7982; 921]); (8087, [7983; 921]); (8088, [7976; 921]); (8089, [7977; 921]);
   (8090, [7978; 921]); (8091, [7979; 921]); (8092, [7980; 921]); (8093, [7981; 921]); (8094, [7982; 921]); (8095, [7983; 921]);
   (8096, [8040; 921]); (8097, [8041; 921]); (8098, [8042; 921]); (8099, [8043; 921]); (8100, [8044; 921]); (8101, [8045; 921]);
   (8102, [8046; 921]); (8103, [8047; 921]); (8104, [8040; 921]); (8105, [8041; 921]); (8106, [8042; 921]); (8107, [8043; 921]);
   (8108, [8044; 921]); (8109, [8045; 921]); (8110, [8046; 921]); (8111, [8047; 921]); (8112, [8120]); (8113, [8121]);
   (8114, [8122; 921]); (8115, [913; 921]); (8116, [902; 921]); (8118, [913; 834]); (8119, [913; 834; 921]); (8124, [913; 921]);
   (8126, [921]); (8130, [8138; 921]); (8131, [919; 921]); (8132, [905; 921]); (8134, [919; 834]); (8135, [919; 834; 921]);
   (8140, [919; 921]); (8144, [8152]); (8145, [8153]); (8146, [921; 776; 768]); (8147, [921; 776; 769]); (8150, [921; 834]);
   (8151, [921; 776; 834]); (8160, [8168]); (8161, [8169]); (8162, [933; 776; 768]); (8163, [933; 776; 769]); (8164, [929; 787]);
   (8165, [8172]); (8166, [933; 834]); (8167, [933; 776; 834]); (8178, [8186; 921]); (8179, [937; 921]); (8180, [911; 921]);
   (8182, [937; 834]); (8183, [937; 834; 921]); (8188, [937; 921]); (8526, [8498]); (8560, [8544]); (8561, [8545]);
   (8562, [8546]); (8563, [8547]); (8564, [8548]); (8565, [8549]); (8566, [8550]); (8567, [8551]);
   (8568, [8552]); (8569, [8553]); (8570, [8554]); (8571, [8555]); (8572, [8556]); (8573, [8557]);
   (8574, [8558]); (8575, [8559]); (8580, [8579]); (9424, [9398]); (9425, [9399]); (9426, [9400]);
   (9427, [9401]); (9428, [9402]); (9429, [9403]); (9430, [9404]); (9431, [9405]); (9432, [9406]);
   (9433, [9407]); (9434, [9408]); (9435, [9409]); (9436, [9410]); (9437, [9411]); (9438, [9412]);
   (9439, [9413]); (9440, [9414]); (9441, [9415]); (9442, [9416]); (9443, [9417]); (9444, [9418]);
   (9445, [9419]); (9446, [9420]); (9447, [9421]); (9448, [9422]); (9449, [9423]); (11312, [11264]);
   (11313, [11265]); (11314, [11266]); (11315, [11267]); (11316, [11268]); (11317, [11269]); (11318, [11270]);
   (11319, [11271]); (11320, [11272]); (11321, [11273]); (11322, [11274]); (11323, [11275]); (11324, [11276]);
   (11325, [11277]); (11326, [11278]); (11327, [11279]); (11328, [11280]); (11329, [11281]); (11330, [11282]);
   (11331, [11283]); (11332, [11284]); (11333, [11285]); (11334, [11286]); (11335, [11287]); (11336, [11288]);
   (11337, [11289]); (11338, [11290]); (11339, [11291]); (11340, [11292]); (11341, [11293]); (11342, [11294]);
   (11343, [11295]); (11344, [11296]); (11345, [11297]); (11346, [11298]); (11347, [11299]); (11348, [11300]);
   (11349, [11301]); (11350, [11302]); (11351, [11303]); (11352, [11304]); (11353, [11305]); (11354, [11306]);
   (11355, [11307]); (11356, [11308]); (11357, [11309]); (11358, [11310]); (11359, [11311]); (11361, [11360]);
   (11365, [570]); (11366, [574]); (11368, [11367]); (11370, [11369]); (11372, [11371]); (11379, [11378]);
   (11382, [11381]); (11393, [11392]); (11395, [11394]); (11397, [11396]); (11399, [11398]); (11401, [11400]);
   (11403, [11402]); (11405, [11404]); (11407, [11406]); (11409, [11408]); (11411, [11410]); (11413, [11412]);
   (11415, [11414]); (11417, [11416]); (11419, [11418]); (11421, [11420]); (11423, [11422]); (11425, [11424]);
   (11427, [11426]); (11429, [11428]); (11431, [11430]); (11433, [11432]); (11435, [11434]); (11437, [11436]);
   (11439, [11438]); (11441, [11440]); (11443, [11442]); (11445, [11444]); (11447, [11446]); (11449, [11448]);
   (11451, [11450]); (11453, [11452]); (11455, [11454]); (11457, [11456]); (11459, [11458]); (11461, [11460]);
   (11463, [11462]); (11465, [11464]); (11467, [11466]); (11469, [11468]); (11471, [11470]); (11473, [11472]);
   (11475, [11474]); (11477, [11476]); (11479, [11478]); (11481, [11480]); (11483, [11482]); (11485, [11484]);
   (11487, [11486]); (11489, [11488]); (11491, [11490]); (11500, [11499]); (11502, [11501]); (11507, [11506]);
   (11520, [4256]); (11521, [4257]); (11522, [4258]); (11523, [4259]); (11524, [4260]); (11525, [4261]);
   (11526, [4262]); (11527, [4263]); (11528, [4264]); (11529, [4265]); (11530, [4266]); (11531, [4267]);
   (11532, [4268]); (11533, [4269]); (11534, [4270]); (11535, [4271]); (11536, [4272]); (11537, [4273]);
   (11538, [4274]); (11539, [4275]); (11540, [4276]); (11541, [4277]); (11542, [4278]); (11543, [4279]);
   (11544, [4280]); (11545, [4281]); (11546, [4282]); (11547, [4283]); (11548, [4284]); (11549, [4285]);
   (11550, [4286]); (11551, [4287]); (11552, [4288]); (11553, [4289]); (11554, [4290]); (11555, [4291]);
   (11556, [4292]); (11557, [4293]); (11559, [4295]); (11565, [4301]); (42561, [42560]); (42563, [42562]);
   (42565, [42564]); (42567, [42566]); (42569, [42568]); (42571, [42570]); (42573, [42572]); (42575, [42574]);
   (42577, [42576]); (42579, [42578]); (42581, [42580]); (42583, [42582]); (42585, [42584]); (42587, [42586]);
   (42589, [42588]); (42591, [42590]); (42593, [42592]); (42595, [42594]); (42597, [42596]); (42599, [42598]);
   (42601, [42600]); (42603, [42602]); (42605, [42604]); (42625, [42624]); (42627, [42626]); (42629, [42628]);
   (42631, [42630]); (42633, [42632]); (42635, [42634]); (42637, [42636]); (42639, [42638]); (42641, [42640]);
   (42643, [42642]); (42645, [42644]); (42647, [42646]); (42649, [42648]); (42651, [42650]); (42787, [42786]);
   (42789, [42788]); (42791, [42790]); (42793, [42792]); (42795, [42794]); (42797, [42796]); (42799, [42798]);
   (42803, [42802]); (42805, [42804]); (42807, [42806]); (42809, [42808]); (42811, [42810]); (42813, [42812]);
   (42815, [42814]); (42817, [42816]); (42819, [42818]); (42821, [42820]); (42823, [42822]); (42825, [42824]);
   (42827, [42826]); (42829, [42828]); (42831, [42830]); (42833, [42832]); (42835, [42834]); (42837, [42836]);
   (42839, [42838]); (42841, [42840]); (42843, [42842]); (42845, [42844]); (42847, [42846]); (42849, [42848]);
   (42851, [42850]); (42853, [42852]); (42855, [42854]); (42857, [42856]); (42859, [42858]); (42861, [42860]);
   (42863, [42862]); (42874, [42873]); (42876, [42875]); (42879, [42878]); (42881, [42880]); (42883, [42882]);
   (42885, [42884]); (42887, [42886]); (42892, [42891]); (42897, [42896]); (42899, [42898]); (42900, [42948]);
   (42903, [42902]); (42905, [42904]); (42907, [42906]); (42909, [42908]); (42911, [42910]); (42913, [42912]);
   (42915, [42914]); (42917, [42916]); (42919, [42918]); (42921, [42920]); (42933, [42932]); (42935, [42934]);
   (42937, [42936]); (42939, [42938]); (42941, [42940]); (42943, [42942]); (42945, [42944]); (42947, [42946]);
   (42952, [42951]); (42954, [42953]); (42961, [42960]); (42967, [42966]); (42969, [42968]); (42998, [42997]);
   (43859, [42931]); (43888, [5024]); (43889, [5025]); (43890, [5026]); (43891, [5027]); (43892, [5028]);
   (43893, [5029]); (43894, [5030]); (43895, [5031]); (43896, [5032]); (43897, [5033]); (43898, [5034]);
   (43899, [5035]); (43900, [5036]); (43901, [5037]); (43902, [5038]); (43903, [5039]); (43904, [5040]);
   (43905, [5041]); (43906, [5042]); (43907, [5043]); (43908, [5044]); (43909, [5045]); (43910, [5046]);
   (43911, [5047]); (43912, [5048]); (43913, [5049]); (43914, [5050]); (43915, [5051]); (43916, [5052]);
   (43917, [5053]); (43918, [5054]); (43919, [5055]); (43920, [5056]); (43921, [5057]); (43922, [5058]);
   (43923, [5059]); (43924, [5060]); (43925, [5061]); (43926, [5062]); (43927, [5063]); (43928, [5064]);
   (43929, [5065]); (43930, [5066]); (43931, [5067]); (43932, [5068]); (43933, [5069]); (43934, [5070]);
   (43935, [5071]); (43936, [5072]); (43937, [5073]); (43938, [5074]); (43939, [5075]); (43940, [5076]);
   (43941, [5077]); (43942, [5078]); (43943, [5079]); (43944, [5080]); (43945, [5081]); (43946, [5082]);
   (43947, [5083]); (43948, [5084]); (43949, [5085]); (43950, [5086]); (43951, [5087]); (43952, [5088]);
   (43953, [5089]); (43954, [5090]); (43955, [5091]); (43956, [5092]); (43957, [5093]); (43958, [5094]);
   (43959, [5095]); (43960, [5096]); (43961, [5097]); (43962, [5098]); (43963, [5099]); (43964, [5100]);
   (43965, [5101]); (43966, [5102]); (43967, [5103]); (64256, [70; 70]); (64257, [70; 73]); (64258, [70; 76]);
   (64259, [70; 70; 73]); (64260, [70; 70; 76]); (64261, [83; 84]); (64262, [83; 84]); (64275, [1348; 1350]); (64276, [1348; 1333]);
   (64277, [1348; 1339]); (64278, [1358; 1350]); (64279, [1348; 1341]); (65345, [65313]); (65346, [65314]); (65347, [65315]);
   (65348, [65316]); (65349, [65317]); (65350, [65318]); (65351, [65319]); (65352, [65320]); (65353, [65321]);
   (65354, [65322]); (65355, [65323]); (65356, [65324]); (65357, [65325]); (65358, [65326]); (65359, [65327]);
   (65360, [65328]); (65361, [65329]); (65362, [65330]); (65363, [65331]); (65364, [65332]); (65365, [65333]);
   (65366, [65334]); (65367, [65335]); (65368, [65336]); (65369, [65337]); (65370, [65338]); (66600, [66560]);
   (66601, [66561]); (66602, [66562]); (66603, [66563]); (66604, [66564]); (66605, [66565]); (66606, [66566]);
   (66607, [66567]); (66608, [66568]); (66609, [66569]); (66610, [66570]); (66611, [66571]); (66612, [66572]);
   (66613, [66573]); (66614, [66574]); (66615, [66575]); (66616, [66576]); (66617, [66577]); (66618, [66578]);
   (66619, [66579]); (66620, [66580]); (66621, [66581]); (66622, [66582]); (66623, [66583]); (66624, [66584]);
   (66625, [66585]); (66626, [66586]); (66627, [66587]); (66628, [66588]); (66629, [66589]); (66630, [66590]);
   (66631, [66591]); (66632, [66592]); (66633, [66593]); (66634, [66594]); (66635, [66595]); (66636, [66596]);
   (66637, [66597]); (66638, [66598]); (66639, [66599]); (66776, [66736]); (66777, [66737]); (66778, [66738]);
   (66779, [66739]); (66780, [66740]); (66781, [66741]); (66782, [66742]); (66783, [66743]); (66784, [66744]);
   (66785, [66745]); (66786, [66746]); (66787, [66747]); (66788, [66748]); (66789, [66749]); (66790, [66750]);
   (66791, [66751]); (66792, [66752]); (66793, [66753]); (66794, [66754]); (66795, [66755]); (66796, [66756]);
   (66797, [66757]); (66798, [66758]); (66799, [66759]); (66800, [66760]); (66801, [66761]); (66802, [66762]);
   (66803, [66763]); (66804, [66764]); (66805, [66765]); (66806, [66766]); (66807, [66767]); (66808, [66768]);
   (66809, [66769]); (66810, [66770]); (66811, [66771]); (66967, [66928]); (66968, [66929]); (66969, [66930]);
   (66970, [66931]); (66971, [66932]); (66972, [66933]); (66973, [66934]); (66974, [66935]); (66975, [66936]);
   (66976, [66937]); (66977, [66938]); (66979, [66940]); (66980, [66941]); (66981, [66942]); (66982, [66943]);
   (66983, [66944]); (66984, [66945]); (66985, [66946]); (66986, [66947]); (66987, [66948]); (66988, [66949]);
   (66989, [66950]); (66990, [66951]); (66991, [66952]); (66992, [66953]); (66993, [66954]); (66995, [66956]);
   (66996, [66957]); (66997, [66958]); (66998, [66959]); (66999, [66960]); (67000, [66961]); (67001, [66962]);
   (67003, [66964]); (67004, [66965]); (68800, [68736]); (68801, [68737]); (68802, [68738]); (68803, [68739]);
   (68804, [68740]); (68805, [68741]); (68806, [68742]); (68807, [68743]); (68808, [68744]); (68809, [68745]);
   (68810, [68746]); (68811, [68747]); (68812, [68748]); (68813, [68749]); (68814, [68750]); (68815, [68751]);
   (68816, [68752]); (68817, [68753]); (68818, [68754]); (68819, [68755]); (68820, [68756]); (68821, [68757]);
   (68822, [68758]); (68823, [68759]); (68824, [68760]); (68825, [68761]); (68826, [68762]); (68827, [68763]);
   (68828, [68764]); (68829, [68765]); (68830, [68766]); (68831, [68767]); (68832, [68768]); (68833, [68769]);
   (68834, [68770]); (68835, [68771]); (68836, [68772]); (68837, [68773]); (68838, [68774]); (68839, [68775]);
   (68840, [68776]); (68841, [68777]); (68842, [68778]); (68843, [68779]); (68844, [68780]); (68845, [68781]);
   (68846, [68782]); (68847, [68783]); (68848, [68784]); (68849, [68785]); (68850, [68786]); (71872, [71840]);
   (71873, [71841]); (71874, [71842]); (71875, [71843]); (71876, [71844]); (71877, [71845]); (71878, [71846]);
   (71879, [71847]); (71880, [71848]); (71881, [71849]); (71882, [71850]); (71883, [71851]); (71884, [71852]);
   (71885, [71853]); (71886, [71854]); (71887, [71855]); (71888, [71856]); (71889, [71857]); (71890, [71858]);
   (71891, [71859]); (71892, [71860]); (71893, [71861]); (71894, [71862]); (71895, [71863]); (71896, [71864]);
   (71897, [71865]); (71898, [71866]); (71899, [71867]); (71900, [71868]); (71901, [71869]); (71902, [71870]);
   (71903, [71871]); (93792, [93760]); (93793, [93761]); (93794, [93762]); (93795, [93763]); (93796, [93764]);
   (93797, [93765]); (93798, [93766]); (93799, [93767]); (93800, [93768]); (93801, [93769]); (93802, [93770]);
   (93803, [93771]); (93804, [93772]); (93805, [93773]); (93806, [93774]); (93807, [93775]); (93808, [93776]);
   (93809, [93777]); (93810, [93778]); (93811, [93779]); (93812, [93780]); (93813, [93781]); (93814, [93782]);
   (93815, [93783]); (93816, [93784]); (93817, [93785]); (93818, [93786]); (93819, [93787]); (93820, [93788]);
   (93821, [93789]); (93822, [93790]); (93823, [93791]); (125218, [125184]); (125219, [125185]); (125220, [125186]);
   (125221, [125187]); (125222, [125188]); (125223, [125189]); (125224, [125190]); (125225, [125191]); (125226, [125192]);
   (125227, [125193]); (125228, [125194]); (125229, [125195]); (125230, [125196]); (125231, [125197]); (125232, [125198]);
   (125233, [125199]); (125234, [125200]); (125235, [125201]); (125236, [125202]); (125237, [125203]); (125238, [125204]);
   (125239, [125205]); (125240, [125206]); (125241, [125207]); (125242, [125208]); (125243, [125209]); (125244, [125210]);
   (125245, [125211]); (125246, [125212]); (125247, [125213]); (125248, [125214]); (125249, [125215]); (125250, [125216]);
   (125251, [125217])].

Definition decomp_table : list (N * list N) :=
  [(192, [65; 768]); (193, [65; 769]); (194, [65; 770]); (195, [65; 771]); (196, [65; 776]); (197, [65; 778]);
   (199, [67; 807]); (200, [69; 768]); (201, [69; 769]); (202, [69; 770]); (203, [69; 776]); (204, [73; 768]);
   (205, [73; 769]); (206, [73; 770]); (207, [73; 776]); (209, [78; 771]); (210, [79; 768]); (211, [79; 769]);
   (212, [79; 770]); (213, [79; 771]); (214, [79; 776]); (217, [85; 768]); (218, [85; 769]); (219, [85; 770]);
   (220, [85; 776]); (221, [89; 769]); (224, [97; 768]); (225, [97; 769]); (226, [97; 770]); (227, [97; 771]);
   (228, [97; 776]); (229, [97; 778]); (231, [99; 807]); (232, [101; 768]); (233, [101; 769]); (234, [101; 770]);
   (235, [101; 776]); (236, [105; 768]); (237, [105; 769]); (238, [105; 770]); (239, [105; 776]); (241, [110; 771]);
   (242, [111; 768]); (243, [111; 769]); (244, [111; 770]); (245, [111; 771]); (246, [111; 776]); (249, [117; 768]);
   (250, [117; 769]); (251, [117; 770]); (252, [117; 776]); (253, [121; 769]); (255, [121; 776]); (256, [65; 772]);
   (257, [97; 772]); (258, [65; 774]); (259, [97; 774]); (260, [65; 808]); (261, [97; 808]); (262, [67; 769]);
   (263, [99; 769]); (264, [67; 770]); (265, [99; 770]); (266, [67; 775]); (267, [99; 775]); (268, [67; 780]);
   (269, [99; 780]); (270, [68; 780]); (271, [100; 780]); (274, [69; 772]); (275, [101; 772]); (276, [69; 774]);
   (277, [101; 774]); (278, [69; 775]); (279, [101; 775]); (280, [69; 808]); (281, [101; 808]); (282, [69; 780]);
   (283, [101; 780]); (284, [71; 770]); (285, [103; 770]); (286, [71; 774]); (287, [103; 774]); (288, [71; 775]);
   (289, [103; 775]); (290, [71; 807]); (291, [103; 807]); (292, [72; 770]); (293, [104; 770]); (296, [73; 771]);
   (297, [105; 771]); (298, [73; 772]); (299, [105; 772]); (300, [73; 774]); (301, [105; 774]); (302, [73; 808]);
   (303, [105; 808]); (304, [73; 775]); (308, [74; 770]); (309, [106; 770]); (310, [75; 807]); (311, [107; 807]);
   (313, [76; 769]); (314, [108; 769]); (315, [76; 807]); (316, [108; 807]); (317, [76; 780]); (318, [108; 780]);
   (323, [78; 769]); (324, [110; 769]); (325, [78; 807]); (326, [110; 807]); (327, [78; 780]); (328, [110; 780]);
   (332, [79; 772]); (333, [111; 772]); (334, [79; 774]); (335, [111; 774]); (336, [79; 779]); (337, [111; 779]);
   (340, [82; 769]); (341, [114; 769]); (342, [82; 807]); (343, [114; 807]); (344, [82; 780]); (345, [114; 780]);
   (346, [83; 769]); (347, [115; 769]); (348, [83; 770]); (349, [115; 770]); (350, [83; 807]); (351, [115; 807]);
   (352, [83; 780]); (353, [115; 780]); (354, [84; 807]); (355, [116; 807]); (356, [84; 780]); (357, [116; 780]);
   (360, [85; 771]); (361, [117; 771]); (362, [85; 772]); (363, [117; 772]); (364, [85; 774]); (365, [117; 774]);
   (366, [85; 778]); (367, [117; 778]); (368, [85; 779]); (369, [117; 779]); (370, [85; 808]); (371, [117; 808]);
   (372, [87; 770]); (373, [119; 770]); (374, [89; 770]); (375, [121; 770]); (376, [89; 776]); (377, [90; 769]);
   (378, [122; 769]); (379, [90; 775]); (380, [122; 775]); (381, [90; 780]); (382, [122; 780]); (416, [79; 795]);
   (417, [111; 795]); (431, [85; 795]); (432, [117; 795]); (461, [65; 780]); (462, [97; 780]); (463, [73; 780]);
   (464, [105; 780]); (465, [79; 780]); (466, [111; 780]); (467, [85; 780]); (468, [117; 780]); (469, [85; 776; 772]);
   (470, [117; 776; 772]); (471, [85; 776; 769]); (472, [117; 776; 769]); (473, [85; 776; 780]); (474, [117; 776; 780]); (475, [85; 776; 768]);
   (476, [117; 776; 768]); (478, [65; 776; 772]); (479, [97; 776; 772]); (480, [65; 775; 772]); (481, [97; 775; 772]); (482, [198; 772]);
   (483, [230; 772]); (486, [71; 780]); (487, [103; 780]); (488, [75; 780]); (489, [107; 780]); (490, [79; 808]);
   (491, [111; 808]); (492, [79; 808; 772]); (493, [111; 808; 772]); (494, [439; 780]); (495, [658; 780]); (496, [106; 780]);
   (500, [71; 769]); (501, [103; 769]); (504, [78; 768]); (505, [110; 768]); (506, [65; 778; 769]); (507, [97; 778; 769]);
   (508, [198; 769]); (509, [230; 769]); (510, [216; 769]); (511, [248; 769]); (512, [65; 783]); (513, [97; 783]);
   (514, [65; 785]); (515, [97; 785]); (516, [69; 783]); (517, [101; 783]); (518, [69; 785]); (519, [101; 785]);
   (520, [73; 783]); (521, [105; 783]); (522, [73; 785]); (523, [105; 785]); (524, [79; 783]); (525, [111; 783]);
   (526, [79; 785]); (527, [111; 785]); (528, [82; 783]); (529, [114; 783]); (530, [82; 785]); (531, [114; 785]);
   (532, [85; 783]); (533, [117; 783]); (534, [85; 785]); (535, [117; 785]); (536, [83; 806]); (537, [115; 806]);
   (538, [84; 806]); (539, [116; 806]); (542, [72; 780]); (543, [104; 780]); (550, [65; 775]); (551, [97; 775]);
   (552, [69; 807]); (553, [101; 807]); (554, [79; 776; 772]); (555, [111; 776; 772]); (556, [79; 771; 772]); (557, [111; 771; 772]);
   (558, [79; 775]); (559, [111; 775]); (560, [79; 775; 772]); (561, [111; 775; 772]); (562, [89; 772]); (563, [121; 772]);
   (832, [768]); (833, [769]); (835, [787]); (836, [776; 769]); (884, [697]); (894, [59]);
   (901, [168; 769]); (902, [913; 769]); (903, [183]); (904, [917; 769]); (905, [919; 769]); (906, [921; 769]);
   (908, [927; 769]); (910, [933; 769]); (911, [937; 769]); (912, [953; 776; 769]); (938, [921; 776]); (939, [933; 776]);
   (940, [945; 769]); (941, [949; 769]); (942, [951; 769]); (943, [953; 769]); (944, [965; 776; 769]); (970, [953; 776]);
   (971, [965; 776]); (972, [959; 769]); (973, [965; 769]); (974, [969; 769]); (979, [978; 769]); (980, [978; 776]);
   (1024, [1045; 768]); (1025, [1045; 776]); (1027, [1043; 769]); (1031, [1030; 776]); (1036, [1050; 769]); (1037, [1048; 768]);
   (1038, [1059; 774]); (1049, [1048; 774]); (1081, [1080; 774]); (1104, [1077; 768]); (1105, [1077; 776]); (1107, [1075; 769]);
   (1111, [1110; 776]); (1116, [1082; 769]); (1117, [1080; 768]); (1118, [1091; 774]); (1142, [1140; 783]); (1143, [1141; 783]);
   (1217, [1046; 774]); (1218, [1078; 774]); (1232, [1040; 774]); (1233, [1072; 774]); (1234, [1040; 776]); (1235, [1072; 776]);
   (1238, [1045; 774]); (1239, [1077; 774]); (1242, [1240; 776]); (1243, [1241; 776]); (1244, [1046; 776]); (1245, [1078; 776]);
   (1246, [1047; 776]); (1247, [1079; 776]); (1250, [1048; 772]); (1251, [1080; 772]); (1252, [1048; 776]); (1253, [1080; 776]);
   (1254, [1054; 776]); (1255, [1086; 776]); (1258, [1256; 776]); (1259, [1257; 776]); (1260, [1069; 776]); (1261, [1101; 776]);
   (1262, [1059; 772]); (1263, [1091; 772]); (1264, [1059; 776]); (1265, [1091; 776]); (1266, [1059; 779]); (1267, [1091; 779]);
   (1268, [1063; 776]); (1269, [1095; 776]); (1272, [1067; 776]); (1273, [1099; 776]); (1570, [1575; 1619]); (1571, [1575; 1620]);
   (1572, [1608; 1620]); (1573, [1575; 1621]); (1574, [1610; 1620]); (1728, [1749; 1620]); (1730, [1729; 1620]); (1747, [1746; 1620]);
   (2345, [2344; 2364]); (2353, [2352; 2364]); (2356, [2355; 2364]); (2392, [2325; 2364]); (2393, [2326; 2364]); (2394, [2327; 2364]);
   (2395, [2332; 2364]); (2396, [2337; 2364]); (2397, [2338; 2364]); (2398, [2347; 2364]); (2399, [2351; 2364]); (2507, [2503; 2494]);
   (2508, [2503; 2519]); (2524, [2465; 2492]); (2525, [2466; 2492]); (2527, [2479; 2492]); (2611, [2610; 2620]); (2614, [2616; 2620]);
   (2649, [2582; 2620]); (2650, [2583; 2620]); (2651, [2588; 2620]); (2654, [2603; 2620]); (2888, [2887; 2902]); (2891, [2887; 2878]);
   (2892, [2887; 2903]); (2908, [2849; 2876]); (2909, [2850; 2876]); (2964, [2962; 3031]); (3018, [3014; 3006]); (3019, [3015; 3006]);
   (3020, [3014; 3031]); (3144, [3142; 3158]); (3264, [3263; 3285]); (3271, [3270; 3285]); (3272, [3270; 3286]); (3274, [3270; 3266]);
   (3275, [3270; 3266; 3285]); (3402, [3398; 3390]); (3403, [3399; 3390]); (3404, [3398; 3415]); (3546, [3545; 3530]); (3548, [3545; 3535]);
   (3549, [3545; 3535; 3530]); (3550, [3545; 3551]); (3907, [3906; 4023]); (3917, [3916; 4023]); (3922, [3921; 4023]); (3927, [3926; 4023]);
   (3932, [3931; 4023]); (3945, [3904; 4021]); (3955, [3953; 3954]); (3957, [3953; 3956]); (3958, [4018; 3968]); (3960, [4019; 3968]);
   (3969, [3953; 3968]); (3987, [3986; 4023]); (3997, [3996; 4023]); (4002, [4001; 4023]); (4007, [4006; 4023]); (4012, [4011; 4023]);
   (4025, [3984; 4021]); (4134, [4133; 4142]); (6918, [6917; 6965]); (6920, [6919; 6965]); (6922, [6921; 6965]); (6924, [6923; 6965]);
   (6926, [6925; 6965]); (6930, [6929; 6965]); (6971, [6970; 6965]); (6973, [6972; 6965]); (6976, [6974; 6965]); (6977, [6975; 6965]);
   (6979, [6978; 6965]); (7680, [65; 805]); (7681, [97; 805]); (7682, [66; 775]); (7683, [98; 775]); (7684, [66; 803]);
   (7685, [98; 803]); (7686, [66; 817]); (7687, [98; 817]); (7688, [67; 807; 769]); (7689, [99; 807; 769]); (7690, [68; 775]);
   (7691, [100; 775]); (7692, [68; 803]); (7693, [100; 803]); (7694, [68; 817]); (7695, [100; 817]); (7696, [68; 807]);
   (7697, [100; 807]); (7698, [68; 813]); (7699, [100; 813]); (7700, [69; 772; 768]); (7701, [101; 772; 768]); (7702, [69; 772; 769]);
   (7703, [101; 772; 769]); (7704, [69; 813]); (7705, [101; 813]); (7706, [69; 816]); (7707, [101; 816]); (7708, [69; 807; 774]);
   (7709, [101; 807; 774]); (7710, [70; 775]); (7711, [102; 775]); (7712, [71; 772]); (7713, [103; 772]); (7714, [72; 775]);
   (7715, [104; 775]); (7716, [72; 803]); (7717, [104; 803]); (7718, [72; 776]); (7719, [104; 776]); (7720, [72; 807]);
   (7721, [104; 807]); (7722, [72; 814]); (7723, [104; 814]); (7724, [73; 816]); (7725, [105; 816]); (7726, [73; 776; 769]);
   (7727, [105; 776; 769]); (7728, [75; 769]); (7729, [107; 769]); (7730, [75; 803]); (7731, [107; 803]); (7732, [75; 817]);
   (7733, [107; 817]); (7734, [76; 803]); (7735, [108; 803]); (7736, [76; 803; 772]); (7737, [108; 803; 772]); (7738, [76; 817]);
   (7739, [108; 817]); (7740, [76; 813]); (7741, [108; 813]); (7742, [77; 769]); (7743, [109; 769]); (7744, [77; 775]);
   (7745, [109; 775]); (7746, [77; 803]); (7747, [109; 803]); (7748, [78; 775]); (7749, [110; 775]); (7750, [78; 803]);
   (7751, [110; 803]); (7752, [78; 817]); (7753, [110; 817]); (7754, [78; 813]); (7755, [110; 813]); (7756, [79; 771; 769]);
   (7757, [111; 771; 769]); (7758, [79; 771; 776]); (7759, [111; 771; 776]); (7760, [79; 772; 768]); (7761, [111; 772; 768]); (7762, [79; 772; 769]);
   (7763, [111; 772; 769]); (7764, [80; 769]); (7765, [112; 769]); (7766, [80; 775]); (7767, [112; 775]); (7768, [82; 775]);
   (7769, [114; 775]); (7770, [82; 803]); (7771, [114; 803]); (7772, [82; 803; 772]); (7773, [114; 803; 772]); (7774, [82; 817]);
   (7775, [114; 817]); (7776, [83; 775]); (7777, [115; 775]); (7778, [83; 803]); (7779, [115; 803]); (7780, [83; 769; 775]);
   (7781, [115; 769; 775]); (7782, [83; 780; 775]); (7783, [115; 780; 775]); (7784, [83; 803; 775]); (7785, [115; 803; 775]); (7786, [84; 775]);
   (7787, [116; 775]); (7788, [84; 803]); (7789, [116; 803]); (7790, [84; 817]); (7791, [116; 817]); (7792, [84; 813]);
   (7793, [116; 813]); (7794, [85; 804]); (7795, [117; 804]); (7796, [85; 816]); (7797, [117; 816]); (7798, [85; 813]);
   (7799, [117; 813]); (7800, [85; 771; 769]); (7801, [117; 771; 769]); (7802, [85; 772; 776]); (7803, [117; 772; 776]); (7804, [86; 771]);
   (7805, [118; 771]); (7806, [86; 803]); (7807, [118; 803]); (7808, [87; 768]); (7809, [119; 768]); (7810, [87; 769]);
   (7811, [119; 769]); (7812, [87; 776]); (7813, [119; 776]); (7814, [87; 775]); (7815, [119; 775]); (7816, [87; 803]);
   (7817, [119; 803]); (7818, [88; 775]); (7819, [120; 775]); (7820, [88; 776]); (7821, [120; 776]); (7822, [89; 775]);
   (7823, [121; 775]); (7824, [90; 770]); (7825, [122; 770]); (7826, [90; 803]); (7827, [122; 803]); (7828, [90; 817]);
   (7829, [122; 817]); (7830, [104; 817]); (7831, [116; 776]); (7832, [119; 778]); (7833, [121; 778]); (7835, [383; 775]);
   (7840, [65; 803]); (7841, [97; 803]); (7842, [65; 777]); (7843, [97; 777]); (7844, [65; 770; 769]); (7845, [97; 770; 769]);
   (7846, [65; 770; 768]); (7847, [97; 770; 768]); (7848, [65; 770; 777]); (7849, [97; 770; 777]); (7850, [65; 770; 771]); (7851, [97; 770; 771]);
   (7852, [65; 803; 770]); (7853, [97; 803; 770]); (7854, [65; 774; 769]); (7855, [97; 774; 769]); (7856, [65; 774; 768]); (7857, [97; 774; 768]);
   (7858, [65; 774; 777]); (7859, [97; 774; 777]); (7860, [65; 774; 771]); (7861, [97; 774; 771]); (7862, [65; 803; 774]); (7863, [97; 803; 774]);
   (7864, [69; 803]); (7865, [101; 803]); (7866, [69; 777]); (7867, [101; 777]); (7868, [69; 771]); (7869, [101; 771]);
   (7870, [69; 770; 769]); (7871, [101; 770; 769]); (7872, [69; 770; 768]); (7873, [101; 770; 768]); (7874, [69; 770; 777]); (7875, [101; 770; 777]);
   (7876, [69; 770; 771]); (7877, [101; 770; 771]); (7878, [69; 803; 770]); (7879, [101; 803; 770]); (7880, [73; 777]); (7881, [105; 777]);
   (7882, [73; 803]); (7883, [105; 803]); (7884, [79; 803]); (7885, [111; 803]); (7886, [79; 777]); (7887, [111; 777]);
   (7888, [79; 770; 769]); (7889, [111; 770; 769]); (7890, [79; 770; 768]); (7891, [111; 770; 768]); (7892, [79; 770; 777]); (7893, [111; 770; 777]);
   (7894, [79; 770; 771]); (7895, [111; 770; 771]); (7896, [79; 803; 770]); (7897, [111; 803; 770]); (7898, [79; 795; 769]); (7899, [111; 795; 769]);
   (7900, [79; 795; 768]); (7901, [111; 795; 768]); (7902, [79; 795; 777]); (7903, [111; 795; 777]); (7904, [79; 795; 771]); (7905, [111; 795; 771]);
   (7906, [79; 795; 803]); (7907, [111; 795; 803]); (7908, [85; 803]); (7909, [117; 803]); (7910, [85; 777]); (7911, [117; 777]);
   (7912, [85; 795; 769]); (7913, [117; 795; 769]); (7914, [85; 795; 768]); (7915, [117; 795; 768]); (7916, [85; 795; 777]); (7917, [117; 795; 777]);
   (7918, [85; 795; 771]); (7919, [117; 795; 771]); (7920, [85; 795; 803]); (7921, [117; 795; 803]); (7922, [89; 768]); (7923, [121; 768]);
   (7924, [89; 803]); (7925, [121; 803]); (7926, [89; 777]); (7927, [121; 777]); (7928, [89; 771]); (7929, [121; 771]);
   (7936, [945; 787]); (7937, [945; 788]); (7938, [945; 787; 768]); (7939, [945; 788; 768]); (7940, [945; 787; 769]); (7941, [945; 788; 769]);
   (7942, [945; 787; 834]); (7943, [945; 788; 834]); (7944, [913; 787]); (7945, [913; 788]); (7946, [913; 787; 768]); (7947, [913; 788; 768]);
   (7948, [913; 787; 769]); (7949, [913; 788; 769]); (7950, [913; 787; 834]); (7951, [913; 788; 834]); (7952, [949; 787]); (7953, [949; 788]);
   (7954, [949; 787; 768]); (7955, [949; 788; 768]); (7956, [949; 787; 769]); (7957, [949; 788; 769]); (7960, [917; 787]); (7961, [917; 788]);
   (7962, [917; 787; 768]); (7963, [917; 788; 768]); (7964, [917; 787; 769]); (7965, [917; 788; 769]); (7968, [951; 787]); (7969, [951; 788]);
   (7970, [951; 787; 768]); (7971, [951; 788; 768]); (7972, [951; 787; 769]); (7973, [951; 788; 769]); (7974, [951; 787; 834]); (7975, [951; 788; 834]);
   (7976, [919; 787]); (7977, [919; 788]); (7978, [919; 787; 768]); (7979, [919; 788; 768]); (7980, [919; 787; 769]); (7981, [919; 788; 769]);
   (7982, [919; 787; 834]); (7983, [919; 788; 834]); (7984, [953; 787]); (7985, [953; 788]); (7986, [953; 787; 768]); (7987, [953; 788; 768]);
   (7988, [953; 787; 769]); (7989, [953; 788; 769]); (7990, [953; 787; 834]); (7991, [953; 788; 834]); (7992, [921; 787]); (7993, [921; 788]);
   (7994, [921; 787; 768]); (7995, [921; 788; 768]); (7996, [921; 787; 769]); (7997, [921; 788; 769]); (7998, [921; 787; 834]); (7999, [921; 788; 834]);
   (8000, [959; 787]); (8001, [959; 788]); (8002, [959; 787; 768]); (8003, [959; 788; 768]); (8004, [959; 787; 769]); (8005, [959; 788; 769]);
   (8008, [927; 787]); (8009, [927; 788]); (8010, [927; 787; 768]); (8011, [927; 788; 768]); (8012, [927; 787; 769]); (8013, [927; 788; 769]);
   (8016, [965; 787]); (8017, [965; 788]); (8018, [965; 787; 768]); (8019, [965; 788; 768]); (8020, [965; 787; 769]); (8021, [965; 788; 769]);
   (8022, [965; 787; 834]); (8023, [965; 788; 834]); (8025, [933; 788]); (8027, [933; 788; 768]); (8029, [933; 788; 769]); (8031, [933; 788; 834]);
   (8032, [969; 787]); (8033, [969; 788]); (8034, [969; 787; 768]); (8035, [969; 788; 768]); (8036, [969; 787; 769]); (8037, [969; 788; 769]);
   (8038, [969; 787; 834]); (8039, [969; 788; 834]); (8040, [937; 787]); (8041, [937; 788]); (8042, [937; 787; 768]); (8043, [937; 788; 768]);
   (8044, [937; 787; 769]); (8045, [937; 788; 769]); (8046, [937; 787; 834]); (8047, [937; 788; 834]); (8048, [945; 768]); (8049, [945; 769]);
   (8050, [949; 768]); (8051, [949; 769]); (8052, [951; 768]); (8053, [951; 769]); (8054, [953; 768]); (8055, [953; 769]);
   (8056, [959; 768]); (8057, [959; 769]); (8058, [965; 768]); (8059, [965; 769]); (8060, [969; 768]); (8061, [969; 769]);
   (8064, [945; 787; 837]); (8065, [945; 788; 837]); (8066, [945; 787; 768; 837]); (8067, [945; 788; 768; 837]); (8068, [945; 787; 769; 837]); (8069, [945; 788; 769; 837]);
   (8070, [945; 787; 834; 837]); (8071, [945; 788; 834; 837]); (8072, [913; 787; 837]); (8073, [913; 788; 837]); (8074, [913; 787; 768; 837]); (8075, [913; 788; 768; 837]);
   (8076, [913; 787; 769; 837]); (8077, [913; 788; 769; 837]); (8078, [913; 787; 834; 837]); (8079, [913; 788; 834; 837]); (8080, [951; 787; 837]); (8081, [951; 788; 837]);
   (8082, [951; 787; 768; 837]); (8083, [951; 788; 768; 837]); (8084, [951; 787; 769; 837]); (8085, [951; 788; 769; 837]); (8086, [951; 787; 834; 837]); (8087, [951; 788; 834; 837]);
   (8088, [919; 787; 837]); (8089, [919; 788; 837]); (8090, [919; 787; 768; 837]); (8091, [919; 788; 768; 837]); (8092, [919; 787; 769; 837]); (8093, [919; 788; 769; 837]);
   (8094, [919; 787; 834; 837]); (8095, [919; 788; 834; 837]); (8096, [969; 787; 837]); (8097, [969; 788; 837]); (8098, [969; 787; 768; 837]); (8099, [969; 788; 768; 837]);
   (8100, [969; 787; 769; 837]); (8101, [969; 788; 769; 837]); (8102, [969; 787; 834; 837]); (8103, [969; 788; 834; 837]); (8104, [937; 787; 837]); (8105, [937; 788; 837]);
   (8106, [937; 787; 768; 837]); (8107, [937; 788; 768; 837]); (8108, [937; 787; 769; 837]); (8109, [937; 788; 769; 837]); (8110, [937; 787; 834; 837]); (8111, [937; 788; 834; 837]);
   (8112, [945; 774]); (8113, [945; 772]); (8114, [945; 768; 837]); (8115, [945; 837]); (8116, [945; 769; 837]); (8118, [945; 834]);
   (8119, [945; 834; 837]); (8120, [913; 774]); (8121, [913; 772]); (8122, [913; 768]); (8123, [913; 769]); (8124, [913; 837]);
   (8126, [953]); (8129, [168; 834]); (8130, [951; 768; 837]); (8131, [951; 837]); (8132, [951; 769; 837]); (8134, [951; 834]);
   (8135, [951; 834; 837]); (8136, [917; 768]); (8137, [917; 769]); (8138, [919; 768]); (8139, [919; 769]); (8140, [919; 837]);
   (8141, [8127; 768]); (8142, [8127; 769]); (8143, [8127; 834]); (8144, [953; 774]); (8145, [953; 772]); (8146, [953; 776; 768]);
   (8147, [953; 776; 769]); (8150, [953; 834]); (8151, [953; 776; 834]); (8152, [921; 774]); (8153, [921; 772]); (8154, [921; 768]);
   (8155, [921; 769]); (8157, [8190; 768]); (8158, [8190; 769]); (8159, [8190; 834]); (8160, [965; 774]); (8161, [965; 772]);
   (8162, [965; 776; 768]); (8163, [965; 776; 769]); (8164, [961; 787]); (8165, [961; 788]); (8166, [965; 834]); (8167, [965; 776; 834]);
   (8168, [933; 774]); (8169, [933; 772]); (8170, [933; 768]); (8171, [933; 769]); (8172, [929; 788]); (8173, [168; 768]);
   (8174, [168; 769]); (8175, [96]); (8178, [969; 768; 837]); (8179, [969; 837]); (8180, [969; 769; 837]); (8182, [969; 834]);
   (8183, [969; 834; 837]); (8184, [927; 768]); (8185, [927; 769]); (8186, [937; 768]); (8187, [937; 769]); (8188, [937; 837]);
   (8189, [180]); (8192, [8194]); (8193, [8195]); (8486, [937]); (8490, [75]); (8491, [65; 778]);
   (8602, [8592; 824]); (8603, [8594; 824]); (8622, [8596; 824]); (8653, [8656; 824]); (8654, [8660; 824]); (8655, [8658; 824]);
   (8708, [8707; 824]); (8713, [8712; 824]); (8716, [8715; 824]); (8740, [8739; 824]); (8742, [8741; 824]); (8769, [8764; 824]);
   (8772, [8771; 824]); (8775, [8773; 824]); (8777, [8776; 824]); (8800, [61; 824]); (8802, [8801; 824]); (8813, [8781; 824]);
   (8814, [60; 824]); (8815, [62; 824]); (8816, [8804; 824]); (8817, [8805; 824]); (8820, [8818; 824]); (8821, [8819; 824]);
   (8824, [8822; 824]); (8825, [8823; 824]); (8832, [8826; 824]); (8833, [8827; 824]); (8836, [8834; 824]); (8837, [8835; 824]);
   (8840, [8838; 824]); (8841, [8839; 824]); (8876, [8866; 824]); (8877, [8872; 824]); (8878, [8873; 824]); (8879, [8875; 824]);
   (8928, [8828; 824]); (8929, [8829; 824]); (8930, [8849; 824]); (8931, [8850; 824]); (8938, [8882; 824]); (8939, [8883; 824]);
   (8940, [8884; 824]); (8941, [8885; 824]); (9001, [12296]); (9002, [12297]); (10972, [10973; 824]); (12364, [12363; 12441]);
   (12366, [12365; 12441]); (12368, [12367; 12441]); (12370, [12369; 12441]); (12372, [12371; 12441]); (12374, [12373; 12441]); (12376, [12375; 12441]);
   (12378, [12377; 12441]); (12380, [12379; 12441]); (12382, [12381; 12441]); (12384, [12383; 12441]); (12386, [12385; 12441]); (12389, [12388; 12441]);
   (12391, [12390; 12441]); (12393, [12392; 12441]); (12400, [12399; 12441]); (12401, [12399; 12442]); (12403, [12402; 12441]); (12404, [12402; 12442]);
   (12406, [12405; 12441]); (12407, [12405; 12442]); (12409, [12408; 12441]); (12410, [12408; 12442]); (12412, [12411; 12441]); (12413, [12411; 12442]);
   (12436, [12358; 12441]); (12446, [12445; 12441]); (12460, [12459; 12441]); (12462, [12461; 12441]); (12464, [12463; 12441]); (12466, [12465; 12441]);
   (12468, [12467; 12441]); (12470, [12469; 12441]); (12472, [12471; 12441]); (12474, [12473; 12441]); (12476, [12475; 12441]); (12478, [12477; 12441]);
   (12480, [12479; 12441]); (12482, [12481; 12441]); (12485, [12484; 12441]); (12487, [12486; 12441]); (12489, [12488; 12441]); (12496, [12495; 12441]);
   (12497, [12495; 12442]); (12499, [12498; 12441]); (12500, [12498; 12442]); (12502, [12501; 12441]); (12503, [12501; 12442]); (12505, [12504; 12441]);
   (12506, [12504; 12442]); (12508, [12507; 12441]); (12509, [12507; 12442]); (12532, [12454; 12441]); (12535, [12527; 12441]); (12536, [12528; 12441]);
   (12537, [12529; 12441]); (12538, [12530; 12441]); (12542, [12541; 12441]); (63744, [35912]); (63745, [26356]); (63746, [36554]);
   (63747, [36040]); (63748, [28369]); (63749, [20018]); (63750, [21477]); (63751, [40860]); (63752, [40860]);
   (63753, [22865]); (63754, [37329]); (63755, [21895]); (63756, [22856]); (63757, [25078]); (63758, [30313]);
   (63759, [32645]); (63760, [34367]); (63761, [34746]); (63762, [35064]); (63763, [37007]); (63764, [27138]);
   (63765, [27931]); (63766, [28889]); (63767, [29662]); (63768, [33853]); (63769, [37226]); (63770, [39409]);
   (63771, [20098]); (63772, [21365]); (63773, [27396]); (63774, [29211]); (63775, [34349]); (63776, [40478]);
   (63777, [23888]); (63778, [28651]); (63779, [34253]); (63780, [35172]); (63781, [25289]); (63782, [33240]);
   (63783, [34847]); (63784, [24266]); (63785, [26391]); (63786, [28010]); (63787, [29436]); (63788, [37070]);
   (63789, [20358]); (63790, [20919]); (63791, [21214]); (63792, [25796]); (63793, [27347]); (63794, [29200]);
   (63795, [30439]); (63796, [32769]); (63797, [34310]); (63798, [34396]); (63799, [36335]); (63800, [38706]);
   (63801, [39791]); (63802, [40442]); (63803, [30860]); (63804, [31103]); (63805, [32160]); (63806, [33737]);
   (63807, [37636]); (63808, [40575]); (63809, [35542]); (63810, [22751]); (63811, [24324]); (63812, [31840]);
   (63813, [32894]); (63814, [29282]); (63815, [30922]); (63816, [36034]); (63817, [38647]); (63818, [22744]);
   (63819, [23650]); (63820, [27155]); (63821, [28122]); (63822, [28431]); (63823, [32047]); (63824, [32311]);
   (63825, [38475]); (63826, [21202]); (63827, [32907]); (63828, [20956]); (63829, [20940]); (63830, [31260]);
   (63831, [32190]); (63832, [33777]); (63833, [38517]); (63834, [35712]); (63835, [25295]); (63836, [27138]);
   (63837, [35582]); (63838, [20025]); (63839, [23527]); (63840, [24594]); (63841, [29575]); (63842, [30064]);
   (63843, [21271]); (63844, [30971]); (63845, [20415]); (63846, [24489]); (63847, [19981]); (63848, [27852]);
   (63849, [25976]); (63850, [32034]); (63851, [21443]); (63852, [22622]); (63853, [30465]); (63854, [33865]);
   (63855, [35498]); (63856, [27578]); (63857, [36784]); (63858, [27784]); (63859, [25342]); (63860, [33509]);
   (63861, [25504]); (63862, [30053]); (63863, [20142]); (63864, [20841]); (63865, [20937]); (63866, [26753]);
   (63867, [31975]); (63868, [33391]); (63869, [35538]); (63870, [37327]); (63871, [21237]); (63872, [21570]);
   (63873, [22899]); (63874, [24300]); (63875, [26053]); (63876, [28670]); (63877, [31018]); (63878, [38317]);
   (63879, [39530]); (63880, [40599]); (63881, [40654]); (63882, [21147]); (63883, [26310]); (63884, [27511]);
   (63885, [36706]); (63886, [24180]); (63887, [24976]); (63888, [25088]); (63889, [25754]); (63890, [28451]);
   (63891, [29001]); (63892, [29833]); (63893, [31178]); (63894, [32244]); (63895, [32879]); (63896, [36646]);
   (63897, [34030]); (63898, [36899]); (63899, [37706]); (63900, [21015]); (63901, [21155]); (63902, [21693]);
   (63903, [28872]); (63904, [35010]); (63905, [35498]); (63906, [24265]); (63907, [24565]); (63908, [25467]);
   (63909, [27566]); (63910, [31806]); (63911, [29557]); (63912, [20196]); (63913, [22265]); (63914, [23527]);
   (63915, [23994]); (63916, [24604]); (63917, [29618]); (63918, [29801]); (63919, [32666]); (63920, [32838]);
   (63921, [37428]); (63922, [38646]); (63923, [38728]); (63924, [38936]); (63925, [20363]); (63926, [31150]);
   (63927, [37300]); (63928, [38584]); (63929, [24801]); (63930, [20102]); (63931, [20698]); (63932, [23534]);
   (63933, [23615]); (63934, [26009]); (63935, [27138]); (63936, [29134]); (63937, [30274]); (63938, [34044]);
   (63939, [36988]); (63940, [40845]); (63941, [26248]); (63942, [38446]); (63943, [21129]); (63944, [26491]);
   (63945, [26611]); (63946, [27969]); (63947, [28316]); (63948, [29705]); (63949, [30041]); (63950, [30827]);
   (63951, [32016]); (63952, [39006]); (63953, [20845]); (63954, [25134]); (63955, [38520]); (63956, [20523]);
   (63957, [23833]); (63958, [28138]); (63959, [36650]); (63960, [24459]); (63961, [24900]); (63962, [26647]);
   (63963, [29575]); (63964, [38534]); (63965, [21033]); (63966, [21519]); (63967, [23653]); (63968, [26131]);
   (63969, [26446]); (63970, [26792]); (63971, [27877]); (63972, [29702]); (63973, [30178]); (63974, [32633]);
   (63975, [35023]); (63976, [35041]); (63977, [37324]); (63978, [38626]); (63979, [21311]); (63980, [28346]);
   (63981, [21533]); (63982, [29136]); (63983, [29848]); (63984, [34298]); (63985, [38563]); (63986, [40023]);
   (63987, [40607]); (63988, [26519]); (63989, [28107]); (63990, [33256]); (63991, [31435]); (63992, [31520]);
   (63993, [31890]); (63994, [29376]); (63995, [28825]); (63996, [35672]); (63997, [20160]); (63998, [33590]);
   (63999, [21050]); (64000, [20999]); (64001, [24230]); (64002, [25299]); (64003, [31958]); (64004, [23429]);
   (64005, [27934]); (64006, [26292]); (64007, [36667]); (64008, [34892]); (64009, [38477]); (64010, [35211]);
   (64011, [24275]); (64012, [20800]); (64013, [21952]); (64016, [22618]); (64018, [26228]); (64021, [20958]);
   (64022, [29482]); (64023, [30410]); (64024, [31036]); (64025, [31070]); (64026, [31077]); (64027, [31119]);
   (64028, [38742]); (64029, [31934]); (64030, [32701]); (64032, [34322]); (64034, [35576]); (64037, [36920]);
   (64038, [37117]); (64042, [39151]); (64043, [39164]); (64044, [39208]); (64045, [40372]); (64046, [37086]);
   (64047, [38583]); (64048, [20398]); (64049, [20711]); (64050, [20813]); (64051, [21193]); (64052, [21220]);
   (64053, [21329]); (64054, [21917]); (64055, [22022]); (64056, [22120]); (64057, [22592]); (64058, [22696]);
   (64059, [23652]); (64060, [23662]); (64061, [24724]); (64062, [24936]); (64063, [24974]); (64064, [25074]);
   (64065, [25935]); (64066, [26082]); (64067, [26257]); (64068, [26757]); (64069, [28023]); (64070, [28186]);
   (64071, [28450]); (64072, [29038]); (64073, [29227]); (64074, [29730]); (64075, [30865]); (64076, [31038]);
   (64077, [31049]); (64078, [31048]); (64079, [31056]); (64080, [31062]); (64081, [31069]); (64082, [31117]);
   (64083, [31118]); (64084, [31296]); (64085, [31361]); (64086, [31680]); (64087, [32244]); (64088, [32265]);
   (64089, [32321]); (64090, [32626]); (64091, [32773]); (64092, [33261]); (64093, [33401]); (64094, [33401]);
   (64095, [33879]); (64096, [35088]); (64097, [35222]); (64098, [35585]); (64099, [35641]); (64100, [36051]);
   (64101, [36104]); (64102, [36790]); (64103, [36920]); (64104, [38627]); (64105, [38911]); (64106, [38971]);
   (64107, [24693]); (64108, [148206]); (64109, [33304]); (64112, [20006]); (64113, [20917]); (64114, [20840]);
   (64115, [20352]); (64116, [20805]); (64117, [20864]); (64118, [21191]); (64119, [21242]); (64120, [21917]);
   (64121, [21845]); (64122, [21913]); (64123, [21986]); (64124, [22618]); (64125, [22707]); (64126, [22852]);
   (64127, [22868]); (64128, [23138]); (64129, [23336]); (64130, [24274]); (64131, [24281]); (64132, [24425]);
   (64133, [24493]); (64134, [24792]); (64135, [24910]); (64136, [24840]); (64137, [24974]); (64138, [24928]);
   (64139, [25074]); (64140, [25140]); (64141, [25540]); (64142, [25628]); (64143, [25682]); (64144, [25942]);
   (64145, [26228]); (64146, [26391]); (64147, [26395]); (64148, [26454]); (64149, [27513]); (64150, [27578]);
   (64151, [27969]); (64152, [28379]); (64153, [28363]); (64154, [28450]); (64155, [28702]); (64156, [29038]);
   (64157, [30631]); (64158, [29237]); (64159, [29359]); (64160, [29482]); (64161, [29809]); (64162, [29958]);
   (64163, [30011]); (64164, [30237]); (64165, [30239]); (64166, [30410]); (64167, [30427]); (64168, [30452]);
   (64169, [30538]); (64170, [30528]); (64171, [30924]); (64172, [31409]); (64173, [31680]); (64174, [31867]);
   (64175, [32091]); (64176, [32244]); (64177, [32574]); (64178, [32773]); (64179, [33618]); (64180, [33775]);
   (64181, [34681]); (64182, [35137]); (64183, [35206]); (64184, [35222]); (64185, [35519]); (64186, [35576]);
   (64187, [35531]); (64188, [35585]); (64189, [35582]); (64190, [35565]); (64191, [35641]); (64192, [35722]);
   (64193, [36104]); (64194, [36664]); (64195, [36978]); (64196, [37273]); (64197, [37494]); (64198, [38524]);
   (64199, [38627]); (64200, [38742]); (64201, [38875]); (64202, [38911]); (64203, [38923]); (64204, [38971]);
   (64205, [39698]); (64206, [40860]); (64207, [141386]); (64208, [141380]); (64209, [144341]); (64210, [15261]);
   (64211, [16408]); (64212, [16441]); (64213, [152137]); (64214, [154832]); (64215, [163539]); (64216, [40771]);
   (64217, [40846]); (64285, [1497; 1460]); (64287, [1522; 1463]); (64298, [1513; 1473]); (64299, [1513; 1474]); (64300, [1513; 1468; 1473]);
   (64301, [1513; 1468; 1474]); (64302, [1488; 1463]); (64303, [1488; 1464]); (64304, [1488; 1468]); (64305, [1489; 1468]); (64306, [1490; 1468]);
   (64307, [1491; 1468]); (64308, [1492; 1468]); (64309, [1493; 1468]); (64310, [1494; 1468]); (64312, [1496; 1468]); (64313, [1497; 1468]);
   (64314, [1498; 1468]); (64315, [1499; 1468]); (64316, [1500; 1468]); (64318, [1502; 1468]); (64320, [1504; 1468]); (64321, [1505; 1468]);
   (64323, [1507; 1468]); (64324, [1508; 1468]); (64326, [1510; 1468]); (64327, [1511; 1468]); (64328, [1512; 1468]); (64329, [1513; 1468]);
   (64330, [1514; 1468]); (64331, [1493; 1465]); (64332, [1489; 1471]); (64333, [1499; 1471]); (64334, [1508; 1471]); (69786, [69785; 69818]);
   (69788, [69787; 69818]); (69803, [69797; 69818]); (69934, [69937; 69927]); (69935, [69938; 69927]); (70475, [70471; 70462]); (70476, [70471; 70487]);
   (70843, [70841; 70842]); (70844, [70841; 70832]); (70846, [70841; 70845]); (71098, [71096; 71087]); (71099, [71097; 71087]); (71992, [71989; 71984]);
   (119134, [119127; 119141]); (119135, [119128; 119141]); (119136, [119128; 119141; 119150]); (119137, [119128; 119141; 119151]); (119138, [119128; 119141; 119152]); (119139, [119128; 119141; 119153]);
   (119140, [119128; 119141; 119154]); (119227, [119225; 119141]); (119228, [119226; 119141]); (119229, [119225; 119141; 119150]); (119230, [119226; 119141; 119150]); (119231, [119225; 119141; 119151]);
   (119232, [119226; 119141; 119151]); (194560, [20029]); (194561, [20024]); (194562, [20033]); (194563, [131362]); (194564, [20320]);
   (194565, [20398]); (194566, [20411]); (194567, [20482]); (194568, [20602]); (194569, [20633]); (194570, [20711]);
   (194571, [20687]); (194572, [13470]); (194573, [132666]); (194574, [20813]); (194575, [20820]); (194576, [20836]);
   (194577, [20855]); (194578, [132380]); (194579, [13497]); (194580, [20839]); (194581, [20877]); (194582, [132427]);
   (194583, [20887]); (194584, [20900]); (194585, [20172]); (194586, [20908]); (194587, [20917]); (194588, [168415]);
   (194589, [20981]); (194590, [20995]); (194591, [13535]); (194592, [21051]); (194593, [21062]); (194594, [21106]);
   (194595, [21111]); (194596, [13589]); (194597, [21191]); (194598, [21193]); (194599, [21220]); (194600, [21242]);
   (194601, [21253]); (194602, [21254]); (194603, [21271]); (194604, [21321]); (194605, [21329]); (194606, [21338]);
   (194607, [21363]); (194608, [21373]); (194609, [21375]); (194610, [21375]); (194611, [21375]); (194612, [133676]);
   (194613, [28784]); (194614, [21450]); (194615, [21471]); (194616, [133987]); (194617, [21483]); (194618, [21489]);
   (194619, [21510]); (194620, [21662]); (194621, [21560]); (194622, [21576]); (194623, [21608]); (194624, [21666]);
   (194625, [21750]); (194626, [21776]); (194627, [21843]); (194628, [21859]); (194629, [21892]); (194630, [21892]);
   (194631, [21913]); (194632, [21931]); (194633, [21939]); (194634, [21954]); (194635, [22294]); (194636, [22022]);
   (194637, [22295]); (194638, [22097]); (194639, [22132]); (194640, [20999]); (194641, [22766]); (194642, [22478]);
   (194643, [22516]); (194644, [22541]); (194645, [22411]); (194646, [22578]); (194647, [22577]); (194648, [22700]);
   (194649, [136420]); (194650, [22770]); (194651, [22775]); (194652, [22790]); (194653, [22810]); (194654, [22818]);
   (194655, [22882]); (194656, [136872]); (194657, [136938]); (194658, [23020]); (194659, [23067]); (194660, [23079]);
   (194661, [23000]); (194662, [23142]); (194663, [14062]); (194664, [14076]); (194665, [23304]); (194666, [23358]);
   (194667, [23358]); (194668, [137672]); (194669, [23491]); (194670, [23512]); (194671, [23527]); (194672, [23539]);
   (194673, [138008]); (194674, [23551]); (194675, [23558]); (194676, [24403]); (194677, [23586]); (194678, [14209]);
   (194679, [23648]); (194680, [23662]); (194681, [23744]); (194682, [23693]); (194683, [138724]); (194684, [23875]);
   (194685, [138726]); (194686, [23918]); (194687, [23915]); (194688, [23932]); (194689, [24033]); (194690, [24034]);
   (194691, [14383]); (194692, [24061]); (194693, [24104]); (194694, [24125]); (194695, [24169]); (194696, [14434]);
   (194697, [139651]); (194698, [14460]); (194699, [24240]); (194700, [24243]); (194701, [24246]); (194702, [24266]);
   (194703, [172946]); (194704, [24318]); (194705, [140081]); (194706, [140081]); (194707, [33281]); (194708, [24354]);
   (194709, [24354]); (194710, [14535]); (194711, [144056]); (194712, [156122]); (194713, [24418]); (194714, [24427]);
   (194715, [14563]); (194716, [24474]); (194717, [24525]); (194718, [24535]); (194719, [24569]); (194720, [24705]);
   (194721, [14650]); (194722, [14620]); (194723, [24724]); (194724, [141012]); (194725, [24775]); (194726, [24904]);
   (194727, [24908]); (194728, [24910]); (194729, [24908]); (194730, [24954]); (194731, [24974]); (194732, [25010]);
   (194733, [24996]); (194734, [25007]); (194735, [25054]); (194736, [25074]); (194737, [25078]); (194738, [25104]);
   (194739, [25115]); (194740, [25181]); (194741, [25265]); (194742, [25300]); (194743, [25424]); (194744, [142092]);
   (194745, [25405]); (194746, [25340]); (194747, [25448]); (194748, [25475]); (194749, [25572]); (194750, [142321]);
   (194751, [25634]); (194752, [25541]); (194753, [25513]); (194754, [14894]); (194755, [25705]); (194756, [25726]);
   (194757, [25757]); (194758, [25719]); (194759, [14956]); (194760, [25935]); (194761, [25964]); (194762, [143370]);
   (194763, [26083]); (194764, [26360]); (194765, [26185]); (194766, [15129]); (194767, [26257]); (194768, [15112]);
   (194769, [15076]); (194770, [20882]); (194771, [20885]); (194772, [26368]); (194773, [26268]); (194774, [32941]);
   (194775, [17369]); (194776, [26391]); (194777, [26395]); (194778, [26401]); (194779, [26462]); (194780, [26451]);
   (194781, [144323]); (194782, [15177]); (194783, [26618]); (194784, [26501]); (194785, [26706]); (194786, [26757]);
   (194787, [144493]); (194788, [26766]); (194789, [26655]); (194790, [26900]); (194791, [15261]); (194792, [26946]);
   (194793, [27043]); (194794, [27114]); (194795, [27304]); (194796, [145059]); (194797, [27355]); (194798, [15384]);
   (194799, [27425]); (194800, [145575]); (194801, [27476]); (194802, [15438]); (194803, [27506]); (194804, [27551]);
   (194805, [27578]); (194806, [27579]); (194807, [146061]); (194808, [138507]); (194809, [146170]); (194810, [27726]);
   (194811, [146620]); (194812, [27839]); (194813, [27853]); (194814, [27751]); (194815, [27926]); (194816, [27966]);
   (194817, [28023]); (194818, [27969]); (194819, [28009]); (194820, [28024]); (194821, [28037]); (194822, [146718]);
   (194823, [27956]); (194824, [28207]); (194825, [28270]); (194826, [15667]); (194827, [28363]); (194828, [28359]);
   (194829, [147153]); (194830, [28153]); (194831, [28526]); (194832, [147294]); (194833, [147342]); (194834, [28614]);
   (194835, [28729]); (194836, [28702]); (194837, [28699]); (194838, [15766]); (194839, [28746]); (194840, [28797]);
   (194841, [28791]); (194842, [28845]); (194843, [132389]); (194844, [28997]); (194845, [148067]); (194846, [29084]);
   (194847, [148395]); (194848, [29224]); (194849, [29237]); (194850, [29264]); (194851, [149000]); (194852, [29312]);
   (194853, [29333]); (194854, [149301]); (194855, [149524]); (194856, [29562]); (194857, [29579]); (194858, [16044]);
   (194859, [29605]); (194860, [16056]); (194861, [16056]); (194862, [29767]); (194863, [29788]); (194864, [29809]);
   (194865, [29829]); (194866, [29898]); (194867, [16155]); (194868, [29988]); (194869, [150582]); (194870, [30014]);
   (194871, [150674]); (194872, [30064]); (194873, [139679]); (194874, [30224]); (194875, [151457]); (194876, [151480]);
   (194877, [151620]); (194878, [16380]); (194879, [16392]); (194880, [30452]); (194881, [151795]); (194882, [151794]);
   (194883, [151833]); (194884, [151859]); (194885, [30494]); (194886, [30495]); (194887, [30495]); (194888, [30538]);
   (194889, [16441]); (194890, [30603]); (194891, [16454]); (194892, [16534]); (194893, [152605]); (194894, [30798]);
   (194895, [30860]); (194896, [30924]); (194897, [16611]); (194898, [153126]); (194899, [31062]); (194900, [153242]);
   (194901, [153285]); (194902, [31119]); (194903, [31211]); (194904, [16687]); (194905, [31296]); (194906, [31306]);
   (194907, [31311]); (194908, [153980]); (194909, [154279]); (194910, [154279]); (194911, [31470]); (194912, [16898]);
   (194913, [154539]); (194914, [31686]); (194915, [31689]); (194916, [16935]); (194917, [154752]); (194918, [31954]);
   (194919, [17056]); (194920, [31976]); (194921, [31971]); (194922, [32000]); (194923, [155526]); (194924, [32099]);
   (194925, [17153]); (194926, [32199]); (194927, [32258]); (194928, [32325]); (194929, [17204]); (194930, [156200]);
   (194931, [156231]); (194932, [17241]); (194933, [156377]); (194934, [32634]); (194935, [156478]); (194936, [32661]);
   (194937, [32762]); (194938, [32773]); (194939, [156890]); (194940, [156963]); (194941, [32864]); (194942, [157096]);
   (194943, [32880]); (194944, [144223]); (194945, [17365]); (194946, [32946]); (194947, [33027]); (194948, [17419]);
   (194949, [33086]); (194950, [23221]); (194951, [157607]); (194952, [157621]); (194953, [144275]); (194954, [144284]);
   (194955, [33281]); (194956, [33284]); (194957, [36766]); (194958, [17515]); (194959, [33425]); (194960, [33419]);
   (194961, [33437]); (194962, [21171]); (194963, [33457]); (194964, [33459]); (194965, [33469]); (194966, [33510]);
   (194967, [158524]); (194968, [33509]); (194969, [33565]); (194970, [33635]); (194971, [33709]); (194972, [33571]);
   (194973, [33725]); (194974, [33767]); (194975, [33879]); (194976, [33619]); (194977, [33738]); (194978, [33740]);
   (194979, [33756]); (194980, [158774]); (194981, [159083]); (194982, [158933]); (194983, [17707]); (194984, [34033]);
   (194985, [34035]); (194986, [34070]); (194987, [160714]); (194988, [34148]); (194989, [159532]); (194990, [17757]);
   (194991, [17761]); (194992, [159665]); (194993, [159954]); (194994, [17771]); (194995, [34384]); (194996, [34396]);
   (194997, [34407]); (194998, [34409]); (194999, [34473]); (195000, [34440]); (195001, [34574]); (195002, [34530]);
   (195003, [34681]); (195004, [34600]); (195005, [34667]); (195006, [34694]); (195007, [17879]); (195008, [34785]);
   (195009, [34817]); (195010, [17913]); (195011, [34912]); (195012, [34915]); (195013, [161383]); (195014, [35031]);
   (195015, [35038]); (195016, [17973]); (195017, [35066]); (195018, [13499]); (195019, [161966]); (195020, [162150]);
   (195021, [18110]); (195022, [18119]); (195023, [35488]); (195024, [35565]); (195025, [35722]); (195026, [35925]);
   (195027, [162984]); (195028, [36011]); (195029, [36033]); (195030, [36123]); (195031, [36215]); (195032, [163631]);
   (195033, [133124]); (195034, [36299]); (195035, [36284]); (195036, [36336]); (195037, [133342]); (195038, [36564]);
   (195039, [36664]); (195040, [165330]); (195041, [165357]); (195042, [37012]); (195043, [37105]); (195044, [37137]);
   (195045, [165678]); (195046, [37147]); (195047, [37432]); (195048, [37591]); (195049, [37592]); (195050, [37500]);
   (195051, [37881]); (195052, [37909]); (195053, [166906]); (195054, [38283]); (195055, [18837]); (195056, [38327]);
   (195057, [167287]); (195058, [18918]); (195059, [38595]); (195060, [23986]); (195061, [38691]); (195062, [168261]);
   (195063, [168474]); (195064, [19054]); (195065, [19062]); (195066, [38880]); (195067, [168970]); (195068, [19122]);
   (195069, [169110]); (195070, [38923]); (195071, [38923]); (195072, [38953]); (195073, [169398]); (195074, [39138]);
   (195075, [19251]); (195076, [39209]); (195077, [39335]); (195078, [39362]); (195079, [39422]); (195080, [19406]);
   (195081, [170800]); (195082, [39698]); (195083, [40000]); (195084, [40189]); (195085, [19662]); (195086, [19693]);
   (195087, [40295]); (195088, [172238]); (195089, [19704]); (195090, [172293]); (195091, [172558]); (195092, [172689]);
   (195093, [40635]); (195094, [19798]); (195095, [40697]); (195096, [40702]); (195097, [40709]); (195098, [40719]);
   (195099, [40726]); (195100, [40763]); (195101, [173568])].

Definition ccc_table : list (N * N) :=
  [(768, 230); (769, 230); (770, 230); (771, 230); (772, 230); (773, 230); (774, 230); (775, 230); (776, 230); (777, 230);
   (778, 230); (779, 230); (780, 230); (781, 230); (782, 230); (783, 230); (784, 230); (785, 230); (786, 230); (787, 230);
   (788, 230); (789, 232); (790, 220); (791, 220); (792, 220); (793, 220); (794, 232); (795, 216); (796, 220); (797, 220);
   (798, 220); (799, 220); (800, 220); (801, 202); (802, 202); (803, 220); (804, 220); (805, 220); (806, 220); (807, 202);
   (808, 202); (809, 220); (810, 220); (811, 220); (812, 220); (813, 220); (814, 220); (815, 220); (816, 220); (817, 220);
   (818, 220); (819, 220); (820, 1); (821, 1); (822, 1); (823, 1); (824, 1); (825, 220); (826, 220); (827, 220);
   (828, 220); (829, 230); (830, 230); (831, 230); (832, 230); (833, 230); (834, 230); (835, 230); (836, 230); (837, 240);
   (838, 230); (839, 220); (840, 220); (841, 220); (842, 230); (843, 230); (844, 230); (845, 220); (846, 220); (848, 230);
   (849, 230); (850, 230); (851, 220); (852, 220); (853, 220); (854, 220); (855, 230); (856, 232); (857, 220); (858, 220);
   (859, 230); (860, 233); (861, 234); (862, 234); (863, 233); (864, 234); (865, 234); (866, 233); (867, 230); (868, 230);
   (869, 230); (870, 230); (871, 230); (872, 230); (873, 230); (874, 230); (875, 230); (876, 230); (877, 230); (878, 230);
   (879, 230); (1155, 230); (1156, 230); (1157, 230); (1158, 230); (1159, 230); (1425, 220); (1426, 230); (1427, 230); (1428, 230);
   (1429, 230); (1430, 220); (1431, 230); (1432, 230); (1433, 230); (1434, 222); (1435, 220); (1436, 230); (1437, 230); (1438, 230);
   (1439, 230); (1440, 230); (1441, 230); (1442, 220); (1443, 220); (1444, 220); (1445, 220); (1446, 220); (1447, 220); (1448, 230);
   (1449, 230); (1450, 220); (1451, 230); (1452, 230); (1453, 222); (1454, 228); (1455, 230); (1456, 10); (1457, 11); (1458, 12);
   (1459, 13); (1460, 14); (1461, 15); (1462, 16); (1463, 17); (1464, 18); (1465, 19); (1466, 19); (1467, 20); (1468, 21);
   (1469, 22); (1471, 23); (1473, 24); (1474, 25); (1476, 230); (1477, 220); (1479, 18); (1552, 230); (1553, 230); (1554, 230);
   (1555, 230); (1556, 230); (1557, 230); (1558, 230); (1559, 230); (1560, 30); (1561, 31); (1562, 32); (1611, 27); (1612, 28);
   (1613, 29); (1614, 30); (1615, 31); (1616, 32); (1617, 33); (1618, 34); (1619, 230); (1620, 230); (1621, 220); (1622, 220);
   (1623, 230); (1624, 230); (1625, 230); (1626, 230); (1627, 230); (1628, 220); (1629, 230); (1630, 230); (1631, 220); (1648, 35);
   (1750, 230); (1751, 230); (1752, 230); (1753, 230); (1754, 230); (1755, 230); (1756, 230); (1759, 230); (1760, 230); (1761, 230);
   (1762, 230); (1763, 220); (1764, 230); (1767, 230); (1768, 230); (1770, 220); (1771, 230); (1772, 230); (1773, 220); (1809, 36);
   (1840, 230); (1841, 220); (1842, 230); (1843, 230); (1844, 220); (1845, 230); (1846, 230); (1847, 220); (1848, 220); (1849, 220);
   (1850, 230); (1851, 220); (1852, 220); (1853, 230); (1854, 220); (1855, 230); (1856, 230); (1857, 230); (1858, 220); (1859, 230);
   (1860, 220); (1861, 230); (1862, 220); (1863, 230); (1864, 220); (1865, 230); (1866, 230); (2027, 230); (2028, 230); (2029, 230);
   (2030, 230); (2031, 230); (2032, 230); (2033, 230); (2034, 220); (2035, 230); (2045, 220); (2070, 230); (2071, 230); (2072, 230);
   (2073, 230); (2075, 230); (2076, 230); (2077, 230); (2078, 230); (2079, 230); (2080, 230); (2081, 230); (2082, 230); (2083, 230);
   (2085, 230); (2086, 230); (2087, 230); (2089, 230); (2090, 230); (2091, 230); (2092, 230); (2093, 230); (2137, 220); (2138, 220);
   (2139, 220); (2200, 230); (2201, 220); (2202, 220); (2203, 220); (2204, 230); (2205, 230); (2206, 230); (2207, 230); (2250, 230);
   (2251, 230); (2252, 230); (2253, 230); (2254, 230); (2255, 220); (2256, 220); (2257, 220); (2258, 220); (2259, 220); (2260, 230);
   (2261, 230); (2262, 230); (2263, 230); (2264, 230); (2265, 230); (2266, 230); (2267, 230); (2268, 230); (2269, 230); (2270, 230);
   (2271, 230); (2272, 230); (2273, 230); (2275, 220); (2276, 230); (2277, 230); (2278, 220); (2279, 230); (2280, 230); (2281, 220);
   (2282, 230); (2283, 230); (2284, 230); (2285, 220); (2286, 220); (2287, 220); (2288, 27); (2289, 28); (2290, 29); (2291, 230);
   (2292, 230); (2293, 230); (2294, 220); (2295, 230); (2296, 230); (2297, 220); (2298, 220); (2299, 230); (2300, 230); (2301, 230);
   (2302, 230); (2303, 230); (2364, 7); (2381, 9); (2385, 230); (2386, 220); (2387, 230); (2388, 230); (2492, 7); (2509, 9);
   (2558, 230); (2620, 7); (2637, 9); (2748, 7); (2765, 9); (2876, 7); (2893, 9); (3021, 9); (3132, 7); (3149, 9);
   (3157, 84); (3158, 91); (3260, 7); (3277, 9); (3387, 9); (3388, 9); (3405, 9); (3530, 9); (3640, 103); (3641, 103);
   (3642, 9); (3656, 107); (3657, 107); (3658, 107); (3659, 107); (3768, 118); (3769, 118); (3770, 9); (3784, 122); (3785, 122);
   (3786, 122); (3787, 122); (3864, 220); (3865, 220); (3893, 220); (3895, 220); (3897, 216); (3953, 129); (3954, 130); (3956, 132);
   (3962, 130); (3963, 130); (3964, 130); (3965, 130); (3968, 130); (3970, 230); (3971, 230); (3972, 9); (3974, 230); (3975, 230);
   (4038, 220); (4151, 7); (4153, 9); (4154, 9); (4237, 220); (4957, 230); (4958, 230); (4959, 230); (5908, 9); (5909, 9);
   (5940, 9); (6098, 9); (6109, 230); (6313, 228); (6457, 222); (6458, 230); (6459, 220); (6679, 230); (6680, 220); (6752, 9);
   (6773, 230); (6774, 230); (6775, 230); (6776, 230); (6777, 230); (6778, 230); (6779, 230); (6780, 230); (6783, 220); (6832, 230);
   (6833, 230); (6834, 230); (6835, 230); (6836, 230); (6837, 220); (6838, 220); (6839, 220); (6840, 220); (6841, 220); (6842, 220);
   (6843, 230); (6844, 230); (6845, 220); (6847, 220); (6848, 220); (6849, 230); (6850, 230); (6851, 220); (6852, 220); (6853, 230);
   (6854, 230); (6855, 230); (6856, 230); (6857, 230); (6858, 220); (6859, 230); (6860, 230); (6861, 230); (6862, 230); (6964, 7);
   (6980, 9); (7019, 230); (7020, 220); (7021, 230); (7022, 230); (7023, 230); (7024, 230); (7025, 230); (7026, 230); (7027, 230);
   (7082, 9); (7083, 9); (7142, 7); (7154, 9); (7155, 9); (7223, 7); (7376, 230); (7377, 230); (7378, 230); (7380, 1);
   (7381, 220); (7382, 220); (7383, 220); (7384, 220); (7385, 220); (7386, 230); (7387, 230); (7388, 220); (7389, 220); (7390, 220);
   (7391, 220); (7392, 230); (7394, 1); (7395, 1); (7396, 1); (7397, 1); (7398, 1); (7399, 1); (7400, 1); (7405, 220);
   (7412, 230); (7416, 230); (7417, 230); (7616, 230); (7617, 230); (7618, 220); (7619, 230); (7620, 230); (7621, 230); (7622, 230);
   (7623, 230); (7624, 230); (7625, 230); (7626, 220); (7627, 230); (7628, 230); (7629, 234); (7630, 214); (7631, 220); (7632, 202);
   (7633, 230); (7634, 230); (7635, 230); (7636, 230); (7637, 230); (7638, 230); (7639, 230); (7640, 230); (7641, 230); (7642, 230);
   (7643, 230); (7644, 230); (7645, 230); (7646, 230); (7647, 230); (7648, 230); (7649, 230); (7650, 230); (7651, 230); (7652, 230);
   (7653, 230); (7654, 230); (7655, 230); (7656, 230); (7657, 230); (7658, 230); (7659, 230); (7660, 230); (7661, 230); (7662, 230);
   (7663, 230); (7664, 230); (7665, 230); (7666, 230); (7667, 230); (7668, 230); (7669, 230); (7670, 232); (7671, 228); (7672, 228);
   (7673, 220); (7674, 218); (7675, 230); (7676, 233); (7677, 220); (7678, 230); (7679, 220); (8400, 230); (8401, 230); (8402, 1);
   (8403, 1); (8404, 230); (8405, 230); (8406, 230); (8407, 230); (8408, 1); (8409, 1); (8410, 1); (8411, 230); (8412, 230);
   (8417, 230); (8421, 1); (8422, 1); (8423, 230); (8424, 220); (8425, 230); (8426, 1); (8427, 1); (8428, 220); (8429, 220);
   (8430, 220); (8431, 220); (8432, 230); (11503, 230); (11504, 230); (11505, 230); (11647, 9); (11744, 230); (11745, 230); (11746, 230);
   (11747, 230); (11748, 230); (11749, 230); (11750, 230); (11751, 230); (11752, 230); (11753, 230); (11754, 230); (11755, 230); (11756, 230);
   (11757, 230); (11758, 230); (11759, 230); (11760, 230); (11761, 230); (11762, 230); (11763, 230); (11764, 230); (11765, 230); (11766, 230);
   (11767, 230); (11768, 230); (11769, 230); (11770, 230); (11771, 230); (11772, 230); (11773, 230); (11774, 230); (11775, 230); (12330, 218);
   (12331, 228); (12332, 232); (12333, 222); (12334, 224); (12335, 224); (12441, 8); (12442, 8); (42607, 230); (42612, 230); (42613, 230);
   (42614, 230); (42615, 230); (42616, 230); (42617, 230); (42618, 230); (42619, 230); (42620, 230); (42621, 230); (42654, 230); (42655, 230);
   (42736, 230); (42737, 230); (43014, 9); (43052, 9); (43204, 9); (43232, 230); (43233, 230); (43234, 230); (43235, 230); (43236, 230);
   (43237, 230); (43238, 230); (43239, 230); (43240, 230); (43241, 230); (43242, 230); (43243, 230); (43244, 230); (43245, 230); (43246, 230);
   (43247, 230); (43248, 230); (43249, 230); (43307, 220); (43308, 220); (43309, 220); (43347, 9); (43443, 7); (43456, 9); (43696, 230);
   (43698, 230); (43699, 230); (43700, 220); (43703, 230); (43704, 230); (43710, 230); (43711, 230); (43713, 230); (43766, 9); (44013, 9);
   (64286, 26); (65056, 230); (65057, 230); (65058, 230); (65059, 230); (65060, 230); (65061, 230); (65062, 230); (65063, 220); (65064, 220);
   (65065, 220); (65066, 220); (65067, 220); (65068, 220); (65069, 220); (65070, 230); (65071, 230); (66045, 220); (66272, 220); (66422, 230);
   (66423, 230); (66424, 230); (66425, 230); (66426, 230); (68109, 220); (68111, 230); (68152, 230); (68153, 1); (68154, 220); (68159, 9);
   (68325, 230); (68326, 220); (68900, 230); (68901, 230); (68902, 230); (68903, 230); (69291, 230); (69292, 230); (69446, 220); (69447, 220);
   (69448, 230); (69449, 230); (69450, 230); (69451, 220); (69452, 230); (69453, 220); (69454, 220); (69455, 220); (69456, 220); (69506, 230);
   (69507, 220); (69508, 230); (69509, 220); (69702, 9); (69744, 9); (69759, 9); (69817, 9); (69818, 7); (69888, 230); (69889, 230);
   (69890, 230); (69939, 9); (69940, 9); (70003, 7); (70080, 9); (70090, 7); (70197, 9); (70198, 7); (70377, 7); (70378, 9);
   (70459, 7); (70460, 7); (70477, 9); (70502, 230); (70503, 230); (70504, 230); (70505, 230); (70506, 230); (70507, 230); (70508, 230);
   (70512, 230); (70513, 230); (70514, 230); (70515, 230); (70516, 230); (70722, 9); (70726, 7); (70750, 230); (70850, 9); (70851, 7);
   (71103, 9); (71104, 7); (71231, 9); (71350, 9); (71351, 7); (71467, 9); (71737, 9); (71738, 7); (71997, 9); (71998, 9);
   (72003, 7); (72160, 9); (72244, 9); (72263, 9); (72345, 9); (72767, 9); (73026, 7); (73028, 9); (73029, 9); (73111, 9);
   (92912, 1); (92913, 1); (92914, 1); (92915, 1); (92916, 1); (92976, 230); (92977, 230); (92978, 230); (92979, 230); (92980, 230);
   (92981, 230); (92982, 230); (94192, 6); (94193, 6); (113822, 1); (119141, 216); (119142, 216); (119143, 1); (119144, 1); (119145, 1);
   (119149, 226); (119150, 216); (119151, 216); (119152, 216); (119153, 216); (119154, 216); (119163, 220); (119164, 220); (119165, 220); (119166, 220);
   (119167, 220); (119168, 220); (119169, 220); (119170, 220); (119173, 230); (119174, 230); (119175, 230); (119176, 230); (119177, 230); (119178, 220);
   (119179, 220); (119210, 230); (119211, 230); (119212, 230); (119213, 230); (119362, 230); (119363, 230); (119364, 230); (122880, 230); (122881, 230);
   (122882, 230); (122883, 230); (122884, 230); (122885, 230); (122886, 230); (122888, 230); (122889, 230); (122890, 230); (122891, 230); (122892, 230);
   (122893, 230); (122894, 230); (122895, 230); (122896, 230); (122897, 230); (122898, 230); (122899, 230); (122900, 230); (122901, 230); (122902, 230);
   (122903, 230); (122904, 230); (122907, 230); (122908, 230); (122909, 230); (122910, 230); (122911, 230); (122912, 230); (122913, 230); (122915, 230);
   (122916, 230); (122918, 230); (122919, 230); (122920, 230); (122921, 230); (122922, 230); (123184, 230); (123185, 230); (123186, 230); (123187, 230);
   (123188, 230); (123189, 230); (123190, 230); (123566, 230); (123628, 230); (123629, 230); (123630, 230); (123631, 230); (125136, 220); (125137, 220);
   (125138, 220); (125139, 220); (125140, 220); (125141, 220); (125142, 220); (125252, 230); (125253, 230); (125254, 230); (125255, 230); (125256, 230);
   (125257, 230); (125258, 7)].

Definition comp_table : list (N * list (N * N)) :=
  [(60, [(824, 8814)]);
   (61, [(824, 8800)]);
   (62, [(824, 8815)]);
   (65, [(768, 192); (769, 193); (770, 194); (771, 195); (776, 196); (778, 197); (772, 256); (774, 258); (808, 260); (780, 461); (783, 512); (785, 514); (775, 550); (805, 7680); (803, 7840); (777, 7842)]);
   (66, [(775, 7682); (803, 7684); (817, 7686)]);
   (67, [(807, 199); (769, 262); (770, 264); (775, 266); (780, 268)]);
   (68, [(780, 270); (775, 7690); (803, 7692); (817, 7694); (807, 7696); (813, 7698)]);
   (69, [(768, 200); (769, 201); (770, 202); (776, 203); (772, 274); (774, 276); (775, 278); (808, 280); (780, 282); (783, 516); (785, 518); (807, 552); (813, 7704); (816, 7706); (803, 7864); (777, 7866); (771, 7868)]);
   (70, [(775, 7710)]);
   (71, [(770, 284); (774, 286); (775, 288); (807, 290); (780, 486); (769, 500); (772, 7712)]);
   (72, [(770, 292); (780, 542); (775, 7714); (803, 7716); (776, 7718); (807, 7720); (814, 7722)]);
   (73, [(768, 204); (769, 205); (770, 206); (776, 207); (771, 296); (772, 298); (774, 300); (808, 302); (775, 304); (780, 463); (783, 520); (785, 522); (816, 7724); (777, 7880); (803, 7882)]);
   (74, [(770, 308)]);
   (75, [(807, 310); (780, 488); (769, 7728); (803, 7730); (817, 7732)]);
   (76, [(769, 313); (807, 315); (780, 317); (803, 7734); (817, 7738); (813, 7740)]);
   (77, [(769, 7742); (775, 7744); (803, 7746)]);
   (78, [(771, 209); (769, 323); (807, 325); (780, 327); (768, 504); (775, 7748); (803, 7750); (817, 7752); (813, 7754)]);
   (79, [(768, 210); (769, 211); (770, 212); (771, 213); (776, 214); (772, 332); (774, 334); (779, 336); (795, 416); (780, 465); (808, 490); (783, 524); (785, 526); (775, 558); (803, 7884); (777, 7886)]);
   (80, [(769, 7764); (775, 7766)]);
   (82, [(769, 340); (807, 342); (780, 344); (783, 528); (785, 530); (775, 7768); (803, 7770); (817, 7774)]);
   (83, [(769, 346); (770, 348); (807, 350); (780, 352); (806, 536); (775, 7776); (803, 7778)]);
   (84, [(807, 354); (780, 356); (806, 538); (775, 7786); (803, 7788); (817, 7790); (813, 7792)]);
   (85, [(768, 217); (769, 218); (770, 219); (776, 220); (771, 360); (772, 362); (774, 364); (778, 366); (779, 368); (808, 370); (795, 431); (780, 467); (783, 532); (785, 534); (804, 7794); (816, 7796); (813, 7798); (803, 7908); (777, 7910)]);
   (86, [(771, 7804); (803, 7806)]);
   (87, [(770, 372); (768, 7808); (769, 7810); (776, 7812); (775, 7814); (803, 7816)]);
   (88, [(775, 7818); (776, 7820)]);
   (89, [(769, 221); (770, 374); (776, 376); (772, 562); (775, 7822); (768, 7922); (803, 7924); (777, 7926); (771, 7928)]);
   (90, [(769, 377); (775, 379); (780, 381); (770, 7824); (803, 7826); (817, 7828)]);
   (97, [(768, 224); (769, 225); (770, 226); (771, 227); (776, 228); (778, 229); (772, 257); (774, 259); (808, 261); (780, 462); (783, 513); (785, 515); (775, 551); (805, 7681); (803, 7841); (777, 7843)]);
   (98, [(775, 7683); (803, 7685); (817, 7687)]);
   (99, [(807, 231); (769, 263); (770, 265); (775, 267); (780, 269)]);
   (100, [(780, 271); (775, 7691); (803, 7693); (817, 7695); (807, 7697); (813, 7699)]);
   (101, [(768, 232); (769, 233); (770, 234); (776, 235); (772, 275); (774, 277); (775, 279); (808, 281); (780, 283); (783, 517); (785, 519); (807, 553); (813, 7705); (816, 7707); (803, 7865); (777, 7867); (771, 7869)]);
   (102, [(775, 7711)]);
   (103, [(770, 285); (774, 287); (775, 289); (807, 291); (780, 487); (769, 501); (772, 7713)]);
   (104, [(770, 293); (780, 543); (775, 7715); (803, 7717); (776, 7719); (807, 7721); (814, 7723); (817, 7830)]);
   (105, [(768, 236); (769, 237); (770, 238); (776, 239); (771, 297); (772, 299); (774, 301); (808, 303); (780, 464); (783, 521); (785, 523); (816, 7725); (777, 7881); (803, 7883)]);
   (106, [(770, 309); (780, 496)]);
   (107, [(807, 311); (780, 489); (769, 7729); (803, 7731); (817, 7733)]);
   (108, [(769, 314); (807, 316); (780, 318); (803, 7735); (817, 7739); (813, 7741)]);
   (109, [(769, 7743); (775, 7745); (803, 7747)]);
   (110, [(771, 241); (769, 324); (807, 326); (780, 328); (768, 505); (775, 7749); (803, 7751); (817, 7753); (813, 7755)]);
   (111, [(768, 242); (769, 243); (770, 244); (771, 245); (776, 246); (772, 333); (774, 335); (779, 337); (795, 417); (780, 466); (808, 491); (783, 525); (785, 527); (775, 559); (803, 7885); (777, 7887)]);
   (112, [(769, 7765); (775, 7767)]);
   (114, [(769, 341); (807, 343); (780, 345); (783, 529); (785, 531); (775, 7769); (803, 7771); (817, 7775)]);
   (115, [(769, 347); (770, 349); (807, 351); (780, 353); (806, 537); (775, 7777); (803, 7779)]);
   (116, [(807, 355); (780, 357); (806, 539); (775, 7787); (803, 7789); (817, 7791); (813, 7793); (776, 7831)]);
   (117, [(768, 249); (769, 250); (770, 251); (776, 252); (771, 361); (772, 363); (774, 365); (778, 367); (779, 369); (808, 371); (795, 432); (780, 468); (783, 533); (785, 535); (804, 7795); (816, 7797); (813, 7799); (803, 7909); (777, 7911)]);
   (118, [(771, 7805); (803, 7807)]);
   (119, [(770, 373); (768, 7809); (769, 7811); (776, 7813); (775, 7815); (803, 7817); (778, 7832)]);
   (120, [(775, 7819); (776, 7821)]);
   (121, [(769, 253); (776, 255); (770, 375); (772, 563); (775, 7823); (778, 7833); (768, 7923); (803, 7925); (777, 7927); (771, 7929)]);
   (122, [(769, 378); (775, 380); (780, 382); (770, 7825); (803, 7827); (817, 7829)]);
   (168, [(769, 901); (834, 8129); (768, 8173)]);
   (194, [(769, 7844); (768, 7846); (777, 7848); (771, 7850)]);
   (196, [(772, 478)]);
   (197, [(769, 506)]);
   (198, [(772, 482); (769, 508)]);
   (199, [(769, 7688)]);
   (202, [(769, 7870); (768, 7872); (777, 7874); (771, 7876)]);
   (207, [(769, 7726)]);
   (212, [(769, 7888); (768, 7890); (777, 7892); (771, 7894)]);
   (213, [(772, 556); (769, 7756); (776, 7758)]);
   (214, [(772, 554)]);
   (216, [(769, 510)]);
   (220, [(772, 469); (769, 471); (780, 473); (768, 475)]);
   (226, [(769, 7845); (768, 7847); (777, 7849); (771, 7851)]);
   (228, [(772, 479)]);
   (229, [(769, 507)]);
   (230, [(772, 483); (769, 509)]);
   (231, [(769, 7689)]);
   (234, [(769, 7871); (768, 7873); (777, 7875); (771, 7877)]);
   (239, [(769, 7727)]);
   (244, [(769, 7889); (768, 7891); (777, 7893); (771, 7895)]);
   (245, [(772, 557); (769, 7757); (776, 7759)]);
   (246, [(772, 555)]);
   (248, [(769, 511)]);
   (252, [(772, 470); (769, 472); (780, 474); (768, 476)]);
   (258, [(769, 7854); (768, 7856); (777, 7858); (771, 7860)]);
   (259, [(769, 7855); (768, 7857); (777, 7859); (771, 7861)]);
   (274, [(768, 7700); (769, 7702)]);
   (275, [(768, 7701); (769, 7703)]);
   (332, [(768, 7760); (769, 7762)]);
   (333, [(768, 7761); (769, 7763)]);
   (346, [(775, 7780)]);
   (347, [(775, 7781)]);
   (352, [(775, 7782)]);
   (353, [(775, 7783)]);
   (360, [(769, 7800)]);
   (361, [(769, 7801)]);
   (362, [(776, 7802)]);
   (363, [(776, 7803)]);
   (383, [(775, 7835)]);
   (416, [(769, 7898); (768, 7900); (777, 7902); (771, 7904); (803, 7906)]);
   (417, [(769, 7899); (768, 7901); (777, 7903); (771, 7905); (803, 7907)]);
   (431, [(769, 7912); (768, 7914); (777, 7916); (771, 7918); (803, 7920)]);
   (432, [(769, 7913); (768, 7915); (777, 7917); (771, 7919); (803, 7921)]);
   (439, [(780, 494)]);
   (490, [(772, 492)]);
   (491, [(772, 493)]);
   (550, [(772, 480)]);
   (551, [(772, 481)]);
   (552, [(774, 7708)]);
   (553, [(774, 7709)]);
   (558, [(772, 560)]);
   (559, [(772, 561)]);
   (658, [(780, 495)]);
   (913, [(769, 902); (787, 7944); (788, 7945); (774, 8120); (772, 8121); (768, 8122); (837, 8124)]);
   (917, [(769, 904); (787, 7960); (788, 7961); (768, 8136)]);
   (919, [(769, 905); (787, 7976); (788, 7977); (768, 8138); (837, 8140)]);
   (921, [(769, 906); (776, 938); (787, 7992); (788, 7993); (774, 8152); (772, 8153); (768, 8154)]);
   (927, [(769, 908); (787, 8008); (788, 8009); (768, 8184)]);
   (929, [(788, 8172)]);
   (933, [(769, 910); (776, 939); (788, 8025); (774, 8168); (772, 8169); (768, 8170)]);
   (937, [(769, 911); (787, 8040); (788, 8041); (768, 8186); (837, 8188)]);
   (940, [(837, 8116)]);
   (942, [(837, 8132)]);
   (945, [(769, 940); (787, 7936); (788, 7937); (768, 8048); (774, 8112); (772, 8113); (837, 8115); (834, 8118)]);
   (949, [(769, 941); (787, 7952); (788, 7953); (768, 8050)]);
   (951, [(769, 942); (787, 7968); (788, 7969); (768, 8052); (837, 8131); (834, 8134)]);
   (953, [(769, 943); (776, 970); (787, 7984); (788, 7985); (768, 8054); (774, 8144); (772, 8145); (834, 8150)]);
   (959, [(769, 972); (787, 8000); (788, 8001); (768, 8056)]);
   (961, [(787, 8164); (788, 8165)]);
   (965, [(776, 971); (769, 973); (787, 8016); (788, 8017); (768, 8058); (774, 8160); (772, 8161); (834, 8166)]);
   (969, [(769, 974); (787, 8032); (788, 8033); (768, 8060); (837, 8179); (834, 8182)]);
   (970, [(769, 912); (768, 8146); (834, 8151)]);
   (971, [(769, 944); (768, 8162); (834, 8167)]);
   (974, [(837, 8180)]);
   (978, [(769, 979); (776, 980)]);
   (1030, [(776, 1031)]);
   (1040, [(774, 1232); (776, 1234)]);
   (1043, [(769, 1027)]);
   (1045, [(768, 1024); (776, 1025); (774, 1238)]);
   (1046, [(774, 1217); (776, 1244)]);
   (1047, [(776, 1246)]);
   (1048, [(768, 1037); (774, 1049); (772, 1250); (776, 1252)]);
   (1050, [(769, 1036)]);
   (1054, [(776, 1254)]);
   (1059, [(774, 1038); (772, 1262); (776, 1264); (779, 1266)]);
   (1063, [(776, 1268)]);
   (1067, [(776, 1272)]);
   (1069, [(776, 1260)]);
   (1072, [(774, 1233); (776, 1235)]);
   (1075, [(769, 1107)]);
   (1077, [(768, 1104); (776, 1105); (774, 1239)]);
   (1078, [(774, 1218); (776, 1245)]);
   (1079, [(776, 1247)]);
   (1080, [(774, 1081); (768, 1117); (772, 1251); (776, 1253)]);
   (1082, [(769, 1116)]);
   (1086, [(776, 1255)]);
   (1091, [(774, 1118); (772, 1263); (776, 1265); (779, 1267)]);
   (1095, [(776, 1269)]);
   (1099, [(776, 1273)]);
   (1101, [(776, 1261)]);
   (1110, [(776, 1111)]);
   (1140, [(783, 1142)]);
   (1141, [(783, 1143)]);
   (1240, [(776, 1242)]);
   (1241, [(776, 1243)]);
   (1256, [(776, 1258)]);
   (1257, [(776, 1259)]);
   (1575, [(1619, 1570); (1620, 1571); (1621, 1573)]);
   (1608, [(1620, 1572)]);
   (1610, [(1620, 1574)]);
   (1729, [(1620, 1730)]);
   (1746, [(1620, 1747)]);
   (1749, [(1620, 1728)]);
   (2344, [(2364, 2345)]);
   (2352, [(2364, 2353)]);
   (2355, [(2364, 2356)]);
   (2503, [(2494, 2507); (2519, 2508)]);
   (2887, [(2902, 2888); (2878, 2891); (2903, 2892)]);
   (2962, [(3031, 2964)]);
   (3014, [(3006, 3018); (3031, 3020)]);
   (3015, [(3006, 3019)]);
   (3142, [(3158, 3144)]);
   (3263, [(3285, 3264)]);
   (3270, [(3285, 3271); (3286, 3272); (3266, 3274)]);
   (3274, [(3285, 3275)]);
   (3398, [(3390, 3402); (3415, 3404)]);
   (3399, [(3390, 3403)]);
   (3545, [(3530, 3546); (3535, 3548); (3551, 3550)]);
   (3548, [(3530, 3549)]);
   (4133, [(4142, 4134)]);
   (6917, [(6965, 6918)]);
   (6919, [(6965, 6920)]);
   (6921, [(6965, 6922)]);
   (6923, [(6965, 6924)]);
   (6925, [(6965, 6926)]);
   (6929, [(6965, 6930)]);
   (6970, [(6965, 6971)]);
   (6972, [(6965, 6973)]);
   (6974, [(6965, 6976)]);
   (6975, [(6965, 6977)]);
   (6978, [(6965, 6979)]);
   (7734, [(772, 7736)]);
   (7735, [(772, 7737)]);
   (7770, [(772, 7772)]);
   (7771, [(772, 7773)]);
   (7778, [(775, 7784)]);
   (7779, [(775, 7785)]);
   (7840, [(770, 7852); (774, 7862)]);
   (7841, [(770, 7853); (774, 7863)]);
   (7864, [(770, 7878)]);
   (7865, [(770, 7879)]);
   (7884, [(770, 7896)]);
   (7885, [(770, 7897)]);
   (7936, [(768, 7938); (769, 7940); (834, 7942); (837, 8064)]);
   (7937, [(768, 7939); (769, 7941); (834, 7943); (837, 8065)]);
   (7938, [(837, 8066)]);
   (7939, [(837, 8067)]);
   (7940, [(837, 8068)]);
   (7941, [(837, 8069)]);
   (7942, [(837, 8070)]);
   (7943, [(837, 8071)]);
   (7944, [(768, 7946); (769, 7948); (834, 7950); (837, 8072)]);
   (7945, [(768, 7947); (769, 7949); (834, 7951); (837, 8073)]);
   (7946, [(837, 8074)]);
   (7947, [(837, 8075)]);
   (7948, [(837, 8076)]);
   (7949, [(837, 8077)]);
   (7950, [(837, 8078)]);
   (7951, [(837, 8079)]);
   (7952, [(768, 7954); (769, 7956)]);
   (7953, [(768, 7955); (769, 7957)]);
   (7960, [(768, 7962); (769, 7964)]);
   (7961, [(768, 7963); (769, 7965)]);
   (7968, [(768, 7970); (769, 7972); (834, 7974); (837, 8080)]);
   (7969, [(768, 7971); (769, 7973); (834, 7975); (837, 8081)]);
   (7970, [(837, 8082)]);
   (7971, [(837, 8083)]);
   (7972, [(837, 8084)]);
   (7973, [(837, 8085)]);
   (7974, [(837, 8086)]);
   (7975, [(837, 8087)]);
   (7976, [(768, 7978); (769, 7980); (834, 7982); (837, 8088)]);
   (7977, [(768, 7979); (769, 7981); (834, 7983); (837, 8089)]);
   (7978, [(837, 8090)]);
   (7979, [(837, 8091)]);
   (7980, [(837, 8092)]);
   (7981, [(837, 8093)]);
   (7982, [(837, 8094)]);
   (7983, [(837, 8095)]);
   (7984, [(768, 7986); (769, 7988); (834, 7990)]);
   (7985, [(768, 7987); (769, 7989); (834, 7991)]);
   (7992, [(768, 7994); (769, 7996); (834, 7998)]);
   (7993, [(768, 7995); (769, 7997); (834, 7999)]);
   (8000, [(768, 8002); (769, 8004)]);
   (8001, [(768, 8003); (769, 8005)]);
   (8008, [(768, 8010); (769, 8012)]);
   (8009, [(768, 8011); (769, 8013)]);
   (8016, [(768, 8018); (769, 8020); (834, 8022)]);
   (8017, [(768, 8019); (769, 8021); (834, 8023)]);
   (8025, [(768, 8027); (769, 8029); (834, 8031)]);
   (8032, [(768, 8034); (769, 8036); (834, 8038); (837, 8096)]);
   (8033, [(768, 8035); (769, 8037); (834, 8039); (837, 8097)]);
   (8034, [(837, 8098)]);
   (8035, [(837, 8099)]);
   (8036, [(837, 8100)]);
   (8037, [(837, 8101)]);
   (8038, [(837, 8102)]);
   (8039, [(837, 8103)]);
   (8040, [(768, 8042); (769, 8044); (834, 8046); (837, 8104)]);
   (8041, [(768, 8043); (769, 8045); (834, 8047); (837, 8105)]);
   (8042, [(837, 8106)]);
   (8043, [(837, 8107)]);
   (8044, [(837, 8108)]);
   (8045, [(837, 8109)]);
   (8046, [(837, 8110)]);
   (8047, [(837, 8111)]);
   (8048, [(837, 8114)]);
   (8052, [(837, 8130)]);
   (8060, [(837, 8178)]);
   (8118, [(837, 8119)]);
   (8127, [(768, 8141); (769, 8142); (834, 8143)]);
   (8134, [(837, 8135)]);
   (8182, [(837, 8183)]);
   (8190, [(768, 8157); (769, 8158); (834, 8159)]);
   (8592, [(824, 8602)]);
   (8594, [(824, 8603)]);
   (8596, [(824, 8622)]);
   (8656, [(824, 8653)]);
   (8658, [(824, 8655)]);
   (8660, [(824, 8654)]);
   (8707, [(824, 8708)]);
   (8712, [(824, 8713)]);
   (8715, [(824, 8716)]);
   (8739, [(824, 8740)]);
   (8741, [(824, 8742)]);
   (8764, [(824, 8769)]);
   (8771, [(824, 8772)]);
   (8773, [(824, 8775)]);
   (8776, [(824, 8777)]);
   (8781, [(824, 8813)]);
   (8801, [(824, 8802)]);
   (8804, [(824, 8816)]);
   (8805, [(824, 8817)]);
   (8818, [(824, 8820)]);
   (8819, [(824, 8821)]);
   (8822, [(824, 8824)]);
   (8823, [(824, 8825)]);
   (8826, [(824, 8832)]);
   (8827, [(824, 8833)]);
   (8828, [(824, 8928)]);
   (8829, [(824, 8929)]);
   (8834, [(824, 8836)]);
   (8835, [(824, 8837)]);
   (8838, [(824, 8840)]);
   (8839, [(824, 8841)]);
   (8849, [(824, 8930)]);
   (8850, [(824, 8931)]);
   (8866, [(824, 8876)]);
   (8872, [(824, 8877)]);
   (8873, [(824, 8878)]);
   (8875, [(824, 8879)]);
   (8882, [(824, 8938)]);
   (8883, [(824, 8939)]);
   (8884, [(824, 8940)]);
   (8885, [(824, 8941)]);
   (12358, [(12441, 12436)]);
   (12363, [(12441, 12364)]);
   (12365, [(12441, 12366)]);
   (12367, [(12441, 12368)]);
   (12369, [(12441, 12370)]);
   (12371, [(12441, 12372)]);
   (12373, [(12441, 12374)]);
   (12375, [(12441, 12376)]);
   (12377, [(12441, 12378)]);
   (12379, [(12441, 12380)]);
   (12381, [(12441, 12382)]);
   (12383, [(12441, 12384)]);
   (12385, [(12441, 12386)]);
   (12388, [(12441, 12389)]);
   (12390, [(12441, 12391)]);
   (12392, [(12441, 12393)]);
   (12399, [(12441, 12400); (12442, 12401)]);
   (12402, [(12441, 12403); (12442, 12404)]);
   (12405, [(12441, 12406); (12442, 12407)]);
   (12408, [(12441, 12409); (12442, 12410)]);
   (12411, [(12441, 12412); (12442, 12413)]);
   (12445, [(12441, 12446)]);
   (12454, [(12441, 12532)]);
   (12459, [(12441, 12460)]);
   (12461, [(12441, 12462)]);
   (12463, [(12441, 12464)]);
   (12465, [(12441, 12466)]);
   (12467, [(12441, 12468)]);
   (12469, [(12441, 12470)]);
   (12471, [(12441, 12472)]);
   (12473, [(12441, 12474)]);
   (12475, [(12441, 12476)]);
   (12477, [(12441, 12478)]);
   (12479, [(12441, 12480)]);
   (12481, [(12441, 12482)]);
   (12484, [(12441, 12485)]);
   (12486, [(12441, 12487)]);
   (12488, [(12441, 12489)]);
   (12495, [(12441, 12496); (12442, 12497)]);
   (12498, [(12441, 12499); (12442, 12500)]);
   (12501, [(12441, 12502); (12442, 12503)]);
   (12504, [(12441, 12505); (12442, 12506)]);
   (12507, [(12441, 12508); (12442, 12509)]);
   (12527, [(12441, 12535)]);
   (12528, [(12441, 12536)]);
   (12529, [(12441, 12537)]);
   (12530, [(12441, 12538)]);
   (12541, [(12441, 12542)]);
   (69785, [(69818, 69786)]);
   (69787, [(69818, 69788)]);
   (69797, [(69818, 69803)]);
   (69937, [(69927, 69934)]);
   (69938, [(69927, 69935)]);
   (70471, [(70462, 70475); (70487, 70476)]);
   (70841, [(70842, 70843); (70832, 70844); (70845, 70846)]);
   (71096, [(71087, 71098)]);
   (71097, [(71087, 71099)]);
   (71989, [(71984, 71992)])].
