(** GENERATED by tools/gen_unicode.py from CPython 3.11.10 (Unicode 14.0.0). *)
From Coq Require Import List NArith.
Import ListNotations.
Local Open Scope N_scope.

(** used by models/__init__.py:14: [str.isspace], [\s], the characters removed by [str.strip] *)
Definition space_ranges : list (N * N) :=
  [(9, 13); (28, 32); (133, 133); (160, 160); (5760, 5760); (8192, 8202); (8232, 8233); (8239, 8239); (8287, 8287); 
   (12288, 12288) ].

(** used by edifact_components.py:57 (among others): [\d]: Unicode category Nd; every range consists of complete decades *)
Definition decimal_ranges : list (N * N) :=
  [(48, 57); (1632, 1641); (1776, 1785); (1984, 1993); (2406, 2415); (2534, 2543); (2662, 2671); (2790, 2799); 
   (2918, 2927); (3046, 3055); (3174, 3183); (3302, 3311); (3430, 3439); (3558, 3567); (3664, 3673); (3792, 3801); 
   (3872, 3881); (4160, 4169); (4240, 4249); (6112, 6121); (6160, 6169); (6470, 6479); (6608, 6617); (6784, 6793); 
   (6800, 6809); (6992, 7001); (7088, 7097); (7232, 7241); (7248, 7257); (42528, 42537); (43216, 43225); 
   (43264, 43273); (43472, 43481); (43504, 43513); (43600, 43609); (44016, 44025); (65296, 65305); (66720, 66729); 
   (68912, 68921); (69734, 69743); (69872, 69881); (69942, 69951); (70096, 70105); (70384, 70393); (70736, 70745); 
   (70864, 70873); (71248, 71257); (71360, 71369); (71472, 71481); (71904, 71913); (72016, 72025); (72784, 72793); 
   (73040, 73049); (73120, 73129); (92768, 92777); (92864, 92873); (93008, 93017); (120782, 120831); (123200, 123209); 
   (123632, 123641); (125264, 125273); (130032, 130041) ].

(** used by etree_element_helpers.py:25: [\w] *)
Definition word_ranges : list (N * N) :=
  [(48, 57); (65, 90); (95, 95); (97, 122); (170, 170); (178, 179); (181, 181); (185, 186); (188, 190); 
   (192, 214); (216, 246); (248, 705); (710, 721); (736, 740); (748, 748); (750, 750); (880, 884); (886, 887); 
   (890, 893); (895, 895); (902, 902); (904, 906); (908, 908); (910, 929); (931, 1013); (1015, 1153); (1162, 1327); 
   (1329, 1366); (1369, 1369); (1376, 1416); (1488, 1514); (1519, 1522); (1568, 1610); (1632, 1641); (1646, 1647); 
   (1649, 1747); (1749, 1749); (1765, 1766); (1774, 1788); (1791, 1791); (1808, 1808); (1810, 1839); (1869, 1957); 
   (1969, 1969); (1984, 2026); (2036, 2037); (2042, 2042); (2048, 2069); (2074, 2074); (2084, 2084); (2088, 2088); 
   (2112, 2136); (2144, 2154); (2160, 2183); (2185, 2190); (2208, 2249); (2308, 2361); (2365, 2365); (2384, 2384); 
   (2392, 2401); (2406, 2415); (2417, 2432); (2437, 2444); (2447, 2448); (2451, 2472); (2474, 2480); (2482, 2482); 
   (2486, 2489); (2493, 2493); (2510, 2510); (2524, 2525); (2527, 2529); (2534, 2545); (2548, 2553); (2556, 2556); 
   (2565, 2570); (2575, 2576); (2579, 2600); (2602, 2608); (2610, 2611); (2613, 2614); (2616, 2617); (2649, 2652); 
   (2654, 2654); (2662, 2671); (2674, 2676); (2693, 2701); (2703, 2705); (2707, 2728); (2730, 2736); (2738, 2739); 
   (2741, 2745); (2749, 2749); (2768, 2768); (2784, 2785); (2790, 2799); (2809, 2809); (2821, 2828); (2831, 2832); 
   (2835, 2856); (2858, 2864); (2866, 2867); (2869, 2873); (2877, 2877); (2908, 2909); (2911, 2913); (2918, 2927); 
   (2929, 2935); (2947, 2947); (2949, 2954); (2958, 2960); (2962, 2965); (2969, 2970); (2972, 2972); (2974, 2975); 
   (2979, 2980); (2984, 2986); (2990, 3001); (3024, 3024); (3046, 3058); (3077, 3084); (3086, 3088); (3090, 3112); 
   (3114, 3129); (3133, 3133); (3160, 3162); (3165, 3165); (3168, 3169); (3174, 3183); (3192, 3198); (3200, 3200); 
   (3205, 3212); (3214, 3216); (3218, 3240); (3242, 3251); (3253, 3257); (3261, 3261); (3293, 3294); (3296, 3297); 
   (3302, 3311); (3313, 3314); (3332, 3340); (3342, 3344); (3346, 3386); (3389, 3389); (3406, 3406); (3412, 3414); 
   (3416, 3425); (3430, 3448); (3450, 3455); (3461, 3478); (3482, 3505); (3507, 3515); (3517, 3517); (3520, 3526); 
   (3558, 3567); (3585, 3632); (3634, 3635); (3648, 3654); (3664, 3673); (3713, 3714); (3716, 3716); (3718, 3722); 
   (3724, 3747); (3749, 3749); (3751, 3760); (3762, 3763); (3773, 3773); (3776, 3780); (3782, 3782); (3792, 3801); 
   (3804, 3807); (3840, 3840); (3872, 3891); (3904, 3911); (3913, 3948); (3976, 3980); (4096, 4138); (4159, 4169); 
   (4176, 4181); (4186, 4189); (4193, 4193); (4197, 4198); (4206, 4208); (4213, 4225); (4238, 4238); (4240, 4249); 
   (4256, 4293); (4295, 4295); (4301, 4301); (4304, 4346); (4348, 4680); (4682, 4685); (4688, 4694); (4696, 4696); 
   (4698, 4701); (4704, 4744); (4746, 4749); (4752, 4784); (4786, 4789); (4792, 4798); (4800, 4800); (4802, 4805); 
   (4808, 4822); (4824, 4880); (4882, 4885); (4888, 4954); (4969, 4988); (4992, 5007); (5024, 5109); (5112, 5117); 
   (5121, 5740); (5743, 5759); (5761, 5786); (5792, 5866); (5870, 5880); (5888, 5905); (5919, 5937); (5952, 5969); 
   (5984, 5996); (5998, 6000); (6016, 6067); (6103, 6103); (6108, 6108); (6112, 6121); (6128, 6137); (6160, 6169); 
   (6176, 6264); (6272, 6276); (6279, 6312); (6314, 6314); (6320, 6389); (6400, 6430); (6470, 6509); (6512, 6516); 
   (6528, 6571); (6576, 6601); (6608, 6618); (6656, 6678); (6688, 6740); (6784, 6793); (6800, 6809); (6823, 6823); 
   (6917, 6963); (6981, 6988); (6992, 7001); (7043, 7072); (7086, 7141); (7168, 7203); (7232, 7241); (7245, 7293); 
   (7296, 7304); (7312, 7354); (7357, 7359); (7401, 7404); (7406, 7411); (7413, 7414); (7418, 7418); (7424, 7615); 
   (7680, 7957); (7960, 7965); (7968, 8005); (8008, 8013); (8016, 8023); (8025, 8025); (8027, 8027); (8029, 8029); 
   (8031, 8061); (8064, 8116); (8118, 8124); (8126, 8126); (8130, 8132); (8134, 8140); (8144, 8147); (8150, 8155); 
   (8160, 8172); (8178, 8180); (8182, 8188); (8304, 8305); (8308, 8313); (8319, 8329); (8336, 8348); (8450, 8450); 
   (8455, 8455); (8458, 8467); (8469, 8469); (8473, 8477); (8484, 8484); (8486, 8486); (8488, 8488); (8490, 8493); 
   (8495, 8505); (8508, 8511); (8517, 8521); (8526, 8526); (8528, 8585); (9312, 9371); (9450, 9471); (10102, 10131); 
   (11264, 11492); (11499, 11502); (11506, 11507); (11517, 11517); (11520, 11557); (11559, 11559); (11565, 11565); 
   (11568, 11623); (11631, 11631); (11648, 11670); (11680, 11686); (11688, 11694); (11696, 11702); (11704, 11710); 
   (11712, 11718); (11720, 11726); (11728, 11734); (11736, 11742); (11823, 11823); (12293, 12295); (12321, 12329); 
   (12337, 12341); (12344, 12348); (12353, 12438); (12445, 12447); (12449, 12538); (12540, 12543); (12549, 12591); 
   (12593, 12686); (12690, 12693); (12704, 12735); (12784, 12799); (12832, 12841); (12872, 12879); (12881, 12895); 
   (12928, 12937); (12977, 12991); (13312, 19903); (19968, 42124); (42192, 42237); (42240, 42508); (42512, 42539); 
   (42560, 42606); (42623, 42653); (42656, 42735); (42775, 42783); (42786, 42888); (42891, 42954); (42960, 42961); 
   (42963, 42963); (42965, 42969); (42994, 43009); (43011, 43013); (43015, 43018); (43020, 43042); (43056, 43061); 
   (43072, 43123); (43138, 43187); (43216, 43225); (43250, 43255); (43259, 43259); (43261, 43262); (43264, 43301); 
   (43312, 43334); (43360, 43388); (43396, 43442); (43471, 43481); (43488, 43492); (43494, 43518); (43520, 43560); 
   (43584, 43586); (43588, 43595); (43600, 43609); (43616, 43638); (43642, 43642); (43646, 43695); (43697, 43697); 
   (43701, 43702); (43705, 43709); (43712, 43712); (43714, 43714); (43739, 43741); (43744, 43754); (43762, 43764); 
   (43777, 43782); (43785, 43790); (43793, 43798); (43808, 43814); (43816, 43822); (43824, 43866); (43868, 43881); 
   (43888, 44002); (44016, 44025); (44032, 55203); (55216, 55238); (55243, 55291); (63744, 64109); (64112, 64217); 
   (64256, 64262); (64275, 64279); (64285, 64285); (64287, 64296); (64298, 64310); (64312, 64316); (64318, 64318); 
   (64320, 64321); (64323, 64324); (64326, 64433); (64467, 64829); (64848, 64911); (64914, 64967); (65008, 65019); 
   (65136, 65140); (65142, 65276); (65296, 65305); (65313, 65338); (65345, 65370); (65382, 65470); (65474, 65479); 
   (65482, 65487); (65490, 65495); (65498, 65500); (65536, 65547); (65549, 65574); (65576, 65594); (65596, 65597); 
   (65599, 65613); (65616, 65629); (65664, 65786); (65799, 65843); (65856, 65912); (65930, 65931); (66176, 66204); 
   (66208, 66256); (66273, 66299); (66304, 66339); (66349, 66378); (66384, 66421); (66432, 66461); (66464, 66499); 
   (66504, 66511); (66513, 66517); (66560, 66717); (66720, 66729); (66736, 66771); (66776, 66811); (66816, 66855); 
   (66864, 66915); (66928, 66938); (66940, 66954); (66956, 66962); (66964, 66965); (66967, 66977); (66979, 66993); 
   (66995, 67001); (67003, 67004); (67072, 67382); (67392, 67413); (67424, 67431); (67456, 67461); (67463, 67504); 
   (67506, 67514); (67584, 67589); (67592, 67592); (67594, 67637); (67639, 67640); (67644, 67644); (67647, 67669); 
   (67672, 67702); (67705, 67742); (67751, 67759); (67808, 67826); (67828, 67829); (67835, 67867); (67872, 67897); 
   (67968, 68023); (68028, 68047); (68050, 68096); (68112, 68115); (68117, 68119); (68121, 68149); (68160, 68168); 
   (68192, 68222); (68224, 68255); (68288, 68295); (68297, 68324); (68331, 68335); (68352, 68405); (68416, 68437); 
   (68440, 68466); (68472, 68497); (68521, 68527); (68608, 68680); (68736, 68786); (68800, 68850); (68858, 68899); 
   (68912, 68921); (69216, 69246); (69248, 69289); (69296, 69297); (69376, 69415); (69424, 69445); (69457, 69460); 
   (69488, 69505); (69552, 69579); (69600, 69622); (69635, 69687); (69714, 69743); (69745, 69746); (69749, 69749); 
   (69763, 69807); (69840, 69864); (69872, 69881); (69891, 69926); (69942, 69951); (69956, 69956); (69959, 69959); 
   (69968, 70002); (70006, 70006); (70019, 70066); (70081, 70084); (70096, 70106); (70108, 70108); (70113, 70132); 
   (70144, 70161); (70163, 70187); (70272, 70278); (70280, 70280); (70282, 70285); (70287, 70301); (70303, 70312); 
   (70320, 70366); (70384, 70393); (70405, 70412); (70415, 70416); (70419, 70440); (70442, 70448); (70450, 70451); 
   (70453, 70457); (70461, 70461); (70480, 70480); (70493, 70497); (70656, 70708); (70727, 70730); (70736, 70745); 
   (70751, 70753); (70784, 70831); (70852, 70853); (70855, 70855); (70864, 70873); (71040, 71086); (71128, 71131); 
   (71168, 71215); (71236, 71236); (71248, 71257); (71296, 71338); (71352, 71352); (71360, 71369); (71424, 71450); 
   (71472, 71483); (71488, 71494); (71680, 71723); (71840, 71922); (71935, 71942); (71945, 71945); (71948, 71955); 
   (71957, 71958); (71960, 71983); (71999, 71999); (72001, 72001); (72016, 72025); (72096, 72103); (72106, 72144); 
   (72161, 72161); (72163, 72163); (72192, 72192); (72203, 72242); (72250, 72250); (72272, 72272); (72284, 72329); 
   (72349, 72349); (72368, 72440); (72704, 72712); (72714, 72750); (72768, 72768); (72784, 72812); (72818, 72847); 
   (72960, 72966); (72968, 72969); (72971, 73008); (73030, 73030); (73040, 73049); (73056, 73061); (73063, 73064); 
   (73066, 73097); (73112, 73112); (73120, 73129); (73440, 73458); (73648, 73648); (73664, 73684); (73728, 74649); 
   (74752, 74862); (74880, 75075); (77712, 77808); (77824, 78894); (82944, 83526); (92160, 92728); (92736, 92766); 
   (92768, 92777); (92784, 92862); (92864, 92873); (92880, 92909); (92928, 92975); (92992, 92995); (93008, 93017); 
   (93019, 93025); (93027, 93047); (93053, 93071); (93760, 93846); (93952, 94026); (94032, 94032); (94099, 94111); 
   (94176, 94177); (94179, 94179); (94208, 100343); (100352, 101589); (101632, 101640); (110576, 110579); 
   (110581, 110587); (110589, 110590); (110592, 110882); (110928, 110930); (110948, 110951); (110960, 111355); 
   (113664, 113770); (113776, 113788); (113792, 113800); (113808, 113817); (119520, 119539); (119648, 119672); 
   (119808, 119892); (119894, 119964); (119966, 119967); (119970, 119970); (119973, 119974); (119977, 119980); 
   (119982, 119993); (119995, 119995); (119997, 120003); (120005, 120069); (120071, 120074); (120077, 120084); 
   (120086, 120092); (120094, 120121); (120123, 120126); (120128, 120132); (120134, 120134); (120138, 120144); 
   (120146, 120485); (120488, 120512); (120514, 120538); (120540, 120570); (120572, 120596); (120598, 120628); 
   (120630, 120654); (120656, 120686); (120688, 120712); (120714, 120744); (120746, 120770); (120772, 120779); 
   (120782, 120831); (122624, 122654); (123136, 123180); (123191, 123197); (123200, 123209); (123214, 123214); 
   (123536, 123565); (123584, 123627); (123632, 123641); (124896, 124902); (124904, 124907); (124909, 124910); 
   (124912, 124926); (124928, 125124); (125127, 125135); (125184, 125251); (125259, 125259); (125264, 125273); 
   (126065, 126123); (126125, 126127); (126129, 126132); (126209, 126253); (126255, 126269); (126464, 126467); 
   (126469, 126495); (126497, 126498); (126500, 126500); (126503, 126503); (126505, 126514); (126516, 126519); 
   (126521, 126521); (126523, 126523); (126530, 126530); (126535, 126535); (126537, 126537); (126539, 126539); 
   (126541, 126543); (126545, 126546); (126548, 126548); (126551, 126551); (126553, 126553); (126555, 126555); 
   (126557, 126557); (126559, 126559); (126561, 126562); (126564, 126564); (126567, 126570); (126572, 126578); 
   (126580, 126583); (126585, 126588); (126590, 126590); (126592, 126601); (126603, 126619); (126625, 126627); 
   (126629, 126633); (126635, 126651); (127232, 127244); (130032, 130041); (131072, 173791); (173824, 177976); 
   (177984, 178205); (178208, 183969); (183984, 191456); (194560, 195101); (196608, 201546) ].

(** used by flat_ahb_reader.py:217: characters c with [c.upper() != c] *)
Definition upper_changes_ranges : list (N * N) :=
  [(97, 122); (181, 181); (223, 246); (248, 255); (257, 257); (259, 259); (261, 261); (263, 263); (265, 265); 
   (267, 267); (269, 269); (271, 271); (273, 273); (275, 275); (277, 277); (279, 279); (281, 281); (283, 283); 
   (285, 285); (287, 287); (289, 289); (291, 291); (293, 293); (295, 295); (297, 297); (299, 299); (301, 301); 
   (303, 303); (305, 305); (307, 307); (309, 309); (311, 311); (314, 314); (316, 316); (318, 318); (320, 320); 
   (322, 322); (324, 324); (326, 326); (328, 329); (331, 331); (333, 333); (335, 335); (337, 337); (339, 339); 
   (341, 341); (343, 343); (345, 345); (347, 347); (349, 349); (351, 351); (353, 353); (355, 355); (357, 357); 
   (359, 359); (361, 361); (363, 363); (365, 365); (367, 367); (369, 369); (371, 371); (373, 373); (375, 375); 
   (378, 378); (380, 380); (382, 384); (387, 387); (389, 389); (392, 392); (396, 396); (402, 402); (405, 405); 
   (409, 410); (414, 414); (417, 417); (419, 419); (421, 421); (424, 424); (429, 429); (432, 432); (436, 436); 
   (438, 438); (441, 441); (445, 445); (447, 447); (453, 454); (456, 457); (459, 460); (462, 462); (464, 464); 
   (466, 466); (468, 468); (470, 470); (472, 472); (474, 474); (476, 477); (479, 479); (481, 481); (483, 483); 
   (485, 485); (487, 487); (489, 489); (491, 491); (493, 493); (495, 496); (498, 499); (501, 501); (505, 505); 
   (507, 507); (509, 509); (511, 511); (513, 513); (515, 515); (517, 517); (519, 519); (521, 521); (523, 523); 
   (525, 525); (527, 527); (529, 529); (531, 531); (533, 533); (535, 535); (537, 537); (539, 539); (541, 541); 
   (543, 543); (547, 547); (549, 549); (551, 551); (553, 553); (555, 555); (557, 557); (559, 559); (561, 561); 
   (563, 563); (572, 572); (575, 576); (578, 578); (583, 583); (585, 585); (587, 587); (589, 589); (591, 596); 
   (598, 599); (601, 601); (603, 604); (608, 609); (611, 611); (613, 614); (616, 620); (623, 623); (625, 626); 
   (629, 629); (637, 637); (640, 640); (642, 643); (647, 652); (658, 658); (669, 670); (837, 837); (881, 881); 
   (883, 883); (887, 887); (891, 893); (912, 912); (940, 974); (976, 977); (981, 983); (985, 985); (987, 987); 
   (989, 989); (991, 991); (993, 993); (995, 995); (997, 997); (999, 999); (1001, 1001); (1003, 1003); (1005, 1005); 
   (1007, 1011); (1013, 1013); (1016, 1016); (1019, 1019); (1072, 1119); (1121, 1121); (1123, 1123); (1125, 1125); 
   (1127, 1127); (1129, 1129); (1131, 1131); (1133, 1133); (1135, 1135); (1137, 1137); (1139, 1139); (1141, 1141); 
   (1143, 1143); (1145, 1145); (1147, 1147); (1149, 1149); (1151, 1151); (1153, 1153); (1163, 1163); (1165, 1165); 
   (1167, 1167); (1169, 1169); (1171, 1171); (1173, 1173); (1175, 1175); (1177, 1177); (1179, 1179); (1181, 1181); 
   (1183, 1183); (1185, 1185); (1187, 1187); (1189, 1189); (1191, 1191); (1193, 1193); (1195, 1195); (1197, 1197); 
   (1199, 1199); (1201, 1201); (1203, 1203); (1205, 1205); (1207, 1207); (1209, 1209); (1211, 1211); (1213, 1213); 
   (1215, 1215); (1218, 1218); (1220, 1220); (1222, 1222); (1224, 1224); (1226, 1226); (1228, 1228); (1230, 1231); 
   (1233, 1233); (1235, 1235); (1237, 1237); (1239, 1239); (1241, 1241); (1243, 1243); (1245, 1245); (1247, 1247); 
   (1249, 1249); (1251, 1251); (1253, 1253); (1255, 1255); (1257, 1257); (1259, 1259); (1261, 1261); (1263, 1263); 
   (1265, 1265); (1267, 1267); (1269, 1269); (1271, 1271); (1273, 1273); (1275, 1275); (1277, 1277); (1279, 1279); 
   (1281, 1281); (1283, 1283); (1285, 1285); (1287, 1287); (1289, 1289); (1291, 1291); (1293, 1293); (1295, 1295); 
   (1297, 1297); (1299, 1299); (1301, 1301); (1303, 1303); (1305, 1305); (1307, 1307); (1309, 1309); (1311, 1311); 
   (1313, 1313); (1315, 1315); (1317, 1317); (1319, 1319); (1321, 1321); (1323, 1323); (1325, 1325); (1327, 1327); 
   (1377, 1415); (4304, 4346); (4349, 4351); (5112, 5117); (7296, 7304); (7545, 7545); (7549, 7549); (7566, 7566); 
   (7681, 7681); (7683, 7683); (7685, 7685); (7687, 7687); (7689, 7689); (7691, 7691); (7693, 7693); (7695, 7695); 
   (7697, 7697); (7699, 7699); (7701, 7701); (7703, 7703); (7705, 7705); (7707, 7707); (7709, 7709); (7711, 7711); 
   (7713, 7713); (7715, 7715); (7717, 7717); (7719, 7719); (7721, 7721); (7723, 7723); (7725, 7725); (7727, 7727); 
   (7729, 7729); (7731, 7731); (7733, 7733); (7735, 7735); (7737, 7737); (7739, 7739); (7741, 7741); (7743, 7743); 
   (7745, 7745); (7747, 7747); (7749, 7749); (7751, 7751); (7753, 7753); (7755, 7755); (7757, 7757); (7759, 7759); 
   (7761, 7761); (7763, 7763); (7765, 7765); (7767, 7767); (7769, 7769); (7771, 7771); (7773, 7773); (7775, 7775); 
   (7777, 7777); (7779, 7779); (7781, 7781); (7783, 7783); (7785, 7785); (7787, 7787); (7789, 7789); (7791, 7791); 
   (7793, 7793); (7795, 7795); (7797, 7797); (7799, 7799); (7801, 7801); (7803, 7803); (7805, 7805); (7807, 7807); 
   (7809, 7809); (7811, 7811); (7813, 7813); (7815, 7815); (7817, 7817); (7819, 7819); (7821, 7821); (7823, 7823); 
   (7825, 7825); (7827, 7827); (7829, 7835); (7841, 7841); (7843, 7843); (7845, 7845); (7847, 7847); (7849, 7849); 
   (7851, 7851); (7853, 7853); (7855, 7855); (7857, 7857); (7859, 7859); (7861, 7861); (7863, 7863); (7865, 7865); 
   (7867, 7867); (7869, 7869); (7871, 7871); (7873, 7873); (7875, 7875); (7877, 7877); (7879, 7879); (7881, 7881); 
   (7883, 7883); (7885, 7885); (7887, 7887); (7889, 7889); (7891, 7891); (7893, 7893); (7895, 7895); (7897, 7897); 
   (7899, 7899); (7901, 7901); (7903, 7903); (7905, 7905); (7907, 7907); (7909, 7909); (7911, 7911); (7913, 7913); 
   (7915, 7915); (7917, 7917); (7919, 7919); (7921, 7921); (7923, 7923); (7925, 7925); (7927, 7927); (7929, 7929); 
   (7931, 7931); (7933, 7933); (7935, 7943); (7952, 7957); (7968, 7975); (7984, 7991); (8000, 8005); (8016, 8023); 
   (8032, 8039); (8048, 8061); (8064, 8116); (8118, 8119); (8124, 8124); (8126, 8126); (8130, 8132); (8134, 8135); 
   (8140, 8140); (8144, 8147); (8150, 8151); (8160, 8167); (8178, 8180); (8182, 8183); (8188, 8188); (8526, 8526); 
   (8560, 8575); (8580, 8580); (9424, 9449); (11312, 11359); (11361, 11361); (11365, 11366); (11368, 11368); 
   (11370, 11370); (11372, 11372); (11379, 11379); (11382, 11382); (11393, 11393); (11395, 11395); (11397, 11397); 
   (11399, 11399); (11401, 11401); (11403, 11403); (11405, 11405); (11407, 11407); (11409, 11409); (11411, 11411); 
   (11413, 11413); (11415, 11415); (11417, 11417); (11419, 11419); (11421, 11421); (11423, 11423); (11425, 11425); 
   (11427, 11427); (11429, 11429); (11431, 11431); (11433, 11433); (11435, 11435); (11437, 11437); (11439, 11439); 
   (11441, 11441); (11443, 11443); (11445, 11445); (11447, 11447); (11449, 11449); (11451, 11451); (11453, 11453); 
   (11455, 11455); (11457, 11457); (11459, 11459); (11461, 11461); (11463, 11463); (11465, 11465); (11467, 11467); 
   (11469, 11469); (11471, 11471); (11473, 11473); (11475, 11475); (11477, 11477); (11479, 11479); (11481, 11481); 
   (11483, 11483); (11485, 11485); (11487, 11487); (11489, 11489); (11491, 11491); (11500, 11500); (11502, 11502); 
   (11507, 11507); (11520, 11557); (11559, 11559); (11565, 11565); (42561, 42561); (42563, 42563); (42565, 42565); 
   (42567, 42567); (42569, 42569); (42571, 42571); (42573, 42573); (42575, 42575); (42577, 42577); (42579, 42579); 
   (42581, 42581); (42583, 42583); (42585, 42585); (42587, 42587); (42589, 42589); (42591, 42591); (42593, 42593); 
   (42595, 42595); (42597, 42597); (42599, 42599); (42601, 42601); (42603, 42603); (42605, 42605); (42625, 42625); 
   (42627, 42627); (42629, 42629); (42631, 42631); (42633, 42633); (42635, 42635); (42637, 42637); (42639, 42639); 
   (42641, 42641); (42643, 42643); (42645, 42645); (42647, 42647); (42649, 42649); (42651, 42651); (42787, 42787); 
   (42789, 42789); (42791, 42791); (42793, 42793); (42795, 42795); (42797, 42797); (42799, 42799); (42803, 42803); 
   (42805, 42805); (42807, 42807); (42809, 42809); (42811, 42811); (42813, 42813); (42815, 42815); (42817, 42817); 
   (42819, 42819); (42821, 42821); (42823, 42823); (42825, 42825); (42827, 42827); (42829, 42829); (42831, 42831); 
   (42833, 42833); (42835, 42835); (42837, 42837); (42839, 42839); (42841, 42841); (42843, 42843); (42845, 42845); 
   (42847, 42847); (42849, 42849); (42851, 42851); (42853, 42853); (42855, 42855); (42857, 42857); (42859, 42859); 
   (42861, 42861); (42863, 42863); (42874, 42874); (42876, 42876); (42879, 42879); (42881, 42881); (42883, 42883); 
   (42885, 42885); (42887, 42887); (42892, 42892); (42897, 42897); (42899, 42900); (42903, 42903); (42905, 42905); 
   (42907, 42907); (42909, 42909); (42911, 42911); (42913, 42913); (42915, 42915); (42917, 42917); (42919, 42919); 
   (42921, 42921); (42933, 42933); (42935, 42935); (42937, 42937); (42939, 42939); (42941, 42941); (42943, 42943); 
   (42945, 42945); (42947, 42947); (42952, 42952); (42954, 42954); (42961, 42961); (42967, 42967); (42969, 42969); 
   (42998, 42998); (43859, 43859); (43888, 43967); (64256, 64262); (64275, 64279); (65345, 65370); (66600, 66639); 
   (66776, 66811); (66967, 66977); (66979, 66993); (66995, 67001); (67003, 67004); (68800, 68850); (71872, 71903); 
   (93792, 93823); (125218, 125251) ].

(** used by mig_ahb_name_helpers.py:24: cased and not case-ignorable characters (relevant for the final sigma rule) *)
Definition cased_ranges : list (N * N) :=
  [(65, 90); (97, 122); (170, 170); (181, 181); (186, 186); (192, 214); (216, 246); (248, 442); (444, 447); 
   (452, 659); (661, 687); (880, 883); (886, 887); (891, 893); (895, 895); (902, 902); (904, 906); (908, 908); 
   (910, 929); (931, 1013); (1015, 1153); (1162, 1327); (1329, 1366); (1376, 1416); (4256, 4293); (4295, 4295); 
   (4301, 4301); (4304, 4346); (4349, 4351); (5024, 5109); (5112, 5117); (7296, 7304); (7312, 7354); (7357, 7359); 
   (7424, 7467); (7531, 7543); (7545, 7578); (7680, 7957); (7960, 7965); (7968, 8005); (8008, 8013); (8016, 8023); 
   (8025, 8025); (8027, 8027); (8029, 8029); (8031, 8061); (8064, 8116); (8118, 8124); (8126, 8126); (8130, 8132); 
   (8134, 8140); (8144, 8147); (8150, 8155); (8160, 8172); (8178, 8180); (8182, 8188); (8450, 8450); (8455, 8455); 
   (8458, 8467); (8469, 8469); (8473, 8477); (8484, 8484); (8486, 8486); (8488, 8488); (8490, 8493); (8495, 8500); 
   (8505, 8505); (8508, 8511); (8517, 8521); (8526, 8526); (8544, 8575); (8579, 8580); (9398, 9449); (11264, 11387); 
   (11390, 11492); (11499, 11502); (11506, 11507); (11520, 11557); (11559, 11559); (11565, 11565); (42560, 42605); 
   (42624, 42651); (42786, 42863); (42865, 42887); (42891, 42894); (42896, 42954); (42960, 42961); (42963, 42963); 
   (42965, 42969); (42997, 42998); (43002, 43002); (43824, 43866); (43872, 43880); (43888, 43967); (64256, 64262); 
   (64275, 64279); (65313, 65338); (65345, 65370); (66560, 66639); (66736, 66771); (66776, 66811); (66928, 66938); 
   (66940, 66954); (66956, 66962); (66964, 66965); (66967, 66977); (66979, 66993); (66995, 67001); (67003, 67004); 
   (68736, 68786); (68800, 68850); (71840, 71903); (93760, 93823); (119808, 119892); (119894, 119964); (119966, 119967); 
   (119970, 119970); (119973, 119974); (119977, 119980); (119982, 119993); (119995, 119995); (119997, 120003); 
   (120005, 120069); (120071, 120074); (120077, 120084); (120086, 120092); (120094, 120121); (120123, 120126); 
   (120128, 120132); (120134, 120134); (120138, 120144); (120146, 120485); (120488, 120512); (120514, 120538); 
   (120540, 120570); (120572, 120596); (120598, 120628); (120630, 120654); (120656, 120686); (120688, 120712); 
   (120714, 120744); (120746, 120770); (120772, 120779); (122624, 122633); (122635, 122654); (125184, 125251); 
   (127280, 127305); (127312, 127337); (127344, 127369) ].

(** used by mig_ahb_name_helpers.py:24: case-ignorable characters *)
Definition case_ignorable_ranges : list (N * N) :=
  [(39, 39); (46, 46); (58, 58); (94, 94); (96, 96); (168, 168); (173, 173); (175, 175); (180, 180); (183, 184); 
   (688, 879); (884, 885); (890, 890); (900, 901); (903, 903); (1155, 1161); (1369, 1369); (1375, 1375); 
   (1425, 1469); (1471, 1471); (1473, 1474); (1476, 1477); (1479, 1479); (1524, 1524); (1536, 1541); (1552, 1562); 
   (1564, 1564); (1600, 1600); (1611, 1631); (1648, 1648); (1750, 1757); (1759, 1768); (1770, 1773); (1807, 1807); 
   (1809, 1809); (1840, 1866); (1958, 1968); (2027, 2037); (2042, 2042); (2045, 2045); (2070, 2093); (2137, 2139); 
   (2184, 2184); (2192, 2193); (2200, 2207); (2249, 2306); (2362, 2362); (2364, 2364); (2369, 2376); (2381, 2381); 
   (2385, 2391); (2402, 2403); (2417, 2417); (2433, 2433); (2492, 2492); (2497, 2500); (2509, 2509); (2530, 2531); 
   (2558, 2558); (2561, 2562); (2620, 2620); (2625, 2626); (2631, 2632); (2635, 2637); (2641, 2641); (2672, 2673); 
   (2677, 2677); (2689, 2690); (2748, 2748); (2753, 2757); (2759, 2760); (2765, 2765); (2786, 2787); (2810, 2815); 
   (2817, 2817); (2876, 2876); (2879, 2879); (2881, 2884); (2893, 2893); (2901, 2902); (2914, 2915); (2946, 2946); 
   (3008, 3008); (3021, 3021); (3072, 3072); (3076, 3076); (3132, 3132); (3134, 3136); (3142, 3144); (3146, 3149); 
   (3157, 3158); (3170, 3171); (3201, 3201); (3260, 3260); (3263, 3263); (3270, 3270); (3276, 3277); (3298, 3299); 
   (3328, 3329); (3387, 3388); (3393, 3396); (3405, 3405); (3426, 3427); (3457, 3457); (3530, 3530); (3538, 3540); 
   (3542, 3542); (3633, 3633); (3636, 3642); (3654, 3662); (3761, 3761); (3764, 3772); (3782, 3782); (3784, 3789); 
   (3864, 3865); (3893, 3893); (3895, 3895); (3897, 3897); (3953, 3966); (3968, 3972); (3974, 3975); (3981, 3991); 
   (3993, 4028); (4038, 4038); (4141, 4144); (4146, 4151); (4153, 4154); (4157, 4158); (4184, 4185); (4190, 4192); 
   (4209, 4212); (4226, 4226); (4229, 4230); (4237, 4237); (4253, 4253); (4348, 4348); (4957, 4959); (5906, 5908); 
   (5938, 5939); (5970, 5971); (6002, 6003); (6068, 6069); (6071, 6077); (6086, 6086); (6089, 6099); (6103, 6103); 
   (6109, 6109); (6155, 6159); (6211, 6211); (6277, 6278); (6313, 6313); (6432, 6434); (6439, 6440); (6450, 6450); 
   (6457, 6459); (6679, 6680); (6683, 6683); (6742, 6742); (6744, 6750); (6752, 6752); (6754, 6754); (6757, 6764); 
   (6771, 6780); (6783, 6783); (6823, 6823); (6832, 6862); (6912, 6915); (6964, 6964); (6966, 6970); (6972, 6972); 
   (6978, 6978); (7019, 7027); (7040, 7041); (7074, 7077); (7080, 7081); (7083, 7085); (7142, 7142); (7144, 7145); 
   (7149, 7149); (7151, 7153); (7212, 7219); (7222, 7223); (7288, 7293); (7376, 7378); (7380, 7392); (7394, 7400); 
   (7405, 7405); (7412, 7412); (7416, 7417); (7468, 7530); (7544, 7544); (7579, 7679); (8125, 8125); (8127, 8129); 
   (8141, 8143); (8157, 8159); (8173, 8175); (8189, 8190); (8203, 8207); (8216, 8217); (8228, 8228); (8231, 8231); 
   (8234, 8238); (8288, 8292); (8294, 8303); (8305, 8305); (8319, 8319); (8336, 8348); (8400, 8432); (11388, 11389); 
   (11503, 11505); (11631, 11631); (11647, 11647); (11744, 11775); (11823, 11823); (12293, 12293); (12330, 12333); 
   (12337, 12341); (12347, 12347); (12441, 12446); (12540, 12542); (40981, 40981); (42232, 42237); (42508, 42508); 
   (42607, 42610); (42612, 42621); (42623, 42623); (42652, 42655); (42736, 42737); (42752, 42785); (42864, 42864); 
   (42888, 42890); (42994, 42996); (43000, 43001); (43010, 43010); (43014, 43014); (43019, 43019); (43045, 43046); 
   (43052, 43052); (43204, 43205); (43232, 43249); (43263, 43263); (43302, 43309); (43335, 43345); (43392, 43394); 
   (43443, 43443); (43446, 43449); (43452, 43453); (43471, 43471); (43493, 43494); (43561, 43566); (43569, 43570); 
   (43573, 43574); (43587, 43587); (43596, 43596); (43632, 43632); (43644, 43644); (43696, 43696); (43698, 43700); 
   (43703, 43704); (43710, 43711); (43713, 43713); (43741, 43741); (43756, 43757); (43763, 43764); (43766, 43766); 
   (43867, 43871); (43881, 43883); (44005, 44005); (44008, 44008); (44013, 44013); (64286, 64286); (64434, 64450); 
   (65024, 65039); (65043, 65043); (65056, 65071); (65106, 65106); (65109, 65109); (65279, 65279); (65287, 65287); 
   (65294, 65294); (65306, 65306); (65342, 65342); (65344, 65344); (65392, 65392); (65438, 65439); (65507, 65507); 
   (65529, 65531); (66045, 66045); (66272, 66272); (66422, 66426); (67456, 67461); (67463, 67504); (67506, 67514); 
   (68097, 68099); (68101, 68102); (68108, 68111); (68152, 68154); (68159, 68159); (68325, 68326); (68900, 68903); 
   (69291, 69292); (69446, 69456); (69506, 69509); (69633, 69633); (69688, 69702); (69744, 69744); (69747, 69748); 
   (69759, 69761); (69811, 69814); (69817, 69818); (69821, 69821); (69826, 69826); (69837, 69837); (69888, 69890); 
   (69927, 69931); (69933, 69940); (70003, 70003); (70016, 70017); (70070, 70078); (70089, 70092); (70095, 70095); 
   (70191, 70193); (70196, 70196); (70198, 70199); (70206, 70206); (70367, 70367); (70371, 70378); (70400, 70401); 
   (70459, 70460); (70464, 70464); (70502, 70508); (70512, 70516); (70712, 70719); (70722, 70724); (70726, 70726); 
   (70750, 70750); (70835, 70840); (70842, 70842); (70847, 70848); (70850, 70851); (71090, 71093); (71100, 71101); 
   (71103, 71104); (71132, 71133); (71219, 71226); (71229, 71229); (71231, 71232); (71339, 71339); (71341, 71341); 
   (71344, 71349); (71351, 71351); (71453, 71455); (71458, 71461); (71463, 71467); (71727, 71735); (71737, 71738); 
   (71995, 71996); (71998, 71998); (72003, 72003); (72148, 72151); (72154, 72155); (72160, 72160); (72193, 72202); 
   (72243, 72248); (72251, 72254); (72263, 72263); (72273, 72278); (72281, 72283); (72330, 72342); (72344, 72345); 
   (72752, 72758); (72760, 72765); (72767, 72767); (72850, 72871); (72874, 72880); (72882, 72883); (72885, 72886); 
   (73009, 73014); (73018, 73018); (73020, 73021); (73023, 73029); (73031, 73031); (73104, 73105); (73109, 73109); 
   (73111, 73111); (73459, 73460); (78896, 78904); (92912, 92916); (92976, 92982); (92992, 92995); (94031, 94031); 
   (94095, 94111); (94176, 94177); (94179, 94180); (110576, 110579); (110581, 110587); (110589, 110590); 
   (113821, 113822); (113824, 113827); (118528, 118573); (118576, 118598); (119143, 119145); (119155, 119170); 
   (119173, 119179); (119210, 119213); (119362, 119364); (121344, 121398); (121403, 121452); (121461, 121461); 
   (121476, 121476); (121499, 121503); (121505, 121519); (122880, 122886); (122888, 122904); (122907, 122913); 
   (122915, 122916); (122918, 122922); (123184, 123197); (123566, 123566); (123628, 123631); (125136, 125142); 
   (125252, 125259); (127995, 127999); (917505, 917505); (917536, 917631); (917760, 917999) ].

(** used by mig_ahb_name_helpers.py:24: characters whose lower case form is one other character (capital sigma U+03A3 and U+0130 are treated in PyStr) *)
Definition lower_pairs : list (N * N) :=
  [(65, 97); (66, 98); (67, 99); (68, 100); (69, 101); (70, 102); (71, 103); (72, 104); (73, 105); (74, 106); 
   (75, 107); (76, 108); (77, 109); (78, 110); (79, 111); (80, 112); (81, 113); (82, 114); (83, 115); (84, 116); 
   (85, 117); (86, 118); (87, 119); (88, 120); (89, 121); (90, 122); (192, 224); (193, 225); (194, 226); 
   (195, 227); (196, 228); (197, 229); (198, 230); (199, 231); (200, 232); (201, 233); (202, 234); (203, 235); 
   (204, 236); (205, 237); (206, 238); (207, 239); (208, 240); (209, 241); (210, 242); (211, 243); (212, 244); 
   (213, 245); (214, 246); (216, 248); (217, 249); (218, 250); (219, 251); (220, 252); (221, 253); (222, 254); 
   (256, 257); (258, 259); (260, 261); (262, 263); (264, 265); (266, 267); (268, 269); (270, 271); (272, 273); 
   (274, 275); (276, 277); (278, 279); (280, 281); (282, 283); (284, 285); (286, 287); (288, 289); (290, 291); 
   (292, 293); (294, 295); (296, 297); (298, 299); (300, 301); (302, 303); (306, 307); (308, 309); (310, 311); 
   (313, 314); (315, 316); (317, 318); (319, 320); (321, 322); (323, 324); (325, 326); (327, 328); (330, 331); 
   (332, 333); (334, 335); (336, 337); (338, 339); (340, 341); (342, 343); (344, 345); (346, 347); (348, 349); 
   (350, 351); (352, 353); (354, 355); (356, 357); (358, 359); (360, 361); (362, 363); (364, 365); (366, 367); 
   (368, 369); (370, 371); (372, 373); (374, 375); (376, 255); (377, 378); (379, 380); (381, 382); (385, 595); 
   (386, 387); (388, 389); (390, 596); (391, 392); (393, 598); (394, 599); (395, 396); (398, 477); (399, 601); 
   (400, 603); (401, 402); (403, 608); (404, 611); (406, 617); (407, 616); (408, 409); (412, 623); (413, 626); 
   (415, 629); (416, 417); (418, 419); (420, 421); (422, 640); (423, 424); (425, 643); (428, 429); (430, 648); 
   (431, 432); (433, 650); (434, 651); (435, 436); (437, 438); (439, 658); (440, 441); (444, 445); (452, 454); 
   (453, 454); (455, 457); (456, 457); (458, 460); (459, 460); (461, 462); (463, 464); (465, 466); (467, 468); 
   (469, 470); (471, 472); (473, 474); (475, 476); (478, 479); (480, 481); (482, 483); (484, 485); (486, 487); 
   (488, 489); (490, 491); (492, 493); (494, 495); (497, 499); (498, 499); (500, 501); (502, 405); (503, 447); 
   (504, 505); (506, 507); (508, 509); (510, 511); (512, 513); (514, 515); (516, 517); (518, 519); (520, 521); 
   (522, 523); (524, 525); (526, 527); (528, 529); (530, 531); (532, 533); (534, 535); (536, 537); (538, 539); 
   (540, 541); (542, 543); (544, 414); (546, 547); (548, 549); (550, 551); (552, 553); (554, 555); (556, 557); 
   (558, 559); (560, 561); (562, 563); (570, 11365); (571, 572); (573, 410); (574, 11366); (577, 578); (579, 384); 
   (580, 649); (581, 652); (582, 583); (584, 585); (586, 587); (588, 589); (590, 591); (880, 881); (882, 883); 
   (886, 887); (895, 1011); (902, 940); (904, 941); (905, 942); (906, 943); (908, 972); (910, 973); (911, 974); 
   (913, 945); (914, 946); (915, 947); (916, 948); (917, 949); (918, 950); (919, 951); (920, 952); (921, 953); 
   (922, 954); (923, 955); (924, 956); (925, 957); (926, 958); (927, 959); (928, 960); (929, 961); (932, 964); 
   (933, 965); (934, 966); (935, 967); (936, 968); (937, 969); (938, 970); (939, 971); (975, 983); (984, 985); 
   (986, 987); (988, 989); (990, 991); (992, 993); (994, 995); (996, 997); (998, 999); (1000, 1001); (1002, 1003); 
   (1004, 1005); (1006, 1007); (1012, 952); (1015, 1016); (1017, 1010); (1018, 1019); (1021, 891); (1022, 892); 
   (1023, 893); (1024, 1104); (1025, 1105); (1026, 1106); (1027, 1107); (1028, 1108); (1029, 1109); (1030, 1110); 
   (1031, 1111); (1032, 1112); (1033, 1113); (1034, 1114); (1035, 1115); (1036, 1116); (1037, 1117); (1038, 1118); 
   (1039, 1119); (1040, 1072); (1041, 1073); (1042, 1074); (1043, 1075); (1044, 1076); (1045, 1077); (1046, 1078); 
   (1047, 1079); (1048, 1080); (1049, 1081); (1050, 1082); (1051, 1083); (1052, 1084); (1053, 1085); (1054, 1086); 
   (1055, 1087); (1056, 1088); (1057, 1089); (1058, 1090); (1059, 1091); (1060, 1092); (1061, 1093); (1062, 1094); 
   (1063, 1095); (1064, 1096); (1065, 1097); (1066, 1098); (1067, 1099); (1068, 1100); (1069, 1101); (1070, 1102); 
   (1071, 1103); (1120, 1121); (1122, 1123); (1124, 1125); (1126, 1127); (1128, 1129); (1130, 1131); (1132, 1133); 
   (1134, 1135); (1136, 1137); (1138, 1139); (1140, 1141); (1142, 1143); (1144, 1145); (1146, 1147); (1148, 1149); 
   (1150, 1151); (1152, 1153); (1162, 1163); (1164, 1165); (1166, 1167); (1168, 1169); (1170, 1171); (1172, 1173); 
   (1174, 1175); (1176, 1177); (1178, 1179); (1180, 1181); (1182, 1183); (1184, 1185); (1186, 1187); (1188, 1189); 
   (1190, 1191); (1192, 1193); (1194, 1195); (1196, 1197); (1198, 1199); (1200, 1201); (1202, 1203); (1204, 1205); 
   (1206, 1207); (1208, 1209); (1210, 1211); (1212, 1213); (1214, 1215); (1216, 1231); (1217, 1218); (1219, 1220); 
   (1221, 1222); (1223, 1224); (1225, 1226); (1227, 1228); (1229, 1230); (1232, 1233); (1234, 1235); (1236, 1237); 
   (1238, 1239); (1240, 1241); (1242, 1243); (1244, 1245); (1246, 1247); (1248, 1249); (1250, 1251); (1252, 1253); 
   (1254, 1255); (1256, 1257); (1258, 1259); (1260, 1261); (1262, 1263); (1264, 1265); (1266, 1267); (1268, 1269); 
   (1270, 1271); (1272, 1273); (1274, 1275); (1276, 1277); (1278, 1279); (1280, 1281); (1282, 1283); (1284, 1285); 
   (1286, 1287); (1288, 1289); (1290, 1291); (1292, 1293); (1294, 1295); (1296, 1297); (1298, 1299); (1300, 1301); 
   (1302, 1303); (1304, 1305); (1306, 1307); (1308, 1309); (1310, 1311); (1312, 1313); (1314, 1315); (1316, 1317); 
   (1318, 1319); (1320, 1321); (1322, 1323); (1324, 1325); (1326, 1327); (1329, 1377); (1330, 1378); (1331, 1379); 
   (1332, 1380); (1333, 1381); (1334, 1382); (1335, 1383); (1336, 1384); (1337, 1385); (1338, 1386); (1339, 1387); 
   (1340, 1388); (1341, 1389); (1342, 1390); (1343, 1391); (1344, 1392); (1345, 1393); (1346, 1394); (1347, 1395); 
   (1348, 1396); (1349, 1397); (1350, 1398); (1351, 1399); (1352, 1400); (1353, 1401); (1354, 1402); (1355, 1403); 
   (1356, 1404); (1357, 1405); (1358, 1406); (1359, 1407); (1360, 1408); (1361, 1409); (1362, 1410); (1363, 1411); 
   (1364, 1412); (1365, 1413); (1366, 1414); (4256, 11520); (4257, 11521); (4258, 11522); (4259, 11523); 
   (4260, 11524); (4261, 11525); (4262, 11526); (4263, 11527); (4264, 11528); (4265, 11529); (4266, 11530); 
   (4267, 11531); (4268, 11532); (4269, 11533); (4270, 11534); (4271, 11535); (4272, 11536); (4273, 11537); 
   (4274, 11538); (4275, 11539); (4276, 11540); (4277, 11541); (4278, 11542); (4279, 11543); (4280, 11544); 
   (4281, 11545); (4282, 11546); (4283, 11547); (4284, 11548); (4285, 11549); (4286, 11550); (4287, 11551); 
   (4288, 11552); (4289, 11553); (4290, 11554); (4291, 11555); (4292, 11556); (4293, 11557); (4295, 11559); 
   (4301, 11565); (5024, 43888); (5025, 43889); (5026, 43890); (5027, 43891); (5028, 43892); (5029, 43893); 
   (5030, 43894); (5031, 43895); (5032, 43896); (5033, 43897); (5034, 43898); (5035, 43899); (5036, 43900); 
   (5037, 43901); (5038, 43902); (5039, 43903); (5040, 43904); (5041, 43905); (5042, 43906); (5043, 43907); 
   (5044, 43908); (5045, 43909); (5046, 43910); (5047, 43911); (5048, 43912); (5049, 43913); (5050, 43914); 
   (5051, 43915); (5052, 43916); (5053, 43917); (5054, 43918); (5055, 43919); (5056, 43920); (5057, 43921); 
   (5058, 43922); (5059, 43923); (5060, 43924); (5061, 43925); (5062, 43926); (5063, 43927); (5064, 43928); 
   (5065, 43929); (5066, 43930); (5067, 43931); (5068, 43932); (5069, 43933); (5070, 43934); (5071, 43935); 
   (5072, 43936); (5073, 43937); (5074, 43938); (5075, 43939); (5076, 43940); (5077, 43941); (5078, 43942); 
   (5079, 43943); (5080, 43944); (5081, 43945); (5082, 43946); (5083, 43947); (5084, 43948); (5085, 43949); 
   (5086, 43950); (5087, 43951); (5088, 43952); (5089, 43953); (5090, 43954); (5091, 43955); (5092, 43956); 
   (5093, 43957); (5094, 43958); (5095, 43959); (5096, 43960); (5097, 43961); (5098, 43962); (5099, 43963); 
   (5100, 43964); (5101, 43965); (5102, 43966); (5103, 43967); (5104, 5112); (5105, 5113); (5106, 5114); 
   (5107, 5115); (5108, 5116); (5109, 5117); (7312, 4304); (7313, 4305); (7314, 4306); (7315, 4307); (7316, 4308); 
   (7317, 4309); (7318, 4310); (7319, 4311); (7320, 4312); (7321, 4313); (7322, 4314); (7323, 4315); (7324, 4316); 
   (7325, 4317); (7326, 4318); (7327, 4319); (7328, 4320); (7329, 4321); (7330, 4322); (7331, 4323); (7332, 4324); 
   (7333, 4325); (7334, 4326); (7335, 4327); (7336, 4328); (7337, 4329); (7338, 4330); (7339, 4331); (7340, 4332); 
   (7341, 4333); (7342, 4334); (7343, 4335); (7344, 4336); (7345, 4337); (7346, 4338); (7347, 4339); (7348, 4340); 
   (7349, 4341); (7350, 4342); (7351, 4343); (7352, 4344); (7353, 4345); (7354, 4346); (7357, 4349); (7358, 4350); 
   (7359, 4351); (7680, 7681); (7682, 7683); (7684, 7685); (7686, 7687); (7688, 7689); (7690, 7691); (7692, 7693); 
   (7694, 7695); (7696, 7697); (7698, 7699); (7700, 7701); (7702, 7703); (7704, 7705); (7706, 7707); (7708, 7709); 
   (7710, 7711); (7712, 7713); (7714, 7715); (7716, 7717); (7718, 7719); (7720, 7721); (7722, 7723); (7724, 7725); 
   (7726, 7727); (7728, 7729); (7730, 7731); (7732, 7733); (7734, 7735); (7736, 7737); (7738, 7739); (7740, 7741); 
   (7742, 7743); (7744, 7745); (7746, 7747); (7748, 7749); (7750, 7751); (7752, 7753); (7754, 7755); (7756, 7757); 
   (7758, 7759); (7760, 7761); (7762, 7763); (7764, 7765); (7766, 7767); (7768, 7769); (7770, 7771); (7772, 7773); 
   (7774, 7775); (7776, 7777); (7778, 7779); (7780, 7781); (7782, 7783); (7784, 7785); (7786, 7787); (7788, 7789); 
   (7790, 7791); (7792, 7793); (7794, 7795); (7796, 7797); (7798, 7799); (7800, 7801); (7802, 7803); (7804, 7805); 
   (7806, 7807); (7808, 7809); (7810, 7811); (7812, 7813); (7814, 7815); (7816, 7817); (7818, 7819); (7820, 7821); 
   (7822, 7823); (7824, 7825); (7826, 7827); (7828, 7829); (7838, 223); (7840, 7841); (7842, 7843); (7844, 7845); 
   (7846, 7847); (7848, 7849); (7850, 7851); (7852, 7853); (7854, 7855); (7856, 7857); (7858, 7859); (7860, 7861); 
   (7862, 7863); (7864, 7865); (7866, 7867); (7868, 7869); (7870, 7871); (7872, 7873); (7874, 7875); (7876, 7877); 
   (7878, 7879); (7880, 7881); (7882, 7883); (7884, 7885); (7886, 7887); (7888, 7889); (7890, 7891); (7892, 7893); 
   (7894, 7895); (7896, 7897); (7898, 7899); (7900, 7901); (7902, 7903); (7904, 7905); (7906, 7907); (7908, 7909); 
   (7910, 7911); (7912, 7913); (7914, 7915); (7916, 7917); (7918, 7919); (7920, 7921); (7922, 7923); (7924, 7925); 
   (7926, 7927); (7928, 7929); (7930, 7931); (7932, 7933); (7934, 7935); (7944, 7936); (7945, 7937); (7946, 7938); 
   (7947, 7939); (7948, 7940); (7949, 7941); (7950, 7942); (7951, 7943); (7960, 7952); (7961, 7953); (7962, 7954); 
   (7963, 7955); (7964, 7956); (7965, 7957); (7976, 7968); (7977, 7969); (7978, 7970); (7979, 7971); (7980, 7972); 
   (7981, 7973); (7982, 7974); (7983, 7975); (7992, 7984); (7993, 7985); (7994, 7986); (7995, 7987); (7996, 7988); 
   (7997, 7989); (7998, 7990); (7999, 7991); (8008, 8000); (8009, 8001); (8010, 8002); (8011, 8003); (8012, 8004); 
   (8013, 8005); (8025, 8017); (8027, 8019); (8029, 8021); (8031, 8023); (8040, 8032); (8041, 8033); (8042, 8034); 
   (8043, 8035); (8044, 8036); (8045, 8037); (8046, 8038); (8047, 8039); (8072, 8064); (8073, 8065); (8074, 8066); 
   (8075, 8067); (8076, 8068); (8077, 8069); (8078, 8070); (8079, 8071); (8088, 8080); (8089, 8081); (8090, 8082); 
   (8091, 8083); (8092, 8084); (8093, 8085); (8094, 8086); (8095, 8087); (8104, 8096); (8105, 8097); (8106, 8098); 
   (8107, 8099); (8108, 8100); (8109, 8101); (8110, 8102); (8111, 8103); (8120, 8112); (8121, 8113); (8122, 8048); 
   (8123, 8049); (8124, 8115); (8136, 8050); (8137, 8051); (8138, 8052); (8139, 8053); (8140, 8131); (8152, 8144); 
   (8153, 8145); (8154, 8054); (8155, 8055); (8168, 8160); (8169, 8161); (8170, 8058); (8171, 8059); (8172, 8165); 
   (8184, 8056); (8185, 8057); (8186, 8060); (8187, 8061); (8188, 8179); (8486, 969); (8490, 107); (8491, 229); 
   (8498, 8526); (8544, 8560); (8545, 8561); (8546, 8562); (8547, 8563); (8548, 8564); (8549, 8565); (8550, 8566); 
   (8551, 8567); (8552, 8568); (8553, 8569); (8554, 8570); (8555, 8571); (8556, 8572); (8557, 8573); (8558, 8574); 
   (8559, 8575); (8579, 8580); (9398, 9424); (9399, 9425); (9400, 9426); (9401, 9427); (9402, 9428); (9403, 9429); 
   (9404, 9430); (9405, 9431); (9406, 9432); (9407, 9433); (9408, 9434); (9409, 9435); (9410, 9436); (9411, 9437); 
   (9412, 9438); (9413, 9439); (9414, 9440); (9415, 9441); (9416, 9442); (9417, 9443); (9418, 9444); (9419, 9445); 
   (9420, 9446); (9421, 9447); (9422, 9448); (9423, 9449); (11264, 11312); (11265, 11313); (11266, 11314); 
   (11267, 11315); (11268, 11316); (11269, 11317); (11270, 11318); (11271, 11319); (11272, 11320); (11273, 11321); 
   (11274, 11322); (11275, 11323); (11276, 11324); (11277, 11325); (11278, 11326); (11279, 11327); (11280, 11328); 
   (11281, 11329); (11282, 11330); (11283, 11331); (11284, 11332); (11285, 11333); (11286, 11334); (11287, 11335); 
   (11288, 11336); (11289, 11337); (11290, 11338); (11291, 11339); (11292, 11340); (11293, 11341); (11294, 11342); 
   (11295, 11343); (11296, 11344); (11297, 11345); (11298, 11346); (11299, 11347); (11300, 11348); (11301, 11349); 
   (11302, 11350); (11303, 11351); (11304, 11352); (11305, 11353); (11306, 11354); (11307, 11355); (11308, 11356); 
   (11309, 11357); (11310, 11358); (11311, 11359); (11360, 11361); (11362, 619); (11363, 7549); (11364, 637); 
   (11367, 11368); (11369, 11370); (11371, 11372); (11373, 593); (11374, 625); (11375, 592); (11376, 594); 
   (11378, 11379); (11381, 11382); (11390, 575); (11391, 576); (11392, 11393); (11394, 11395); (11396, 11397); 
   (11398, 11399); (11400, 11401); (11402, 11403); (11404, 11405); (11406, 11407); (11408, 11409); (11410, 11411); 
   (11412, 11413); (11414, 11415); (11416, 11417); (11418, 11419); (11420, 11421); (11422, 11423); (11424, 11425); 
   (11426, 11427); (11428, 11429); (11430, 11431); (11432, 11433); (11434, 11435); (11436, 11437); (11438, 11439); 
   (11440, 11441); (11442, 11443); (11444, 11445); (11446, 11447); (11448, 11449); (11450, 11451); (11452, 11453); 
   (11454, 11455); (11456, 11457); (11458, 11459); (11460, 11461); (11462, 11463); (11464, 11465); (11466, 11467); 
   (11468, 11469); (11470, 11471); (11472, 11473); (11474, 11475); (11476, 11477); (11478, 11479); (11480, 11481); 
   (11482, 11483); (11484, 11485); (11486, 11487); (11488, 11489); (11490, 11491); (11499, 11500); (11501, 11502); 
   (11506, 11507); (42560, 42561); (42562, 42563); (42564, 42565); (42566, 42567); (42568, 42569); (42570, 42571); 
   (42572, 42573); (42574, 42575); (42576, 42577); (42578, 42579); (42580, 42581); (42582, 42583); (42584, 42585); 
   (42586, 42587); (42588, 42589); (42590, 42591); (42592, 42593); (42594, 42595); (42596, 42597); (42598, 42599); 
   (42600, 42601); (42602, 42603); (42604, 42605); (42624, 42625); (42626, 42627); (42628, 42629); (42630, 42631); 
   (42632, 42633); (42634, 42635); (42636, 42637); (42638, 42639); (42640, 42641); (42642, 42643); (42644, 42645); 
   (42646, 42647); (42648, 42649); (42650, 42651); (42786, 42787); (42788, 42789); (42790, 42791); (42792, 42793); 
   (42794, 42795); (42796, 42797); (42798, 42799); (42802, 42803); (42804, 42805); (42806, 42807); (42808, 42809); 
   (42810, 42811); (42812, 42813); (42814, 42815); (42816, 42817); (42818, 42819); (42820, 42821); (42822, 42823); 
   (42824, 42825); (42826, 42827); (42828, 42829); (42830, 42831); (42832, 42833); (42834, 42835); (42836, 42837); 
   (42838, 42839); (42840, 42841); (42842, 42843); (42844, 42845); (42846, 42847); (42848, 42849); (42850, 42851); 
   (42852, 42853); (42854, 42855); (42856, 42857); (42858, 42859); (42860, 42861); (42862, 42863); (42873, 42874); 
   (42875, 42876); (42877, 7545); (42878, 42879); (42880, 42881); (42882, 42883); (42884, 42885); (42886, 42887); 
   (42891, 42892); (42893, 613); (42896, 42897); (42898, 42899); (42902, 42903); (42904, 42905); (42906, 42907); 
   (42908, 42909); (42910, 42911); (42912, 42913); (42914, 42915); (42916, 42917); (42918, 42919); (42920, 42921); 
   (42922, 614); (42923, 604); (42924, 609); (42925, 620); (42926, 618); (42928, 670); (42929, 647); (42930, 669); 
   (42931, 43859); (42932, 42933); (42934, 42935); (42936, 42937); (42938, 42939); (42940, 42941); (42942, 42943); 
   (42944, 42945); (42946, 42947); (42948, 42900); (42949, 642); (42950, 7566); (42951, 42952); (42953, 42954); 
   (42960, 42961); (42966, 42967); (42968, 42969); (42997, 42998); (65313, 65345); (65314, 65346); (65315, 65347); 
   (65316, 65348); (65317, 65349); (65318, 65350); (65319, 65351); (65320, 65352); (65321, 65353); (65322, 65354); 
   (65323, 65355); (65324, 65356); (65325, 65357); (65326, 65358); (65327, 65359); (65328, 65360); (65329, 65361); 
   (65330, 65362); (65331, 65363); (65332, 65364); (65333, 65365); (65334, 65366); (65335, 65367); (65336, 65368); 
   (65337, 65369); (65338, 65370); (66560, 66600); (66561, 66601); (66562, 66602); (66563, 66603); (66564, 66604); 
   (66565, 66605); (66566, 66606); (66567, 66607); (66568, 66608); (66569, 66609); (66570, 66610); (66571, 66611); 
   (66572, 66612); (66573, 66613); (66574, 66614); (66575, 66615); (66576, 66616); (66577, 66617); (66578, 66618); 
   (66579, 66619); (66580, 66620); (66581, 66621); (66582, 66622); (66583, 66623); (66584, 66624); (66585, 66625); 
   (66586, 66626); (66587, 66627); (66588, 66628); (66589, 66629); (66590, 66630); (66591, 66631); (66592, 66632); 
   (66593, 66633); (66594, 66634); (66595, 66635); (66596, 66636); (66597, 66637); (66598, 66638); (66599, 66639); 
   (66736, 66776); (66737, 66777); (66738, 66778); (66739, 66779); (66740, 66780); (66741, 66781); (66742, 66782); 
   (66743, 66783); (66744, 66784); (66745, 66785); (66746, 66786); (66747, 66787); (66748, 66788); (66749, 66789); 
   (66750, 66790); (66751, 66791); (66752, 66792); (66753, 66793); (66754, 66794); (66755, 66795); (66756, 66796); 
   (66757, 66797); (66758, 66798); (66759, 66799); (66760, 66800); (66761, 66801); (66762, 66802); (66763, 66803); 
   (66764, 66804); (66765, 66805); (66766, 66806); (66767, 66807); (66768, 66808); (66769, 66809); (66770, 66810); 
   (66771, 66811); (66928, 66967); (66929, 66968); (66930, 66969); (66931, 66970); (66932, 66971); (66933, 66972); 
   (66934, 66973); (66935, 66974); (66936, 66975); (66937, 66976); (66938, 66977); (66940, 66979); (66941, 66980); 
   (66942, 66981); (66943, 66982); (66944, 66983); (66945, 66984); (66946, 66985); (66947, 66986); (66948, 66987); 
   (66949, 66988); (66950, 66989); (66951, 66990); (66952, 66991); (66953, 66992); (66954, 66993); (66956, 66995); 
   (66957, 66996); (66958, 66997); (66959, 66998); (66960, 66999); (66961, 67000); (66962, 67001); (66964, 67003); 
   (66965, 67004); (68736, 68800); (68737, 68801); (68738, 68802); (68739, 68803); (68740, 68804); (68741, 68805); 
   (68742, 68806); (68743, 68807); (68744, 68808); (68745, 68809); (68746, 68810); (68747, 68811); (68748, 68812); 
   (68749, 68813); (68750, 68814); (68751, 68815); (68752, 68816); (68753, 68817); (68754, 68818); (68755, 68819); 
   (68756, 68820); (68757, 68821); (68758, 68822); (68759, 68823); (68760, 68824); (68761, 68825); (68762, 68826); 
   (68763, 68827); (68764, 68828); (68765, 68829); (68766, 68830); (68767, 68831); (68768, 68832); (68769, 68833); 
   (68770, 68834); (68771, 68835); (68772, 68836); (68773, 68837); (68774, 68838); (68775, 68839); (68776, 68840); 
   (68777, 68841); (68778, 68842); (68779, 68843); (68780, 68844); (68781, 68845); (68782, 68846); (68783, 68847); 
   (68784, 68848); (68785, 68849); (68786, 68850); (71840, 71872); (71841, 71873); (71842, 71874); (71843, 71875); 
   (71844, 71876); (71845, 71877); (71846, 71878); (71847, 71879); (71848, 71880); (71849, 71881); (71850, 71882); 
   (71851, 71883); (71852, 71884); (71853, 71885); (71854, 71886); (71855, 71887); (71856, 71888); (71857, 71889); 
   (71858, 71890); (71859, 71891); (71860, 71892); (71861, 71893); (71862, 71894); (71863, 71895); (71864, 71896); 
   (71865, 71897); (71866, 71898); (71867, 71899); (71868, 71900); (71869, 71901); (71870, 71902); (71871, 71903); 
   (93760, 93792); (93761, 93793); (93762, 93794); (93763, 93795); (93764, 93796); (93765, 93797); (93766, 93798); 
   (93767, 93799); (93768, 93800); (93769, 93801); (93770, 93802); (93771, 93803); (93772, 93804); (93773, 93805); 
   (93774, 93806); (93775, 93807); (93776, 93808); (93777, 93809); (93778, 93810); (93779, 93811); (93780, 93812); 
   (93781, 93813); (93782, 93814); (93783, 93815); (93784, 93816); (93785, 93817); (93786, 93818); (93787, 93819); 
   (93788, 93820); (93789, 93821); (93790, 93822); (93791, 93823); (125184, 125218); (125185, 125219); (125186, 125220); 
   (125187, 125221); (125188, 125222); (125189, 125223); (125190, 125224); (125191, 125225); (125192, 125226); 
   (125193, 125227); (125194, 125228); (125195, 125229); (125196, 125230); (125197, 125231); (125198, 125232); 
   (125199, 125233); (125200, 125234); (125201, 125235); (125202, 125236); (125203, 125237); (125204, 125238); 
   (125205, 125239); (125206, 125240); (125207, 125241); (125208, 125242); (125209, 125243); (125210, 125244); 
   (125211, 125245); (125212, 125246); (125213, 125247); (125214, 125248); (125215, 125249); (125216, 125250); 
   (125217, 125251) ].

