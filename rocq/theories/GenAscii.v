(** GENERATED by tools/gen_tables.py from /repo/crates/wolfram-parser/src/generated/long_names_registration.rs.  Do not edit. *)
From Coq Require Import ZArith List String.
Import ListNotations.
Local Open Scope Z_scope.


(** ASCII_REPLACEMENTS_MAP; the texts as bytes *)
Definition ASCII_REPLACEMENTS : list (Z * list (list Z)) := [
  (160, [[32]]); (162, [[99]]); (168, [[46; 46]]);
  (169, [[40; 99; 41]]); (171, [[60; 60]; [34]]); (172, [[33]]);
  (173, [[45]]); (174, [[40; 82; 41]]); (176, [[68; 101; 103; 114; 101; 101]]);
  (177, [[43; 45]]); (181, [[117]]); (183, [[46]]);
  (184, [[44]]); (187, [[62; 62]; [34]]); (192, [[65; 96]; [65]]);
  (193, [[65; 39]; [65]]); (194, [[65; 94]; [65]]); (195, [[65; 126]; [65]]);
  (196, [[65; 34]; [65; 69]; [65]]); (197, [[65; 111]; [65]]); (198, [[65; 69]]);
  (199, [[67; 44]; [67]]); (200, [[69; 96]; [69]]); (201, [[69; 39]; [69]]);
  (202, [[69; 94]; [69]]); (203, [[69; 34]; [69]]); (204, [[73; 96]; [73]]);
  (205, [[73; 39]; [73]]); (206, [[73; 94]; [73]]); (207, [[73; 34]; [73]]);
  (208, [[69; 116; 104]]); (209, [[78; 126]; [78]]); (210, [[79; 96]; [79]]);
  (211, [[79; 39]; [79]]); (212, [[79; 94]; [79]]); (213, [[79; 126]; [79]]);
  (214, [[79; 34]; [79; 69]; [79]]); (215, [[42]; [120]]); (216, [[79; 47]; [79]]);
  (217, [[85; 96]; [85]]); (218, [[85; 39]; [85]]); (219, [[85; 94]; [85]]);
  (220, [[85; 34]; [85; 69]; [85]]); (221, [[89; 39]; [89]]); (222, [[84; 104]]);
  (223, [[115; 122]]); (224, [[97; 96]; [97]]); (225, [[97; 39]; [97]]);
  (226, [[97; 94]; [97]]); (227, [[97; 126]; [97]]); (228, [[97; 34]; [97; 101]; [97]]);
  (229, [[97; 111]; [97]]); (230, [[97; 101]; [97]]); (231, [[99; 44]; [99]]);
  (232, [[101; 96]; [101]]); (233, [[101; 39]; [101]]); (234, [[101; 94]; [101]]);
  (235, [[101; 34]; [101]]); (236, [[105; 96]; [105]]); (237, [[105; 39]; [105]]);
  (238, [[105; 94]; [105]]); (239, [[105; 34]; [105]]); (240, [[101; 116; 104]]);
  (241, [[110; 126]; [110]]); (242, [[111; 96]; [111]]); (243, [[111; 39]; [111]]);
  (244, [[111; 94]; [111]]); (245, [[111; 126]; [111]]); (246, [[111; 34]; [111; 101]; [111]]);
  (247, [[47]]); (248, [[111; 47]; [111]]); (249, [[117; 96]; [117]]);
  (250, [[117; 39]; [117]]); (251, [[117; 94]; [117]]); (252, [[117; 34]; [117; 101]; [117]]);
  (253, [[121; 39]; [121]]); (254, [[116; 104]]); (255, [[121; 34]; [121]]);
  (256, [[65; 45]; [65]]); (257, [[97; 45]; [97]]); (258, [[65; 117]; [65]]);
  (259, [[97; 117]; [97]]); (262, [[67; 39]; [67]]); (263, [[99; 39]; [99]]);
  (268, [[67; 118]; [67]]); (269, [[99; 118]; [99]]); (270, [[68; 118]; [68]]);
  (271, [[100; 118]; [100]]); (274, [[69; 45]; [69]]); (275, [[101; 45]; [101]]);
  (276, [[69; 117]; [69]]); (277, [[101; 117]; [101]]); (282, [[69; 118]; [69]]);
  (283, [[101; 118]; [101]]); (300, [[73; 117]; [73]]); (301, [[105; 117]; [105]]);
  (305, [[105]]); (321, [[76; 47]; [76]]); (322, [[108; 47]; [108]]);
  (327, [[78; 118]; [78]]); (328, [[110; 118]; [110]]); (336, [[79; 39; 39]; [79]]);
  (337, [[111; 39; 39]; [111]]); (338, [[79; 69]]); (339, [[111; 101]]);
  (344, [[82; 118]; [82]]); (345, [[114; 118]; [114]]); (352, [[83; 118]; [83]]);
  (353, [[115; 118]; [115]]); (356, [[84; 118]; [84]]); (357, [[116; 118]; [116]]);
  (366, [[85; 111]; [85]]); (367, [[117; 111]; [117]]); (368, [[85; 39; 39]; [85]]);
  (369, [[117; 39; 39]; [117]]); (381, [[90; 118]; [90]]); (382, [[122; 118]; [122]]);
  (402, [[102]]); (711, [[118]]); (956, [[117]]);
  (8197, [[32]]); (8201, [[32]]); (8202, [[32]]);
  (8208, [[45]]); (8211, [[45]]); (8212, [[45; 45]; [45]]);
  (8216, [[39]]); (8217, [[39]]); (8220, [[34]]);
  (8221, [[34]]); (8230, [[46; 46; 46]]); (8232, [[10]]);
  (8233, [[10; 10]]); (8242, [[39]]); (8243, [[39; 39]; [34]]);
  (8245, [[96]]); (8246, [[96; 96]; [34]]); (8259, [[45]]);
  (8287, [[32]]); (8290, [[42]; [120]; []]); (8458, [[103]]);
  (8459, [[72]]); (8460, [[72]]); (8463, [[104]]);
  (8464, [[73]]); (8465, [[73]]); (8466, [[76]]);
  (8467, [[108]]); (8472, [[112]]); (8475, [[82]]);
  (8476, [[82]]); (8482, [[40; 84; 77; 41]]); (8488, [[90]]);
  (8491, [[65]]); (8492, [[66]]); (8493, [[67]]);
  (8495, [[101]]); (8496, [[69]]); (8497, [[70]]);
  (8499, [[77]]); (8500, [[111]]); (8592, [[60; 45]]);
  (8594, [[45; 62]]); (8596, [[60; 45; 62]]); (8612, [[60; 45; 124]]);
  (8614, [[124; 45; 62]]); (8656, [[60; 61]]); (8658, [[61; 62]]);
  (8660, [[60; 61; 62]]); (8676, [[124; 60; 45]]); (8677, [[45; 62; 124]]);
  (8722, [[45]]); (8723, [[45; 43]]); (8725, [[47]]);
  (8726, [[92]]); (8728, [[40; 41]]); (8734, [[73; 110; 102; 105; 110; 105; 116; 121]]);
  (8739, [[124]]); (8741, [[124; 124]]); (8742, [[33; 124; 124]]);
  (8743, [[38; 38]]); (8744, [[124; 124]]); (8758, [[58]]);
  (8764, [[126]]); (8769, [[33; 126]]); (8770, [[61; 126]]);
  (8771, [[126; 61]]); (8772, [[33; 126; 61]]); (8773, [[126; 61; 61]]);
  (8775, [[33; 126; 61; 61]]); (8776, [[126; 126]]); (8777, [[33; 126; 126]]);
  (8800, [[33; 61]]); (8804, [[60; 61]]); (8805, [[62; 61]]);
  (8806, [[60; 61]]); (8807, [[62; 61]]); (8808, [[33; 60; 61; 61]]);
  (8809, [[33; 62; 61; 61]]); (8810, [[60; 60]]); (8811, [[62; 62]]);
  (8814, [[33; 60]]); (8815, [[33; 62]]); (8816, [[33; 60; 61]]);
  (8817, [[33; 62; 61]]); (8818, [[60; 126]]); (8819, [[62; 126]]);
  (8820, [[33; 60; 126]]); (8821, [[33; 62; 126]]); (8822, [[60; 62]]);
  (8823, [[62; 60]]); (8824, [[33; 60; 62]]); (8825, [[33; 62; 60]]);
  (8853, [[40; 43; 41]]); (8854, [[40; 45; 41]]); (8855, [[40; 120; 41]]);
  (8857, [[40; 46; 41]]); (8866, [[124; 45]]); (8867, [[45; 124]]);
  (8872, [[124; 61]]); (8882, [[60; 124]]); (8883, [[124; 62]]);
  (8884, [[60; 124; 61]]); (8885, [[124; 62; 61]]); (8896, [[94]]);
  (8900, [[60; 62]]); (8902, [[42]]); (8922, [[60; 61; 62]]);
  (8923, [[62; 61; 60]]); (8938, [[33; 60; 124]]); (8939, [[33; 124; 62]]);
  (8940, [[33; 60; 124; 61]]); (8941, [[33; 124; 62; 61]]); (8943, [[46; 46; 46]]);
  (9001, [[60]]); (9002, [[62]]); (9251, [[32]; [95]]);
  (9785, [[58; 45; 40]]); (9786, [[58; 45; 41]]); (9839, [[35]]);
  (10229, [[60; 45; 45]]); (10230, [[45; 45; 62]]); (10231, [[60; 45; 45; 62]]);
  (10232, [[60; 61; 61]]); (10233, [[61; 61; 62]]); (10234, [[60; 61; 61; 62]]);
  (10703, [[60; 124; 124]]); (10704, [[124; 124; 62]]); (10726, [[60; 61; 62]]);
  (10877, [[60; 61]]); (10878, [[62; 61]]); (10913, [[60; 60]]);
  (10914, [[62; 62]]); (10980, [[61; 124]]); (12314, [[91; 91]]);
  (12315, [[93; 93]]); (61715, [[60; 124]]); (61716, [[124; 62]]);
  (61728, [[60; 45; 62]]); (62304, [[32]; []]); (62336, [[32]]);
  (62338, [[32]]); (62339, [[32]]); (62340, [[32]]);
  (62366, [[43]]); (62368, [[]]); (62371, [[10]]);
  (62385, [[92]]); (62386, [[95]]); (62387, [[]]);
  (62388, [[]]); (62397, [[10]]); (62398, [[10]]);
  (62399, [[10]]); (62406, [[10]]); (62407, [[84]]);
  (62408, [[42]]); (62409, [[116]]); (62414, [[72]]);
  (62416, [[124]]); (62417, [[33; 124]]); (62421, [[45; 62]]);
  (62425, [[75]]); (62464, [[33; 61; 126]]); (62482, [[33; 60; 124; 124]]);
  (62483, [[33; 124; 124; 62]]); (62498, [[33; 60; 60]]); (62499, [[33; 60; 60]]);
  (62500, [[33; 60; 61]]); (62503, [[33; 62; 62]]); (62504, [[33; 62; 62]]);
  (62505, [[33; 62; 61]]); (62513, [[61; 61]]); (62514, [[124]]);
  (62624, [[120]]); (62625, [[124; 45; 62]]); (62751, [[58; 62]]);
  (62752, [[91; 93]]); (62754, [[45; 62]]); (62755, [[61; 62]]);
  (62757, [[45; 62]]); (62758, [[60; 45]]); (62759, [[91; 42; 93]]);
  (62760, [[91; 32; 93]]); (62979, [[124]]); (62980, [[124]]);
  (62981, [[124; 124]]); (62982, [[124; 124]]); (63154, [[97]]);
  (63155, [[98]]); (63156, [[99]]); (63157, [[100]]);
  (63159, [[102]]); (63161, [[104]]); (63162, [[105]]);
  (63163, [[106]]); (63164, [[107]]); (63166, [[109]]);
  (63167, [[110]]); (63169, [[112]]); (63170, [[113]]);
  (63171, [[114]]); (63172, [[115]]); (63173, [[116]]);
  (63174, [[117]]); (63175, [[118]]); (63176, [[119]]);
  (63177, [[120]]); (63178, [[121]]); (63179, [[122]]);
  (63180, [[97]]); (63181, [[98]]); (63182, [[99]]);
  (63183, [[100]]); (63184, [[101]]); (63185, [[102]]);
  (63186, [[103]]); (63187, [[104]]); (63188, [[105]]);
  (63189, [[106]]); (63190, [[107]]); (63191, [[108]]);
  (63192, [[109]]); (63193, [[110]]); (63194, [[111]]);
  (63195, [[112]]); (63196, [[113]]); (63197, [[82]]);
  (63198, [[115]]); (63199, [[116]]); (63200, [[117]]);
  (63201, [[118]]); (63202, [[119]]); (63203, [[120]]);
  (63204, [[121]]); (63205, [[122]]); (63206, [[97]]);
  (63207, [[98]]); (63208, [[99]]); (63209, [[100]]);
  (63210, [[101]]); (63211, [[102]]); (63212, [[103]]);
  (63213, [[104]]); (63214, [[105]]); (63215, [[106]]);
  (63216, [[107]]); (63217, [[108]]); (63218, [[109]]);
  (63219, [[110]]); (63220, [[111]]); (63221, [[112]]);
  (63222, [[113]]); (63223, [[114]]); (63224, [[115]]);
  (63225, [[116]]); (63226, [[117]]); (63227, [[118]]);
  (63228, [[119]]); (63229, [[120]]); (63230, [[121]]);
  (63231, [[122]]); (63232, [[106]]); (63265, [[58; 45; 64]]);
  (63266, [[58; 45; 124]]); (63268, [[35]]); (63280, [[105]]);
  (63281, [[106]]); (63307, [[68]]); (63308, [[100]]);
  (63309, [[101]]); (63310, [[105]]); (63311, [[106]]);
  (63316, [[95]]); (63320, [[46; 46; 46]]); (63329, [[60; 60]]);
  (63330, [[62; 62]]); (63331, [[67; 84; 82; 76]]); (63333, [[44]; []]);
  (63334, [[82; 69; 84]]); (63335, [[94; 94; 94]]); (63337, [[69; 83; 67]]);
  (63338, [[67; 77; 68]]); (63339, [[45; 91]]); (63340, [[93]]);
  (63341, [[64]; []]); (63342, [[10]]); (63343, [[10; 10]]);
  (63344, [[65]]); (63346, [[67]]); (63347, [[68]]);
  (63350, [[71]]); (63353, [[74]]); (63354, [[75]]);
  (63357, [[78]]); (63358, [[79]]); (63359, [[80]]);
  (63360, [[81]]); (63362, [[83]]); (63363, [[84]]);
  (63364, [[85]]); (63365, [[86]]); (63366, [[87]]);
  (63367, [[88]]); (63368, [[89]]); (63369, [[90]]);
  (63370, [[65]]); (63371, [[66]]); (63373, [[68]]);
  (63374, [[69]]); (63375, [[70]]); (63376, [[71]]);
  (63379, [[74]]); (63380, [[75]]); (63381, [[76]]);
  (63382, [[77]]); (63383, [[78]]); (63384, [[79]]);
  (63385, [[80]]); (63386, [[81]]); (63388, [[83]]);
  (63389, [[84]]); (63390, [[85]]); (63391, [[86]]);
  (63392, [[87]]); (63393, [[88]]); (63394, [[89]]);
  (63396, [[65]]); (63397, [[66]]); (63398, [[67]]);
  (63399, [[68]]); (63400, [[69]]); (63401, [[70]]);
  (63402, [[71]]); (63403, [[72]]); (63404, [[73]]);
  (63405, [[74]]); (63406, [[75]]); (63407, [[76]]);
  (63408, [[77]]); (63409, [[78]]); (63410, [[79]]);
  (63411, [[80]]); (63412, [[81]]); (63413, [[82]]);
  (63414, [[83]]); (63415, [[84]]); (63416, [[85]]);
  (63417, [[86]]); (63418, [[87]]); (63419, [[88]]);
  (63420, [[89]]); (63421, [[90]]); (63422, [[84; 65; 66]]);
  (63423, [[83; 80; 67]]); (63440, [[68; 69; 76]]); (63441, [[65; 76; 84]]);
  (63442, [[79; 80; 84]]); (63449, [[61; 61]]); (63450, [[99]]);
  (63451, [[48]]); (63452, [[49]]); (63453, [[50]]);
  (63454, [[51]]); (63455, [[52]]); (63456, [[53]]);
  (63457, [[54]]); (63458, [[55]]); (63459, [[56]]);
  (63460, [[57]]); (63461, [[48]]); (63462, [[49]]);
  (63463, [[50]]); (63464, [[51]]); (63465, [[52]]);
  (63466, [[53]]); (63467, [[54]]); (63468, [[55]]);
  (63469, [[56]]); (63471, [[57]]); (63472, [[48]]);
  (63473, [[49]]); (63474, [[50]]); (63475, [[51]]);
  (63476, [[52]]); (63477, [[53]]); (63478, [[54]]);
  (63479, [[55]]); (63480, [[56]]); (63481, [[57]]);
  (63484, [[44]]); (63488, [[97]]); (63489, [[98]]);
  (63490, [[99]]); (63491, [[100]]); (63492, [[101]]);
  (63493, [[102]]); (63494, [[103]]); (63495, [[104]]);
  (63496, [[105]]); (63497, [[106]]); (63498, [[107]]);
  (63499, [[108]]); (63500, [[109]]); (63501, [[110]]);
  (63502, [[111]]); (63503, [[112]]); (63504, [[113]]);
  (63505, [[114]]); (63506, [[115]]); (63507, [[116]]);
  (63508, [[117]]); (63509, [[118]]); (63510, [[119]]);
  (63511, [[120]]); (63512, [[121]]); (63513, [[122]]);
  (63514, [[65]]); (63515, [[66]]); (63516, [[67]]);
  (63517, [[68]]); (63518, [[69]]); (63519, [[70]]);
  (63520, [[71]]); (63521, [[72]]); (63522, [[73]]);
  (63523, [[74]]); (63524, [[75]]); (63525, [[76]]);
  (63526, [[77]]); (63527, [[78]]); (63528, [[79]]);
  (63529, [[80]]); (63530, [[81]]); (63531, [[82]]);
  (63532, [[83]]); (63533, [[84]]); (63534, [[85]]);
  (63535, [[86]]); (63536, [[87]]); (63537, [[88]]);
  (63538, [[89]]); (63539, [[90]]); (64257, [[102; 105]]);
  (64258, [[102; 108]]); (65533, [[63]]); (1024000, [[97]]);
  (1024001, [[98]]); (1024002, [[99]]); (1024003, [[100]]);
  (1024004, [[101]]); (1024005, [[102]]); (1024006, [[103]]);
  (1024007, [[104]]); (1024008, [[105]]); (1024009, [[106]]);
  (1024010, [[107]]); (1024011, [[108]]); (1024012, [[109]]);
  (1024013, [[110]]); (1024014, [[111]]); (1024015, [[112]]);
  (1024016, [[113]]); (1024017, [[114]]); (1024018, [[115]]);
  (1024019, [[116]]); (1024020, [[117]]); (1024021, [[118]]);
  (1024022, [[119]]); (1024023, [[120]]); (1024024, [[121]]);
  (1024025, [[122]]); (1024026, [[65]]); (1024027, [[66]]);
  (1024028, [[67]]); (1024029, [[68]]); (1024030, [[69]]);
  (1024031, [[70]]); (1024032, [[71]]); (1024033, [[72]]);
  (1024034, [[73]]); (1024035, [[74]]); (1024036, [[75]]);
  (1024037, [[76]]); (1024038, [[77]]); (1024039, [[78]]);
  (1024040, [[79]]); (1024041, [[80]]); (1024042, [[81]]);
  (1024043, [[82]]); (1024044, [[83]]); (1024045, [[84]]);
  (1024046, [[85]]); (1024047, [[86]]); (1024048, [[87]]);
  (1024049, [[88]]); (1024050, [[89]]); (1024051, [[90]])
].
