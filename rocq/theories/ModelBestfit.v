(** Model of src/unicode_bestfit_map.rs. *)
From Verif Require Export Base.

(** src/unicode_bestfit_map.rs:5-11: the hash map is an association list. *)
Record bestfit_map := { bm_map : list (N * N); bm_repl : N }.

(** src/unicode_bestfit_map.rs:22-29. *)
Definition bestfit_get (m : bestfit_map) (u : N) : N :=
  match find (fun kv => fst kv =? u) (bm_map m) with
  | Some kv => snd kv
  | None => bm_repl m
  end.

(** src/unicode_bestfit_map.rs:33-37: [bestfit_key!]; both arguments are bytes. *)
Definition bestfit_key (c1 c2 : N) : N := c1 * 256 + c2.

(** src/unicode_bestfit_map.rs:39-435, transcribed entry by entry (keys are unique in the source). *)
Definition bestfit_1252 : list (N * N) := [
  (256, 65); (257, 97); (258, 65); (259, 97); (260, 65); (261, 97); (262, 67); (263, 99);
  (264, 67); (265, 99); (266, 67); (267, 99); (268, 67); (269, 99); (270, 68); (271, 100);
  (273, 100); (274, 69); (275, 101); (276, 69); (277, 101); (278, 69); (279, 101); (280, 69);
  (281, 101); (282, 69); (283, 101); (284, 71); (285, 103); (286, 71); (287, 103); (288, 71);
  (289, 103); (290, 71); (291, 103); (292, 72); (293, 104); (294, 72); (295, 104); (296, 73);
  (297, 105); (298, 73); (299, 105); (300, 73); (301, 105); (302, 73); (303, 105); (304, 73);
  (305, 105); (308, 74); (309, 106); (310, 75); (311, 107); (313, 76); (314, 108); (315, 76);
  (316, 108); (317, 76); (318, 108); (321, 76); (322, 108); (323, 78); (324, 110); (325, 78);
  (326, 110); (327, 78); (328, 110); (332, 79); (333, 111); (334, 79); (335, 111); (336, 79);
  (337, 111); (340, 82); (341, 114); (342, 82); (343, 114); (344, 82); (345, 114); (346, 83);
  (347, 115); (348, 83); (349, 115); (350, 83); (351, 115); (354, 84); (355, 116); (356, 84);
  (357, 116); (358, 84); (359, 116); (360, 85); (361, 117); (362, 85); (363, 117); (364, 85);
  (365, 117); (366, 85); (367, 117); (368, 85); (369, 117); (370, 85); (371, 117); (372, 87);
  (373, 119); (374, 89); (375, 121); (377, 90); (379, 90); (380, 122); (384, 98); (407, 73);
  (410, 108); (415, 79); (416, 79); (417, 111); (427, 116); (430, 84); (431, 85); (432, 117);
  (438, 122); (448, 124); (451, 33); (461, 65); (462, 97); (463, 73); (464, 105); (465, 79);
  (466, 111); (467, 85); (468, 117); (469, 85); (470, 117); (471, 85); (472, 117); (473, 85);
  (474, 117); (475, 85); (476, 117); (478, 65); (479, 97); (484, 71); (485, 103); (486, 71);
  (487, 103); (488, 75); (489, 107); (490, 79); (491, 111); (492, 79); (493, 111); (496, 106);
  (609, 103); (697, 39); (698, 34); (700, 39); (708, 94); (712, 39); (715, 96); (717, 95);
  (768, 96); (770, 94); (771, 126); (782, 34); (817, 95); (818, 95); (894, 59); (915, 71);
  (920, 84); (931, 83); (934, 70); (937, 79); (945, 97); (948, 100); (949, 101); (960, 112);
  (963, 115); (964, 116); (966, 102); (1211, 104); (1417, 58); (1642, 37); (8192, 32); (8193, 32);
  (8194, 32); (8195, 32); (8196, 32); (8197, 32); (8198, 32); (8208, 45); (8209, 45); (8215, 61);
  (8242, 39); (8245, 96); (8260, 47); (8308, 52); (8309, 53); (8310, 54); (8311, 55); (8312, 56);
  (8319, 110); (8320, 48); (8321, 49); (8322, 50); (8323, 51); (8324, 52); (8325, 53); (8326, 54);
  (8327, 55); (8328, 56); (8329, 57); (8359, 80); (8450, 67); (8455, 69); (8458, 103); (8459, 72);
  (8460, 72); (8461, 72); (8462, 104); (8464, 73); (8465, 73); (8466, 76); (8467, 108); (8469, 78);
  (8472, 80); (8473, 80); (8474, 81); (8475, 82); (8476, 82); (8477, 82); (8484, 90); (8488, 90);
  (8490, 75); (8492, 66); (8493, 67); (8494, 101); (8495, 101); (8496, 69); (8497, 70); (8499, 77);
  (8500, 111); (8722, 45); (8725, 47); (8726, 92); (8727, 42); (8730, 118); (8734, 56); (8739, 124);
  (8745, 110); (8758, 58); (8764, 126); (8801, 61); (8804, 61); (8805, 61); (8963, 94); (8992, 40);
  (8993, 41); (9001, 60); (9002, 62); (9472, 45); (9484, 43); (9488, 43); (9492, 43); (9496, 43);
  (9500, 43); (9516, 45); (9524, 45); (9532, 43); (9552, 45); (9554, 43); (9555, 43); (9556, 43);
  (9557, 43); (9558, 43); (9559, 43); (9560, 43); (9561, 43); (9562, 43); (9563, 43); (9564, 43);
  (9565, 43); (9572, 45); (9573, 45); (9574, 45); (9575, 45); (9576, 45); (9577, 45); (9578, 43);
  (9579, 43); (9580, 43); (9604, 95); (10072, 124); (12288, 32); (12296, 60); (12297, 62); (12314, 91);
  (12315, 93); (65281, 33); (65282, 34); (65283, 35); (65284, 36); (65285, 37); (65286, 38); (65287, 39);
  (65288, 40); (65289, 41); (65290, 42); (65291, 43); (65292, 44); (65293, 45); (65294, 46); (65295, 47);
  (65296, 48); (65297, 49); (65298, 50); (65299, 51); (65300, 52); (65301, 53); (65302, 54); (65303, 55);
  (65304, 56); (65305, 57); (65306, 58); (65307, 59); (65308, 60); (65309, 61); (65310, 62); (65312, 64);
  (65313, 65); (65314, 66); (65315, 67); (65316, 68); (65317, 69); (65318, 70); (65319, 71); (65320, 72);
  (65321, 73); (65322, 74); (65323, 75); (65324, 76); (65325, 77); (65326, 78); (65327, 79); (65328, 80);
  (65329, 81); (65330, 82); (65331, 83); (65332, 84); (65333, 85); (65334, 86); (65335, 87); (65336, 88);
  (65337, 89); (65338, 90); (65339, 91); (65340, 92); (65341, 93); (65342, 94); (65343, 95); (65344, 96);
  (65345, 97); (65346, 98); (65347, 99); (65348, 100); (65349, 101); (65350, 102); (65351, 103); (65352, 104);
  (65353, 105); (65354, 106); (65355, 107); (65356, 108); (65357, 109); (65358, 110); (65359, 111); (65360, 112);
  (65361, 113); (65362, 114); (65363, 115); (65364, 116); (65365, 117); (65366, 118); (65367, 119); (65368, 120);
  (65369, 121); (65370, 122); (65371, 123); (65372, 124); (65373, 125); (65374, 126)].

(** src/unicode_bestfit_map.rs:13-20. *)
Definition bestfit_default : bestfit_map := {| bm_map := bestfit_1252; bm_repl := 63 |}.
