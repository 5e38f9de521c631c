(** Generated by /verif/tools/gen_netlists.py: a certificate for the netlist aes128, checked in Coq. *)
From Verif Require Import Sbox.
Open Scope N_scope.
Open Scope list_scope.

Definition aes128_K0 : list (list bitw) := [[[(128, false)]; [(129, false)]; [(130, false)]; [(131, false)]; [(132, false)]; [(133, false)]; [(134, false)]; [(135, false)]];
  [[(136, false)]; [(137, false)]; [(138, false)]; [(139, false)]; [(140, false)]; [(141, false)]; [(142, false)]; [(143, false)]];
  [[(144, false)]; [(145, false)]; [(146, false)]; [(147, false)]; [(148, false)]; [(149, false)]; [(150, false)]; [(151, false)]];
  [[(152, false)]; [(153, false)]; [(154, false)]; [(155, false)]; [(156, false)]; [(157, false)]; [(158, false)]; [(159, false)]];
  [[(160, false)]; [(161, false)]; [(162, false)]; [(163, false)]; [(164, false)]; [(165, false)]; [(166, false)]; [(167, false)]];
  [[(168, false)]; [(169, false)]; [(170, false)]; [(171, false)]; [(172, false)]; [(173, false)]; [(174, false)]; [(175, false)]];
  [[(176, false)]; [(177, false)]; [(178, false)]; [(179, false)]; [(180, false)]; [(181, false)]; [(182, false)]; [(183, false)]];
  [[(184, false)]; [(185, false)]; [(186, false)]; [(187, false)]; [(188, false)]; [(189, false)]; [(190, false)]; [(191, false)]];
  [[(192, false)]; [(193, false)]; [(194, false)]; [(195, false)]; [(196, false)]; [(197, false)]; [(198, false)]; [(199, false)]];
  [[(200, false)]; [(201, false)]; [(202, false)]; [(203, false)]; [(204, false)]; [(205, false)]; [(206, false)]; [(207, false)]];
  [[(208, false)]; [(209, false)]; [(210, false)]; [(211, false)]; [(212, false)]; [(213, false)]; [(214, false)]; [(215, false)]];
  [[(216, false)]; [(217, false)]; [(218, false)]; [(219, false)]; [(220, false)]; [(221, false)]; [(222, false)]; [(223, false)]];
  [[(224, false); (30734, true)]; [(225, false)]; [(226, false)]; [(227, false); (30918, true)]; [(228, false)]; [(229, false); (30753, true)]; [(230, false); (33654, true)]; [(231, false); (30730, true)]];
  [[(232, false)]; [(233, false)]; [(234, false)]; [(235, false)]; [(236, false)]; [(237, false)]; [(238, false); (33652, true)]; [(239, false)]];
  [[(240, false)]; [(241, false)]; [(242, false)]; [(243, false)]; [(244, false)]; [(245, false)]; [(246, false); (33655, true)]; [(247, false)]];
  [[(248, false)]; [(249, false)]; [(250, false)]; [(251, false)]; [(252, false)]; [(253, false)]; [(254, false); (33653, true)]; [(255, false)]]].
Definition aes128_K1 : list (list bitw) := [[[(28040, true)]; [(28280, true)]; [(29057, true)]; [(28549, false)]; [(28751, false)]; [(28532, false)]; [(28243, true)]; [(28035, false)]];
  [[(28095, false)]; [(28360, false)]; [(29112, true)]; [(28587, false)]; [(28785, false)]; [(28590, false)]; [(28294, true)]; [(28117, true)]];
  [[(28097, false)]; [(28316, false)]; [(29110, true)]; [(28589, false)]; [(28802, false)]; [(28554, false)]; [(28298, true)]; [(28103, true)]];
  [[(28070, false)]; [(28356, true)]; [(29182, true)]; [(28588, false)]; [(28796, false)]; [(28603, false)]; [(28282, true)]; [(28072, false)]];
  [[(27857, false)]; [(28038, true)]; [(28056, true)]; [(28036, false)]; [(28015, false)]; [(27854, false)]; [(27974, true)]; [(27840, false)]];
  [[(27911, false)]; [(28100, false)]; [(28075, true)]; [(28090, false)]; [(28083, false)]; [(27902, false)]; [(28014, true)]; [(27889, true)]];
  [[(27910, false)]; [(28077, false); (31079, true)]; [(28076, true)]; [(28078, false)]; [(28089, false)]; [(27900, false)]; [(28037, true)]; [(27907, true)]];
  [[(27888, false)]; [(28079, true)]; [(28101, true)]; [(28080, false)]; [(28073, false)]; [(27898, false)]; [(28019, true)]; [(27904, false)]];
  [[(27752, true)]; [(27844, true)]; [(27883, true)]; [(27856, true)]; [(27881, false)]; [(27725, true)]; [(27817, true)]; [(27688, true)]];
  [[(27796, false)]; [(27922, false)]; [(27897, true)]; [(27909, false)]; [(27903, false)]; [(27798, false)]; [(27843, false); (30950, true)]; [(27794, true)]];
  [[(27799, false)]; [(27913, false); (30902, true)]; [(27908, true)]; [(27894, false)]; [(27921, false)]; [(27787, false)]; [(27871, false); (31015, true)]; [(27788, false)]];
  [[(27810, false)]; [(27914, false); (31057, true)]; [(27915, false)]; [(27899, false)]; [(27912, false)]; [(27804, false)]; [(27848, true)]; [(27784, false)]];
  [[(27617, false)]; [(27702, false); (30894, true)]; [(27737, false); (30897, true)]; [(27751, false)]; [(30831, false); (27750, true)]; [(27551, false)]; [(30516, false); (27734, true)]; [(27543, false)]];
  [[(27642, false)]; [(27813, false); (30718, true)]; [(27780, true)]; [(27797, false)]; [(27802, false)]; [(27670, false); (30602, true)]; [(30489, false); (27770, true)]; [(29615, false); (27674, true)]];
  [[(27640, false)]; [(27814, false); (30725, true)]; [(27755, false); (30898, true)]; [(27815, false)]; [(27792, false)]; [(27673, false)]; [(30522, false); (27771, true)]; [(29692, false); (27641, true)]];
  [[(27643, false)]; [(27803, false); (30721, true)]; [(27805, false)]; [(27777, false)]; [(27801, false)]; [(27671, false)]; [(30499, false); (27765, true)]; [(29684, false); (27676, true)]]].
Definition aes128_K2 : list (list bitw) := [[[(24914, true)]; [(25128, false)]; [(25985, false)]; [(25355, false)]; [(25629, false)]; [(25353, false)]; [(25047, true)]; [(24916, false); (27767, true)]];
  [[(24891, false)]; [(25126, true)]; [(25987, true)]; [(25352, false)]; [(25592, false)]; [(25350, false)]; [(27882, false); (25053, true)]; [(24918, false)]];
  [[(24894, false)]; [(25124, true)]; [(25927, false)]; [(25318, false)]; [(25560, false)]; [(25349, false)]; [(27866, false); (25076, true)]; [(24975, false)]];
  [[(24723, false)]; [(24865, false)]; [(25781, false)]; [(25106, false)]; [(25320, false)]; [(25204, false)]; [(24851, false)]; [(24721, true)]];
  [[(24644, true)]; [(24860, true)]; [(24908, true)]; [(24903, false)]; [(24892, false)]; [(27756, false); (24642, true)]; [(24838, false)]; [(24637, false); (27631, true)]];
  [[(24742, false)]; [(24859, true)]; [(24907, true)]; [(24895, false)]; [(24904, false)]; [(24646, false)]; [(24839, true)]; [(24645, true)]];
  [[(24641, false)]; [(24906, true)]; [(24909, true)]; [(24902, false)]; [(24905, false)]; [(24643, false)]; [(24824, true)]; [(24628, true)]];
  [[(24509, false)]; [(24622, true)]; [(24715, true)]; [(24713, false)]; [(24714, false)]; [(24508, false)]; [(24621, true)]; [(24510, true)]];
  [[(24461, false)]; [(27759, false); (24650, true)]; [(27763, false); (24638, true)]; [(24640, true)]; [(24649, false)]; [(24455, false)]; [(24609, true)]; [(24532, true)]];
  [[(24457, false)]; [(24639, true)]; [(24652, false)]; [(24738, false)]; [(24745, false)]; [(24459, false)]; [(24608, true)]; [(24458, false)]];
  [[(24460, false)]; [(24647, true)]; [(27807, false); (24651, true)]; [(24741, false)]; [(24648, false)]; [(24456, false)]; [(24607, true)]; [(24418, true)]];
  [[(24337, false)]; [(24436, true)]; [(24441, true)]; [(24507, false)]; [(24511, false)]; [(24367, false)]; [(24435, false)]; [(24366, true)]];
  [[(24383, false)]; [(24533, true)]; [(24468, true)]; [(27180, false); (24449, true)]; [(24464, true)]; [(24384, false); (27275, true)]; [(24419, false); (27211, true)]; [(26280, false); (24335, true)]];
  [[(24339, false)]; [(24446, true)]; [(24467, true)]; [(24454, false)]; [(24463, false)]; [(24333, false); (27373, true)]; [(27256, false); (24411, true)]; [(26387, false); (24336, true)]];
  [[(24340, false)]; [(24465, true)]; [(24466, true)]; [(24453, false)]; [(24462, false)]; [(24334, false); (27372, true)]; [(27257, false); (24420, true)]; [(26400, false); (24319, true)]];
  [[(24273, false)]; [(24292, true)]; [(24369, true)]; [(24365, false)]; [(24368, false)]; [(24208, false); (27371, true)]; [(27262, false); (24316, true)]; [(26401, false); (24278, true)]]].
Definition aes128_K3 : list (list bitw) := [[[(21694, true)]; [(21911, true)]; [(22717, true)]; [(24556, false); (22152, true)]; [(22409, false)]; [(22150, true)]; [(21838, false)]; [(21692, true)]];
  [[(21638, false)]; [(21840, false)]; [(22673, false)]; [(22070, false)]; [(22345, false)]; [(22072, false)]; [(21812, false)]; [(21640, false); (24394, true)]];
  [[(21526, false)]; [(21730, false)]; [(22565, true)]; [(21955, false)]; [(22181, false)]; [(21957, false)]; [(21666, false)]; [(21528, false); (24402, true)]];
  [[(21642, false)]; [(21842, false); (24558, true)]; [(22764, true)]; [(22075, false)]; [(22347, false)]; [(22073, false)]; [(21844, true)]; [(21644, false)]];
  [[(21475, false)]; [(21688, false)]; [(21690, false)]; [(21686, false)]; [(24557, false); (21687, true)]; [(21477, false)]; [(21630, false)]; [(21476, true)]];
  [[(21414, false)]; [(21631, true)]; [(21636, true)]; [(21628, false)]; [(21632, false)]; [(21417, false)]; [(21610, true)]; [(21415, false); (24393, true)]];
  [[(21298, false)]; [(21522, true)]; [(21524, false)]; [(21521, false)]; [(21523, false)]; [(21300, false)]; [(21456, true)]; [(21299, true)]];
  [[(21416, false)]; [(21633, true)]; [(21689, false)]; [(21629, false)]; [(21635, false)]; [(21419, false)]; [(21634, false)]; [(21418, true)]];
  [[(21250, false)]; [(21478, true)]; [(21480, true)]; [(21474, true)]; [(21479, false)]; [(21251, false)]; [(21420, true)]; [(21252, false); (24312, true)]];
  [[(21188, false)]; [(21422, false)]; [(21426, true)]; [(21412, false)]; [(21421, false)]; [(21190, false)]; [(21399, false)]; [(21171, false); (24310, true)]];
  [[(21097, false)]; [(21301, false)]; [(21303, true)]; [(21297, false)]; [(21302, false)]; [(21098, false)]; [(21234, false)]; [(21099, false)]];
  [[(21189, false)]; [(21423, false)]; [(21481, true)]; [(21413, false)]; [(21425, false)]; [(21192, false)]; [(21424, false)]; [(21191, false)]];
  [[(21055, false)]; [(21255, false); (24298, true)]; [(21256, false); (24314, true)]; [(21253, false)]; [(21254, true)]; [(24221, false); (21057, true)]; [(23947, false); (21199, true)]; [(23002, false); (21056, true)]];
  [[(21011, false)]; [(21197, true)]; [(21201, false); (24297, true)]; [(21193, false)]; [(21195, false)]; [(21014, false); (24146, true)]; [(23940, false); (21172, true)]; [(23074, false); (21002, true)]];
  [[(20955, false)]; [(21102, true)]; [(21103, false); (24309, true)]; [(21100, false)]; [(21101, false)]; [(20957, false); (24184, true)]; [(23936, false); (21043, true)]; [(23051, false); (20956, true)]];
  [[(21012, false)]; [(21198, true)]; [(21257, false); (24196, true)]; [(21194, false)]; [(21196, false)]; [(21015, false); (23980, true)]; [(23804, false); (21200, true)]; [(22950, false); (21013, true)]]].
Definition aes128_K4 : list (list bitw) := [[[(18350, true)]; [(18578, false)]; [(19335, false)]; [(18848, true)]; [(19063, true)]; [(18850, true)]; [(18496, true)]; [(18348, false)]];
  [[(18300, false)]; [(18498, true)]; [(19292, true)]; [(18754, false)]; [(18999, false)]; [(18756, false)]; [(18415, true)]; [(18298, true)]];
  [[(18394, false)]; [(18642, true)]; [(19367, false)]; [(18916, false)]; [(19125, false)]; [(18918, false)]; [(18580, true)]; [(18396, true)]];
  [[(18390, false)]; [(18640, true)]; [(19447, false)]; [(18915, false)]; [(19123, false)]; [(18913, false)]; [(18638, false)]; [(18392, true)]];
  [[(18171, true)]; [(18344, false)]; [(18295, false)]; [(18342, true)]; [(18343, false)]; [(18170, true)]; [(18292, true)]; [(18172, false); (20987, true)]];
  [[(18103, false)]; [(18294, false)]; [(18296, false)]; [(18291, false)]; [(18293, false)]; [(18104, false)]; [(18219, false)]; [(18102, false); (20988, true)]];
  [[(18205, false)]; [(18387, false)]; [(18346, false)]; [(18382, false)]; [(18386, false)]; [(18204, false)]; [(18345, false)]; [(18206, false)]];
  [[(18202, false)]; [(18385, false)]; [(18388, false)]; [(18381, false)]; [(18383, false)]; [(18201, false)]; [(18384, false)]; [(18203, false)]];
  [[(17958, true)]; [(18174, true)]; [(18108, true)]; [(18169, false)]; [(18173, false)]; [(17957, true)]; [(18105, false)]; [(17956, true)]];
  [[(17885, false)]; [(18107, false)]; [(18109, true)]; [(18101, false)]; [(18106, false)]; [(17886, false)]; [(18023, false)]; [(17803, false)]];
  [[(17994, false)]; [(18211, false)]; [(18176, true)]; [(18200, false)]; [(18210, false)]; [(17993, false)]; [(18175, false)]; [(17995, false)]];
  [[(17991, false)]; [(18209, false)]; [(18212, true)]; [(18199, false)]; [(18207, false)]; [(17990, false)]; [(18208, false)]; [(17992, false)]];
  [[(20867, false); (17749, true)]; [(17961, true)]; [(17891, true)]; [(17959, false)]; [(17960, true)]; [(20869, false); (17750, true)]; [(20834, false); (17890, true)]; [(19728, false); (17748, true)]];
  [[(17686, false)]; [(17889, true)]; [(17892, true)]; [(17887, false)]; [(17888, false)]; [(17687, false); (20894, true)]; [(20710, false); (17804, true)]; [(19732, false); (17620, true)]];
  [[(17786, false)]; [(18001, true)]; [(17963, true)]; [(17997, false)]; [(17999, false)]; [(17774, false); (20821, true)]; [(20640, false); (17962, true)]; [(19652, false); (17787, true)]];
  [[(17784, false)]; [(18000, true)]; [(18003, true)]; [(17996, false)]; [(17998, false)]; [(17788, false); (20895, true)]; [(20769, false); (18002, true)]; [(19795, false); (17785, true)]]].
Definition aes128_K5 : list (list bitw) := [[[(15105, true)]; [(15363, true)]; [(16018, false); (17639, true)]; [(15614, false)]; [(15742, true)]; [(15613, true)]; [(15361, false)]; [(15107, true)]];
  [[(15261, false)]; [(15485, false)]; [(16087, false)]; [(15733, false)]; [(15837, false)]; [(15730, false)]; [(15483, false)]; [(15265, false)]];
  [[(15263, false)]; [(15481, false)]; [(16085, false); (17638, true)]; [(15731, false)]; [(15835, false)]; [(15732, false)]; [(15479, false)]; [(15259, false)]];
  [[(15101, false)]; [(15359, false)]; [(16052, false); (17637, true)]; [(15612, false)]; [(15740, false)]; [(15611, false)]; [(15357, true)]; [(15103, false)]];
  [[(14905, false)]; [(15098, true)]; [(15099, false)]; [(15092, true)]; [(15097, true)]; [(14904, false)]; [(15096, true)]; [(14906, true)]];
  [[(15012, false)]; [(15253, false)]; [(15257, false)]; [(15249, false)]; [(15254, false)]; [(15013, false)]; [(15255, false)]; [(15014, false); (17468, true)]];
  [[(15009, false)]; [(15252, false)]; [(15256, false)]; [(15248, false)]; [(15251, false)]; [(15010, false)]; [(15250, false)]; [(15011, false)]];
  [[(14902, false)]; [(15095, false)]; [(15179, false)]; [(15091, false)]; [(15094, false)]; [(14901, false)]; [(15093, true)]; [(14903, false)]];
  [[(14719, true)]; [(14912, false)]; [(14913, true)]; [(14900, true)]; [(14911, true)]; [(14718, true)]; [(14910, true)]; [(14720, false)]];
  [[(14844, false)]; [(15020, false)]; [(15022, true)]; [(15008, false)]; [(15015, false)]; [(14845, false)]; [(15019, false)]; [(14846, true)]];
  [[(14841, false)]; [(15016, false)]; [(15021, true)]; [(15007, false)]; [(15018, false)]; [(14843, false)]; [(15017, false)]; [(14842, false)]];
  [[(14716, false)]; [(14909, false)]; [(14958, true)]; [(14899, false)]; [(14908, false)]; [(14715, false)]; [(14907, true)]; [(14717, false)]];
  [[(14525, false)]; [(17685, false); (14726, true)]; [(14729, false)]; [(17425, false); (14722, true)]; [(14724, false)]; [(14528, false)]; [(14728, false); (17463, true)]; [(16429, false); (14526, true)]];
  [[(14634, false)]; [(17619, false); (14852, true)]; [(14856, false)]; [(14848, false)]; [(14850, false)]; [(14637, false); (17496, true)]; [(14854, false); (17430, true)]; [(14635, false); (17378, true)]];
  [[(14632, false)]; [(17747, false); (14851, true)]; [(14855, false)]; [(14847, false)]; [(14849, false)]; [(14636, false); (17573, true)]; [(14853, false); (17495, true)]; [(16478, false); (14633, true)]];
  [[(14523, false)]; [(17746, false); (14725, true)]; [(14782, false)]; [(14721, false)]; [(14723, false)]; [(14527, false); (17572, true)]; [(14727, false); (17494, true)]; [(16476, false); (14524, true)]]].
Definition aes128_K6 : list (list bitw) := [[[(12140, true)]; [(12332, false)]; [(12970, false)]; [(12475, false)]; [(12597, true)]; [(12473, true)]; [(12334, true)]; [(12146, false)]];
  [[(12144, false)]; [(12330, true)]; [(12968, true)]; [(12472, false)]; [(12595, false)]; [(12470, false)]; [(12328, true)]; [(12142, true)]];
  [[(12038, false)]; [(12246, true)]; [(12850, true)]; [(12406, false)]; [(12548, false)]; [(12404, false)]; [(12244, true)]; [(12040, true)]];
  [[(11972, false)]; [(12184, true)]; [(12776, true)]; [(12361, false)]; [(12502, false)]; [(12359, false)]; [(12182, false)]; [(11974, true)]];
  [[(11931, true)]; [(12136, true)]; [(12138, false)]; [(12130, true)]; [(12134, false)]; [(11932, true)]; [(12135, false)]; [(11933, true)]];
  [[(11929, false)]; [(12133, true)]; [(12137, true)]; [(12129, false)]; [(12132, false)]; [(11928, false)]; [(12131, true)]; [(11930, true)]];
  [[(11815, false)]; [(12035, true)]; [(12036, true)]; [(12032, false)]; [(12034, false)]; [(11814, false)]; [(12033, true)]; [(11816, true)]];
  [[(11717, false)]; [(11969, true)]; [(11970, true)]; [(11966, false)]; [(11968, false)]; [(11716, false)]; [(11967, true)]; [(11718, true)]];
  [[(11680, false)]; [(11939, true)]; [(11941, true)]; [(11927, false)]; [(11934, true)]; [(11681, false)]; [(11938, true)]; [(11608, true)]];
  [[(11678, false)]; [(11937, true)]; [(11940, false)]; [(11926, false)]; [(11936, false)]; [(11677, false)]; [(11935, true)]; [(11679, false); (14052, true)]];
  [[(11555, false)]; [(11819, true)]; [(11820, false)]; [(11813, false)]; [(11818, false)]; [(11554, false)]; [(11817, true)]; [(11556, true)]];
  [[(11499, false)]; [(11721, true)]; [(11722, false)]; [(11715, false)]; [(11720, false)]; [(11498, false)]; [(11719, false)]; [(11500, true)]];
  [[(11472, false)]; [(11687, false)]; [(14506, false); (11691, true)]; [(14140, false); (11685, true)]; [(11683, true)]; [(11474, false); (14306, true)]; [(14138, false); (11689, true)]; [(11438, false); (14071, true)]];
  [[(11471, false)]; [(11686, false)]; [(11690, false)]; [(11684, false)]; [(11682, false)]; [(11473, false)]; [(11688, false); (14326, true)]; [(11437, false); (14070, true)]];
  [[(11403, false)]; [(11559, false)]; [(11561, false)]; [(11558, false)]; [(11557, false)]; [(11405, false)]; [(11560, false); (14327, true)]; [(11404, false)]];
  [[(11362, false)]; [(11503, false)]; [(11505, false)]; [(11502, false)]; [(11501, false)]; [(11364, false)]; [(11504, false); (14208, true)]; [(11363, false)]]].
Definition aes128_K7 : list (list bitw) := [[[(8885, true)]; [(9024, false)]; [(9636, true)]; [(9159, false)]; [(9354, true)]; [(9161, true)]; [(9026, false)]; [(8887, true)]];
  [[(8808, false)]; [(8949, false)]; [(9586, false)]; [(9101, false)]; [(9242, false)]; [(9099, false)]; [(8947, false)]; [(8806, false)]];
  [[(8752, false)]; [(8902, false)]; [(9539, false)]; [(9046, false)]; [(9182, false)]; [(9044, false)]; [(8900, false)]; [(8750, false)]];
  [[(8802, false)]; [(8945, false)]; [(9612, false)]; [(9098, false)]; [(9245, false)]; [(9096, false)]; [(8943, true)]; [(8804, false)]];
  [[(8701, false)]; [(8880, true)]; [(8883, true)]; [(8879, true)]; [(8882, true)]; [(8699, false)]; [(8881, false)]; [(8700, false); (10662, true)]];
  [[(8617, false)]; [(8799, true)]; [(8800, true)]; [(8792, false)]; [(8797, false)]; [(8615, false)]; [(8798, true)]; [(8616, true)]];
  [[(8556, false)]; [(8747, true)]; [(8748, true)]; [(8744, false)]; [(8745, false)]; [(8554, false)]; [(8746, true)]; [(8555, true)]];
  [[(8613, false)]; [(8795, true)]; [(8849, true)]; [(8793, false)]; [(8794, false)]; [(8618, false)]; [(8796, false)]; [(8614, true)]];
  [[(8512, false)]; [(8703, false)]; [(8705, false)]; [(8698, true)]; [(8704, false)]; [(8510, false)]; [(8702, true)]; [(8511, false); (10621, true)]];
  [[(8387, false)]; [(8624, false)]; [(8625, true)]; [(8612, false)]; [(8622, false)]; [(8385, false)]; [(8623, false)]; [(8386, false); (10620, true)]];
  [[(8310, false)]; [(8559, false)]; [(8560, true)]; [(8553, false)]; [(8557, false)]; [(8308, false)]; [(8558, false)]; [(8309, false)]];
  [[(8383, false)]; [(8621, false)]; [(8663, true)]; [(8611, false)]; [(8620, false)]; [(8382, false)]; [(8619, false)]; [(8384, false)]];
  [[(8273, false)]; [(8515, false); (10691, true)]; [(8517, true)]; [(8514, false)]; [(8513, true)]; [(10583, false); (8274, true)]; [(8516, false); (11172, true)]; [(8272, false); (10584, true)]];
  [[(8143, false)]; [(8393, false)]; [(11436, false); (8396, true)]; [(8391, false)]; [(8389, false)]; [(8145, false); (11246, true)]; [(8395, false); (11173, true)]; [(8142, false); (10585, true)]];
  [[(8071, false)]; [(8313, false); (10692, true)]; [(8315, true)]; [(8312, false)]; [(8311, false)]; [(8072, false); (11174, true)]; [(8314, false); (11045, true)]; [(8070, false)]];
  [[(8140, false)]; [(8392, false)]; [(11297, false); (8460, true)]; [(8390, false)]; [(8388, false)]; [(8144, false); (11114, true)]; [(8394, false); (10990, true)]; [(8141, false)]]].
Definition aes128_K8 : list (list bitw) := [[[(5535, false)]; [(5657, true)]; [(6225, false)]; [(5837, false)]; [(6043, true)]; [(5835, true)]; [(5651, true)]; [(5529, false)]];
  [[(5489, false)]; [(5622, true)]; [(6206, true)]; [(5798, false)]; [(5998, false)]; [(5796, false)]; [(5620, true)]; [(5491, true)]];
  [[(5531, false)]; [(5655, true)]; [(6227, true)]; [(5840, false)]; [(6045, false)]; [(5838, false)]; [(5653, true)]; [(5533, true)]];
  [[(5592, false)]; [(5747, true)]; [(6253, true)]; [(5929, false)]; [(6097, false)]; [(5927, false)]; [(5698, false)]; [(5594, true)]];
  [[(5399, false)]; [(5524, false)]; [(5527, true)]; [(5518, true)]; [(5525, false)]; [(5397, true)]; [(5523, true)]; [(5398, false)]];
  [[(5357, false)]; [(5486, false)]; [(5487, false)]; [(5483, false)]; [(5485, false)]; [(5356, false)]; [(5484, false)]; [(5358, false)]];
  [[(5395, false)]; [(5521, false)]; [(5526, false)]; [(5517, false)]; [(5520, false)]; [(5394, false)]; [(5519, false)]; [(5396, false)]];
  [[(5454, false)]; [(5589, false)]; [(5590, false)]; [(5587, false)]; [(5588, false)]; [(5453, false)]; [(5522, false)]; [(5455, false)]];
  [[(5229, false)]; [(5406, false)]; [(5408, true)]; [(5393, false)]; [(5405, false)]; [(5228, true)]; [(5404, false)]; [(5230, false); (7157, true)]];
  [[(5193, false)]; [(5361, false)]; [(5362, true)]; [(5355, false)]; [(5360, false)]; [(5192, false)]; [(5359, false)]; [(5194, false); (7158, true)]];
  [[(5226, false)]; [(5402, false)]; [(5407, true)]; [(5392, false)]; [(5401, false)]; [(5225, false)]; [(5400, false)]; [(5227, false)]];
  [[(5323, false)]; [(5456, false)]; [(5458, true)]; [(5452, false)]; [(5457, false)]; [(5322, false)]; [(5403, false)]; [(5324, false)]];
  [[(5050, false)]; [(5236, false)]; [(5241, false)]; [(5234, false)]; [(5232, true)]; [(5053, false)]; [(5239, false); (7986, true)]; [(5051, false); (7116, true)]];
  [[(5002, false)]; [(5197, false)]; [(5199, false)]; [(5196, false)]; [(5195, false)]; [(5004, false)]; [(5198, false); (7912, true)]; [(5003, false); (7115, true)]];
  [[(5048, false)]; [(5235, false)]; [(5240, false)]; [(5233, false)]; [(5231, false)]; [(5052, false)]; [(5237, false); (7837, true)]; [(5049, false)]];
  [[(5165, false)]; [(5327, false)]; [(5328, false)]; [(5326, false)]; [(5325, false)]; [(5167, false)]; [(5238, false); (7911, true)]; [(5166, false)]]].
Definition aes128_K9 : list (list bitw) := [[[(2135, false)]; [(2281, false)]; [(2761, true)]; [(2490, true)]; [(2595, false)]; [(2492, true)]; [(2223, true)]; [(2133, false)]];
  [[(2165, false)]; [(2333, false)]; [(2790, false)]; [(2536, false)]; [(2639, false)]; [(2538, false)]; [(2283, false)]; [(2167, false)]];
  [[(2251, false)]; [(2436, false)]; [(2854, false)]; [(2610, false)]; [(2690, false)]; [(2612, false)]; [(2391, false)]; [(2253, false)]];
  [[(2169, false)]; [(2335, false)]; [(2792, false)]; [(2539, false)]; [(2641, false)]; [(2541, false)]; [(2285, false); (3606, true)]; [(2171, false)]];
  [[(2030, false)]; [(2127, false)]; [(2131, false)]; [(2126, false)]; [(2128, false)]; [(2031, false)]; [(2091, false)]; [(2032, false); (3688, true)]];
  [[(2057, false)]; [(2158, false)]; [(2162, false)]; [(2156, false)]; [(2159, false)]; [(2058, false)]; [(2129, false)]; [(2059, false); (3687, true)]];
  [[(2110, false)]; [(2247, false)]; [(2249, false)]; [(2246, false)]; [(2248, false)]; [(2111, false)]; [(2198, false)]; [(2112, false)]];
  [[(2060, false)]; [(2160, false)]; [(2163, false)]; [(2157, false)]; [(2161, false)]; [(2061, false)]; [(2130, false); (3552, true)]; [(2062, false)]];
  [[(1930, false)]; [(2033, false)]; [(2037, true)]; [(2029, false)]; [(2034, false)]; [(1931, true)]; [(2004, false)]; [(1932, false); (3625, true)]];
  [[(1964, false)]; [(2063, false)]; [(2067, true)]; [(2055, false)]; [(2064, false)]; [(1965, false)]; [(2035, false)]; [(1966, false); (3624, true)]];
  [[(2016, false)]; [(2113, false)]; [(2115, true)]; [(2109, false)]; [(2114, false)]; [(2017, false)]; [(2081, false)]; [(2018, false)]];
  [[(1967, false)]; [(2065, false)]; [(2068, true)]; [(2056, false)]; [(2066, false)]; [(1968, false)]; [(2036, false); (3447, true)]; [(1969, false)]];
  [[(1778, false)]; [(1933, false); (5000, true)]; [(1234, true)]; [(1929, false)]; [(1394, true)]; [(3686, false); (1146, true)]; [(1895, false); (4660, true)]; [(1779, false); (3690, true)]];
  [[(1821, false)]; [(1970, false); (4941, true)]; [(1411, true)]; [(1962, false)]; [(1635, false)]; [(1335, false); (4713, true)]; [(1935, false); (3753, true)]; [(1822, false); (3689, true)]];
  [[(1899, false)]; [(2019, false); (4999, true)]; [(1349, true)]; [(2015, false)]; [(1579, false)]; [(1258, false); (4768, true)]; [(1993, false); (3754, true)]; [(1900, false)]];
  [[(1823, false)]; [(1971, false); (3806, true)]; [(1350, true)]; [(1963, false)]; [(1577, false)]; [(1286, false); (4897, true)]; [(1934, false); (3553, true)]; [(1824, false)]]].
Definition aes128_K10 : list (list bitw) := [[[(259, false)]; [(287, true)]; [(1184, true)]; [(692, false)]; [(1324, false)]; [(334, false)]; [(289, true)]; [(261, true)]];
  [[(340, false)]; [(521, true)]; [(1351, true)]; [(980, false)]; [(1581, false)]; [(1259, false)]; [(529, true)]; [(344, true)]];
  [[(297, false)]; [(415, true)]; [(1268, true)]; [(895, false)]; [(1440, false)]; [(1219, false)]; [(423, true)]; [(301, true)]];
  [[(425, false)]; [(647, true)]; [(1473, true)]; [(1090, false)]; [(1703, false)]; [(1336, false)]; [(655, true)]; [(437, true)]];
  [[(321, false)]; [(429, true)]; [(1185, true)]; [(898, false)]; [(1396, false)]; [(1178, false)]; [(394, true)]; [(303, true)]];
  [[(305, false)]; [(439, true)]; [(1299, true)]; [(900, false)]; [(1508, false)]; [(1220, false)]; [(447, true)]; [(309, true)]];
  [[(346, false)]; [(531, true)]; [(1352, true)]; [(983, false)]; [(1583, false)]; [(1260, false)]; [(539, true)]; [(350, true)]];
  [[(263, false)]; [(313, true)]; [(1186, true)]; [(709, false)]; [(1326, false)]; [(1081, false)]; [(323, true)]; [(267, true)]];
  [[(352, false)]; [(541, true)]; [(786, false); (1269, true)]; [(986, false)]; [(1442, false); (568, true)]; [(392, true)]; [(449, true)]; [(354, true)]];
  [[(271, false)]; [(358, true)]; [(1093, false); (1235, true)]; [(777, false)]; [(903, false)]; [(714, false)]; [(366, true)]; [(275, true)]];
  [[(396, false)]; [(599, true)]; [(988, false); (1412, true)]; [(1020, false)]; [(779, false)]; [(519, false)]; [(607, true)]; [(400, true)]];
  [[(325, false)]; [(451, true)]; [(1023, false); (1300, true)]; [(906, false)]; [(828, false)]; [(625, false)]; [(459, true)]; [(329, true)]];
  [[(277, false)]; [(368, true)]; []; [(372, false)]; []; []; [(376, true)]; [(281, true)]];
  [[(461, false)]; [(657, true)]; []; [(661, false)]; []; []; [(665, true)]; [(465, true)]];
  [[(378, false)]; [(549, true)]; []; [(553, false)]; []; []; [(557, true)]; [(382, true)]];
  [[(402, false)]; [(611, true)]; []; [(613, false)]; []; []; [(619, true)]; [(406, true)]]].
Definition aes128_B1 : list (list bitw) := [[[(31083, false)]; [(31115, true)]; [(31139, true)]; [(30628, false)]; [(30989, false)]; [(30859, false)]; [(30998, true)]; [(31098, true)]];
  [[(31106, false)]; [(31125, true)]; [(31184, true)]; [(31164, false)]; [(31145, false)]; [(31126, false)]; [(31246, true)]; [(30749, true)]];
  [[(30641, false); (31072, true)]; [(31163, true)]; [(31212, true)]; [(31172, false)]; [(30958, false)]; [(31012, false)]; [(31021, true)]; [(31135, true)]];
  [[(30901, false); (30922, true)]; [(30935, true)]; [(31114, true)]; [(31113, false)]; [(31130, false)]; [(31003, false)]; [(31033, true)]; [(31040, false); (30951, true)]];
  [[(31091, false)]; [(30921, true)]; [(31122, true)]; [(30626, false)]; [(31008, false)]; [(30865, false)]; [(31024, true)]; [(30622, true)]];
  [[(31111, false); (31082, true)]; [(31195, true)]; [(31215, true)]; [(31265, false)]; [(31144, false)]; [(31116, false)]; [(31188, true)]; [(31099, true)]];
  [[(30923, false)]; [(31123, true)]; [(31185, true)]; [(31191, false)]; [(30976, false)]; [(31050, false)]; [(30987, true)]; [(31134, true)]];
  [[(30477, false); (30754, true)]; [(30827, true)]; [(31002, true)]; [(31056, false); (30917, true)]; [(31032, false)]; [(30844, false); (30755, true)]; [(30821, true)]; [(30735, true)]];
  [[(30586, false)]; [(30906, true)]; [(31150, true)]; [(30669, false)]; [(30984, false)]; [(30846, false)]; [(31006, true)]; [(30716, true)]];
  [[(31096, false)]; [(31258, true)]; [(31209, true)]; [(31201, false)]; [(31120, false)]; [(31095, false)]; [(31183, true)]; [(30765, true)]];
  [[(31112, false); (31087, true)]; [(30968, true)]; [(31226, true)]; [(31204, false)]; [(30954, false)]; [(30981, false)]; [(31068, true)]; [(31129, true)]];
  [[(30593, false); (31089, true)]; [(30684, true)]; [(30722, true)]; [(30733, false); (30756, true)]; [(30767, false)]; [(30616, false)]; [(30697, true)]; [(30605, false)]];
  [[(31100, false)]; [(31036, true)]; [(31137, true)]; [(30632, false)]; [(30969, false)]; [(30856, false)]; [(31071, true)]; [(30607, true)]];
  [[(31104, false)]; [(31162, true)]; [(31205, true)]; [(31173, false)]; [(31147, false)]; [(31103, false)]; [(31280, true)]; [(30785, true)]];
  [[(30941, false)]; [(31238, true)]; [(31251, true)]; [(31206, false)]; [(31054, false)]; [(31063, false)]; [(30938, true)]; [(31138, true)]];
  [[(31109, false); (31081, true)]; [(31151, false); (31143, true)]; [(31194, true)]; [(31198, false)]; [(31110, false)]; [(31097, false); (31086, true)]; [(31149, true)]; [(31080, false); (31094, true)]]].
Definition aes128_B2 : list (list bitw) := [[[(27826, false); (27782, true)]; [(27834, true)]; [(27901, false); (27766, true)]; [(27293, false)]; [(27711, false)]; [(27382, false)]; [(27664, true)]; [(27781, true)]];
  [[(27800, false)]; [(27916, true)]; [(27919, true)]; [(27920, false)]; [(27841, false)]; [(27786, false)]; [(27925, true)]; [(27562, true)]];
  [[(27577, false)]; [(27885, true)]; [(27878, true)]; [(27874, false)]; [(27669, false)]; [(27620, false)]; [(27668, true)]; [(27762, true)]];
  [[(27812, false); (27772, true)]; [(27774, true)]; [(27863, true)]; [(27855, false)]; [(27824, false)]; [(27694, false)]; [(27789, true)]; [(27632, true)]];
  [[(27704, false)]; [(27516, true)]; [(27745, true)]; [(27235, false)]; [(27518, false)]; [(27366, false)]; [(27517, true)]; [(27347, true)]];
  [[(27783, false); (27806, true)]; [(27940, true)]; [(27935, true)]; [(27949, false)]; [(27842, false)]; [(27822, false)]; [(27979, true)]; [(27776, false)]];
  [[(27264, false)]; [(27939, true)]; [(27941, true)]; [(27944, false)]; [(27716, false)]; [(27708, false)]; [(27728, true)]; [(27835, true)]];
  [[(27575, false)]; [(27658, true)]; [(27764, true)]; [(27793, false); (27757, true)]; [(27760, false)]; [(27544, false)]; [(27746, false); (27677, true)]; [(27654, false); (27561, true)]];
  [[(27739, false)]; [(27604, true)]; [(27808, false); (27869, true)]; [(27268, false)]; [(27600, false)]; [(27380, false)]; [(27602, true)]; [(27322, true)]];
  [[(27696, false)]; [(27818, true)]; [(27827, true)]; [(27820, false)]; [(27735, false); (27816, true)]; [(27695, false)]; [(27823, true)]; [(27499, true)]];
  [[(27773, false)]; [(27719, true)]; [(27864, true)]; [(27853, false)]; [(27733, false)]; [(27594, false)]; [(27701, true)]; [(27775, true)]];
  [[(27087, false)]; [(27458, true)]; [(27548, true)]; [(27545, false)]; [(27657, false); (27596, true)]; [(27332, false)]; [(27444, true)]; [(27333, true)]];
  [[(27183, false)]; [(27710, true)]; [(27819, true)]; [(27304, false)]; [(27665, false)]; [(27560, false)]; [(27663, true)]; [(27358, true)]];
  [[(27743, false)]; [(27884, true)]; [(27868, true)]; [(27875, false)]; [(27769, false)]; [(27741, false)]; [(27870, true)]; [(27495, true)]];
  [[(27703, false)]; [(27761, true)]; [(27830, true)]; [(27821, false)]; [(27609, false)]; [(27491, false)]; [(27608, true)]; [(27717, true)]];
  [[(27753, false); (27726, true)]; [(27825, false); (27860, true)]; [(27833, false); (27865, true)]; [(27845, false)]; [(27758, false)]; [(27744, false)]; [(27867, true)]; [(27754, true)]]].
Definition aes128_B3 : list (list bitw) := [[[(24302, false)]; [(24294, true)]; [(24329, false); (24416, true)]; [(23850, false)]; [(24168, false)]; [(23953, false)]; [(24167, true)]; [(24306, true)]];
  [[(24338, false)]; [(24348, true)]; [(24496, true)]; [(24444, false)]; [(24347, false)]; [(24325, false)]; [(24409, true)]; [(24133, true)]];
  [[(24209, false); (24186, true)]; [(24274, true)]; [(24389, true)]; [(24352, false)]; [(24126, false)]; [(24054, false)]; [(24125, true)]; [(24252, true)]];
  [[(24342, false)]; [(24473, false); (24372, true)]; [(24423, true)]; [(24469, false)]; [(24396, false)]; [(24291, false)]; [(24421, false); (24371, true)]; [(24392, true)]];
  [[(24223, false)]; [(24190, true)]; [(24327, true)]; [(23951, false)]; [(24078, false)]; [(23926, false)]; [(24061, true)]; [(23932, true)]];
  [[(24303, false)]; [(24408, true)]; [(24415, true)]; [(24413, false)]; [(24304, false)]; [(24299, false)]; [(24414, true)]; [(24296, true)]];
  [[(24287, false)]; [(24324, true)]; [(24492, true)]; [(24450, false)]; [(24218, false)]; [(24150, false)]; [(24251, true)]; [(24349, true)]];
  [[(24343, false); (24207, true)]; [(24474, false); (24205, true)]; [(24317, false); (24401, true)]; [(24370, false); (24470, true)]; [(24395, false)]; [(24280, false)]; [(24206, true)]; [(24311, true)]];
  [[(24231, false)]; [(24080, true)]; [(24290, true)]; [(23771, false)]; [(24001, false)]; [(23854, false)]; [(24122, true)]; [(23789, true)]];
  [[(24222, false)]; [(24246, true)]; [(24326, true)]; [(24350, false)]; [(24313, false)]; [(24227, false)]; [(24357, true)]; [(24141, true)]];
  [[(24305, false)]; [(24152, true)]; [(24417, true)]; [(24412, false)]; [(24253, false)]; [(24201, false)]; [(24279, true)]; [(24295, true)]];
  [[(24114, false)]; [(24124, true)]; [(24199, true)]; [(24204, false)]; [(24346, false); (24345, true)]; [(24232, false)]; [(24121, true)]; [(24235, true)]];
  [[(24328, false)]; [(24248, true)]; [(24331, false); (24475, true)]; [(23852, false)]; [(24220, false)]; [(23969, false)]; [(24210, true)]; [(23934, true)]];
  [[(24224, false)]; [(24276, true)]; [(24390, true)]; [(24351, false)]; [(24282, false)]; [(24226, false)]; [(24356, true)]; [(23975, true)]];
  [[(24286, false)]; [(24410, true)]; [(24405, true)]; [(24424, false)]; [(24318, false)]; [(24138, false)]; [(24323, true)]; [(24321, true)]];
  [[(24385, false); (24341, true)]; [(24445, false); (24472, true)]; [(24491, true)]; [(24476, false)]; [(24388, false)]; [(24322, false); (24344, true)]; [(24471, false); (24422, true)]; [(24391, true)]]].
Definition aes128_B4 : list (list bitw) := [[[(20841, false)]; [(20873, true)]; [(20994, false); (20875, true)]; [(20353, false)]; [(20784, false)]; [(20438, false)]; [(20781, true)]; [(20897, true)]];
  [[(20896, false)]; [(20935, true)]; [(21052, true)]; [(21003, false)]; [(20924, false)]; [(20898, false)]; [(21004, true)]; [(20498, true)]];
  [[(20982, false); (20655, true)]; [(20933, true)]; [(20948, true)]; [(20936, false)]; [(20888, false)]; [(20672, false)]; [(20886, true)]; [(20992, true)]];
  [[(20983, false); (20927, true)]; [(21063, false); (21127, true)]; [(21064, false); (21151, true)]; [(21126, false); (21058, true)]; [(20990, false); (21062, true)]; [(20804, false); (20931, true)]; [(21128, true)]; [(20985, true)]];
  [[(20800, false)]; [(20627, true)]; [(20913, false); (20910, true)]; [(20455, false)]; [(20625, false)]; [(20408, false)]; [(20617, true)]; [(20547, true)]];
  [[(20863, false)]; [(20965, true)]; [(20979, true)]; [(20963, false)]; [(20908, false)]; [(20866, false)]; [(20922, true)]; [(20872, true)]];
  [[(20713, false)]; [(20907, true)]; [(20974, true)]; [(20962, false)]; [(20812, false); (20986, true)]; [(20670, false)]; [(20811, true)]; [(20899, true)]];
  [[(20837, false); (20802, true)]; [(20906, false); (20934, true)]; [(20912, false); (20938, true)]; [(20928, false)]; [(20842, false); (20905, true)]; [(20836, false); (20805, true)]; [(20903, true)]; [(20806, false); (20838, true)]];
  [[(20877, false)]; [(20690, true)]; [(20848, true)]; [(20449, false)]; [(20755, false)]; [(20453, false)]; [(20747, true)]; [(20327, true)]];
  [[(20801, false)]; [(20810, true)]; [(20949, true)]; [(20911, false)]; [(20844, false); (20902, true)]; [(20803, false)]; [(20914, true)]; [(20746, true)]];
  [[(20862, false)]; [(20726, true)]; [(20975, true)]; [(20960, false)]; [(20727, false)]; [(20644, false)]; [(20724, true)]; [(20871, true)]];
  [[(20865, false)]; [(20909, true)]; [(20964, true)]; [(20958, false)]; [(20870, false)]; [(20839, false)]; [(20904, true)]; [(20868, true)]];
  [[(20923, false)]; [(20688, true)]; [(20874, true)]; [(20406, false)]; [(20832, false)]; [(20451, false)]; [(20831, true)]; [(20359, true)]];
  [[(20876, false)]; [(20885, true)]; [(20999, true)]; [(20993, false)]; [(20989, false)]; [(20880, false)]; [(20939, true)]; [(20473, true)]];
  [[(20835, false); (20879, true)]; [(20932, true)]; [(20952, true)]; [(20937, false)]; [(20889, false)]; [(20615, false)]; [(20887, true)]; [(20846, true)]];
  [[(20864, false); (20926, true)]; [(21061, false); (20959, true)]; [(20976, true)]; [(20961, false); (21059, true)]; [(20991, false)]; [(20822, false); (20929, true)]; [(21060, false); (20921, true)]; [(20930, false); (20984, true)]]].
Definition aes128_B5 : list (list bitw) := [[[(17356, false)]; [(17382, true)]; [(17383, false); (17530, true)]; [(16801, false)]; [(17279, false)]; [(16923, false)]; [(17278, true)]; [(17397, true)]];
  [[(17390, false)]; [(17512, true)]; [(17526, true)]; [(17507, false)]; [(17427, false)]; [(17399, false)]; [(17484, true)]; [(16976, true)]];
  [[(17426, false); (17225, true)]; [(17428, true)]; [(17528, true)]; [(17508, false)]; [(17330, false)]; [(17196, false)]; [(17329, true)]; [(17405, true)]];
  [[(17466, false); (17434, true)]; [(17553, false); (17551, true)]; [(17557, false); (17566, true)]; [(17556, false); (17550, true)]; [(17469, false); (17554, true)]; [(17436, false); (17437, true)]; [(17504, false); (17552, true)]; [(17467, true)]];
  [[(17392, false)]; [(17282, true)]; [(17441, false); (17505, true)]; [(16925, false)]; [(17280, false)]; [(17118, false)]; [(17257, true)]; [(16963, true)]];
  [[(17351, false)]; [(17455, true)]; [(17491, true)]; [(17454, false)]; [(17402, false)]; [(17353, false)]; [(17456, true)]; [(17361, true)]];
  [[(17186, false)]; [(17483, true)]; [(17529, true)]; [(17478, false)]; [(17440, false)]; [(17198, false)]; [(17439, true)]; [(17429, true)]];
  [[(17395, false); (17373, true)]; [(17476, false); (17502, true)]; [(17479, false); (17510, true)]; [(17499, false); (17472, true)]; [(17401, false)]; [(17375, false); (17376, true)]; [(17449, false); (17475, true)]; [(17377, false); (17400, true)]];
  [[(17433, false); (17394, true)]; [(17206, true)]; [(17408, true)]; [(16885, false)]; [(17344, false)]; [(16965, false)]; [(17343, true)]; [(16877, true)]];
  [[(17391, false)]; [(17403, true)]; [(17525, true)]; [(17506, false)]; [(17501, false)]; [(17398, false)]; [(17482, true)]; [(17183, true)]];
  [[(17350, false)]; [(17210, true)]; [(17489, true)]; [(17452, false)]; [(17178, false)]; [(17157, false)]; [(17167, true)]; [(17360, true)]];
  [[(17372, false)]; [(17477, true)]; [(17480, false); (17511, true)]; [(17473, false); (17446, true)]; [(17379, false)]; [(17371, false)]; [(17474, true)]; [(17374, true)]];
  [[(17393, false)]; [(17208, true)]; [(17409, false); (17527, true)]; [(16969, false)]; [(17328, false)]; [(16967, false)]; [(17327, true)]; [(16821, true)]];
  [[(17435, false); (17370, true)]; [(17438, true)]; [(17533, true)]; [(17509, false)]; [(17498, false)]; [(17396, false)]; [(17481, true)]; [(17070, true)]];
  [[(17445, false); (17365, true)]; [(17450, true)]; [(17567, true)]; [(17555, false)]; [(17362, false)]; [(17342, false)]; [(17358, true)]; [(17451, true)]];
  [[(17352, false); (17465, true)]; [(17598, false); (17448, true)]; [(17599, false); (17490, true)]; [(17453, false)]; [(17503, false)]; [(17354, false); (17471, true)]; [(17597, false); (17447, true)]; [(17470, false); (17500, true)]]].
Definition aes128_B6 : list (list bitw) := [[[(14036, false)]; [(14053, true)]; [(14060, true)]; [(13515, false)]; [(13950, false)]; [(13700, false)]; [(13941, true)]; [(14042, true)]];
  [[(13987, false)]; [(14094, true)]; [(14119, true)]; [(14084, false)]; [(14001, false)]; [(13995, false)]; [(14093, true)]; [(13765, true)]];
  [[(13780, false)]; [(14095, true)]; [(14122, true)]; [(14089, false)]; [(13864, false)]; [(13817, false)]; [(13862, true)]; [(14003, true)]];
  [[(14067, false); (14041, true)]; [(14080, true)]; [(14174, false); (14125, true)]; [(14088, false); (14162, true)]; [(14074, false); (14167, true)]; [(13970, false); (14051, true)]; [(14063, true)]; [(14069, true)]];
  [[(13989, false)]; [(13850, true)]; [(14011, true)]; [(13464, false)]; [(13847, false)]; [(13527, false)]; [(13820, true)]; [(13545, true)]];
  [[(14035, false)]; [(14176, true)]; [(14193, true)]; [(14172, false)]; [(14082, false)]; [(14044, false)]; [(14147, true)]; [(14043, true)]];
  [[(13992, false); (13746, true)]; [(14118, true)]; [(14137, true)]; [(14091, false)]; [(13985, false)]; [(13819, false)]; [(13984, true)]; [(14007, true)]];
  [[(14039, false)]; [(14096, true)]; [(14146, false); (14123, true)]; [(14090, false); (14142, true)]; [(14054, false); (14145, true)]; [(13996, false)]; [(14144, false); (14081, true)]; [(14046, true)]];
  [[(13991, false)]; [(13846, true)]; [(14008, false); (14083, true)]; [(13462, false)]; [(13852, false)]; [(13559, false)]; [(13821, true)]; [(13523, true)]];
  [[(13988, false)]; [(13999, true)]; [(14121, true)]; [(14085, false)]; [(14055, false)]; [(13993, false)]; [(14064, true)]; [(13767, true)]];
  [[(14037, false)]; [(13961, true)]; [(14194, true)]; [(14170, false)]; [(13962, false)]; [(13936, false)]; [(13951, true)]; [(14057, true)]];
  [[(14065, false); (14045, true)]; [(14169, false); (14211, true)]; [(14175, false); (14212, true)]; [(14209, false); (14163, true)]; [(14072, false); (14168, true)]; [(13997, false)]; [(14210, true)]; [(14068, true)]];
  [[(13972, false)]; [(13750, true)]; [(14075, false); (14120, true)]; [(13539, false)]; [(13851, false)]; [(13561, false)]; [(13848, true)]; [(13543, true)]];
  [[(13990, false)]; [(14097, true)]; [(14136, true)]; [(14086, false)]; [(14034, false)]; [(13994, false)]; [(14092, true)]; [(13721, true)]];
  [[(13978, false)]; [(14000, true)]; [(14124, true)]; [(14087, false)]; [(13865, false)]; [(13748, false)]; [(13863, true)]; [(14002, true)]];
  [[(14038, false); (14040, true)]; [(14166, false); (14165, true)]; [(14173, false); (14195, true)]; [(14171, false)]; [(14073, false)]; [(14047, false); (14049, true)]; [(14143, false); (14164, true)]; [(14048, false); (14066, true)]]].
Definition aes128_B7 : list (list bitw) := [[[(10580, false)]; [(10596, true)]; [(10597, false); (10771, true)]; [(10041, false)]; [(10490, false)]; [(10140, false)]; [(10491, true)]; [(10617, true)]];
  [[(10577, false); (10542, true)]; [(10588, true)]; [(10729, true)]; [(10695, false)]; [(10664, false)]; [(10576, false)]; [(10705, true)]; [(10209, true)]];
  [[(10565, false); (10349, true)]; [(10726, true)]; [(10743, true)]; [(10699, false)]; [(10540, false)]; [(10353, false)]; [(10539, true)]; [(10592, true)]];
  [[(10660, false)]; [(10802, true)]; [(10803, true)]; [(10801, false); (10745, true)]; [(10663, false); (10748, true)]; [(10516, false)]; [(10689, false); (10746, true)]; [(10661, true)]];
  [[(10514, false)]; [(10359, true)]; [(10665, true)]; [(10072, false)]; [(10315, false)]; [(10093, false)]; [(10314, true)]; [(10134, true)]];
  [[(10567, false)]; [(10703, true)]; [(10736, true)]; [(10698, false)]; [(10624, false)]; [(10573, false)]; [(10676, true)]; [(10591, true)]];
  [[(10618, false); (10374, true)]; [(10625, true)]; [(10728, true)]; [(10694, false)]; [(10493, false)]; [(10406, false)]; [(10492, true)]; [(10626, true)]];
  [[(10615, false); (10575, true)]; [(10690, false); (10749, true)]; [(10701, false); (10750, true)]; [(10744, false); (10684, true)]; [(10622, false)]; [(10545, false)]; [(10747, true)]; [(10619, true)]];
  [[(10547, false)]; [(10361, true)]; [(10627, true)]; [(10128, false)]; [(10436, false)]; [(10142, false)]; [(10435, true)]; [(10082, true)]];
  [[(10513, false)]; [(10649, true)]; [(10678, true)]; [(10646, false)]; [(10518, false)]; [(10515, false)]; [(10648, true)]; [(10339, true)]];
  [[(10566, false)]; [(10455, true)]; [(10730, true)]; [(10696, false)]; [(10453, false)]; [(10351, false)]; [(10439, true)]; [(10590, true)]];
  [[(10571, false); (10543, true)]; [(10686, true)]; [(10675, false); (10702, true)]; [(10685, false)]; [(10586, false); (10674, true)]; [(10570, false)]; [(10671, true)]; [(10578, true)]];
  [[(10569, false); (10541, true)]; [(10438, true)]; [(10600, true)]; [(10074, false)]; [(10434, false)]; [(10167, false)]; [(10411, true)]; [(10055, true)]];
  [[(10564, false)]; [(10704, true)]; [(10727, true)]; [(10693, false)]; [(10587, false)]; [(10574, false)]; [(10677, true)]; [(10274, true)]];
  [[(10299, false)]; [(10654, true)]; [(10679, true)]; [(10647, false)]; [(10563, false)]; [(10310, false)]; [(10562, true)]; [(10519, true)]];
  [[(10568, false); (10572, true)]; [(10688, false); (10687, true)]; [(10700, false); (10731, true)]; [(10697, false); (10683, true)]; [(10623, false)]; [(10544, false); (10582, true)]; [(10673, false); (10672, true)]; [(10581, false); (10616, true)]]].
Definition aes128_B8 : list (list bitw) := [[[(6998, false)]; [(7077, true)]; [(7170, true)]; [(6565, false)]; [(6787, false)]; [(6587, false)]; [(6788, true)]; [(7001, true)]];
  [[(7154, false); (7102, true)]; [(7161, true)]; [(7311, true)]; [(7280, false)]; [(7201, false)]; [(7153, false)]; [(7286, true)]; [(6746, true)]];
  [[(7198, false); (7015, true)]; [(7199, true)]; [(7316, true)]; [(7283, false)]; [(7089, false)]; [(7036, false)]; [(7088, true)]; [(7202, true)]];
  [[(7271, false); (7211, true)]; [(7395, false); (7276, true)]; [(7397, false); (7315, true)]; [(7282, false); (7394, true)]; [(7273, false); (7396, true)]; [(7112, false); (7212, true)]; [(7224, true)]; [(7213, false); (7272, true)]];
  [[(7074, false)]; [(6979, true)]; [(7171, false); (7187, true)]; [(6640, false)]; [(6902, false)]; [(6726, false)]; [(6892, true)]; [(6716, true)]];
  [[(6999, false)]; [(7139, true)]; [(7194, true)]; [(7137, false)]; [(7006, false)]; [(7003, false)]; [(7140, true)]; [(7002, true)]];
  [[(7155, false); (6944, true)]; [(7162, true)]; [(7313, true)]; [(7229, false)]; [(7053, false)]; [(6963, false)]; [(7051, true)]; [(7165, true)]];
  [[(7152, false); (7108, true)]; [(7227, false); (7277, true)]; [(7231, false); (7285, true)]; [(7275, false)]; [(7160, false); (7228, true)]; [(7151, false); (7114, true)]; [(7225, true)]; [(7156, true)]];
  [[(7104, false); (7092, true)]; [(7048, true)]; [(7167, true)]; [(6700, false)]; [(6977, false)]; [(6812, false)]; [(6966, true)]; [(6652, true)]];
  [[(7073, false)]; [(7076, true)]; [(7208, true)]; [(7188, false)]; [(7163, false)]; [(7075, false)]; [(7189, true)]; [(6936, true)]];
  [[(7000, false)]; [(6907, true)]; [(7195, true)]; [(7138, false)]; [(7090, false)]; [(6783, false)]; [(7087, true)]; [(7008, true)]];
  [[(7106, false); (7094, true)]; [(7207, false); (7221, true)]; [(7232, false); (7312, true)]; [(7220, false); (7205, true)]; [(7117, false)]; [(7105, false)]; [(7222, true)]; [(7111, true)]];
  [[(7149, false); (7103, true)]; [(6976, true)]; [(7168, false); (7279, true)]; [(6638, false)]; [(7046, false)]; [(6724, false)]; [(7039, true)]; [(6573, true)]];
  [[(7110, false); (7093, true)]; [(7118, true)]; [(7242, true)]; [(7230, false)]; [(7200, false)]; [(7109, false)]; [(7233, true)]; [(6840, true)]];
  [[(7147, false); (7098, true)]; [(7164, true)]; [(7314, true)]; [(7281, false)]; [(7054, false)]; [(6965, false)]; [(7052, true)]; [(7166, true)]];
  [[(7148, false); (7107, true)]; [(7226, false); (7278, true)]; [(7284, true)]; [(7274, false); (7219, true)]; [(7159, false)]; [(7004, false)]; [(7206, false); (7223, true)]; [(7113, false); (7150, true)]]].
Definition aes128_B9 : list (list bitw) := [[[(3531, false)]; [(3540, true)]; [(3629, false); (3659, true)]; [(3194, false)]; [(3322, false)]; [(3345, false)]; [(3314, true)]; [(3535, true)]];
  [[(3590, false); (3533, true)]; [(3707, true)]; [(3713, true)]; [(3704, false)]; [(3593, false)]; [(3588, false)]; [(3661, true)]; [(3363, true)]];
  [[(3638, false); (3448, true)]; [(3646, true)]; [(3740, true)]; [(3734, false)]; [(3512, false)]; [(3454, false)]; [(3511, true)]; [(3647, true)]];
  [[(3679, false); (3641, true)]; [(3755, false); (3800, true)]; [(3804, false); (3824, true)]; [(3796, false); (3748, true)]; [(3692, false); (3756, true)]; [(3644, false)]; [(3752, false); (3750, true)]; [(3682, true)]];
  [[(3636, false)]; [(3503, true)]; [(3695, false); (3758, true)]; [(3138, false)]; [(3504, false)]; [(3240, false)]; [(3491, true)]; [(3152, true)]];
  [[(3532, false)]; [(3663, true)]; [(3668, true)]; [(3660, false)]; [(3657, false)]; [(3537, false)]; [(3662, true)]; [(3536, true)]];
  [[(3721, false); (3397, true)]; [(3710, true)]; [(3716, true)]; [(3705, false)]; [(3613, false)]; [(3313, false)]; [(3611, true)]; [(3594, true)]];
  [[(3622, false); (3589, true)]; [(3703, false); (3733, true)]; [(3706, false); (3735, true)]; [(3732, false)]; [(3626, false)]; [(3621, false); (3591, true)]; [(3658, false); (3702, true)]; [(3623, true)]];
  [[(3676, false)]; [(3458, true)]; [(3628, true)]; [(3066, false)]; [(3574, false)]; [(3205, false)]; [(3568, true)]; [(3035, true)]];
  [[(3637, false)]; [(3763, true)]; [(3772, true)]; [(3759, false)]; [(3745, false)]; [(3643, false)]; [(3761, true)]; [(3367, true)]];
  [[(3718, false)]; [(3514, true)]; [(3880, true)]; [(3858, false)]; [(3612, false)]; [(3567, false)]; [(3610, true)]; [(3724, true)]];
  [[(3678, false); (3642, true)]; [(3757, false); (3801, true)]; [(3805, true)]; [(3797, false)]; [(3691, false)]; [(3538, false)]; [(3749, true)]; [(3681, true)]];
  [[(3744, false); (3534, true)]; [(3324, true)]; [(3696, true)]; [(3140, false)]; [(3412, false)]; [(3087, false)]; [(3411, true)]; [(3150, true)]];
  [[(3639, false)]; [(3693, true)]; [(3826, true)]; [(3760, false)]; [(3723, false)]; [(3640, false)]; [(3762, true)]; [(3209, true)]];
  [[(3677, false); (3474, true)]; [(3807, true)]; [(3825, true)]; [(3802, false)]; [(3576, false)]; [(3490, false)]; [(3575, true)]; [(3694, true)]];
  [[(3719, false); (3680, true)]; [(3799, false); (3857, true)]; [(3803, false); (3859, true)]; [(3856, false); (3795, true)]; [(3722, false)]; [(3683, false); (3684, true)]; [(3751, false); (3798, true)]; [(3685, false); (3720, true)]]].
Definition aes128_key0_0 : sbox := SBox
  [33637; 32906; 32771; 33658; 32593; 32468; 32226; 32568; 32522; 32456; 32477; 33449; 33649; 32552; 33657; 32580; 32199; 33476; 32779; 32768; 33103; 32875; 32664; 32735; 33500]
  [(32771, 113, false); (239, 1, false); (32468, 154, false); (32522, 150, false); (33449, 126, false); (32456, 250, false); (32477, 132, false); (32552, 78, false); (32593, 144, false); (32906, 97, false); (33652, 2, true); (32580, 46, false); (32568, 130, false); (32199, 180, false); (32226, 20, false); (33476, 172, false); (32779, 225, false); (32768, 79, false); (33103, 174, false); (32664, 231, false); (32735, 155, false); (33500, 222, false); (32875, 99, false)]
  [33511; 33427; 33448; 33302; 33494; 33495; 33303; 32853; 33602; 33436; 33406; 33604; 33475; 33407; 33050; 33035; 33435; 33331; 33102; 32900; 33036; 32822; 33426; 33218; 33219; 33100; 32928; 32929; 32823; 32645; 32991; 32899; 32646; 32467; 31560; 33101; 33093; 32982; 32995; 32983; 32656; 32994; 32852; 32697; 32567; 31989; 32406; 32407; 32198; 32002; 32003; 31937; 31622; 31561; 31297; 32046; 32023; 31904; 31936; 31960; 31905; 31298; 31153; 28040; 31697; 32143; 32266; 32001; 31966; 31698; 31542; 28280; 31421; 32195; 31743; 32238; 31621; 31887; 32091; 32243; 32082; 31888; 31744; 31422; 29057; 31327; 31328; 28549; 32592; 31478; 31608; 31609; 31479; 28751; 31450; 31971; 31451; 31281; 32223; 31282; 28532; 32597; 31986; 31676; 31677; 31375; 28243; 31340; 31341; 31239; 28035; 30907; 27857; 28038; 28056; 28036; 28015; 27854; 27974; 27840; 27752; 27844; 27883; 31090; 27856; 27881; 30915; 27725; 27817; 30908; 27688; 27617; 30894; 27702; 30897; 27737; 27751; 30831; 27750; 27551; 27734; 30516; 27543].
Definition aes128_key0_1 : sbox := SBox
  [33643; 32877; 32773; 33699; 32530; 32473; 32251; 32549; 32506; 32508; 32500; 33429; 33636; 32575; 33720; 32608; 32236; 33473; 32770; 32775; 33189; 32909; 32714; 32660; 33498]
  [(32773, 113, false); (247, 1, false); (32473, 154, false); (32506, 150, false); (33429, 126, false); (32508, 250, false); (32500, 132, false); (32575, 78, false); (32530, 144, false); (32877, 97, false); (33655, 2, true); (32608, 46, false); (32549, 130, false); (32236, 180, false); (32251, 20, false); (33473, 172, false); (32770, 225, false); (32775, 79, false); (33189, 174, false); (32714, 231, false); (32660, 155, false); (33498, 222, false); (32909, 99, false)]
  [33507; 33433; 33428; 33210; 33483; 33484; 33211; 32888; 33588; 33409; 33415; 33611; 33472; 33416; 33064; 33031; 33408; 33322; 33188; 32919; 33032; 32806; 33432; 33285; 33286; 33164; 32939; 32940; 32807; 32647; 32992; 32918; 32648; 32472; 31607; 33165; 33094; 32924; 32989; 32925; 32657; 32988; 32887; 32738; 32548; 31968; 32427; 32428; 32235; 32051; 32052; 31850; 31573; 31459; 32061; 32062; 31881; 31780; 31849; 31975; 31460; 31233; 28095; 31781; 31556; 32135; 32237; 32118; 31882; 31557; 31291; 28360; 31398; 32216; 31615; 32284; 31593; 31988; 32100; 32269; 32101; 31915; 31616; 31399; 29112; 31473; 31474; 28587; 32537; 31412; 31746; 31747; 31413; 28785; 31342; 31916; 31343; 31177; 32193; 31178; 28590; 31623; 32544; 31998; 31624; 31546; 28294; 31476; 31477; 31176; 28117; 27911; 28100; 28075; 28090; 28083; 27902; 28014; 27889; 27796; 27922; 27897; 27909; 27903; 27798; 30950; 27843; 27794; 27642; 27813; 30718; 27780; 27797; 27802; 27670; 30602; 30489; 27770; 27674; 29615].
Definition aes128_key0_2 : sbox := SBox
  [33651; 32873; 32778; 33678; 32615; 32516; 32250; 32596; 32465; 32457; 32488; 33405; 33620; 32599; 33665; 32529; 32209; 33502; 32772; 32776; 33171; 32878; 32681; 32665; 33520]
  [(32778, 113, false); (255, 1, false); (32516, 154, false); (32465, 150, false); (33405, 126, false); (32457, 250, false); (32488, 132, false); (32599, 78, false); (32615, 144, false); (32873, 97, false); (33653, 2, true); (32529, 46, false); (32596, 130, false); (32209, 180, false); (32250, 20, false); (33502, 172, false); (32772, 225, false); (32776, 79, false); (33171, 174, false); (32681, 231, false); (32665, 155, false); (33520, 222, false); (32878, 99, false)]
  [33504; 33358; 33404; 33192; 33521; 33522; 33193; 32898; 33609; 33368; 33343; 33607; 33501; 33344; 33065; 33021; 33367; 33252; 33170; 32885; 33022; 32804; 33357; 33224; 33225; 33140; 32972; 32973; 32805; 32624; 32996; 32884; 32651; 32464; 31759; 33141; 33092; 32970; 33014; 32971; 32625; 33013; 32897; 32699; 32528; 31921; 32446; 32447; 32208; 32073; 32074; 31802; 31679; 31495; 32105; 32058; 31825; 31778; 31801; 31826; 31496; 31264; 28097; 31779; 31562; 32075; 32275; 32076; 31944; 31563; 31296; 28316; 31427; 32228; 31774; 32234; 31678; 31874; 32125; 32258; 32120; 31875; 31775; 31428; 29110; 31360; 31361; 28589; 32604; 31484; 31754; 31755; 31485; 28802; 31440; 31907; 31441; 31227; 32200; 31228; 28554; 31587; 32605; 31906; 31588; 31368; 28298; 31436; 31437; 31263; 28103; 27910; 28077; 31079; 28076; 28078; 28089; 27900; 28037; 27907; 27799; 27913; 30902; 27908; 27894; 27921; 27787; 31015; 27871; 30909; 27788; 27640; 27814; 30725; 30898; 27755; 27815; 27792; 27673; 30522; 27771; 29692; 27641].
Definition aes128_key0_3 : sbox := SBox
  [33641; 32876; 32769; 33686; 32556; 32501; 32280; 32546; 32462; 32519; 32484; 33440; 33642; 32572; 33736; 32574; 32279; 33493; 32777; 32774; 33147; 32901; 32713; 32719; 33508]
  [(32769, 113, false); (231, 1, false); (32501, 154, false); (32462, 150, false); (33440, 126, false); (32519, 250, false); (32484, 132, false); (32572, 78, false); (32556, 144, false); (32876, 97, false); (33654, 2, true); (32574, 46, false); (32546, 130, false); (32279, 180, false); (32280, 20, false); (33493, 172, false); (32777, 225, false); (32774, 79, false); (33147, 174, false); (32713, 231, false); (32719, 155, false); (33508, 222, false); (32901, 99, false)]
  [33519; 33401; 33439; 33295; 33468; 33469; 33247; 32908; 33597; 33385; 33417; 33591; 33492; 33418; 33060; 33067; 33384; 33246; 33146; 32896; 33068; 32790; 33400; 33310; 33311; 33106; 32955; 32956; 32791; 32626; 32999; 32895; 32627; 32461; 31688; 33107; 33095; 32943; 33002; 32944; 32634; 33001; 32907; 32693; 32545; 31824; 32449; 32450; 32278; 32024; 32025; 31793; 31682; 31502; 32027; 32028; 31947; 31792; 31876; 31991; 31503; 31165; 28070; 31690; 32114; 32183; 32014; 31948; 31691; 31347; 28356; 31425; 32246; 31750; 32260; 31558; 31999; 32059; 32259; 32060; 31809; 31751; 31426; 29182; 31330; 31331; 28588; 32542; 31350; 31717; 31718; 31351; 28796; 31388; 31810; 31389; 31202; 32215; 31203; 28603; 32541; 31992; 31660; 31661; 31530; 28282; 31559; 31294; 31295; 31152; 28072; 27888; 28079; 28101; 28080; 28073; 27898; 28019; 27904; 27810; 31057; 27914; 31084; 27915; 27899; 27912; 27804; 27848; 27784; 27643; 27803; 30721; 27805; 27777; 27801; 27671; 27765; 30499; 29684; 27676].
Definition aes128_key0 : list sbox := [aes128_key0_0; aes128_key0_1; aes128_key0_2; aes128_key0_3].
Definition aes128_key1_0 : sbox := SBox
  [30450; 29640; 29594; 30502; 29390; 29391; 29177; 29469; 29383; 29263; 30390; 29278; 30284; 30475; 29337; 30501; 29428; 29119; 30304; 29572; 29549; 30021; 29641; 29554; 29555; 30308]
  [(29594, 113, false); (29615, 1, false); (29391, 154, false); (29383, 150, false); (30284, 126, true); (29278, 250, false); (29263, 132, false); (29337, 78, false); (29390, 144, false); (29640, 97, false); (27770, 2, true); (29428, 46, false); (29469, 130, false); (29119, 180, false); (29177, 20, false); (30304, 172, false); (29572, 225, false); (29549, 79, false); (30021, 174, false); (29554, 231, false); (29555, 155, false); (30308, 222, false); (29641, 99, false)]
  [30358; 30282; 30283; 30205; 30343; 30344; 30200; 29712; 30025; 30402; 30287; 30219; 30400; 30303; 30220; 29899; 29897; 30286; 30199; 30020; 29704; 29898; 29660; 30281; 30201; 30202; 30070; 29784; 29785; 29661; 29478; 29866; 29838; 29703; 29479; 29382; 28533; 29907; 29762; 29963; 29835; 29763; 29496; 29834; 29711; 29559; 29427; 28732; 29306; 29307; 29118; 28922; 29336; 28923; 28730; 28531; 28299; 28905; 28886; 28743; 28729; 29639; 28748; 28744; 28300; 28039; 24914; 28535; 28921; 29130; 28919; 28758; 28536; 28279; 25128; 28306; 29262; 29077; 28530; 28750; 29548; 28906; 29136; 28907; 28673; 28528; 29056; 28529; 28307; 25985; 28290; 28291; 25355; 29323; 28267; 28500; 28501; 28268; 25629; 28674; 28295; 28296; 28023; 29101; 28024; 25353; 29322; 28716; 28415; 28416; 28242; 25047; 28285; 28286; 28034; 27767; 24916; 24644; 24860; 24908; 24903; 24892; 27756; 24642; 24838; 24637; 27631; 24461; 27759; 24650; 27763; 24638; 24640; 24649; 24455; 24609; 24532; 24383; 24533; 24468; 24449; 27180; 24464; 24384; 27275; 24419; 27211; 24335; 26280].
Definition aes128_key1_1 : sbox := SBox
  [30436; 29649; 29672; 30540; 29398; 29414; 29199; 29485; 29475; 29394; 30404; 29387; 30320; 30456; 29445; 30539; 29497; 29250; 30354; 29643; 29645; 30054; 29700; 29614; 29598; 30352]
  [(29672, 113, false); (29692, 1, false); (29414, 154, false); (29475, 150, false); (30320, 126, true); (29387, 250, false); (29394, 132, false); (29445, 78, false); (29398, 144, false); (29649, 97, false); (27771, 2, true); (29497, 46, false); (29485, 130, false); (29250, 180, false); (29199, 20, false); (30354, 172, false); (29643, 225, false); (29645, 79, false); (30054, 174, false); (29614, 231, false); (29598, 155, false); (30352, 222, false); (29700, 99, false)]
  [30392; 30313; 30319; 30212; 30345; 30346; 30213; 29747; 30057; 30412; 30289; 30265; 30417; 30353; 30266; 29918; 29912; 30288; 30218; 30053; 29730; 29913; 29708; 30312; 30223; 30224; 30153; 29832; 29833; 29709; 29562; 29880; 29875; 29729; 29563; 29413; 28591; 29969; 29791; 30022; 29865; 29792; 29573; 29864; 29746; 29611; 29484; 28806; 29342; 29343; 29198; 28989; 29397; 28990; 28777; 28564; 28344; 28963; 28920; 28780; 28776; 29648; 28803; 28794; 28345; 28094; 24891; 28595; 28971; 29217; 28972; 28781; 28596; 28359; 25126; 28373; 29386; 29155; 28563; 28779; 29642; 28939; 29232; 28940; 28735; 28557; 29111; 28558; 28374; 28074; 25987; 28326; 28327; 25352; 29422; 28333; 28567; 28568; 28334; 25592; 28736; 28337; 28338; 28091; 29202; 28092; 25350; 29421; 28738; 28539; 28540; 28293; 27882; 25053; 28369; 28370; 28116; 24918; 24742; 24859; 24907; 24895; 24904; 24646; 24839; 24645; 24457; 24639; 24652; 24738; 24745; 24459; 24608; 24458; 24339; 24446; 24467; 24454; 24463; 24333; 27373; 27256; 24411; 24336; 26387].
Definition aes128_key1_2 : sbox := SBox
  [30459; 29663; 29667; 30543; 29470; 29441; 29197; 29487; 29474; 29327; 30398; 29396; 30295; 30434; 29461; 30549; 29544; 29241; 30349; 29619; 29613; 30069; 29664; 29599; 29628; 30340]
  [(29667, 113, false); (29684, 1, false); (29441, 154, false); (29474, 150, false); (30295, 126, true); (29396, 250, false); (29327, 132, false); (29461, 78, false); (29470, 144, false); (29663, 97, false); (27765, 2, true); (29544, 46, false); (29487, 130, false); (29241, 180, false); (29197, 20, false); (30349, 172, false); (29619, 225, false); (29613, 79, false); (30069, 174, false); (29599, 231, false); (29628, 155, false); (30340, 222, false); (29664, 99, false)]
  [30409; 30311; 30294; 30216; 30347; 30348; 30217; 29745; 30086; 30416; 30335; 30240; 30415; 30341; 30241; 29935; 29933; 30334; 30233; 30068; 29728; 29934; 29715; 30310; 30214; 30215; 30103; 29821; 29822; 29716; 29581; 29902; 29867; 29727; 29582; 29440; 28569; 29960; 29793; 30017; 29869; 29794; 29583; 29868; 29744; 29610; 29486; 28764; 29363; 29364; 29196; 28966; 29460; 28967; 28765; 28555; 28351; 28951; 28892; 28782; 28773; 29662; 28778; 28788; 28352; 28096; 24894; 28583; 28947; 29229; 28948; 28783; 28584; 28315; 25124; 28342; 29326; 29163; 28604; 28786; 29612; 28981; 29221; 28955; 28753; 28574; 29109; 28575; 28343; 25927; 28346; 28347; 25318; 29455; 28321; 28561; 28562; 28322; 25560; 28747; 28366; 28367; 28106; 29210; 28107; 25349; 29471; 28746; 28537; 28538; 28297; 27866; 25076; 28361; 28362; 28102; 24975; 24641; 24906; 24909; 24902; 24905; 24643; 24824; 24628; 24460; 24647; 27807; 24651; 24741; 24648; 24456; 24607; 24418; 24340; 24465; 24466; 24453; 24462; 24334; 27372; 27257; 24420; 26400; 24319].
Definition aes128_key1_3 : sbox := SBox
  [30426; 29656; 29659; 30508; 29424; 29437; 29239; 29520; 29456; 29395; 30365; 29385; 30278; 30425; 29448; 30511; 29499; 29216; 30302; 29596; 29605; 30050; 29665; 29633; 29644; 30314]
  [(29659, 113, false); (27543, 1, false); (29437, 154, false); (29456, 150, false); (30278, 126, true); (29385, 250, false); (29395, 132, false); (29448, 78, false); (29424, 144, false); (29656, 97, false); (27734, 2, true); (29499, 46, false); (29520, 130, false); (29216, 180, false); (29239, 20, false); (30302, 172, false); (29596, 225, false); (29605, 79, false); (30050, 174, false); (29633, 231, false); (29644, 155, false); (30314, 222, false); (29665, 99, false)]
  [30389; 30297; 30277; 30196; 30324; 30325; 30197; 29775; 30026; 30408; 30306; 30210; 30393; 30301; 30211; 29938; 29908; 30305; 30229; 30049; 29726; 29909; 29705; 30296; 30221; 30222; 30062; 29804; 29805; 29706; 29557; 29891; 29870; 29725; 29580; 29436; 28592; 29999; 29798; 30016; 29877; 29799; 29556; 29876; 29774; 29604; 29498; 28799; 29380; 29381; 29215; 28978; 29423; 28979; 28767; 28566; 28349; 28965; 28891; 28774; 28804; 29655; 28766; 28775; 28350; 28069; 24723; 28597; 28988; 29220; 28956; 28787; 28598; 28355; 24865; 28339; 29384; 29157; 28565; 28792; 29595; 28980; 29223; 28968; 28739; 28550; 29181; 28551; 28340; 25781; 28335; 28336; 25106; 29408; 28357; 28559; 28560; 28358; 25320; 28740; 28353; 28354; 28104; 29248; 28105; 25204; 29407; 28757; 28541; 28542; 28281; 24851; 28375; 28376; 28071; 24721; 24509; 24622; 24715; 24713; 24714; 24508; 24621; 24510; 24337; 24436; 24441; 24507; 24511; 24367; 24435; 24366; 24273; 24292; 24369; 24365; 24368; 24208; 27371; 24316; 27262; 26401; 24278].
Definition aes128_key1 : list sbox := [aes128_key1_0; aes128_key1_1; aes128_key1_2; aes128_key1_3].
Definition aes128_key2_0 : sbox := SBox
  [27185; 26410; 26404; 27229; 26223; 26190; 26051; 26266; 26189; 26122; 27078; 26167; 26987; 27164; 26226; 27226; 26269; 26050; 27007; 26367; 26361; 26842; 26412; 26340; 26329; 26980]
  [(26404, 113, false); (26387, 1, false); (26190, 154, false); (26189, 150, false); (26987, 126, true); (26167, 250, false); (26122, 132, false); (26226, 78, false); (26223, 144, false); (26410, 97, false); (24411, 2, true); (26269, 46, false); (26266, 130, false); (26050, 180, false); (26051, 20, false); (27007, 172, false); (26367, 79, false); (26361, 225, false); (26842, 174, false); (26340, 231, false); (26329, 155, false); (26980, 222, false); (26412, 99, false)]
  [27104; 27011; 26986; 26936; 27043; 27044; 26937; 26467; 26855; 27100; 27020; 26944; 27103; 26981; 26945; 26698; 26699; 27019; 26943; 26841; 26488; 26700; 26446; 27010; 26949; 26950; 26868; 26552; 26553; 26447; 26297; 26655; 26623; 26487; 26309; 26188; 25366; 26808; 26498; 26819; 26628; 26499; 26296; 26627; 26466; 26326; 26265; 25601; 26149; 26150; 26049; 25798; 26222; 25799; 25600; 25354; 25092; 25846; 25764; 25593; 25602; 26409; 25599; 25594; 25093; 24913; 21694; 25371; 25804; 26024; 25787; 25596; 25372; 25127; 21911; 25150; 26121; 26000; 25365; 25605; 26360; 25843; 26071; 25788; 25499; 25369; 25984; 25370; 25151; 22717; 25118; 25119; 24556; 22152; 26230; 25112; 25358; 25359; 25113; 22409; 25498; 25147; 25148; 24862; 26029; 24863; 22150; 26231; 25497; 25292; 25293; 25046; 21838; 25110; 25111; 24915; 21692; 21475; 21688; 21690; 21686; 24557; 21687; 21477; 21630; 21476; 21250; 21478; 21480; 21474; 21479; 21251; 21420; 21252; 24312; 21055; 21255; 24298; 21256; 24314; 21253; 21254; 24221; 21057; 21199; 23947; 21056; 23002].
Definition aes128_key2_1 : sbox := SBox
  [27172; 26408; 26403; 27227; 26224; 26208; 26052; 26240; 26192; 26175; 27081; 26133; 26993; 27163; 26221; 27228; 26248; 26048; 27008; 26368; 26363; 26844; 26411; 26353; 26351; 26982]
  [(26403, 113, false); (26400, 1, false); (26208, 154, false); (26192, 150, false); (26993, 126, true); (26133, 250, false); (26175, 132, false); (26221, 78, false); (26224, 144, false); (26408, 97, false); (24420, 2, true); (26248, 46, false); (26240, 130, false); (26048, 180, false); (26052, 20, false); (27008, 172, false); (26368, 79, false); (26363, 225, false); (26844, 174, false); (26353, 231, false); (26351, 155, false); (26982, 222, false); (26411, 99, false)]
  [27101; 27022; 26992; 26934; 27051; 27052; 26935; 26469; 26854; 27099; 27015; 26941; 27102; 26983; 26942; 26741; 26694; 27014; 26938; 26843; 26486; 26695; 26448; 27021; 26917; 26918; 26867; 26532; 26533; 26449; 26295; 26654; 26583; 26485; 26308; 26191; 25362; 26758; 26500; 26831; 26626; 26501; 26294; 26625; 26468; 26342; 26239; 25561; 26136; 26137; 26047; 25800; 26220; 25801; 25534; 25351; 25094; 25802; 25763; 25529; 25546; 26407; 25533; 25551; 25095; 24890; 21638; 25304; 25791; 26066; 25792; 25530; 25305; 25125; 21840; 25162; 26132; 25986; 25389; 25937; 25364; 25604; 26362; 25842; 26065; 25806; 25500; 25390; 25163; 22673; 25131; 25132; 22070; 26227; 25145; 25324; 25325; 25146; 22345; 25496; 25139; 25140; 24919; 26054; 24920; 22072; 26229; 25495; 25302; 25303; 25052; 21812; 25153; 25154; 24917; 24394; 21640; 21414; 21631; 21636; 21628; 21632; 21417; 21610; 21415; 24393; 21188; 21422; 21426; 21412; 21421; 21190; 21399; 21171; 24310; 21011; 21197; 21201; 24297; 21193; 21195; 21014; 24146; 21172; 23940; 21002; 23074].
Definition aes128_key2_2 : sbox := SBox
  [27171; 26406; 26402; 27225; 26225; 26207; 26017; 26250; 26206; 26174; 27082; 26166; 27006; 27162; 26219; 27224; 26268; 26046; 27009; 26366; 26365; 26846; 26413; 26354; 26352; 26990]
  [(26402, 113, false); (26401, 1, false); (26207, 154, false); (26206, 150, false); (27006, 126, true); (26166, 250, false); (26174, 132, false); (26219, 78, false); (26225, 144, false); (26406, 97, false); (24316, 2, true); (26268, 46, false); (26250, 130, false); (26046, 180, false); (26017, 20, false); (27009, 172, false); (26366, 79, false); (26365, 225, false); (26846, 174, false); (26354, 231, false); (26352, 155, false); (26990, 222, false); (26413, 99, false)]
  [27121; 27037; 27005; 26919; 27038; 27039; 26920; 26475; 26848; 27097; 27017; 26939; 27098; 26991; 26940; 26713; 26738; 27016; 26946; 26845; 26490; 26739; 26419; 27036; 26947; 26948; 26880; 26550; 26551; 26420; 26283; 26653; 26624; 26489; 26307; 26205; 25363; 26755; 26523; 26830; 26599; 26524; 26282; 26598; 26474; 26330; 26249; 25549; 26126; 26127; 26016; 25844; 26218; 25845; 25550; 25309; 25129; 25803; 25765; 25541; 25597; 26405; 25598; 25595; 25130; 24893; 21526; 25373; 25841; 26018; 25840; 25542; 25374; 25123; 21730; 25137; 26165; 25999; 25308; 25603; 26364; 25809; 26021; 25810; 25501; 25367; 25926; 25368; 25138; 22565; 25133; 25134; 21955; 26180; 25098; 25356; 25357; 25099; 22181; 25494; 25102; 25103; 24888; 26053; 24889; 21957; 26228; 25493; 25290; 25291; 25075; 21666; 25143; 25144; 24974; 24402; 21528; 21298; 21522; 21524; 21521; 21523; 21300; 21456; 21299; 21097; 21301; 21303; 21297; 21302; 21098; 21234; 21099; 20955; 21102; 21103; 24309; 21100; 21101; 20957; 24184; 21043; 23936; 20956; 23051].
Definition aes128_key2_3 : sbox := SBox
  [27144; 26323; 26237; 27179; 26006; 26068; 25862; 26009; 26069; 26002; 26003; 26960; 27137; 26005; 27178; 26070; 25861; 26952; 26235; 26236; 26971; 26775; 26369; 26232; 26233; 26961]
  [(26237, 113, false); (26280, 1, false); (26068, 154, false); (26069, 150, false); (26960, 126, false); (26002, 250, false); (26003, 132, false); (26005, 78, false); (26006, 144, false); (26323, 97, false); (27211, 2, true); (26070, 46, false); (26009, 130, false); (25861, 180, false); (25862, 20, false); (26952, 172, false); (26235, 79, false); (26236, 225, false); (26775, 174, true); (26232, 231, false); (26233, 155, false); (26961, 222, false); (26369, 99, false)]
  [27050; 26963; 26959; 26894; 27012; 27013; 26895; 26328; 27045; 26965; 26897; 27046; 26951; 26898; 26577; 26684; 26964; 26896; 26774; 26685; 26319; 26962; 26899; 26900; 26809; 26450; 26371; 26451; 26320; 26128; 26495; 26370; 26120; 26067; 25205; 26812; 26633; 26491; 26630; 26494; 26492; 26129; 26493; 26327; 26234; 26119; 26008; 25313; 25933; 25934; 25860; 25626; 26004; 25627; 25314; 25107; 24952; 25628; 25523; 25326; 25385; 26322; 25386; 25327; 24953; 24722; 21642; 25108; 25537; 25865; 25531; 25384; 25109; 24864; 24558; 21842; 24962; 26001; 25782; 25206; 25387; 25625; 25864; 25543; 25301; 25207; 25780; 25208; 24963; 22764; 24954; 24955; 22075; 26118; 24958; 25116; 25117; 24959; 22347; 25300; 24956; 24957; 24724; 25863; 24725; 22073; 26117; 25299; 25058; 25059; 24850; 21844; 24960; 24961; 24720; 21644; 21416; 21633; 21689; 21629; 21635; 21419; 21634; 21418; 21189; 21423; 21481; 21413; 21425; 21192; 21424; 21191; 21012; 21198; 21257; 24196; 21194; 21196; 21015; 23980; 21200; 23804; 21013; 22950].
Definition aes128_key2 : list sbox := [aes128_key2_0; aes128_key2_1; aes128_key2_2; aes128_key2_3].
Definition aes128_key3_0 : sbox := SBox
  [23836; 23078; 23073; 23967; 22913; 22882; 22757; 22937; 22879; 22848; 23716; 22846; 23617; 23831; 22914; 24015; 22939; 22751; 23655; 23052; 23049; 23499; 23079; 23044; 23043; 23672]
  [(23073, 113, false); (23074, 1, false); (22882, 154, false); (22879, 150, false); (23617, 126, true); (22846, 250, false); (22848, 132, false); (22914, 78, false); (22913, 144, false); (23078, 97, false); (21172, 2, true); (22939, 46, false); (22937, 130, false); (22751, 180, false); (22757, 20, false); (23655, 172, false); (23052, 79, false); (23049, 225, false); (23499, 174, false); (23044, 231, false); (23043, 155, false); (23672, 222, false); (23079, 99, false)]
  [23763; 23674; 23616; 23575; 23675; 23676; 23556; 23225; 23495; 23785; 23658; 23560; 23761; 23654; 23561; 23424; 23425; 23657; 23555; 23498; 23223; 23426; 23129; 23673; 23553; 23554; 23509; 23290; 23291; 23130; 22976; 23402; 23383; 23222; 22977; 22878; 22156; 23455; 23248; 23467; 23387; 23249; 23019; 23386; 23224; 23045; 22936; 22416; 22833; 22834; 22750; 22621; 22912; 22622; 22410; 22151; 21912; 22623; 22550; 22413; 22415; 23077; 22414; 22412; 21913; 21693; 18350; 22159; 22616; 22766; 22605; 22411; 22160; 21910; 18578; 21924; 22845; 22720; 22155; 22428; 23048; 22615; 22765; 22613; 22362; 22157; 22716; 22158; 21925; 19335; 21914; 21915; 18848; 22918; 21918; 22153; 22154; 21919; 19063; 22363; 21920; 21921; 21695; 22762; 21696; 18850; 22917; 22364; 22084; 22085; 21837; 18496; 21922; 21923; 21691; 18348; 18171; 18344; 18295; 18342; 18343; 18170; 18292; 20987; 18172; 17958; 18174; 18108; 18169; 18173; 17957; 18105; 17956; 17749; 20867; 17961; 17891; 17959; 17960; 20869; 17750; 17890; 20834; 19728; 17748].
Definition aes128_key3_1 : sbox := SBox
  [23835; 23054; 23050; 23966; 22851; 22844; 22712; 22910; 22843; 22816; 23780; 22815; 23603; 23833; 22850; 24022; 22916; 22707; 23653; 23005; 23004; 23464; 23055; 22994; 22995; 23656]
  [(23050, 113, false); (23051, 1, false); (22844, 154, false); (22843, 150, false); (23603, 126, true); (22815, 250, false); (22816, 132, false); (22850, 78, false); (22851, 144, false); (23054, 97, false); (21043, 2, true); (22916, 46, false); (22910, 130, false); (22707, 180, false); (22712, 20, false); (23653, 172, false); (23005, 79, false); (23004, 225, false); (23464, 174, false); (22994, 231, false); (22995, 155, false); (23656, 222, false); (23055, 99, false)]
  [23710; 23605; 23602; 23522; 23694; 23695; 23523; 23154; 23472; 23782; 23607; 23562; 23760; 23652; 23563; 23403; 23408; 23606; 23524; 23463; 23150; 23409; 23086; 23604; 23513; 23514; 23497; 23250; 23251; 23087; 22940; 23389; 23303; 23149; 22941; 22842; 22080; 23429; 23230; 23457; 23307; 23231; 22942; 23306; 23153; 22998; 22909; 22357; 22809; 22810; 22706; 22555; 22849; 22556; 22346; 22071; 21845; 22554; 22494; 22351; 22355; 23053; 22354; 22350; 21846; 21637; 18300; 22086; 22551; 22718; 22544; 22349; 22087; 21839; 18498; 21858; 22814; 22674; 22081; 22365; 23003; 22552; 22719; 22549; 22268; 22088; 22672; 22089; 21859; 19292; 21847; 21848; 18754; 22862; 21856; 22076; 22077; 21857; 18999; 22269; 21860; 21861; 21645; 22714; 21646; 18756; 22861; 22270; 22034; 22035; 21811; 18415; 21854; 21855; 21639; 18298; 18103; 18294; 18296; 18291; 18293; 18104; 18219; 20988; 18102; 17885; 18107; 18109; 18101; 18106; 17886; 18023; 17803; 17686; 17889; 17892; 17887; 17888; 17687; 20894; 17804; 20710; 17620; 19732].
Definition aes128_key3_2 : sbox := SBox
  [23766; 22953; 22951; 23805; 22777; 22772; 22632; 22822; 22771; 22731; 23663; 22730; 23568; 23764; 22776; 23813; 22823; 22627; 23535; 22924; 22923; 23414; 22954; 22919; 22920; 23569]
  [(22951, 113, false); (22950, 1, false); (22772, 154, false); (22771, 150, false); (23568, 126, true); (22730, 250, false); (22731, 132, false); (22776, 78, false); (22777, 144, false); (22953, 97, false); (21200, 2, true); (22823, 46, false); (22822, 130, false); (22627, 180, false); (22632, 20, false); (23535, 172, false); (22924, 79, false); (22923, 225, false); (23414, 174, false); (22919, 231, false); (22920, 155, false); (23569, 222, false); (22954, 99, false)]
  [23669; 23573; 23567; 23507; 23585; 23586; 23503; 23059; 23430; 23693; 23571; 23500; 23668; 23534; 23501; 23308; 23315; 23570; 23502; 23413; 23057; 23316; 23016; 23572; 23504; 23505; 23432; 23155; 23156; 23017; 22854; 23263; 23232; 23056; 22855; 22770; 21960; 23390; 23092; 23404; 23234; 23093; 22856; 23233; 23058; 22921; 22821; 22186; 22721; 22722; 22626; 22447; 22775; 22448; 22182; 21956; 21731; 22446; 22377; 22185; 22187; 22952; 22188; 22184; 21732; 21525; 18394; 21964; 22444; 22634; 22434; 22183; 21965; 21729; 18642; 21737; 22729; 22566; 21961; 22189; 22922; 22445; 22635; 22443; 22108; 21962; 22564; 21963; 21738; 19367; 21733; 21734; 18916; 22779; 21739; 21958; 21959; 21740; 19125; 22109; 21743; 21744; 21529; 22633; 21530; 18918; 22778; 22110; 21881; 21882; 21665; 18580; 21741; 21742; 21527; 18396; 18205; 18387; 18346; 18382; 18386; 18204; 18345; 18206; 17994; 18211; 18176; 18200; 18210; 17993; 18175; 17995; 17786; 18001; 17963; 17997; 17999; 17774; 20821; 17962; 20640; 17787; 19652].
Definition aes128_key3_3 : sbox := SBox
  [23837; 23116; 23001; 24023; 22915; 22887; 22701; 22908; 22899; 22884; 22885; 23649; 23832; 22906; 24002; 22911; 22713; 23696; 23080; 23076; 23689; 23481; 23117; 23018; 22997; 23687]
  [(23001, 113, false); (23002, 1, false); (22887, 154, false); (22899, 150, false); (23649, 126, false); (22884, 250, false); (22885, 132, false); (22906, 78, false); (22915, 144, false); (23116, 97, false); (21199, 2, true); (22911, 46, false); (22908, 130, false); (22713, 180, false); (22701, 20, false); (23696, 172, false); (23080, 79, false); (23076, 225, false); (23481, 174, true); (23018, 231, false); (22997, 155, false); (23687, 222, false); (23117, 99, false)]
  [23762; 23662; 23648; 23551; 23680; 23681; 23552; 23227; 23783; 23660; 23581; 23786; 23688; 23582; 23423; 23456; 23659; 23559; 23480; 23152; 23127; 23661; 23557; 23558; 23483; 23292; 23293; 23128; 22974; 23304; 23305; 23151; 22975; 22886; 22082; 23496; 23427; 23428; 23288; 23385; 23422; 23289; 22978; 23384; 23226; 23075; 22999; 22907; 22356; 22883; 22905; 22700; 22557; 22558; 22348; 22074; 21849; 22559; 22553; 22352; 22996; 22358; 23115; 22359; 22353; 21850; 21641; 18390; 22092; 22619; 22769; 22606; 22366; 22093; 21841; 18640; 21926; 22768; 22083; 22427; 22620; 23000; 22767; 22614; 22369; 22161; 22763; 22162; 21927; 19447; 21851; 21852; 18915; 22863; 21864; 22078; 22079; 21865; 19123; 22368; 21866; 21867; 21647; 22715; 21648; 18913; 22945; 22367; 22090; 22091; 21843; 18638; 21862; 21863; 21643; 18392; 18202; 18385; 18388; 18381; 18383; 18201; 18384; 18203; 17991; 18209; 18212; 18199; 18207; 17990; 18208; 17992; 17784; 18000; 18003; 17996; 17998; 17788; 20895; 18002; 20769; 17785; 19795].
Definition aes128_key3 : list sbox := [aes128_key3_0; aes128_key3_1; aes128_key3_2; aes128_key3_3].
Definition aes128_key4_0 : sbox := SBox
  [20594; 19735; 19731; 20772; 19501; 19490; 19362; 19544; 19489; 19460; 20396; 19459; 20258; 20591; 19502; 20770; 19548; 19361; 20299; 19651; 19654; 20091; 19736; 19644; 19643; 20297]
  [(19731, 113, false); (19732, 1, false); (19490, 154, false); (19489, 150, false); (20258, 126, true); (19459, 250, false); (19460, 132, false); (19502, 78, false); (19501, 144, false); (19735, 97, false); (17804, 2, true); (19548, 46, false); (19544, 130, false); (19361, 180, false); (19362, 20, false); (20299, 172, false); (19651, 225, false); (19654, 79, false); (20091, 174, false); (19644, 231, false); (19643, 155, false); (20297, 222, false); (19736, 99, false)]
  [20375; 20260; 20257; 20157; 20340; 20341; 20158; 19853; 20088; 20432; 20262; 20193; 20433; 20298; 20194; 20030; 20031; 20261; 20160; 20090; 19851; 20032; 19802; 20259; 20161; 20162; 20109; 19949; 19950; 19803; 19603; 20010; 19979; 19850; 19604; 19488; 18854; 20050; 19903; 20073; 19981; 19904; 19605; 19980; 19852; 19645; 19543; 19069; 19451; 19452; 19360; 19245; 19500; 19246; 19064; 18849; 18583; 19244; 19201; 19065; 19070; 19734; 19068; 19066; 18584; 18349; 15105; 18855; 19242; 19368; 19239; 19067; 18856; 18577; 15363; 18585; 19458; 19336; 18853; 19075; 19650; 19241; 19369; 19240; 19017; 18857; 19334; 18858; 18586; 17639; 16018; 18581; 18582; 15614; 19505; 18591; 18851; 18852; 18592; 15742; 19016; 18589; 18590; 18351; 19365; 18352; 15613; 19504; 19015; 18761; 18762; 18495; 15361; 18587; 18588; 18347; 15107; 14905; 15098; 15099; 15092; 15097; 14904; 15096; 14906; 14719; 14912; 14913; 14900; 14911; 14718; 14910; 14720; 14525; 14726; 17685; 14729; 14722; 17425; 14724; 14528; 14728; 17463; 14526; 16429].
Definition aes128_key4_1 : sbox := SBox
  [20491; 19656; 19653; 20642; 19463; 19457; 19327; 19499; 19456; 19426; 20344; 19425; 20241; 20490; 19462; 20641; 19503; 19326; 20243; 19615; 19616; 20079; 19657; 19612; 19611; 20244]
  [(19653, 113, false); (19652, 1, false); (19457, 154, false); (19456, 150, false); (20241, 126, true); (19425, 250, false); (19426, 132, false); (19462, 78, false); (19463, 144, false); (19656, 97, false); (17962, 2, true); (19503, 46, false); (19499, 130, false); (19326, 180, false); (19327, 20, false); (20243, 172, false); (19615, 225, false); (19616, 79, false); (20079, 174, false); (19612, 231, false); (19611, 155, false); (20244, 222, false); (19657, 99, false)]
  [20362; 20248; 20240; 20140; 20263; 20264; 20141; 19813; 20077; 20363; 20246; 20142; 20361; 20242; 20143; 20011; 20012; 20245; 20146; 20078; 19811; 20013; 19743; 20247; 20144; 20145; 20089; 19905; 19906; 19744; 19549; 19986; 19954; 19810; 19550; 19455; 18760; 20033; 19854; 20051; 19956; 19855; 19551; 19955; 19812; 19613; 19498; 19004; 19418; 19419; 19325; 19203; 19461; 19204; 19000; 18755; 18501; 19205; 19149; 19003; 19005; 19655; 19006; 19002; 18502; 18299; 15261; 18765; 19200; 19337; 19198; 19001; 18766; 18497; 15485; 18505; 19424; 19293; 18759; 19018; 19614; 19202; 19338; 19199; 18947; 18763; 19291; 18764; 18506; 16087; 18499; 18500; 15733; 19465; 18509; 18757; 18758; 18510; 15837; 18946; 18503; 18504; 18301; 19333; 18302; 15730; 19464; 18945; 18678; 18679; 18414; 15483; 18507; 18508; 18297; 15265; 15012; 15253; 15257; 15249; 15254; 15013; 15255; 15014; 17468; 14844; 15020; 15022; 15008; 15015; 14845; 15019; 14846; 14634; 14852; 17619; 14856; 14848; 14850; 14637; 17496; 17430; 14854; 14635; 17378].
Definition aes128_key4_2 : sbox := SBox
  [20595; 19797; 19794; 20773; 19546; 19540; 19406; 19599; 19539; 19493; 20397; 19492; 20296; 20592; 19547; 20771; 19602; 19404; 20302; 19730; 19733; 20111; 19798; 19721; 19720; 20300]
  [(19794, 113, false); (19795, 1, false); (19540, 154, false); (19539, 150, false); (20296, 126, true); (19492, 250, false); (19493, 132, false); (19547, 78, false); (19546, 144, false); (19797, 97, false); (18002, 2, true); (19602, 46, false); (19599, 130, false); (19404, 180, false); (19406, 20, false); (20302, 172, false); (19730, 225, false); (19733, 79, false); (20111, 174, false); (19721, 231, false); (19720, 155, false); (20300, 222, false); (19798, 99, false)]
  [20436; 20306; 20295; 20190; 20342; 20343; 20191; 19902; 20107; 20434; 20304; 20196; 20435; 20301; 20197; 20047; 20048; 20303; 20195; 20110; 19900; 20049; 19846; 20305; 20198; 20199; 20131; 19977; 19978; 19847; 19618; 20029; 20003; 19899; 19641; 19538; 18925; 20071; 19957; 20086; 20007; 19958; 19617; 20006; 19901; 19723; 19598; 19135; 19486; 19487; 19403; 19282; 19545; 19283; 19126; 18917; 18649; 19284; 19243; 19131; 19137; 19796; 19136; 19130; 18650; 18393; 15263; 18933; 19277; 19413; 19274; 19129; 18934; 18641; 15481; 18661; 19491; 19370; 18926; 19142; 19729; 19278; 19414; 19275; 19076; 18935; 19366; 18936; 18662; 17638; 16085; 18647; 18648; 15731; 19563; 18663; 18921; 18922; 18664; 15835; 19077; 18659; 18660; 18399; 19412; 18400; 15732; 19564; 19078; 18859; 18860; 18579; 15479; 18657; 18658; 18395; 15259; 15009; 15252; 15256; 15248; 15251; 15010; 15250; 15011; 14841; 15016; 15021; 15007; 15018; 14843; 15017; 14842; 14632; 14851; 17747; 14855; 14847; 14849; 14636; 17573; 17495; 14853; 14633; 16478].
Definition aes128_key4_3 : sbox := SBox
  [20593; 19843; 19727; 20799; 19601; 19590; 19597; 19405; 19589; 19593; 19592; 20294; 20590; 19595; 20798; 19600; 19402; 20332; 19841; 19845; 20398; 20133; 19844; 19719; 19718; 20333]
  [(19727, 113, false); (19728, 1, false); (19590, 154, false); (19589, 150, false); (20294, 126, false); (19593, 250, false); (19592, 132, false); (19595, 78, false); (19601, 144, false); (19843, 97, false); (17890, 2, true); (19600, 46, false); (19597, 130, false); (19402, 180, false); (19405, 20, false); (20332, 172, false); (19841, 225, false); (19845, 79, false); (20133, 174, true); (19719, 231, false); (19718, 155, false); (20333, 222, false); (19844, 99, false)]
  [20489; 20339; 20293; 20188; 20336; 20337; 20189; 19948; 20487; 20335; 20230; 20488; 20331; 20231; 20068; 20085; 20334; 20229; 20132; 19898; 19877; 20338; 20232; 20233; 20094; 19998; 19999; 19878; 19673; 20004; 20005; 19897; 19674; 19588; 18923; 20108; 20069; 20070; 19975; 20028; 20046; 19976; 19675; 20027; 19947; 19840; 19722; 19596; 19132; 19591; 19594; 19401; 19280; 19281; 19124; 18914; 18645; 19279; 19276; 19127; 19717; 19134; 19842; 19133; 19128; 18646; 18389; 15101; 18931; 19322; 19448; 19320; 19141; 18932; 18639; 15359; 18728; 19450; 18924; 19189; 19323; 19726; 19449; 19321; 19138; 18993; 19446; 18994; 18729; 17637; 16052; 18643; 18644; 15612; 19562; 18653; 18919; 18920; 18654; 15740; 19139; 18651; 18652; 18397; 19411; 18398; 15611; 19642; 19140; 18929; 18930; 18637; 15357; 18655; 18656; 18391; 15103; 14902; 15095; 15179; 15091; 15094; 14901; 15093; 14903; 14716; 14909; 14958; 14899; 14908; 14715; 14907; 14717; 14523; 14725; 17746; 14782; 14721; 14723; 14527; 17572; 14727; 17494; 14524; 16476].
Definition aes128_key4 : list sbox := [aes128_key4_0; aes128_key4_1; aes128_key4_2; aes128_key4_3].
Definition aes128_key5_0 : sbox := SBox
  [17325; 16482; 16433; 17389; 16228; 16150; 16015; 16227; 16152; 16151; 16148; 16887; 17324; 16225; 17424; 16229; 16014; 16889; 16432; 16434; 16683; 16481; 16359; 16360; 16890]
  [(16433, 113, false); (14635, 1, false); (16150, 154, false); (16152, 150, false); (16887, 126, false); (16151, 250, false); (16148, 132, false); (16225, 78, false); (16228, 144, false); (16482, 97, false); (17430, 2, true); (16229, 46, false); (16227, 130, false); (16014, 180, false); (16015, 20, false); (16889, 172, false); (16432, 225, false); (16434, 79, false); (16683, 174, false); (16359, 231, false); (16360, 155, false); (16890, 222, false); (16481, 99, false)]
  [17116; 16892; 16886; 16771; 16952; 16953; 16772; 16493; 17180; 16894; 16773; 17115; 16888; 16774; 16611; 16612; 16893; 16775; 16682; 16491; 16613; 16447; 16891; 16776; 16777; 16678; 16548; 16549; 16448; 16267; 16571; 16490; 16268; 16149; 15535; 16681; 16638; 16546; 16573; 16547; 16269; 16572; 16492; 16362; 16226; 15754; 16096; 16097; 16013; 15908; 15909; 15743; 15534; 15364; 15904; 15902; 15744; 15753; 15752; 15745; 15365; 15104; 12140; 15548; 15903; 16021; 15898; 15748; 15549; 15362; 12332; 15378; 16017; 15544; 16020; 15533; 15759; 15901; 16019; 15899; 15760; 15545; 15379; 12970; 15370; 15371; 12475; 16233; 15382; 15528; 15529; 15383; 12597; 15761; 15380; 15381; 15110; 16016; 15111; 12473; 16232; 15762; 15546; 15547; 15360; 12334; 15384; 15385; 15106; 12146; 11931; 12136; 12138; 12130; 12134; 11932; 12135; 11933; 11680; 11939; 11941; 11927; 11934; 11681; 11938; 11608; 11472; 11687; 11691; 14506; 11685; 14140; 11683; 11474; 14306; 11689; 14138; 11438; 14071].
Definition aes128_key5_1 : sbox := SBox
  [17369; 16536; 16484; 17432; 16349; 16265; 16081; 16351; 16264; 16262; 16266; 16992; 17366; 16346; 17464; 16348; 16080; 17001; 16483; 16485; 16741; 16537; 16443; 16444; 16999]
  [(16484, 113, false); (16478, 1, false); (16265, 154, false); (16264, 150, false); (16992, 126, false); (16262, 250, false); (16266, 132, false); (16346, 78, false); (16349, 144, false); (16536, 97, false); (17495, 2, true); (16348, 46, false); (16351, 130, false); (16080, 180, false); (16081, 20, false); (17001, 172, false); (16483, 225, false); (16485, 79, false); (16741, 174, false); (16443, 231, false); (16444, 155, false); (16999, 222, false); (16537, 99, false)]
  [17220; 17011; 16991; 16826; 17103; 17104; 16827; 16545; 17323; 17009; 16835; 17217; 17000; 16836; 16649; 16652; 17008; 16837; 16740; 16541; 16653; 16512; 17010; 16838; 16839; 16719; 16584; 16585; 16513; 16403; 16609; 16540; 16404; 16263; 15664; 16737; 16677; 16580; 16606; 16581; 16406; 16605; 16544; 16446; 16347; 15848; 16180; 16181; 16079; 15978; 15979; 15838; 15665; 15490; 15977; 15973; 15842; 15850; 15849; 15843; 15491; 15260; 12144; 15681; 15971; 16091; 15964; 15844; 15682; 15484; 12330; 15516; 16093; 15666; 15857; 15972; 16092; 15967; 15858; 15679; 16086; 15680; 15517; 12968; 15492; 15493; 12472; 16357; 15520; 15659; 15660; 15521; 12595; 15856; 15518; 15519; 15268; 16083; 15269; 12470; 16358; 15855; 15677; 15678; 15482; 12328; 15522; 15523; 15264; 12142; 11929; 12133; 12137; 12129; 12132; 11928; 12131; 11930; 11678; 11937; 11940; 11926; 11936; 11677; 11935; 11679; 14052; 11471; 11686; 11690; 11684; 11682; 11473; 14326; 11688; 11437; 14070].
Definition aes128_key5_2 : sbox := SBox
  [17368; 16534; 16479; 17431; 16345; 16258; 16078; 16344; 16261; 16260; 16259; 16990; 17367; 16342; 17497; 16350; 16077; 16994; 16477; 16480; 16739; 16535; 16442; 16441; 16995]
  [(16479, 113, false); (16476, 1, false); (16258, 154, false); (16261, 150, false); (16990, 126, false); (16260, 250, false); (16259, 132, false); (16342, 78, false); (16345, 144, false); (16534, 97, false); (17494, 2, true); (16350, 46, false); (16344, 130, false); (16077, 180, false); (16078, 20, false); (16994, 172, false); (16477, 225, false); (16480, 79, false); (16739, 174, false); (16442, 231, false); (16441, 155, false); (16995, 222, false); (16535, 99, false)]
  [17216; 17005; 16989; 16824; 17101; 17102; 16825; 16543; 17322; 17003; 16831; 17215; 16993; 16832; 16648; 16650; 17002; 16830; 16738; 16539; 16651; 16510; 17004; 16828; 16829; 16718; 16582; 16583; 16511; 16401; 16610; 16538; 16402; 16257; 15661; 16736; 16676; 16578; 16608; 16579; 16405; 16607; 16542; 16445; 16343; 15845; 16178; 16179; 16076; 15975; 15976; 15836; 15662; 15486; 15974; 15970; 15839; 15847; 15846; 15840; 15487; 15262; 12038; 15675; 15968; 16090; 15965; 15841; 15676; 15480; 12246; 15508; 16084; 15671; 16089; 15663; 15854; 15969; 16088; 15966; 15853; 15672; 15509; 12850; 15488; 15489; 12406; 16356; 15512; 15657; 15658; 15513; 12548; 15852; 15510; 15511; 15266; 16082; 15267; 12404; 16355; 15851; 15673; 15674; 15478; 12244; 15514; 15515; 15258; 12040; 11815; 12035; 12036; 12032; 12034; 11814; 12033; 11816; 11555; 11819; 11820; 11813; 11818; 11554; 11817; 11556; 11403; 11559; 11561; 11558; 11557; 11405; 14327; 11560; 11404].
Definition aes128_key5_3 : sbox := SBox
  [17349; 16508; 16431; 17443; 16154; 16218; 16012; 16223; 16215; 16219; 17140; 16217; 16951; 17442; 17348; 16155; 17444; 16224; 16011; 16998; 16428; 16430; 16717; 16509; 16425; 16426; 16996]
  [(16431, 113, false); (16429, 1, false); (16218, 154, false); (16215, 150, false); (16951, 126, true); (16217, 250, false); (16219, 132, false); (16155, 78, false); (16154, 144, false); (16508, 97, false); (17463, 2, true); (16224, 46, false); (16223, 130, false); (16011, 180, false); (16012, 20, false); (16998, 172, false); (16428, 225, false); (16430, 79, false); (16717, 174, false); (16425, 231, false); (16426, 155, false); (16996, 222, true); (16509, 99, false)]
  [17181; 16957; 16950; 16808; 17006; 17007; 16809; 16520; 16715; 17219; 16955; 16833; 17218; 16997; 16834; 16635; 16636; 16954; 16810; 16716; 16489; 16637; 16486; 16956; 16811; 16812; 16693; 16714; 16568; 16569; 16487; 16352; 16614; 16570; 16488; 16353; 16214; 15530; 16654; 16566; 16587; 16567; 16354; 16586; 16519; 16361; 16363; 16222; 15749; 16216; 16094; 16095; 16010; 15905; 16153; 15906; 15741; 15531; 15366; 15907; 15900; 15746; 15751; 15750; 15747; 15367; 15100; 11972; 15542; 15945; 16057; 15942; 15758; 15543; 15358; 12184; 15433; 16051; 15615; 16055; 15532; 15805; 15944; 16056; 15943; 15755; 15616; 15434; 12776; 15368; 15369; 12361; 16231; 15374; 15526; 15527; 15375; 12502; 15756; 15372; 15373; 15108; 16050; 15109; 12359; 16230; 15757; 15540; 15541; 15356; 12182; 15376; 15377; 15102; 11974; 11717; 11969; 11970; 11966; 11968; 11716; 11967; 11718; 11499; 11721; 11722; 11715; 11720; 11498; 11719; 11500; 11362; 11503; 11505; 11502; 11501; 11364; 11504; 14208; 11363].
Definition aes128_key5 : list sbox := [aes128_key5_0; aes128_key5_1; aes128_key5_2; aes128_key5_3].
Definition aes128_key6_0 : sbox := SBox
  [14079; 13213; 13197; 14240; 13118; 13077; 12957; 13120; 13079; 13078; 13075; 13901; 14077; 13113; 14238; 13121; 12958; 13906; 13195; 13196; 13490; 13212; 13156; 13153; 13907]
  [(13197, 113, false); (11437, 1, false); (13077, 154, false); (13079, 150, false); (13901, 126, false); (13078, 250, false); (13075, 132, false); (13113, 78, false); (13118, 144, false); (13213, 97, false); (14326, 2, true); (13121, 46, false); (13120, 130, false); (12958, 180, false); (12957, 20, false); (13906, 172, false); (13195, 225, false); (13196, 79, false); (13490, 174, false); (13156, 231, false); (13153, 155, false); (13907, 222, false); (13212, 99, false)]
  [14028; 13915; 13900; 13668; 13918; 13919; 13669; 13243; 14029; 13917; 13679; 14027; 13905; 13680; 13385; 13388; 13916; 13681; 13489; 13247; 13389; 13216; 13914; 13682; 13683; 13422; 13300; 13301; 13217; 13142; 13316; 13246; 13143; 13076; 12482; 13482; 13391; 13280; 13315; 13281; 13145; 13314; 13242; 13158; 13119; 12609; 13026; 13027; 12956; 12768; 12769; 12598; 12474; 12339; 12770; 12764; 12601; 12610; 12606; 12602; 12340; 12139; 8885; 12490; 12762; 12974; 12746; 12604; 12491; 12331; 9024; 12351; 12976; 12483; 12623; 12763; 12975; 12756; 12624; 12492; 12969; 12493; 12352; 9636; 12341; 12342; 9159; 13124; 12357; 12478; 12479; 12358; 9354; 12626; 12355; 12356; 12149; 12966; 12150; 9161; 13125; 12625; 12494; 12495; 12333; 9026; 12353; 12354; 12145; 8887; 8701; 8880; 8883; 8879; 8882; 8699; 8881; 8700; 10662; 8512; 8703; 8705; 8698; 8704; 8510; 8702; 8511; 10621; 8273; 8515; 10691; 8517; 8514; 8513; 10583; 8274; 8516; 11172; 8272; 10584].
Definition aes128_key6_1 : sbox := SBox
  [14078; 13210; 13194; 14239; 13112; 13074; 12954; 13117; 13071; 13072; 13073; 13899; 14076; 13116; 14237; 13115; 12955; 13903; 13192; 13193; 13488; 13211; 13154; 13155; 13904]
  [(13194, 113, false); (11404, 1, false); (13074, 154, false); (13071, 150, false); (13899, 126, false); (13072, 250, false); (13073, 132, false); (13116, 78, false); (13112, 144, false); (13210, 97, false); (14327, 2, true); (13115, 46, false); (13117, 130, false); (12955, 180, false); (12954, 20, false); (13903, 172, false); (13192, 225, false); (13193, 79, false); (13488, 174, false); (13154, 231, false); (13155, 155, false); (13904, 222, false); (13211, 99, false)]
  [14024; 13909; 13898; 13666; 13910; 13911; 13667; 13241; 14026; 13913; 13674; 14025; 13902; 13675; 13384; 13386; 13912; 13678; 13487; 13245; 13387; 13214; 13908; 13676; 13677; 13421; 13298; 13299; 13215; 13140; 13313; 13244; 13141; 13070; 12480; 13481; 13390; 13278; 13312; 13279; 13144; 13311; 13240; 13157; 13114; 12605; 13028; 13029; 12953; 12765; 12766; 12596; 12471; 12335; 12767; 12759; 12603; 12608; 12607; 12600; 12336; 12143; 8808; 12488; 12761; 12972; 12745; 12599; 12489; 12329; 8949; 12347; 12973; 12481; 12614; 12760; 12971; 12747; 12611; 12486; 12967; 12487; 12348; 9586; 12337; 12338; 9101; 13123; 12345; 12476; 12477; 12346; 9242; 12612; 12343; 12344; 12147; 12965; 12148; 9099; 13122; 12613; 12484; 12485; 12327; 8947; 12349; 12350; 12141; 8806; 8617; 8799; 8800; 8792; 8797; 8615; 8798; 8616; 8387; 8624; 8625; 8612; 8622; 8385; 8623; 10620; 8386; 8143; 8393; 8396; 11436; 8391; 8389; 8145; 11246; 8395; 11173; 8142; 10585].
Definition aes128_key6_2 : sbox := SBox
  [14032; 13172; 13148; 14155; 13047; 13014; 12846; 13049; 13013; 13011; 13015; 13685; 14030; 13050; 14154; 13051; 12847; 13752; 13147; 13146; 13414; 13173; 13127; 13126; 13753]
  [(13148, 113, false); (11363, 1, false); (13014, 154, false); (13013, 150, false); (13685, 126, false); (13011, 250, false); (13015, 132, false); (13050, 78, false); (13047, 144, false); (13172, 97, false); (14208, 2, true); (13051, 46, false); (13049, 130, false); (12847, 180, false); (12846, 20, false); (13752, 172, false); (13147, 225, false); (13146, 79, false); (13414, 174, false); (13127, 231, false); (13126, 155, false); (13753, 222, false); (13173, 99, false)]
  [13976; 13755; 13684; 13491; 13756; 13757; 13492; 13199; 13975; 13759; 13531; 13974; 13751; 13532; 13332; 13333; 13758; 13535; 13413; 13201; 13334; 13174; 13754; 13533; 13534; 13393; 13248; 13249; 13175; 13091; 13285; 13200; 13092; 13012; 12409; 13395; 13335; 13218; 13284; 13219; 13093; 13283; 13198; 13128; 13048; 12555; 12977; 12978; 12845; 12686; 12687; 12549; 12405; 12247; 12688; 12683; 12550; 12554; 12553; 12551; 12248; 12037; 8752; 12413; 12684; 12852; 12681; 12552; 12414; 12245; 8902; 12255; 12851; 12410; 12559; 12685; 12853; 12682; 12558; 12415; 12849; 12416; 12256; 9539; 12249; 12250; 9046; 13056; 12251; 12407; 12408; 12252; 9182; 12557; 12253; 12254; 12041; 12848; 12042; 9044; 13055; 12556; 12411; 12412; 12243; 8900; 12257; 12258; 12039; 8750; 8556; 8747; 8748; 8744; 8745; 8554; 8746; 8555; 8310; 8559; 8560; 8553; 8557; 8308; 8558; 8309; 8071; 8313; 10692; 8315; 8312; 8311; 8072; 11174; 8314; 11045; 8070].
Definition aes128_key6_3 : sbox := SBox
  [14033; 13170; 13129; 14141; 13020; 12981; 12773; 13017; 12980; 12982; 12983; 13687; 14031; 13018; 14139; 13019; 12772; 13689; 13130; 13131; 13397; 13171; 13095; 13094; 13690]
  [(13129, 113, false); (11438, 1, false); (12981, 154, false); (12980, 150, false); (13687, 126, false); (12982, 250, false); (12983, 132, false); (13018, 78, false); (13020, 144, false); (13170, 97, false); (11689, 2, true); (13019, 46, false); (13017, 130, false); (12772, 180, false); (12773, 20, false); (13689, 172, false); (13130, 225, false); (13131, 79, false); (13397, 174, false); (13095, 231, false); (13094, 155, false); (13690, 222, false); (13171, 99, false)]
  [13922; 13692; 13686; 13493; 13760; 13761; 13494; 13177; 13920; 13694; 13495; 13921; 13688; 13496; 13302; 13303; 13693; 13499; 13396; 13179; 13304; 13149; 13691; 13497; 13498; 13392; 13222; 13223; 13150; 13052; 13250; 13178; 13053; 12979; 12365; 13394; 13336; 13220; 13252; 13221; 13054; 13251; 13176; 13096; 13016; 12509; 12913; 12914; 12771; 12634; 12635; 12503; 12360; 12185; 12636; 12631; 12504; 12508; 12507; 12505; 12186; 11971; 8802; 12369; 12632; 12778; 12629; 12506; 12370; 12183; 8945; 12193; 12777; 12366; 12513; 12633; 12779; 12630; 12512; 12371; 12775; 12372; 12194; 9612; 12187; 12188; 9098; 13022; 12189; 12363; 12364; 12190; 9245; 12511; 12191; 12192; 11975; 12774; 11976; 9096; 13021; 12510; 12367; 12368; 12181; 8943; 12195; 12196; 11973; 8804; 8613; 8795; 8849; 8793; 8794; 8618; 8796; 8614; 8383; 8621; 8663; 8611; 8620; 8382; 8619; 8384; 8140; 8392; 8460; 11297; 8390; 8388; 8144; 11114; 8394; 10990; 8141].
Definition aes128_key6 : list sbox := [aes128_key6_0; aes128_key6_1; aes128_key6_2; aes128_key6_3].
Definition aes128_key7_0 : sbox := SBox
  [10909; 9889; 9848; 11059; 9754; 9707; 9622; 9755; 9706; 9709; 9708; 10629; 10907; 9753; 11057; 9752; 9623; 10633; 9846; 9847; 10295; 9890; 9792; 9793; 10634]
  [(9848, 113, false); (8142, 1, false); (9707, 154, false); (9706, 150, false); (10629, 126, false); (9709, 250, false); (9708, 132, false); (9753, 78, false); (9754, 144, false); (9889, 97, false); (11173, 2, true); (9752, 46, false); (9755, 130, false); (9623, 180, false); (9622, 20, false); (10633, 172, false); (9846, 79, false); (9847, 225, false); (10295, 174, false); (9792, 231, false); (9793, 155, false); (10634, 222, false); (9890, 99, false)]
  [10784; 10641; 10628; 10499; 10666; 10667; 10500; 9906; 10783; 10639; 10504; 10782; 10632; 10505; 10083; 10084; 10638; 10503; 10294; 9908; 10085; 9867; 10640; 10506; 10507; 10255; 9975; 9976; 9868; 9776; 10001; 9907; 9777; 9705; 9165; 10292; 10135; 9967; 10003; 9968; 9778; 10002; 9905; 9796; 9751; 9325; 9685; 9686; 9621; 9531; 9532; 9326; 9160; 9029; 9533; 9530; 9327; 9329; 9330; 9328; 9030; 8884; 5535; 9170; 9528; 9637; 9526; 9335; 9171; 9023; 5657; 9033; 9639; 9164; 9336; 9529; 9638; 9527; 9337; 9172; 9635; 9173; 9034; 6225; 9027; 9028; 5837; 9760; 9037; 9162; 9163; 9038; 6043; 9338; 9035; 9036; 8893; 9634; 8894; 5835; 9759; 9339; 9174; 9175; 9025; 5651; 9031; 9032; 8886; 5529; 5399; 5524; 5527; 5518; 5525; 5397; 5523; 5398; 5229; 5406; 5408; 5393; 5405; 5228; 5404; 5230; 7157; 5050; 5236; 5241; 5234; 5232; 5053; 5239; 7986; 5051; 7116].
Definition aes128_key7_1 : sbox := SBox
  [10829; 9844; 9783; 10981; 9696; 9669; 9577; 9694; 9670; 9667; 9666; 10552; 10828; 9695; 10980; 9697; 9578; 10555; 9784; 9782; 10153; 9845; 9761; 9762; 10553]
  [(9783, 113, false); (8070, 1, false); (9669, 154, false); (9670, 150, false); (10552, 126, false); (9667, 250, false); (9666, 132, false); (9695, 78, false); (9696, 144, false); (9844, 97, false); (11045, 2, true); (9697, 46, false); (9694, 130, false); (9578, 180, false); (9577, 20, false); (10555, 172, false); (9784, 79, false); (9782, 225, false); (10153, 174, false); (9761, 231, false); (9762, 155, false); (10553, 222, false); (9845, 99, false)]
  [10681; 10557; 10551; 10365; 10613; 10614; 10366; 9857; 10682; 10559; 10369; 10680; 10554; 10370; 10006; 10007; 10558; 10371; 10152; 9859; 10008; 9815; 10556; 10367; 10368; 10138; 9913; 9914; 9816; 9727; 9957; 9858; 9728; 9668; 9109; 10151; 10058; 9909; 9956; 9910; 9729; 9955; 9856; 9763; 9693; 9240; 9640; 9641; 9576; 9435; 9436; 9241; 9100; 8956; 9437; 9430; 9248; 9251; 9266; 9249; 8957; 8807; 5489; 9118; 9431; 9589; 9426; 9261; 9119; 8948; 5622; 8964; 9587; 9108; 9257; 9429; 9588; 9427; 9258; 9114; 9585; 9115; 8965; 6206; 8954; 8955; 5798; 9701; 8968; 9104; 9105; 8969; 5998; 9259; 8966; 8967; 8813; 9584; 8814; 5796; 9702; 9260; 9116; 9117; 8946; 5620; 8970; 8971; 8805; 5491; 5357; 5486; 5487; 5483; 5485; 5356; 5484; 5358; 5193; 5361; 5362; 5355; 5360; 5192; 5359; 5194; 7158; 5002; 5197; 5199; 5196; 5195; 5004; 5198; 7912; 5003; 7115].
Definition aes128_key7_2 : sbox := SBox
  [10789; 9813; 9769; 10906; 9678; 9645; 9535; 9676; 9646; 9643; 9642; 10525; 10788; 9677; 10905; 9679; 9536; 10528; 9770; 9768; 10122; 9814; 9732; 9733; 10526]
  [(9769, 113, false); (8141, 1, false); (9645, 154, false); (9646, 150, false); (10525, 126, false); (9643, 250, false); (9642, 132, false); (9677, 78, false); (9678, 144, false); (9813, 97, false); (10990, 2, true); (9679, 46, false); (9676, 130, false); (9536, 180, false); (9535, 20, false); (10528, 172, false); (9770, 79, false); (9768, 225, false); (10122, 174, false); (9732, 231, false); (9733, 155, false); (10526, 222, false); (9814, 99, false)]
  [10658; 10530; 10524; 10330; 10560; 10561; 10331; 9818; 10659; 10532; 10334; 10657; 10527; 10335; 9993; 9994; 10531; 10336; 10121; 9820; 9995; 9785; 10529; 10332; 10333; 10087; 9881; 9882; 9786; 9698; 9917; 9819; 9699; 9644; 9050; 10120; 10009; 9879; 9916; 9880; 9700; 9915; 9817; 9734; 9675; 9184; 9616; 9617; 9534; 9351; 9352; 9183; 9045; 8905; 9353; 9349; 9185; 9189; 9188; 9186; 8906; 8751; 5531; 9055; 9350; 9542; 9346; 9187; 9056; 8901; 5655; 8907; 9540; 9049; 9190; 9348; 9541; 9347; 9191; 9051; 9538; 9052; 8908; 6227; 8903; 8904; 5840; 9680; 8911; 9047; 9048; 8912; 6045; 9192; 8909; 8910; 8753; 9537; 8754; 5838; 9681; 9193; 9053; 9054; 8899; 5653; 8913; 8914; 8749; 5533; 5395; 5521; 5526; 5517; 5520; 5394; 5519; 5396; 5226; 5402; 5407; 5392; 5401; 5225; 5400; 5227; 5048; 5235; 5240; 5233; 5231; 5052; 5237; 7837; 5049].
Definition aes128_key7_3 : sbox := SBox
  [10910; 9887; 9810; 11060; 9725; 9692; 9574; 9726; 9688; 9690; 9691; 10631; 10908; 9724; 11058; 9722; 9575; 10637; 9812; 9811; 10670; 10297; 9888; 9779; 9780; 10635]
  [(9810, 113, false); (8272, 1, false); (9692, 154, false); (9688, 150, false); (10631, 126, false); (9690, 250, false); (9691, 132, false); (9724, 78, false); (9725, 144, false); (9887, 97, false); (11172, 2, true); (9722, 46, false); (9726, 130, false); (9575, 180, false); (9574, 20, false); (10637, 172, false); (9812, 79, false); (9811, 225, false); (10297, 174, true); (9779, 231, false); (9780, 155, false); (10635, 222, false); (9888, 99, false)]
  [10786; 10643; 10630; 10501; 10668; 10669; 10502; 9876; 10787; 10645; 10510; 10785; 10636; 10511; 10057; 10136; 10644; 10512; 10296; 10137; 9849; 10642; 10508; 10509; 10256; 9953; 9878; 9954; 9850; 9756; 9979; 9877; 9757; 9687; 9106; 10293; 10086; 9969; 9978; 9970; 9758; 9977; 9875; 9781; 9721; 9252; 9689; 9723; 9573; 9432; 9433; 9246; 9097; 8950; 9434; 9428; 9243; 9247; 9250; 9244; 8951; 8801; 5592; 9112; 9501; 9613; 9499; 9256; 9113; 8944; 5747; 9005; 9614; 9107; 9299; 9502; 9615; 9500; 9253; 9142; 9611; 9143; 9006; 6253; 8952; 8953; 5929; 9731; 8960; 9102; 9103; 8961; 6097; 9254; 8958; 8959; 8811; 9610; 8812; 5927; 9730; 9255; 9110; 9111; 8942; 5698; 8962; 8963; 8803; 5594; 5454; 5589; 5590; 5587; 5588; 5453; 5522; 5455; 5323; 5456; 5458; 5452; 5457; 5322; 5403; 5324; 5165; 5327; 5328; 5326; 5325; 5167; 5238; 7911; 5166].
Definition aes128_key7 : list sbox := [aes128_key7_0; aes128_key7_1; aes128_key7_2; aes128_key7_3].
Definition aes128_key8_0 : sbox := SBox
  [7622; 6514; 6468; 7808; 6351; 6297; 6215; 6343; 6296; 6288; 6289; 7248; 7620; 6349; 7806; 6350; 6214; 7334; 6471; 6470; 7072; 6511; 6421; 6422; 7332]
  [(6468, 113, false); (5003, 1, false); (6297, 154, false); (6296, 150, false); (7248, 126, false); (6288, 250, false); (6289, 132, false); (6349, 78, false); (6351, 144, false); (6514, 97, false); (7912, 2, true); (6350, 46, false); (6343, 130, false); (6214, 180, false); (6215, 20, false); (7334, 172, false); (6471, 79, false); (6470, 225, false); (7072, 174, false); (6421, 231, false); (6422, 155, false); (7332, 222, false); (6511, 99, false)]
  [7533; 7346; 7247; 7130; 7341; 7342; 7131; 6544; 7535; 7344; 7185; 7534; 7333; 7186; 6874; 6877; 7343; 7182; 7071; 6548; 6878; 6517; 7345; 7183; 7184; 6941; 6660; 6661; 6518; 6394; 6708; 6547; 6395; 6295; 5848; 6995; 6880; 6578; 6710; 6579; 6397; 6709; 6543; 6426; 6342; 6057; 6276; 6277; 6213; 6162; 6163; 6044; 5836; 5664; 6164; 6153; 6052; 6058; 6053; 6048; 5665; 5534; 2135; 5865; 6158; 6233; 6149; 6047; 5866; 5656; 2281; 5670; 6228; 5845; 6062; 6154; 6229; 6151; 6059; 5851; 6224; 5852; 5671; 2761; 5658; 5659; 2490; 6355; 5668; 5841; 5842; 5669; 2595; 6060; 5666; 5667; 5536; 6222; 5537; 2492; 6356; 6061; 5849; 5850; 5650; 2223; 5672; 5673; 5528; 2133; 2030; 2127; 2131; 2126; 2128; 2031; 2091; 2032; 3688; 1930; 2033; 2037; 2029; 2034; 1931; 2004; 1932; 3625; 1778; 1933; 5000; 1234; 1929; 1394; 1146; 3686; 1895; 4660; 1779; 3690].
Definition aes128_key8_1 : sbox := SBox
  [7612; 6475; 6435; 7797; 6307; 6280; 6200; 6308; 6281; 6278; 6282; 7210; 7611; 6309; 7796; 6306; 6201; 7253; 6437; 6436; 6997; 6476; 6400; 6401; 7251]
  [(6435, 113, false); (5049, 1, false); (6280, 154, false); (6281, 150, false); (7210, 126, false); (6278, 250, false); (6282, 132, false); (6309, 78, false); (6307, 144, false); (6475, 97, false); (7837, 2, true); (6306, 46, false); (6308, 130, false); (6201, 180, false); (6200, 20, false); (7253, 172, false); (6437, 79, false); (6436, 225, false); (6997, 174, false); (6400, 231, false); (6401, 155, false); (7251, 222, false); (6476, 99, false)]
  [7439; 7259; 7209; 7096; 7254; 7255; 7097; 6532; 7441; 7257; 7135; 7440; 7252; 7136; 6767; 6768; 7256; 7132; 6996; 6534; 6769; 6477; 7258; 7133; 7134; 6926; 6580; 6581; 6478; 6352; 6662; 6533; 6353; 6279; 5801; 6934; 6770; 6549; 6664; 6550; 6354; 6663; 6531; 6403; 6305; 6003; 6255; 6256; 6199; 6131; 6132; 5999; 5797; 5625; 6133; 6128; 6002; 6005; 6004; 6001; 5626; 5488; 2165; 5809; 6130; 6209; 6126; 6000; 5810; 5621; 2333; 5631; 6207; 5802; 6008; 6129; 6208; 6127; 6006; 5805; 6205; 5806; 5632; 2790; 5623; 5624; 2536; 6311; 5633; 5799; 5800; 5634; 2639; 6007; 5629; 5630; 5492; 6204; 5493; 2538; 6310; 6009; 5807; 5808; 5619; 2283; 5635; 5636; 5490; 2167; 2057; 2158; 2162; 2156; 2159; 2058; 2129; 2059; 3687; 1964; 2063; 2067; 2055; 2064; 1965; 2035; 1966; 3624; 1821; 1970; 4941; 1411; 1962; 1635; 1335; 4713; 1935; 3753; 1822; 3689].
Definition aes128_key8_2 : sbox := SBox
  [7621; 6512; 6472; 7807; 6346; 6292; 6211; 6347; 6293; 6290; 6294; 7246; 7619; 6348; 7805; 6345; 6212; 7331; 6473; 6469; 7070; 6513; 6419; 6420; 7329]
  [(6472, 113, false); (5166, 1, false); (6292, 154, false); (6293, 150, false); (7246, 126, false); (6290, 250, false); (6294, 132, false); (6348, 78, false); (6346, 144, false); (6512, 97, false); (7911, 2, true); (6345, 46, false); (6347, 130, false); (6212, 180, false); (6211, 20, false); (7331, 172, false); (6473, 79, false); (6469, 225, false); (7070, 174, false); (6419, 231, false); (6420, 155, false); (7329, 222, false); (6513, 99, false)]
  [7530; 7340; 7245; 7128; 7337; 7338; 7129; 6542; 7532; 7336; 7180; 7531; 7330; 7181; 6873; 6875; 7335; 7177; 7069; 6546; 6876; 6515; 7339; 7178; 7179; 6940; 6658; 6659; 6516; 6392; 6705; 6545; 6393; 6291; 5846; 6994; 6879; 6576; 6707; 6577; 6396; 6706; 6541; 6425; 6344; 6054; 6274; 6275; 6210; 6159; 6160; 6046; 5839; 5662; 6161; 6155; 6051; 6056; 6055; 6050; 5663; 5530; 2251; 5857; 6157; 6232; 6150; 6049; 5858; 5654; 2436; 5676; 6230; 5847; 6065; 6156; 6231; 6152; 6063; 5853; 6226; 5854; 5677; 2854; 5660; 5661; 2610; 6358; 5678; 5843; 5844; 5679; 2690; 6064; 5674; 5675; 5538; 6223; 5539; 2612; 6357; 6066; 5855; 5856; 5652; 2391; 5680; 5681; 5532; 2253; 2110; 2247; 2249; 2246; 2248; 2111; 2198; 2112; 2016; 2113; 2115; 2109; 2114; 2017; 2081; 2018; 1899; 2019; 4999; 1349; 2015; 1579; 1258; 4768; 1993; 3754; 1900].
Definition aes128_key8_3 : sbox := SBox
  [7739; 6538; 6540; 7922; 6390; 6374; 6261; 6417; 6373; 6323; 7547; 6324; 7383; 7738; 6389; 7921; 6418; 6260; 7400; 6510; 6509; 7101; 6539; 6492; 6493; 7398]
  [(6540, 113, false); (5051, 1, false); (6374, 154, false); (6373, 150, false); (7383, 126, true); (6324, 250, false); (6323, 132, false); (6389, 78, false); (6390, 144, false); (6538, 97, false); (7986, 2, true); (6418, 46, false); (6417, 130, false); (6260, 180, false); (6261, 20, false); (7400, 172, false); (6510, 79, false); (6509, 225, false); (7101, 174, false); (6492, 231, false); (6493, 155, false); (7398, 222, false); (6539, 99, false)]
  [7616; 7406; 7382; 7203; 7401; 7402; 7204; 6655; 7091; 7618; 7404; 7217; 7617; 7399; 7218; 6937; 6938; 7403; 7214; 7100; 6657; 6939; 6552; 7405; 7215; 7216; 7099; 6717; 6718; 6553; 6438; 6925; 6804; 6656; 6439; 6372; 5932; 7012; 6703; 7085; 6806; 6704; 6440; 6805; 6654; 6494; 6416; 6102; 6320; 6321; 6259; 6196; 6388; 6197; 6098; 5928; 5750; 6198; 6182; 6101; 6104; 6537; 6103; 6100; 5751; 5591; 2169; 5940; 6195; 6272; 6192; 6099; 5941; 5746; 2335; 5758; 6322; 6254; 5933; 6105; 6508; 6194; 6271; 6193; 6081; 5938; 6252; 5939; 5759; 2792; 5748; 5749; 2539; 6398; 5760; 5930; 5931; 5761; 2641; 6082; 5756; 5757; 5595; 6270; 5596; 2541; 6399; 6083; 5881; 5882; 5697; 3606; 2285; 5762; 5763; 5593; 2171; 2060; 2160; 2163; 2157; 2161; 2061; 2130; 3552; 2062; 1967; 2065; 2068; 2056; 2066; 1968; 2036; 3447; 1969; 1823; 1971; 3806; 1350; 1963; 1577; 1286; 4897; 1934; 3553; 1824].
Definition aes128_key8 : list sbox := [aes128_key8_0; aes128_key8_1; aes128_key8_2; aes128_key8_3].
Definition aes128_key9_0 : sbox := SBox
  [4401; 3078; 3076; 4552; 2906; 2891; 2779; 2940; 2886; 2861; 4226; 2860; 4034; 4463; 2905; 4551; 2947; 2778; 4037; 3039; 3038; 3701; 3081; 3028; 3027; 4035]
  [(3076, 113, false); (1822, 1, false); (2891, 154, false); (2886, 150, false); (4034, 126, true); (2860, 250, false); (2861, 132, false); (2905, 78, false); (2906, 144, false); (3078, 97, false); (3753, 2, true); (2947, 46, false); (2940, 130, false); (2778, 180, false); (2779, 20, false); (4037, 172, false); (3039, 79, false); (3038, 225, false); (3701, 174, false); (3028, 231, false); (3027, 155, false); (4035, 222, false); (3081, 99, false)]
  [4275; 4039; 4033; 3835; 4130; 4131; 3836; 3220; 3699; 4274; 4041; 3839; 4273; 4036; 3840; 3585; 3586; 4040; 3841; 3700; 3222; 3587; 3162; 4038; 3837; 3838; 3727; 3394; 3395; 3163; 2995; 3526; 3442; 3221; 2996; 2885; 2496; 3620; 3296; 3635; 3444; 3297; 2997; 3443; 3219; 3029; 2939; 2602; 2857; 2858; 2777; 2712; 2904; 2713; 2596; 2491; 2288; 2711; 2680; 2599; 2600; 3077; 2601; 2598; 2289; 2134; 259; 2497; 2707; 2793; 2705; 2597; 2498; 2280; 287; 2290; 2859; 2762; 2495; 2603; 3037; 2708; 2794; 2706; 2564; 2499; 2760; 2500; 2291; 1184; 2286; 2287; 692; 2907; 2292; 2493; 2494; 2293; 1324; 2565; 2294; 2295; 2136; 2788; 2137; 334; 2908; 2566; 2427; 2428; 2222; 289; 2296; 2297; 2132; 261; 321; 429; 1185; 898; 1396; 1178; 394; 303; 352; 541; 786; 1269; 986; 1442; 568; 392; 449; 354; 277; 368; 372; 376; 281].
Definition aes128_key9_1 : sbox := SBox
  [4464; 3157; 3154; 4587; 2943; 2913; 2803; 2989; 2912; 2893; 4286; 2890; 4089; 4523; 2942; 4586; 2990; 2800; 4118; 3079; 3073; 3729; 3161; 3044; 3045; 4116]
  [(3154, 113, false); (1900, 1, false); (2913, 154, false); (2912, 150, false); (4089, 126, true); (2890, 250, false); (2893, 132, false); (2942, 78, false); (2943, 144, false); (3157, 97, false); (3754, 2, true); (2990, 46, false); (2989, 130, false); (2800, 180, false); (2803, 20, false); (4118, 172, false); (3079, 79, false); (3073, 225, false); (3729, 174, false); (3044, 231, false); (3045, 155, false); (4116, 222, false); (3161, 99, false)]
  [4344; 4123; 4088; 3887; 4180; 4181; 3888; 3289; 3725; 4343; 4125; 3897; 4342; 4117; 3898; 3614; 3616; 4124; 3899; 3728; 3293; 3617; 3200; 4122; 3895; 3896; 3746; 3438; 3439; 3201; 3019; 3581; 3467; 3292; 3020; 2911; 2546; 3633; 3390; 3674; 3470; 3391; 3023; 3469; 3288; 3047; 2988; 2649; 2881; 2882; 2799; 2729; 2941; 2730; 2640; 2537; 2336; 2731; 2709; 2643; 2650; 3156; 2651; 2644; 2337; 2164; 340; 2550; 2725; 2818; 2721; 2645; 2551; 2332; 521; 2344; 2889; 2795; 2547; 2655; 3072; 2726; 2819; 2723; 2604; 2552; 2789; 2553; 2345; 1351; 2338; 2339; 980; 2948; 2346; 2542; 2543; 2347; 1581; 2605; 2348; 2349; 2172; 2816; 2173; 1259; 2949; 2606; 2501; 2502; 2282; 529; 2350; 2351; 2166; 344; 305; 439; 1299; 900; 1508; 1220; 447; 309; 271; 358; 1093; 1235; 777; 903; 714; 366; 275; 461; 657; 661; 665; 465].
Definition aes128_key9_2 : sbox := SBox
  [4573; 3229; 3227; 4684; 3018; 3012; 2871; 3041; 3011; 2971; 4459; 2970; 4218; 4623; 3017; 4683; 3042; 2870; 4221; 3199; 3198; 3794; 3230; 3186; 3187; 4219]
  [(3227, 113, false); (1824, 1, false); (3012, 154, false); (3011, 150, false); (4218, 126, true); (2970, 250, false); (2971, 132, false); (3017, 78, false); (3018, 144, false); (3229, 97, false); (3553, 2, true); (3042, 46, false); (3041, 130, false); (2870, 180, false); (2871, 20, false); (4221, 172, false); (3199, 79, false); (3198, 225, false); (3794, 174, false); (3186, 231, false); (3187, 155, false); (4219, 222, false); (3230, 99, false)]
  [4462; 4223; 4217; 3970; 4284; 4285; 3971; 3435; 3792; 4461; 4225; 3974; 4460; 4220; 3975; 3671; 3672; 4224; 3976; 3793; 3437; 3673; 3342; 4222; 3972; 3973; 3855; 3548; 3549; 3343; 3120; 3632; 3601; 3436; 3121; 3010; 2615; 3717; 3465; 3743; 3603; 3466; 3122; 3602; 3434; 3188; 3040; 2695; 2967; 2968; 2869; 2772; 3016; 2773; 2691; 2611; 2437; 2774; 2755; 2692; 2696; 3228; 2697; 2693; 2438; 2250; 297; 2617; 2770; 2879; 2768; 2694; 2618; 2435; 415; 2441; 2969; 2855; 2616; 2698; 3197; 2771; 2880; 2769; 2673; 2619; 2853; 2620; 2442; 1268; 2439; 2440; 895; 3025; 2443; 2613; 2614; 2444; 1440; 2674; 2445; 2446; 2254; 2878; 2255; 1219; 3026; 2675; 2576; 2577; 2390; 423; 2447; 2448; 2252; 301; 346; 531; 1352; 983; 1583; 1260; 539; 350; 396; 599; 988; 1412; 1020; 779; 519; 607; 400; 378; 549; 553; 557; 382].
Definition aes128_key9_3 : sbox := SBox
  [4465; 3159; 3155; 4588; 2946; 2915; 2804; 2993; 2916; 2892; 4287; 2888; 4101; 4524; 2945; 4639; 2992; 2802; 4121; 3080; 3075; 3731; 3160; 3043; 3046; 4119]
  [(3155, 113, false); (1779, 1, false); (2915, 154, false); (2916, 150, false); (4101, 126, true); (2888, 250, false); (2892, 132, false); (2945, 78, false); (2946, 144, false); (3159, 97, false); (4660, 2, true); (2992, 46, false); (2993, 130, false); (2802, 180, false); (2804, 20, false); (4121, 172, false); (3080, 79, false); (3075, 225, false); (3731, 174, false); (3043, 231, false); (3046, 155, false); (4119, 222, false); (3160, 99, false)]
  [4346; 4127; 4100; 3891; 4182; 4183; 3892; 3291; 3726; 4400; 4129; 3902; 4345; 4120; 3903; 3615; 3618; 4128; 3904; 3730; 3295; 3619; 3202; 4126; 3900; 3901; 3747; 3440; 3441; 3203; 3021; 3582; 3468; 3294; 3022; 2914; 2548; 3634; 3392; 3675; 3472; 3393; 3024; 3471; 3290; 3048; 2991; 2652; 2883; 2884; 2801; 2733; 2944; 2734; 2642; 2540; 2340; 2732; 2710; 2646; 2653; 3158; 2654; 2647; 2341; 2168; 425; 2554; 2727; 2820; 2722; 2648; 2555; 2334; 647; 2352; 2887; 2796; 2549; 2656; 3074; 2728; 2821; 2724; 2607; 2556; 2791; 2557; 2353; 1473; 2342; 2343; 1090; 2950; 2354; 2544; 2545; 2355; 1703; 2608; 2356; 2357; 2174; 2817; 2175; 1336; 2951; 2609; 2503; 2504; 2284; 655; 2358; 2359; 2170; 437; 263; 313; 1186; 709; 1326; 1081; 323; 267; 325; 451; 1023; 1300; 906; 828; 625; 459; 329; 402; 611; 613; 619; 406].
Definition aes128_key9 : list sbox := [aes128_key9_0; aes128_key9_1; aes128_key9_2; aes128_key9_3].
Definition aes128_round1_0 : sbox := SBox
  [33535; 32587; 33712; 33713; 33585; 32761; 32547; 33688; 33538; 33624; 33659; 32324; 32263; 33725; 32045; 32297; 32265; 32239; 32220; 33272; 33571; 32338; 33599; 33629; 32346; 32128; 33383; 32612; 32562; 33042; 32734; 32483; 32482; 33462]
  [(32547, 113, false); (32587, 1, false); (32263, 154, false); (32265, 150, false); (33272, 126, false); (32239, 250, false); (32220, 132, false); (32338, 78, false); (32324, 144, false); (32761, 97, false); (33599, 2, true); (32346, 46, false); (32297, 130, false); (32128, 180, false); (32045, 20, false); (33383, 172, false); (32612, 225, false); (32562, 79, false); (33042, 174, false); (32483, 231, false); (32482, 155, false); (33462, 222, false); (32734, 99, false)]
  [33354; 33284; 33271; 33154; 33460; 33461; 33126; 32701; 33489; 33203; 33316; 33515; 33382; 33317; 32933; 32935; 33202; 33125; 33041; 32718; 32936; 32639; 33283; 33184; 33185; 33071; 32826; 32827; 32640; 32404; 32890; 32717; 32429; 32262; 31551; 33075; 33015; 32780; 32855; 32781; 32405; 32854; 32700; 32481; 32296; 31601; 32160; 32161; 32044; 31961; 31962; 31602; 31469; 31229; 31997; 31891; 31597; 31760; 31614; 31575; 31230; 31083; 31438; 31883; 32132; 31884; 31574; 31439; 31115; 31814; 32077; 31470; 31815; 31486; 31617; 31994; 32081; 31940; 31618; 31487; 31139; 31501; 30628; 32360; 31996; 31344; 31345; 30989; 32015; 31734; 31189; 31468; 31190; 30859; 32359; 31670; 31323; 31324; 30998; 31254; 31255; 31098].
Definition aes128_round1_1 : sbox := SBox
  [33547; 32540; 33719; 33706; 33583; 32684; 32611; 33732; 33549; 33650; 33681; 32332; 32197; 33682; 32084; 32374; 32204; 32222; 32180; 33215; 33554; 32381; 33593; 33613; 32300; 32119; 33456; 32554; 32566; 33088; 32674; 32512; 32497; 33466]
  [(32611, 113, false); (32540, 1, false); (32197, 154, false); (32204, 150, false); (33215, 126, false); (32222, 250, false); (32180, 132, false); (32381, 78, false); (32332, 144, false); (32684, 97, false); (33593, 2, true); (32300, 46, false); (32374, 130, false); (32119, 180, false); (32084, 20, false); (33456, 172, false); (32554, 225, false); (32566, 79, false); (33088, 174, false); (32512, 231, false); (32497, 155, false); (33466, 222, false); (32674, 99, false)]
  [33352; 33315; 33214; 33116; 33419; 33420; 33117; 32731; 33516; 33324; 33222; 33513; 33455; 33223; 32945; 32986; 33323; 33130; 33087; 32742; 32987; 32652; 33314; 33159; 33160; 33048; 32808; 32809; 32653; 32412; 32874; 32741; 32416; 32196; 31307; 33049; 33004; 32814; 32911; 32815; 32413; 32910; 32730; 32492; 32299; 31731; 32166; 32167; 32083; 31923; 31924; 31720; 31308; 31236; 31833; 31834; 31655; 31767; 31719; 31656; 31237; 31106; 31511; 31894; 32094; 31895; 31736; 31512; 31125; 31841; 32047; 31407; 31842; 31396; 31748; 31909; 32067; 31910; 31664; 31397; 31184; 31359; 31164; 32315; 31919; 31429; 31430; 31145; 32069; 31663; 31278; 31353; 31279; 31126; 32392; 31768; 31452; 31453; 31246; 31168; 31169; 30749].
Definition aes128_round1_2 : sbox := SBox
  [33532; 32565; 33672; 33673; 33539; 32758; 32610; 33704; 33536; 33635; 33675; 32347; 32187; 33660; 32054; 32353; 32261; 32287; 32190; 33254; 33524; 32337; 33594; 33640; 32371; 32005; 33443; 32559; 32560; 33085; 32662; 32494; 32511; 33444]
  [(32610, 113, false); (32565, 1, false); (32187, 154, false); (32261, 150, false); (33254, 126, false); (32287, 250, false); (32190, 132, false); (32337, 78, false); (32347, 144, false); (32758, 97, false); (33594, 2, true); (32371, 46, false); (32353, 130, false); (32005, 180, false); (32054, 20, false); (33443, 172, false); (32559, 225, false); (32560, 79, false); (33085, 174, false); (32494, 231, false); (32511, 155, false); (33444, 222, false); (32662, 99, false)]
  [33345; 33280; 33253; 33133; 33347; 33348; 33134; 32706; 33514; 33282; 33255; 33506; 33442; 33256; 32948; 32968; 33281; 33168; 33084; 32676; 32969; 32643; 33279; 33110; 33111; 33023; 32786; 32787; 32644; 32432; 32869; 32675; 32448; 32186; 31411; 33051; 33005; 32820; 32868; 32821; 32433; 32867; 32705; 32502; 32352; 31776; 32172; 32173; 32004; 31964; 31965; 31687; 31314; 31261; 31820; 31821; 31671; 31772; 31726; 31672; 31262; 30641; 31072; 31423; 31818; 32109; 31819; 31732; 31424; 31163; 31797; 32007; 31544; 31798; 31446; 31589; 31812; 32136; 31813; 31590; 31447; 31212; 31313; 31172; 32355; 31990; 31371; 31372; 30958; 32113; 31627; 31213; 31494; 31214; 31012; 32354; 31723; 31552; 31553; 31021; 31242; 31243; 31135].
Definition aes128_round1_3 : sbox := SBox
  [33534; 32534; 33714; 33737; 33565; 32762; 32570; 33700; 33531; 33622; 33717; 32369; 32272; 33701; 32095; 32377; 32219; 32247; 32273; 33328; 33567; 32349; 33590; 33619; 32305; 32012; 33396; 32606; 32571; 33025; 32767; 32509; 32503; 33399]
  [(32570, 113, false); (32534, 1, false); (32272, 154, false); (32219, 150, false); (33328, 126, false); (32247, 250, false); (32273, 132, false); (32349, 78, false); (32369, 144, false); (32762, 97, false); (33590, 2, true); (32305, 46, false); (32377, 130, false); (32012, 180, false); (32095, 20, false); (33396, 172, false); (32606, 225, false); (32571, 79, false); (33025, 174, false); (32509, 231, false); (32503, 155, false); (33399, 222, false); (32767, 99, false)]
  [33370; 33290; 33327; 33139; 33437; 33438; 33099; 32726; 33505; 33227; 33300; 33518; 33395; 33301; 32932; 32959; 33226; 33098; 33024; 32764; 32960; 32628; 33289; 33120; 33121; 33034; 32802; 32803; 32629; 32414; 32870; 32763; 32415; 32218; 31545; 33072; 33008; 32788; 32862; 32789; 32431; 32861; 32725; 32496; 32304; 31645; 32154; 32155; 32011; 31972; 31973; 31646; 31383; 31270; 31877; 31878; 31626; 31685; 31699; 31583; 31271; 30901; 30922; 31461; 31955; 32089; 31956; 31582; 31462; 30935; 31853; 32130; 31410; 31854; 31401; 31765; 31941; 32049; 31942; 31722; 31402; 31114; 31382; 31113; 32373; 31978; 31301; 31302; 31130; 32009; 31721; 31274; 31508; 31275; 31003; 32372; 31777; 31490; 31491; 31033; 31231; 31232; 30951; 31040].
Definition aes128_round1_4 : sbox := SBox
  [33582; 32598; 33721; 33668; 33533; 32729; 32589; 33709; 33574; 33626; 33702; 32323; 32268; 33666; 32037; 32336; 32179; 32194; 32205; 33197; 33579; 32384; 33596; 33633; 32357; 32085; 33422; 32538; 32607; 33017; 32680; 32520; 32515; 33467]
  [(32589, 113, false); (32598, 1, false); (32268, 154, false); (32179, 150, false); (33197, 126, false); (32194, 250, false); (32205, 132, false); (32384, 78, false); (32323, 144, false); (32729, 97, false); (33596, 2, true); (32357, 46, false); (32336, 130, false); (32085, 180, false); (32037, 20, false); (33422, 172, false); (32538, 225, false); (32607, 79, false); (33017, 174, false); (32520, 231, false); (32515, 155, false); (33467, 222, false); (32680, 99, false)]
  [33423; 33262; 33196; 33169; 33402; 33403; 33129; 32703; 33482; 33330; 33238; 33486; 33421; 33239; 32926; 32949; 33329; 33128; 33016; 32723; 32950; 32649; 33261; 33152; 33153; 33066; 32830; 32831; 32650; 32410; 32923; 32722; 32411; 32178; 31505; 33089; 32990; 32840; 32858; 32841; 32442; 32857; 32702; 32463; 32335; 31657; 32170; 32171; 32036; 31899; 31900; 31600; 31310; 31287; 31931; 31865; 31666; 31689; 31599; 31675; 31288; 31091; 31369; 31976; 32080; 31946; 31667; 31370; 30921; 31873; 32115; 31465; 31866; 31338; 31695; 31786; 32088; 31787; 31696; 31339; 31122; 31309; 30626; 32293; 31945; 31463; 31464; 31008; 32016; 31752; 31186; 31543; 31187; 30865; 32292; 31594; 31448; 31449; 31024; 31283; 31284; 30622].
Definition aes128_round1_5 : sbox := SBox
  [33541; 32603; 33731; 33705; 33542; 32737; 32531; 33692; 33525; 33628; 33728; 32339; 32203; 33670; 32053; 32398; 32217; 32188; 32225; 33237; 33559; 32368; 33595; 33648; 32295; 32043; 33397; 32550; 32553; 33080; 32696; 32489; 32518; 33340]
  [(32531, 113, false); (32603, 1, false); (32203, 154, false); (32217, 150, false); (33237, 126, false); (32188, 250, false); (32225, 132, false); (32368, 78, false); (32339, 144, false); (32737, 97, false); (33595, 2, true); (32295, 46, false); (32398, 130, false); (32043, 180, false); (32053, 20, false); (33397, 172, false); (32550, 225, false); (32553, 79, false); (33080, 174, false); (32489, 231, false); (32518, 155, false); (33340, 222, false); (32696, 99, false)]
  [33447; 33307; 33236; 33131; 33453; 33454; 33132; 32754; 33512; 33326; 33228; 33487; 33341; 33229; 32934; 32984; 33325; 33161; 33079; 32746; 32985; 32641; 33306; 33108; 33109; 33057; 32844; 32845; 32642; 32437; 32856; 32745; 32441; 32202; 31435; 33086; 33006; 32798; 32903; 32799; 32438; 32902; 32753; 32504; 32294; 31683; 32150; 32151; 32042; 31979; 31980; 31684; 31306; 31166; 31831; 31832; 31643; 31761; 31707; 31644; 31167; 31111; 31082; 31319; 31867; 32117; 31868; 31725; 31320; 31195; 31807; 32013; 31454; 31808; 31466; 31628; 31929; 32000; 31930; 31629; 31467; 31215; 31358; 31265; 32362; 31869; 31433; 31434; 31144; 32098; 31753; 31266; 31305; 31267; 31116; 32397; 31625; 31520; 31521; 31188; 31222; 31223; 31099].
Definition aes128_round1_6 : sbox := SBox
  [33529; 32532; 33663; 33726; 33577; 32663; 32609; 33742; 33544; 33639; 33735; 32309; 32214; 33664; 32018; 32321; 32231; 32274; 32210; 33260; 33587; 32328; 33589; 33630; 32334; 32126; 33375; 32613; 32600; 33038; 32733; 32479; 32513; 33359]
  [(32609, 113, false); (32532, 1, false); (32214, 154, false); (32231, 150, false); (33260, 126, false); (32274, 250, false); (32210, 132, false); (32328, 78, false); (32309, 144, false); (32663, 97, false); (33589, 2, true); (32334, 46, false); (32321, 130, false); (32126, 180, false); (32018, 20, false); (33375, 172, false); (32613, 225, false); (32600, 79, false); (33038, 174, false); (32479, 231, false); (32513, 155, false); (33359, 222, false); (32733, 99, false)]
  [33465; 33288; 33259; 33142; 33391; 33392; 33143; 32740; 33509; 33270; 33265; 33478; 33360; 33266; 32967; 32941; 33269; 33148; 33037; 32686; 32942; 32654; 33287; 33162; 33163; 33052; 32782; 32783; 32655; 32439; 32914; 32685; 32455; 32213; 31455; 33053; 33003; 32816; 32882; 32817; 32440; 32881; 32739; 32475; 32320; 31771; 32148; 32149; 32017; 31790; 31791; 31740; 31456; 31181; 31949; 31935; 31591; 31739; 31758; 31686; 31182; 30923; 31394; 31963; 32108; 31800; 31592; 31395; 31123; 31847; 32090; 31554; 31848; 31481; 31619; 31839; 32006; 31811; 31620; 31482; 31185; 31555; 31191; 32393; 31799; 31522; 31523; 30976; 32131; 31770; 31156; 31458; 31157; 31050; 32394; 31564; 31336; 31337; 30987; 31249; 31250; 31134].
Definition aes128_round1_7 : sbox := SBox
  [33526; 32602; 33722; 33723; 33562; 32704; 32579; 33740; 33573; 33638; 33694; 32370; 32286; 33695; 32020; 32376; 32277; 32283; 32255; 33258; 33570; 32308; 33600; 33623; 32382; 32055; 33372; 32577; 32539; 33040; 32757; 32521; 32485; 33410]
  [(32579, 113, false); (32602, 1, false); (32286, 154, false); (32277, 150, false); (33258, 126, false); (32283, 250, false); (32255, 132, false); (32308, 78, false); (32370, 144, false); (32704, 97, false); (33600, 2, true); (32382, 46, false); (32376, 130, false); (32055, 180, false); (32020, 20, false); (33372, 172, false); (32577, 225, false); (32539, 79, false); (33040, 174, false); (32521, 231, false); (32485, 155, false); (33410, 222, false); (32757, 99, false)]
  [33369; 33313; 33257; 33182; 33361; 33362; 33181; 32673; 33503; 33209; 33308; 33497; 33371; 33309; 32930; 32964; 33208; 33180; 33039; 32667; 32965; 32630; 33312; 33118; 33119; 33033; 32834; 32835; 32631; 32408; 32886; 32666; 32436; 32276; 31374; 33078; 33011; 32796; 32892; 32797; 32409; 32891; 32672; 32499; 32375; 31567; 32152; 32153; 32019; 31984; 31985; 31568; 31316; 31276; 31911; 31805; 31636; 31658; 31712; 31637; 31277; 30477; 30754; 31443; 31957; 32111; 31796; 31733; 31444; 30827; 31922; 32107; 31315; 31806; 31408; 31728; 31912; 32068; 31913; 31596; 31409; 31002; 31346; 31056; 30917; 32291; 31795; 31532; 31533; 31032; 32116; 31595; 31216; 31373; 31217; 30844; 30755; 32290; 31738; 31549; 31550; 30821; 31247; 31248; 30735].
Definition aes128_round1_8 : sbox := SBox
  [33566; 32576; 33679; 33710; 33578; 32692; 32563; 33734; 33543; 33621; 33724; 32333; 32177; 33671; 32040; 32343; 32281; 32221; 32240; 33297; 33576; 32325; 33606; 33647; 32327; 32057; 33434; 32595; 32591; 33020; 32695; 32517; 32469; 33389]
  [(32563, 113, false); (32576, 1, false); (32177, 154, false); (32281, 150, false); (33297, 126, false); (32221, 250, false); (32240, 132, false); (32325, 78, false); (32333, 144, false); (32692, 97, false); (33606, 2, true); (32327, 46, false); (32343, 130, false); (32057, 180, false); (32040, 20, false); (33434, 172, false); (32595, 225, false); (32591, 79, false); (33020, 174, false); (32517, 231, false); (32469, 155, false); (33389, 222, false); (32695, 99, false)]
  [33346; 33319; 33296; 33175; 33365; 33366; 33176; 32748; 33480; 33231; 33293; 33510; 33390; 33294; 32979; 32951; 33230; 33177; 33019; 32710; 32952; 32637; 33318; 33155; 33156; 33043; 32828; 32829; 32638; 32443; 32883; 32709; 32451; 32176; 31431; 33044; 33000; 32818; 32894; 32819; 32444; 32893; 32747; 32459; 32326; 31762; 32146; 32147; 32039; 31952; 31953; 31606; 31391; 31220; 31926; 31788; 31665; 31694; 31605; 31631; 31221; 30586; 31526; 31782; 32092; 31783; 31630; 31527; 30906; 31840; 32137; 31517; 31789; 31386; 31640; 31892; 32110; 31893; 31641; 31387; 31150; 31390; 30669; 32303; 31982; 31513; 31514; 30984; 32041; 31654; 31196; 31536; 31197; 30846; 32302; 31745; 31384; 31385; 31006; 31170; 31171; 30716].
Definition aes128_round1_9 : sbox := SBox
  [33527; 32536; 33730; 33684; 33530; 32661; 32585; 33729; 33537; 33632; 33680; 32314; 32185; 33685; 32122; 32331; 32224; 32282; 32211; 33333; 33556; 32395; 33608; 33631; 32396; 32103; 33441; 32564; 32588; 33091; 32766; 32510; 32505; 33380]
  [(32585, 113, false); (32536, 1, false); (32185, 154, false); (32224, 150, false); (33333, 126, false); (32282, 250, false); (32211, 132, false); (32395, 78, false); (32314, 144, false); (32661, 97, false); (33608, 2, true); (32396, 46, false); (32331, 130, false); (32103, 180, false); (32122, 20, false); (33441, 172, false); (32564, 225, false); (32588, 79, false); (33091, 174, false); (32510, 231, false); (32505, 155, false); (33380, 222, false); (32766, 99, false)]
  [33379; 33251; 33332; 33149; 33355; 33356; 33150; 32688; 33517; 33199; 33304; 33496; 33381; 33305; 32927; 32980; 33198; 33151; 33090; 32750; 32981; 32618; 33250; 33135; 33136; 33047; 32848; 32849; 32619; 32402; 32912; 32749; 32403; 32184; 31483; 33061; 33009; 32800; 32917; 32801; 32421; 32916; 32687; 32487; 32330; 31610; 32162; 32163; 32102; 31845; 31846; 31611; 31312; 31160; 31843; 31844; 31749; 31737; 31642; 31706; 31161; 31096; 31364; 31851; 32064; 31852; 31710; 31365; 31258; 31816; 32099; 31539; 31817; 31317; 31764; 31959; 32121; 31958; 31577; 31318; 31209; 31311; 31201; 32322; 31987; 31380; 31381; 31120; 32106; 31576; 31272; 31432; 31273; 31095; 32345; 31730; 31528; 31529; 31183; 31244; 31245; 30765].
Definition aes128_round1_10 : sbox := SBox
  [33553; 32601; 33697; 33707; 33545; 32765; 32551; 33733; 33575; 33634; 33718; 32317; 32233; 33698; 32142; 32399; 32271; 32227; 32212; 33243; 33581; 32380; 33603; 33625; 32387; 32124; 33459; 32557; 32569; 33063; 32724; 32476; 32493; 33393]
  [(32551, 113, false); (32601, 1, false); (32233, 154, false); (32271, 150, false); (33243, 126, false); (32227, 250, false); (32212, 132, false); (32380, 78, false); (32317, 144, false); (32765, 97, false); (33603, 2, true); (32387, 46, false); (32399, 130, false); (32124, 180, false); (32142, 20, false); (33459, 172, false); (32557, 225, false); (32569, 79, false); (33063, 174, false); (32476, 231, false); (32493, 155, false); (33393, 222, false); (32724, 99, false)]
  [33353; 33335; 33242; 33122; 33451; 33452; 33123; 32760; 33485; 33245; 33275; 33479; 33394; 33276; 32958; 32937; 33244; 33127; 33062; 32728; 32938; 32620; 33334; 33172; 33173; 33026; 32842; 32843; 32621; 32400; 32920; 32727; 32401; 32232; 31548; 33027; 33010; 32794; 32866; 32795; 32426; 32865; 32759; 32458; 32386; 31638; 32164; 32165; 32123; 31837; 31838; 31639; 31300; 31268; 31934; 31863; 31662; 31741; 31766; 31585; 31269; 31112; 31087; 31497; 31943; 32048; 31939; 31584; 31498; 30968; 31969; 32070; 31299; 31864; 31303; 31565; 31970; 32104; 31927; 31566; 31304; 31226; 31329; 31204; 32344; 31938; 31488; 31489; 30954; 32079; 31724; 31259; 31457; 31260; 30981; 32379; 31651; 31392; 31393; 31068; 31256; 31257; 31129].
Definition aes128_round1_11 : sbox := SBox
  [33561; 32524; 33689; 33690; 33568; 32679; 32561; 33703; 33555; 33644; 33715; 32361; 32253; 33716; 32065; 32311; 32249; 32241; 32192; 33213; 33546; 32288; 33592; 33627; 32351; 32022; 33464; 32525; 32535; 33059; 32683; 32490; 32478; 33411]
  [(32561, 113, false); (32524, 1, false); (32253, 154, false); (32249, 150, false); (33213, 126, false); (32241, 250, false); (32192, 132, false); (32288, 78, false); (32361, 144, false); (32679, 97, false); (33592, 2, true); (32351, 46, false); (32311, 130, false); (32022, 180, false); (32065, 20, false); (33464, 172, false); (32525, 225, false); (32535, 79, false); (33059, 174, false); (32490, 231, false); (32478, 155, false); (33411, 222, false); (32683, 99, false)]
  [33349; 33221; 33212; 33144; 33413; 33414; 33145; 32669; 33471; 33292; 33234; 33474; 33412; 33235; 32966; 32953; 33291; 33191; 33058; 32744; 32954; 32635; 33220; 33096; 33097; 33018; 32836; 32837; 32636; 32419; 32921; 32743; 32430; 32248; 31321; 33056; 32993; 32832; 32872; 32833; 32420; 32871; 32668; 32466; 32310; 31650; 32158; 32159; 32021; 31901; 31902; 31572; 31322; 31207; 31932; 31933; 31586; 31571; 31681; 31579; 31208; 30593; 31089; 31418; 31983; 32031; 31872; 31578; 31419; 30684; 31784; 32112; 31292; 31785; 31515; 31692; 31835; 32093; 31836; 31693; 31516; 30722; 31475; 30733; 30756; 32367; 31871; 31492; 31493; 30767; 32097; 31705; 31192; 31379; 31193; 30616; 32366; 31703; 31354; 31355; 30697; 31293; 31154; 31155; 30605].
Definition aes128_round1_12 : sbox := SBox
  [33563; 32527; 33727; 33739; 33558; 32682; 32583; 33743; 33584; 33615; 33687; 32301; 32207; 33669; 32096; 32313; 32267; 32191; 32285; 33233; 33550; 32316; 33598; 33614; 32356; 32087; 33378; 32594; 32584; 33070; 32671; 32495; 32523; 33463]
  [(32583, 113, false); (32527, 1, false); (32207, 154, false); (32267, 150, false); (33233, 126, false); (32191, 250, false); (32285, 132, false); (32316, 78, false); (32301, 144, false); (32682, 97, false); (33598, 2, true); (32356, 46, false); (32313, 130, false); (32087, 180, false); (32096, 20, false); (33378, 172, false); (32594, 225, false); (32584, 79, false); (33070, 174, false); (32495, 231, false); (32523, 155, false); (33463, 222, false); (32671, 99, false)]
  [33342; 33205; 33232; 33166; 33373; 33374; 33167; 32752; 33470; 33249; 33336; 33491; 33377; 33337; 32957; 32974; 33248; 33190; 33069; 32678; 32975; 32632; 33204; 33137; 33138; 33073; 32838; 32839; 32633; 32424; 32922; 32677; 32425; 32206; 31332; 33081; 32998; 32810; 32864; 32811; 32445; 32863; 32751; 32474; 32312; 31580; 32174; 32175; 32086; 31896; 31897; 31581; 31333; 31179; 31914; 31889; 31701; 31727; 31769; 31702; 31180; 31100; 31471; 31870; 32139; 31860; 31711; 31472; 31036; 31898; 32008; 31352; 31890; 31405; 31634; 31974; 32056; 31908; 31635; 31406; 31137; 31400; 30632; 32298; 31859; 31524; 31525; 30969; 32026; 31647; 31218; 31480; 31219; 30856; 32350; 31669; 31534; 31535; 31071; 31174; 31175; 30607].
Definition aes128_round1_13 : sbox := SBox
  [33557; 32558; 33661; 33662; 33564; 32691; 32582; 33656; 33540; 33618; 33693; 32342; 32182; 33674; 32134; 32319; 32189; 32252; 32254; 33321; 33548; 32365; 33610; 33617; 32329; 32140; 33351; 32543; 32555; 33077; 32732; 32491; 32498; 33376]
  [(32582, 113, false); (32558, 1, false); (32182, 154, false); (32189, 150, false); (33321, 126, false); (32252, 250, false); (32254, 132, false); (32365, 78, false); (32342, 144, false); (32691, 97, false); (33610, 2, true); (32329, 46, false); (32319, 130, false); (32140, 180, false); (32134, 20, false); (33351, 172, false); (32543, 225, false); (32555, 79, false); (33077, 174, false); (32491, 231, false); (32498, 155, false); (33376, 222, false); (32732, 99, false)]
  [33386; 33217; 33320; 33104; 33363; 33364; 33105; 32712; 33477; 33207; 33338; 33499; 33350; 33339; 32961; 32946; 33206; 33174; 33076; 32716; 32947; 32616; 33216; 33112; 33113; 33028; 32824; 32825; 32617; 32417; 32913; 32715; 32418; 32181; 31541; 33029; 33012; 32784; 32860; 32785; 32452; 32859; 32711; 32471; 32318; 31659; 32168; 32169; 32133; 31827; 31828; 31604; 31349; 31158; 31903; 31822; 31673; 31603; 31773; 31674; 31159; 31104; 31414; 31993; 32072; 31880; 31704; 31415; 31162; 31925; 32129; 31540; 31823; 31518; 31757; 31995; 32050; 31977; 31633; 31519; 31205; 31348; 31173; 32391; 31879; 31403; 31404; 31147; 32078; 31632; 31234; 31442; 31235; 31103; 32390; 31756; 31506; 31507; 31280; 31289; 31290; 30785].
Definition aes128_round1_14 : sbox := SBox
  [33572; 32578; 33708; 33691; 33580; 32736; 32533; 33741; 33560; 33616; 33667; 32289; 32264; 33683; 32030; 32364; 32245; 32242; 32256; 33274; 33586; 32348; 33601; 33645; 32383; 32063; 33457; 32614; 32581; 33083; 32698; 32486; 32480; 33430]
  [(32533, 113, false); (32578, 1, false); (32264, 154, false); (32245, 150, false); (33274, 126, false); (32242, 250, false); (32256, 132, false); (32348, 78, false); (32289, 144, false); (32736, 97, false); (33601, 2, true); (32383, 46, false); (32364, 130, false); (32063, 180, false); (32030, 20, false); (33457, 172, false); (32614, 225, false); (32581, 79, false); (33083, 174, false); (32486, 231, false); (32480, 155, false); (33430, 222, false); (32698, 99, false)]
  [33458; 33278; 33273; 33114; 33445; 33446; 33115; 32690; 33490; 33299; 33240; 33481; 33431; 33241; 32978; 32976; 33298; 33124; 33082; 32756; 32977; 32658; 33277; 33178; 33179; 33030; 32846; 32847; 32659; 32434; 32915; 32755; 32435; 32244; 31547; 33074; 33007; 32850; 32880; 32851; 32454; 32879; 32689; 32460; 32363; 31652; 32156; 32157; 32029; 31829; 31830; 31653; 31357; 31252; 31855; 31856; 31715; 31742; 31680; 31708; 31253; 30941; 31334; 31928; 32071; 31862; 31716; 31335; 31238; 31857; 32138; 31420; 31858; 31325; 31713; 31954; 32038; 31920; 31714; 31326; 31251; 31356; 31206; 32378; 31861; 31362; 31363; 31054; 32141; 31763; 31285; 31376; 31286; 31063; 32389; 31735; 31509; 31510; 30938; 31224; 31225; 31138].
Definition aes128_round1_15 : sbox := SBox
  [33552; 32586; 33696; 33711; 33528; 32670; 32526; 33738; 33551; 33612; 33676; 32388; 32257; 33677; 32127; 32307; 32230; 32270; 32201; 33201; 33569; 32358; 33605; 33646; 32385; 32034; 33450; 32573; 32590; 33046; 32694; 32514; 32507; 33424]
  [(32526, 113, false); (32586, 1, false); (32257, 154, false); (32230, 150, false); (33201, 126, false); (32270, 250, false); (32201, 132, false); (32358, 78, false); (32388, 144, false); (32670, 97, false); (33605, 2, true); (32385, 46, false); (32307, 130, false); (32034, 180, false); (32127, 20, false); (33450, 172, false); (32573, 225, false); (32590, 79, false); (33046, 174, false); (32514, 231, false); (32507, 155, false); (33424, 222, false); (32694, 99, false)]
  [33398; 33264; 33200; 33157; 33387; 33388; 33158; 32721; 33523; 33268; 33194; 33488; 33425; 33195; 32931; 32962; 33267; 33183; 33045; 32708; 32963; 32622; 33263; 33186; 33187; 33054; 32792; 32793; 32623; 32422; 32889; 32707; 32423; 32229; 31416; 33055; 32997; 32812; 32905; 32813; 32453; 32904; 32720; 32470; 32306; 31729; 32144; 32145; 32033; 31885; 31886; 31649; 31417; 31199; 31803; 31804; 31569; 31709; 31648; 31598; 31200; 31109; 31081; 31537; 31967; 32032; 31951; 31570; 31538; 31143; 31151; 31917; 32066; 31504; 31918; 31377; 31668; 31981; 32010; 31794; 31613; 31378; 31194; 31531; 31198; 32341; 31950; 31366; 31367; 31110; 32035; 31612; 31240; 31445; 31241; 31097; 31086; 32340; 31700; 31499; 31500; 31149; 31210; 31211; 31094; 31080].
Definition aes128_round1 : list sbox := [aes128_round1_0; aes128_round1_1; aes128_round1_2; aes128_round1_3; aes128_round1_4; aes128_round1_5; aes128_round1_6; aes128_round1_7; aes128_round1_8; aes128_round1_9; aes128_round1_10; aes128_round1_11; aes128_round1_12; aes128_round1_13; aes128_round1_14; aes128_round1_15].
Definition aes128_round2_0 : sbox := SBox
  [30675; 30891; 31025; 30876; 30877; 30676; 30507; 31105; 31131; 30990; 30991; 30665; 31018; 30816; 31102; 31019; 30680; 30322; 30926; 30925; 30740; 30741; 29345; 29416; 29369; 30911; 30919; 30738; 30739; 30559; 29149; 31052; 30988; 30807; 30808; 30486; 30535; 30997; 30952; 30849; 30850; 30652; 30653; 30500; 30487; 30376; 29010; 30747; 31046; 30761; 30762; 30541; 28813; 29128; 29066; 29027; 29046; 30083; 30331; 29143; 30530; 30407; 29140; 28835; 30162; 29341; 29352; 29872; 29289; 29435; 29273; 30099]
  [(29369, 113, false); (29345, 1, false); (29010, 154, false); (29066, 150, false); (30083, 126, false); (29027, 250, false); (29046, 132, false); (29143, 78, false); (29149, 144, false); (29416, 97, false); (30530, 2, true); (29140, 46, false); (29128, 130, false); (28835, 180, false); (28813, 20, false); (30162, 172, false); (29341, 79, false); (29352, 225, false); (29872, 174, false); (29289, 155, false); (29273, 231, false); (30099, 222, false); (29435, 99, false)]
  [30242; 30156; 30082; 29923; 30160; 30161; 29924; 29534; 30248; 30132; 29954; 30237; 30100; 29955; 29733; 29742; 30131; 29970; 29871; 29483; 29743; 29472; 30155; 29967; 29968; 29815; 29624; 29625; 29473; 29237; 29680; 29482; 29243; 29009; 28247; 29823; 29781; 29570; 29673; 29571; 29238; 29674; 29533; 29274; 29127; 28459; 28925; 28926; 28812; 28714; 28715; 28445; 28172; 27933; 28717; 28605; 28381; 28476; 28444; 28382; 27934; 27826; 27782; 28202; 28702; 28847; 28640; 28430; 28203; 27834; 28652; 28810; 28180; 28606; 28257; 28395; 28700; 28858; 28682; 28396; 28258; 27766; 27901; 28204; 27293; 29142; 28639; 28169; 28170; 27711; 28855; 28495; 28003; 28171; 28004; 27382; 29172; 28417; 28181; 28182; 27664; 27999; 28000; 27781].
Definition aes128_round2_1 : sbox := SBox
  [30964; 30965; 30890; 30891; 30627; 30546; 30454; 30834; 31102; 30967; 30835; 30556; 31124; 30960; 30877; 30824; 30578; 30300; 31023; 30914; 30805; 30806; 29310; 29429; 29354; 30916; 30780; 31052; 30781; 30465; 30536; 30791; 30997; 30792; 30703; 30704; 30479; 30466; 30391; 31131; 30927; 30928; 30748; 30460; 29146; 29016; 30850; 30980; 30858; 30674; 30455; 28866; 29107; 29059; 29013; 29036; 30094; 30309; 29088; 30493; 30399; 29159; 28846; 30154; 29324; 29311; 29861; 29266; 29402; 29296; 30147]
  [(29354, 113, false); (29310, 1, false); (29016, 154, false); (29059, 150, false); (30094, 126, false); (29013, 250, false); (29036, 132, false); (29088, 78, false); (29146, 144, false); (29429, 97, false); (30493, 2, true); (29159, 46, false); (29107, 130, false); (28846, 180, false); (28866, 20, false); (30154, 172, false); (29324, 79, false); (29311, 225, false); (29861, 174, false); (29266, 155, false); (29296, 231, false); (30147, 222, false); (29402, 99, false)]
  [30272; 30174; 30093; 29941; 30127; 30128; 29942; 29513; 30258; 30136; 29948; 30247; 30148; 29949; 29748; 29751; 30135; 29978; 29860; 29489; 29752; 29449; 30173; 30007; 30008; 29820; 29606; 29607; 29450; 29213; 29683; 29488; 29214; 29015; 28120; 29827; 29758; 29576; 29675; 29577; 29245; 29676; 29512; 29255; 29106; 28478; 28960; 28961; 28845; 28668; 28669; 28380; 28121; 28001; 28706; 28637; 28410; 28379; 28458; 28467; 28002; 27800; 28192; 28719; 28840; 28692; 28411; 28193; 27916; 28721; 28821; 28201; 28638; 28130; 28422; 28705; 28834; 28632; 28423; 28131; 27919; 28175; 27920; 29176; 28691; 28205; 28206; 27841; 28851; 28482; 27936; 28251; 27937; 27786; 29175; 28468; 28214; 28215; 27925; 27964; 27965; 27562].
Definition aes128_round2_2 : sbox := SBox
  [30964; 31027; 30815; 30816; 30617; 30618; 30505; 30919; 31124; 31064; 31065; 30702; 31105; 30965; 31047; 31048; 30698; 30285; 30930; 30928; 30744; 30745; 29303; 29356; 29264; 30924; 30925; 30742; 30743; 30519; 29078; 30910; 30916; 30757; 30758; 30428; 30503; 30913; 30914; 30746; 30747; 30600; 30601; 30504; 30429; 30367; 28928; 31016; 31017; 30879; 30880; 30526; 28770; 29025; 28986; 28977; 28957; 30044; 30279; 29005; 30496; 30366; 29007; 28800; 30063; 29305; 29258; 29811; 29246; 29379; 29247; 30055]
  [(29264, 113, false); (29303, 1, false); (28928, 154, false); (28986, 150, false); (30044, 126, false); (28977, 250, false); (28957, 132, false); (29005, 78, false); (29078, 144, false); (29356, 97, false); (30496, 2, true); (29007, 46, false); (29025, 130, false); (28800, 180, false); (28770, 20, false); (30063, 172, false); (29305, 79, false); (29258, 225, false); (29811, 174, false); (29246, 155, false); (29247, 231, false); (30055, 222, false); (29379, 99, false)]
  [30228; 30079; 30043; 29889; 30060; 30061; 29890; 29468; 30225; 30065; 29914; 30230; 30056; 29915; 29723; 29717; 30064; 29922; 29810; 29411; 29718; 29392; 30078; 29910; 29911; 29790; 29586; 29587; 29393; 29147; 29597; 29410; 29148; 28927; 28108; 29797; 29722; 29508; 29626; 29509; 29153; 29627; 29467; 29183; 29006; 28323; 28913; 28914; 28769; 28578; 28579; 28318; 28065; 27892; 28602; 28576; 28330; 28372; 28317; 28325; 27893; 27577; 28081; 28581; 28795; 28582; 28324; 28082; 27885; 28599; 28793; 28068; 28577; 28084; 28364; 28572; 28789; 28573; 28365; 28085; 27878; 28064; 27874; 29019; 28586; 28061; 28062; 27669; 28798; 28368; 27895; 28088; 27896; 27620; 29018; 28363; 28109; 28110; 27668; 27890; 27891; 27762].
Definition aes128_round2_3 : sbox := SBox
  [31027; 30672; 31025; 30878; 30877; 30673; 30524; 31132; 31131; 30982; 30983; 30660; 31066; 31101; 31102; 31067; 30679; 30317; 30926; 30952; 30822; 30823; 29362; 29444; 29325; 30911; 30912; 30759; 30760; 30523; 29091; 30910; 30736; 30988; 30737; 30480; 30535; 30913; 30644; 30889; 30850; 30645; 30552; 30481; 30379; 29055; 31045; 31046; 30885; 30886; 30557; 28873; 29084; 29012; 29065; 29060; 30088; 30332; 29092; 30529; 30378; 29108; 28838; 30115; 29359; 29371; 29853; 29254; 29409; 29297; 30185]
  [(29325, 113, false); (29362, 1, false); (29055, 154, false); (29012, 150, false); (30088, 126, false); (29065, 250, false); (29060, 132, false); (29092, 78, false); (29091, 144, false); (29444, 97, false); (30529, 2, true); (29108, 46, false); (29084, 130, false); (28838, 180, false); (28873, 20, false); (30115, 172, false); (29359, 79, false); (29371, 225, false); (29853, 174, false); (29254, 155, false); (29297, 231, false); (30185, 222, false); (29409, 99, false)]
  [30268; 30134; 30087; 29920; 30110; 30111; 29921; 29503; 30243; 30146; 29987; 30250; 30114; 29988; 29766; 29738; 30145; 30011; 29852; 29495; 29739; 29417; 30133; 29945; 29946; 29812; 29622; 29623; 29418; 29191; 29654; 29494; 29192; 29011; 28155; 29816; 29732; 29560; 29668; 29561; 29195; 29669; 29502; 29267; 29083; 28388; 28969; 28970; 28837; 28628; 28629; 28389; 28156; 27942; 28711; 28622; 28464; 28426; 28473; 28401; 27943; 27812; 27772; 28134; 28720; 28844; 28634; 28447; 28135; 27774; 28722; 28809; 28166; 28623; 28232; 28462; 28724; 28871; 28696; 28443; 28233; 27863; 28196; 27855; 29096; 28633; 28128; 28129; 27824; 28853; 28442; 27970; 28207; 27971; 27694; 29095; 28434; 28149; 28150; 27789; 27950; 27951; 27632].
Definition aes128_round2_4 : sbox := SBox
  [31042; 30829; 30871; 30870; 30623; 30624; 30565; 30896; 31142; 30955; 30956; 30678; 31092; 31093; 31069; 31070; 30649; 30292; 31055; 31010; 30817; 30818; 29368; 29434; 29370; 31078; 31059; 30723; 30724; 30574; 29094; 31041; 31007; 30832; 30833; 30441; 30527; 30985; 30986; 30788; 30789; 30709; 30710; 30532; 30442; 30396; 29037; 30794; 30992; 30851; 30852; 30566; 28842; 29082; 29021; 29069; 29040; 30067; 30318; 29105; 30560; 30406; 29169; 28881; 30138; 29351; 29346; 29851; 29299; 29415; 29288; 30184]
  [(29370, 113, false); (29368, 1, false); (29037, 154, false); (29021, 150, false); (30067, 126, false); (29069, 250, false); (29040, 132, false); (29105, 78, false); (29094, 144, false); (29434, 97, false); (30560, 2, true); (29169, 46, false); (29082, 130, false); (28881, 180, false); (28842, 20, false); (30138, 172, false); (29351, 79, false); (29346, 225, false); (29851, 174, false); (29299, 155, false); (29288, 231, false); (30184, 222, false); (29415, 99, false)]
  [30253; 30193; 30066; 29903; 30143; 30144; 29904; 29524; 30274; 30158; 29990; 30264; 30137; 29991; 29765; 29734; 30157; 30004; 29850; 29505; 29735; 29430; 30192; 29997; 29998; 29829; 29634; 29635; 29431; 29230; 29686; 29504; 29231; 29020; 28177; 29828; 29764; 29584; 29701; 29585; 29244; 29702; 29523; 29268; 29081; 28425; 28995; 28996; 28841; 28708; 28709; 28387; 28153; 27956; 28670; 28646; 28402; 28446; 28386; 28390; 27957; 27704; 28143; 28661; 28811; 28662; 28420; 28144; 27516; 28618; 28823; 28223; 28619; 28216; 28498; 28611; 28808; 28612; 28472; 28217; 27745; 28152; 27235; 29120; 28678; 28183; 28184; 27518; 28874; 28471; 27968; 28189; 27969; 27366; 29122; 28494; 28249; 28250; 27517; 27991; 27992; 27347].
Definition aes128_round2_5 : sbox := SBox
  [31074; 31026; 30828; 30829; 30625; 30561; 30433; 31121; 30957; 30870; 30867; 30554; 31142; 31088; 31009; 30920; 30752; 30571; 30321; 31073; 30939; 30768; 30769; 29365; 29432; 29335; 30945; 30872; 31041; 30873; 30461; 30579; 30881; 30985; 30882; 30700; 30701; 30432; 30462; 30374; 31093; 30940; 30825; 30826; 30464; 29121; 29041; 30789; 31062; 30864; 30648; 30453; 28865; 29170; 29039; 29017; 29014; 30074; 30316; 29125; 30482; 30395; 29162; 30097; 28878; 29349; 29358; 29849; 29261; 29433; 29287; 30164]
  [(29335, 113, false); (29365, 1, false); (29041, 154, false); (29039, 150, false); (30074, 126, false); (29017, 250, false); (29014, 132, false); (29125, 78, false); (29121, 144, false); (29432, 97, false); (30482, 2, true); (29162, 46, false); (29170, 130, false); (30097, 172, false); (28878, 180, false); (28865, 20, false); (29349, 79, false); (29358, 225, false); (29849, 174, false); (29261, 155, false); (29287, 231, false); (30164, 222, false); (29433, 99, false)]
  [30257; 30176; 30073; 29929; 30118; 30119; 29930; 29540; 30267; 30121; 29964; 30259; 30098; 29965; 29757; 29767; 30120; 29959; 29848; 29515; 29768; 29442; 30175; 29985; 29986; 29824; 29602; 29603; 29443; 29187; 29666; 29514; 29252; 29038; 28256; 29830; 29724; 29564; 29670; 29565; 29188; 29671; 29539; 29256; 29161; 28493; 28984; 28985; 28864; 28663; 28664; 28392; 28195; 27947; 28671; 28672; 28484; 28492; 28391; 28409; 27948; 27783; 27806; 28138; 28607; 28854; 28608; 28414; 28139; 27940; 28676; 28857; 28113; 28677; 28145; 28405; 28626; 28862; 28627; 28406; 28146; 27935; 28218; 27949; 29114; 28695; 28210; 28211; 27842; 28843; 28440; 27954; 28194; 27955; 27822; 29113; 28485; 28185; 28186; 27979; 28114; 27926; 27927; 27776].
Definition aes128_round2_6 : sbox := SBox
  [31026; 30970; 30895; 30896; 30638; 30639; 30394; 31121; 31078; 30903; 30904; 30635; 31092; 31074; 30973; 30974; 30699; 30333; 31004; 30766; 30621; 30573; 29316; 29401; 29376; 30945; 30946; 30838; 30839; 30467; 30584; 30939; 30793; 30794; 30692; 30693; 30387; 30468; 30369; 31009; 31010; 30809; 30810; 30582; 29093; 29058; 31043; 31044; 30774; 30775; 30588; 28849; 29116; 29049; 29047; 29045; 30081; 30329; 29100; 30413; 30368; 29086; 28875; 30113; 29360; 29344; 29847; 29405; 29265; 29260; 30183]
  [(29376, 113, false); (29316, 1, false); (29058, 154, false); (29049, 150, false); (30081, 126, false); (29047, 250, false); (29045, 132, false); (29100, 78, false); (29093, 144, false); (29401, 97, false); (30413, 2, true); (29086, 46, false); (29116, 130, false); (28875, 180, false); (28849, 20, false); (30113, 172, false); (29360, 79, false); (29344, 225, false); (29847, 174, false); (29265, 231, false); (29260, 155, false); (30183, 222, false); (29405, 99, false)]
  [30238; 30166; 30080; 29939; 30188; 30189; 29940; 29491; 30254; 30191; 29961; 30263; 30112; 29962; 29754; 29736; 30190; 29947; 29846; 29532; 29737; 29476; 30165; 30002; 30003; 29819; 29608; 29609; 29477; 29189; 29689; 29531; 29222; 29048; 28222; 29831; 29773; 29568; 29688; 29569; 29190; 29687; 29490; 29281; 29085; 28450; 28998; 28999; 28848; 28615; 28616; 28451; 28133; 27960; 28656; 28657; 28393; 28475; 28465; 28394; 27961; 27264; 28240; 28620; 28885; 28621; 28474; 28241; 27939; 28718; 28807; 28132; 28699; 28187; 28469; 28687; 28852; 28658; 28413; 28188; 27941; 28220; 27944; 29167; 28684; 28244; 28245; 27716; 28850; 28412; 27988; 28221; 27989; 27708; 29174; 28431; 28208; 28209; 27728; 27945; 27946; 27835].
Definition aes128_round2_7 : sbox := SBox
  [30970; 30711; 31042; 30869; 30870; 30712; 30506; 30978; 31141; 31142; 30979; 30683; 31133; 31093; 30971; 30972; 30691; 30298; 31055; 30986; 30726; 30727; 29328; 29453; 29315; 31058; 31059; 30786; 30787; 30534; 29154; 30946; 30772; 31007; 30773; 30469; 30527; 31004; 30629; 30790; 30789; 30630; 30514; 30470; 30375; 29062; 31031; 30992; 30842; 30843; 30567; 28833; 29098; 29063; 29026; 29067; 30048; 30323; 29158; 30570; 30401; 29171; 28879; 30107; 29366; 29334; 29841; 29279; 29454; 29282; 30159]
  [(29315, 113, false); (29328, 1, false); (29062, 154, false); (29063, 150, false); (30048, 126, false); (29026, 250, false); (29067, 132, false); (29158, 78, false); (29154, 144, false); (29453, 97, false); (30570, 2, true); (29171, 46, false); (29098, 130, false); (28879, 180, false); (28833, 20, false); (30107, 172, false); (29366, 79, false); (29334, 225, false); (29841, 174, false); (29279, 155, false); (29282, 231, false); (30159, 222, false); (29454, 99, false)]
  [30235; 30117; 30047; 29916; 30125; 30126; 29917; 29538; 30269; 30187; 30000; 30246; 30106; 30001; 29755; 29760; 30186; 29958; 29840; 29501; 29761; 29463; 30116; 29976; 29977; 29817; 29636; 29637; 29464; 29218; 29685; 29500; 29242; 29061; 28246; 29837; 29772; 29550; 29646; 29551; 29219; 29647; 29537; 29277; 29097; 28457; 28931; 28932; 28832; 28613; 28614; 28404; 28158; 27952; 28666; 28630; 28455; 28497; 28403; 28456; 27953; 27575; 28224; 28644; 28820; 28645; 28460; 28225; 27658; 28698; 28814; 28200; 28631; 28238; 28481; 28701; 28822; 28693; 28449; 28239; 27764; 28157; 27793; 27757; 29132; 28683; 28118; 28119; 27760; 28856; 28448; 27982; 28174; 27983; 27544; 29131; 28490; 28136; 28137; 27677; 27746; 27972; 27973; 27561; 27654].
Definition aes128_round2_8 : sbox := SBox
  [30666; 31051; 30812; 30866; 30861; 30667; 30422; 31107; 30848; 30782; 30783; 30513; 30804; 31146; 30770; 30771; 30495; 30327; 30947; 30996; 30612; 30613; 29357; 29457; 29367; 30961; 30962; 30813; 30814; 30443; 30533; 31005; 30948; 30836; 30837; 30689; 30690; 30430; 30444; 30373; 30610; 31077; 31030; 30611; 30515; 29117; 29003; 30598; 30875; 31001; 30599; 30494; 28819; 29138; 29022; 29042; 29070; 30092; 30307; 29126; 30437; 30372; 29152; 28860; 30142; 29350; 29375; 29859; 29291; 29451; 29298; 30095]
  [(29367, 113, false); (29357, 1, false); (29003, 154, false); (29022, 150, false); (30092, 126, false); (29042, 250, false); (29070, 132, false); (29126, 78, false); (29117, 144, false); (29457, 97, false); (30437, 2, true); (29152, 46, false); (29138, 130, false); (28860, 180, false); (28819, 20, false); (30142, 172, false); (29350, 79, false); (29375, 225, false); (29859, 174, false); (29291, 155, false); (29298, 231, false); (30095, 222, false); (29451, 99, false)]
  [30236; 30102; 30091; 29936; 30194; 30195; 29937; 29536; 30255; 30124; 29956; 30244; 30096; 29957; 29769; 29740; 30123; 29966; 29858; 29530; 29741; 29438; 30101; 30005; 30006; 29818; 29600; 29601; 29439; 29185; 29653; 29529; 29225; 29002; 28259; 29836; 29756; 29574; 29650; 29575; 29186; 29651; 29535; 29292; 29137; 28480; 28933; 28934; 28818; 28624; 28625; 28378; 28162; 27980; 28707; 28650; 28489; 28377; 28383; 28419; 27981; 27739; 28228; 28685; 28882; 28686; 28418; 28229; 27604; 28665; 28815; 28161; 28651; 28254; 28438; 28723; 28826; 28690; 28439; 28255; 27869; 27808; 28219; 27268; 29135; 28694; 28159; 28160; 27600; 28839; 28466; 27958; 28163; 27959; 27380; 29134; 28470; 28198; 28199; 27602; 27928; 27929; 27322].
Definition aes128_round2_9 : sbox := SBox
  [30931; 30932; 30811; 30812; 30668; 30525; 30384; 31117; 31020; 30861; 30868; 30583; 31146; 31085; 30995; 30905; 30751; 30577; 30232; 31034; 31022; 30663; 30664; 29156; 29235; 29141; 30959; 30840; 30961; 30841; 30484; 30550; 30883; 31005; 30884; 30685; 30686; 30388; 30485; 30293; 30848; 30640; 30585; 30476; 30385; 28910; 28870; 30837; 31011; 30845; 30694; 30405; 28681; 28900; 28876; 28872; 28863; 29932; 30231; 28893; 30483; 30330; 28895; 28648; 29994; 29160; 29104; 29750; 29050; 29201; 29071; 29971]
  [(29141, 113, false); (29156, 1, false); (28870, 154, false); (28876, 150, false); (29932, 126, false); (28872, 250, false); (28863, 132, false); (28893, 78, false); (28910, 144, false); (29235, 97, false); (30483, 2, true); (28895, 46, false); (28900, 130, false); (28648, 180, false); (28681, 20, false); (29994, 172, false); (29160, 79, false); (29104, 225, false); (29750, 174, false); (29050, 155, false); (29071, 231, false); (29971, 222, false); (29201, 99, false)]
  [30163; 29951; 29931; 29825; 29952; 29953; 29826; 29295; 30261; 30130; 29854; 30122; 29972; 29855; 29638; 29620; 30129; 29839; 29749; 29272; 29621; 29205; 29950; 29844; 29845; 29713; 29446; 29447; 29206; 28937; 29541; 29271; 28941; 28869; 27990; 29714; 29593; 29312; 29506; 29313; 28938; 29507; 29294; 29043; 28894; 28176; 28771; 28772; 28647; 28487; 28488; 28141; 27931; 27828; 28463; 28397; 28124; 28140; 28197; 28154; 27829; 27696; 27977; 28452; 28710; 28453; 28125; 27978; 27818; 28486; 28649; 27932; 28398; 27997; 28212; 28399; 28659; 28400; 28213; 27998; 27827; 27938; 27820; 28904; 28491; 28005; 28006; 27735; 27816; 28617; 28227; 27831; 27930; 27832; 27695; 28924; 28226; 27993; 27994; 27823; 27838; 27839; 27499].
Definition aes128_round2_10 : sbox := SBox
  [30932; 30975; 30803; 30804; 30650; 30651; 30380; 31077; 31117; 30719; 30720; 30551; 30931; 31107; 30887; 30888; 30576; 30326; 30977; 30784; 30715; 30558; 29340; 29462; 29353; 30959; 30953; 30797; 30798; 30457; 30587; 31022; 30874; 30875; 30687; 30688; 30381; 30458; 30383; 30995; 30996; 30656; 30657; 30555; 29139; 29052; 31060; 31061; 30619; 30620; 30538; 28880; 29115; 29068; 29044; 29064; 30052; 30290; 29145; 30414; 30403; 29103; 28817; 30139; 29361; 29314; 29857; 29406; 29253; 29259; 30104]
  [(29353, 113, false); (29340, 1, false); (29052, 154, false); (29068, 150, false); (30052, 126, false); (29044, 250, false); (29064, 132, false); (29145, 78, false); (29139, 144, false); (29462, 97, false); (30414, 2, true); (29103, 46, false); (29115, 130, false); (28817, 180, false); (28880, 20, false); (30139, 172, false); (29361, 79, false); (29314, 225, false); (29857, 174, false); (29253, 231, false); (29259, 155, false); (30104, 222, false); (29406, 99, false)]
  [30273; 30109; 30051; 29927; 30181; 30182; 29928; 29526; 30245; 30152; 29973; 30271; 30105; 29974; 29753; 29779; 30151; 29989; 29856; 29517; 29780; 29465; 30108; 29979; 29980; 29806; 29631; 29632; 29466; 29226; 29658; 29516; 29227; 29051; 28168; 29807; 29777; 29546; 29679; 29547; 29233; 29678; 29525; 29290; 29102; 28496; 28982; 28983; 28816; 28688; 28689; 28385; 28165; 27986; 28653; 28654; 28424; 28477; 28441; 28384; 27987; 27773; 28178; 28667; 28861; 28636; 28421; 28179; 27719; 28679; 28831; 28173; 28660; 28236; 28483; 28703; 28884; 28643; 28433; 28237; 27864; 28164; 27853; 29151; 28635; 28126; 28127; 27733; 28830; 28432; 27984; 28167; 27985; 27594; 29150; 28499; 28147; 28148; 27701; 27975; 27976; 27775].
Definition aes128_round2_11 : sbox := SBox
  [30975; 30646; 31051; 30860; 30861; 30647; 30423; 31140; 30848; 30776; 30777; 30572; 30728; 31148; 31146; 30729; 30553; 30291; 30603; 30947; 30948; 30604; 29372; 29412; 29339; 30953; 30801; 30962; 30802; 30448; 30533; 30977; 30713; 30892; 30837; 30714; 30431; 30449; 30370; 31029; 31030; 30636; 30637; 30537; 29165; 29032; 31075; 31001; 30695; 30696; 30542; 28877; 29089; 29035; 29053; 29073; 30059; 30315; 29168; 30435; 30377; 29080; 28868; 30179; 29317; 29378; 29874; 29452; 29284; 29283; 30140]
  [(29339, 113, false); (29372, 1, false); (29032, 154, false); (29035, 150, false); (30059, 126, false); (29053, 250, false); (29073, 132, false); (29168, 78, false); (29165, 144, false); (29412, 97, false); (30435, 2, true); (29080, 46, false); (29089, 130, false); (28868, 180, false); (28877, 20, false); (30179, 172, false); (29317, 79, false); (29378, 225, false); (29874, 174, false); (29284, 231, false); (29283, 155, false); (30140, 222, false); (29452, 99, false)]
  [30251; 30150; 30058; 29925; 30167; 30168; 29926; 29522; 30256; 30172; 29981; 30275; 30141; 29982; 29778; 29770; 30171; 29975; 29873; 29493; 29771; 29458; 30149; 30009; 30010; 29809; 29616; 29617; 29459; 29208; 29677; 29492; 29224; 29031; 28248; 29808; 29783; 29566; 29690; 29567; 29209; 29691; 29521; 29257; 29079; 28427; 28935; 28936; 28867; 28712; 28713; 28428; 28123; 27962; 28641; 28642; 28407; 28479; 28435; 28429; 27963; 27087; 28190; 28609; 28836; 28610; 28408; 28191; 27458; 28704; 28827; 28142; 28675; 28234; 28461; 28680; 28883; 28655; 28437; 28235; 27548; 28151; 27545; 29144; 28697; 28252; 28253; 27657; 27596; 28859; 28436; 27966; 28122; 27967; 27332; 29173; 28454; 28230; 28231; 27444; 27995; 27996; 27333].
Definition aes128_round2_12 : sbox := SBox
  [30764; 31028; 30847; 30820; 30614; 30615; 30359; 31108; 31119; 30670; 30671; 30420; 30800; 31128; 30707; 30708; 30427; 30276; 31013; 31014; 30520; 30521; 29300; 29338; 29275; 30936; 30937; 30642; 30643; 30445; 30528; 31038; 31039; 30795; 30796; 30633; 30634; 30361; 30446; 30357; 30993; 30994; 30517; 30518; 30424; 29008; 28973; 30732; 31000; 30497; 30498; 30421; 28791; 29034; 28954; 28987; 28942; 30013; 30280; 29072; 30397; 30356; 29054; 28801; 30072; 29293; 29301; 29814; 29329; 29234; 29251; 30075]
  [(29275, 113, false); (29300, 1, false); (28973, 154, false); (28954, 150, false); (30013, 126, false); (28987, 250, false); (28942, 132, false); (29072, 78, false); (29008, 144, false); (29338, 97, false); (30397, 2, true); (29054, 46, false); (29034, 130, false); (28801, 180, false); (28791, 20, false); (30072, 172, false); (29293, 79, false); (29301, 225, false); (29814, 174, false); (29234, 231, false); (29251, 155, false); (30075, 222, false); (29329, 99, false)]
  [30227; 30085; 30012; 29887; 30076; 30077; 29888; 29420; 30226; 30090; 29943; 30234; 30071; 29944; 29710; 29720; 30089; 29919; 29813; 29426; 29721; 29347; 30084; 29905; 29906; 29795; 29588; 29589; 29348; 29123; 29618; 29425; 29133; 28953; 28063; 29796; 29719; 29542; 29630; 29543; 29124; 29629; 29419; 29200; 29033; 28371; 28889; 28890; 28790; 28552; 28553; 28320; 28060; 27917; 28601; 28570; 28313; 28319; 28348; 28314; 27918; 27183; 28111; 28600; 28784; 28594; 28341; 28112; 27710; 28585; 28805; 28059; 28571; 28086; 28331; 28580; 28797; 28556; 28329; 28087; 27819; 28093; 27304; 29076; 28593; 28066; 28067; 27665; 28768; 28328; 27923; 28115; 27924; 27560; 29075; 28332; 28098; 28099; 27663; 27905; 27906; 27358].
Definition aes128_round2_13 : sbox := SBox
  [30966; 30949; 30763; 30764; 30631; 30564; 30360; 31037; 31128; 31035; 30717; 30531; 31136; 30963; 30820; 30854; 30575; 30249; 31076; 30929; 30509; 30510; 29236; 29304; 29204; 30944; 30778; 30936; 30779; 30418; 30492; 30862; 31038; 30863; 30589; 30590; 30363; 30419; 30338; 30933; 30934; 30562; 30563; 30447; 28993; 28903; 30796; 31049; 30855; 30677; 30452; 28755; 28930; 28917; 28901; 28915; 29993; 30270; 28992; 30382; 30337; 28943; 28726; 30024; 29207; 29228; 29787; 29302; 29178; 29099; 30038]
  [(29204, 113, false); (29236, 1, false); (28903, 154, false); (28917, 150, false); (29993, 126, false); (28901, 250, false); (28915, 132, false); (28992, 78, false); (28993, 144, false); (29304, 97, false); (30382, 2, true); (28943, 46, false); (28930, 130, false); (28726, 180, false); (28755, 20, false); (30024, 172, false); (29207, 225, false); (29228, 79, false); (29787, 174, false); (29178, 231, false); (29099, 155, false); (30038, 222, false); (29302, 99, false)]
  [30207; 30019; 29992; 29842; 30029; 30030; 29843; 29333; 30198; 30046; 29900; 30204; 30023; 29901; 29657; 29695; 30045; 29884; 29786; 29389; 29696; 29285; 30018; 29895; 29896; 29731; 29527; 29528; 29286; 29023; 29545; 29388; 29024; 28902; 28020; 29782; 29697; 29403; 29553; 29404; 29030; 29552; 29332; 29129; 28929; 28276; 28828; 28829; 28725; 28545; 28546; 28263; 28021; 27849; 28547; 28544; 28264; 28311; 28265; 28262; 27850; 27743; 28043; 28548; 28733; 28514; 28266; 28044; 27884; 28506; 28759; 28022; 28507; 28053; 28283; 28543; 28737; 28534; 28284; 28054; 27868; 28029; 27875; 28950; 28513; 28017; 28018; 27769; 28754; 28302; 27858; 28042; 27859; 27741; 28994; 28308; 28011; 28012; 27870; 27886; 27887; 27495].
Definition aes128_round2_14 : sbox := SBox
  [30857; 30949; 30799; 30800; 30705; 30706; 30336; 31108; 30966; 30658; 30659; 30438; 31136; 30993; 30594; 30595; 30474; 30239; 30830; 30750; 30606; 30512; 29184; 29276; 29249; 30944; 30853; 30899; 30900; 30410; 30488; 30929; 30731; 30732; 30591; 30592; 30342; 30411; 30339; 31037; 31014; 30580; 30581; 30473; 28944; 28918; 30942; 30943; 30547; 30548; 30439; 28742; 28946; 28909; 28912; 28911; 29984; 30262; 28952; 30364; 30355; 28962; 28752; 30015; 29193; 29203; 29803; 29280; 29166; 29179; 30033]
  [(29249, 113, false); (29184, 1, false); (28918, 154, false); (28909, 150, false); (29984, 126, false); (28912, 250, false); (28911, 132, false); (28952, 78, false); (28944, 144, false); (29276, 97, false); (30364, 2, true); (28962, 46, false); (28946, 130, false); (28752, 180, false); (28742, 20, false); (30015, 172, false); (29193, 79, false); (29203, 225, false); (29803, 174, false); (29166, 231, false); (29179, 155, false); (30033, 222, false); (29280, 99, false)]
  [30206; 30042; 29983; 29862; 30036; 30037; 29863; 29374; 30209; 30035; 29892; 30208; 30014; 29893; 29682; 29698; 30034; 29883; 29802; 29321; 29699; 29269; 30041; 29878; 29879; 29759; 29518; 29519; 29270; 29000; 29558; 29320; 29001; 28908; 28009; 29776; 29652; 29399; 29591; 29400; 29004; 29590; 29373; 29087; 28945; 28310; 28824; 28825; 28741; 28524; 28525; 28273; 28010; 27872; 28518; 28519; 28274; 28277; 28301; 28272; 27873; 27703; 28049; 28508; 28749; 28509; 28275; 28050; 27761; 28504; 28760; 28013; 28505; 28045; 28288; 28523; 28761; 28510; 28289; 28046; 27830; 28016; 27821; 28976; 28517; 28057; 28058; 27609; 28763; 28305; 27879; 28051; 27880; 27491; 28975; 28292; 28007; 28008; 27608; 27846; 27847; 27717].
Definition aes128_round2_15 : sbox := SBox
  [30857; 30654; 31028; 30819; 30820; 30655; 30351; 31118; 31119; 30596; 30597; 30478; 30608; 31127; 31128; 30609; 30463; 30328; 31013; 31039; 30490; 30491; 29212; 29355; 29240; 30853; 30661; 30937; 30662; 30471; 30528; 30893; 30796; 30681; 30830; 30682; 30350; 30472; 30386; 31053; 30994; 30568; 30569; 30440; 28974; 28897; 30999; 31000; 30544; 30545; 30451; 28728; 28964; 28916; 28898; 28899; 30028; 30299; 28991; 30362; 30371; 28959; 28756; 30178; 29211; 29194; 29801; 29377; 29090; 29180; 30180]
  [(29240, 113, false); (29212, 1, false); (28897, 154, false); (28916, 150, false); (30028, 126, false); (28898, 250, false); (28899, 132, false); (28991, 78, false); (28974, 144, false); (29355, 97, false); (30362, 2, true); (28959, 46, false); (28964, 130, false); (28756, 180, false); (28728, 20, false); (30178, 172, false); (29211, 79, false); (29194, 225, false); (29801, 174, false); (29090, 231, false); (29180, 155, false); (30180, 222, false); (29377, 99, false)]
  [30203; 30032; 30027; 29894; 30169; 30170; 29882; 29319; 30252; 30040; 29995; 30260; 30177; 29996; 29681; 29693; 30039; 29881; 29800; 29331; 29694; 29308; 30031; 29885; 29886; 29788; 29480; 29481; 29309; 29028; 29592; 29330; 29029; 28896; 28055; 29789; 29707; 29510; 29579; 29511; 29074; 29578; 29318; 29164; 28958; 28270; 28887; 28888; 28727; 28526; 28527; 28271; 28028; 27861; 28511; 28512; 28278; 28312; 28287; 28261; 27862; 27753; 27726; 28030; 28520; 28762; 28521; 28260; 28031; 27860; 27825; 28515; 28745; 28052; 28516; 28032; 28309; 28502; 28734; 28503; 28304; 28033; 27865; 27833; 28041; 27845; 28949; 28522; 28025; 28026; 27758; 28731; 28303; 27876; 28027; 27877; 27744; 28997; 28269; 28047; 28048; 27867; 27851; 27852; 27754].
Definition aes128_round2 : list sbox := [aes128_round2_0; aes128_round2_1; aes128_round2_2; aes128_round2_3; aes128_round2_4; aes128_round2_5; aes128_round2_6; aes128_round2_7; aes128_round2_8; aes128_round2_9; aes128_round2_10; aes128_round2_11; aes128_round2_12; aes128_round2_13; aes128_round2_14; aes128_round2_15].
Definition aes128_round3_0 : sbox := SBox
  [27502; 27705; 27492; 27493; 27367; 27368; 27169; 27732; 27836; 27712; 27713; 27331; 27791; 27778; 27410; 27681; 27682; 27323; 26925; 27436; 27635; 27636; 27437; 25914; 25955; 25915; 27720; 27721; 27471; 27472; 27166; 25676; 27685; 27686; 27524; 27525; 27092; 27174; 27648; 27649; 27448; 27449; 27282; 27283; 27167; 27093; 26999; 25581; 27420; 27700; 27520; 27521; 27223; 25347; 25614; 25582; 25489; 25490; 26710; 26931; 25661; 27176; 27001; 25609; 25335; 26753; 25889; 25921; 26818; 26457; 25839; 25956; 25838; 26781]
  [(25915, 113, false); (25914, 1, false); (25581, 154, false); (25582, 150, false); (26710, 126, false); (25489, 250, false); (25490, 132, false); (25661, 78, false); (25676, 144, false); (25955, 97, false); (27176, 2, true); (25609, 46, false); (25614, 130, false); (25335, 180, false); (25347, 20, false); (26753, 172, false); (25889, 79, false); (25921, 225, false); (26457, 174, true); (25839, 155, false); (25838, 231, false); (26781, 222, false); (25956, 99, false)]
  [26884; 26794; 26709; 26538; 26791; 26792; 26539; 26026; 26879; 26760; 26591; 26872; 26752; 26592; 26291; 26388; 26759; 26613; 26456; 26389; 25972; 26793; 26611; 26612; 26417; 26158; 26058; 26159; 25973; 25750; 26212; 26057; 25751; 25580; 24670; 26202; 26203; 26025; 25797; 25706; 26427; 26346; 26145; 26305; 26146; 25707; 25608; 24929; 25660; 25449; 25450; 25334; 25187; 25188; 24899; 24656; 24534; 25191; 25079; 24884; 24925; 25954; 24930; 24898; 24535; 24302; 24683; 25173; 25376; 25142; 24885; 24684; 24294; 25488; 25082; 25296; 24672; 25080; 24633; 24938; 25172; 25375; 25149; 24876; 24634; 24416; 24329; 24655; 23850; 25686; 25141; 24743; 24744; 24168; 25310; 24875; 24447; 24666; 24448; 23953; 25687; 24848; 24592; 24593; 24167; 24501; 24502; 24306].
Definition aes128_round3_1 : sbox := SBox
  [27727; 27618; 27501; 27502; 27292; 27188; 27059; 27742; 27613; 27493; 27418; 27147; 27791; 27718; 27531; 27532; 27154; 26915; 27432; 27672; 27579; 27433; 25904; 25880; 25925; 27616; 27469; 27685; 27470; 27068; 27148; 27461; 27648; 27462; 27280; 27281; 27094; 27072; 27069; 26968; 27836; 27591; 27592; 27378; 27115; 25611; 25526; 27449; 27593; 27381; 27247; 27131; 25312; 25656; 25568; 25492; 26813; 25458; 26657; 26902; 25612; 26978; 25681; 25332; 26714; 25847; 25796; 26442; 25819; 25916; 25812; 26696]
  [(25925, 113, false); (25904, 1, false); (25526, 154, false); (25568, 150, false); (26657, 126, true); (25458, 250, false); (25492, 132, false); (25612, 78, false); (25611, 144, false); (25880, 97, false); (27094, 2, true); (25681, 46, false); (25656, 130, false); (25332, 180, false); (25312, 20, false); (26714, 172, false); (25847, 79, false); (25796, 225, false); (26442, 174, false); (25819, 155, false); (25812, 231, false); (26696, 222, false); (25916, 99, false)]
  [26863; 26693; 26656; 26521; 26688; 26689; 26522; 26028; 26397; 26866; 26737; 26569; 26862; 26697; 26570; 26300; 26289; 26736; 26578; 26441; 26056; 26290; 25978; 26692; 26554; 26555; 26431; 26152; 26153; 25979; 25698; 26264; 26185; 26055; 25752; 25525; 24675; 26357; 26107; 26394; 26186; 26108; 25697; 26187; 26027; 25783; 25655; 24972; 25453; 25454; 25311; 25196; 25610; 25197; 24901; 24658; 24485; 25190; 25056; 24923; 24932; 25879; 24900; 24911; 24486; 24338; 24695; 25174; 25379; 25160; 24922; 24696; 24348; 25457; 25081; 25268; 24674; 25057; 24701; 24947; 25795; 25179; 25380; 25158; 24935; 24702; 24496; 24657; 24444; 25540; 25159; 24709; 24710; 24347; 25361; 24934; 24481; 24668; 24482; 24325; 25623; 24817; 24617; 24618; 24409; 24540; 24541; 24133].
Definition aes128_round3_2 : sbox := SBox
  [27618; 27580; 27409; 27410; 27238; 27239; 27125; 27727; 27731; 27732; 27549; 27550; 27324; 27720; 27742; 27623; 27624; 27330; 26869; 27607; 27592; 27387; 27388; 25709; 25848; 25768; 27675; 27636; 27434; 27435; 27130; 25439; 27616; 27595; 27421; 27422; 27041; 27129; 27578; 27579; 27419; 27420; 27248; 27249; 27150; 27123; 27042; 26955; 25434; 27697; 27698; 27511; 27512; 27142; 25202; 25607; 25433; 25446; 26811; 25485; 26587; 26892; 25440; 26958; 25618; 26890; 26636; 25105; 25769; 25767; 26380; 25690; 25818; 25647; 26666]
  [(25768, 113, false); (25709, 1, false); (25434, 154, false); (25433, 150, false); (26587, 126, true); (25485, 250, false); (25446, 132, false); (25440, 78, false); (25439, 144, false); (25848, 97, false); (27150, 2, true); (25618, 46, false); (25607, 130, false); (26636, 172, true); (25105, 180, false); (25202, 20, false); (25769, 79, false); (25767, 225, false); (26380, 174, false); (25690, 155, false); (25647, 231, false); (26666, 222, false); (25818, 99, false)]
  [26838; 26673; 26586; 26472; 26674; 26675; 26473; 25932; 26334; 26837; 26677; 26527; 26836; 26637; 26528; 26238; 26335; 26273; 26676; 26529; 26379; 25875; 26274; 25877; 26672; 26496; 26497; 26374; 26112; 26113; 25878; 25620; 26114; 26217; 26115; 25874; 25708; 25621; 25432; 24518; 26316; 26061; 26358; 26162; 26062; 25682; 26163; 25931; 25624; 25606; 24728; 25445; 25438; 25104; 24873; 24874; 24717; 24515; 24373; 24967; 24964; 24726; 25646; 24729; 25817; 24733; 24716; 24374; 24209; 24186; 24522; 25036; 25227; 24993; 24735; 24523; 24274; 25060; 25294; 24520; 24965; 24542; 24800; 25766; 25037; 25256; 25033; 24753; 24543; 24389; 24514; 24352; 25518; 24992; 24437; 24438; 24126; 25254; 24752; 24375; 24517; 24376; 24054; 25517; 24734; 24524; 24525; 24125; 24381; 24382; 24252].
Definition aes128_round3_3 : sbox := SBox
  [27705; 27498; 27493; 27307; 27580; 27308; 27170; 27837; 27836; 27714; 27715; 27344; 27790; 27791; 27659; 27660; 27354; 26933; 27635; 27649; 27465; 27466; 26007; 25952; 25988; 27730; 27721; 27488; 27489; 27168; 25654; 27595; 27401; 27686; 27402; 27090; 27174; 27505; 27449; 27290; 27578; 27291; 27207; 27157; 27091; 26994; 25664; 27699; 27700; 27509; 27510; 27216; 25404; 25726; 25659; 25553; 26851; 25577; 26704; 26922; 25675; 27002; 25740; 25409; 26780; 25907; 25906; 26459; 25887; 25957; 25893; 26778]
  [(25988, 113, false); (26007, 1, false); (25664, 154, false); (25659, 150, false); (26704, 126, true); (25577, 250, false); (25553, 132, false); (25675, 78, false); (25654, 144, false); (25952, 97, false); (27207, 2, true); (25740, 46, false); (25726, 130, false); (25409, 180, false); (25404, 20, false); (26780, 172, false); (25907, 79, false); (25906, 225, false); (26459, 174, false); (25887, 155, false); (25893, 231, false); (26778, 222, false); (25957, 99, false)]
  [26887; 26749; 26703; 26540; 26797; 26798; 26541; 26080; 26436; 26881; 26773; 26596; 26875; 26779; 26597; 26336; 26331; 26772; 26608; 26458; 26092; 26332; 26044; 26748; 26579; 26580; 26476; 26200; 26201; 26045; 25807; 26306; 26242; 26091; 25808; 25658; 24756; 26381; 26143; 26433; 26254; 26144; 25811; 26255; 26079; 25866; 25725; 25008; 25573; 25574; 25403; 25223; 25653; 25224; 25009; 24757; 24561; 25245; 25167; 25002; 25042; 25951; 25020; 25012; 24562; 24342; 24754; 25216; 25427; 25217; 25003; 24755; 24372; 24473; 25552; 25178; 25317; 24782; 25168; 24791; 25026; 25905; 25239; 25428; 25230; 24977; 24792; 24423; 24772; 24469; 25685; 25237; 24785; 24786; 24396; 25421; 24976; 24563; 24781; 24564; 24291; 25684; 24973; 24678; 24679; 24371; 24421; 24544; 24545; 24392].
Definition aes128_round3_4 : sbox := SBox
  [27392; 27475; 27319; 27320; 27198; 27199; 27113; 27689; 27690; 27552; 27553; 27345; 27415; 27722; 27528; 27529; 27202; 26834; 27506; 27519; 27309; 27310; 25509; 25718; 25510; 27536; 27474; 27359; 27360; 27077; 25323; 27486; 27487; 27352; 27353; 27003; 27074; 27480; 27481; 27348; 27349; 27221; 27222; 27134; 27075; 27004; 26929; 26908; 25341; 27424; 27523; 27295; 27296; 27114; 25121; 25329; 25337; 25342; 26652; 25340; 26520; 27200; 26833; 25382; 26910; 25383; 25122; 26620; 25505; 25511; 26629; 26293; 25484; 25727; 25461; 26609]
  [(25510, 113, false); (25509, 1, false); (25341, 154, false); (25337, 150, false); (26520, 126, true); (25340, 250, false); (25342, 132, false); (25382, 78, false); (25323, 144, false); (25718, 97, false); (27134, 2, true); (25383, 46, false); (25329, 130, false); (25122, 180, false); (25121, 20, false); (26620, 172, false); (25505, 79, false); (25511, 225, false); (26293, 174, true); (25484, 155, false); (25461, 231, false); (26609, 222, true); (25727, 99, false)]
  [26722; 26574; 26519; 26395; 26575; 26576; 26396; 25712; 26267; 26731; 26572; 26452; 26786; 26610; 26453; 26151; 26176; 26571; 26445; 26292; 25714; 25754; 26573; 26424; 26425; 26281; 26284; 25968; 25969; 25755; 25452; 25980; 26116; 25981; 25713; 25477; 25336; 24495; 26164; 26109; 25902; 25982; 25903; 25717; 25441; 25983; 25711; 25442; 25328; 24662; 25282; 25283; 25120; 24950; 24951; 24654; 24440; 24361; 24949; 24879; 24660; 25460; 24663; 24661; 24653; 24362; 24223; 24536; 24970; 25184; 24943; 24659; 24537; 24190; 24948; 25201; 24494; 24880; 24497; 24680; 25504; 24869; 25508; 25192; 24870; 24681; 24498; 24327; 24439; 23951; 25297; 24942; 24538; 24539; 24078; 25077; 24682; 24359; 24493; 24360; 23926; 25298; 24630; 24451; 24452; 24061; 24363; 24364; 23932].
Definition aes128_round3_5 : sbox := SBox
  [27597; 27583; 27391; 27392; 27234; 27151; 27033; 27724; 27627; 27320; 27416; 27120; 27535; 27722; 27515; 27294; 27119; 26874; 27476; 27477; 27355; 27356; 25822; 25890; 25793; 27581; 27311; 27486; 27312; 27034; 27118; 27315; 27480; 27316; 27205; 27206; 27027; 27035; 26954; 27628; 27629; 27393; 27394; 27065; 25571; 25466; 27349; 27490; 27365; 27214; 27053; 25276; 25570; 25464; 25465; 25451; 26603; 26876; 25569; 27054; 26967; 25559; 26649; 25271; 25820; 25823; 26383; 25722; 25891; 25721; 26640]
  [(25793, 113, false); (25822, 1, false); (25466, 154, false); (25464, 150, false); (26603, 126, false); (25465, 250, false); (25451, 132, false); (25569, 78, false); (25571, 144, false); (25890, 97, false); (27054, 2, true); (25559, 46, false); (25570, 130, false); (26649, 172, false); (25271, 180, false); (25276, 20, false); (25820, 79, false); (25823, 225, false); (26383, 174, false); (25722, 155, false); (25721, 231, false); (26640, 222, false); (25891, 99, false)]
  [26824; 26639; 26602; 26470; 26642; 26643; 26471; 25948; 26822; 26651; 26514; 26827; 26641; 26515; 26251; 26244; 26650; 26516; 26382; 25940; 26245; 25869; 26638; 26517; 26518; 26339; 26083; 26084; 25870; 25643; 26140; 25939; 25645; 25463; 24629; 26341; 26256; 26010; 26138; 26011; 25644; 26139; 25947; 25719; 25558; 24832; 25405; 25406; 25270; 25072; 25073; 24830; 24597; 24433; 25074; 25070; 24822; 24833; 24829; 24831; 24434; 24303; 24603; 25071; 25269; 25069; 24823; 24604; 24408; 25062; 25272; 24623; 25063; 24601; 24836; 25048; 25281; 25049; 24837; 24602; 24415; 24598; 24413; 25548; 25068; 24605; 24606; 24304; 25262; 24852; 24431; 24596; 24432; 24299; 25547; 24821; 24624; 24625; 24414; 24406; 24407; 24296].
Definition aes128_round3_6 : sbox := SBox
  [27583; 27584; 27414; 27415; 27250; 27251; 27049; 27536; 27724; 27537; 27538; 27201; 27597; 27690; 27478; 27479; 27204; 26914; 27571; 27500; 27346; 27193; 25873; 25958; 25919; 27581; 27582; 27425; 27426; 27055; 27146; 27477; 27423; 27424; 27243; 27244; 27028; 27056; 26972; 27535; 27519; 27317; 27318; 27139; 25648; 25590; 27526; 27527; 27326; 27327; 27140; 25348; 25680; 25589; 25524; 25591; 26665; 26916; 25677; 27060; 26977; 25679; 25331; 26720; 25920; 25922; 26444; 25967; 25836; 25837; 26718]
  [(25919, 113, false); (25873, 1, false); (25590, 154, false); (25589, 150, false); (26665, 126, false); (25524, 250, false); (25591, 132, false); (25677, 78, false); (25648, 144, false); (25958, 97, false); (27060, 2, true); (25679, 46, false); (25680, 130, false); (25331, 180, false); (25348, 20, false); (26720, 172, false); (25920, 79, false); (25922, 225, false); (26444, 174, false); (25836, 231, false); (25837, 155, false); (26718, 222, false); (25967, 99, false)]
  [26860; 26733; 26664; 26512; 26734; 26735; 26513; 26015; 26865; 26724; 26559; 26856; 26719; 26560; 26312; 26287; 26723; 26568; 26443; 26060; 26288; 25974; 26732; 26565; 26566; 26377; 26134; 26135; 25975; 25699; 26211; 26059; 25749; 25588; 24669; 26376; 26317; 26105; 26214; 26106; 25700; 26213; 26014; 25794; 25678; 24886; 25480; 25481; 25330; 25198; 25199; 24887; 24632; 24442; 25200; 25182; 24866; 24926; 24928; 24867; 24443; 24287; 24705; 25181; 25319; 25157; 24881; 24706; 24324; 25175; 25381; 24677; 25176; 24711; 24940; 25177; 25377; 25161; 24941; 24712; 24492; 24739; 24450; 25688; 25156; 24707; 24708; 24218; 25388; 24946; 24479; 24631; 24480; 24150; 25689; 24868; 24693; 24694; 24251; 24499; 24500; 24349].
Definition aes128_round3_7 : sbox := SBox
  [27475; 27497; 27320; 27363; 27584; 27364; 27132; 27723; 27722; 27507; 27508; 27203; 27736; 27689; 27533; 27534; 27215; 26921; 27506; 27481; 27299; 27300; 25965; 26030; 25959; 27473; 27474; 27313; 27314; 27190; 25735; 27582; 27484; 27487; 27485; 27079; 27504; 27349; 27297; 27571; 27298; 27112; 27133; 27074; 27080; 26995; 25635; 27522; 27523; 27328; 27329; 27191; 25412; 25737; 25672; 25673; 25665; 26708; 26930; 25738; 27000; 25693; 25419; 26766; 25966; 25963; 26482; 25886; 26037; 25896; 26777]
  [(25959, 113, false); (25965, 1, false); (25635, 154, false); (25672, 150, false); (26708, 126, false); (25673, 250, false); (25665, 132, false); (25738, 78, false); (25735, 144, false); (26030, 97, false); (27133, 2, true); (25693, 46, false); (25737, 130, false); (25419, 180, false); (25412, 20, false); (26766, 172, false); (25966, 79, false); (25963, 225, false); (26482, 174, false); (25886, 155, false); (25896, 231, false); (26777, 222, false); (26037, 99, false)]
  [26886; 26800; 26707; 26546; 26795; 26796; 26547; 26096; 26885; 26751; 26615; 26878; 26765; 26616; 26345; 26347; 26750; 26588; 26481; 26073; 26348; 26022; 26799; 26581; 26582; 26428; 26196; 26197; 26023; 25828; 26241; 26072; 25829; 25634; 24764; 26439; 26355; 26178; 26260; 26179; 25830; 26261; 26095; 25899; 25692; 24981; 25630; 25631; 25411; 25247; 25248; 24982; 24761; 24565; 25250; 25231; 25013; 25018; 25004; 25014; 24566; 24343; 24207; 24803; 25210; 25422; 25211; 25015; 24804; 24205; 24474; 25243; 25425; 24760; 25232; 24806; 25022; 25242; 25392; 25213; 24991; 24807; 24401; 24317; 24775; 24370; 24470; 25757; 25212; 24797; 24798; 24395; 25402; 24990; 24552; 24770; 24553; 24280; 25756; 24999; 24795; 24796; 24206; 24578; 24579; 24311].
Definition aes128_round3_8 : sbox := SBox
  [27240; 27587; 27464; 27403; 27404; 27241; 27124; 27740; 27738; 27621; 27622; 27413; 27468; 27749; 27625; 27626; 27218; 26912; 27572; 27606; 27334; 27335; 25776; 25918; 25775; 27567; 27568; 27397; 27398; 27143; 25514; 27589; 27590; 27369; 27370; 27066; 27153; 27601; 27573; 27405; 27406; 27254; 27255; 27122; 27067; 26974; 25435; 27566; 27451; 27338; 27339; 27136; 25203; 25516; 25394; 25436; 25396; 26663; 27217; 26901; 25503; 27149; 26976; 26907; 25507; 27047; 25115; 26702; 25855; 25859; 26740; 26416; 25760; 25882; 25704; 26721]
  [(25775, 113, false); (25776, 1, false); (25435, 154, false); (25394, 150, false); (26663, 126, false); (25436, 250, false); (25396, 132, false); (25503, 78, false); (25514, 144, false); (25918, 97, false); (27149, 2, true); (25507, 46, false); (25516, 130, false); (25115, 180, false); (25203, 20, false); (26702, 172, true); (25855, 79, false); (25859, 225, false); (26416, 174, true); (25760, 155, false); (25704, 231, false); (26721, 222, false); (25882, 99, false)]
  [26859; 26687; 26662; 26506; 26690; 26691; 26507; 25994; 26816; 26671; 26563; 26847; 26701; 26564; 26270; 26438; 26315; 26670; 26525; 26415; 25992; 25871; 26686; 26534; 26535; 26391; 26074; 26075; 25872; 25703; 25545; 26177; 25991; 25619; 25393; 24519; 26399; 26275; 26276; 26101; 26160; 26263; 26102; 25544; 26161; 25993; 25854; 25691; 25506; 24730; 25395; 25502; 25114; 24968; 24969; 24719; 24513; 24386; 24877; 24878; 24727; 24732; 25881; 24731; 24718; 24387; 24231; 24528; 25039; 25255; 25001; 24748; 24529; 24080; 25038; 25258; 24521; 24966; 24582; 24750; 25041; 25774; 25257; 25032; 24751; 24583; 24290; 24512; 23771; 25519; 25000; 24530; 24531; 24001; 25289; 24799; 24377; 24516; 24378; 23854; 25622; 24736; 24526; 24527; 24122; 24379; 24380; 23789].
Definition aes128_round3_9 : sbox := SBox
  [27661; 27662; 27463; 27464; 27267; 27156; 27064; 27610; 27749; 27603; 27417; 27145; 27747; 27630; 27404; 27443; 27155; 26893; 27376; 27614; 27615; 27377; 25849; 25857; 25853; 27738; 27576; 27383; 27384; 27083; 25513; 27655; 27389; 27590; 27390; 27023; 27127; 27252; 27429; 27601; 27430; 27253; 27096; 27063; 27024; 26956; 25444; 27406; 27619; 27379; 27242; 27076; 25286; 25567; 25483; 25437; 26810; 25398; 26632; 26891; 25515; 26957; 25616; 25285; 26669; 25772; 25771; 26373; 25710; 25858; 25759; 26667]
  [(25853, 113, false); (25849, 1, false); (25444, 154, false); (25483, 150, false); (26632, 126, true); (25398, 250, false); (25437, 132, false); (25515, 78, false); (25513, 144, false); (25857, 97, false); (27096, 2, true); (25616, 46, false); (25567, 130, false); (25285, 180, false); (25286, 20, false); (26669, 172, false); (25772, 79, false); (25771, 225, false); (26373, 174, false); (25710, 155, false); (25759, 231, false); (26667, 222, false); (25858, 99, false)]
  [26835; 26679; 26631; 26464; 26680; 26681; 26465; 25996; 26359; 26839; 26683; 26530; 26840; 26668; 26531; 26271; 26277; 26682; 26526; 26372; 25990; 26278; 25923; 26678; 26502; 26503; 26414; 26110; 26111; 25924; 25632; 26216; 26125; 25989; 25633; 25443; 24588; 26318; 26063; 26333; 26170; 26064; 25642; 26171; 25995; 25762; 25566; 24843; 25430; 25431; 25284; 25086; 25512; 25087; 24816; 24589; 24427; 25085; 25040; 24842; 24815; 25856; 24844; 24840; 24428; 24222; 24590; 25061; 25265; 25044; 24841; 24591; 24246; 25397; 25034; 25259; 24612; 25035; 24619; 24845; 25770; 25084; 25261; 25078; 24846; 24620; 24326; 24610; 24350; 25521; 25043; 24615; 24616; 24313; 25287; 24847; 24425; 24611; 24426; 24227; 25520; 24749; 24580; 24581; 24357; 24429; 24430; 24141].
Definition aes128_round3_10 : sbox := SBox
  [27662; 27678; 27467; 27468; 27269; 27270; 27032; 27740; 27687; 27661; 27546; 27547; 27245; 27747; 27567; 27569; 27570; 27233; 26913; 27639; 27494; 27321; 27194; 25908; 25913; 25888; 27655; 27656; 27452; 27453; 27057; 27152; 27284; 27615; 27450; 27451; 27285; 27062; 27026; 27058; 26973; 27610; 27606; 27385; 27386; 27141; 25563; 25578; 27585; 27586; 27411; 27412; 27184; 25343; 25674; 25576; 25491; 26817; 25487; 26661; 26909; 25615; 26975; 25637; 25339; 26717; 25852; 25851; 26430; 25917; 25835; 25834; 26715]
  [(25888, 113, false); (25908, 1, false); (25578, 154, false); (25576, 150, false); (26661, 126, true); (25487, 250, false); (25491, 132, false); (25615, 78, false); (25563, 144, false); (25913, 97, false); (27062, 2, true); (25637, 46, false); (25674, 130, false); (25339, 180, false); (25343, 20, false); (26717, 172, false); (25852, 79, false); (25851, 225, false); (26430, 174, false); (25835, 231, false); (25834, 155, false); (26715, 222, false); (25917, 99, false)]
  [26858; 26730; 26660; 26508; 26725; 26726; 26509; 26020; 26398; 26857; 26745; 26561; 26861; 26716; 26562; 26311; 26285; 26744; 26556; 26429; 26013; 26286; 25970; 26729; 26536; 26537; 26421; 26154; 26155; 25971; 25747; 26262; 26204; 26012; 25748; 25575; 24671; 26356; 26086; 26393; 26210; 26087; 25753; 26209; 26019; 25784; 25636; 24927; 25478; 25479; 25338; 25185; 25562; 25186; 24858; 24665; 24483; 25189; 25050; 24871; 24857; 25912; 24931; 24910; 24484; 24305; 24687; 25100; 25321; 25101; 24872; 24688; 24152; 25486; 25083; 25295; 24673; 25051; 24685; 24939; 25850; 25169; 25322; 25152; 24897; 24686; 24417; 24737; 24412; 25536; 25155; 24697; 24698; 24253; 25360; 24896; 24477; 24664; 24478; 24201; 25535; 24818; 24613; 24614; 24279; 24503; 24504; 24295].
Definition aes128_round3_11 : sbox := SBox
  [27678; 27342; 27587; 27496; 27404; 27343; 27138; 27598; 27748; 27749; 27599; 27246; 27768; 27738; 27611; 27612; 27232; 26932; 27572; 27573; 27374; 27375; 25953; 25930; 25945; 27588; 27568; 27399; 27400; 27165; 25651; 27656; 27564; 27589; 27565; 27088; 27153; 27503; 27406; 27350; 27639; 27351; 27177; 27135; 27089; 26979; 25657; 27605; 27566; 27407; 27408; 27189; 25408; 25729; 25640; 25539; 26853; 25579; 26712; 26928; 25650; 27018; 25736; 25410; 26764; 25911; 25910; 26478; 25943; 25894; 25895; 26782]
  [(25945, 113, false); (25953, 1, false); (25657, 154, false); (25640, 150, false); (26712, 126, true); (25579, 250, false); (25539, 132, false); (25650, 78, false); (25651, 144, false); (25930, 97, false); (27177, 2, true); (25736, 46, false); (25729, 130, false); (25410, 180, false); (25408, 20, false); (26764, 172, false); (25911, 79, false); (25910, 225, false); (26478, 174, false); (25894, 231, false); (25895, 155, false); (26782, 222, false); (25943, 99, false)]
  [26877; 26807; 26711; 26542; 26804; 26805; 26543; 26098; 26437; 26889; 26785; 26618; 26882; 26763; 26619; 26344; 26349; 26784; 26595; 26477; 26094; 26350; 26042; 26806; 26604; 26605; 26479; 26181; 26182; 26043; 25826; 26298; 26243; 26093; 25827; 25639; 24758; 26390; 26123; 26426; 26246; 26124; 25831; 26247; 26097; 25876; 25728; 25019; 25554; 25555; 25407; 25219; 25649; 25220; 24998; 24759; 24550; 25228; 25164; 24987; 25021; 25929; 24997; 24986; 24551; 24114; 24811; 25260; 25429; 25215; 24985; 24812; 24124; 25538; 25166; 25378; 24784; 25165; 24813; 25023; 25909; 25244; 25426; 25209; 25024; 24814; 24199; 24769; 24204; 25638; 25214; 24808; 24809; 24346; 24345; 25391; 25025; 24584; 24802; 24585; 24232; 25683; 24861; 24703; 24704; 24121; 24586; 24587; 24235].
Definition aes128_round3_12 : sbox := SBox
  [27652; 27556; 27440; 27441; 27276; 27277; 27048; 27779; 27431; 27340; 27341; 27208; 27514; 27795; 27336; 27337; 27128; 26911; 27646; 27680; 27212; 27213; 25779; 25964; 25778; 27395; 27633; 27634; 27396; 27105; 27637; 27638; 27445; 27446; 27260; 27261; 27070; 27175; 27106; 26997; 26970; 27729; 27684; 27236; 27237; 27107; 25617; 25586; 27542; 27667; 27209; 27210; 27108; 25345; 27040; 25613; 25584; 25587; 26832; 25585; 26659; 27126; 26906; 25532; 26969; 25565; 25346; 26757; 25773; 25716; 26754; 26423; 25942; 25705; 25702; 26783]
  [(25778, 113, false); (25779, 1, false); (25586, 154, false); (25584, 150, false); (26659, 126, true); (25585, 250, false); (25587, 132, false); (25532, 78, false); (25617, 144, false); (25964, 97, false); (27070, 2, true); (25565, 46, false); (25613, 130, false); (25346, 180, false); (25345, 20, false); (26757, 172, false); (25773, 79, false); (25716, 225, false); (26423, 174, true); (25705, 231, false); (25702, 155, false); (26783, 222, true); (25942, 99, false)]
  [26850; 26747; 26658; 26510; 26742; 26743; 26511; 25998; 26378; 26864; 26728; 26634; 26883; 26756; 26635; 26310; 26314; 26727; 26567; 26422; 25936; 25976; 26746; 26557; 26558; 26392; 26418; 26156; 26157; 25977; 25744; 26279; 26168; 26169; 25935; 25745; 25583; 24635; 26313; 26272; 26103; 26173; 26104; 25941; 25746; 26172; 25997; 25761; 25564; 24933; 25475; 25476; 25344; 25193; 25194; 24912; 24636; 24487; 25195; 25183; 24882; 25701; 24924; 24971; 24883; 24488; 24328; 24691; 25180; 25315; 25136; 24921; 24692; 24248; 25170; 25316; 24676; 25171; 24699; 24936; 25715; 25096; 25777; 25333; 25097; 24937; 24700; 24475; 24331; 24740; 23852; 25447; 25135; 24689; 24690; 24220; 25288; 24945; 24489; 24667; 24490; 23969; 25522; 24944; 24746; 24747; 24210; 24505; 24506; 23934].
Definition aes128_round3_13 : sbox := SBox
  [27691; 27692; 27555; 27556; 27303; 27219; 26988; 27679; 27795; 27709; 27530; 27192; 27785; 27693; 27441; 27554; 27220; 26849; 27650; 27651; 27265; 27266; 25730; 25815; 25742; 27196; 27482; 27637; 27483; 27301; 27302; 26998; 27116; 27706; 27557; 27633; 27558; 27117; 26923; 27431; 27263; 27182; 27086; 26989; 25471; 25414; 27446; 27707; 27559; 27325; 26996; 25235; 25473; 25418; 25420; 25400; 26549; 26852; 25470; 27111; 26926; 25474; 25234; 26607; 25743; 25741; 26338; 25668; 25824; 25671; 26614]
  [(25742, 113, false); (25730, 1, false); (25414, 154, false); (25418, 150, false); (26549, 126, false); (25420, 250, false); (25400, 132, false); (25471, 144, false); (25470, 78, false); (25815, 97, false); (27111, 2, true); (25473, 130, false); (25474, 46, false); (25234, 180, false); (25235, 20, false); (26607, 172, false); (25743, 225, false); (25741, 79, false); (26338, 174, false); (25668, 155, false); (25671, 231, false); (26614, 222, false); (25824, 99, false)]
  [26767; 26585; 26548; 26434; 26621; 26622; 26435; 25901; 26870; 26790; 26460; 26803; 26606; 26461; 26195; 26183; 26789; 26480; 26337; 25868; 26184; 25832; 26584; 26462; 26463; 26302; 26038; 26039; 25833; 25527; 26076; 25867; 25572; 25413; 24569; 26301; 26215; 25949; 26089; 25950; 25528; 26090; 25900; 25641; 25472; 24779; 25306; 25307; 25233; 24983; 24984; 24771; 24560; 24397; 25031; 25030; 24767; 24777; 24778; 24768; 24398; 24224; 24570; 25027; 25251; 24995; 24776; 24571; 24276; 25028; 25229; 24568; 25029; 24574; 24801; 24988; 25246; 24989; 24794; 24575; 24390; 24559; 24351; 25462; 24994; 24576; 24577; 24282; 25236; 24793; 24403; 24567; 24404; 24226; 25482; 24805; 24572; 24573; 24356; 24399; 24400; 23975].
Definition aes128_round3_14 : sbox := SBox
  [27692; 27653; 27513; 27514; 27305; 27306; 27030; 27779; 27691; 27427; 27428; 27181; 27729; 27785; 27456; 27457; 27187; 26953; 27574; 27563; 27357; 27197; 26033; 26088; 26032; 27706; 27647; 27539; 27540; 27109; 27195; 27651; 27541; 27542; 27361; 27362; 27029; 27110; 27025; 27679; 27680; 27271; 27272; 27159; 25821; 25724; 27644; 27645; 27273; 27274; 27160; 25456; 25816; 25695; 25720; 25723; 26771; 26966; 25805; 27061; 27031; 25786; 25459; 26815; 26031; 26035; 26505; 26085; 25946; 25938; 26823]
  [(26032, 113, false); (26033, 1, false); (25724, 154, false); (25695, 150, false); (26771, 126, false); (25720, 250, false); (25723, 132, false); (25805, 78, false); (25821, 144, false); (26088, 97, false); (27061, 2, true); (25786, 46, false); (25816, 130, false); (25459, 180, false); (25456, 20, false); (26815, 172, false); (26031, 79, false); (26035, 225, false); (26505, 174, false); (25946, 231, false); (25938, 155, false); (26823, 222, false); (26085, 99, false)]
  [26904; 26826; 26770; 26593; 26820; 26821; 26594; 26131; 26905; 26829; 26644; 26903; 26814; 26645; 26386; 26384; 26828; 26646; 26504; 26142; 26385; 26081; 26825; 26647; 26648; 26455; 26252; 26253; 26082; 25884; 26299; 26141; 25892; 25694; 24856; 26454; 26375; 26193; 26304; 26194; 25885; 26303; 26130; 25928; 25785; 25088; 25662; 25663; 25455; 25266; 25267; 25065; 24826; 24626; 25263; 25264; 25067; 25064; 25066; 25055; 24627; 24286; 24827; 25278; 25469; 25275; 25054; 24828; 24410; 25279; 25468; 24825; 25273; 24819; 25089; 25280; 25448; 25277; 25090; 24820; 24405; 24849; 24424; 25790; 25274; 24853; 24854; 24318; 25467; 25091; 24599; 24855; 24600; 24138; 25789; 25045; 24834; 24835; 24323; 24594; 24595; 24321].
Definition aes128_round3_15 : sbox := SBox
  [27653; 27278; 27652; 27442; 27441; 27279; 27071; 27809; 27795; 27459; 27460; 27173; 27811; 27431; 27454; 27455; 27186; 26924; 27646; 27638; 27230; 27231; 25960; 26034; 25944; 27647; 27438; 27634; 27439; 27084; 27175; 27447; 27446; 27288; 27574; 27289; 27073; 27085; 26985; 27683; 27684; 27258; 27259; 27158; 25734; 25667; 27666; 27667; 27286; 27287; 27161; 25416; 25739; 25670; 25669; 25652; 26706; 26927; 25731; 27095; 26984; 25733; 25417; 26776; 25962; 25961; 26484; 26036; 25897; 25883; 26768]
  [(25944, 113, false); (25960, 1, false); (25667, 154, false); (25670, 150, false); (26706, 126, false); (25669, 250, false); (25652, 132, false); (25731, 78, false); (25734, 144, false); (26034, 97, false); (27095, 2, true); (25733, 46, false); (25739, 130, false); (25417, 180, false); (25416, 20, false); (26776, 172, false); (25962, 79, false); (25961, 225, false); (26484, 174, false); (25897, 231, false); (25883, 155, false); (26768, 222, false); (26036, 99, false)]
  [26871; 26762; 26705; 26544; 26787; 26788; 26545; 26100; 26888; 26802; 26600; 26873; 26769; 26601; 26343; 26324; 26801; 26617; 26483; 26078; 26325; 26040; 26761; 26589; 26590; 26432; 26198; 26199; 26041; 25813; 26259; 26077; 25814; 25666; 24783; 26440; 26321; 26147; 26258; 26148; 25825; 26257; 26099; 25898; 25732; 25017; 25556; 25557; 25415; 25252; 25253; 25011; 24774; 24554; 25249; 25221; 24996; 25016; 25010; 24979; 24555; 24385; 24341; 24765; 25225; 25423; 25226; 24978; 24766; 24472; 24445; 25241; 25399; 24810; 25222; 24787; 25007; 25240; 25424; 25218; 25006; 24788; 24491; 24773; 24476; 25696; 25238; 24762; 24763; 24388; 25401; 25005; 24546; 24780; 24547; 24322; 24344; 25758; 24980; 24789; 24790; 24422; 24471; 24548; 24549; 24391].
Definition aes128_round3 : list sbox := [aes128_round3_0; aes128_round3_1; aes128_round3_2; aes128_round3_3; aes128_round3_4; aes128_round3_5; aes128_round3_6; aes128_round3_7; aes128_round3_8; aes128_round3_9; aes128_round3_10; aes128_round3_11; aes128_round3_12; aes128_round3_13; aes128_round3_14; aes128_round3_15].
Definition aes128_round4_0 : sbox := SBox
  [23806; 24165; 24057; 23962; 23963; 23807; 23699; 24180; 24066; 24293; 24181; 23797; 24320; 24301; 24172; 24173; 23794; 23431; 24153; 24148; 23958; 23959; 22381; 22449; 22382; 24157; 24158; 23945; 23946; 23697; 22120; 24161; 24162; 23996; 23997; 23578; 23682; 24166; 24154; 23988; 23989; 23809; 23810; 23721; 23683; 23579; 23510; 22047; 24171; 24095; 23948; 23949; 23701; 21815; 22117; 22048; 22045; 22044; 23176; 23433; 22119; 23511; 22118; 21816; 23238; 22384; 22383; 22956; 22285; 22454; 22284; 23239]
  [(22382, 113, false); (22381, 1, false); (22047, 154, false); (22048, 150, false); (23176, 126, false); (22045, 250, false); (22044, 132, false); (22119, 78, false); (22120, 144, false); (22449, 97, false); (23721, 2, true); (22118, 46, false); (22117, 130, false); (21816, 180, false); (21815, 20, false); (23238, 172, false); (22384, 79, false); (22383, 225, false); (22956, 174, false); (22285, 155, false); (22284, 231, false); (23239, 222, false); (22454, 99, false)]
  [23394; 23245; 23175; 23020; 23240; 23241; 23021; 22506; 23392; 23243; 23062; 23393; 23237; 23063; 22781; 22782; 23242; 23066; 22955; 22504; 22783; 22455; 23244; 23064; 23065; 22864; 22638; 22639; 22456; 22201; 22732; 22503; 22202; 22046; 21178; 22865; 22793; 22571; 22679; 22572; 22203; 22680; 22505; 22286; 22116; 21406; 21976; 21977; 21814; 21622; 21623; 21402; 21176; 21005; 21624; 21619; 21404; 21407; 21405; 21401; 21006; 20841; 21186; 21621; 21818; 21616; 21403; 21187; 20873; 21617; 21820; 21179; 21618; 21184; 21411; 21620; 21819; 21614; 21409; 21185; 20875; 20994; 21175; 20353; 22134; 21615; 21182; 21183; 20784; 21817; 21408; 21007; 21177; 21008; 20438; 22135; 21410; 21180; 21181; 20781; 21009; 21010; 20897].
Definition aes128_round4_1 : sbox := SBox
  [24245; 24241; 24056; 24057; 23849; 23745; 23592; 24293; 24151; 23985; 23986; 23704; 24308; 24269; 23963; 24131; 23705; 23466; 24182; 24183; 23990; 23991; 22451; 22500; 22453; 24301; 24155; 24156; 23987; 23618; 22199; 24239; 23994; 24162; 23995; 23590; 23712; 23956; 24166; 23957; 23791; 23792; 23614; 23591; 23515; 22113; 23989; 24200; 23952; 23808; 23634; 21884; 22198; 22115; 22114; 22111; 23236; 23465; 22200; 23629; 23525; 22197; 21885; 23266; 22452; 22450; 22958; 22378; 22499; 22379; 23264]
  [(22453, 113, false); (22451, 1, false); (22113, 154, false); (22115, 150, false); (23236, 126, false); (22114, 250, false); (22111, 132, false); (22200, 78, false); (22199, 144, false); (22500, 97, false); (23629, 2, true); (22197, 46, false); (22198, 130, false); (21885, 180, false); (21884, 20, false); (23266, 172, false); (22452, 79, false); (22450, 225, false); (22958, 174, false); (22378, 155, false); (22379, 231, false); (23264, 222, false); (22499, 99, false)]
  [23416; 23268; 23235; 23060; 23269; 23270; 23061; 22570; 23417; 23272; 23094; 23415; 23265; 23095; 22824; 22825; 23271; 23096; 22957; 22568; 22826; 22501; 23267; 23097; 23098; 22926; 22677; 22678; 22502; 22281; 22780; 22567; 22282; 22112; 21240; 22927; 22827; 22636; 22733; 22637; 22283; 22734; 22569; 22380; 22196; 21467; 22042; 22043; 21883; 21677; 21678; 21464; 21238; 21048; 21679; 21676; 21465; 21468; 21469; 21463; 21049; 20896; 21246; 21672; 21888; 21671; 21466; 21247; 20935; 21674; 21889; 21241; 21675; 21244; 21471; 21673; 21887; 21669; 21472; 21245; 21052; 21237; 21003; 22205; 21670; 21248; 21249; 20924; 21886; 21473; 21050; 21239; 21051; 20898; 22204; 21470; 21242; 21243; 21004; 21053; 21054; 20498].
Definition aes128_round4_2 : sbox := SBox
  [24241; 24242; 24065; 24066; 23857; 23858; 23702; 24245; 24320; 24178; 24179; 23790; 24308; 24157; 24159; 24160; 23795; 23478; 24169; 24156; 23992; 23993; 22514; 22573; 22530; 24147; 24148; 23954; 23955; 23717; 22298; 24239; 24240; 24103; 24104; 23642; 23749; 24228; 24183; 24094; 24095; 23887; 23888; 23711; 23643; 23539; 22219; 24176; 24177; 23941; 23942; 23729; 21989; 22313; 22218; 22222; 22223; 23277; 23493; 22303; 23720; 23549; 22300; 21991; 23321; 22532; 22512; 23038; 22463; 22578; 22460; 23322]
  [(22530, 113, false); (22514, 1, false); (22219, 154, false); (22218, 150, false); (23277, 126, false); (22222, 250, false); (22223, 132, false); (22303, 78, false); (22298, 144, false); (22573, 97, false); (23720, 2, true); (22300, 46, false); (22313, 130, false); (21991, 180, false); (21989, 20, false); (23321, 172, false); (22532, 79, false); (22512, 225, false); (23038, 174, false); (22463, 155, false); (22460, 231, false); (23322, 222, false); (22578, 99, false)]
  [23437; 23360; 23276; 23103; 23373; 23374; 23104; 22651; 23454; 23339; 23178; 23440; 23320; 23179; 22871; 22874; 23338; 23195; 23037; 22647; 22875; 22585; 23359; 23208; 23209; 22962; 22738; 22739; 22586; 22396; 22789; 22646; 22397; 22217; 21353; 22969; 22902; 22682; 22786; 22683; 22400; 22787; 22650; 22471; 22299; 21581; 22130; 22131; 21988; 21803; 21804; 21554; 21333; 21141; 21796; 21791; 21563; 21578; 21579; 21553; 21142; 20982; 20655; 21376; 21774; 22008; 21761; 21561; 21377; 20933; 21778; 22004; 21351; 21779; 21374; 21591; 21777; 22003; 21762; 21592; 21375; 20948; 21332; 20936; 22337; 21760; 21387; 21388; 20888; 21997; 21597; 21149; 21345; 21150; 20672; 22340; 21583; 21378; 21379; 20886; 21165; 21166; 20992].
Definition aes128_round4_3 : sbox := SBox
  [24165; 24052; 23963; 23821; 24242; 23822; 23703; 24300; 24301; 24174; 24175; 23796; 24197; 24307; 24293; 24198; 23798; 23482; 24153; 24154; 23943; 23944; 22526; 22577; 22513; 24164; 24158; 23960; 23961; 23728; 22310; 24240; 24042; 24161; 24043; 23644; 23682; 24060; 23989; 23827; 24228; 23828; 23700; 23645; 23536; 22229; 24170; 24171; 23964; 23965; 23730; 21995; 22317; 22210; 22231; 22230; 23287; 23494; 22316; 23718; 23550; 22302; 21981; 23333; 22519; 22525; 23036; 22457; 22580; 22462; 23331]
  [(22513, 113, false); (22526, 1, false); (22229, 154, false); (22210, 150, false); (23287, 126, false); (22231, 250, false); (22230, 132, false); (22316, 78, false); (22310, 144, false); (22577, 97, false); (23718, 2, true); (22302, 46, false); (22317, 130, false); (21981, 180, false); (21995, 20, false); (23333, 172, false); (22519, 79, false); (22525, 225, false); (23036, 174, false); (22457, 155, false); (22462, 231, false); (23331, 222, false); (22580, 99, false)]
  [23449; 23372; 23286; 23113; 23369; 23370; 23114; 22653; 23450; 23345; 23200; 23448; 23332; 23201; 22870; 22876; 23344; 23202; 23035; 22649; 22877; 22595; 23371; 23198; 23199; 22963; 22742; 22743; 22596; 22394; 22794; 22648; 22395; 22209; 21355; 22970; 22900; 22692; 22795; 22693; 22399; 22796; 22652; 22470; 22301; 21568; 22132; 22133; 21980; 21794; 21795; 21548; 21329; 21133; 21802; 21770; 21566; 21570; 21577; 21547; 21134; 20983; 20927; 21364; 21772; 22006; 21764; 21559; 21365; 21127; 21063; 21790; 22015; 21346; 21771; 21395; 21604; 21789; 22009; 21765; 21601; 21396; 21151; 21064; 21328; 21126; 21058; 22332; 21763; 21362; 21363; 20990; 21062; 21998; 21600; 21131; 21342; 21132; 20804; 20931; 22339; 21598; 21356; 21357; 21128; 21155; 21156; 20985].
Definition aes128_round4_4 : sbox := SBox
  [24016; 24017; 23886; 23885; 23754; 23755; 23631; 24270; 24262; 24107; 24108; 23799; 24140; 24315; 24263; 24129; 24130; 23802; 23400; 24063; 24081; 23873; 23874; 22096; 22256; 22095; 24191; 24006; 23970; 23971; 23599; 21941; 24020; 24021; 23919; 23920; 23518; 23601; 24128; 24062; 23889; 23890; 23743; 23744; 23686; 23596; 23519; 23469; 21904; 24136; 24088; 23978; 23979; 23632; 21626; 21936; 21909; 21899; 21898; 23068; 23397; 21934; 23471; 21937; 21627; 23120; 22240; 22260; 23221; 22839; 22066; 22242; 22068; 23118]
  [(22095, 113, false); (22096, 1, false); (21904, 154, false); (21909, 150, false); (23068, 126, false); (21899, 250, false); (21898, 132, false); (21934, 78, false); (21941, 144, false); (22256, 97, false); (23686, 2, true); (21937, 46, false); (21936, 130, false); (21627, 180, false); (21626, 20, false); (23120, 172, false); (22240, 79, false); (22260, 225, false); (22839, 174, true); (22066, 155, false); (22068, 231, false); (23118, 222, false); (22242, 99, false)]
  [23295; 23148; 23067; 22930; 23143; 23144; 22931; 22424; 23298; 23138; 22982; 23294; 23119; 22983; 22695; 22758; 23137; 22981; 22838; 22361; 22329; 23147; 22988; 22989; 22803; 22536; 22537; 22330; 22058; 22542; 22543; 22360; 22059; 21903; 21027; 22808; 22704; 22705; 22476; 22598; 22643; 22477; 22061; 22599; 22423; 22239; 22069; 21935; 21209; 21897; 21933; 21625; 21454; 21455; 21203; 21017; 20917; 21453; 21448; 21208; 22065; 21211; 22241; 21210; 21202; 20918; 20800; 21041; 21510; 21722; 21490; 21218; 21042; 20627; 21513; 21717; 21028; 21449; 21079; 21282; 21512; 22094; 21712; 21491; 21280; 21080; 20910; 20913; 21016; 20455; 21874; 21489; 21031; 21032; 20625; 21649; 21279; 20915; 21026; 20916; 20408; 22028; 21219; 21037; 21038; 20617; 20919; 20920; 20547].
Definition aes128_round4_5 : sbox := SBox
  [24195; 24289; 24163; 24016; 23950; 23793; 23597; 24275; 24277; 23885; 24055; 23692; 24315; 24100; 24189; 23937; 23691; 23459; 23845; 24011; 24012; 23846; 22429; 22432; 22430; 24283; 23972; 24020; 23973; 23583; 23690; 23800; 23938; 24128; 23939; 23801; 23651; 23595; 23584; 23508; 24046; 24047; 23867; 23868; 23677; 22099; 22067; 23890; 24137; 23925; 23784; 23678; 21833; 22167; 22064; 22033; 23388; 22032; 23229; 23458; 22098; 23512; 22174; 23254; 21828; 22372; 22371; 22944; 22342; 22433; 22341; 23252]
  [(22430, 113, false); (22429, 1, false); (22067, 154, false); (22064, 150, false); (23229, 126, true); (22032, 250, false); (22033, 132, false); (22098, 78, false); (22099, 144, false); (22432, 97, false); (23651, 2, true); (22174, 46, false); (22167, 130, false); (23254, 172, false); (21828, 180, false); (21833, 20, false); (22372, 79, false); (22371, 225, false); (22944, 174, false); (22342, 155, false); (22341, 231, false); (23252, 222, false); (22433, 99, false)]
  [23407; 23258; 23228; 23046; 23259; 23260; 23047; 22548; 22904; 23406; 23256; 23084; 23405; 23253; 23085; 22811; 22812; 23255; 23081; 22943; 22546; 22813; 22492; 23257; 23082; 23083; 22938; 22668; 22669; 22493; 22261; 22761; 22699; 22545; 22262; 22063; 21214; 22847; 22617; 22903; 22710; 22618; 22263; 22711; 22547; 22343; 22166; 21437; 22026; 22027; 21827; 21663; 22097; 21664; 21428; 21207; 21022; 21658; 21611; 21432; 21438; 22431; 21439; 21427; 21023; 20863; 21226; 21653; 21868; 21651; 21431; 21227; 20965; 22031; 21613; 21813; 21215; 21612; 21222; 21440; 22370; 21654; 21869; 21652; 21441; 21223; 20979; 21206; 20963; 22106; 21650; 21224; 21225; 20908; 21853; 21442; 21018; 21213; 21019; 20866; 22107; 21400; 21173; 21174; 20922; 21033; 21034; 20872].
Definition aes128_round4_6 : sbox := SBox
  [24288; 24289; 24139; 24140; 23927; 23928; 23576; 24191; 24275; 24007; 24008; 23742; 24270; 24194; 24195; 23976; 23977; 23758; 23506; 24285; 24142; 23931; 23787; 22483; 22510; 22487; 24283; 24284; 24143; 24144; 23640; 23735; 23929; 24012; 24135; 24136; 23930; 23593; 23587; 23641; 23532; 24100; 24081; 23923; 23924; 23719; 22172; 22138; 24091; 24092; 23894; 23895; 23727; 21834; 22289; 22137; 22226; 23419; 22207; 23281; 23492; 22173; 23566; 22314; 23488; 23326; 21826; 22486; 22485; 23034; 22511; 22405; 22404; 23334]
  [(22487, 113, false); (22483, 1, false); (22138, 154, false); (22137, 150, false); (23281, 126, true); (22207, 250, false); (22226, 132, false); (22173, 78, false); (22172, 144, false); (22510, 97, false); (23593, 2, true); (22314, 46, false); (22289, 130, false); (23326, 172, true); (21826, 180, false); (21834, 20, false); (22486, 79, false); (22485, 225, false); (23034, 174, false); (22405, 231, false); (22404, 155, false); (23334, 222, false); (22511, 99, false)]
  [23442; 23354; 23280; 23107; 23363; 23364; 23108; 22676; 22967; 23447; 23358; 23189; 23441; 23327; 23190; 22925; 22968; 22880; 23357; 23197; 23033; 22608; 22881; 22589; 23353; 23187; 23188; 23023; 22740; 22741; 22590; 22323; 22829; 22748; 22749; 22607; 22482; 22324; 22136; 21216; 22928; 22688; 22964; 22785; 22689; 22398; 22784; 22675; 22344; 22288; 21434; 22206; 22171; 21825; 21660; 21661; 21430; 21205; 21020; 21659; 21655; 21433; 22403; 21436; 22509; 21435; 21429; 21021; 20713; 21232; 21705; 21929; 21700; 21443; 21233; 20907; 21787; 22014; 21217; 21656; 21289; 21504; 22484; 21711; 21928; 21704; 21499; 21290; 20974; 21204; 20962; 22264; 21699; 21228; 21229; 20812; 20986; 21917; 21498; 21024; 21212; 21025; 20670; 22267; 21444; 21230; 21231; 20811; 21039; 21040; 20899].
Definition aes128_round4_7 : sbox := SBox
  [24017; 23884; 23885; 23752; 24288; 23753; 23619; 24261; 24262; 24003; 24004; 23776; 24264; 24315; 24263; 24009; 24010; 23757; 23401; 24063; 24062; 23841; 23842; 22237; 22244; 22238; 24005; 24006; 23861; 23862; 23598; 21940; 24284; 23921; 24021; 23922; 23530; 23601; 23893; 23890; 23740; 24285; 23741; 23684; 23594; 23531; 23468; 21896; 24087; 24088; 23898; 23899; 23633; 21684; 22018; 21893; 21835; 23247; 21830; 23070; 23398; 21939; 23470; 22024; 21681; 23122; 22165; 22164; 22837; 22140; 22255; 22139; 23123]
  [(22238, 113, false); (22237, 1, false); (21896, 154, false); (21893, 150, false); (23070, 126, true); (21830, 250, false); (21835, 132, false); (21939, 78, false); (21940, 144, false); (22244, 97, false); (23684, 2, true); (22024, 46, false); (22018, 130, false); (21681, 180, false); (21684, 20, false); (23122, 172, false); (22165, 79, false); (22164, 225, false); (22837, 174, false); (22140, 155, false); (22139, 231, false); (23123, 222, false); (22255, 99, false)]
  [23296; 23134; 23069; 22932; 23131; 23132; 22933; 22422; 22806; 23299; 23136; 22984; 23297; 23121; 22985; 22696; 22702; 23135; 22990; 22836; 22418; 22703; 22325; 23133; 22986; 22987; 22831; 22534; 22535; 22326; 22056; 22644; 22597; 22417; 22057; 21892; 21077; 22759; 22478; 22805; 22601; 22479; 22062; 22602; 22421; 22149; 22017; 21269; 21823; 21824; 21680; 21515; 21938; 21516; 21261; 21068; 20946; 21517; 21452; 21267; 21270; 22243; 21271; 21260; 20947; 20837; 20802; 21085; 21511; 21714; 21494; 21266; 21086; 20934; 20906; 21829; 21450; 21662; 21078; 21451; 21093; 21283; 22163; 21508; 21715; 21495; 21284; 21094; 20938; 20912; 21067; 20928; 21946; 21493; 21087; 21088; 20842; 20905; 21698; 21293; 20944; 21074; 20945; 20836; 20805; 21945; 21221; 21035; 21036; 20903; 20953; 20954; 20838; 20806].
Definition aes128_round4_8 : sbox := SBox
  [23750; 24031; 23819; 23883; 23812; 23751; 23623; 24217; 24272; 24109; 24110; 23734; 24266; 23911; 24073; 24074; 23746; 23420; 24064; 24086; 23859; 23860; 22287; 22292; 22290; 24098; 24033; 23863; 23864; 23624; 22022; 24000; 24030; 23881; 23882; 23537; 23613; 24024; 24025; 23891; 23892; 23738; 23739; 23620; 23538; 23477; 21987; 24085; 23915; 23829; 23830; 23671; 21750; 22050; 21979; 21901; 23273; 21908; 23102; 23421; 22023; 23650; 23476; 22051; 21751; 23181; 22247; 22248; 22873; 22208; 22293; 22221; 23186]
  [(22290, 113, false); (22287, 1, false); (21987, 154, false); (21979, 150, false); (23102, 126, true); (21908, 250, false); (21901, 132, false); (22023, 78, false); (22022, 144, false); (22292, 97, false); (23650, 2, true); (22051, 46, false); (22050, 130, false); (21751, 180, false); (21750, 20, false); (23181, 172, false); (22247, 79, false); (22248, 225, false); (22873, 174, false); (22208, 155, false); (22221, 231, false); (23186, 222, false); (22293, 99, false)]
  [23348; 23216; 23101; 22965; 23219; 23220; 22966; 22475; 22830; 23340; 23218; 23041; 23341; 23180; 23042; 22735; 22752; 23217; 23032; 22872; 22473; 22753; 22401; 23215; 23028; 23029; 22866; 22583; 22584; 22402; 22127; 22681; 22640; 22472; 22128; 21978; 21154; 22797; 22507; 22828; 22641; 22508; 22129; 22642; 22474; 22236; 22049; 21338; 21890; 21891; 21749; 21608; 22021; 21609; 21325; 21130; 20995; 21607; 21506; 21336; 21339; 22291; 21340; 21324; 20996; 20877; 21161; 21605; 21798; 21603; 21337; 21162; 20690; 21900; 21509; 21716; 21153; 21507; 21167; 21386; 22246; 21606; 21805; 21594; 21367; 21168; 20848; 21129; 20449; 22030; 21602; 21159; 21160; 20755; 21752; 21366; 20997; 21152; 20998; 20453; 22029; 21296; 21083; 21084; 20747; 21000; 21001; 20327].
Definition aes128_round4_9 : sbox := SBox
  [24123; 24115; 23818; 23819; 23770; 23666; 23533; 24266; 24267; 24099; 24079; 23900; 23628; 24271; 24145; 23812; 23935; 23639; 23399; 23825; 24026; 24027; 23826; 22245; 22251; 22249; 24119; 24120; 23905; 23906; 23564; 21943; 24117; 23879; 24030; 23880; 23520; 23600; 23875; 24024; 23876; 23736; 23737; 23580; 23541; 23521; 23461; 21902; 23892; 24053; 23853; 23756; 23565; 21685; 22020; 21895; 21836; 23246; 21832; 23072; 23396; 21944; 23460; 22025; 21683; 23125; 22170; 22169; 22841; 22144; 22257; 22143; 23126]
  [(22249, 113, false); (22245, 1, false); (21902, 154, false); (21895, 150, false); (23072, 126, true); (21832, 250, false); (21836, 132, false); (21944, 78, false); (21943, 144, false); (22251, 97, false); (23580, 2, true); (22025, 46, false); (22020, 130, false); (21683, 180, false); (21685, 20, false); (23125, 172, false); (22170, 79, false); (22169, 225, false); (22841, 174, false); (22144, 155, false); (22143, 231, false); (23126, 222, false); (22257, 99, false)]
  [23301; 23140; 23071; 22934; 23141; 23142; 22935; 22426; 22807; 23302; 23146; 22991; 23300; 23124; 22992; 22694; 22708; 23145; 22993; 22840; 22420; 22709; 22327; 23139; 22979; 22980; 22832; 22538; 22539; 22328; 22054; 22645; 22600; 22419; 22055; 21894; 21075; 22760; 22480; 22804; 22603; 22481; 22060; 22604; 22425; 22148; 22019; 21268; 21821; 21822; 21682; 21518; 21942; 21519; 21259; 21066; 20942; 21520; 21445; 21265; 21273; 22250; 21272; 21258; 20943; 20801; 21095; 21514; 21721; 21497; 21264; 21096; 20810; 21831; 21447; 21657; 21076; 21446; 21081; 21281; 22168; 21505; 21713; 21492; 21278; 21082; 20949; 21065; 20911; 21947; 21496; 21089; 21090; 20844; 20902; 21697; 21277; 20940; 21073; 20941; 20803; 21948; 21220; 21029; 21030; 20914; 20950; 20951; 20746].
Definition aes128_round4_10 : sbox := SBox
  [24115; 24116; 23910; 23911; 23772; 23773; 23517; 24096; 24098; 24271; 24097; 23733; 24123; 24272; 24067; 24068; 23748; 23391; 24111; 23974; 23788; 23709; 22271; 22278; 22274; 24117; 24118; 23916; 23917; 23528; 23612; 24027; 23914; 23915; 23713; 23714; 23540; 23516; 23529; 23473; 24099; 24086; 23869; 23870; 23609; 21968; 21953; 24089; 24090; 23823; 23824; 23665; 21727; 22037; 21950; 21880; 23261; 21876; 23089; 23410; 21967; 23474; 22040; 21726; 23158; 22191; 22194; 22858; 22279; 22178; 22177; 23162]
  [(22274, 113, false); (22271, 1, false); (21953, 154, false); (21950, 150, false); (23089, 126, true); (21876, 250, false); (21880, 132, false); (21967, 78, false); (21968, 144, false); (22278, 97, false); (23540, 2, true); (22040, 46, false); (22037, 130, false); (21726, 180, false); (21727, 20, false); (23158, 172, false); (22191, 79, false); (22194, 225, false); (22858, 174, false); (22178, 231, false); (22177, 155, false); (23162, 222, false); (22279, 99, false)]
  [23311; 23168; 23088; 22948; 23163; 23164; 22949; 22440; 22819; 23310; 23166; 23011; 23309; 23157; 23012; 22723; 22725; 23165; 23010; 22857; 22436; 22726; 22373; 23167; 23013; 23014; 22852; 22560; 22561; 22374; 22100; 22671; 22624; 22435; 22101; 21949; 21110; 22773; 22497; 22817; 22628; 22498; 22104; 22629; 22439; 22180; 22036; 21312; 21870; 21871; 21725; 21541; 21966; 21542; 21305; 21105; 20966; 21543; 21457; 21308; 21314; 22277; 21317; 21304; 20967; 20862; 21114; 21539; 21748; 21535; 21310; 21115; 20726; 21875; 21459; 21667; 21111; 21458; 21116; 21322; 22190; 21537; 21745; 21531; 21321; 21117; 20975; 21104; 20960; 21974; 21534; 21118; 21119; 20727; 21735; 21320; 20968; 21109; 20969; 20644; 21973; 21236; 21046; 21047; 20724; 20977; 20978; 20871].
Definition aes128_round4_11 : sbox := SBox
  [24116; 23774; 24031; 23811; 23812; 23775; 23627; 24101; 24216; 24217; 24102; 23732; 24265; 24266; 24069; 24070; 23747; 23412; 23847; 24064; 24025; 23848; 22272; 22276; 22273; 24118; 23903; 24000; 23904; 23526; 23613; 23909; 23892; 23768; 24111; 23769; 23679; 23611; 23527; 23462; 24032; 24033; 23877; 23878; 23610; 21971; 21954; 24084; 24085; 23896; 23897; 23664; 21728; 22039; 21952; 21879; 23262; 21878; 23091; 23411; 21970; 23475; 22041; 21724; 23161; 22193; 22195; 22860; 22280; 22176; 22175; 23159]
  [(22273, 113, false); (22272, 1, false); (21954, 154, false); (21952, 150, false); (23091, 126, true); (21878, 250, false); (21879, 132, false); (21970, 78, false); (21971, 144, false); (22276, 97, false); (23679, 2, true); (22041, 46, false); (22039, 130, false); (21724, 180, false); (21728, 20, false); (23161, 172, false); (22193, 79, false); (22195, 225, false); (22860, 174, false); (22176, 231, false); (22175, 155, false); (23159, 222, false); (22280, 99, false)]
  [23314; 23172; 23090; 22946; 23169; 23170; 22947; 22442; 22820; 23313; 23174; 23008; 23312; 23160; 23009; 22724; 22727; 23173; 23015; 22859; 22438; 22728; 22375; 23171; 23006; 23007; 22853; 22562; 22563; 22376; 22102; 22670; 22625; 22437; 22103; 21951; 21112; 22774; 22495; 22818; 22630; 22496; 22105; 22631; 22441; 22179; 22038; 21315; 21872; 21873; 21723; 21544; 21969; 21545; 21307; 21107; 20972; 21546; 21462; 21311; 21316; 22275; 21313; 21306; 20973; 20865; 21120; 21538; 21746; 21533; 21309; 21121; 20909; 21877; 21460; 21668; 21113; 21461; 21122; 21318; 22192; 21540; 21747; 21536; 21319; 21123; 20964; 21106; 20958; 21972; 21532; 21124; 21125; 20870; 21736; 21323; 20970; 21108; 20971; 20839; 21975; 21235; 21044; 21045; 20904; 20980; 20981; 20868].
Definition aes128_round4_12 : sbox := SBox
  [24233; 24019; 24132; 23999; 23871; 23872; 23706; 24358; 24354; 24192; 24193; 23918; 24072; 24330; 24202; 24203; 23820; 23490; 24281; 24258; 24036; 24037; 22489; 22522; 22490; 24048; 24219; 24236; 24049; 23637; 23715; 24230; 24211; 24127; 24059; 23843; 23844; 23698; 23638; 23542; 24256; 24238; 24034; 24035; 23722; 22259; 22146; 24014; 24250; 24082; 24083; 23726; 21906; 22258; 22142; 22145; 23418; 22147; 23283; 23485; 22252; 23759; 23545; 22254; 21907; 23330; 22488; 22491; 23395; 23031; 22517; 22406; 22407; 23328]
  [(22490, 113, false); (22489, 1, false); (22146, 154, false); (22142, 150, false); (23283, 126, true); (22147, 250, false); (22145, 132, false); (22252, 78, false); (22259, 144, false); (22522, 97, false); (23759, 2, true); (22254, 46, false); (22258, 130, false); (21907, 180, false); (21906, 20, false); (23330, 172, false); (22488, 79, false); (22491, 225, false); (23031, 174, true); (22406, 231, false); (22407, 155, false); (23328, 222, false); (22517, 99, false)]
  [23443; 23350; 23282; 23105; 23361; 23362; 23106; 23022; 22612; 23445; 23356; 23191; 23444; 23329; 23192; 22835; 22897; 23355; 23196; 23030; 22898; 22540; 23349; 23193; 23194; 22929; 22697; 22610; 22698; 22541; 22320; 22756; 22609; 22321; 22141; 21275; 22890; 22666; 22755; 22667; 22322; 22754; 22611; 22408; 22253; 21486; 22052; 22053; 21905; 21719; 21720; 21483; 21263; 21071; 21718; 21710; 21484; 21488; 21487; 21482; 21072; 20923; 21291; 21706; 21931; 21703; 21485; 21292; 20688; 21707; 21932; 21276; 21708; 21294; 21503; 21709; 21930; 21701; 21501; 21295; 20874; 21262; 20406; 22266; 21702; 21287; 21288; 20832; 21916; 21500; 21069; 21274; 21070; 20451; 22265; 21502; 21285; 21286; 20831; 21091; 21092; 20359].
Definition aes128_round4_13 : sbox := SBox
  [24243; 24244; 24018; 24019; 23851; 23778; 23625; 24332; 24268; 23999; 24077; 23708; 24257; 24330; 24247; 24093; 23707; 23479; 24112; 24229; 24225; 24113; 22516; 22581; 22521; 24213; 24044; 24219; 24045; 23646; 23777; 24028; 24230; 24029; 23816; 23817; 23670; 23647; 23548; 24214; 24215; 24040; 24041; 23630; 22307; 22213; 24059; 24149; 23968; 23803; 23626; 21983; 22304; 22214; 22227; 22228; 23275; 23486; 22315; 23685; 23547; 22297; 21986; 23318; 22527; 22515; 23025; 22582; 22459; 22458; 23319]
  [(22521, 113, false); (22516, 1, false); (22213, 154, false); (22214, 150, false); (23275, 126, false); (22227, 250, false); (22228, 132, false); (22315, 78, false); (22307, 144, false); (22581, 97, false); (23685, 2, true); (22297, 46, false); (22304, 130, false); (21986, 180, false); (21983, 20, false); (23318, 172, false); (22527, 225, false); (22515, 79, false); (23025, 174, false); (22459, 231, false); (22458, 155, false); (23319, 222, false); (22582, 99, false)]
  [23435; 23366; 23274; 23109; 23367; 23368; 23110; 22661; 23436; 23352; 23182; 23434; 23317; 23183; 22867; 22891; 23351; 23177; 23024; 22655; 22892; 22593; 23365; 23203; 23204; 22960; 22736; 22737; 22594; 22387; 22788; 22654; 22388; 22212; 21348; 22971; 22896; 22690; 22802; 22691; 22392; 22801; 22660; 22467; 22296; 21571; 22121; 22122; 21982; 21806; 21807; 21550; 21331; 21139; 21799; 21793; 21562; 21573; 21575; 21549; 21140; 20876; 21372; 21773; 22001; 21757; 21560; 21373; 20885; 21775; 22013; 21350; 21776; 21393; 21590; 21781; 22011; 21758; 21587; 21394; 20999; 21330; 20993; 22334; 21756; 21370; 21371; 20989; 21996; 21586; 21137; 21343; 21138; 20880; 22333; 21593; 21380; 21381; 20939; 21163; 21164; 20473].
Definition aes128_round4_14 : sbox := SBox
  [24234; 24244; 24071; 24072; 23855; 23856; 23588; 24358; 24243; 24187; 24188; 23838; 24256; 24332; 24259; 24260; 23834; 23491; 24185; 24134; 23933; 23781; 22528; 22574; 22520; 24212; 24213; 24105; 24106; 23621; 23731; 24225; 24013; 24014; 23839; 23840; 23577; 23622; 23543; 24257; 24258; 24050; 24051; 23724; 22318; 22233; 24254; 24255; 24075; 24076; 23779; 21993; 22319; 22235; 22234; 22211; 23285; 23487; 22312; 23589; 23574; 22295; 21994; 23336; 22523; 22533; 23040; 22579; 22465; 22466; 23337]
  [(22520, 113, false); (22528, 1, false); (22233, 154, false); (22235, 150, false); (23285, 126, false); (22234, 250, false); (22211, 132, false); (22312, 78, false); (22318, 144, false); (22574, 97, false); (23589, 2, true); (22295, 46, false); (22319, 130, false); (21994, 180, false); (21993, 20, false); (23336, 172, false); (22523, 79, false); (22533, 225, false); (23040, 174, false); (22465, 231, false); (22466, 155, false); (23337, 222, false); (22579, 99, false)]
  [23453; 23380; 23284; 23099; 23375; 23376; 23100; 22665; 23451; 23378; 23212; 23452; 23335; 23213; 22869; 22893; 23377; 23205; 23039; 22659; 22894; 22591; 23379; 23206; 23207; 22961; 22746; 22747; 22592; 22389; 22798; 22658; 22390; 22232; 21347; 22973; 22901; 22684; 22800; 22685; 22393; 22799; 22664; 22469; 22294; 21567; 22125; 22126; 21992; 21808; 21809; 21552; 21327; 21135; 21810; 21768; 21558; 21580; 21569; 21551; 21136; 20835; 20879; 21397; 21792; 22012; 21767; 21557; 21398; 20932; 21788; 22002; 21354; 21769; 21368; 21584; 21784; 22016; 21753; 21585; 21369; 20952; 21326; 20937; 22331; 21766; 21358; 21359; 20889; 22000; 21589; 21147; 21341; 21148; 20615; 22338; 21582; 21360; 21361; 20887; 21157; 21158; 20846].
Definition aes128_round4_15 : sbox := SBox
  [24234; 23865; 24233; 23998; 23999; 23866; 23608; 24353; 24354; 23983; 23984; 23765; 24355; 24330; 23981; 23982; 23767; 23489; 24281; 24211; 23901; 23902; 22518; 22576; 22524; 24212; 24038; 24236; 24039; 23635; 23715; 24058; 24059; 23814; 24185; 23815; 23615; 23636; 23544; 24237; 24238; 23907; 23908; 23723; 22305; 22216; 24249; 24250; 23912; 23913; 23725; 21985; 22309; 22224; 22225; 22220; 23279; 23484; 22306; 23667; 23546; 22311; 21990; 23324; 22531; 22529; 23027; 22575; 22464; 22461; 23325]
  [(22524, 113, false); (22518, 1, false); (22216, 154, false); (22224, 150, false); (23279, 126, false); (22225, 250, false); (22220, 132, false); (22306, 78, false); (22305, 144, false); (22576, 97, false); (23667, 2, true); (22311, 46, false); (22309, 130, false); (21990, 180, false); (21985, 20, false); (23324, 172, false); (22531, 79, false); (22529, 225, false); (23027, 174, false); (22464, 231, false); (22461, 155, false); (23325, 222, false); (22575, 99, false)]
  [23446; 23343; 23278; 23111; 23346; 23347; 23112; 22663; 23439; 23382; 23184; 23438; 23323; 23185; 22868; 22888; 23381; 23214; 23026; 22657; 22889; 22587; 23342; 23210; 23211; 22959; 22744; 22745; 22588; 22385; 22790; 22656; 22386; 22215; 21349; 22972; 22895; 22686; 22792; 22687; 22391; 22791; 22662; 22468; 22308; 21576; 22123; 22124; 21984; 21800; 21801; 21556; 21335; 21145; 21797; 21782; 21564; 21572; 21574; 21555; 21146; 20864; 20926; 21391; 21780; 22007; 21755; 21565; 21392; 20959; 21061; 21785; 22010; 21352; 21783; 21389; 21595; 21786; 22005; 21759; 21596; 21390; 20976; 21334; 20961; 21059; 22336; 21754; 21384; 21385; 20991; 21999; 21599; 21143; 21344; 21144; 20822; 20929; 22335; 21588; 21382; 21383; 20921; 21060; 21169; 21170; 20984; 20930].
Definition aes128_round4 : list sbox := [aes128_round4_0; aes128_round4_1; aes128_round4_2; aes128_round4_3; aes128_round4_4; aes128_round4_5; aes128_round4_6; aes128_round4_7; aes128_round4_8; aes128_round4_9; aes128_round4_10; aes128_round4_11; aes128_round4_12; aes128_round4_13; aes128_round4_14; aes128_round4_15].
Definition aes128_round5_0 : sbox := SBox
  [20776; 20502; 20578; 20577; 20393; 20394; 20179; 20852; 20817; 20506; 20623; 20624; 20360; 20853; 20840; 20697; 20698; 20347; 20020; 20675; 20694; 20460; 20461; 18896; 18960; 18895; 20728; 20661; 20492; 20493; 20269; 18466; 20777; 20778; 20566; 20567; 20151; 20775; 20676; 20581; 20580; 20389; 20390; 20167; 20228; 20254; 20152; 20081; 18527; 20513; 20692; 20510; 20511; 20271; 18310; 18555; 18524; 18440; 18439; 19765; 20018; 18465; 20083; 18548; 18314; 19821; 18884; 18901; 19869; 19473; 18795; 18961; 18792; 19819]
  [(18895, 113, false); (18896, 1, false); (18527, 154, false); (18524, 150, false); (19765, 126, false); (18440, 250, false); (18439, 132, false); (18465, 78, false); (18466, 144, false); (18960, 97, false); (20228, 2, true); (18548, 46, false); (18555, 130, false); (18314, 180, false); (18310, 20, false); (19821, 172, false); (18884, 79, false); (18901, 225, false); (19473, 174, true); (18795, 155, false); (18792, 231, false); (19819, 222, false); (18961, 99, false)]
  [19964; 19829; 19764; 19570; 19830; 19831; 19571; 19038; 19965; 19833; 19629; 19963; 19820; 19630; 19304; 19379; 19832; 19628; 19472; 19380; 18970; 19828; 19626; 19627; 19430; 19166; 19036; 19167; 18971; 18699; 19219; 19035; 18700; 18523; 17726; 19433; 19344; 19160; 19301; 19212; 19161; 18703; 19213; 19037; 18883; 18727; 18547; 17928; 18432; 18433; 18309; 18163; 18464; 18164; 17916; 17713; 17564; 18165; 18091; 17923; 17930; 18959; 17929; 17915; 17565; 17356; 17742; 18157; 18333; 18147; 17922; 17743; 17382; 18438; 18088; 18280; 17727; 18089; 17734; 17949; 18158; 18334; 18148; 17948; 17735; 17530; 17383; 17712; 16801; 18632; 18146; 17744; 17745; 17279; 18316; 17947; 17562; 17723; 17563; 16923; 18631; 17878; 17679; 17680; 17278; 17568; 17569; 17397].
Definition aes128_round5_1 : sbox := SBox
  [20723; 20719; 20501; 20502; 20352; 20239; 20136; 20852; 20725; 20520; 20521; 20203; 20855; 20730; 20577; 20500; 20204; 19985; 20656; 20657; 20445; 20446; 18862; 18868; 18864; 20201; 20496; 20775; 20497; 20350; 20351; 20159; 20134; 20114; 20721; 20503; 20778; 20504; 20115; 20053; 20840; 20667; 20668; 20447; 20135; 18515; 18494; 20580; 20643; 20437; 20307; 20137; 18290; 18596; 18492; 18412; 19849; 18411; 19649; 19983; 18516; 20055; 18598; 18288; 19742; 18772; 18770; 19423; 18751; 18869; 18750; 19740]
  [(18864, 113, false); (18862, 1, false); (18494, 154, false); (18492, 150, false); (19649, 126, true); (18411, 250, false); (18412, 132, false); (18516, 78, false); (18515, 144, false); (18868, 97, false); (20159, 2, true); (18598, 46, false); (18596, 130, false); (18288, 180, false); (18290, 20, false); (19742, 172, false); (18772, 79, false); (18770, 225, false); (19423, 174, false); (18751, 155, false); (18750, 231, false); (19740, 222, false); (18869, 99, false)]
  [19911; 19756; 19648; 19496; 19753; 19754; 19497; 19014; 19372; 19912; 19752; 19560; 19910; 19741; 19561; 19286; 19289; 19751; 19557; 19422; 19010; 19290; 18943; 19755; 19558; 19559; 19417; 19147; 19148; 18944; 18672; 19238; 19193; 19009; 18673; 18491; 17696; 19331; 19081; 19364; 19196; 19082; 18675; 19197; 19013; 18753; 18595; 17904; 18406; 18407; 18287; 18123; 18514; 18124; 17896; 17691; 17542; 18125; 18027; 17900; 17906; 18867; 17905; 17895; 17543; 17390; 17698; 18116; 18308; 18115; 17898; 17699; 17512; 18410; 18029; 18221; 17697; 18028; 17708; 17910; 18769; 18119; 18307; 18113; 17911; 17709; 17526; 17690; 17507; 18519; 18114; 17706; 17707; 17427; 18303; 17912; 17544; 17693; 17545; 17399; 18520; 17806; 17623; 17624; 17484; 17548; 17549; 16976].
Definition aes128_round5_2 : sbox := SBox
  [20719; 20720; 20505; 20506; 20354; 20355; 20216; 20853; 20854; 20723; 20685; 20686; 20395; 20728; 20855; 20699; 20700; 20386; 19984; 20693; 20668; 20456; 20457; 18861; 18866; 18863; 20790; 20694; 20560; 20561; 20200; 18513; 20202; 20714; 20657; 20512; 20513; 20348; 20349; 20256; 20168; 20112; 20721; 20722; 20514; 20515; 20113; 20052; 18493; 20788; 20789; 20582; 20583; 20236; 18289; 18594; 18490; 18413; 19848; 18409; 19647; 19982; 18512; 20054; 18597; 18286; 19739; 18771; 18768; 19421; 18749; 18870; 18748; 19737]
  [(18863, 113, false); (18861, 1, false); (18493, 154, false); (18490, 150, false); (19647, 126, true); (18409, 250, false); (18413, 132, false); (18512, 78, false); (18513, 144, false); (18866, 97, false); (20256, 2, true); (18597, 46, false); (18594, 130, false); (18286, 180, false); (18289, 20, false); (19739, 172, false); (18771, 79, false); (18768, 225, false); (19421, 174, false); (18749, 155, false); (18748, 231, false); (19737, 222, false); (18870, 99, false)]
  [19908; 19746; 19646; 19494; 19747; 19748; 19495; 19012; 19371; 19909; 19750; 19554; 19907; 19738; 19555; 19285; 19287; 19749; 19556; 19420; 19008; 19288; 18941; 19745; 19552; 19553; 19416; 19145; 19146; 18942; 18670; 19237; 19192; 19007; 18671; 18489; 17695; 19330; 19079; 19363; 19194; 19080; 18674; 19195; 19011; 18752; 18593; 17901; 18404; 18405; 18285; 18121; 18511; 18122; 17894; 17689; 17540; 18120; 18024; 17899; 17903; 18865; 17902; 17893; 17541; 17426; 17225; 17700; 18117; 18306; 18111; 17897; 17701; 17428; 18408; 18026; 18220; 17694; 18025; 17704; 17907; 18767; 18118; 18305; 18112; 17908; 17705; 17528; 17688; 17508; 18518; 18110; 17702; 17703; 17330; 18304; 17909; 17538; 17692; 17539; 17196; 18517; 17805; 17621; 17622; 17329; 17546; 17547; 17405].
Definition aes128_round5_3 : sbox := SBox
  [20776; 20576; 20577; 20391; 20720; 20392; 20217; 20851; 20852; 20677; 20678; 20328; 20845; 20840; 20695; 20696; 20320; 20019; 20675; 20676; 20441; 20442; 18954; 18957; 18955; 20660; 20661; 20470; 20471; 20253; 18611; 20722; 20562; 20777; 20563; 20149; 20254; 20579; 20580; 20387; 20714; 20388; 20255; 20209; 20150; 20080; 18605; 20691; 20692; 20474; 20475; 20270; 18359; 18691; 18604; 18539; 19922; 18529; 19763; 20017; 18612; 20082; 18692; 18358; 19818; 18882; 18881; 19471; 18877; 18958; 18878; 19816]
  [(18955, 113, false); (18954, 1, false); (18605, 154, false); (18604, 150, false); (19763, 126, true); (18529, 250, false); (18539, 132, false); (18612, 78, false); (18611, 144, false); (18957, 97, false); (20255, 2, true); (18692, 46, false); (18691, 130, false); (18358, 180, false); (18359, 20, false); (19818, 172, false); (18882, 79, false); (18881, 225, false); (19471, 174, false); (18877, 155, false); (18878, 231, false); (19816, 222, false); (18958, 99, false)]
  [19960; 19827; 19762; 19568; 19824; 19825; 19569; 19084; 19432; 19961; 19823; 19624; 19962; 19817; 19625; 19340; 19342; 19822; 19621; 19470; 19094; 19343; 19027; 19826; 19622; 19623; 19469; 19210; 19211; 19028; 18783; 19300; 19251; 19093; 18784; 18603; 17778; 19378; 19158; 19431; 19252; 19159; 18785; 19253; 19083; 18879; 18690; 17984; 18521; 18522; 18357; 18193; 18610; 18194; 17981; 17776; 17593; 18195; 18156; 17983; 17986; 18956; 17985; 17980; 17594; 17466; 17434; 17772; 18192; 18362; 18189; 17982; 17773; 17551; 17553; 18528; 18154; 18329; 17779; 18155; 17780; 17987; 18880; 18191; 18361; 18190; 17988; 17781; 17566; 17557; 17775; 17556; 17550; 18630; 18188; 17782; 17783; 17469; 17554; 18360; 17989; 17591; 17777; 17592; 17436; 17437; 18629; 17942; 17736; 17737; 17552; 17504; 17595; 17596; 17467].
Definition aes128_round5_4 : sbox := SBox
  [20288; 20600; 20613; 20423; 20422; 20289; 20172; 20707; 20856; 20814; 20708; 20315; 20621; 20816; 20752; 20622; 20321; 19973; 20618; 20632; 20415; 20416; 18802; 18811; 18805; 20458; 20701; 20602; 20459; 20173; 18470; 20609; 20610; 20413; 20414; 20101; 20186; 20596; 20597; 20426; 20425; 20281; 20282; 20166; 20102; 20040; 18451; 20629; 20702; 20479; 20480; 20175; 18252; 18562; 18453; 18378; 19836; 18372; 19638; 19969; 18471; 20192; 20044; 18561; 18249; 19682; 18735; 18734; 19396; 18721; 18810; 18704; 19683]
  [(18805, 113, false); (18802, 1, false); (18451, 154, false); (18453, 150, false); (19638, 126, true); (18372, 250, false); (18378, 132, false); (18471, 78, false); (18470, 144, false); (18811, 97, false); (20192, 2, true); (18561, 46, false); (18562, 130, false); (18249, 180, false); (18252, 20, false); (19682, 172, false); (18735, 79, false); (18734, 225, false); (19396, 174, false); (18721, 155, false); (18704, 231, false); (19683, 222, false); (18810, 99, false)]
  [19885; 19704; 19637; 19479; 19701; 19702; 19480; 18988; 19359; 19884; 19700; 19521; 19883; 19681; 19522; 19262; 19270; 19699; 19537; 19395; 18980; 19271; 18907; 19703; 19523; 19524; 19389; 19113; 19114; 18908; 18621; 19223; 19176; 18979; 18622; 18450; 17656; 19318; 19047; 19353; 19179; 19048; 18627; 19180; 18987; 18725; 18560; 17850; 18367; 18368; 18248; 18094; 18469; 18095; 17836; 17643; 17519; 18096; 18012; 17843; 17852; 18809; 17851; 17835; 17520; 17392; 17671; 18083; 18275; 18064; 17842; 17672; 17282; 18371; 18010; 18215; 17655; 18011; 17667; 17867; 18733; 18082; 18274; 18065; 17866; 17668; 17505; 17441; 17642; 16925; 18483; 18063; 17669; 17670; 17280; 18254; 17865; 17517; 17651; 17518; 17118; 18484; 17796; 17607; 17608; 17257; 17534; 17535; 16963].
Definition aes128_round5_5 : sbox := SBox
  [20861; 20884; 20664; 20613; 20454; 20324; 20098; 20816; 20818; 20635; 20626; 20431; 20184; 20820; 20819; 20422; 20616; 20185; 19974; 20403; 20598; 20599; 20404; 18803; 18813; 18806; 20883; 20464; 20610; 20465; 20105; 20183; 20462; 20596; 20463; 20318; 20319; 20130; 20095; 20106; 20041; 20611; 20612; 20417; 20418; 20177; 18474; 18444; 20425; 20614; 20407; 20290; 20176; 18251; 18552; 18437; 18380; 19837; 18376; 19634; 19970; 18473; 20045; 18563; 18247; 19685; 18738; 18737; 19398; 18712; 18831; 18711; 19686]
  [(18806, 113, false); (18803, 1, false); (18444, 154, false); (18437, 150, false); (19634, 126, true); (18376, 250, false); (18380, 132, false); (18473, 78, false); (18474, 144, false); (18813, 97, false); (20130, 2, true); (18563, 46, false); (18552, 130, false); (18247, 180, false); (18251, 20, false); (19685, 172, false); (18738, 79, false); (18737, 225, false); (19398, 174, false); (18712, 155, false); (18711, 231, false); (19686, 222, false); (18831, 99, false)]
  [19882; 19706; 19633; 19481; 19707; 19708; 19482; 18990; 19356; 19887; 19716; 19525; 19886; 19684; 19526; 19263; 19268; 19715; 19529; 19397; 18982; 19269; 18909; 19705; 19527; 19528; 19390; 19115; 19116; 18910; 18623; 19221; 19173; 18981; 18624; 18436; 17657; 19314; 19049; 19354; 19181; 19050; 18628; 19182; 18989; 18726; 18551; 17853; 18365; 18366; 18246; 18098; 18472; 18099; 17838; 17645; 17521; 18097; 18015; 17844; 17854; 18812; 17855; 17837; 17522; 17351; 17675; 18085; 18276; 18067; 17845; 17676; 17455; 18375; 18017; 18218; 17658; 18016; 17677; 17872; 18736; 18086; 18282; 18076; 17873; 17678; 17491; 17644; 17454; 18485; 18066; 17673; 17674; 17402; 18255; 17879; 17523; 17652; 17524; 17353; 18488; 17799; 17609; 17610; 17456; 17536; 17537; 17361].
Definition aes128_round5_6 : sbox := SBox
  [20882; 20884; 20751; 20752; 20532; 20533; 20148; 20636; 20820; 20701; 20637; 20277; 20681; 20861; 20856; 20682; 20284; 20067; 20878; 20745; 20546; 20366; 19099; 19102; 19100; 20314; 20599; 20764; 20702; 20524; 20525; 20165; 20147; 20222; 20881; 20883; 20762; 20763; 20223; 20124; 20635; 20632; 20419; 20420; 20275; 18826; 18796; 20633; 20634; 20429; 20430; 20276; 18537; 18887; 18791; 18722; 19993; 18706; 19873; 20065; 18827; 20125; 18900; 18526; 19928; 19055; 19054; 19582; 19107; 19029; 19030; 19926]
  [(19100, 113, false); (19099, 1, false); (18796, 154, false); (18791, 150, false); (19873, 126, true); (18706, 250, false); (18722, 132, false); (18827, 78, false); (18826, 144, false); (19102, 97, false); (20165, 2, true); (18900, 46, false); (18887, 130, false); (18526, 180, false); (18537, 20, false); (19928, 172, false); (19055, 79, false); (19054, 225, false); (19582, 174, false); (19029, 231, false); (19030, 155, false); (19926, 222, false); (19107, 99, false)]
  [20023; 19943; 19872; 19669; 19938; 19939; 19670; 19229; 19506; 20025; 19941; 19776; 20024; 19927; 19777; 19437; 19442; 19940; 19781; 19581; 19225; 19443; 19170; 19942; 19774; 19775; 19573; 19307; 19308; 19171; 18964; 19384; 19339; 19224; 18965; 18790; 17935; 19474; 19258; 19510; 19345; 19259; 18967; 19346; 19228; 19034; 18886; 18137; 18701; 18702; 18525; 18335; 18825; 18336; 18129; 17920; 17716; 18338; 18268; 18133; 18138; 19101; 18136; 18128; 17717; 17186; 17952; 18325; 18544; 18321; 18132; 17953; 17483; 18705; 18270; 18463; 17936; 18269; 17954; 18151; 19053; 18326; 18545; 18322; 18150; 17955; 17529; 17919; 17478; 18844; 18320; 17950; 17951; 17440; 18542; 18149; 17718; 17932; 17719; 17198; 18843; 18072; 17880; 17881; 17439; 17740; 17741; 17429].
Definition aes128_round5_7 : sbox := SBox
  [20600; 20421; 20422; 20286; 20882; 20287; 20171; 20815; 20816; 20619; 20620; 20283; 20638; 20813; 20814; 20639; 20278; 19972; 20401; 20618; 20597; 20402; 18801; 18808; 18804; 20881; 20409; 20609; 20410; 20099; 20424; 20425; 20279; 20878; 20280; 20187; 20186; 20100; 20039; 20601; 20602; 20411; 20412; 20156; 18468; 18443; 20628; 20629; 20427; 20428; 20174; 18250; 20155; 18550; 18435; 18379; 19835; 18374; 19632; 19968; 18475; 20043; 18559; 18245; 19678; 18731; 18732; 19394; 18832; 18709; 18710; 19676]
  [(18804, 113, false); (18801, 1, false); (18443, 154, false); (18435, 150, false); (19632, 126, true); (18374, 250, false); (18379, 132, false); (18475, 78, false); (18468, 144, false); (18808, 97, false); (20187, 2, true); (18559, 46, false); (18550, 130, false); (18245, 180, false); (18250, 20, false); (19678, 172, false); (18731, 79, false); (18732, 225, false); (19394, 174, false); (18709, 231, false); (18710, 155, false); (19676, 222, false); (18832, 99, false)]
  [19880; 19694; 19631; 19477; 19695; 19696; 19478; 18986; 19355; 19881; 19698; 19519; 19879; 19677; 19520; 19261; 19266; 19697; 19518; 19393; 18978; 19267; 18905; 19693; 19516; 19517; 19388; 19111; 19112; 18906; 18619; 19220; 19172; 18977; 18620; 18434; 17653; 19313; 19045; 19352; 19177; 19046; 18626; 19178; 18985; 18724; 18549; 17847; 18363; 18364; 18244; 18092; 18467; 18093; 17834; 17641; 17513; 18100; 18007; 17846; 17849; 18807; 17848; 17833; 17514; 17395; 17373; 17665; 18080; 18272; 18061; 17841; 17666; 17502; 17476; 18373; 18009; 18214; 17654; 18008; 17659; 17861; 18730; 18079; 18271; 18059; 17860; 17660; 17510; 17479; 17640; 17499; 17472; 18482; 18060; 17661; 17662; 17401; 18253; 17859; 17515; 17650; 17516; 17375; 17376; 18481; 17795; 17605; 17606; 17475; 17449; 17531; 17532; 17400; 17377].
Definition aes128_round5_8 : sbox := SBox
  [20734; 20663; 20544; 20545; 20371; 20372; 20249; 20859; 20891; 20767; 20768; 20399; 20477; 20892; 20749; 20750; 20400; 19996; 20748; 20756; 20536; 20537; 18885; 18892; 18888; 20605; 20860; 20744; 20606; 20213; 18557; 20227; 20226; 20731; 20732; 20549; 20550; 20376; 20377; 20273; 20207; 20126; 20735; 20736; 20534; 20535; 20127; 20060; 18535; 20486; 20758; 20630; 20631; 20251; 18312; 18607; 18536; 18447; 19867; 18452; 19666; 19994; 18558; 20063; 18613; 18313; 19768; 18817; 18818; 19439; 18798; 18897; 18797; 19766]
  [(18888, 113, false); (18885, 1, false); (18535, 154, false); (18536, 150, false); (19666, 126, true); (18452, 250, false); (18447, 132, false); (18558, 78, false); (18557, 144, false); (18892, 97, false); (20273, 2, true); (18613, 46, false); (18607, 130, false); (18313, 180, false); (18312, 20, false); (19768, 172, false); (18817, 79, false); (18818, 225, false); (19439, 174, false); (18798, 155, false); (18797, 231, false); (19766, 222, false); (18897, 99, false)]
  [19930; 19785; 19665; 19511; 19786; 19787; 19512; 19042; 19385; 19929; 19783; 19574; 19931; 19767; 19575; 19302; 19311; 19782; 19576; 19438; 19040; 19312; 18968; 19784; 19577; 19578; 19434; 19162; 19163; 18969; 18693; 19254; 19214; 19039; 18694; 18534; 17724; 19349; 19095; 19381; 19215; 19096; 18695; 19216; 19041; 18800; 18606; 17925; 18430; 18431; 18311; 18160; 18556; 18161; 17914; 17711; 17558; 18162; 18081; 17924; 17927; 18891; 17926; 17913; 17559; 17433; 17394; 17728; 18152; 18328; 18142; 17921; 17729; 17206; 18446; 18077; 18273; 17725; 18078; 17732; 17939; 18816; 18153; 18327; 18140; 17938; 17733; 17408; 17710; 16885; 18568; 18141; 17730; 17731; 17344; 18315; 17937; 17560; 17722; 17561; 16965; 18567; 17864; 17663; 17664; 17343; 17570; 17571; 16877].
Definition aes128_round5_9 : sbox := SBox
  [20843; 20665; 20662; 20663; 20448; 20325; 20121; 20892; 20850; 20761; 20689; 20481; 20219; 20847; 20709; 20545; 20478; 20221; 20066; 20528; 20733; 20653; 20529; 19103; 19106; 19104; 20313; 20739; 20731; 20740; 20526; 20527; 20153; 20119; 20224; 20666; 20741; 20735; 20742; 20225; 20122; 20737; 20738; 20538; 20539; 20210; 18829; 18799; 20550; 20671; 20452; 20329; 20211; 18538; 18894; 18794; 18716; 19992; 18708; 19871; 20062; 18830; 20123; 18899; 18531; 19924; 19058; 19057; 19580; 19032; 19108; 19031; 19925]
  [(19104, 113, false); (19103, 1, false); (18799, 154, false); (18794, 150, false); (19871, 126, true); (18708, 250, false); (18716, 132, false); (18830, 78, false); (18829, 144, false); (19106, 97, false); (20153, 2, true); (18899, 46, false); (18894, 130, false); (18531, 180, false); (18538, 20, false); (19924, 172, false); (19058, 79, false); (19057, 225, false); (19580, 174, false); (19032, 155, false); (19031, 231, false); (19925, 222, false); (19108, 99, false)]
  [20026; 19937; 19870; 19667; 19934; 19935; 19668; 19231; 19515; 20022; 19933; 19769; 20021; 19923; 19770; 19436; 19444; 19932; 19771; 19579; 19227; 19445; 19168; 19936; 19772; 19773; 19572; 19305; 19306; 19169; 18962; 19383; 19341; 19226; 18963; 18793; 17934; 19475; 19256; 19509; 19347; 19257; 18966; 19348; 19230; 19033; 18893; 18134; 18697; 18698; 18530; 18330; 18828; 18331; 18127; 17918; 17720; 18332; 18262; 18131; 18139; 19105; 18135; 18126; 17721; 17391; 17945; 18324; 18546; 18318; 18130; 17946; 17403; 18707; 18260; 18459; 17933; 18261; 17940; 18143; 19056; 18323; 18543; 18319; 18144; 17941; 17525; 17917; 17506; 18840; 18317; 17943; 17944; 17501; 18541; 18145; 17714; 17931; 17715; 17398; 18839; 18062; 17868; 17869; 17482; 17738; 17739; 17183].
Definition aes128_round5_10 : sbox := SBox
  [20659; 20665; 20476; 20477; 20322; 20323; 20059; 20705; 20860; 20847; 20706; 20365; 20859; 20843; 20683; 20684; 20367; 19971; 20654; 20472; 20326; 20220; 18740; 18824; 18744; 20658; 20666; 20483; 20484; 20103; 20182; 20653; 20485; 20486; 20316; 20317; 20084; 20058; 20104; 20037; 20761; 20756; 20540; 20541; 20178; 18402; 18377; 18554; 20759; 20760; 20554; 20555; 20212; 18168; 18370; 18457; 19834; 18449; 19640; 19967; 18403; 20038; 18564; 19966; 19692; 18167; 18743; 18742; 19400; 18833; 18635; 18634; 19690]
  [(18744, 113, false); (18740, 1, false); (18377, 154, false); (18370, 150, false); (19640, 126, true); (18449, 250, false); (18457, 132, false); (18403, 78, false); (18402, 144, false); (18824, 97, false); (20084, 2, true); (18564, 46, false); (18554, 130, false); (19692, 172, true); (18167, 180, false); (18168, 20, false); (18743, 79, false); (18742, 225, false); (19400, 174, false); (18635, 231, false); (18634, 155, false); (19690, 222, false); (18833, 99, false)]
  [19894; 19714; 19639; 19483; 19709; 19710; 19484; 18992; 19357; 19896; 19712; 19535; 19895; 19691; 19536; 19260; 19358; 19272; 19711; 19532; 19399; 18928; 19273; 18911; 19713; 19533; 19534; 19391; 19117; 19118; 18912; 18565; 19121; 19222; 19122; 18927; 18739; 18566; 18369; 17581; 19319; 19051; 19351; 19183; 19052; 18625; 19184; 18991; 18576; 18553; 17756; 18448; 18401; 18166; 17977; 17978; 17752; 17575; 17457; 17979; 17975; 17755; 18633; 17757; 18823; 17758; 17751; 17458; 17350; 17587; 18013; 18216; 18005; 17770; 17588; 17210; 18087; 18281; 17582; 17976; 17611; 17800; 18741; 18014; 18217; 18006; 17798; 17612; 17489; 17574; 17452; 18486; 18004; 17585; 17586; 17178; 18213; 17797; 17459; 17580; 17460; 17157; 18487; 17771; 17589; 17590; 17167; 17461; 17462; 17360].
Definition aes128_round5_11 : sbox := SBox
  [20659; 20373; 20734; 20548; 20545; 20374; 20250; 20890; 20891; 20765; 20766; 20364; 20893; 20892; 20753; 20754; 20368; 19997; 20530; 20748; 20732; 20531; 18815; 18890; 18822; 20743; 20744; 20542; 20543; 20214; 18478; 20658; 20468; 20736; 20469; 20128; 20227; 20551; 20550; 20369; 20654; 20370; 20274; 20208; 20129; 20061; 18445; 20757; 20758; 20552; 20553; 20252; 18198; 18609; 18442; 18540; 19868; 18533; 19672; 19995; 18477; 20064; 18614; 19991; 19780; 18197; 18820; 18821; 19441; 18715; 18898; 18714; 19778]
  [(18822, 113, false); (18815, 1, false); (18445, 154, false); (18442, 150, false); (19672, 126, true); (18533, 250, false); (18540, 132, false); (18477, 78, false); (18478, 144, false); (18890, 97, false); (20274, 2, true); (18614, 46, false); (18609, 130, false); (19780, 172, true); (18197, 180, false); (18198, 20, false); (18820, 79, false); (18821, 225, false); (19441, 174, false); (18715, 155, false); (18714, 231, false); (19778, 222, false); (18898, 99, false)]
  [19945; 19789; 19671; 19513; 19790; 19791; 19514; 19044; 19386; 19946; 19793; 19585; 19944; 19779; 19586; 19303; 19387; 19309; 19792; 19587; 19440; 18984; 19310; 18972; 19788; 19583; 19584; 19435; 19164; 19165; 18973; 18617; 19174; 19255; 19175; 18983; 18814; 18618; 18441; 17604; 19350; 19097; 19382; 19217; 19098; 18696; 19218; 19043; 18636; 18608; 17793; 18532; 18476; 18196; 18020; 18021; 17790; 17601; 17485; 18022; 18018; 17791; 18713; 17794; 18889; 17792; 17789; 17486; 17372; 17617; 18084; 18283; 18075; 17802; 17618; 17477; 18159; 18337; 17603; 18019; 17683; 17882; 18819; 18090; 18284; 18073; 17883; 17684; 17511; 17480; 17600; 17473; 17446; 18570; 18074; 17615; 17616; 17379; 18256; 17884; 17487; 17602; 17488; 17371; 18569; 17801; 17613; 17614; 17474; 17492; 17493; 17374].
Definition aes128_round5_12 : sbox := SBox
  [20604; 20826; 20649; 20650; 20439; 20440; 20268; 20508; 20849; 20829; 20830; 20383; 20857; 20901; 20796; 20797; 20379; 20057; 20782; 20787; 20570; 20571; 19020; 19087; 19021; 20824; 20825; 20647; 20648; 20205; 20292; 20823; 20783; 20651; 20652; 20522; 20523; 20266; 20206; 20116; 20795; 20780; 20574; 20575; 20308; 18782; 18681; 20517; 20786; 20588; 20589; 20309; 18421; 18776; 18683; 18689; 19987; 18682; 19857; 20056; 18773; 20310; 20117; 18775; 18420; 19914; 19019; 19022; 19959; 19567; 19088; 18951; 18948; 19915]
  [(19021, 113, false); (19020, 1, false); (18681, 154, false); (18683, 150, false); (19857, 126, true); (18682, 250, false); (18689, 132, false); (18773, 78, false); (18782, 144, false); (19087, 97, false); (20310, 2, true); (18775, 46, false); (18776, 130, false); (18420, 180, false); (18421, 20, false); (19914, 172, false); (19019, 79, false); (19022, 225, false); (19567, 174, true); (18951, 231, false); (18948, 155, false); (19915, 222, false); (19088, 99, false)]
  [20014; 19921; 19856; 19658; 19918; 19919; 19659; 19565; 19157; 20016; 19917; 19758; 20015; 19913; 19759; 19374; 19428; 19916; 19757; 19566; 19429; 19089; 19920; 19760; 19761; 19466; 19249; 19153; 19250; 19090; 18873; 19296; 19152; 18874; 18680; 17815; 19427; 19208; 19295; 19209; 18876; 19294; 19156; 18953; 18774; 18041; 18601; 18602; 18419; 18242; 18243; 18033; 17810; 17629; 18241; 18235; 18036; 18042; 18043; 18032; 17630; 17393; 17827; 18228; 18429; 18227; 18037; 17828; 17208; 18237; 18427; 17816; 18236; 17829; 18050; 18231; 18428; 18225; 18049; 17830; 17527; 17409; 17809; 16969; 18788; 18226; 17825; 17826; 17328; 18422; 18048; 17631; 17812; 17632; 16967; 18789; 18051; 17831; 17832; 17327; 17635; 17636; 16821].
Definition aes128_round5_13 : sbox := SBox
  [20809; 20718; 20603; 20604; 20405; 20285; 20120; 20858; 20729; 20650; 20509; 20218; 20833; 20849; 20687; 20482; 20215; 20035; 20774; 20712; 20556; 20557; 19024; 19086; 19025; 20717; 20572; 20824; 20573; 20163; 20272; 20564; 20823; 20565; 20384; 20385; 20118; 20164; 20092; 20807; 20808; 20607; 20608; 20169; 18780; 18685; 20652; 20669; 20450; 20330; 20170; 18417; 18778; 18686; 18687; 18688; 19815; 20034; 18781; 20154; 20093; 18779; 18418; 19860; 19026; 19023; 19508; 19085; 18949; 18950; 19858]
  [(19025, 113, false); (19024, 1, false); (18685, 154, false); (18686, 150, false); (19815, 126, false); (18687, 250, false); (18688, 132, false); (18781, 78, false); (18780, 144, false); (19086, 97, false); (20154, 2, true); (18779, 46, false); (18778, 130, false); (18418, 180, false); (18417, 20, false); (19860, 172, false); (19026, 225, false); (19023, 79, false); (19508, 174, false); (18949, 231, false); (18950, 155, false); (19858, 222, false); (19085, 99, false)]
  [19990; 19864; 19814; 19619; 19861; 19862; 19620; 19155; 19989; 19866; 19660; 19988; 19859; 19661; 19373; 19375; 19865; 19664; 19507; 19151; 19376; 19091; 19863; 19662; 19663; 19467; 19247; 19248; 19092; 18871; 19299; 19150; 18872; 18684; 17814; 19468; 19377; 19206; 19298; 19207; 18875; 19297; 19154; 18952; 18777; 18038; 18599; 18600; 18416; 18239; 18240; 18031; 17808; 17625; 18238; 18232; 18035; 18040; 18039; 18030; 17626; 17435; 17370; 17817; 18234; 18424; 18224; 18034; 17818; 17438; 18229; 18426; 17813; 18230; 17821; 18045; 18233; 18425; 18222; 18046; 17822; 17533; 17807; 17509; 18787; 18223; 17823; 17824; 17498; 18423; 18047; 17627; 17811; 17628; 17396; 18786; 18044; 17819; 17820; 17481; 17633; 17634; 17070].
Definition aes128_round5_14 : sbox := SBox
  [20716; 20718; 20507; 20508; 20356; 20357; 20074; 20858; 20795; 20703; 20704; 20378; 20809; 20857; 20679; 20680; 20381; 20009; 20711; 20499; 20358; 20238; 18939; 18996; 18940; 20717; 20715; 20518; 20519; 20138; 20237; 20712; 20516; 20517; 20345; 20346; 20072; 20139; 20075; 20833; 20787; 20645; 20646; 20234; 18667; 18573; 20791; 20792; 20584; 20585; 20235; 18340; 18669; 18572; 18574; 18575; 19725; 20008; 18668; 20087; 20076; 18666; 18341; 19800; 18937; 18938; 19454; 18995; 18846; 18845; 19801]
  [(18940, 113, false); (18939, 1, false); (18573, 154, false); (18572, 150, false); (19725, 126, false); (18574, 250, false); (18575, 132, false); (18668, 78, false); (18667, 144, false); (18996, 97, false); (20087, 2, true); (18666, 46, false); (18669, 130, false); (18341, 180, false); (18340, 20, false); (19800, 172, false); (18937, 79, false); (18938, 225, false); (19454, 174, false); (18846, 231, false); (18845, 155, false); (19801, 222, false); (18995, 99, false)]
  [19953; 19809; 19724; 19541; 19806; 19807; 19542; 19074; 19951; 19805; 19607; 19952; 19799; 19608; 19324; 19328; 19804; 19606; 19453; 19072; 19329; 18997; 19808; 19609; 19610; 19410; 19190; 19191; 18998; 18745; 19234; 19071; 18746; 18571; 17761; 19415; 19332; 19143; 19236; 19144; 18747; 19235; 19073; 18847; 18665; 17968; 18479; 18480; 18339; 18185; 18186; 17965; 17754; 17576; 18187; 18181; 17967; 17970; 17969; 17964; 17577; 17445; 17365; 17768; 18180; 18354; 18178; 17966; 17769; 17450; 18184; 18355; 17760; 18182; 17764; 17974; 18183; 18356; 18179; 17973; 17765; 17567; 17753; 17555; 18677; 18177; 17766; 17767; 17362; 18353; 17972; 17578; 17759; 17579; 17342; 18676; 17971; 17762; 17763; 17358; 17583; 17584; 17451].
Definition aes128_round5_15 : sbox := SBox
  [20716; 20466; 20826; 20673; 20650; 20467; 20267; 20925; 20849; 20827; 20828; 20382; 20900; 20901; 20793; 20794; 20380; 20042; 20782; 20783; 20558; 20559; 19062; 19109; 19060; 20715; 20494; 20825; 20495; 20180; 20674; 20652; 20443; 20711; 20444; 20265; 20291; 20292; 20181; 20096; 20779; 20780; 20568; 20569; 20311; 18836; 18719; 20785; 20786; 20586; 20587; 20312; 18455; 18837; 18718; 18723; 18720; 19839; 20036; 18838; 20097; 18835; 19876; 18456; 19061; 19059; 19531; 19110; 18974; 18975; 19874]
  [(19060, 113, false); (19062, 1, false); (18719, 154, false); (18718, 150, false); (19839, 126, false); (18723, 250, false); (18720, 132, false); (18838, 78, false); (18836, 144, false); (19109, 97, false); (20291, 2, true); (18835, 46, false); (18837, 130, false); (19876, 172, false); (18456, 180, false); (18455, 20, false); (19061, 79, false); (19059, 225, false); (19531, 174, false); (18974, 231, false); (18975, 155, false); (19874, 222, false); (19110, 99, false)]
  [20001; 19889; 19838; 19635; 19890; 19891; 19636; 19188; 20002; 19893; 19688; 20000; 19875; 19689; 19392; 19407; 19892; 19687; 19530; 19186; 19408; 19119; 19888; 19679; 19680; 19476; 19264; 19265; 19120; 18902; 19315; 19185; 18903; 18717; 17858; 19485; 19409; 19232; 19317; 19233; 18904; 19316; 19187; 18976; 18834; 18056; 18615; 18616; 18454; 18277; 18278; 18053; 17840; 17646; 18279; 18264; 18055; 18057; 18058; 18052; 17647; 17352; 17465; 17870; 18263; 18460; 18258; 18054; 17871; 17448; 17598; 18267; 18461; 17857; 18265; 17874; 18070; 18266; 18462; 18259; 18069; 17875; 17490; 17599; 17839; 17453; 18841; 18257; 17876; 17877; 17503; 18458; 18068; 17648; 17856; 17649; 17354; 17471; 18842; 18071; 17862; 17863; 17447; 17597; 17681; 17682; 17500; 17470].
Definition aes128_round5 : list sbox := [aes128_round5_0; aes128_round5_1; aes128_round5_2; aes128_round5_3; aes128_round5_4; aes128_round5_5; aes128_round5_6; aes128_round5_7; aes128_round5_8; aes128_round5_9; aes128_round5_10; aes128_round5_11; aes128_round5_12; aes128_round5_13; aes128_round5_14; aes128_round5_15].
Definition aes128_round6_0 : sbox := SBox
  [16874; 17252; 16937; 17067; 17068; 16875; 16704; 17203; 16943; 17381; 17204; 16803; 17364; 17355; 17176; 17177; 16795; 16533; 17162; 17173; 16932; 16933; 15326; 15550; 15330; 17179; 17149; 16934; 16935; 16729; 15064; 17250; 17251; 17056; 17057; 16667; 17233; 17163; 17075; 17076; 16863; 16864; 16735; 16764; 16668; 16602; 15127; 17171; 16947; 16944; 16945; 16760; 14924; 16696; 15147; 15126; 15050; 15049; 16243; 16527; 15063; 16603; 15150; 14928; 16301; 15410; 16436; 15421; 15998; 15316; 15574; 15313; 16299]
  [(15330, 113, false); (15326, 1, false); (15127, 154, false); (15126, 150, false); (16243, 126, false); (15050, 250, false); (15049, 132, false); (15063, 78, false); (15064, 144, false); (15550, 97, false); (16735, 2, true); (15150, 46, false); (15147, 130, false); (14928, 180, false); (14924, 20, false); (16301, 172, false); (15998, 174, true); (15421, 79, false); (15410, 225, false); (15316, 155, false); (15313, 231, false); (16299, 222, false); (15574, 99, false)]
  [16465; 16328; 16242; 16066; 16325; 16326; 16067; 15592; 16453; 16330; 16130; 16466; 16300; 16131; 15878; 15925; 16329; 16129; 15999; 15588; 15583; 16327; 16127; 16128; 15953; 15775; 15776; 15584; 15302; 15781; 15782; 15587; 15303; 15125; 14356; 15954; 15879; 15826; 15709; 15779; 15710; 15305; 15780; 15591; 15324; 15146; 14561; 15046; 15047; 14923; 14776; 15062; 14777; 14546; 14346; 14185; 14778; 14709; 14550; 15312; 14566; 14563; 14545; 14186; 14036; 14381; 14765; 14943; 14749; 14553; 14382; 14053; 15048; 14711; 14895; 14355; 14710; 14389; 14582; 14764; 15325; 14938; 14744; 14575; 14390; 14060; 14345; 13515; 15087; 14748; 14379; 14380; 13950; 14888; 14574; 14187; 14349; 14188; 13700; 15174; 14522; 14324; 14325; 13941; 14200; 14201; 14042].
Definition aes128_round6_1 : sbox := SBox
  [17164; 17158; 16936; 16937; 16800; 16710; 16625; 17381; 17209; 16983; 16984; 16708; 17384; 17214; 17068; 16978; 16709; 16474; 17143; 17142; 16919; 16920; 15338; 15415; 15340; 17160; 16938; 17251; 16939; 16633; 16706; 16928; 17233; 16929; 16796; 16797; 16641; 16634; 16561; 17355; 17144; 17145; 16921; 16624; 15071; 14997; 17076; 17156; 16922; 16807; 16626; 14836; 15075; 14996; 14999; 14998; 16141; 16472; 15074; 16673; 16563; 15073; 14837; 16184; 15339; 15337; 15933; 15235; 15419; 15236; 16182]
  [(15340, 113, false); (15338, 1, false); (14997, 154, false); (14996, 150, false); (16141, 126, false); (14999, 250, false); (14998, 132, false); (15074, 78, false); (15071, 144, false); (15415, 97, false); (16673, 2, true); (15073, 46, false); (15075, 130, false); (14837, 180, false); (14836, 20, false); (16184, 172, false); (15339, 79, false); (15337, 225, false); (15933, 174, false); (15235, 155, false); (15236, 231, false); (16182, 222, false); (15419, 99, false)]
  [16412; 16199; 16140; 16003; 16196; 16197; 16004; 15499; 16414; 16201; 16037; 16413; 16183; 16038; 15791; 15796; 16200; 16039; 15932; 15495; 15797; 15427; 16198; 16035; 16036; 15892; 15649; 15650; 15428; 15165; 15726; 15494; 15166; 14995; 14260; 15894; 15802; 15601; 15724; 15602; 15172; 15725; 15498; 15246; 15072; 14464; 14948; 14949; 14835; 14678; 14679; 14444; 14242; 14098; 14680; 14665; 14456; 14465; 14466; 14443; 14099; 13987; 14272; 14661; 14868; 14649; 14455; 14273; 14094; 14662; 14869; 14261; 14663; 14274; 14482; 14664; 14870; 14647; 14483; 14275; 14119; 14241; 14084; 15082; 14648; 14276; 14277; 14001; 14857; 14485; 14100; 14255; 14101; 13995; 15081; 14484; 14278; 14279; 14093; 14126; 14127; 13765].
Definition aes128_round6_2 : sbox := SBox
  [17158; 17159; 16942; 16943; 16804; 16805; 16700; 17165; 17164; 17364; 17166; 16865; 17384; 17179; 17212; 17213; 16850; 16475; 17172; 17145; 16926; 16927; 15349; 15420; 15343; 17296; 17173; 17046; 17047; 16701; 15079; 17160; 17161; 16948; 16949; 16631; 16707; 17141; 17142; 16946; 16947; 16798; 16799; 16695; 16632; 16562; 15002; 17297; 17298; 17084; 17085; 16702; 14839; 15070; 15001; 15003; 14994; 16145; 16473; 15080; 16713; 16564; 15078; 14840; 16190; 15344; 15350; 15937; 15238; 15423; 15237; 16188]
  [(15343, 113, false); (15349, 1, false); (15002, 154, false); (15001, 150, false); (16145, 126, false); (15003, 250, false); (14994, 132, false); (15080, 78, false); (15079, 144, false); (15420, 97, false); (16713, 2, true); (15078, 46, false); (15070, 130, false); (14840, 180, false); (14839, 20, false); (16190, 172, false); (15344, 79, false); (15350, 225, false); (15937, 174, false); (15238, 155, false); (15237, 231, false); (16188, 222, false); (15423, 99, false)]
  [16419; 16213; 16144; 16007; 16208; 16209; 16008; 15501; 16420; 16211; 16048; 16418; 16189; 16049; 15792; 15798; 16210; 16045; 15936; 15497; 15799; 15431; 16212; 16046; 16047; 15893; 15653; 15654; 15432; 15167; 15727; 15496; 15168; 15000; 14267; 15895; 15803; 15605; 15728; 15606; 15173; 15729; 15500; 15247; 15069; 14473; 14950; 14951; 14838; 14687; 14688; 14452; 14248; 14114; 14689; 14673; 14462; 14478; 14474; 14451; 14115; 13780; 14302; 14669; 14875; 14660; 14461; 14303; 14095; 14671; 14877; 14266; 14672; 14292; 14492; 14670; 14876; 14657; 14493; 14293; 14122; 14247; 14089; 15086; 14659; 14300; 14301; 13864; 14859; 14494; 14110; 14258; 14111; 13817; 15085; 14495; 14294; 14295; 13862; 14132; 14133; 14003].
Definition aes128_round6_3 : sbox := SBox
  [17159; 16909; 17252; 17125; 17068; 16910; 16703; 17201; 17386; 17381; 17202; 16802; 17359; 17355; 17174; 17175; 16794; 16557; 17162; 17163; 16915; 16916; 15572; 15619; 15573; 17148; 17149; 16930; 16931; 16785; 15281; 17161; 17119; 17250; 17120; 16688; 16764; 17129; 17076; 16901; 17141; 16902; 16694; 16689; 16621; 15197; 17170; 17171; 16940; 16941; 16786; 14970; 15290; 15200; 15198; 15199; 16284; 16554; 15292; 16734; 16622; 15291; 14969; 16372; 15576; 15571; 16028; 15446; 15621; 15445; 16370]
  [(15573, 113, false); (15572, 1, false); (15197, 154, false); (15200, 150, false); (16284, 126, false); (15198, 250, false); (15199, 132, false); (15292, 78, false); (15281, 144, false); (15619, 97, false); (16734, 2, true); (15291, 46, false); (15290, 130, false); (14969, 180, false); (14970, 20, false); (16372, 172, false); (15576, 79, false); (15571, 225, false); (16028, 174, false); (15446, 155, false); (15445, 231, false); (16370, 222, false); (15621, 99, false)]
  [16500; 16393; 16283; 16107; 16388; 16389; 16108; 15690; 16502; 16391; 16169; 16501; 16371; 16170; 15913; 15914; 16390; 16166; 16027; 15686; 15915; 15629; 16392; 16167; 16168; 15986; 15810; 15811; 15630; 15397; 15873; 15685; 15398; 15196; 14410; 15988; 15922; 15767; 15871; 15768; 15400; 15872; 15689; 15451; 15289; 14611; 15123; 15124; 14968; 14820; 14821; 14594; 14396; 14223; 14822; 14807; 14600; 14613; 14612; 14593; 14224; 14067; 14041; 14435; 14810; 14982; 14792; 14601; 14436; 14080; 14809; 14981; 14409; 14808; 14429; 14627; 14806; 14980; 14793; 14626; 14430; 14125; 14174; 14395; 14088; 14162; 15310; 14791; 14431; 14432; 14074; 14167; 14973; 14625; 14221; 14403; 14222; 13970; 14051; 15311; 14628; 14433; 14434; 14063; 14233; 14234; 14069].
Definition aes128_round6_4 : sbox := SBox
  [17421; 17414; 17314; 17315; 16881; 17268; 17132; 17417; 17269; 16914; 16531; 17260; 17286; 17040; 17041; 15328; 15552; 16725; 17236; 17155; 17064; 17065; 16870; 16871; 16726; 15331; 17244; 17245; 17042; 17043; 16663; 16765; 17230; 17231; 17073; 17074; 16859; 16860; 16743; 16664; 16598; 17363; 17247; 17146; 17147; 16755; 16660; 15029; 14989; 17137; 17291; 17168; 17169; 16758; 14831; 15077; 14990; 14954; 16878; 14953; 16237; 16525; 15028; 16768; 16600; 16521; 15066; 14830; 16292; 15329; 16400; 15342; 15962; 15321; 15551; 15320; 16290]
  [(15331, 113, false); (15328, 1, false); (14989, 154, false); (14990, 150, false); (16237, 126, false); (14954, 250, false); (14953, 132, false); (15028, 78, false); (15029, 144, false); (15552, 97, false); (16768, 2, true); (15066, 46, false); (15077, 130, false); (14830, 180, false); (14831, 20, false); (16292, 172, true); (15962, 174, true); (15342, 79, false); (15329, 225, false); (15321, 155, false); (15320, 231, false); (16290, 222, false); (15551, 99, false)]
  [16458; 16314; 16236; 16060; 16311; 16312; 16061; 15503; 16440; 16256; 16137; 16457; 16291; 16138; 15825; 15987; 15888; 16255; 16075; 15963; 15590; 15471; 16313; 16116; 16117; 15951; 15715; 15716; 15472; 15319; 15163; 15788; 15589; 15164; 14988; 14262; 15955; 15827; 15793; 15703; 15719; 15704; 15169; 15720; 15502; 15245; 15065; 14469; 14946; 14947; 14829; 14683; 15027; 14684; 14448; 14244; 14104; 14685; 14585; 14458; 14472; 14468; 14447; 14105; 13989; 14288; 14667; 14872; 14656; 14457; 14289; 13850; 14952; 14588; 14784; 14263; 14586; 14284; 14491; 14668; 15327; 14873; 14653; 14490; 14285; 14011; 14243; 13464; 15084; 14655; 14290; 14291; 13847; 14887; 14489; 14106; 14257; 14107; 13527; 15083; 14391; 14204; 14205; 13820; 14128; 14129; 13545].
Definition aes128_round6_5 : sbox := SBox
  [17357; 17337; 17154; 17155; 16924; 16806; 16659; 17422; 17347; 17065; 17135; 16789; 17417; 17420; 17303; 17281; 17096; 16788; 16565; 17022; 17234; 17235; 17023; 15608; 15648; 15610; 17335; 17150; 17244; 17151; 16711; 16793; 16917; 17152; 17230; 17153; 16918; 16658; 16712; 16627; 17255; 17256; 17060; 17061; 16698; 15345; 15240; 17074; 17341; 17117; 16913; 16699; 15005; 15348; 15241; 15243; 15242; 16341; 16560; 15341; 16692; 16628; 15347; 16407; 15006; 15607; 15609; 16034; 15476; 15647; 15475; 16409]
  [(15610, 113, false); (15608, 1, false); (15240, 154, false); (15241, 150, false); (16341, 126, false); (15243, 250, false); (15242, 132, false); (15341, 78, false); (15345, 144, false); (15648, 97, false); (16692, 2, true); (15347, 46, false); (15348, 130, false); (16407, 172, false); (15006, 180, false); (15005, 20, false); (15607, 79, false); (15609, 225, false); (16034, 174, false); (15476, 155, false); (15475, 231, false); (16409, 222, false); (15647, 99, false)]
  [16516; 16424; 16340; 16146; 16410; 16411; 16147; 15670; 16514; 16422; 16192; 16515; 16408; 16193; 15931; 15938; 16421; 16191; 16033; 15668; 15939; 15655; 16423; 16194; 16195; 16002; 15794; 15795; 15656; 15424; 15832; 15667; 15425; 15239; 14481; 16009; 15940; 15735; 15833; 15736; 15426; 15834; 15669; 15477; 15346; 14642; 15170; 15171; 15004; 14878; 14879; 14639; 14454; 14251; 14880; 14863; 14640; 14644; 14643; 14638; 14252; 14035; 14502; 14865; 15026; 14862; 14641; 14503; 14176; 14867; 15025; 14480; 14864; 14500; 14658; 14866; 15024; 14860; 14646; 14501; 14193; 14453; 14172; 15352; 14861; 14498; 14499; 14082; 15023; 14645; 14253; 14479; 14254; 14044; 15351; 14650; 14504; 14505; 14147; 14304; 14305; 14043].
Definition aes128_round6_6 : sbox := SBox
  [17337; 17338; 17131; 17132; 16905; 16906; 16640; 17422; 17363; 17301; 17302; 16846; 17264; 17421; 17357; 17265; 16851; 16556; 17332; 17182; 16962; 16814; 15562; 15622; 15567; 17335; 17336; 17138; 17139; 16690; 16787; 16897; 17235; 17136; 17137; 16898; 16639; 16691; 16619; 17303; 17286; 17026; 17027; 16783; 15282; 15191; 17292; 17293; 17080; 17081; 16784; 14965; 15288; 15190; 15195; 15194; 16282; 16553; 15283; 16657; 16620; 15285; 14966; 16369; 15561; 15566; 16026; 15624; 15444; 15443; 16367]
  [(15567, 113, false); (15562, 1, false); (15191, 154, false); (15190, 150, false); (16282, 126, false); (15195, 250, false); (15194, 132, false); (15283, 78, false); (15282, 144, false); (15622, 97, false); (16657, 2, true); (15285, 46, false); (15288, 130, false); (14966, 180, false); (14965, 20, false); (16369, 172, false); (15561, 79, false); (15566, 225, false); (16026, 174, false); (15444, 231, false); (15443, 155, false); (16367, 222, false); (15624, 99, false)]
  [16499; 16387; 16281; 16105; 16382; 16383; 16106; 15694; 16498; 16385; 16164; 16497; 16368; 16165; 15912; 15916; 16384; 16161; 16025; 15688; 15917; 15627; 16386; 16162; 16163; 15985; 15808; 15809; 15628; 15394; 15870; 15687; 15395; 15189; 14405; 15989; 15924; 15765; 15868; 15766; 15399; 15869; 15693; 15450; 15284; 14606; 15121; 15122; 14964; 14816; 14817; 14590; 14394; 14213; 14818; 14804; 14597; 14608; 14610; 14589; 14214; 13992; 13746; 14419; 14797; 14975; 14786; 14599; 14420; 14118; 14802; 14979; 14408; 14803; 14423; 14619; 14801; 14978; 14790; 14620; 14424; 14137; 14393; 14091; 15306; 14785; 14413; 14414; 13985; 14971; 14621; 14217; 14401; 14218; 13819; 15309; 14624; 14427; 14428; 13984; 14231; 14232; 14007].
Definition aes128_round6_7 : sbox := SBox
  [17236; 17066; 17065; 16872; 17338; 16873; 16757; 17418; 17417; 17272; 17273; 16852; 17307; 17413; 17414; 17308; 16847; 16532; 17260; 17231; 17012; 17013; 15463; 15577; 15465; 17246; 17247; 17050; 17051; 16756; 15212; 17336; 17052; 17245; 17053; 16665; 16765; 17077; 17074; 16861; 17332; 16862; 16746; 16666; 16599; 15139; 17290; 17291; 17086; 17087; 16759; 14922; 15210; 15136; 15138; 15137; 16239; 16526; 15211; 16769; 16601; 15213; 14918; 16297; 15466; 15464; 15997; 15404; 15578; 15406; 16298]
  [(15465, 113, false); (15463, 1, false); (15139, 154, false); (15136, 150, false); (16239, 126, false); (15138, 250, false); (15137, 132, false); (15211, 78, false); (15212, 144, false); (15577, 97, false); (16769, 2, true); (15213, 46, false); (15210, 130, false); (14918, 180, false); (14922, 20, false); (16297, 172, false); (15466, 79, false); (15464, 225, false); (15997, 174, false); (15404, 155, false); (15406, 231, false); (16298, 222, false); (15578, 99, false)]
  [16462; 16324; 16238; 16064; 16337; 16338; 16065; 15640; 16463; 16322; 16122; 16464; 16296; 16123; 15877; 15880; 16321; 16124; 15996; 15634; 15881; 15581; 16323; 16125; 16126; 15952; 15773; 15774; 15582; 15298; 15822; 15633; 15299; 15135; 14354; 15956; 15889; 15707; 15817; 15708; 15304; 15818; 15639; 15409; 15209; 14559; 15044; 15045; 14917; 14774; 14775; 14544; 14342; 14183; 14773; 14758; 14549; 14555; 14560; 14543; 14184; 14039; 14373; 14759; 14937; 14743; 14554; 14374; 14096; 14755; 14935; 14353; 14756; 14367; 14571; 14757; 14936; 14738; 14572; 14368; 14123; 14146; 14341; 14090; 14142; 15228; 14742; 14371; 14372; 14054; 14145; 14930; 14573; 14181; 14348; 14182; 13996; 15227; 14581; 14369; 14370; 14081; 14144; 14198; 14199; 14046].
Definition aes128_round6_8 : sbox := SBox
  [17108; 17334; 17126; 17124; 16911; 16912; 16754; 17318; 17423; 17412; 17319; 16845; 17091; 17416; 17270; 17271; 16849; 16529; 17289; 17258; 17048; 17049; 15411; 15553; 15413; 16972; 17189; 17211; 16973; 16780; 15151; 17339; 17340; 17121; 17122; 16661; 17333; 17259; 17130; 17128; 16903; 16904; 16744; 16766; 16767; 16662; 16593; 15053; 17100; 17284; 17094; 17095; 16782; 14827; 15159; 15052; 15060; 15061; 16241; 16524; 15149; 16596; 15153; 14828; 16294; 15412; 16435; 15422; 15994; 15315; 15554; 15314; 16295]
  [(15413, 113, false); (15411, 1, false); (15053, 154, false); (15052, 150, false); (16241, 126, false); (15060, 250, false); (15061, 132, false); (15149, 78, false); (15151, 144, false); (15553, 97, false); (16766, 2, true); (15153, 46, false); (15159, 130, false); (14828, 180, false); (14827, 20, false); (16294, 172, false); (15994, 174, true); (15422, 79, false); (15412, 225, false); (15315, 155, false); (15314, 231, false); (16295, 222, false); (15554, 99, false)]
  [16461; 16320; 16240; 16062; 16317; 16318; 16063; 15596; 16460; 16316; 16118; 16459; 16293; 16119; 15824; 15926; 16315; 16139; 15995; 15927; 15473; 16319; 16120; 16121; 15949; 15717; 15594; 15718; 15474; 15222; 15789; 15593; 15223; 15051; 14269; 15959; 15884; 15705; 15783; 15706; 15224; 15784; 15595; 15323; 15152; 14475; 15148; 15059; 14826; 14690; 14691; 14450; 14250; 14116; 14677; 14674; 14463; 14477; 14476; 14449; 14117; 13991; 14270; 14708; 14894; 14699; 14497; 14271; 13846; 14707; 14893; 14268; 14675; 14322; 14519; 14706; 14892; 14700; 14520; 14323; 14083; 14008; 14249; 13462; 15178; 14698; 14298; 14299; 13852; 14886; 14521; 14112; 14259; 14113; 13559; 15177; 14496; 14296; 14297; 13821; 14134; 14135; 13523].
Definition aes128_round6_9 : sbox := SBox
  [17326; 17253; 17107; 17108; 16884; 16770; 16645; 17416; 17385; 17313; 17205; 16981; 16730; 17407; 17320; 17124; 17092; 16731; 16528; 17229; 17223; 17014; 17015; 15461; 15569; 15462; 17254; 17036; 17339; 17037; 16671; 16761; 16857; 17034; 17333; 17035; 16858; 16642; 16672; 16592; 17242; 17243; 17032; 17033; 16679; 15206; 15132; 17128; 17195; 16964; 16822; 16680; 14921; 15205; 15134; 15133; 15130; 16235; 16522; 15208; 16674; 16595; 15207; 14920; 16288; 15457; 15460; 15993; 15403; 15570; 15401; 16289]
  [(15462, 113, false); (15461, 1, false); (15132, 154, false); (15134, 150, false); (16235, 126, false); (15133, 250, false); (15130, 132, false); (15208, 78, false); (15206, 144, false); (15569, 97, false); (16674, 2, true); (15207, 46, false); (15205, 130, false); (14920, 180, false); (14921, 20, false); (16288, 172, false); (15457, 79, false); (15460, 225, false); (15993, 174, false); (15403, 155, false); (15401, 231, false); (16289, 222, false); (15570, 99, false)]
  [16456; 16306; 16234; 16058; 16307; 16308; 16059; 15642; 16454; 16310; 16111; 16455; 16287; 16112; 15875; 15882; 16309; 16115; 15992; 15636; 15883; 15579; 16305; 16113; 16114; 15948; 15771; 15772; 15580; 15294; 15816; 15635; 15295; 15131; 14351; 15957; 15887; 15701; 15814; 15702; 15300; 15815; 15641; 15407; 15204; 14556; 15040; 15041; 14919; 14771; 14772; 14542; 14340; 14179; 14781; 14751; 14548; 14558; 14557; 14541; 14180; 13988; 14365; 14754; 14934; 14740; 14547; 14366; 13999; 14753; 14933; 14352; 14752; 14361; 14570; 14750; 14932; 14741; 14568; 14362; 14121; 14339; 14085; 15225; 14739; 14363; 14364; 14055; 14929; 14567; 14177; 14347; 14178; 13993; 15226; 14569; 14359; 14360; 14064; 14196; 14197; 13767].
Definition aes128_round6_10 : sbox := SBox
  [17253; 17238; 17090; 17091; 16866; 16867; 16591; 17311; 17407; 17211; 17312; 16895; 17326; 17423; 17276; 17277; 16896; 16530; 17224; 17069; 16876; 16763; 15467; 15575; 15458; 17254; 17237; 17097; 17098; 16669; 16762; 16853; 17223; 17099; 17100; 16854; 16590; 16670; 16594; 17289; 17313; 17058; 17059; 16751; 15216; 15141; 17345; 17346; 17133; 17134; 16752; 14926; 15217; 15142; 15145; 15144; 16245; 16523; 15218; 16623; 16597; 15215; 14927; 16303; 15468; 15459; 16001; 15560; 15402; 15405; 16304]
  [(15458, 113, false); (15467, 1, false); (15141, 154, false); (15142, 150, false); (16245, 126, false); (15145, 250, false); (15144, 132, false); (15218, 78, false); (15216, 144, false); (15575, 97, false); (16623, 2, true); (15215, 46, false); (15217, 130, false); (14927, 180, false); (14926, 20, false); (16303, 172, false); (15468, 79, false); (15459, 225, false); (16001, 174, false); (15402, 231, false); (15405, 155, false); (16304, 222, false); (15560, 99, false)]
  [16467; 16336; 16244; 16068; 16333; 16334; 16069; 15644; 16469; 16332; 16133; 16468; 16302; 16134; 15876; 15885; 16331; 16132; 16000; 15638; 15886; 15585; 16335; 16135; 16136; 15950; 15777; 15778; 15586; 15296; 15819; 15637; 15297; 15140; 14358; 15958; 15890; 15711; 15821; 15712; 15301; 15820; 15643; 15408; 15214; 14562; 15042; 15043; 14925; 14779; 14780; 14540; 14344; 14189; 14770; 14760; 14551; 14565; 14564; 14539; 14190; 14037; 14387; 14769; 14940; 14747; 14552; 14388; 13961; 14767; 14941; 14357; 14761; 14385; 14579; 14766; 14939; 14745; 14577; 14386; 14194; 14343; 14170; 15230; 14746; 14375; 14376; 13962; 14931; 14576; 14191; 14350; 14192; 13936; 15229; 14580; 14377; 14378; 13951; 14202; 14203; 14057].
Definition aes128_round6_11 : sbox := SBox
  [17238; 16907; 17334; 17123; 17124; 16908; 16753; 17411; 17412; 17299; 17300; 16844; 17415; 17416; 17262; 17263; 16848; 16555; 17020; 17258; 17259; 17021; 15564; 15620; 15568; 17189; 17190; 16970; 16971; 16779; 15278; 17237; 17024; 17340; 17025; 16686; 16767; 17127; 17128; 16899; 17224; 16900; 16745; 16687; 16617; 15188; 17283; 17284; 17078; 17079; 16781; 14963; 15287; 15187; 15193; 15192; 16280; 16551; 15286; 16790; 16618; 15280; 14967; 16365; 15563; 15565; 16024; 15447; 15623; 15442; 16366]
  [(15568, 113, false); (15564, 1, false); (15188, 154, false); (15187, 150, false); (16280, 126, false); (15193, 250, false); (15192, 132, false); (15286, 78, false); (15278, 144, false); (15620, 97, false); (16790, 2, true); (15280, 46, false); (15287, 130, false); (14967, 180, false); (14963, 20, false); (16365, 172, false); (15563, 79, false); (15565, 225, false); (16024, 174, false); (15447, 155, false); (15442, 231, false); (16366, 222, false); (15623, 99, false)]
  [16494; 16379; 16279; 16103; 16380; 16381; 16104; 15696; 16496; 16377; 16156; 16495; 16364; 16157; 15911; 15918; 16376; 16158; 16023; 15692; 15919; 15625; 16378; 16159; 16160; 15984; 15806; 15807; 15626; 15392; 15867; 15691; 15393; 15186; 14406; 15990; 15923; 15763; 15865; 15764; 15396; 15866; 15695; 15449; 15279; 14605; 15119; 15120; 14962; 14814; 14815; 14592; 14398; 14215; 14819; 14805; 14598; 14607; 14609; 14591; 14216; 14065; 14045; 14417; 14811; 14984; 14788; 14603; 14418; 14211; 14169; 14798; 14976; 14407; 14799; 14421; 14617; 14800; 14977; 14789; 14618; 14422; 14212; 14175; 14397; 14209; 14163; 15307; 14787; 14415; 14416; 14072; 14168; 14972; 14622; 14219; 14402; 14220; 13997; 15308; 14623; 14425; 14426; 14210; 14229; 14230; 14068].
Definition aes128_round6_12 : sbox := SBox
  [16868; 17194; 17241; 17062; 17063; 16869; 16748; 17266; 16980; 17387; 17267; 16880; 17388; 17404; 17316; 17317; 16879; 16507; 17261; 17285; 17030; 17031; 15417; 15456; 15414; 17239; 17240; 17028; 17029; 16646; 16733; 17227; 17228; 17071; 17072; 16855; 16856; 16792; 16720; 16647; 16576; 17331; 17249; 17105; 17106; 16724; 15156; 15055; 16986; 17288; 17113; 17114; 16750; 14883; 15155; 15056; 15057; 15058; 16177; 16506; 15158; 16577; 15157; 14884; 16248; 15418; 15416; 15961; 15454; 15317; 15318; 16246]
  [(15414, 113, false); (15417, 1, false); (15055, 154, false); (15056, 150, false); (16177, 126, false); (15057, 250, false); (15058, 132, false); (15158, 78, false); (15156, 144, false); (15456, 97, false); (16792, 2, true); (15157, 46, false); (15155, 130, false); (14884, 180, false); (14883, 20, false); (16248, 172, false); (15418, 79, false); (15416, 225, false); (15961, 174, false); (15317, 231, false); (15318, 155, false); (16246, 222, false); (15454, 99, false)]
  [16437; 16252; 16176; 16031; 16249; 16250; 16032; 15598; 16439; 16254; 16073; 16438; 16247; 16074; 15823; 15828; 16253; 16072; 15960; 15600; 15829; 15469; 16251; 16070; 16071; 15928; 15713; 15714; 15470; 15219; 15785; 15599; 15220; 15054; 14312; 15929; 15830; 15645; 15787; 15646; 15221; 15786; 15597; 15322; 15154; 14512; 14986; 14987; 14882; 14712; 14713; 14509; 14310; 14148; 14714; 14705; 14511; 14513; 14514; 14508; 14149; 13972; 14314; 14701; 14889; 14697; 14510; 14315; 13750; 14703; 14891; 14313; 14704; 14316; 14515; 14702; 14890; 14695; 14516; 14317; 14120; 14075; 14309; 13539; 15176; 14696; 14318; 14319; 13851; 14885; 14518; 14150; 14311; 14151; 13561; 15175; 14517; 14320; 14321; 13848; 14152; 14153; 13543].
Definition aes128_round6_13 : sbox := SBox
  [17380; 17191; 17193; 17194; 16968; 16819; 16644; 17304; 17387; 17207; 16982; 16727; 17410; 17321; 17063; 17093; 16728; 16518; 17016; 17232; 17184; 17017; 15435; 15438; 15436; 17192; 17111; 17239; 17112; 16655; 16742; 17109; 17227; 17110; 16882; 16883; 16675; 16643; 16656; 16588; 17404; 17226; 17044; 17045; 16721; 15113; 15090; 17072; 17197; 16966; 16823; 16723; 14898; 15181; 15089; 15039; 16427; 15038; 16221; 16517; 15114; 16589; 15182; 14897; 16272; 15387; 15388; 15982; 15439; 15353; 15354; 16270]
  [(15436, 113, false); (15435, 1, false); (15090, 154, false); (15089, 150, false); (16221, 126, true); (15038, 250, false); (15039, 132, false); (15114, 78, false); (15113, 144, false); (15438, 97, false); (16675, 2, true); (15182, 46, false); (15181, 130, false); (14897, 180, false); (14898, 20, false); (16272, 172, false); (15387, 225, false); (15388, 79, false); (15982, 174, false); (15353, 231, false); (15354, 155, false); (16270, 222, false); (15439, 99, false)]
  [16449; 16276; 16220; 16053; 16273; 16274; 16054; 15537; 15946; 16451; 16278; 16100; 16450; 16271; 16101; 15859; 15860; 16277; 16102; 15981; 15539; 15861; 15524; 16275; 16098; 16099; 15980; 15683; 15684; 15525; 15273; 15804; 15737; 15538; 15274; 15088; 14331; 15897; 15617; 15941; 15739; 15618; 15275; 15738; 15536; 15355; 15180; 14533; 15033; 15034; 14896; 14735; 15112; 14736; 14530; 14329; 14156; 14737; 14692; 14532; 14535; 15437; 14534; 14529; 14157; 13990; 14335; 14733; 14915; 14732; 14531; 14336; 14097; 15037; 14694; 14881; 14332; 14693; 14333; 14538; 15386; 14734; 14916; 14730; 14537; 14334; 14136; 14328; 14086; 15116; 14731; 14337; 14338; 14034; 14914; 14536; 14158; 14330; 14159; 13994; 15115; 14507; 14307; 14308; 14092; 14160; 14161; 13721].
Definition aes128_round6_14 : sbox := SBox
  [17191; 17188; 16979; 16980; 16817; 16818; 16575; 17199; 17380; 17388; 17200; 16842; 17331; 17410; 17305; 17306; 16840; 16471; 17185; 16977; 16820; 16732; 15332; 15335; 15333; 17192; 17187; 16987; 16988; 16629; 16705; 17184; 16985; 16986; 16815; 16816; 16604; 16574; 16630; 16558; 17304; 17285; 17038; 17039; 16697; 15031; 14993; 17294; 17295; 17082; 17083; 16722; 14834; 15068; 14992; 14957; 16339; 14956; 16143; 16470; 15032; 16559; 15076; 14833; 16187; 15271; 15272; 15935; 15336; 15234; 15233; 16185]
  [(15333, 113, false); (15332, 1, false); (14993, 154, false); (14992, 150, false); (16143, 126, true); (14956, 250, false); (14957, 132, false); (15032, 78, false); (15031, 144, false); (15335, 97, false); (16604, 2, true); (15076, 46, false); (15068, 130, false); (14833, 180, false); (14834, 20, false); (16187, 172, false); (15271, 225, false); (15272, 79, false); (15935, 174, false); (15234, 231, false); (15233, 155, false); (16185, 222, false); (15336, 99, false)]
  [16416; 16203; 16142; 16005; 16204; 16205; 16006; 15505; 15896; 16417; 16207; 16043; 16415; 16186; 16044; 15790; 15800; 16206; 16042; 15934; 15507; 15801; 15429; 16202; 16040; 16041; 15930; 15651; 15652; 15430; 15160; 15734; 15721; 15506; 15161; 14991; 14265; 15831; 15603; 15891; 15723; 15604; 15162; 15722; 15504; 15244; 15067; 14467; 14944; 14945; 14832; 14681; 15030; 14682; 14446; 14246; 14108; 14686; 14583; 14459; 14471; 15334; 14470; 14445; 14109; 13978; 14286; 14676; 14874; 14652; 14460; 14287; 14000; 14955; 14587; 14783; 14264; 14584; 14280; 14488; 15270; 14666; 14871; 14654; 14487; 14281; 14124; 14245; 14087; 15035; 14651; 14282; 14283; 13865; 14858; 14486; 14102; 14256; 14103; 13748; 15036; 14392; 14206; 14207; 13863; 14130; 14131; 14002].
Definition aes128_round6_15 : sbox := SBox
  [17188; 16960; 17241; 17221; 17063; 16961; 16749; 17309; 17406; 17404; 17310; 16841; 17274; 17419; 17387; 17275; 16843; 16552; 17261; 17228; 17018; 17019; 15555; 15558; 15556; 17187; 16974; 17240; 16975; 16684; 16733; 17222; 17072; 16958; 17185; 16959; 16791; 16747; 16685; 16615; 17248; 17249; 17054; 17055; 16778; 15202; 15185; 17287; 17288; 17088; 17089; 16813; 14961; 15277; 15184; 15143; 16452; 15129; 16286; 16550; 15203; 16616; 15293; 14960; 16374; 15455; 15453; 16030; 15559; 15440; 15441; 16375]
  [(15556, 113, false); (15555, 1, false); (15185, 154, false); (15184, 150, false); (16286, 126, true); (15129, 250, false); (15143, 132, false); (15203, 78, false); (15202, 144, false); (15558, 97, false); (16791, 2, true); (15293, 46, false); (15277, 130, false); (14960, 180, false); (14961, 20, false); (16374, 172, false); (15455, 79, false); (15453, 225, false); (16030, 174, false); (15440, 231, false); (15441, 155, false); (16375, 222, false); (15559, 99, false)]
  [16505; 16399; 16285; 16109; 16394; 16395; 16110; 15698; 15991; 16504; 16397; 16171; 16503; 16373; 16172; 15910; 15920; 16396; 16173; 16029; 15700; 15921; 15631; 16398; 16174; 16175; 16022; 15812; 15813; 15632; 15389; 15874; 15862; 15699; 15390; 15183; 14411; 15947; 15769; 15983; 15864; 15770; 15391; 15863; 15697; 15448; 15276; 14614; 15117; 15118; 14959; 14823; 15201; 14824; 14596; 14400; 14225; 14825; 14762; 14602; 14615; 15557; 14616; 14595; 14226; 14038; 14040; 14437; 14812; 14985; 14796; 14604; 14438; 14165; 14166; 15128; 14768; 14942; 14412; 14763; 14441; 14629; 15452; 14813; 14983; 14794; 14630; 14442; 14195; 14173; 14399; 14171; 15232; 14795; 14439; 14440; 14073; 14974; 14631; 14227; 14404; 14228; 14047; 14049; 15231; 14578; 14383; 14384; 14164; 14143; 14235; 14236; 14066; 14048].
Definition aes128_round6 : list sbox := [aes128_round6_0; aes128_round6_1; aes128_round6_2; aes128_round6_3; aes128_round6_4; aes128_round6_5; aes128_round6_6; aes128_round6_7; aes128_round6_8; aes128_round6_9; aes128_round6_10; aes128_round6_11; aes128_round6_12; aes128_round6_13; aes128_round6_14; aes128_round6_15].
Definition aes128_round7_0 : sbox := SBox
  [13928; 13727; 13722; 13719; 13520; 13521; 13403; 14062; 14050; 13958; 13959; 13502; 13947; 13736; 14058; 13948; 13505; 13139; 13942; 13955; 13714; 13715; 12078; 12114; 12079; 13966; 13932; 13712; 13713; 13402; 11834; 13929; 13930; 13710; 13711; 13290; 13926; 13927; 13730; 13729; 13508; 13509; 13398; 13380; 13379; 13291; 13204; 11740; 13742; 13953; 13737; 13738; 13406; 11517; 11842; 11741; 11735; 11734; 12859; 13134; 11827; 13207; 11841; 11516; 12925; 12058; 12059; 12592; 11986; 12115; 11987; 12923]
  [(12079, 113, false); (12078, 1, false); (11740, 154, false); (11741, 150, false); (12859, 126, false); (11735, 250, false); (11734, 132, false); (11827, 78, false); (11834, 144, false); (12114, 97, false); (13380, 2, true); (11841, 46, false); (11842, 130, false); (11516, 180, false); (11517, 20, false); (12925, 172, false); (12058, 79, false); (12059, 225, false); (12592, 174, false); (11986, 155, false); (11987, 231, false); (12923, 222, false); (12115, 99, false)]
  [13059; 12946; 12858; 12693; 12941; 12942; 12694; 12212; 13066; 12944; 12738; 13065; 12924; 12739; 12453; 12459; 12943; 12735; 12591; 12204; 12460; 12127; 12945; 12736; 12737; 12561; 12303; 12304; 12128; 11901; 12386; 12203; 11902; 11739; 11007; 12568; 12463; 12267; 12384; 12268; 11907; 12385; 12211; 11990; 11840; 11202; 11638; 11639; 11515; 11397; 11398; 11185; 10996; 10812; 11399; 11388; 11193; 11204; 11203; 11184; 10813; 10580; 11029; 11387; 11529; 11373; 11192; 11030; 10596; 11384; 11527; 11008; 11385; 11025; 11215; 11386; 11528; 11365; 11216; 11026; 10771; 10597; 10995; 10041; 11862; 11372; 11031; 11032; 10490; 11521; 11218; 10814; 11001; 10815; 10140; 11861; 11217; 11027; 11028; 10491; 10824; 10825; 10617].
Definition aes128_round7_1 : sbox := SBox
  [13949; 13937; 13726; 13727; 13514; 13411; 13307; 14058; 13960; 13743; 13744; 13408; 14059; 13969; 13723; 13719; 13409; 13136; 13925; 13924; 13697; 13698; 12054; 12061; 12057; 13378; 13716; 13926; 13717; 13512; 13513; 13338; 13305; 13294; 13939; 13724; 13929; 13725; 13295; 13205; 14050; 13933; 13934; 13701; 13306; 11751; 11733; 13729; 13935; 13699; 13524; 13308; 11514; 11833; 11730; 11675; 13025; 11647; 12861; 13135; 11752; 13208; 11843; 11511; 12928; 11993; 12000; 12594; 11985; 12069; 11984; 12926]
  [(12057, 113, false); (12054, 1, false); (11733, 154, false); (11730, 150, false); (12861, 126, true); (11647, 250, false); (11675, 132, false); (11752, 78, false); (11751, 144, false); (12061, 97, false); (13338, 2, true); (11843, 46, false); (11833, 130, false); (11511, 180, false); (11514, 20, false); (12928, 172, false); (11993, 79, false); (12000, 225, false); (12594, 174, false); (11985, 155, false); (11984, 231, false); (12926, 222, false); (12069, 99, false)]
  [13058; 12952; 12860; 12695; 12947; 12948; 12696; 12214; 12567; 13068; 12950; 12743; 13067; 12927; 12744; 12454; 12461; 12949; 12740; 12593; 12206; 12462; 12121; 12951; 12741; 12742; 12586; 12305; 12306; 12122; 11903; 12422; 12377; 12205; 11904; 11729; 11010; 12518; 12269; 12564; 12382; 12270; 11908; 12383; 12213; 11991; 11832; 11206; 11640; 11641; 11510; 11400; 11750; 11401; 11187; 10998; 10818; 11402; 11336; 11194; 11205; 12060; 11207; 11186; 10819; 10577; 10542; 11033; 11389; 11530; 11375; 11195; 11034; 10588; 11646; 11342; 11495; 11009; 11337; 11037; 11221; 11992; 11390; 11531; 11376; 11220; 11038; 10729; 10997; 10695; 11801; 11374; 11035; 11036; 10664; 11520; 11219; 10816; 11002; 10817; 10576; 11800; 11169; 10974; 10975; 10705; 10826; 10827; 10209].
Definition aes128_round7_2 : sbox := SBox
  [13937; 13938; 13735; 13736; 13516; 13517; 13401; 14062; 13949; 13945; 13946; 13504; 14059; 13966; 13967; 13968; 13501; 13138; 13954; 13934; 13702; 13703; 12053; 12065; 12056; 13965; 13955; 13708; 13709; 13376; 11749; 13939; 13940; 13739; 13740; 13292; 13377; 13923; 13924; 13741; 13742; 13510; 13511; 13419; 13373; 13293; 13203; 11732; 13963; 13964; 13733; 13734; 13405; 11513; 11831; 11728; 11662; 13024; 11645; 12857; 13133; 11748; 13206; 11839; 11509; 12922; 11999; 11998; 12590; 11982; 12070; 11983; 12920]
  [(12056, 113, false); (12053, 1, false); (11732, 154, false); (11728, 150, false); (12857, 126, true); (11645, 250, false); (11662, 132, false); (11748, 78, false); (11749, 144, false); (12065, 97, false); (13419, 2, true); (11839, 46, false); (11831, 130, false); (11509, 180, false); (11513, 20, false); (12922, 172, false); (11999, 79, false); (11998, 225, false); (12590, 174, false); (11982, 155, false); (11983, 231, false); (12920, 222, false); (12070, 99, false)]
  [13064; 12940; 12856; 12691; 12935; 12936; 12692; 12210; 12566; 13063; 12938; 12733; 13062; 12921; 12734; 12452; 12457; 12937; 12730; 12589; 12202; 12458; 12125; 12939; 12731; 12732; 12585; 12301; 12302; 12126; 11899; 12421; 12376; 12201; 11900; 11727; 11005; 12519; 12265; 12563; 12380; 12266; 11906; 12381; 12209; 11989; 11830; 11199; 11636; 11637; 11508; 11394; 11747; 11395; 11183; 10994; 10808; 11396; 11328; 11191; 11201; 12064; 11200; 11182; 10809; 10565; 10349; 11021; 11383; 11526; 11371; 11190; 11022; 10726; 11644; 11317; 11483; 11006; 11318; 11019; 11212; 11997; 11382; 11525; 11369; 11213; 11020; 10743; 10993; 10699; 11796; 11370; 11023; 11024; 10540; 11519; 11214; 10810; 11000; 10811; 10353; 11795; 11157; 10948; 10949; 10539; 10822; 10823; 10592].
Definition aes128_round7_3 : sbox := SBox
  [13928; 13718; 13719; 13518; 13938; 13519; 13400; 13943; 14061; 14058; 13944; 13503; 14056; 14050; 13956; 13957; 13500; 13137; 13942; 13927; 13695; 13696; 12052; 12063; 12055; 13931; 13932; 13706; 13707; 13375; 11745; 13940; 13704; 13930; 13705; 13288; 13379; 13728; 13729; 13506; 13923; 13507; 13420; 13372; 13289; 13202; 11731; 13952; 13953; 13731; 13732; 13404; 11512; 11829; 11726; 11658; 13023; 11643; 12855; 13132; 11746; 13209; 11838; 11507; 12919; 11995; 11996; 12588; 11980; 12068; 11981; 12917]
  [(12055, 113, false); (12052, 1, false); (11731, 154, false); (11726, 150, false); (12855, 126, true); (11643, 250, false); (11658, 132, false); (11746, 78, false); (11745, 144, false); (12063, 97, false); (13420, 2, true); (11838, 46, false); (11829, 130, false); (11507, 180, false); (11512, 20, false); (12919, 172, false); (11995, 79, false); (11996, 225, false); (12588, 174, false); (11980, 155, false); (11981, 231, false); (12917, 222, false); (12068, 99, false)]
  [13060; 12930; 12854; 12689; 12933; 12934; 12690; 12208; 12565; 13069; 12932; 12727; 13061; 12918; 12728; 12451; 12455; 12931; 12729; 12587; 12200; 12456; 12123; 12929; 12725; 12726; 12584; 12299; 12300; 12124; 11897; 12420; 12375; 12199; 11898; 11725; 11003; 12517; 12263; 12562; 12378; 12264; 11905; 12379; 12207; 11988; 11828; 11197; 11634; 11635; 11506; 11391; 11744; 11392; 11181; 10992; 10804; 11393; 11313; 11188; 11198; 12062; 11196; 11180; 10805; 10660; 11015; 11379; 11523; 11367; 11189; 11016; 10802; 11642; 11315; 11481; 11004; 11314; 11017; 11211; 11994; 11380; 11524; 11368; 11210; 11018; 10803; 10991; 10801; 10745; 11790; 11366; 11013; 11014; 10663; 10748; 11518; 11209; 10806; 10999; 10807; 10516; 11789; 11150; 10936; 10937; 10746; 10689; 10820; 10821; 10661].
Definition aes128_round7_4 : sbox := SBox
  [13791; 13601; 13616; 13617; 13469; 13470; 13352; 13643; 14014; 13827; 13828; 13438; 14022; 14013; 13890; 13891; 13432; 13090; 13822; 13853; 13566; 13567; 11823; 11943; 11822; 13875; 13800; 13568; 13569; 13324; 11621; 13367; 13330; 13781; 13782; 13624; 13625; 13445; 13446; 13381; 13319; 13232; 13795; 13796; 13564; 13565; 13233; 13168; 11601; 13663; 13855; 13650; 13651; 13356; 11435; 11693; 11586; 11603; 12963; 11591; 12749; 13086; 11622; 13169; 11694; 11422; 12799; 11873; 12964; 11886; 12538; 11805; 11954; 11804; 12797]
  [(11822, 113, false); (11823, 1, false); (11601, 154, false); (11586, 150, false); (12749, 126, true); (11591, 250, false); (11603, 132, false); (11622, 78, false); (11621, 144, false); (11943, 97, false); (13381, 2, true); (11694, 46, false); (11693, 130, false); (11422, 180, false); (11435, 20, false); (12799, 172, false); (12538, 174, true); (11886, 79, false); (11873, 225, false); (11805, 155, false); (11804, 231, false); (12797, 222, false); (11954, 99, false)]
  [12996; 12820; 12748; 12615; 12815; 12816; 12616; 12101; 12500; 12997; 12818; 12655; 12995; 12798; 12656; 12392; 12403; 12817; 12652; 12539; 12044; 12024; 12819; 12653; 12654; 12533; 12227; 12228; 12025; 11783; 12237; 12322; 12238; 12043; 11784; 11585; 10859; 12393; 12394; 12171; 12469; 12282; 12172; 11788; 12283; 12100; 11812; 11692; 11082; 11540; 11541; 11421; 11282; 11283; 11064; 10845; 10706; 11284; 11263; 11071; 11803; 11083; 11942; 11081; 11063; 10707; 10514; 10875; 11265; 11443; 11248; 11072; 10876; 10359; 11268; 11442; 10860; 11264; 10877; 11103; 11872; 11266; 11821; 11445; 11249; 11102; 10878; 10665; 10844; 10072; 11568; 11247; 10873; 10874; 10315; 11407; 11101; 10708; 10854; 10709; 10093; 11623; 11100; 10871; 10872; 10314; 10732; 10733; 10134].
Definition aes128_round7_5 : sbox := SBox
  [13834; 13809; 13600; 13601; 13463; 13365; 13264; 14010; 13897; 13617; 13648; 13329; 13884; 14014; 13849; 13656; 13328; 13110; 13788; 13778; 13554; 13555; 12015; 12080; 12017; 13811; 13578; 13795; 13579; 13276; 13362; 13596; 13781; 13597; 13455; 13456; 13258; 13277; 13187; 13801; 13802; 13598; 13599; 13263; 11765; 11668; 13625; 13747; 13526; 13412; 13265; 11467; 11768; 11671; 11670; 11669; 12790; 13106; 11766; 13296; 13189; 11769; 12868; 11466; 12016; 12014; 12575; 11915; 12075; 11919; 12870]
  [(12017, 113, false); (12015, 1, false); (11668, 154, false); (11671, 150, false); (12790, 126, false); (11670, 250, false); (11669, 132, false); (11766, 78, false); (11765, 144, false); (12080, 97, false); (13296, 2, true); (11769, 46, false); (11768, 130, false); (12868, 172, false); (11466, 180, false); (11467, 20, false); (12016, 79, false); (12014, 225, false); (12575, 174, false); (11915, 155, false); (11919, 231, false); (12870, 222, false); (12075, 99, false)]
  [13037; 12890; 12789; 12642; 12893; 12894; 12643; 12162; 13045; 12892; 12705; 13036; 12869; 12706; 12427; 12431; 12891; 12709; 12574; 12154; 12432; 12088; 12889; 12707; 12708; 12524; 12275; 12276; 12089; 11851; 12318; 12153; 11852; 11667; 10930; 12526; 12445; 12215; 12316; 12216; 11857; 12317; 12161; 11925; 11767; 11143; 11581; 11582; 11465; 11351; 11352; 11120; 10916; 10761; 11350; 11335; 11130; 11141; 11146; 11119; 10762; 10567; 10958; 11332; 11491; 11310; 11129; 10959; 10703; 11330; 11490; 10931; 11331; 10956; 11160; 11329; 11489; 11305; 11161; 10957; 10736; 10915; 10698; 11798; 11309; 10968; 10969; 10624; 11478; 11166; 10765; 10924; 10766; 10573; 11797; 11164; 10964; 10965; 10676; 10776; 10777; 10591].
Definition aes128_round7_6 : sbox := SBox
  [13809; 13810; 13642; 13643; 13467; 13468; 13256; 14022; 13834; 13839; 13840; 13440; 13875; 14010; 13885; 13886; 13434; 13111; 13777; 13766; 13544; 13416; 12021; 12081; 12018; 13811; 13812; 13664; 13665; 13274; 13363; 13778; 13662; 13663; 13443; 13444; 13253; 13275; 13188; 13884; 13853; 13604; 13605; 13355; 11772; 11657; 13870; 13871; 13644; 13645; 13358; 11470; 11756; 11672; 11674; 11676; 12794; 13107; 11771; 13286; 13191; 11773; 11469; 12875; 12020; 12019; 12579; 11920; 12083; 11918; 12876]
  [(12018, 113, false); (12021, 1, false); (11657, 154, false); (11672, 150, false); (12794, 126, false); (11674, 250, false); (11676, 132, false); (11771, 78, false); (11772, 144, false); (12081, 97, false); (13286, 2, true); (11773, 46, false); (11756, 130, false); (11469, 180, false); (11470, 20, false); (12875, 172, false); (12020, 79, false); (12019, 225, false); (12579, 174, false); (11920, 155, false); (11918, 231, false); (12876, 222, false); (12083, 99, false)]
  [13043; 12902; 12793; 12648; 12903; 12904; 12649; 12164; 13046; 12906; 12717; 13042; 12874; 12718; 12428; 12433; 12905; 12719; 12578; 12156; 12434; 12092; 12901; 12715; 12716; 12525; 12279; 12280; 12093; 11853; 12319; 12155; 11854; 11656; 10935; 12527; 12447; 12223; 12320; 12224; 11858; 12321; 12163; 11924; 11755; 11148; 11583; 11584; 11468; 11357; 11358; 11122; 10920; 10751; 11356; 11338; 11133; 11147; 11149; 11121; 10752; 10618; 10374; 10970; 11343; 11494; 11312; 11132; 10971; 10625; 11341; 11496; 10934; 11339; 10978; 11171; 11340; 11497; 11298; 11168; 10979; 10728; 10919; 10694; 11799; 11311; 10972; 10973; 10493; 11479; 11167; 10769; 10925; 10770; 10406; 11802; 11170; 10976; 10977; 10492; 10780; 10781; 10626].
Definition aes128_round7_7 : sbox := SBox
  [13791; 13618; 13617; 13471; 13810; 13472; 13354; 14016; 14014; 13830; 13831; 13439; 14012; 14013; 13876; 13877; 13433; 13109; 13822; 13782; 13550; 13551; 12009; 12074; 12013; 13799; 13800; 13580; 13581; 13353; 11757; 13812; 13582; 13796; 13583; 13272; 13367; 13626; 13625; 13451; 13777; 13452; 13340; 13273; 13186; 11660; 13854; 13855; 13634; 13635; 13357; 11463; 11760; 11661; 11664; 11663; 12786; 13105; 11758; 13369; 13190; 11763; 11464; 12863; 12011; 12008; 12571; 11917; 12076; 11916; 12864]
  [(12013, 113, false); (12009, 1, false); (11660, 154, false); (11661, 150, false); (12786, 126, false); (11664, 250, false); (11663, 132, false); (11758, 78, false); (11757, 144, false); (12074, 97, false); (13369, 2, true); (11763, 46, false); (11760, 130, false); (11464, 180, false); (11463, 20, false); (12863, 172, false); (12011, 79, false); (12008, 225, false); (12571, 174, false); (11917, 155, false); (11916, 231, false); (12864, 222, false); (12076, 99, false)]
  [13031; 12882; 12785; 12640; 12877; 12878; 12641; 12160; 13041; 12880; 12697; 13032; 12862; 12698; 12426; 12429; 12879; 12699; 12570; 12152; 12430; 12084; 12881; 12721; 12722; 12523; 12271; 12272; 12085; 11849; 12313; 12151; 11850; 11659; 10927; 12528; 12443; 12217; 12311; 12218; 11856; 12312; 12159; 11923; 11759; 11137; 11579; 11580; 11462; 11344; 11345; 11116; 10912; 10753; 11346; 11327; 11126; 11135; 11139; 11115; 10754; 10615; 10575; 10938; 11316; 11482; 11302; 11125; 10939; 10749; 10690; 11319; 11484; 10926; 11320; 10940; 11151; 11321; 11485; 11299; 11152; 10941; 10750; 10701; 10911; 10744; 10684; 11792; 11301; 10950; 10951; 10622; 11476; 11158; 10757; 10922; 10758; 10545; 11791; 11156; 10946; 10947; 10747; 10772; 10773; 10619].
Definition aes128_round7_8 : sbox := SBox
  [13792; 13577; 13619; 13620; 13473; 13474; 13347; 13639; 14015; 13832; 13833; 13435; 14017; 13998; 13892; 13893; 13429; 13108; 13824; 13856; 13588; 13589; 12010; 12067; 12012; 13878; 13794; 13584; 13585; 13346; 11743; 13797; 13798; 13586; 13587; 13270; 13331; 13784; 13785; 13627; 13628; 13453; 13454; 13339; 13271; 13184; 11650; 13659; 13861; 13652; 13653; 13350; 11457; 11762; 11649; 11666; 11665; 12788; 13104; 11742; 13370; 13185; 11764; 11458; 12867; 12002; 12001; 12573; 11910; 12066; 11909; 12865]
  [(12012, 113, false); (12010, 1, false); (11650, 154, false); (11649, 150, false); (12788, 126, false); (11666, 250, false); (11665, 132, false); (11742, 78, false); (11743, 144, false); (12067, 97, false); (13370, 2, true); (11764, 46, false); (11762, 130, false); (11458, 180, false); (11457, 20, false); (12867, 172, false); (12002, 79, false); (12001, 225, false); (12573, 174, false); (11910, 155, false); (11909, 231, false); (12865, 222, false); (12066, 99, false)]
  [13033; 12886; 12787; 12646; 12883; 12884; 12647; 12166; 13035; 12888; 12702; 13034; 12866; 12703; 12425; 12435; 12887; 12704; 12572; 12158; 12436; 12086; 12885; 12700; 12701; 12522; 12273; 12274; 12087; 11847; 12310; 12157; 11848; 11648; 10929; 12529; 12441; 12219; 12314; 12220; 11855; 12315; 12165; 11922; 11761; 11138; 11577; 11578; 11456; 11348; 11349; 11118; 10914; 10759; 11347; 11326; 11127; 11136; 11140; 11117; 10760; 10547; 10942; 11322; 11486; 11304; 11128; 10943; 10361; 11324; 11488; 10928; 11325; 10944; 11153; 11323; 11487; 11300; 11154; 10945; 10627; 10913; 10128; 11794; 11303; 10954; 10955; 10436; 11475; 11155; 10755; 10921; 10756; 10142; 11793; 11159; 10952; 10953; 10435; 10774; 10775; 10082].
Definition aes128_round7_9 : sbox := SBox
  [13829; 13803; 13576; 13577; 13461; 13366; 13261; 14009; 13896; 13620; 13649; 13364; 13881; 14015; 13845; 13657; 13361; 13087; 13783; 13775; 13548; 13549; 11875; 11951; 11885; 13998; 13779; 13574; 13575; 13260; 11563; 13805; 13572; 13797; 13573; 13236; 13326; 13449; 13570; 13784; 13571; 13450; 13297; 13259; 13237; 13162; 11544; 13628; 13816; 13558; 13479; 13262; 11361; 11696; 11543; 11602; 12960; 11595; 12751; 13083; 11564; 13165; 11706; 13081; 12802; 11360; 11879; 11880; 12541; 11808; 11959; 11807; 12800]
  [(11885, 113, false); (11875, 1, false); (11544, 154, false); (11543, 150, false); (12751, 126, true); (11595, 250, false); (11602, 132, false); (11564, 78, false); (11563, 144, false); (11951, 97, false); (13297, 2, true); (11706, 46, false); (11696, 130, false); (12802, 172, true); (11360, 180, false); (11361, 20, false); (11879, 79, false); (11880, 225, false); (12541, 174, false); (11808, 155, false); (11807, 231, false); (12800, 222, false); (11959, 99, false)]
  [13000; 12822; 12750; 12617; 12825; 12826; 12618; 12103; 12496; 12999; 12824; 12659; 12998; 12801; 12660; 12389; 12497; 12395; 12823; 12661; 12540; 12046; 12396; 12026; 12821; 12657; 12658; 12534; 12229; 12230; 12027; 11710; 12239; 12323; 12240; 12045; 11874; 11711; 11542; 10794; 12442; 12173; 12466; 12286; 12174; 11785; 12287; 12102; 11714; 11695; 10985; 11594; 11562; 11359; 11177; 11178; 10983; 10791; 10650; 11179; 11175; 10984; 11806; 10986; 11950; 10987; 10982; 10651; 10513; 10795; 11226; 11409; 11224; 10988; 10796; 10649; 11267; 11444; 10793; 11176; 10830; 11041; 11878; 11225; 11408; 11222; 11040; 10831; 10678; 10790; 10646; 11625; 11223; 10797; 10798; 10518; 11406; 11039; 10652; 10792; 10653; 10515; 11624; 10989; 10799; 10800; 10648; 10655; 10656; 10339].
Definition aes128_round7_10 : sbox := SBox
  [13803; 13804; 13638; 13639; 13465; 13466; 13227; 13829; 14017; 13835; 13836; 13436; 13878; 14009; 13879; 13880; 13430; 13088; 13776; 13720; 13522; 13410; 11944; 11949; 11946; 13805; 13806; 13660; 13661; 13234; 13327; 13441; 13775; 13658; 13659; 13442; 13257; 13224; 13235; 13163; 13881; 13856; 13594; 13595; 13322; 11610; 11592; 13868; 13869; 13636; 13637; 13351; 11428; 11700; 11588; 11551; 12961; 11548; 12755; 13084; 11614; 13166; 11708; 11424; 12807; 11883; 11882; 12545; 11961; 11865; 11864; 12808]
  [(11946, 113, false); (11944, 1, false); (11592, 154, false); (11588, 150, false); (12755, 126, true); (11548, 250, false); (11551, 132, false); (11614, 78, false); (11610, 144, false); (11949, 97, false); (13257, 2, true); (11708, 46, false); (11700, 130, false); (11424, 180, false); (11428, 20, false); (12807, 172, false); (11883, 225, false); (11882, 79, false); (12545, 174, false); (11865, 231, false); (11864, 155, false); (12808, 222, false); (11961, 99, false)]
  [13006; 12838; 12754; 12621; 12833; 12834; 12622; 12105; 12498; 13005; 12836; 12667; 13004; 12806; 12668; 12390; 12397; 12835; 12669; 12544; 12097; 12398; 12030; 12837; 12670; 12671; 12536; 12233; 12234; 12031; 11779; 12325; 12284; 12096; 11780; 11587; 10864; 12446; 12179; 12467; 12289; 12180; 11786; 12288; 12104; 11870; 11699; 11088; 11536; 11537; 11423; 11288; 11609; 11289; 11068; 10849; 10716; 11290; 11232; 11075; 11087; 11948; 11089; 11067; 10717; 10566; 10885; 11271; 11448; 11255; 11076; 10886; 10455; 11547; 11230; 11411; 10863; 11231; 10887; 11107; 11881; 11272; 11449; 11253; 11099; 10888; 10730; 10848; 10696; 11629; 11254; 10891; 10892; 10453; 11440; 11098; 10714; 10856; 10715; 10351; 11628; 11043; 10834; 10835; 10439; 10737; 10738; 10590].
Definition aes128_round7_11 : sbox := SBox
  [13792; 13623; 13620; 13477; 13804; 13478; 13348; 14020; 14015; 13843; 13844; 13437; 14006; 13998; 13888; 13889; 13431; 13089; 13824; 13785; 13556; 13557; 11945; 11953; 11947; 13793; 13794; 13612; 13613; 13323; 11613; 13806; 13614; 13798; 13615; 13230; 13331; 13631; 13628; 13459; 13776; 13460; 13382; 13318; 13231; 13164; 11593; 13860; 13861; 13646; 13647; 13349; 11427; 11698; 11590; 11553; 12962; 11546; 12758; 13085; 11612; 13167; 11709; 11426; 12813; 11884; 11877; 12547; 11863; 11960; 11866; 12814]
  [(11947, 113, false); (11945, 1, false); (11593, 154, false); (11590, 150, false); (12758, 126, true); (11546, 250, false); (11553, 132, false); (11612, 78, false); (11613, 144, false); (11953, 97, false); (13382, 2, true); (11709, 46, false); (11698, 130, false); (11426, 180, false); (11427, 20, false); (12813, 172, false); (11884, 79, false); (11877, 225, false); (12547, 174, false); (11863, 155, false); (11866, 231, false); (12814, 222, false); (11960, 99, false)]
  [13010; 12840; 12757; 12627; 12843; 12844; 12628; 12107; 12499; 13009; 12842; 12676; 13008; 12812; 12677; 12391; 12399; 12841; 12680; 12546; 12099; 12400; 12022; 12839; 12678; 12679; 12537; 12235; 12236; 12023; 11781; 12326; 12285; 12098; 11782; 11589; 10867; 12449; 12177; 12468; 12290; 12178; 11787; 12291; 12106; 11871; 11697; 11094; 11538; 11539; 11425; 11294; 11611; 11295; 11070; 10853; 10722; 11296; 11235; 11078; 11095; 11952; 11091; 11069; 10723; 10571; 10543; 10903; 11281; 11455; 11261; 11080; 10904; 10686; 11545; 11233; 11412; 10868; 11234; 10897; 11111; 11876; 11262; 11454; 11257; 11097; 10898; 10702; 10675; 10852; 10685; 11633; 11260; 10869; 10870; 10586; 10674; 11441; 11096; 10724; 10858; 10725; 10570; 11632; 11044; 10836; 10837; 10671; 10741; 10742; 10578].
Definition aes128_round7_12 : sbox := SBox
  [13475; 13763; 13813; 13621; 13622; 13476; 13320; 14021; 14005; 13894; 13895; 13425; 13525; 13769; 14019; 13841; 13842; 13428; 13103; 13823; 13859; 13610; 13611; 11887; 12082; 11893; 13608; 13814; 13815; 13609; 13268; 13368; 13789; 13790; 13629; 13630; 13457; 13458; 13317; 13269; 13181; 13887; 13808; 13606; 13607; 13342; 11567; 11606; 13774; 13858; 13654; 13655; 13344; 11434; 11620; 11607; 11673; 12994; 11654; 12796; 13161; 13101; 11566; 13371; 13183; 11619; 11433; 12811; 11892; 11891; 12581; 12077; 11914; 11911; 12809]
  [(11893, 113, false); (11887, 1, false); (11606, 154, false); (11607, 150, false); (12796, 126, true); (11654, 250, false); (11673, 132, false); (11566, 78, false); (11567, 144, false); (12082, 97, false); (13371, 2, true); (11619, 46, false); (11620, 130, false); (11433, 180, false); (11434, 20, false); (12811, 172, false); (11892, 79, false); (11891, 225, false); (12581, 174, false); (11914, 231, false); (11911, 155, false); (12809, 222, true); (12077, 99, false)]
  [13030; 12912; 12795; 12650; 12907; 12908; 12651; 12111; 12532; 13044; 12910; 12674; 13007; 12810; 12675; 12424; 12439; 12909; 12720; 12580; 12048; 12440; 12094; 12911; 12672; 12673; 12520; 12531; 12281; 12242; 12095; 11776; 12362; 12241; 12047; 11777; 11605; 10866; 12448; 12225; 12296; 12226; 11810; 12295; 12110; 11809; 11811; 11618; 11093; 11653; 11534; 11535; 11432; 11292; 11565; 11293; 11062; 10851; 10720; 11291; 11280; 11077; 11090; 11092; 11061; 10721; 10569; 10541; 10895; 11279; 11453; 11259; 11079; 10896; 10438; 11277; 11452; 10865; 11278; 10893; 11109; 11276; 11451; 11256; 11110; 10894; 10600; 10850; 10074; 11631; 11258; 10901; 10902; 10434; 11480; 11113; 10718; 10857; 10719; 10167; 11630; 11112; 10899; 10900; 10411; 10739; 10740; 10055].
Definition aes128_round7_13 : sbox := SBox
  [13983; 13981; 13762; 13763; 13538; 13418; 13229; 14023; 13986; 13622; 13770; 13360; 14019; 13973; 13872; 13749; 13530; 13359; 13082; 13552; 13786; 13787; 13553; 11955; 11963; 11958; 13982; 13592; 13814; 13593; 13238; 13325; 13590; 13789; 13591; 13447; 13448; 13282; 13228; 13239; 13159; 14005; 13971; 13745; 13528; 13529; 13321; 11616; 11600; 13630; 13818; 13560; 13480; 13337; 11431; 11702; 11597; 11552; 12959; 11550; 12753; 13080; 11617; 13160; 11707; 11430; 12804; 11889; 11890; 12543; 11965; 11867; 11868; 12805]
  [(11958, 113, false); (11955, 1, false); (11600, 154, false); (11597, 150, false); (12753, 126, true); (11550, 250, false); (11552, 132, false); (11617, 78, false); (11616, 144, false); (11963, 97, false); (13282, 2, true); (11707, 46, false); (11702, 130, false); (11430, 180, false); (11431, 20, false); (12804, 172, false); (11889, 225, false); (11890, 79, false); (12543, 174, false); (11867, 231, false); (11868, 155, false); (12805, 222, false); (11965, 99, false)]
  [13003; 12832; 12752; 12619; 12827; 12828; 12620; 12109; 12501; 13001; 12830; 12663; 13002; 12803; 12664; 12388; 12401; 12829; 12662; 12542; 12113; 12402; 12028; 12831; 12665; 12666; 12535; 12231; 12232; 12029; 11774; 12324; 12292; 12112; 11775; 11596; 10862; 12444; 12175; 12465; 12294; 12176; 11778; 12293; 12108; 11869; 11701; 11085; 11532; 11533; 11429; 11285; 11615; 11286; 11066; 10847; 10712; 11287; 11229; 11073; 11084; 11962; 11086; 11065; 10713; 10564; 10879; 11269; 11446; 11252; 11074; 10880; 10704; 11549; 11227; 11410; 10861; 11228; 10881; 11104; 11888; 11270; 11447; 11250; 11105; 10882; 10727; 10846; 10693; 11627; 11251; 10883; 10884; 10587; 11439; 11106; 10710; 10855; 10711; 10574; 11626; 11042; 10832; 10833; 10677; 10734; 10735; 10274].
Definition aes128_round7_14 : sbox := SBox
  [13981; 13980; 13768; 13769; 13540; 13541; 13255; 13873; 13887; 14023; 13874; 13423; 13825; 13983; 14021; 13826; 13426; 13152; 13977; 13764; 13542; 13417; 12116; 12119; 12117; 13982; 13979; 13771; 13772; 13309; 13407; 13787; 13773; 13774; 13536; 13537; 13287; 13254; 13310; 13225; 13872; 13859; 13562; 13563; 13399; 11836; 11826; 13866; 13867; 13632; 13633; 13415; 11571; 11895; 11825; 11738; 13057; 11737; 12916; 13151; 11837; 13226; 11896; 11570; 12985; 12073; 12072; 12639; 12120; 12049; 12050; 12986]
  [(12117, 113, false); (12116, 1, false); (11826, 154, false); (11825, 150, false); (12916, 126, true); (11737, 250, false); (11738, 132, false); (11837, 78, false); (11836, 144, false); (12119, 97, false); (13287, 2, true); (11896, 46, false); (11895, 130, false); (11570, 180, false); (11571, 20, false); (12985, 172, false); (12073, 79, false); (12072, 225, false); (12639, 174, false); (12049, 231, false); (12050, 155, false); (12986, 222, false); (12120, 99, false)]
  [13097; 12992; 12915; 12723; 12989; 12990; 12724; 12260; 12583; 13099; 12988; 12781; 13098; 12984; 12782; 12514; 12515; 12987; 12780; 12638; 12262; 12516; 12197; 12991; 12783; 12784; 12637; 12373; 12374; 12198; 11977; 12450; 12417; 12261; 11978; 11824; 11050; 12560; 12297; 12582; 12419; 12298; 11979; 12418; 12259; 12051; 11894; 11240; 11723; 11724; 11569; 11418; 11835; 11419; 11237; 11047; 10838; 11420; 11377; 11238; 11242; 12118; 11241; 11236; 10839; 10299; 11053; 11417; 11574; 11415; 11239; 11054; 10654; 11736; 11381; 11522; 11049; 11378; 11055; 11245; 12071; 11416; 11573; 11413; 11244; 11056; 10679; 11046; 10647; 11860; 11414; 11051; 11052; 10563; 11572; 11243; 10840; 11048; 10841; 10310; 11859; 11208; 11011; 11012; 10562; 10842; 10843; 10519].
Definition aes128_round7_15 : sbox := SBox
  [13980; 13485; 13813; 13672; 13622; 13486; 13343; 13837; 14018; 14019; 13838; 13427; 13882; 14004; 14005; 13883; 13424; 13102; 13823; 13790; 13546; 13547; 12003; 12006; 12004; 13979; 13670; 13815; 13671; 13266; 13368; 13673; 13630; 13483; 13977; 13484; 13383; 13341; 13267; 13180; 13807; 13808; 13602; 13603; 13345; 11704; 11655; 13857; 13858; 13640; 13641; 13374; 11461; 11754; 11652; 11604; 12993; 11599; 12792; 13100; 11705; 13182; 11770; 11460; 12873; 11964; 11957; 12577; 12007; 11912; 11913; 12871]
  [(12004, 113, false); (12003, 1, false); (11655, 154, false); (11652, 150, false); (12792, 126, true); (11599, 250, false); (11604, 132, false); (11705, 78, false); (11704, 144, false); (12006, 97, false); (13383, 2, true); (11770, 46, false); (11754, 130, false); (11460, 180, false); (11461, 20, false); (12873, 172, false); (11964, 79, false); (11957, 225, false); (12577, 174, false); (11912, 231, false); (11913, 155, false); (12871, 222, false); (12007, 99, false)]
  [13038; 12898; 12791; 12644; 12895; 12896; 12645; 12168; 12530; 13040; 12900; 12713; 13039; 12872; 12714; 12423; 12437; 12899; 12712; 12576; 12170; 12438; 12090; 12897; 12710; 12711; 12569; 12277; 12278; 12091; 11844; 12387; 12307; 12169; 11845; 11651; 10933; 12464; 12221; 12521; 12309; 12222; 11846; 12308; 12167; 11921; 11753; 11144; 11575; 11576; 11459; 11354; 11703; 11355; 11124; 10918; 10767; 11353; 11275; 11134; 11142; 12005; 11145; 11123; 10768; 10568; 10572; 10960; 11333; 11492; 11308; 11131; 10961; 10687; 10688; 11598; 11273; 11450; 10932; 11274; 10962; 11162; 11956; 11334; 11493; 11306; 11163; 10963; 10731; 10700; 10917; 10697; 10683; 11713; 11307; 10966; 10967; 10623; 11477; 11165; 10763; 10923; 10764; 10544; 10582; 11712; 11108; 10889; 10890; 10672; 10673; 10778; 10779; 10616; 10581].
Definition aes128_round7 : list sbox := [aes128_round7_0; aes128_round7_1; aes128_round7_2; aes128_round7_3; aes128_round7_4; aes128_round7_5; aes128_round7_6; aes128_round7_7; aes128_round7_8; aes128_round7_9; aes128_round7_10; aes128_round7_11; aes128_round7_12; aes128_round7_13; aes128_round7_14; aes128_round7_15].
Definition aes128_round8_0 : sbox := SBox
  [10488; 10218; 10275; 10214; 10077; 10078; 9938; 10610; 10579; 10449; 10450; 10020; 10421; 10236; 10595; 10422; 10022; 9664; 10412; 10440; 10179; 10180; 8568; 8639; 8595; 10464; 10393; 10181; 10182; 9942; 8329; 10000; 9948; 10481; 10413; 10277; 10278; 10065; 10066; 9972; 9922; 9832; 10486; 10487; 10259; 10260; 9833; 9746; 8249; 10444; 10252; 10240; 10241; 9962; 8092; 8328; 8246; 8253; 8252; 9365; 9658; 8346; 9749; 8334; 8082; 9449; 8569; 8570; 9135; 8493; 8645; 8492; 9450]
  [(8595, 113, false); (8568, 1, false); (8249, 154, false); (8246, 150, false); (9365, 126, false); (8253, 250, false); (8252, 132, false); (8346, 78, false); (8329, 144, false); (8639, 97, false); (9972, 2, true); (8334, 46, false); (8328, 130, false); (8082, 180, false); (8092, 20, false); (9449, 172, false); (8569, 79, false); (8570, 225, false); (9135, 174, false); (8493, 155, false); (8492, 231, false); (9450, 222, false); (8645, 99, false)]
  [9600; 9477; 9364; 9200; 9472; 9473; 9201; 8717; 9598; 9475; 9279; 9599; 9448; 9280; 8983; 8987; 9474; 9281; 9134; 8709; 8988; 8655; 9476; 9282; 9283; 9062; 8825; 8826; 8656; 8434; 8862; 8708; 8435; 8245; 7566; 9069; 8999; 8765; 8864; 8766; 8439; 8865; 8716; 8507; 8327; 7765; 8164; 8165; 8081; 7969; 7970; 7743; 7553; 7366; 7971; 7954; 7752; 7764; 7767; 7742; 7367; 6998; 7581; 7948; 8108; 7928; 7754; 7582; 7077; 7951; 8112; 7568; 7952; 7585; 7781; 7950; 8111; 7932; 7782; 7586; 7170; 7552; 6565; 8372; 7927; 7583; 7584; 6787; 8099; 7787; 7370; 7560; 7371; 6587; 8373; 7785; 7591; 7592; 6788; 7386; 7387; 7001].
Definition aes128_round8_1 : sbox := SBox
  [10433; 10407; 10217; 10218; 10040; 9947; 9826; 10595; 10454; 10253; 10254; 9902; 10598; 10479; 10213; 10214; 9903; 9663; 10377; 10376; 10164; 10165; 8590; 8648; 8592; 10579; 10401; 10402; 10168; 9825; 8337; 10409; 10215; 10487; 10216; 9838; 9944; 10171; 10481; 10172; 10036; 10037; 9822; 9839; 9745; 8262; 10278; 10350; 10139; 10004; 9827; 8090; 8340; 8264; 8266; 8263; 9361; 9657; 8338; 9865; 9748; 8342; 8091; 9442; 8593; 8598; 9131; 8502; 8647; 8501; 9440]
  [(8592, 113, false); (8590, 1, false); (8262, 154, false); (8264, 150, false); (9361, 126, false); (8266, 250, false); (8263, 132, false); (8338, 78, false); (8337, 144, false); (8648, 97, false); (9865, 2, true); (8342, 46, false); (8340, 130, false); (8091, 180, false); (8090, 20, false); (9442, 172, false); (8593, 79, false); (8598, 225, false); (9131, 174, false); (8502, 155, false); (8501, 231, false); (9440, 222, false); (8647, 99, false)]
  [9591; 9461; 9360; 9196; 9458; 9459; 9197; 8715; 9593; 9463; 9271; 9592; 9441; 9272; 8982; 8985; 9462; 9273; 9130; 8707; 8986; 8651; 9460; 9269; 9270; 9067; 8821; 8822; 8652; 8432; 8875; 8706; 8433; 8261; 7563; 9076; 8997; 8761; 8873; 8762; 8438; 8874; 8714; 8508; 8339; 7760; 8162; 8163; 8089; 7963; 7964; 7741; 7549; 7362; 7965; 7944; 7759; 7761; 7762; 7740; 7363; 7154; 7102; 7579; 7945; 8106; 7926; 7750; 7580; 7161; 7941; 8103; 7564; 7942; 7609; 7795; 7962; 8102; 7923; 7778; 7610; 7311; 7548; 7280; 8369; 7925; 7577; 7578; 7201; 8097; 7777; 7360; 7558; 7361; 7153; 8368; 7779; 7575; 7576; 7286; 7380; 7381; 6746].
Definition aes128_round8_2 : sbox := SBox
  [10407; 10408; 10235; 10236; 10044; 10045; 9933; 10598; 10464; 10469; 10470; 10061; 10433; 10610; 10427; 10428; 10062; 9665; 10445; 10402; 10169; 10170; 8591; 8650; 8597; 10494; 10440; 10263; 10264; 9934; 8347; 10409; 10410; 10249; 10250; 9836; 9945; 10375; 10376; 10251; 10252; 10038; 10039; 9920; 9837; 9747; 8268; 10495; 10496; 10282; 10283; 9935; 8094; 8344; 8269; 8271; 8270; 9367; 9659; 8348; 9950; 9750; 8350; 8095; 9453; 8596; 8594; 9137; 8504; 8649; 8503; 9451]
  [(8597, 113, false); (8591, 1, false); (8268, 154, false); (8269, 150, false); (9367, 126, false); (8271, 250, false); (8270, 132, false); (8348, 78, false); (8347, 144, false); (8650, 97, false); (9950, 2, true); (8350, 46, false); (8344, 130, false); (8095, 180, false); (8094, 20, false); (9453, 172, false); (8596, 79, false); (8594, 225, false); (9137, 174, false); (8504, 155, false); (8503, 231, false); (9451, 222, false); (8649, 99, false)]
  [9601; 9479; 9366; 9202; 9480; 9481; 9203; 8719; 9603; 9483; 9286; 9602; 9452; 9287; 8984; 8989; 9482; 9288; 9136; 8711; 8990; 8657; 9478; 9284; 9285; 9068; 8829; 8830; 8658; 8436; 8878; 8710; 8437; 8267; 7570; 9077; 8998; 8767; 8876; 8768; 8440; 8877; 8718; 8509; 8343; 7771; 8166; 8167; 8093; 7972; 7973; 7747; 7557; 7374; 7974; 7961; 7756; 7769; 7773; 7746; 7375; 7198; 7015; 7595; 7955; 8054; 7936; 7758; 7596; 7199; 7959; 8058; 7572; 7960; 7601; 7790; 7958; 8057; 7938; 7791; 7602; 7316; 7556; 7283; 8374; 7935; 7597; 7598; 7089; 8101; 7794; 7378; 7562; 7379; 7036; 8375; 7792; 7605; 7606; 7088; 7390; 7391; 7202].
Definition aes128_round8_3 : sbox := SBox
  [10488; 10341; 10214; 10131; 10408; 10132; 9939; 10425; 10605; 10595; 10426; 10023; 10589; 10579; 10451; 10452; 10021; 9704; 10412; 10413; 10156; 10157; 8693; 8756; 8695; 10392; 10393; 10187; 10188; 9996; 8484; 10410; 10261; 10486; 10262; 9885; 10000; 10342; 10278; 10125; 10375; 10126; 9919; 9886; 9789; 8416; 10443; 10444; 10229; 10230; 9997; 8240; 8487; 8419; 8417; 8418; 9510; 9703; 8488; 9971; 9790; 8486; 8241; 9545; 8692; 8694; 9195; 8755; 8636; 8637; 9543]
  [(8695, 113, false); (8693, 1, false); (8416, 154, false); (8419, 150, false); (9510, 126, false); (8417, 250, false); (8418, 132, false); (8488, 78, false); (8484, 144, false); (8756, 97, false); (9971, 2, true); (8486, 46, false); (8487, 130, false); (8241, 180, false); (8240, 20, false); (9545, 172, false); (8692, 79, false); (8694, 225, false); (9195, 174, false); (8636, 231, false); (8637, 155, false); (9543, 222, false); (8755, 99, false)]
  [9647; 9549; 9509; 9318; 9546; 9547; 9319; 8818; 9649; 9551; 9357; 9648; 9544; 9358; 9057; 9058; 9550; 9359; 9194; 8816; 9059; 8757; 9548; 9355; 9356; 9154; 8915; 8916; 8758; 8565; 8977; 8815; 8566; 8415; 7655; 9155; 9061; 8856; 8975; 8857; 8567; 8976; 8817; 8638; 8485; 7845; 8322; 8323; 8239; 8018; 8019; 7842; 7652; 7452; 8020; 8013; 7844; 7846; 7847; 7841; 7453; 7271; 7211; 7658; 8017; 8157; 8012; 7843; 7659; 7276; 7395; 8016; 8244; 7654; 8014; 7656; 7850; 8015; 8243; 8010; 7849; 7657; 7315; 7397; 7651; 7282; 7394; 8491; 8011; 7662; 7663; 7273; 7396; 8242; 7848; 7450; 7653; 7451; 7112; 7212; 8490; 7851; 7660; 7661; 7224; 7454; 7455; 7272; 7213].
Definition aes128_round8_4 : sbox := SBox
  [10258; 10304; 10110; 10111; 9990; 9991; 9870; 10522; 10517; 10328; 10329; 9980; 10344; 10521; 10312; 10313; 9984; 9583; 10311; 10316; 10108; 10109; 8237; 8405; 8238; 10324; 10308; 10104; 10105; 9853; 8076; 10305; 10306; 10106; 10107; 9764; 9855; 10302; 10303; 10112; 10113; 9988; 9989; 9911; 9851; 9765; 9672; 8069; 10325; 10318; 10118; 10119; 9871; 7915; 8074; 8062; 8067; 8064; 9265; 9581; 8078; 9673; 8077; 7914; 9304; 8398; 9425; 8414; 9010; 8234; 8410; 8230; 9305]
  [(8238, 113, false); (8237, 1, false); (8069, 154, false); (8062, 150, false); (9265, 126, false); (8067, 250, false); (8064, 132, false); (8078, 78, false); (8076, 144, false); (8405, 97, false); (9911, 2, true); (8077, 46, false); (8074, 130, false); (7914, 180, false); (7915, 20, false); (9304, 172, false); (9010, 174, true); (8414, 79, false); (8398, 225, false); (8234, 155, false); (8230, 231, false); (9305, 222, false); (8410, 99, false)]
  [9506; 9315; 9264; 9122; 9312; 9313; 9123; 8564; 9508; 9317; 9149; 9507; 9303; 9150; 8851; 8897; 9316; 9153; 9011; 8483; 8478; 9314; 9151; 9152; 8940; 8686; 8687; 8479; 8216; 8690; 8691; 8482; 8217; 8061; 7351; 8974; 8854; 8855; 8634; 8740; 8810; 8635; 8219; 8741; 8563; 8397; 8235; 8073; 7539; 8063; 8075; 7913; 7735; 7736; 7537; 7348; 7192; 7737; 7733; 7538; 8229; 7540; 8404; 7541; 7536; 7193; 7074; 7354; 7804; 7920; 7800; 7545; 7355; 6979; 7803; 7980; 7350; 7734; 7392; 7615; 7802; 8236; 7979; 7798; 7614; 7393; 7187; 7171; 7347; 6640; 8009; 7799; 7356; 7357; 6902; 7917; 7613; 7190; 7349; 7191; 6726; 8152; 7546; 7358; 7359; 6892; 7196; 7197; 6716].
Definition aes128_round8_5 : sbox := SBox
  [10550; 10537; 10257; 10258; 10071; 9965; 9799; 10523; 10497; 10111; 10284; 9874; 10323; 10521; 10358; 10149; 9873; 9582; 10088; 10300; 10301; 10089; 8317; 8403; 8321; 10536; 10100; 10305; 10101; 9766; 9854; 9986; 10096; 10302; 10097; 9987; 9842; 9795; 9767; 9671; 10517; 10298; 10098; 10099; 9852; 8008; 8005; 10113; 10309; 10092; 9992; 9862; 7840; 8147; 8004; 8068; 9424; 8066; 9263; 9580; 8007; 9674; 8148; 9579; 9302; 7839; 8319; 8320; 9009; 8233; 8409; 8232; 9300]
  [(8321, 113, false); (8317, 1, false); (8005, 154, false); (8004, 150, false); (9263, 126, true); (8066, 250, false); (8068, 132, false); (8007, 78, false); (8008, 144, false); (8403, 97, false); (9842, 2, true); (8148, 46, false); (8147, 130, false); (9302, 172, true); (7839, 180, false); (7840, 20, false); (8319, 79, false); (8320, 225, false); (9009, 174, false); (8233, 155, false); (8232, 231, false); (9300, 222, false); (8409, 99, false)]
  [9504; 9307; 9262; 9120; 9308; 9309; 9121; 8562; 8972; 9505; 9311; 9146; 9503; 9301; 9147; 8850; 8973; 8852; 9310; 9148; 9008; 8481; 8853; 8476; 9306; 9144; 9145; 9007; 8684; 8685; 8477; 8149; 8688; 8809; 8689; 8480; 8316; 8150; 8003; 7263; 8896; 8632; 8941; 8742; 8633; 8218; 8743; 8561; 8155; 8146; 7445; 8065; 8006; 7838; 7649; 7650; 7443; 7261; 7141; 7648; 7646; 7444; 8231; 7446; 8402; 7447; 7442; 7142; 6999; 7265; 7731; 7918; 7729; 7448; 7266; 7139; 7801; 7978; 7264; 7647; 7352; 7542; 8318; 7732; 7919; 7730; 7543; 7353; 7194; 7260; 7137; 8079; 7728; 7267; 7268; 7006; 7916; 7544; 7143; 7262; 7144; 7003; 8080; 7449; 7269; 7270; 7140; 7145; 7146; 7002].
Definition aes128_round8_6 : sbox := SBox
  [10537; 10535; 10343; 10344; 10129; 10130; 9788; 10324; 10523; 10321; 10322; 9982; 10522; 10550; 10354; 10355; 9983; 9684; 10533; 10340; 10133; 9998; 8572; 8641; 8576; 10536; 10534; 10345; 10346; 9863; 9963; 10123; 10301; 10347; 10325; 10124; 9821; 9787; 9864; 9773; 10323; 10316; 10094; 10095; 9960; 8281; 8254; 10319; 10320; 10114; 10115; 9961; 8027; 8421; 8248; 8326; 9590; 8325; 9439; 9683; 8280; 9774; 8422; 9682; 9511; 8022; 8575; 8574; 9158; 8646; 8495; 8496; 9513]
  [(8576, 113, false); (8572, 1, false); (8254, 154, false); (8248, 150, false); (9439, 126, true); (8325, 250, false); (8326, 132, false); (8280, 78, false); (8281, 144, false); (8641, 97, false); (9821, 2, true); (8422, 46, false); (8421, 130, false); (9511, 172, true); (8022, 180, false); (8027, 20, false); (8575, 79, false); (8574, 225, false); (9158, 174, false); (8495, 231, false); (8496, 155, false); (9513, 222, false); (8646, 99, false)]
  [9619; 9519; 9438; 9267; 9516; 9517; 9268; 8760; 9125; 9620; 9515; 9321; 9618; 9512; 9322; 9012; 9126; 9013; 9514; 9320; 9157; 8713; 9014; 8696; 9518; 9323; 9324; 9156; 8858; 8859; 8697; 8428; 8860; 8978; 8861; 8712; 8571; 8429; 8247; 7474; 9060; 8819; 9124; 8917; 8820; 8489; 8918; 8759; 8459; 8420; 7692; 8324; 8279; 8021; 7895; 7896; 7667; 7459; 7291; 7897; 7875; 7677; 8494; 7691; 8640; 7690; 7666; 7292; 7155; 6944; 7500; 7946; 8107; 7931; 7712; 7501; 7162; 7985; 8156; 7477; 7876; 7573; 7775; 8573; 7943; 8104; 7924; 7776; 7574; 7313; 7458; 7229; 8371; 7930; 7496; 7497; 7053; 8096; 7780; 7289; 7469; 7290; 6963; 8370; 7708; 7494; 7495; 7051; 7319; 7320; 7165].
Definition aes128_round8_7 : sbox := SBox
  [10304; 10210; 10111; 10050; 10535; 10051; 9872; 10549; 10521; 10356; 10357; 9985; 10520; 10517; 10326; 10327; 9981; 9633; 10311; 10303; 10090; 10091; 8518; 8521; 8519; 10307; 10308; 10102; 10103; 9897; 8199; 10534; 10191; 10306; 10192; 9804; 9855; 10224; 10113; 10032; 10533; 10033; 9912; 9869; 9805; 9719; 8174; 10317; 10318; 10116; 10117; 9931; 8028; 8276; 8169; 8138; 9525; 8126; 9345; 9631; 8198; 9720; 8298; 8024; 9387; 8462; 8463; 9093; 8444; 8535; 8443; 9388]
  [(8519, 113, false); (8518, 1, false); (8174, 154, false); (8169, 150, false); (9345, 126, true); (8126, 250, false); (8138, 132, false); (8198, 78, false); (8199, 144, false); (8521, 97, false); (9912, 2, true); (8298, 46, false); (8276, 130, false); (8024, 180, false); (8028, 20, false); (9387, 172, false); (8462, 79, false); (8463, 225, false); (9093, 174, false); (8444, 155, false); (8443, 231, false); (9388, 222, false); (8535, 99, false)]
  [9569; 9399; 9344; 9180; 9420; 9421; 9181; 8671; 9039; 9556; 9419; 9231; 9570; 9386; 9232; 8927; 8928; 9418; 9230; 9092; 8665; 8929; 8607; 9398; 9233; 9234; 9080; 8783; 8784; 8608; 8364; 8888; 8833; 8664; 8365; 8168; 7484; 9003; 8738; 9022; 8837; 8739; 8367; 8838; 8670; 8458; 8275; 7702; 8121; 8122; 8023; 7909; 8197; 7910; 7675; 7467; 7307; 7908; 7829; 7685; 7703; 8520; 7704; 7674; 7308; 7152; 7108; 7522; 7887; 7999; 7868; 7686; 7523; 7277; 7227; 8125; 7827; 7984; 7485; 7828; 7526; 7724; 8461; 7890; 8001; 7869; 7725; 7527; 7285; 7231; 7466; 7275; 8227; 7867; 7524; 7525; 7160; 7228; 8043; 7726; 7309; 7473; 7310; 7151; 7114; 8228; 7643; 7433; 7434; 7225; 7327; 7328; 7156].
Definition aes128_round8_8 : sbox := SBox
  [10398; 10338; 10211; 10212; 10052; 10053; 9928; 10607; 10594; 10476; 10477; 10014; 10281; 10606; 10429; 10430; 10018; 9661; 10414; 10446; 10193; 10194; 8400; 8643; 8401; 10471; 10404; 10197; 10198; 9927; 8215; 10396; 10397; 10195; 10196; 9828; 9949; 10382; 10383; 10222; 10223; 10034; 10035; 9918; 9829; 9740; 8130; 10289; 10448; 10242; 10243; 9929; 7988; 8206; 8124; 8127; 9554; 8139; 9369; 9718; 9655; 8194; 9951; 9743; 9651; 8196; 9798; 7991; 9390; 8407; 9524; 8408; 9094; 8442; 8644; 8454; 9391]
  [(8401, 113, false); (8400, 1, false); (8130, 154, false); (8124, 150, false); (9369, 126, true); (8139, 250, false); (8127, 132, false); (8194, 78, false); (8215, 144, false); (8643, 97, false); (9951, 2, true); (8196, 46, false); (8206, 130, false); (7991, 180, false); (7988, 20, false); (9390, 172, true); (9094, 174, true); (8408, 79, false); (8407, 225, false); (8442, 155, false); (8454, 231, false); (9391, 222, true); (8644, 99, false)]
  [9604; 9487; 9368; 9204; 9484; 9485; 9205; 8629; 9073; 9571; 9423; 9236; 9572; 9389; 9237; 8926; 9074; 9004; 9422; 9235; 9095; 8627; 8609; 9486; 9238; 9239; 9063; 9075; 8785; 8786; 8610; 8441; 8299; 8898; 8789; 8626; 8300; 8123; 7415; 8930; 8895; 8769; 8787; 8770; 8642; 8301; 8788; 8628; 8380; 8195; 7632; 8059; 8060; 7987; 7832; 7833; 7626; 7408; 7238; 7834; 7830; 7628; 7633; 7634; 7625; 7239; 7104; 7092; 7431; 7823; 7981; 7811; 7629; 7432; 7048; 7824; 7982; 7416; 7825; 7429; 7641; 8406; 7826; 8399; 7983; 7809; 7642; 7430; 7167; 7407; 6700; 8154; 7810; 7437; 7438; 6977; 8044; 7644; 7240; 7412; 7241; 6812; 8153; 7645; 7435; 7436; 6966; 7249; 7250; 6652].
Definition aes128_round8_9 : sbox := SBox
  [10538; 10485; 10337; 10338; 10127; 9999; 9797; 10612; 10498; 10212; 10285; 9901; 10606; 10548; 10463; 10360; 10150; 9900; 9632; 10380; 10381; 10158; 10159; 8524; 8534; 8532; 9899; 10189; 10382; 10190; 10030; 10031; 9843; 9794; 9808; 10484; 10199; 10397; 10200; 9809; 9716; 10594; 10546; 10348; 10147; 10148; 9883; 8204; 8175; 10223; 10352; 10141; 10005; 9884; 8029; 8278; 8171; 8137; 9523; 8129; 9341; 9630; 8203; 9717; 8296; 9380; 8026; 8465; 8466; 9089; 8448; 8538; 8447; 9382]
  [(8532, 113, false); (8524, 1, false); (8175, 154, false); (8171, 150, false); (9341, 126, true); (8129, 250, false); (8137, 132, false); (8203, 78, false); (8204, 144, false); (8534, 97, false); (9843, 2, true); (8296, 46, false); (8278, 130, false); (9380, 172, false); (8026, 180, false); (8029, 20, false); (8465, 79, false); (8466, 225, false); (9089, 174, false); (8448, 155, false); (8447, 231, false); (9382, 222, false); (8538, 99, false)]
  [9566; 9407; 9340; 9176; 9408; 9409; 9177; 8673; 9040; 9564; 9411; 9220; 9565; 9381; 9221; 8925; 8931; 9410; 9224; 9088; 8667; 8932; 8603; 9406; 9222; 9223; 9082; 8779; 8780; 8604; 8360; 8891; 8834; 8666; 8361; 8170; 7480; 9001; 8732; 9021; 8839; 8733; 8366; 8840; 8672; 8457; 8277; 7696; 8119; 8120; 8025; 7903; 8202; 7904; 7671; 7463; 7299; 7902; 7817; 7681; 7701; 8533; 7698; 7670; 7300; 7073; 7518; 7884; 8053; 7863; 7683; 7519; 7076; 8128; 7822; 7995; 7483; 7818; 7520; 7721; 8464; 7886; 7998; 7866; 7722; 7521; 7208; 7462; 7188; 8226; 7862; 7512; 7513; 7163; 8042; 7723; 7305; 7472; 7306; 7075; 8225; 7639; 7425; 7426; 7189; 7325; 7326; 6936].
Definition aes128_round8_10 : sbox := SBox
  [10485; 10483; 10280; 10281; 10075; 10076; 9772; 10471; 10612; 10461; 10462; 10015; 10538; 10607; 10419; 10420; 10017; 9660; 10480; 10273; 10081; 9964; 8577; 8580; 8578; 10484; 10482; 10290; 10291; 9834; 9943; 10381; 10288; 10289; 10063; 10064; 9791; 9771; 9835; 9739; 10463; 10446; 10177; 10178; 9937; 8284; 8255; 10456; 10457; 10225; 10226; 9958; 8085; 8333; 8251; 8191; 9555; 8178; 9363; 9654; 8283; 9742; 8345; 8084; 9446; 8529; 8530; 9133; 8585; 8497; 8498; 9447]
  [(8578, 113, false); (8577, 1, false); (8255, 154, false); (8251, 150, false); (9363, 126, true); (8178, 250, false); (8191, 132, false); (8283, 78, false); (8284, 144, false); (8580, 97, false); (9791, 2, true); (8345, 46, false); (8333, 130, false); (8084, 180, false); (8085, 20, false); (9446, 172, false); (8529, 79, false); (8530, 225, false); (9133, 174, false); (8497, 231, false); (8498, 155, false); (9447, 222, false); (8585, 99, false)]
  [9597; 9467; 9362; 9198; 9468; 9469; 9199; 8725; 9072; 9595; 9471; 9274; 9596; 9445; 9275; 8980; 8991; 9470; 9278; 9132; 8721; 8992; 8653; 9466; 9276; 9277; 9127; 8823; 8824; 8654; 8426; 8919; 8863; 8720; 8427; 8250; 7565; 9015; 8763; 9065; 8867; 8764; 8430; 8866; 8724; 8506; 8332; 7763; 8160; 8161; 8083; 7967; 8282; 7968; 7745; 7551; 7364; 7966; 7882; 7751; 7766; 8579; 7768; 7744; 7365; 7000; 7587; 7949; 8109; 7934; 7753; 7588; 6907; 8177; 7879; 8051; 7567; 7880; 7589; 7783; 8528; 7953; 8110; 7929; 7784; 7590; 7195; 7550; 7138; 8305; 7933; 7593; 7594; 7090; 8098; 7786; 7368; 7559; 7369; 6783; 8304; 7717; 7506; 7507; 7087; 7384; 7385; 7008].
Definition aes128_round8_11 : sbox := SBox
  [10398; 10276; 10212; 10079; 10483; 10080; 9930; 10593; 10594; 10472; 10473; 10016; 10609; 10606; 10431; 10432; 10019; 9662; 10414; 10383; 10162; 10163; 8523; 8582; 8531; 10403; 10404; 10203; 10204; 9936; 8205; 10482; 10269; 10396; 10270; 9830; 9949; 10279; 10223; 10069; 10480; 10070; 9973; 9921; 9831; 9741; 8176; 10447; 10448; 10237; 10238; 9959; 7992; 8331; 8173; 8265; 9553; 8257; 9373; 9656; 8201; 9744; 8341; 9652; 9455; 7990; 8526; 8527; 9141; 8449; 8584; 8446; 9457]
  [(8531, 113, false); (8523, 1, false); (8176, 154, false); (8173, 150, false); (9373, 126, true); (8257, 250, false); (8265, 132, false); (8201, 78, false); (8205, 144, false); (8582, 97, false); (9973, 2, true); (8341, 46, false); (8331, 130, false); (9455, 172, true); (7990, 180, false); (7992, 20, false); (8526, 79, false); (8527, 225, false); (9141, 174, false); (8449, 155, false); (8446, 231, false); (9457, 222, false); (8584, 99, false)]
  [9607; 9497; 9372; 9208; 9494; 9495; 9209; 8723; 9070; 9609; 9465; 9295; 9608; 9456; 9296; 8981; 9071; 8993; 9464; 9294; 9140; 8669; 8994; 8661; 9496; 9297; 9298; 9129; 8831; 8832; 8662; 8362; 8835; 8921; 8836; 8668; 8522; 8363; 8172; 7413; 9016; 8773; 9066; 8868; 8774; 8431; 8869; 8722; 8381; 8330; 7635; 8256; 8200; 7989; 7835; 7836; 7624; 7410; 7234; 7831; 7812; 7627; 8445; 7631; 8581; 7630; 7623; 7235; 7106; 7094; 7421; 7892; 8002; 7853; 7637; 7422; 7221; 7207; 7947; 8105; 7414; 7813; 7498; 7711; 8525; 7877; 8048; 7856; 7710; 7499; 7312; 7232; 7409; 7220; 7205; 8303; 7852; 7419; 7420; 7117; 8039; 7709; 7236; 7411; 7237; 7105; 8302; 7636; 7417; 7418; 7222; 7243; 7244; 7111].
Definition aes128_round8_12 : sbox := SBox
  [10272; 10385; 10205; 10206; 10046; 10047; 9893; 10234; 10603; 10415; 10416; 10060; 10611; 10602; 10474; 10475; 10059; 9627; 10362; 10363; 10143; 10144; 8412; 8550; 8413; 10388; 10389; 10173; 10174; 9800; 9904; 10378; 10379; 10219; 10220; 10026; 10027; 9952; 9892; 9801; 9710; 10390; 10460; 10175; 10176; 9894; 8213; 8188; 10248; 10442; 10286; 10287; 9924; 8035; 8286; 8190; 8189; 9520; 8192; 9332; 9624; 8214; 9713; 8291; 8038; 9375; 8472; 8475; 9498; 9085; 8544; 8378; 8377; 9376]
  [(8413, 113, false); (8412, 1, false); (8188, 154, false); (8190, 150, false); (9332, 126, true); (8192, 250, false); (8189, 132, false); (8214, 78, false); (8213, 144, false); (8550, 97, false); (9952, 2, true); (8291, 46, false); (8286, 130, false); (8038, 180, false); (8035, 20, false); (9375, 172, false); (8472, 79, false); (8475, 225, false); (9085, 174, true); (8378, 231, false); (8377, 155, false); (9376, 222, false); (8544, 99, false)]
  [9559; 9397; 9331; 9166; 9392; 9393; 9167; 8675; 9043; 9557; 9395; 9211; 9558; 9374; 9212; 8922; 8939; 9394; 9210; 9084; 8631; 8599; 9396; 9213; 9214; 9079; 8775; 8776; 8600; 8351; 8889; 8790; 8791; 8630; 8352; 8187; 7475; 8933; 8934; 8736; 9018; 8844; 8737; 8357; 8843; 8674; 8379; 8285; 7687; 8113; 8114; 8034; 7893; 7894; 7665; 7457; 7293; 7898; 7874; 7678; 8376; 7689; 8543; 7688; 7664; 7294; 7149; 7103; 7490; 7873; 8047; 7855; 7676; 7491; 6976; 7871; 8046; 7476; 7872; 7486; 7705; 8471; 7870; 8411; 8045; 7857; 7706; 7487; 7279; 7168; 7456; 6638; 8151; 7854; 7492; 7493; 7046; 7993; 7707; 7287; 7468; 7288; 6724; 8220; 7713; 7488; 7489; 7039; 7317; 7318; 6573].
Definition aes128_round8_13 : sbox := SBox
  [10599; 10478; 10206; 10239; 9940; 10603; 10608; 10364; 10437; 10244; 9932; 9653; 10384; 10372; 10160; 10161; 8583; 8588; 10489; 10395; 10271; 10272; 10073; 9966; 9824; 8586; 9941; 10267; 10378; 10268; 10067; 10068; 9866; 9823; 9840; 10394; 10265; 10388; 10266; 9841; 9737; 10399; 10400; 10201; 10202; 9860; 8293; 8260; 8336; 10220; 10405; 10166; 10056; 9861; 8088; 8259; 8193; 9552; 8184; 9371; 9650; 8294; 9738; 8349; 8087; 9454; 8549; 8540; 9139; 8589; 8499; 8500; 9443]
  [(8586, 113, false); (8583, 1, false); (8260, 154, false); (8259, 150, false); (9371, 126, true); (8184, 250, false); (8193, 132, false); (8294, 78, false); (8293, 144, false); (8588, 97, false); (9866, 2, true); (8349, 46, false); (8336, 130, false); (8087, 180, false); (8088, 20, false); (9454, 172, false); (8549, 79, false); (8540, 225, false); (9139, 174, false); (8499, 231, false); (8500, 155, false); (9443, 222, false); (8589, 99, false)]
  [9594; 9489; 9370; 9206; 9490; 9491; 9207; 8727; 9078; 9606; 9493; 9292; 9605; 9444; 9293; 8979; 8995; 9492; 9289; 9138; 8729; 8996; 8659; 9488; 9290; 9291; 9128; 8827; 8828; 8660; 8423; 8920; 8870; 8728; 8424; 8258; 7569; 9017; 8771; 9064; 8871; 8772; 8425; 8872; 8726; 8505; 8335; 7770; 8158; 8159; 8086; 7975; 8292; 7976; 7749; 7555; 7372; 7977; 7891; 7755; 7772; 8587; 7774; 7748; 7373; 7110; 7093; 7603; 7956; 8055; 7940; 7757; 7604; 7118; 8183; 7888; 8000; 7571; 7889; 7599; 7788; 8539; 7957; 8056; 7937; 7789; 7600; 7242; 7554; 7230; 8307; 7939; 7607; 7608; 7200; 8100; 7793; 7376; 7561; 7377; 7109; 8306; 7727; 7528; 7529; 7233; 7388; 7389; 6840].
Definition aes128_round8_14 : sbox := SBox
  [10395; 10387; 10233; 10234; 10042; 10043; 9736; 10611; 10489; 10417; 10418; 10013; 10599; 10460; 10467; 10468; 10011; 9629; 10373; 10208; 10054; 9946; 8537; 8548; 8542; 10394; 10386; 10245; 10246; 9806; 9898; 10372; 10247; 10248; 10024; 10025; 9775; 9735; 9807; 9712; 10362; 10364; 10145; 10146; 9896; 8212; 8186; 10458; 10459; 10231; 10232; 9926; 8037; 8290; 8182; 8136; 9522; 8134; 9343; 9626; 8211; 9715; 8297; 8033; 9384; 8474; 8470; 9091; 8552; 8452; 8453; 9385]
  [(8542, 113, false); (8537, 1, false); (8186, 154, false); (8182, 150, false); (9343, 126, true); (8134, 250, false); (8136, 132, false); (8211, 78, false); (8212, 144, false); (8548, 97, false); (9775, 2, true); (8297, 46, false); (8290, 130, false); (8033, 180, false); (8037, 20, false); (9384, 172, false); (8474, 79, false); (8470, 225, false); (9091, 174, false); (8452, 231, false); (8453, 155, false); (9385, 222, false); (8552, 99, false)]
  [9568; 9413; 9342; 9178; 9414; 9415; 9179; 8679; 9042; 9567; 9417; 9225; 9560; 9383; 9226; 8924; 8937; 9416; 9229; 9090; 8683; 8938; 8605; 9412; 9227; 9228; 9083; 8781; 8782; 8606; 8355; 8892; 8842; 8682; 8356; 8181; 7481; 9002; 8734; 9020; 8848; 8735; 8359; 8847; 8678; 8456; 8289; 7697; 8117; 8118; 8032; 7906; 8210; 7907; 7673; 7465; 7301; 7905; 7819; 7682; 7700; 8547; 7699; 7672; 7302; 7147; 7098; 7516; 7885; 7997; 7865; 7684; 7517; 7164; 8133; 7821; 7996; 7482; 7820; 7510; 7720; 8469; 7883; 8052; 7861; 7719; 7511; 7314; 7464; 7281; 8224; 7864; 7514; 7515; 7054; 8041; 7718; 7303; 7471; 7304; 6965; 8223; 7640; 7427; 7428; 7052; 7323; 7324; 7166].
Definition aes128_round8_15 : sbox := SBox
  [10387; 10048; 10385; 10207; 10206; 10049; 9923; 10601; 10602; 10465; 10466; 10010; 10604; 10603; 10423; 10424; 10012; 9628; 10363; 10379; 10154; 10155; 8536; 8546; 8541; 10386; 10183; 10389; 10184; 9802; 9904; 10221; 10220; 10028; 10373; 10029; 9974; 9891; 9803; 9711; 10390; 10391; 10185; 10186; 9895; 8209; 8185; 10441; 10442; 10227; 10228; 9925; 8036; 8288; 8180; 8135; 9521; 8132; 9334; 9625; 8208; 9714; 8295; 8031; 9378; 8473; 8468; 9087; 8551; 8450; 8451; 9379]
  [(8541, 113, false); (8536, 1, false); (8185, 154, false); (8180, 150, false); (9334, 126, true); (8132, 250, false); (8135, 132, false); (8208, 78, false); (8209, 144, false); (8546, 97, false); (9974, 2, true); (8295, 46, false); (8288, 130, false); (8031, 180, false); (8036, 20, false); (9378, 172, false); (8473, 79, false); (8468, 225, false); (9087, 174, false); (8450, 231, false); (8451, 155, false); (9379, 222, false); (8551, 99, false)]
  [9561; 9405; 9333; 9168; 9400; 9401; 9169; 8677; 9041; 9562; 9403; 9216; 9563; 9377; 9217; 8923; 8935; 9402; 9215; 9086; 8681; 8936; 8601; 9404; 9218; 9219; 9081; 8777; 8778; 8602; 8353; 8890; 8841; 8680; 8354; 8179; 7478; 9000; 8730; 9019; 8846; 8731; 8358; 8845; 8676; 8455; 8287; 7693; 8115; 8116; 8030; 7900; 8207; 7901; 7669; 7461; 7295; 7899; 7816; 7679; 7694; 8545; 7695; 7668; 7296; 7148; 7107; 7502; 7878; 8049; 7860; 7680; 7503; 7278; 7226; 8131; 7814; 7994; 7479; 7815; 7504; 7714; 8467; 7881; 8050; 7858; 7715; 7505; 7284; 7460; 7274; 7219; 8222; 7859; 7508; 7509; 7159; 8040; 7716; 7297; 7470; 7298; 7004; 8221; 7638; 7423; 7424; 7223; 7206; 7321; 7322; 7150; 7113].
Definition aes128_round8 : list sbox := [aes128_round8_0; aes128_round8_1; aes128_round8_2; aes128_round8_3; aes128_round8_4; aes128_round8_5; aes128_round8_6; aes128_round8_7; aes128_round8_8; aes128_round8_9; aes128_round8_10; aes128_round8_11; aes128_round8_12; aes128_round8_13; aes128_round8_14; aes128_round8_15].
Definition aes128_round9_0 : sbox := SBox
  [6785; 6849; 7009; 6786; 6484; 7010; 7005; 6795; 6796; 6481; 6074; 6784; 6792; 6599; 6600; 4729; 4883; 6312; 6779; 6751; 6603; 6604; 6489; 6490; 6313; 4726; 6802; 6776; 6597; 6598; 6363; 4619; 6780; 6781; 6601; 6602; 6234; 6773; 6774; 6607; 6608; 6485; 6486; 6359; 6316; 6317; 6235; 6166; 4565; 6070; 4614; 6803; 6790; 6613; 6614; 6364; 4374; 4564; 4569; 5877; 4566; 5696; 6072; 4620; 6168; 4618; 5733; 4373; 4728; 5878; 4730; 5450; 4797; 4884; 4800; 5731]
  [(4726, 113, false); (4729, 1, false); (4565, 154, false); (4564, 150, false); (5696, 126, true); (4566, 250, false); (4569, 132, false); (4620, 78, false); (4619, 144, false); (4883, 97, false); (6316, 2, true); (4618, 46, false); (4614, 130, false); (5733, 172, true); (4373, 180, false); (4374, 20, false); (5450, 174, true); (4730, 79, false); (4728, 225, false); (4797, 155, false); (4800, 231, false); (5731, 222, false); (4884, 99, false)]
  [5925; 5743; 5695; 5547; 5740; 5741; 5548; 4958; 5420; 5926; 5745; 5582; 5924; 5732; 5583; 5316; 5421; 5321; 5744; 5579; 5451; 4956; 4953; 5742; 5580; 5581; 5447; 5160; 5161; 4954; 4796; 4672; 5278; 5164; 4955; 4673; 4563; 3780; 5319; 5320; 5095; 5418; 5162; 5096; 4674; 5163; 4957; 4724; 4613; 3963; 4521; 4522; 4372; 4153; 4154; 3959; 3778; 3664; 4155; 4145; 3960; 3964; 4882; 3962; 3958; 3665; 3531; 3784; 4147; 4375; 4144; 3961; 3785; 3540; 4151; 4378; 3781; 4146; 3790; 3969; 4727; 4152; 4725; 4377; 4142; 3967; 3791; 3659; 3629; 3777; 3194; 4572; 4143; 3786; 3787; 3322; 4454; 3966; 3666; 3779; 3667; 3345; 4571; 3965; 3782; 3783; 3314; 3669; 3670; 3535].
Definition aes128_round9_1 : sbox := SBox
  [7083; 7037; 6750; 6751; 6564; 6466; 6284; 7009; 6906; 6691; 6692; 6368; 7011; 7068; 6837; 6604; 6369; 6073; 6771; 6772; 6584; 6585; 4875; 4878; 4876; 7005; 6777; 6778; 6588; 6314; 4616; 7038; 6605; 6781; 6606; 6236; 6315; 6595; 6773; 6596; 6487; 6488; 6304; 6283; 6237; 6165; 4609; 6608; 6782; 6586; 6491; 6329; 4453; 4667; 4608; 4570; 5876; 4568; 5694; 6071; 4617; 6167; 4671; 4452; 5729; 4803; 4804; 5449; 4798; 4885; 4799; 5730]
  [(4876, 113, false); (4875, 1, false); (4609, 154, false); (4608, 150, false); (5694, 126, true); (4568, 250, false); (4570, 132, false); (4617, 78, false); (4616, 144, false); (4878, 97, false); (6304, 2, true); (4671, 46, false); (4667, 130, false); (4452, 180, false); (4453, 20, false); (5729, 172, false); (4803, 79, false); (4804, 225, false); (5449, 174, false); (4798, 155, false); (4799, 231, false); (5730, 222, false); (4885, 99, false)]
  [5923; 5739; 5693; 5545; 5734; 5735; 5546; 5022; 5419; 5921; 5737; 5575; 5922; 5728; 5576; 5315; 5317; 5736; 5574; 5448; 5020; 5318; 4951; 5738; 5577; 5578; 5446; 5158; 5159; 4952; 4720; 5277; 5214; 5019; 4721; 4607; 3846; 5366; 5093; 5417; 5215; 5094; 4722; 5216; 5021; 4801; 4666; 4047; 4561; 4562; 4451; 4214; 4615; 4215; 4043; 3843; 3711; 4216; 4148; 4044; 4048; 4877; 4046; 4042; 3712; 3590; 3533; 3853; 4209; 4457; 4207; 4045; 3854; 3707; 4567; 4150; 4376; 3845; 4149; 3851; 4050; 4802; 4213; 4458; 4208; 4051; 3852; 3713; 3842; 3704; 4621; 4206; 3849; 3850; 3593; 4455; 4052; 3708; 3844; 3709; 3588; 4622; 3968; 3788; 3789; 3661; 3714; 3715; 3363].
Definition aes128_round9_2 : sbox := SBox
  [7037; 7022; 6848; 6849; 6641; 6642; 6366; 7010; 7083; 6900; 6901; 6483; 6802; 7011; 6800; 6801; 6480; 6181; 6791; 6778; 6589; 6590; 5055; 5110; 5059; 6799; 6792; 6593; 6594; 6452; 4775; 7038; 7021; 6863; 6864; 6332; 6463; 7016; 6772; 6862; 6803; 6635; 6636; 6411; 6362; 6333; 6250; 4743; 6797; 6798; 6611; 6612; 6453; 4549; 4899; 4742; 4832; 6080; 4819; 5884; 6177; 4774; 6251; 4917; 6173; 5955; 4546; 5057; 5058; 5612; 4992; 5127; 4991; 5950]
  [(5059, 113, false); (5055, 1, false); (4743, 154, false); (4742, 150, false); (5884, 126, true); (4819, 250, false); (4832, 132, false); (4774, 78, false); (4775, 144, false); (5110, 97, false); (6411, 2, true); (4917, 46, false); (4899, 130, false); (5955, 172, true); (4546, 180, false); (4549, 20, false); (5057, 79, false); (5058, 225, false); (5612, 174, false); (4992, 155, false); (4991, 231, false); (5950, 222, false); (5127, 99, false)]
  [6114; 5973; 5883; 5703; 5974; 5975; 5704; 5249; 5557; 6113; 5977; 5778; 6112; 5951; 5779; 5466; 5558; 5467; 5976; 5780; 5611; 5201; 5468; 5184; 5972; 5776; 5777; 5603; 5339; 5340; 5185; 4928; 5347; 5432; 5348; 5200; 5054; 4929; 4741; 3936; 5509; 5293; 5556; 5378; 5294; 4987; 5379; 5248; 4942; 4898; 4195; 4818; 4773; 4545; 4369; 4370; 4187; 3931; 3768; 4371; 4360; 4190; 4990; 4194; 5109; 4196; 4186; 3769; 3638; 3448; 3948; 4426; 4597; 4406; 4202; 3949; 3646; 4493; 4653; 3937; 4361; 4019; 4265; 5056; 4430; 4599; 4407; 4264; 4020; 3740; 3930; 3734; 4866; 4405; 3950; 3951; 3512; 4589; 4263; 3770; 3933; 3771; 3454; 4869; 4204; 3954; 3955; 3511; 3775; 3776; 3647].
Definition aes128_round9_3 : sbox := SBox
  [6779; 6921; 6604; 6701; 7022; 6702; 6365; 6896; 7081; 7009; 6897; 6482; 7007; 7005; 6793; 6794; 6479; 6191; 6784; 6774; 6582; 6583; 5104; 5169; 5108; 7021; 6815; 6780; 6816; 6383; 6317; 6922; 6608; 6697; 7016; 6698; 6412; 6361; 6384; 6268; 6775; 6776; 6591; 6592; 6451; 4837; 4815; 6789; 6790; 6609; 6610; 6454; 4581; 4960; 4810; 4896; 6096; 4889; 5937; 6189; 4836; 6269; 4967; 6187; 6018; 4575; 5106; 5107; 5647; 5032; 5174; 5031; 6016]
  [(5108, 113, false); (5104, 1, false); (4815, 154, false); (4810, 150, false); (5937, 126, true); (4889, 250, false); (4896, 132, false); (4836, 78, false); (4837, 144, false); (5169, 97, false); (6412, 2, true); (4967, 46, false); (4960, 130, false); (6018, 172, true); (4575, 180, false); (4581, 20, false); (5106, 79, false); (5107, 225, false); (5647, 174, false); (5032, 155, false); (5031, 231, false); (6016, 222, false); (5174, 99, false)]
  [6138; 6033; 5936; 5754; 6028; 6029; 5755; 5280; 5597; 6139; 6031; 5828; 6137; 6017; 5829; 5500; 5598; 5501; 6030; 5825; 5646; 5243; 5502; 5221; 6032; 5826; 5827; 5643; 5369; 5370; 5222; 4983; 5373; 5460; 5374; 5242; 5103; 4984; 4809; 3990; 5550; 5331; 5586; 5423; 5332; 5029; 5424; 5279; 5001; 4959; 4244; 4888; 4835; 4574; 4443; 4444; 4228; 3980; 3810; 4442; 4423; 4236; 5030; 4247; 5168; 4246; 4227; 3811; 3679; 3641; 4013; 4490; 4651; 4476; 4261; 4014; 3800; 3755; 4532; 4689; 3992; 4424; 4092; 4334; 5105; 4489; 4650; 4477; 4333; 4093; 3824; 3804; 3979; 3796; 3748; 4933; 4475; 4009; 4010; 3692; 3756; 4643; 4332; 3814; 3986; 3815; 3644; 4932; 4257; 4005; 4006; 3750; 3752; 3829; 3830; 3682].
Definition aes128_round9_4 : sbox := SBox
  [6527; 6885; 6830; 6681; 6682; 6528; 6404; 6894; 6851; 7080; 6895; 6622; 6932; 7095; 7079; 6933; 6621; 6125; 6669; 6893; 6903; 6670; 5005; 5073; 5015; 7061; 6889; 6813; 6814; 6405; 4772; 6886; 6887; 6671; 6672; 6285; 6370; 6409; 6881; 6882; 6684; 6685; 6523; 6524; 6402; 6286; 6202; 4710; 6866; 6905; 6857; 6858; 6408; 4550; 4770; 4700; 4702; 4701; 5804; 6124; 4784; 6410; 6203; 4771; 4548; 5868; 5006; 5007; 5544; 4937; 5074; 4934; 5869]
  [(5015, 113, false); (5005, 1, false); (4710, 154, false); (4700, 150, false); (5804, 126, false); (4702, 250, false); (4701, 132, false); (4784, 78, false); (4772, 144, false); (5073, 97, false); (6410, 2, true); (4771, 46, false); (4770, 130, false); (4548, 180, false); (4550, 20, false); (5868, 172, false); (5006, 79, false); (5007, 225, false); (5544, 174, false); (4937, 155, false); (4934, 231, false); (5869, 222, false); (5074, 99, false)]
  [6067; 5875; 5803; 5627; 5872; 5873; 5628; 5153; 6068; 5871; 5689; 6069; 5867; 5690; 5411; 5413; 5870; 5688; 5543; 5149; 5414; 5087; 5874; 5691; 5692; 5482; 5272; 5273; 5088; 4857; 5313; 5148; 4858; 4699; 3934; 5494; 5415; 5210; 5311; 5211; 4859; 5312; 5152; 4940; 4769; 4191; 4661; 4662; 4547; 4367; 4368; 4185; 3929; 3764; 4366; 4350; 4188; 4193; 4192; 4184; 3765; 3636; 3946; 4357; 4558; 4348; 4189; 3947; 3503; 4355; 4555; 3935; 4351; 3942; 4201; 4354; 4557; 4349; 4200; 3943; 3758; 3695; 3928; 3138; 4790; 4347; 3944; 3945; 3504; 4553; 4199; 3766; 3932; 3767; 3240; 4789; 4197; 3938; 3939; 3491; 3773; 3774; 3152].
Definition aes128_round9_5 : sbox := SBox
  [7043; 7029; 6829; 6830; 6639; 6504; 6328; 7084; 7067; 6682; 6854; 6464; 7080; 7124; 6914; 6978; 6761; 6462; 6180; 6667; 6883; 6884; 6668; 5112; 5116; 5113; 6461; 6833; 6881; 6834; 6633; 6634; 6387; 6326; 6340; 7031; 6831; 6886; 6832; 6341; 6247; 6890; 6891; 6679; 6680; 6379; 4843; 4821; 6685; 6964; 6725; 6574; 6380; 4631; 4903; 4814; 4767; 6079; 4751; 5890; 6176; 4842; 6249; 4914; 5956; 4627; 5061; 5065; 5616; 5036; 5128; 5035; 5958]
  [(5113, 113, false); (5112, 1, false); (4821, 154, false); (4814, 150, false); (5890, 126, true); (4751, 250, false); (4767, 132, false); (4842, 78, false); (4843, 144, false); (5116, 97, false); (6387, 2, true); (4914, 46, false); (4903, 130, false); (5956, 172, false); (4627, 180, false); (4631, 20, false); (5061, 79, false); (5065, 225, false); (5616, 174, false); (5036, 155, false); (5035, 231, false); (5958, 222, false); (5128, 99, false)]
  [6120; 5991; 5889; 5707; 5988; 5989; 5708; 5255; 5560; 6119; 5987; 5786; 6118; 5957; 5787; 5465; 5471; 5986; 5788; 5615; 5247; 5472; 5188; 5990; 5789; 5790; 5605; 5343; 5344; 5189; 4980; 5435; 5376; 5246; 4981; 4813; 4068; 5512; 5297; 5555; 5382; 5298; 4986; 5383; 5254; 5047; 4902; 4310; 4739; 4740; 4626; 4508; 4841; 4509; 4291; 4054; 3866; 4510; 4416; 4298; 4321; 5115; 4311; 4290; 3867; 3532; 4110; 4498; 4658; 4469; 4301; 4111; 3663; 4750; 4438; 4604; 4069; 4417; 4108; 4341; 5060; 4497; 4657; 4472; 4326; 4109; 3668; 4053; 3660; 4861; 4468; 4080; 4081; 3657; 4641; 4325; 3862; 4064; 3863; 3537; 4860; 4254; 3997; 3998; 3662; 3881; 3882; 3536].
Definition aes128_round9_6 : sbox := SBox
  [7029; 7030; 6850; 6851; 6643; 6644; 6319; 6912; 7061; 7084; 6913; 6520; 6927; 7095; 7043; 6928; 6522; 6179; 7013; 6935; 6715; 6551; 5111; 5118; 5114; 7031; 7032; 6867; 6868; 6334; 6460; 6884; 6865; 6866; 6623; 6624; 6371; 6318; 6335; 6246; 6914; 6903; 6677; 6678; 6457; 4839; 4820; 6908; 6909; 6689; 6690; 6499; 4630; 4901; 4812; 4766; 6078; 4749; 5886; 6175; 4840; 6248; 4918; 4625; 5954; 5063; 5064; 5614; 5129; 5034; 5033; 5952]
  [(5114, 113, false); (5111, 1, false); (4820, 154, false); (4812, 150, false); (5886, 126, true); (4749, 250, false); (4766, 132, false); (4840, 78, false); (4839, 144, false); (5118, 97, false); (6371, 2, true); (4918, 46, false); (4901, 130, false); (4625, 180, false); (4630, 20, false); (5954, 172, false); (5063, 79, false); (5064, 225, false); (5614, 174, false); (5034, 231, false); (5033, 155, false); (5952, 222, false); (5129, 99, false)]
  [6116; 5979; 5885; 5705; 5980; 5981; 5706; 5253; 5559; 6117; 5983; 5783; 6115; 5953; 5784; 5464; 5469; 5982; 5785; 5613; 5245; 5470; 5186; 5978; 5781; 5782; 5604; 5341; 5342; 5187; 4978; 5434; 5375; 5244; 4979; 4811; 4077; 5510; 5295; 5554; 5380; 5296; 4985; 5381; 5252; 5046; 4900; 4319; 4737; 4738; 4624; 4505; 4838; 4506; 4297; 4062; 3878; 4507; 4433; 4306; 4320; 5117; 4318; 4296; 3879; 3721; 3397; 4106; 4496; 4655; 4482; 4307; 4107; 3710; 4748; 4437; 4602; 4076; 4434; 4104; 4338; 5062; 4495; 4656; 4483; 4339; 4105; 3716; 4061; 3705; 4870; 4481; 4102; 4103; 3613; 4645; 4340; 3876; 4067; 3877; 3313; 4871; 4269; 4025; 4026; 3611; 3893; 3894; 3594].
Definition aes128_round9_7 : sbox := SBox
  [6885; 6683; 6682; 6529; 7030; 6530; 6406; 6910; 7078; 7079; 6911; 6519; 7082; 7080; 6898; 6899; 6521; 6094; 6893; 6882; 6665; 6666; 4943; 4948; 4944; 6888; 6889; 6673; 6674; 6367; 4670; 7032; 6675; 6887; 6676; 6257; 6370; 6686; 6685; 6525; 7013; 6526; 6434; 6360; 6258; 6183; 4665; 6904; 6905; 6687; 6688; 6407; 4517; 4717; 4664; 4612; 5920; 4611; 5727; 6093; 4669; 6184; 4719; 4516; 5813; 4880; 4881; 5497; 4873; 4950; 4872; 5811]
  [(4944, 113, false); (4943, 1, false); (4665, 154, false); (4664, 150, false); (5727, 126, true); (4611, 250, false); (4612, 132, false); (4669, 78, false); (4670, 144, false); (4948, 97, false); (6434, 2, true); (4719, 46, false); (4717, 130, false); (4516, 180, false); (4517, 20, false); (5813, 172, false); (4880, 79, false); (4881, 225, false); (5497, 174, false); (4873, 155, false); (4872, 231, false); (5811, 222, false); (4950, 99, false)]
  [6012; 5819; 5726; 5572; 5816; 5817; 5573; 5092; 5445; 6011; 5815; 5640; 6010; 5812; 5641; 5363; 5364; 5814; 5637; 5496; 5090; 5365; 5017; 5818; 5638; 5639; 5495; 5212; 5213; 5018; 4786; 5314; 5274; 5089; 4787; 4663; 3908; 5416; 5156; 5444; 5275; 5157; 4788; 5276; 5091; 4874; 4716; 4136; 4605; 4606; 4515; 4282; 4668; 4283; 4133; 3906; 3736; 4281; 4210; 4134; 4137; 4947; 4138; 4132; 3737; 3622; 3589; 3910; 4279; 4519; 4277; 4135; 3911; 3733; 3703; 4610; 4212; 4456; 3909; 4211; 3914; 4141; 4879; 4280; 4520; 4278; 4140; 3915; 3735; 3706; 3905; 3732; 4675; 4276; 3912; 3913; 3626; 4518; 4139; 3738; 3907; 3739; 3621; 3591; 4676; 4049; 3847; 3848; 3702; 3658; 3741; 3742; 3623].
Definition aes128_round9_8 : sbox := SBox
  [6920; 6949; 6747; 6748; 6568; 6569; 6428; 6992; 7120; 7126; 6993; 6693; 7121; 6853; 6969; 6970; 6694; 6147; 6929; 6930; 6711; 6712; 4946; 5141; 4949; 6960; 7062; 6823; 6824; 6429; 4718; 6433; 6432; 6947; 6948; 6752; 6753; 6560; 6561; 6474; 6424; 6298; 6958; 6959; 6735; 6736; 6299; 6218; 4755; 6983; 6870; 6923; 6924; 6448; 4577; 4783; 4747; 4707; 4706; 5862; 6145; 4715; 6220; 4785; 4580; 5897; 5011; 6042; 5016; 5568; 4938; 5126; 4936; 5898]
  [(4949, 113, false); (4946, 1, false); (4755, 154, false); (4747, 150, false); (5862, 126, false); (4707, 250, false); (4706, 132, false); (4715, 78, false); (4718, 144, false); (5141, 97, false); (6474, 2, true); (4785, 46, false); (4783, 130, false); (4580, 180, false); (4577, 20, false); (5897, 172, false); (5568, 174, true); (5016, 79, false); (5011, 225, false); (4938, 155, false); (4936, 231, false); (5898, 222, false); (5126, 99, false)]
  [6088; 5913; 5861; 5684; 5910; 5911; 5685; 5155; 6084; 5909; 5717; 6089; 5896; 5718; 5437; 5480; 5908; 5716; 5569; 5151; 5144; 5912; 5719; 5720; 5515; 5303; 5304; 5145; 4922; 5307; 5308; 5150; 4923; 4746; 3993; 5541; 5439; 5412; 5268; 5309; 5269; 4926; 5310; 5154; 4939; 4782; 4248; 4695; 4696; 4576; 4445; 4714; 4446; 4232; 3982; 3816; 4447; 4358; 4238; 4935; 4250; 4249; 4231; 3817; 3676; 4021; 4427; 4598; 4409; 4239; 4022; 3458; 4705; 4362; 4559; 3994; 4359; 4023; 4268; 4431; 4945; 4600; 4410; 4267; 4024; 3628; 3981; 3066; 4723; 4408; 4017; 4018; 3574; 4554; 4266; 3818; 3987; 3819; 3205; 4793; 4203; 3952; 3953; 3568; 3831; 3832; 3035].
Definition aes128_round9_9 : sbox := SBox
  [7086; 7033; 6919; 6920; 6699; 6535; 6378; 7121; 7174; 6931; 7047; 6861; 6501; 7127; 7065; 6748; 6855; 6502; 6190; 6721; 6945; 6946; 6722; 5170; 5173; 5171; 6954; 6955; 6733; 6734; 6413; 4907; 7034; 6917; 6958; 6918; 6385; 6500; 6915; 6947; 6916; 6695; 6696; 6415; 6375; 6386; 6266; 4890; 6753; 7035; 6811; 6653; 6414; 4679; 4962; 4887; 4831; 6095; 4824; 5935; 6188; 4908; 6267; 4968; 6013; 4678; 5121; 5122; 5645; 5098; 5175; 5097; 6015]
  [(5171, 113, false); (5170, 1, false); (4890, 154, false); (4887, 150, false); (5935, 126, true); (4824, 250, false); (4831, 132, false); (4908, 78, false); (4907, 144, false); (5173, 97, false); (6415, 2, true); (4968, 46, false); (4962, 130, false); (6013, 172, false); (4678, 180, false); (4679, 20, false); (5121, 79, false); (5122, 225, false); (5645, 174, false); (5098, 155, false); (5097, 231, false); (6015, 222, false); (5175, 99, false)]
  [6136; 6027; 5934; 5752; 6022; 6023; 5753; 5284; 5599; 6135; 6025; 5821; 6134; 6014; 5822; 5499; 5503; 6024; 5820; 5644; 5282; 5504; 5219; 6026; 5823; 5824; 5642; 5367; 5368; 5220; 5026; 5459; 5422; 5281; 5027; 4886; 4163; 5549; 5329; 5585; 5425; 5330; 5028; 5426; 5283; 5102; 4961; 4389; 4807; 4808; 4677; 4539; 4906; 4540; 4380; 4157; 3916; 4541; 4487; 4383; 4388; 5172; 4390; 4379; 3917; 3637; 4166; 4531; 4687; 4527; 4384; 4167; 3763; 4823; 4491; 4649; 4162; 4488; 4170; 4395; 5120; 4533; 4688; 4525; 4394; 4171; 3772; 4156; 3759; 4931; 4526; 4168; 4169; 3745; 4685; 4393; 3918; 4160; 3919; 3643; 4930; 4331; 4090; 4091; 3761; 3924; 3925; 3367].
Definition aes128_round9_10 : sbox := SBox
  [7033; 7024; 6852; 6853; 6645; 6646; 6265; 6990; 7127; 7062; 6991; 6555; 7086; 7126; 6973; 6974; 6557; 6178; 7014; 6839; 6651; 6503; 5119; 5125; 5123; 6459; 6946; 6869; 6870; 6625; 6626; 6287; 6262; 6336; 7034; 7023; 6871; 6872; 6337; 6244; 6929; 6931; 6713; 6714; 6455; 4846; 4822; 6984; 6985; 6759; 6760; 6498; 4632; 4905; 4817; 4763; 6077; 4754; 5892; 6174; 4845; 6245; 4913; 4629; 5960; 5069; 5068; 5618; 5130; 5038; 5037; 5961]
  [(5123, 113, false); (5119, 1, false); (4822, 154, false); (4817, 150, false); (5892, 126, true); (4754, 250, false); (4763, 132, false); (4845, 78, false); (4846, 144, false); (5125, 97, false); (6287, 2, true); (4913, 46, false); (4905, 130, false); (4629, 180, false); (4632, 20, false); (5960, 172, false); (5069, 79, false); (5068, 225, false); (5618, 174, false); (5038, 231, false); (5037, 155, false); (5961, 222, false); (5130, 99, false)]
  [6121; 5997; 5891; 5709; 5994; 5995; 5710; 5257; 5561; 6123; 5993; 5792; 6122; 5959; 5793; 5463; 5473; 5992; 5791; 5617; 5251; 5474; 5190; 5996; 5794; 5795; 5606; 5345; 5346; 5191; 4976; 5433; 5377; 5250; 4977; 4816; 4071; 5513; 5299; 5553; 5385; 5300; 4982; 5384; 5256; 5045; 4904; 4309; 4735; 4736; 4628; 4512; 4844; 4513; 4293; 4058; 3870; 4511; 4414; 4300; 4322; 5124; 4313; 4292; 3871; 3718; 4112; 4499; 4659; 4471; 4303; 4113; 3514; 4753; 4420; 4592; 4072; 4415; 4084; 4329; 5067; 4485; 4647; 4473; 4324; 4085; 3880; 4057; 3858; 4863; 4470; 4082; 4083; 3612; 4640; 4323; 3860; 4063; 3861; 3567; 4864; 4255; 3999; 4000; 3610; 3883; 3884; 3724].
Definition aes128_round9_11 : sbox := SBox
  [6949; 6749; 6748; 6570; 7024; 6571; 6447; 7119; 7120; 6987; 6988; 6554; 7123; 7121; 6971; 6972; 6556; 6148; 6930; 6948; 6719; 6720; 5066; 5072; 5070; 6960; 6961; 6737; 6738; 6430; 4777; 7023; 6739; 6959; 6740; 6300; 6433; 6754; 6753; 6562; 7014; 6563; 6507; 6423; 6301; 6219; 4752; 6982; 6983; 6757; 6758; 6449; 4582; 4834; 4745; 4712; 6041; 4704; 5864; 6146; 4778; 6221; 4856; 4579; 5901; 5009; 5010; 5571; 4994; 5075; 4993; 5899]
  [(5070, 113, false); (5066, 1, false); (4752, 154, false); (4745, 150, false); (5864, 126, true); (4704, 250, false); (4712, 132, false); (4778, 78, false); (4777, 144, false); (5072, 97, false); (6507, 2, true); (4856, 46, false); (4834, 130, false); (4579, 180, false); (4582, 20, false); (5901, 172, false); (5009, 79, false); (5010, 225, false); (5571, 174, false); (4994, 155, false); (4993, 231, false); (5899, 222, false); (5075, 99, false)]
  [6091; 5915; 5863; 5686; 5916; 5917; 5687; 5205; 5540; 6092; 5919; 5723; 6090; 5900; 5724; 5438; 5440; 5918; 5725; 5570; 5203; 5441; 5146; 5914; 5721; 5722; 5565; 5305; 5306; 5147; 4924; 5410; 5349; 5202; 4925; 4744; 3996; 5481; 5270; 5516; 5350; 5271; 4927; 5351; 5204; 4998; 4833; 4251; 4697; 4698; 4578; 4448; 4776; 4449; 4234; 3984; 3820; 4450; 4363; 4240; 4253; 5071; 4252; 4233; 3821; 3678; 3642; 4031; 4435; 4603; 4412; 4241; 4032; 3801; 3757; 4703; 4365; 4560; 3995; 4364; 4027; 4272; 5008; 4436; 4601; 4413; 4271; 4028; 3805; 3983; 3797; 4795; 4411; 4029; 4030; 3691; 4591; 4270; 3822; 3988; 3823; 3538; 4794; 4205; 3956; 3957; 3749; 3833; 3834; 3681].
Definition aes128_round9_12 : sbox := SBox
  [6826; 7020; 6838; 6836; 6649; 6650; 6443; 7063; 7125; 7173; 7064; 6617; 7041; 6756; 7175; 7042; 6619; 6186; 6980; 6981; 6743; 6744; 5176; 5217; 5177; 7025; 7026; 6827; 6828; 6381; 7018; 7019; 6843; 6842; 6631; 6632; 6506; 6467; 6382; 6263; 6952; 6989; 6741; 6742; 6446; 4963; 4893; 6764; 7050; 6859; 6860; 6497; 4681; 6442; 4969; 4895; 4891; 4894; 5943; 6185; 4964; 6264; 4966; 4682; 6020; 5178; 5179; 5649; 5218; 5099; 5100; 6021]
  [(5177, 113, false); (5176, 1, false); (4893, 154, false); (4895, 150, false); (5943, 126, false); (4891, 250, false); (4894, 132, false); (4964, 78, false); (4963, 144, false); (5217, 97, false); (6506, 2, true); (4966, 46, false); (4969, 130, false); (4682, 180, false); (4681, 20, false); (6020, 172, false); (5178, 79, false); (5179, 225, false); (5649, 174, false); (5099, 231, false); (5100, 155, false); (6021, 222, false); (5218, 99, false)]
  [6142; 6039; 5942; 5764; 6036; 6037; 5765; 5286; 6140; 6035; 5831; 6141; 6019; 5832; 5498; 5505; 6034; 5830; 5648; 5288; 5506; 5223; 6038; 5833; 5834; 5584; 5371; 5372; 5224; 5023; 5427; 5287; 5024; 4892; 4165; 5600; 5511; 5333; 5429; 5334; 5025; 5428; 5285; 5101; 4965; 4391; 4805; 4806; 4680; 4542; 4543; 4382; 4159; 3920; 4544; 4534; 4385; 4392; 4387; 4381; 3921; 3744; 3534; 4178; 4537; 4692; 4530; 4386; 4179; 3324; 4536; 4691; 4164; 4535; 4176; 4399; 4538; 4690; 4528; 4398; 4177; 3696; 4158; 3140; 4989; 4529; 4174; 4175; 3412; 4686; 4397; 3922; 4161; 3923; 3087; 4988; 4396; 4172; 4173; 3411; 3926; 3927; 3150].
Definition aes128_round9_13 : sbox := SBox
  [7169; 7066; 6836; 6856; 6456; 7175; 7122; 6986; 6975; 6762; 6450; 6172; 7017; 6942; 6809; 6810; 5131; 5136; 7040; 6956; 6825; 6826; 6637; 6505; 6327; 5134; 6458; 6817; 7018; 6818; 6629; 6630; 6391; 6325; 6338; 6957; 6821; 7025; 6822; 6339; 6241; 7027; 7028; 6819; 6820; 6376; 4853; 4830; 6842; 6962; 6723; 6575; 6377; 4638; 4912; 4828; 4765; 6076; 4761; 5888; 6170; 4854; 6243; 4916; 4634; 5948; 5085; 5080; 5610; 5140; 5041; 5042; 5949]
  [(5134, 113, false); (5131, 1, false); (4830, 154, false); (4828, 150, false); (5888, 126, true); (4761, 250, false); (4765, 132, false); (4854, 78, false); (4853, 144, false); (5136, 97, false); (6391, 2, true); (4916, 46, false); (4912, 130, false); (4634, 180, false); (4638, 20, false); (5948, 172, false); (5085, 79, false); (5080, 225, false); (5610, 174, false); (5041, 231, false); (5042, 155, false); (5949, 222, false); (5140, 99, false)]
  [6111; 5971; 5887; 5701; 5968; 5969; 5702; 5261; 5563; 6110; 5985; 5771; 6109; 5947; 5772; 5462; 5477; 5984; 5773; 5609; 5265; 5478; 5182; 5970; 5774; 5775; 5602; 5337; 5338; 5183; 4972; 5431; 5387; 5264; 4973; 4827; 4074; 5508; 5291; 5552; 5391; 5292; 4975; 5390; 5260; 5044; 4911; 4315; 4733; 4734; 4633; 4502; 4852; 4503; 4295; 4060; 3872; 4504; 4428; 4304; 4317; 5135; 4316; 4294; 3873; 3639; 4096; 4492; 4652; 4479; 4305; 4097; 3693; 4760; 4432; 4596; 4075; 4429; 4098; 4337; 5079; 4494; 4654; 4480; 4336; 4099; 3826; 4059; 3760; 4868; 4478; 4094; 4095; 3723; 4644; 4335; 3874; 4066; 3875; 3640; 4867; 4262; 4015; 4016; 3762; 3889; 3890; 3209].
Definition aes128_round9_14 : sbox := SBox
  [6956; 6951; 6755; 6756; 6566; 6567; 6239; 7059; 7169; 6989; 7060; 6616; 6967; 7125; 7040; 6968; 6618; 6144; 6943; 6745; 6572; 6465; 5076; 5083; 5081; 6957; 6950; 6765; 6766; 6302; 6431; 6942; 6763; 6764; 6558; 6559; 6273; 6238; 6303; 6216; 6980; 6986; 6731; 6732; 6427; 4780; 4762; 7055; 7056; 6846; 6847; 6444; 4585; 4848; 4757; 4711; 6040; 4709; 5860; 6143; 4781; 6217; 4855; 4584; 5894; 5014; 5013; 5567; 5086; 4995; 4996; 5895]
  [(5081, 113, false); (5076, 1, false); (4762, 154, false); (4757, 150, false); (5860, 126, true); (4709, 250, false); (4711, 132, false); (4781, 78, false); (4780, 144, false); (5083, 97, false); (6273, 2, true); (4855, 46, false); (4848, 130, false); (4584, 180, false); (4585, 20, false); (5894, 172, false); (5014, 79, false); (5013, 225, false); (5567, 174, false); (4995, 231, false); (4996, 155, false); (5895, 222, false); (5086, 99, false)]
  [6085; 5907; 5859; 5682; 5904; 5905; 5683; 5207; 5542; 6087; 5903; 5712; 6086; 5893; 5713; 5436; 5442; 5902; 5711; 5566; 5209; 5443; 5142; 5906; 5714; 5715; 5564; 5301; 5302; 5143; 4919; 5409; 5352; 5208; 4920; 4756; 3989; 5479; 5266; 5514; 5354; 5267; 4921; 5353; 5206; 4997; 4847; 4242; 4693; 4694; 4583; 4439; 4779; 4440; 4230; 3978; 3808; 4441; 4352; 4235; 4243; 5082; 4245; 4229; 3809; 3677; 3474; 4003; 4422; 4594; 4404; 4237; 4004; 3807; 4708; 4356; 4556; 3991; 4353; 4007; 4260; 5012; 4425; 4595; 4402; 4259; 4008; 3825; 3977; 3802; 4792; 4403; 4011; 4012; 3576; 4590; 4258; 3812; 3985; 3813; 3490; 4791; 4198; 3940; 3941; 3575; 3827; 3828; 3694].
Definition aes128_round9_15 : sbox := SBox
  [6951; 6647; 7020; 6835; 6836; 6648; 6495; 7176; 7175; 7044; 7045; 6620; 7172; 7173; 7057; 7058; 6615; 6171; 6981; 7019; 6807; 6808; 5132; 5138; 5133; 6950; 6729; 7026; 6730; 6330; 6467; 6841; 6842; 6627; 6943; 6628; 6536; 6441; 6331; 6240; 6952; 6953; 6727; 6728; 6445; 4851; 4829; 7049; 7050; 6844; 6845; 6496; 4637; 4910; 4826; 4764; 6075; 4759; 5880; 6169; 4850; 6242; 4915; 4636; 5945; 5084; 5078; 5608; 5139; 5040; 5039; 5946]
  [(5133, 113, false); (5132, 1, false); (4829, 154, false); (4826, 150, false); (5880, 126, true); (4759, 250, false); (4764, 132, false); (4850, 78, false); (4851, 144, false); (5138, 97, false); (6536, 2, true); (4915, 46, false); (4910, 130, false); (4636, 180, false); (4637, 20, false); (5945, 172, false); (5084, 79, false); (5078, 225, false); (5608, 174, false); (5040, 231, false); (5039, 155, false); (5946, 222, false); (5139, 99, false)]
  [6108; 5963; 5879; 5699; 5966; 5967; 5700; 5259; 5562; 6107; 5965; 5768; 6106; 5944; 5769; 5461; 5475; 5964; 5770; 5607; 5263; 5476; 5180; 5962; 5766; 5767; 5601; 5335; 5336; 5181; 4970; 5430; 5386; 5262; 4971; 4825; 4070; 5507; 5289; 5551; 5389; 5290; 4974; 5388; 5258; 5043; 4909; 4312; 4731; 4732; 4635; 4500; 4849; 4501; 4289; 4056; 3868; 4514; 4418; 4299; 4308; 5137; 4314; 4288; 3869; 3719; 3680; 4114; 4484; 4646; 4467; 4302; 4115; 3857; 3799; 4758; 4421; 4593; 4073; 4419; 4086; 4330; 5077; 4486; 4648; 4474; 4328; 4087; 3859; 3803; 4055; 3856; 3795; 4862; 4466; 4078; 4079; 3722; 4642; 4327; 3864; 4065; 3865; 3683; 3684; 4865; 4256; 4001; 4002; 3798; 3751; 3885; 3886; 3720; 3685].
Definition aes128_round9 : list sbox := [aes128_round9_0; aes128_round9_1; aes128_round9_2; aes128_round9_3; aes128_round9_4; aes128_round9_5; aes128_round9_6; aes128_round9_7; aes128_round9_8; aes128_round9_9; aes128_round9_10; aes128_round9_11; aes128_round9_12; aes128_round9_13; aes128_round9_14; aes128_round9_15].
Definition aes128_round10_0 : sbox := SBox
  [3316; 3429; 3542; 3317; 3058; 3545; 3539; 3333; 3334; 3055; 2513; 3315; 3325; 3093; 3094; 1455; 1459; 3300; 3301; 3112; 3113; 2958; 2959; 2824; 2841; 3431; 3327; 3281; 3282; 2837; 2659; 3303; 3304; 3091; 3092; 2737; 2840; 2738; 2657; 1310; 3517; 3309; 3241; 3242; 2833; 1305; 3302; 3305; 3109; 3110; 2962; 2963; 2832; 1306; 1077; 1075; 2511; 1316; 2230; 1458; 1456; 1452; 1237; 1238; 1240; 2008; 1239; 2384; 2193; 1401; 1460; 1402; 2228]
  [(1459, 97, false); (2841, 2, true); (1310, 46, false); (1305, 130, false); (1077, 180, false); (1075, 20, false); (1316, 78, false); (1306, 144, false); (2230, 172, false); (1458, 79, false); (1452, 225, false); (1238, 250, false); (1240, 132, false); (2008, 174, false); (1456, 113, false); (1455, 1, false); (1237, 154, false); (1239, 150, false); (2193, 126, true); (1401, 155, false); (1402, 231, false); (2228, 222, false); (1460, 99, false)]
  [2431; 2239; 2098; 2430; 2235; 2229; 2099; 1800; 2238; 2100; 2234; 2076; 2007; 1609; 1751; 1689; 2429; 2237; 2192; 2075; 2005; 1613; 1465; 2236; 2096; 2097; 1939; 1750; 1466; 1317; 1803; 1608; 1318; 1236; 497; 1937; 1616; 1801; 1617; 1321; 1802; 1612; 1405; 1304; 670; 1180; 1181; 1074; 864; 865; 643; 484; 335; 718; 875; 644; 671; 672; 483; 336; 258; 33744; 470; 931; 1082; 932; 691; 471; 286; 33745; 933; 1083; 500; 934; 472; 935; 936; 921; 719; 473; 290; 291; 33746; 292; 293; 33747; 475; 476; 294; 1323; 295; 33748; 722; 256; 268; 269; 257; 33749; 1327; 693; 477; 478; 288; 33750; 282; 283; 260; 33751].
Definition aes128_round10_1 : sbox := SBox
  [3656; 3583; 3270; 3378; 2934; 3653; 3652; 3518; 3502; 3285; 2933; 2671; 3475; 3476; 3231; 3232; 1714; 1758; 3346; 3477; 3347; 3131; 3132; 2805; 2856; 3273; 3489; 3239; 3071; 2844; 2753; 3565; 3348; 3482; 3349; 2851; 2978; 2852; 2751; 1548; 3649; 3645; 3473; 3245; 3246; 2843; 1550; 2453; 3569; 3564; 3350; 3351; 3137; 2984; 2809; 1546; 1251; 1250; 2668; 1549; 1715; 1716; 1713; 1418; 1420; 1419; 2119; 1417; 2393; 1642; 1760; 1641; 2455]
  [(1758, 97, false); (2856, 2, true); (1548, 46, false); (1550, 130, false); (2453, 172, false); (1251, 180, false); (1250, 20, false); (1549, 78, false); (1546, 144, false); (1715, 79, false); (1713, 225, false); (1420, 250, false); (1419, 132, false); (2119, 174, false); (1716, 113, false); (1714, 1, false); (1418, 154, false); (1417, 150, false); (2393, 126, false); (1642, 155, false); (1641, 231, false); (2455, 222, false); (1760, 99, false)]
  [2621; 2466; 2260; 2622; 2468; 2454; 2261; 1948; 2465; 2262; 2467; 2200; 2118; 1826; 1911; 1883; 2623; 2470; 2392; 2199; 1832; 1732; 2469; 2263; 2264; 2080; 1910; 1733; 1570; 1947; 1825; 1571; 1416; 810; 2082; 2023; 1875; 1949; 1876; 1575; 1950; 1831; 1648; 1547; 963; 1347; 1348; 1249; 1131; 1132; 937; 750; 558; 992; 1133; 950; 964; 967; 749; 559; 339; 33752; 757; 1152; 1261; 1153; 979; 758; 520; 33753; 1154; 1262; 815; 1155; 761; 1156; 1157; 1151; 993; 762; 522; 523; 33754; 526; 527; 33755; 764; 765; 524; 1580; 525; 33756; 994; 510; 794; 511; 341; 342; 33757; 1584; 981; 766; 767; 528; 33758; 514; 515; 343; 33759].
Definition aes128_round10_2 : sbox := SBox
  [3451; 3450; 3211; 3212; 3032; 3033; 2700; 3459; 3627; 3521; 3460; 3123; 3631; 3497; 3455; 3456; 3125; 2593; 3446; 3208; 3034; 2901; 1602; 1654; 1604; 3452; 3449; 3217; 3218; 2786; 2898; 3030; 3445; 3215; 3216; 3031; 2699; 2787; 2701; 3579; 3506; 3352; 3353; 2895; 1437; 1357; 3577; 3578; 3372; 3373; 2896; 1212; 1438; 1356; 1359; 1358; 2299; 2591; 1434; 2714; 2702; 1436; 1211; 2368; 1603; 1601; 2072; 1655; 1588; 1589; 2366]
  [(1604, 113, false); (1602, 1, false); (1357, 154, false); (1356, 150, false); (2299, 126, false); (1359, 250, false); (1358, 132, false); (1434, 78, false); (1437, 144, false); (1654, 97, false); (2714, 2, true); (1436, 46, false); (1438, 130, false); (1211, 180, false); (1212, 20, false); (2368, 172, false); (1603, 79, false); (1601, 225, false); (2072, 174, false); (1588, 231, false); (1589, 155, false); (2366, 222, false); (1655, 99, false)]
  [2560; 2373; 2298; 2138; 2376; 2377; 2139; 1743; 2559; 2375; 2184; 2558; 2367; 2185; 1975; 1978; 2374; 2186; 2071; 1741; 1979; 1667; 2372; 2182; 2183; 2027; 1849; 1850; 1668; 1497; 1894; 1740; 1498; 1355; 737; 2039; 1980; 1792; 1893; 1793; 1502; 1892; 1742; 1517; 1435; 871; 1291; 1292; 1210; 1064; 1065; 847; 633; 479; 909; 1063; 860; 873; 874; 668; 480; 296; 33760; 1104; 1222; 1105; 893; 682; 683; 414; 33761; 1107; 1223; 632; 1108; 684; 1106; 1109; 1103; 910; 685; 416; 417; 33762; 418; 419; 33763; 687; 688; 420; 1439; 421; 33764; 911; 466; 715; 467; 298; 299; 33765; 1443; 896; 689; 690; 422; 33766; 468; 469; 300; 33767].
Definition aes128_round10_3 : sbox := SBox
  [3595; 3592; 3417; 3418; 2998; 3596; 3597; 3405; 3406; 3001; 2742; 3330; 3401; 3164; 3165; 1810; 1865; 3464; 3179; 3223; 3550; 3224; 2862; 2903; 3413; 3414; 3180; 3181; 2952; 2798; 3558; 3354; 3403; 3355; 2909; 2867; 2910; 2797; 1692; 3306; 3307; 3095; 3096; 2920; 1695; 3559; 3225; 3404; 3463; 3177; 3226; 2863; 1693; 1331; 1330; 2741; 1694; 2569; 1811; 1812; 1809; 1536; 1537; 1538; 2197; 1535; 2516; 1866; 1754; 1755; 2567]
  [(1865, 97, false); (2903, 2, true); (1692, 46, false); (1695, 130, false); (1331, 180, false); (1330, 20, false); (1694, 78, false); (1693, 144, false); (2569, 172, false); (1811, 79, false); (1809, 225, false); (1537, 250, false); (1538, 132, false); (2197, 174, false); (1812, 113, false); (1810, 1, false); (1536, 154, false); (1535, 150, false); (2516, 126, false); (1754, 231, false); (1755, 155, false); (2567, 222, false); (1866, 99, false)]
  [2683; 2575; 2388; 2682; 2571; 2568; 2389; 2014; 2574; 2387; 2570; 2321; 2196; 1902; 1985; 1942; 2681; 2573; 2515; 2320; 1904; 1817; 2572; 2385; 2386; 2106; 1984; 1818; 1696; 2013; 1901; 1697; 1534; 845; 2044; 2045; 1940; 2012; 1941; 1698; 2011; 1903; 1808; 1691; 1072; 1469; 1470; 1329; 1203; 1204; 1037; 846; 700; 1097; 1194; 1054; 1073; 1076; 868; 701; 424; 33768; 885; 1187; 1337; 1188; 1089; 886; 646; 33769; 1189; 1338; 848; 1190; 887; 1191; 1193; 1192; 1098; 888; 652; 653; 33770; 648; 649; 33771; 889; 890; 650; 1702; 651; 33772; 1099; 675; 908; 676; 426; 427; 33773; 1704; 1091; 891; 892; 654; 33774; 680; 681; 436; 33775].
Definition aes128_round10_4 : sbox := SBox
  [3480; 3351; 3269; 3270; 3067; 3068; 2924; 3527; 3655; 3649; 3528; 3124; 3495; 3653; 3377; 3496; 3126; 2594; 3494; 3505; 3249; 3250; 1457; 1650; 1454; 3580; 3486; 3356; 3357; 2897; 1308; 2936; 2902; 3477; 3478; 3272; 3273; 3059; 3060; 2987; 2894; 2784; 3481; 3482; 3247; 3248; 2785; 2703; 1362; 3508; 3387; 3380; 3381; 2927; 1208; 1375; 1361; 1303; 1302; 2301; 2592; 1309; 2704; 1376; 1209; 2371; 1518; 2489; 1519; 2073; 1514; 1656; 1513; 2369]
  [(1454, 113, false); (1457, 1, false); (1362, 154, false); (1361, 150, false); (2301, 126, false); (1303, 250, false); (1302, 132, false); (1309, 78, false); (1308, 144, false); (1650, 97, false); (2987, 2, true); (1376, 46, false); (1375, 130, false); (1209, 180, false); (1208, 20, false); (2371, 172, false); (2073, 174, true); (1519, 79, false); (1518, 225, false); (1514, 155, false); (1513, 231, false); (2369, 222, false); (1656, 99, false)]
  [2561; 2381; 2300; 2140; 2378; 2379; 2141; 1678; 2563; 2383; 2190; 2562; 2370; 2191; 1976; 2001; 2382; 2189; 2074; 1676; 1669; 2380; 2187; 2188; 2028; 1851; 1852; 1670; 1501; 1855; 1856; 1675; 1451; 1360; 634; 2038; 1977; 1936; 1794; 1853; 1795; 1449; 1854; 1677; 1450; 1374; 876; 1297; 1298; 1207; 1066; 1307; 1067; 849; 635; 503; 912; 1006; 861; 1512; 877; 878; 673; 504; 320; 33776; 1033; 1224; 1034; 897; 694; 695; 428; 33777; 1301; 1004; 1179; 637; 1005; 696; 1035; 1453; 1038; 1036; 913; 697; 430; 431; 33778; 432; 433; 33779; 698; 699; 434; 1395; 435; 33780; 914; 481; 723; 482; 310; 311; 33781; 1398; 825; 622; 623; 393; 33782; 485; 486; 302; 33783].
Definition aes128_round10_5 : sbox := SBox
  [3697; 3630; 3579; 3457; 3214; 2899; 3627; 3461; 3365; 3213; 2900; 2636; 3479; 3445; 3233; 3234; 1657; 1718; 3061; 3251; 3554; 3252; 3062; 2780; 2823; 3370; 3453; 3204; 3036; 2808; 2717; 3452; 3253; 3563; 3254; 2814; 2932; 2815; 2715; 1489; 3483; 3484; 3255; 3256; 2807; 1490; 2402; 3451; 3497; 3257; 3258; 3065; 2935; 2782; 1487; 1214; 1215; 2633; 1486; 1659; 1660; 1658; 1365; 1367; 1366; 2086; 1364; 2361; 1591; 1719; 1590; 2400]
  [(1718, 97, false); (2823, 2, true); (1489, 46, false); (1490, 130, false); (2402, 172, false); (1214, 180, false); (1215, 20, false); (1486, 78, false); (1487, 144, false); (1659, 79, false); (1658, 225, false); (1367, 250, false); (1366, 132, false); (2086, 174, false); (1660, 113, false); (1657, 1, false); (1365, 154, false); (1364, 150, false); (2361, 126, false); (1591, 155, false); (1590, 231, false); (2400, 222, false); (1719, 99, false)]
  [2580; 2414; 2209; 2579; 2410; 2401; 2210; 1924; 2413; 2211; 2409; 2177; 2085; 1783; 1887; 1847; 2578; 2412; 2360; 2176; 1789; 1671; 2411; 2207; 2208; 2053; 1886; 1672; 1499; 1923; 1782; 1500; 1363; 638; 2070; 2002; 1841; 1921; 1842; 1505; 1922; 1788; 1595; 1488; 879; 1293; 1294; 1213; 1068; 1069; 850; 639; 506; 915; 1046; 862; 880; 881; 674; 507; 304; 33784; 702; 1039; 1225; 1040; 899; 703; 438; 33785; 1041; 1226; 640; 1042; 704; 1043; 1045; 1044; 916; 705; 444; 445; 33786; 442; 443; 33787; 706; 707; 440; 1507; 441; 33788; 917; 487; 724; 488; 306; 307; 33789; 1510; 901; 710; 711; 446; 33790; 491; 492; 308; 33791].
Definition aes128_round10_6 : sbox := SBox
  [3419; 3341; 3600; 3420; 2999; 3598; 3599; 3407; 3408; 3002; 2685; 3550; 3362; 3149; 2983; 1720; 1762; 3399; 3382; 3383; 3127; 3128; 2743; 2776; 3415; 3416; 3182; 3183; 2953; 2747; 3561; 3558; 3384; 3385; 2847; 2977; 2848; 2746; 1554; 3329; 3338; 3097; 3098; 2921; 1555; 3560; 3559; 3374; 3375; 3141; 3142; 2745; 1552; 1253; 1254; 2684; 1551; 2458; 1722; 1723; 1721; 1423; 1425; 1424; 2121; 1422; 2395; 1763; 1644; 1645; 2456]
  [(1762, 97, false); (2776, 2, true); (1554, 46, false); (1555, 130, false); (1253, 180, false); (1254, 20, false); (1551, 78, false); (1552, 144, false); (2458, 172, false); (1722, 79, false); (1721, 225, false); (1425, 250, false); (1424, 132, false); (2121, 174, false); (1723, 113, false); (1720, 1, false); (1423, 154, false); (1422, 150, false); (2395, 126, false); (1644, 231, false); (1645, 155, false); (2456, 222, false); (1763, 99, false)]
  [2625; 2476; 2267; 2624; 2474; 2457; 2268; 1951; 2475; 2269; 2473; 2202; 2120; 1838; 1913; 1885; 2626; 2472; 2394; 2201; 1840; 1734; 2471; 2265; 2266; 2049; 1912; 1735; 1564; 1954; 1837; 1565; 1421; 741; 1996; 1997; 1877; 1953; 1878; 1566; 1952; 1839; 1709; 1553; 970; 1341; 1342; 1252; 1134; 1135; 938; 742; 508; 995; 1119; 955; 971; 972; 755; 509; 345; 33792; 772; 1112; 1263; 1113; 982; 773; 530; 33793; 1114; 1264; 743; 1115; 775; 1116; 1118; 1117; 996; 776; 532; 533; 33794; 534; 535; 33795; 781; 782; 536; 1582; 537; 33796; 997; 570; 797; 571; 347; 348; 33797; 1585; 984; 783; 784; 538; 33798; 572; 573; 349; 33799].
Definition aes128_round10_7 : sbox := SBox
  [3318; 3543; 3542; 3319; 2956; 3541; 3539; 3331; 3332; 2954; 2514; 3315; 3301; 3082; 3083; 1461; 1520; 3604; 2960; 3114; 3113; 2961; 2825; 2842; 3326; 3327; 3115; 3116; 2838; 2660; 3605; 3099; 3303; 3100; 2739; 2840; 2740; 2658; 1314; 3308; 3309; 3101; 3102; 2835; 1315; 3302; 3111; 3110; 2964; 3607; 2965; 2834; 1312; 1079; 1080; 2512; 1311; 2233; 1463; 1464; 1462; 1243; 1245; 1244; 2010; 1242; 2195; 1404; 1521; 1403; 2231]
  [(1520, 97, false); (2842, 2, true); (1314, 46, false); (1315, 130, false); (1079, 180, false); (1080, 20, false); (1311, 78, false); (1312, 144, false); (2233, 172, false); (1463, 79, false); (1462, 225, false); (1245, 250, false); (1244, 132, false); (2010, 174, false); (1464, 113, false); (1461, 1, false); (1243, 154, false); (1242, 150, false); (2195, 126, false); (1404, 155, false); (1403, 231, false); (2231, 222, false); (1521, 99, false)]
  [2434; 2245; 2103; 2433; 2241; 2232; 2104; 1807; 2244; 2105; 2240; 2078; 2009; 1611; 1753; 1690; 2432; 2243; 2194; 2077; 1615; 1467; 2242; 2101; 2102; 1982; 1752; 1468; 1319; 1804; 1610; 1320; 1241; 411; 1983; 1898; 1687; 1805; 1688; 1322; 1806; 1614; 1406; 1313; 677; 1182; 1183; 1078; 866; 867; 636; 412; 284; 725; 858; 645; 678; 679; 474; 285; 262; 33800; 493; 851; 1085; 852; 708; 494; 312; 33801; 853; 1087; 413; 854; 495; 855; 857; 856; 726; 496; 318; 319; 33802; 314; 315; 33803; 498; 499; 316; 1325; 317; 33804; 727; 330; 505; 331; 264; 265; 33805; 1328; 712; 501; 502; 322; 33806; 332; 333; 266; 33807].
Definition aes128_round10_8 : sbox := SBox
  [3555; 3258; 3364; 3365; 3145; 3146; 2922; 3529; 3631; 3651; 3530; 3049; 3212; 3697; 3572; 3573; 3053; 2637; 3492; 3506; 3261; 3262; 1661; 1653; 1662; 3521; 3488; 3259; 3260; 2931; 1433; 3562; 3563; 3358; 3359; 2810; 2937; 3554; 3493; 3369; 3370; 3133; 3134; 2994; 2919; 2811; 2716; 1415; 3216; 3510; 3283; 3284; 2973; 1248; 1491; 1414; 1354; 2535; 1368; 2363; 2634; 1432; 2718; 1485; 1247; 2405; 1599; 1598; 2088; 1640; 1652; 1639; 2403]
  [(1662, 113, false); (1661, 1, false); (1415, 154, false); (1414, 150, false); (2363, 126, true); (1368, 250, false); (1354, 132, false); (1432, 78, false); (1433, 144, false); (1653, 97, false); (2994, 2, true); (1485, 46, false); (1491, 130, false); (1247, 180, false); (1248, 20, false); (2405, 172, false); (1599, 79, false); (1598, 225, false); (2088, 174, false); (1640, 155, false); (1639, 231, false); (2403, 222, false); (1652, 99, false)]
  [2581; 2418; 2362; 2178; 2415; 2416; 2179; 1791; 2069; 2583; 2426; 2215; 2582; 2404; 2216; 1998; 1999; 2425; 2212; 2087; 1785; 2000; 1736; 2417; 2213; 2214; 2084; 1890; 1891; 1737; 1567; 1972; 1918; 1784; 1568; 1413; 744; 2024; 1843; 2054; 1919; 1844; 1569; 1920; 1790; 1594; 1484; 973; 1343; 1344; 1246; 1136; 1431; 1137; 939; 745; 564; 998; 1051; 960; 974; 1651; 975; 756; 565; 351; 33808; 1120; 1265; 1121; 985; 790; 791; 540; 33809; 542; 1353; 1047; 1227; 746; 1048; 792; 1597; 1122; 1124; 1123; 999; 793; 543; 33810; 544; 545; 33811; 795; 796; 546; 1441; 547; 33812; 1000; 582; 801; 583; 355; 1221; 356; 33813; 1444; 904; 716; 717; 448; 33814; 586; 587; 353; 33815].
Definition aes128_round10_9 : sbox := SBox
  [3597; 3544; 3338; 3323; 3119; 2831; 3600; 3584; 3177; 3379; 2836; 2589; 3166; 3398; 3399; 3167; 1523; 1605; 3170; 3400; 3171; 3004; 3005; 2735; 2763; 3179; 3312; 3086; 2966; 2806; 2678; 3561; 3172; 3402; 3173; 2758; 2865; 2759; 2676; 1382; 3592; 3396; 3168; 3169; 2829; 1383; 3560; 3599; 3360; 3361; 3139; 2985; 2736; 1380; 1144; 1145; 2587; 1379; 2304; 1524; 1525; 1522; 1277; 1278; 1279; 2041; 1276; 2225; 1606; 1447; 1448; 2302]
  [(1605, 97, false); (2763, 2, true); (1382, 46, false); (1383, 130, false); (1144, 180, false); (1145, 20, false); (1379, 78, false); (1380, 144, false); (2304, 172, false); (1524, 79, false); (1522, 225, false); (1278, 250, false); (1279, 132, false); (2041, 174, false); (1525, 113, false); (1523, 1, false); (1277, 154, false); (1276, 150, false); (2225, 126, false); (1447, 231, false); (1448, 155, false); (2302, 222, false); (1606, 99, false)]
  [2508; 2313; 2146; 2507; 2311; 2303; 2147; 1859; 2312; 2148; 2310; 2093; 2040; 1680; 1797; 1748; 2509; 2309; 2224; 2092; 1686; 1530; 2308; 2144; 2145; 1981; 1796; 1531; 1387; 1862; 1679; 1388; 1275; 516; 1896; 1897; 1744; 1861; 1745; 1391; 1860; 1685; 1515; 1381; 759; 1230; 1231; 1143; 965; 966; 738; 517; 383; 798; 949; 747; 760; 763; 566; 384; 270; 33816; 574; 940; 1147; 941; 774; 575; 357; 33817; 359; 946; 1148; 560; 947; 576; 944; 948; 945; 799; 577; 360; 33818; 361; 362; 33819; 578; 579; 363; 1397; 364; 33820; 800; 387; 588; 388; 272; 273; 33821; 1399; 780; 580; 581; 365; 33822; 389; 390; 274; 33823].
Definition aes128_round10_10 : sbox := SBox
  [3547; 3545; 3320; 3321; 2957; 3517; 3546; 3339; 3340; 2955; 2688; 3328; 3311; 3089; 3090; 1765; 1813; 3604; 3299; 3430; 3431; 3189; 3190; 2826; 2868; 3335; 3336; 3117; 3118; 2930; 2767; 3608; 3605; 3432; 3433; 2874; 3013; 2875; 2764; 1623; 3337; 3325; 3103; 3104; 2929; 1624; 3609; 3607; 3428; 3429; 3195; 3196; 2839; 1621; 1281; 1282; 2686; 1620; 2521; 1767; 1768; 1766; 1476; 1478; 1477; 2153; 1475; 2450; 1706; 1814; 1705; 2519]
  [(1813, 97, false); (2868, 2, true); (1623, 46, false); (1624, 130, false); (1281, 180, false); (1282, 20, false); (1620, 78, false); (1621, 144, false); (2521, 172, false); (1767, 79, false); (1766, 225, false); (1478, 250, false); (1477, 132, false); (2153, 174, false); (1768, 113, false); (1765, 1, false); (1476, 154, false); (1475, 150, false); (2450, 126, false); (1706, 155, false); (1705, 231, false); (2519, 222, false); (1814, 99, false)]
  [2662; 2524; 2324; 2661; 2528; 2520; 2325; 1989; 2523; 2326; 2527; 2257; 2152; 1868; 1944; 1909; 2663; 2526; 2449; 2256; 1872; 1774; 2525; 2322; 2323; 2107; 1943; 1775; 1631; 1988; 1867; 1632; 1474; 818; 2116; 2052; 1905; 1986; 1906; 1633; 1987; 1871; 1710; 1622; 1013; 1409; 1410; 1280; 1174; 1175; 1009; 819; 620; 1027; 1165; 1010; 1014; 1015; 824; 621; 395; 33824; 829; 1158; 1287; 1159; 1019; 830; 598; 33825; 600; 1160; 1288; 820; 1161; 831; 1162; 1164; 1163; 1028; 832; 601; 33826; 602; 603; 33827; 833; 834; 604; 1636; 605; 33828; 1029; 628; 837; 629; 397; 398; 33829; 1637; 1021; 835; 836; 606; 33830; 630; 631; 399; 33831].
Definition aes128_round10_11 : sbox := SBox
  [3654; 3653; 3498; 3499; 3057; 3648; 3649; 3519; 3520; 3051; 2638; 3494; 3478; 3235; 3236; 1664; 1725; 3551; 3063; 3274; 3273; 3064; 2917; 2938; 3507; 3508; 3275; 3276; 2928; 2720; 3556; 3263; 3481; 3264; 2812; 2936; 2813; 2719; 1493; 3485; 3486; 3243; 3244; 2925; 1496; 3480; 3271; 3270; 3069; 3557; 3070; 2926; 1494; 1218; 1217; 2635; 1495; 2408; 1665; 1666; 1663; 1371; 1372; 1373; 2090; 1370; 2365; 1593; 1726; 1592; 2406]
  [(1725, 97, false); (2938, 2, true); (1493, 46, false); (1496, 130, false); (1218, 180, false); (1217, 20, false); (1495, 78, false); (1494, 144, false); (2408, 172, false); (1665, 79, false); (1663, 225, false); (1372, 250, false); (1373, 132, false); (2090, 174, false); (1666, 113, false); (1664, 1, false); (1371, 154, false); (1370, 150, false); (2365, 126, false); (1593, 155, false); (1592, 231, false); (2406, 222, false); (1726, 99, false)]
  [2585; 2424; 2220; 2584; 2422; 2407; 2221; 1927; 2423; 2219; 2421; 2181; 2089; 1781; 1889; 1848; 2586; 2420; 2364; 2180; 1787; 1673; 2419; 2217; 2218; 2025; 1888; 1674; 1503; 1928; 1780; 1504; 1369; 666; 1973; 1974; 1845; 1926; 1846; 1506; 1925; 1786; 1596; 1492; 882; 1295; 1296; 1216; 1070; 1071; 859; 667; 489; 918; 1060; 863; 883; 884; 686; 490; 324; 33832; 728; 1052; 1228; 1053; 905; 729; 450; 33833; 456; 1057; 1229; 669; 1058; 730; 1055; 1059; 1056; 919; 731; 457; 33834; 452; 453; 33835; 732; 733; 454; 1509; 455; 33836; 920; 407; 736; 408; 326; 327; 33837; 1511; 907; 734; 735; 458; 33838; 409; 410; 328; 33839].
Definition aes128_round10_12 : sbox := SBox
  [3421; 3598; 3592; 3422; 3000; 3375; 3597; 3409; 3410; 3003; 2590; 3329; 3330; 3107; 3108; 1527; 1607; 3400; 3401; 3178; 3179; 3006; 3007; 2866; 3383; 3414; 3184; 3185; 2864; 2679; 3402; 3403; 3174; 3175; 2756; 2867; 2757; 2677; 1384; 2827; 3306; 3341; 3105; 3106; 2830; 1378; 3361; 3404; 3176; 3177; 3008; 3009; 2828; 1385; 1142; 1141; 2588; 1386; 2306; 1528; 1529; 1526; 1272; 1273; 1274; 2043; 1271; 2227; 1600; 1445; 1446; 2307]
  [(1607, 97, false); (2866, 2, true); (1384, 46, false); (1378, 130, false); (1142, 180, false); (1141, 20, false); (1386, 78, false); (1385, 144, false); (2306, 172, false); (1528, 79, false); (1526, 225, false); (1273, 250, false); (1274, 132, false); (2043, 174, false); (1529, 113, false); (1527, 1, false); (1272, 154, false); (1271, 150, false); (2227, 126, false); (1445, 231, false); (1446, 155, false); (2307, 222, false); (1600, 99, false)]
  [2510; 2319; 2150; 2505; 2317; 2305; 2151; 1857; 2318; 2149; 2316; 2095; 2042; 1684; 1799; 1749; 2506; 2315; 2226; 2094; 1682; 1532; 2314; 2142; 2143; 2003; 1798; 1533; 1389; 1858; 1683; 1390; 1270; 561; 2006; 1938; 1746; 1864; 1747; 1392; 1863; 1681; 1516; 1377; 768; 1232; 1233; 1140; 968; 969; 740; 562; 385; 802; 959; 748; 769; 770; 739; 386; 276; 33840; 589; 951; 1149; 952; 751; 590; 367; 33841; 956; 958; 957; 803; 591; 592; 369; 953; 1150; 563; 954; 785; 370; 33842; 567; 371; 33843; 569; 373; 787; 1393; 788; 374; 33844; 804; 593; 594; 278; 597; 391; 279; 33845; 1400; 789; 595; 596; 375; 33846; 337; 338; 280; 33847].
Definition aes128_round10_13 : sbox := SBox
  [3547; 3609; 3425; 3305; 3193; 3015; 2783; 3542; 3513; 3286; 3287; 2980; 3546; 3462; 3210; 3110; 2981; 2689; 3298; 3299; 3084; 3085; 1769; 1815; 1771; 3608; 3426; 3304; 3427; 2876; 3014; 3423; 3300; 3424; 3191; 3192; 2781; 2877; 2765; 3539; 3310; 3311; 3088; 2872; 1625; 1541; 3113; 3566; 3344; 3153; 2873; 1333; 1619; 1540; 1543; 1542; 2452; 2687; 1627; 2822; 2766; 1626; 1334; 2518; 1772; 1770; 2155; 1757; 1816; 1756; 2522]
  [(1771, 113, false); (1769, 1, false); (1541, 154, false); (1540, 150, false); (2452, 126, false); (1543, 250, false); (1542, 132, false); (1627, 78, false); (1625, 144, false); (1815, 97, false); (2822, 2, true); (1626, 46, false); (1619, 130, false); (1334, 180, false); (1333, 20, false); (2518, 172, false); (1772, 79, false); (1770, 225, false); (2155, 174, false); (1757, 155, false); (1756, 231, false); (2522, 222, false); (1816, 99, false)]
  [2664; 2532; 2451; 2258; 2529; 2530; 2259; 1874; 2666; 2534; 2330; 2665; 2517; 2331; 2046; 2047; 2533; 2327; 2154; 1870; 2048; 1819; 2531; 2328; 2329; 2108; 1945; 1946; 1820; 1699; 1990; 1869; 1700; 1539; 869; 2117; 2050; 1907; 1991; 1908; 1701; 1992; 1873; 1711; 1618; 1084; 1471; 1472; 1332; 1205; 1206; 1050; 870; 720; 1100; 1202; 1061; 1086; 1088; 1049; 721; 460; 33848; 922; 1195; 1339; 1196; 1062; 923; 656; 33849; 1199; 1201; 1200; 1101; 924; 925; 662; 1197; 1340; 872; 1198; 1092; 663; 33850; 894; 660; 33851; 1094; 1634; 1095; 658; 902; 659; 33852; 1102; 927; 928; 462; 926; 713; 463; 33853; 1638; 1096; 929; 930; 664; 33854; 641; 642; 464; 33855].
Definition aes128_round10_14 : sbox := SBox
  [3522; 3656; 3580; 3523; 3052; 3500; 3569; 3655; 3501; 3056; 2672; 3551; 3366; 3151; 2982; 1717; 1759; 3476; 3386; 3387; 3129; 3130; 2744; 2775; 3515; 3516; 3277; 3278; 2976; 2754; 3565; 3556; 3388; 3389; 2849; 2979; 2850; 2752; 1557; 3518; 3505; 3265; 3266; 2975; 1545; 3564; 3557; 3376; 3377; 3143; 3144; 2749; 1558; 1257; 1256; 2669; 1559; 2461; 1724; 1728; 1727; 1429; 1430; 1426; 2123; 1428; 2397; 1773; 1646; 1643; 2459]
  [(1759, 97, false); (2775, 2, true); (1557, 46, false); (1545, 130, false); (1257, 180, false); (1256, 20, false); (1559, 78, false); (1558, 144, false); (2461, 172, false); (1724, 79, false); (1727, 225, false); (1430, 250, false); (1426, 132, false); (2123, 174, false); (1728, 113, false); (1717, 1, false); (1429, 154, false); (1428, 150, false); (2397, 126, false); (1646, 231, false); (1643, 155, false); (2459, 222, false); (1773, 99, false)]
  [2630; 2482; 2275; 2629; 2478; 2460; 2276; 1958; 2481; 2274; 2477; 2204; 2122; 1828; 1915; 1884; 2628; 2480; 2396; 2203; 1834; 1738; 2479; 2272; 2273; 2051; 1914; 1739; 1572; 1957; 1827; 1573; 1427; 752; 1994; 1995; 1879; 1956; 1880; 1574; 1955; 1833; 1649; 1544; 976; 1345; 1346; 1255; 1138; 1139; 943; 753; 584; 1001; 1130; 961; 977; 978; 942; 585; 377; 33856; 806; 1125; 1266; 1111; 962; 807; 548; 33857; 1126; 1110; 1127; 1002; 808; 809; 550; 1128; 1267; 754; 1129; 987; 551; 33858; 771; 552; 33859; 989; 1578; 990; 554; 778; 555; 33860; 1003; 811; 812; 379; 805; 518; 380; 33861; 1586; 991; 813; 814; 556; 33862; 512; 513; 381; 33863].
Definition aes128_round10_15 : sbox := SBox
  [3450; 3147; 3555; 3368; 3365; 3148; 2923; 3650; 3651; 3524; 3525; 3050; 3698; 3697; 3570; 3571; 3054; 2670; 3492; 3493; 3237; 3238; 1729; 1761; 1731; 3487; 3488; 3267; 3268; 2972; 1560; 3449; 3206; 3562; 3207; 2845; 2937; 3446; 3135; 3371; 3370; 3136; 2918; 2846; 2748; 1481; 3509; 3510; 3279; 3280; 2974; 1284; 1562; 1480; 1483; 1482; 2399; 2667; 1556; 2986; 2750; 1563; 1285; 2464; 1730; 1712; 2125; 1708; 1764; 1707; 2462]
  [(1731, 113, false); (1729, 1, false); (1481, 154, false); (1480, 150, false); (2399, 126, false); (1483, 250, false); (1482, 132, false); (1556, 78, false); (1560, 144, false); (1761, 97, false); (2986, 2, true); (1563, 46, false); (1562, 130, false); (1285, 180, false); (1284, 20, false); (2464, 172, false); (1730, 79, false); (1712, 225, false); (2125, 174, false); (1708, 155, false); (1707, 231, false); (2462, 222, false); (1764, 99, false)]
  [2631; 2486; 2398; 2205; 2483; 2484; 2206; 1836; 2632; 2488; 2270; 2627; 2463; 2271; 2020; 2021; 2487; 2279; 2124; 1830; 2022; 1776; 2485; 2277; 2278; 2079; 1916; 1917; 1777; 1628; 1961; 1829; 1629; 1479; 821; 2083; 2026; 1881; 1959; 1882; 1630; 1960; 1835; 1647; 1561; 1016; 1407; 1408; 1283; 1176; 1177; 1008; 822; 626; 1030; 1173; 1011; 1017; 1018; 1007; 627; 401; 33864; 839; 1166; 1290; 1167; 1012; 840; 610; 33865; 1170; 1172; 1171; 1031; 841; 842; 616; 1168; 1289; 823; 1169; 1022; 617; 33866; 826; 612; 33867; 1024; 1576; 1025; 614; 827; 615; 33868; 1032; 843; 844; 403; 838; 624; 404; 33869; 1587; 1026; 816; 817; 618; 33870; 608; 609; 405; 33871].
Definition aes128_round10 : list sbox := [aes128_round10_0; aes128_round10_1; aes128_round10_2; aes128_round10_3; aes128_round10_4; aes128_round10_5; aes128_round10_6; aes128_round10_7; aes128_round10_8; aes128_round10_9; aes128_round10_10; aes128_round10_11; aes128_round10_12; aes128_round10_13; aes128_round10_14; aes128_round10_15].
