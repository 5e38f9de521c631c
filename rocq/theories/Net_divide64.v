(** Generated by /verif/tools/gen_netlists.py from /repo/src/circuits/arithmetic/divide64.txt. *)
From Verif Require Import Netlist.
Open Scope N_scope.
Open Scope list_scope.

(** Lines 5-404 of the file. *)
Definition divide64_0 : list cg := [
  CI 62 17197; CI 61 17196; CI 60 17195; CI 59 17194; CI 58 17193; CI 57 17192; CI 56 17191; CI 55 17190;
  CI 54 17189; CI 53 17188; CI 52 17187; CI 51 17186; CI 50 17185; CI 49 17184; CI 48 17183; CI 47 17182;
  CI 46 17181; CI 45 17180; CI 44 17179; CI 43 17178; CI 42 17177; CI 41 17176; CI 40 17175; CI 39 17174;
  CI 38 17173; CI 37 17172; CI 36 17171; CI 35 17170; CI 34 17169; CI 33 17168; CI 32 17167; CI 31 17166;
  CI 30 17165; CI 29 17164; CI 28 17163; CI 27 17162; CI 26 17161; CI 25 17160; CI 24 17159; CI 23 17158;
  CI 22 17157; CI 21 17156; CI 20 17155; CI 19 17154; CI 18 17153; CI 17 17152; CI 16 17151; CI 15 17150;
  CI 14 17149; CI 13 17148; CI 12 17147; CI 11 17146; CI 10 17145; CI 9 17144; CI 8 17143; CI 7 17142;
  CI 6 17141; CI 5 17140; CI 4 17139; CI 3 17138; CI 2 17137; CI 1 17136; CI 0 17135; CX 1 17135 17072;
  CI 17072 16756; CX 17136 17135 4286; CA 4286 17135 4285; CX 4285 17135 17010; CX 2 17010 17073; CI 17073 16757; CX 17137 17010 4284; CA 4284 17010 4283;
  CX 4283 17010 17011; CX 3 17011 17074; CI 17074 16758; CX 17138 17011 4282; CA 4282 17011 4281; CX 4281 17011 17012; CX 4 17012 17075; CI 17075 16759;
  CX 17139 17012 4280; CA 4280 17012 4279; CX 4279 17012 17013; CX 5 17013 17076; CI 17076 16760; CX 17140 17013 4278; CA 4278 17013 4277; CX 4277 17013 17014;
  CX 6 17014 17077; CI 17077 16761; CX 17141 17014 4276; CA 4276 17014 4275; CX 4275 17014 17015; CX 7 17015 17078; CI 17078 16762; CX 17142 17015 4274;
  CA 4274 17015 4273; CX 4273 17015 17016; CX 8 17016 17079; CI 17079 16763; CX 17143 17016 4272; CA 4272 17016 4271; CX 4271 17016 17017; CX 9 17017 17080;
  CI 17080 16764; CX 17144 17017 4270; CA 4270 17017 4269; CX 4269 17017 17018; CX 10 17018 17081; CI 17081 16765; CX 17145 17018 4268; CA 4268 17018 4267;
  CX 4267 17018 17019; CX 11 17019 17082; CI 17082 16766; CX 17146 17019 4266; CA 4266 17019 4265; CX 4265 17019 17020; CX 12 17020 17083; CI 17083 16767;
  CX 17147 17020 4264; CA 4264 17020 4263; CX 4263 17020 17021; CX 13 17021 17084; CI 17084 16768; CX 17148 17021 4262; CA 4262 17021 4261; CX 4261 17021 17022;
  CX 14 17022 17085; CI 17085 16769; CX 17149 17022 4260; CA 4260 17022 4259; CX 4259 17022 17023; CX 15 17023 17086; CI 17086 16770; CX 17150 17023 4258;
  CA 4258 17023 4257; CX 4257 17023 17024; CX 16 17024 17087; CI 17087 16771; CX 17151 17024 4256; CA 4256 17024 4255; CX 4255 17024 17025; CX 17 17025 17088;
  CI 17088 16772; CX 17152 17025 4254; CA 4254 17025 4253; CX 4253 17025 17026; CX 18 17026 17089; CI 17089 16773; CX 17153 17026 4252; CA 4252 17026 4251;
  CX 4251 17026 17027; CX 19 17027 17090; CI 17090 16774; CX 17154 17027 4250; CA 4250 17027 4249; CX 4249 17027 17028; CX 20 17028 17091; CI 17091 16775;
  CX 17155 17028 4248; CA 4248 17028 4247; CX 4247 17028 17029; CX 21 17029 17092; CI 17092 16776; CX 17156 17029 4246; CA 4246 17029 4245; CX 4245 17029 17030;
  CX 22 17030 17093; CI 17093 16777; CX 17157 17030 4244; CA 4244 17030 4243; CX 4243 17030 17031; CX 23 17031 17094; CI 17094 16778; CX 17158 17031 4242;
  CA 4242 17031 4241; CX 4241 17031 17032; CX 24 17032 17095; CI 17095 16779; CX 17159 17032 4240; CA 4240 17032 4239; CX 4239 17032 17033; CX 25 17033 17096;
  CI 17096 16780; CX 17160 17033 4238; CA 4238 17033 4237; CX 4237 17033 17034; CX 26 17034 17097; CI 17097 16781; CX 17161 17034 4236; CA 4236 17034 4235;
  CX 4235 17034 17035; CX 27 17035 17098; CI 17098 16782; CX 17162 17035 4234; CA 4234 17035 4233; CX 4233 17035 17036; CX 28 17036 17099; CI 17099 16783;
  CX 17163 17036 4232; CA 4232 17036 4231; CX 4231 17036 17037; CX 29 17037 17100; CI 17100 16784; CX 17164 17037 4230; CA 4230 17037 4229; CX 4229 17037 17038;
  CX 30 17038 17101; CI 17101 16785; CX 17165 17038 4228; CA 4228 17038 4227; CX 4227 17038 17039; CX 31 17039 17102; CI 17102 16786; CX 17166 17039 4226;
  CA 4226 17039 4225; CX 4225 17039 17040; CX 32 17040 17103; CI 17103 16787; CX 17167 17040 4224; CA 4224 17040 4223; CX 4223 17040 17041; CX 33 17041 17104;
  CI 17104 16788; CX 17168 17041 4222; CA 4222 17041 4221; CX 4221 17041 17042; CX 34 17042 17105; CI 17105 16789; CX 17169 17042 4220; CA 4220 17042 4219;
  CX 4219 17042 17043; CX 35 17043 17106; CI 17106 16790; CX 17170 17043 4218; CA 4218 17043 4217; CX 4217 17043 17044; CX 36 17044 17107; CI 17107 16791;
  CX 17171 17044 4216; CA 4216 17044 4215; CX 4215 17044 17045; CX 37 17045 17108; CI 17108 16792; CX 17172 17045 4214; CA 4214 17045 4213; CX 4213 17045 17046;
  CX 38 17046 17109; CI 17109 16793; CX 17173 17046 4212; CA 4212 17046 4211; CX 4211 17046 17047; CX 39 17047 17110; CI 17110 16794; CX 17174 17047 4210;
  CA 4210 17047 4209; CX 4209 17047 17048; CX 40 17048 17111; CI 17111 16795; CX 17175 17048 4208; CA 4208 17048 4207; CX 4207 17048 17049; CX 41 17049 17112;
  CI 17112 16796; CX 17176 17049 4206; CA 4206 17049 4205; CX 4205 17049 17050; CX 42 17050 17113; CI 17113 16797; CX 17177 17050 4204; CA 4204 17050 4203;
  CX 4203 17050 17051; CX 43 17051 17114; CI 17114 16798; CX 17178 17051 4202; CA 4202 17051 4201; CX 4201 17051 17052; CX 44 17052 17115; CI 17115 16799;
  CX 17179 17052 4200; CA 4200 17052 4199; CX 4199 17052 17053; CX 45 17053 17116; CI 17116 16800; CX 17180 17053 4198; CA 4198 17053 4197; CX 4197 17053 17054;
  CX 46 17054 17117; CI 17117 16801; CX 17181 17054 4196; CA 4196 17054 4195; CX 4195 17054 17055; CX 47 17055 17118; CI 17118 16802; CX 17182 17055 4194;
  CA 4194 17055 4193; CX 4193 17055 17056; CX 48 17056 17119; CI 17119 16803; CX 17183 17056 4192; CA 4192 17056 4191; CX 4191 17056 17057; CX 49 17057 17120;
  CI 17120 16804; CX 17184 17057 4190; CA 4190 17057 4189; CX 4189 17057 17058; CX 50 17058 17121; CI 17121 16805; CX 17185 17058 4188; CA 4188 17058 4187;
  CX 4187 17058 17059; CX 51 17059 17122; CI 17122 16806; CX 17186 17059 4186; CA 4186 17059 4185; CX 4185 17059 17060; CX 52 17060 17123; CI 17123 16807;
  CX 17187 17060 4184; CA 4184 17060 4183; CX 4183 17060 17061; CX 53 17061 17124; CI 17124 16808; CX 17188 17061 4182; CA 4182 17061 4181; CX 4181 17061 17062;
  CX 54 17062 17125; CI 17125 16809; CX 17189 17062 4180; CA 4180 17062 4179; CX 4179 17062 17063; CX 55 17063 17126; CI 17126 16810; CX 17190 17063 4178;
  CA 4178 17063 4177; CX 4177 17063 17064; CX 56 17064 17127; CI 17127 16811; CX 17191 17064 4176; CA 4176 17064 4175; CX 4175 17064 17065; CX 57 17065 17128;
  CI 17128 16812; CX 17192 17065 4174; CA 4174 17065 4173; CX 4173 17065 17066; CX 58 17066 17129; CI 17129 16813; CX 17193 17066 4172; CA 4172 17066 4171;
  CX 4171 17066 17067; CX 59 17067 17130; CI 17130 16814; CX 17194 17067 4170; CA 4170 17067 4169; CX 4169 17067 17068; CX 60 17068 17131; CI 17131 16815;
  CX 17195 17068 4168; CA 4168 17068 4167; CX 4167 17068 17069; CX 61 17069 17132; CI 17132 16816; CX 17196 17069 4166; CA 4166 17069 4165; CX 4165 17069 17070;
  CX 62 17070 17133; CI 17133 16817; CX 17197 17070 4164; CA 4164 17070 4163; CX 4163 17070 17071; CX 63 17071 17134; CI 17134 16818; CI 63 4287;
  CA 0 63 17262; CA 0 4287 17198; CX 17262 17198 16819; CA 16756 63 17263; CA 1 4287 17199; CX 17263 17199 16820; CA 16757 63 17264; CA 2 4287 17200;
  CX 17264 17200 16821; CA 16758 63 17265; CA 3 4287 17201; CX 17265 17201 16822; CA 16759 63 17266; CA 4 4287 17202; CX 17266 17202 16823; CA 16760 63 17267;
  CA 5 4287 17203; CX 17267 17203 16824; CA 16761 63 17268; CA 6 4287 17204; CX 17268 17204 16825; CA 16762 63 17269; CA 7 4287 17205; CX 17269 17205 16826].
(** Lines 405-804 of the file. *)
Definition divide64_1 : list cg := [
  CA 16763 63 17270; CA 8 4287 17206; CX 17270 17206 16827; CA 16764 63 17271; CA 9 4287 17207; CX 17271 17207 16828; CA 16765 63 17272; CA 10 4287 17208;
  CX 17272 17208 16829; CA 16766 63 17273; CA 11 4287 17209; CX 17273 17209 16830; CA 16767 63 17274; CA 12 4287 17210; CX 17274 17210 16831; CA 16768 63 17275;
  CA 13 4287 17211; CX 17275 17211 16832; CA 16769 63 17276; CA 14 4287 17212; CX 17276 17212 16833; CA 16770 63 17277; CA 15 4287 17213; CX 17277 17213 16834;
  CA 16771 63 17278; CA 16 4287 17214; CX 17278 17214 16835; CA 16772 63 17279; CA 17 4287 17215; CX 17279 17215 16836; CA 16773 63 17280; CA 18 4287 17216;
  CX 17280 17216 16837; CA 16774 63 17281; CA 19 4287 17217; CX 17281 17217 16838; CA 16775 63 17282; CA 20 4287 17218; CX 17282 17218 16839; CA 16776 63 17283;
  CA 21 4287 17219; CX 17283 17219 16840; CA 16777 63 17284; CA 22 4287 17220; CX 17284 17220 16841; CA 16778 63 17285; CA 23 4287 17221; CX 17285 17221 16842;
  CA 16779 63 17286; CA 24 4287 17222; CX 17286 17222 16843; CA 16780 63 17287; CA 25 4287 17223; CX 17287 17223 16844; CA 16781 63 17288; CA 26 4287 17224;
  CX 17288 17224 16845; CA 16782 63 17289; CA 27 4287 17225; CX 17289 17225 16846; CA 16783 63 17290; CA 28 4287 17226; CX 17290 17226 16847; CA 16784 63 17291;
  CA 29 4287 17227; CX 17291 17227 16848; CA 16785 63 17292; CA 30 4287 17228; CX 17292 17228 16849; CA 16786 63 17293; CA 31 4287 17229; CX 17293 17229 16850;
  CA 16787 63 17294; CA 32 4287 17230; CX 17294 17230 16851; CA 16788 63 17295; CA 33 4287 17231; CX 17295 17231 16852; CA 16789 63 17296; CA 34 4287 17232;
  CX 17296 17232 16853; CA 16790 63 17297; CA 35 4287 17233; CX 17297 17233 16854; CA 16791 63 17298; CA 36 4287 17234; CX 17298 17234 16855; CA 16792 63 17299;
  CA 37 4287 17235; CX 17299 17235 16856; CA 16793 63 17300; CA 38 4287 17236; CX 17300 17236 16857; CA 16794 63 17301; CA 39 4287 17237; CX 17301 17237 16858;
  CA 16795 63 17302; CA 40 4287 17238; CX 17302 17238 16859; CA 16796 63 17303; CA 41 4287 17239; CX 17303 17239 16860; CA 16797 63 17304; CA 42 4287 17240;
  CX 17304 17240 16861; CA 16798 63 17305; CA 43 4287 17241; CX 17305 17241 16862; CA 16799 63 17306; CA 44 4287 17242; CX 17306 17242 16863; CA 16800 63 17307;
  CA 45 4287 17243; CX 17307 17243 16864; CA 16801 63 17308; CA 46 4287 17244; CX 17308 17244 16865; CA 16802 63 17309; CA 47 4287 17245; CX 17309 17245 16866;
  CA 16803 63 17310; CA 48 4287 17246; CX 17310 17246 16867; CA 16804 63 17311; CA 49 4287 17247; CX 17311 17247 16868; CA 16805 63 17312; CA 50 4287 17248;
  CX 17312 17248 16869; CA 16806 63 17313; CA 51 4287 17249; CX 17313 17249 16870; CA 16807 63 17314; CA 52 4287 17250; CX 17314 17250 16871; CA 16808 63 17315;
  CA 53 4287 17251; CX 17315 17251 16872; CA 16809 63 17316; CA 54 4287 17252; CX 17316 17252 16873; CA 16810 63 17317; CA 55 4287 17253; CX 17317 17253 16874;
  CA 16811 63 17318; CA 56 4287 17254; CX 17318 17254 16875; CA 16812 63 17319; CA 57 4287 17255; CX 17319 17255 16876; CA 16813 63 17320; CA 58 4287 17256;
  CX 17320 17256 16877; CA 16814 63 17321; CA 59 4287 17257; CX 17321 17257 16878; CA 16815 63 17322; CA 60 4287 17258; CX 17322 17258 16879; CA 16816 63 17323;
  CA 61 4287 17259; CX 17323 17259 16880; CA 16817 63 17324; CA 62 4287 17260; CX 17324 17260 16881; CA 16818 63 17325; CA 63 4287 17261; CX 17325 17261 16882;
  CI 127 16255; CA 64 127 29549; CA 64 16255 29485; CX 29549 29485 16946; CX 16820 16946 4161; CX 16821 16946 4098; CX 16822 16946 4035; CX 16823 16946 3972;
  CX 16824 16946 3909; CX 16825 16946 3846; CX 16826 16946 3783; CX 16827 16946 3720; CX 16828 16946 3657; CX 16829 16946 3594; CX 16830 16946 3531; CX 16831 16946 3468;
  CX 16832 16946 3405; CX 16833 16946 3342; CX 16834 16946 3279; CX 16835 16946 3216; CX 16836 16946 3153; CX 16837 16946 3090; CX 16838 16946 3027; CX 16839 16946 2964;
  CX 16840 16946 2901; CX 16841 16946 2838; CX 16842 16946 2775; CX 16843 16946 2712; CX 16844 16946 2649; CX 16845 16946 2586; CX 16846 16946 2523; CX 16847 16946 2460;
  CX 16848 16946 2397; CX 16849 16946 2334; CX 16850 16946 2271; CX 16851 16946 2208; CX 16852 16946 2145; CX 16853 16946 2082; CX 16854 16946 2019; CX 16855 16946 1956;
  CX 16856 16946 1893; CX 16857 16946 1830; CX 16858 16946 1767; CX 16859 16946 1704; CX 16860 16946 1641; CX 16861 16946 1578; CX 16862 16946 1515; CX 16863 16946 1452;
  CX 16864 16946 1389; CX 16865 16946 1326; CX 16866 16946 1263; CX 16867 16946 1200; CX 16868 16946 1137; CX 16869 16946 1074; CX 16870 16946 1011; CX 16871 16946 948;
  CX 16872 16946 885; CX 16873 16946 822; CX 16874 16946 759; CX 16875 16946 696; CX 16876 16946 633; CX 16877 16946 570; CX 16878 16946 507; CX 16879 16946 444;
  CX 16880 16946 381; CX 16881 16946 318; CA 65 16255 29486; CA 66 16255 29487; CA 67 16255 29488; CA 68 16255 29489; CA 69 16255 29490; CA 70 16255 29491;
  CA 71 16255 29492; CA 72 16255 29493; CA 73 16255 29494; CA 74 16255 29495; CA 75 16255 29496; CA 76 16255 29497; CA 77 16255 29498; CA 78 16255 29499;
  CA 79 16255 29500; CA 80 16255 29501; CA 81 16255 29502; CA 82 16255 29503; CA 83 16255 29504; CA 84 16255 29505; CA 85 16255 29506; CA 86 16255 29507;
  CA 87 16255 29508; CA 88 16255 29509; CA 89 16255 29510; CA 90 16255 29511; CA 91 16255 29512; CA 92 16255 29513; CA 93 16255 29514; CA 94 16255 29515;
  CA 95 16255 29516; CA 96 16255 29517; CA 97 16255 29518; CA 98 16255 29519; CA 99 16255 29520; CA 100 16255 29521; CA 101 16255 29522; CA 102 16255 29523;
  CA 103 16255 29524; CA 104 16255 29525; CA 105 16255 29526; CA 106 16255 29527; CA 107 16255 29528; CA 108 16255 29529; CA 109 16255 29530; CA 110 16255 29531;
  CA 111 16255 29532; CA 112 16255 29533; CA 113 16255 29534; CA 114 16255 29535; CA 115 16255 29536; CA 116 16255 29537; CA 117 16255 29538; CA 118 16255 29539;
  CA 119 16255 29540; CA 120 16255 29541; CA 121 16255 29542; CA 122 16255 29543; CA 123 16255 29544; CA 124 16255 29545; CA 125 16255 29546; CA 126 16255 29547;
  CA 127 16255 29548; CI 126 29800; CI 125 29799; CI 124 29798; CI 123 29797; CI 122 29796; CI 121 29795; CI 120 29794;
  CI 119 29793; CI 118 29792; CI 117 29791; CI 116 29790; CI 115 29789; CI 114 29788; CI 113 29787; CI 112 29786;
  CI 111 29785; CI 110 29784; CI 109 29783; CI 108 29782; CI 107 29781; CI 106 29780; CI 105 29779; CI 104 29778;
  CI 103 29777; CI 102 29776; CI 101 29775; CI 100 29774; CI 99 29773; CI 98 29772; CI 97 29771; CI 96 29770;
  CI 95 29769; CI 94 29768; CI 93 29767; CI 92 29766; CI 91 29765; CI 90 29764; CI 89 29763; CI 88 29762;
  CI 87 29761; CI 86 29760; CI 85 29759; CI 84 29758; CI 83 29757; CI 82 29756; CI 81 29755; CI 80 29754;
  CI 79 29753; CI 78 29752; CI 77 29751; CI 76 29750; CI 75 29749; CI 74 29748; CI 73 29747; CI 72 29746;
  CI 71 29745; CI 70 29744; CI 69 29743; CI 68 29742; CI 67 29741; CI 66 29740; CI 65 29739; CI 64 29738;
  CX 65 29738 29675; CI 29675 16883; CA 16883 127 29550; CX 29550 29486 16947; CX 4098 16947 17830; CX 4035 16947 18019; CX 3972 16947 18208; CX 3909 16947 18397;
  CX 3846 16947 18586; CX 3783 16947 18775; CX 3720 16947 18964; CX 3657 16947 19153; CX 3594 16947 19342; CX 3531 16947 19531; CX 3468 16947 19720; CX 3405 16947 19909;
  CX 3342 16947 20098; CX 3279 16947 20287; CX 3216 16947 20476; CX 3153 16947 20665; CX 3090 16947 20854; CX 3027 16947 21043; CX 2964 16947 21232; CX 2901 16947 21421;
  CX 2838 16947 21610; CX 2775 16947 21799; CX 2712 16947 21988; CX 2649 16947 22177; CX 2586 16947 22366; CX 2523 16947 22555; CX 2460 16947 22744; CX 2397 16947 22933;
  CX 2334 16947 23122; CX 2271 16947 23311; CX 2208 16947 23500; CX 2145 16947 23689; CX 2082 16947 23878; CX 2019 16947 24067; CX 1956 16947 24256; CX 1893 16947 24445].
(** Lines 805-1204 of the file. *)
Definition divide64_2 : list cg := [
  CX 1830 16947 24634; CX 1767 16947 24823; CX 1704 16947 25012; CX 1641 16947 25201; CX 1578 16947 25390; CX 1515 16947 25579; CX 1452 16947 25768; CX 1389 16947 25957;
  CX 1326 16947 26146; CX 1263 16947 26335; CX 1200 16947 26524; CX 1137 16947 26713; CX 1074 16947 26902; CX 1011 16947 27091; CX 948 16947 27280; CX 885 16947 27469;
  CX 822 16947 27658; CX 759 16947 27847; CX 696 16947 28036; CX 633 16947 28225; CX 570 16947 28414; CX 507 16947 28603; CX 444 16947 28792; CX 381 16947 28981;
  CX 318 16947 29170; CX 29739 29738 16379; CA 16379 29738 16378; CX 16378 29738 29613; CX 66 29613 29676; CI 29676 16884; CA 16884 127 29551; CX 29551 29487 16948;
  CX 29740 29613 16377; CA 16377 29613 16376; CX 16376 29613 29614; CX 67 29614 29677; CI 29677 16885; CA 16885 127 29552; CX 29552 29488 16949; CX 29741 29614 16375;
  CA 16375 29614 16374; CX 16374 29614 29615; CX 68 29615 29678; CI 29678 16886; CA 16886 127 29553; CX 29553 29489 16950; CX 29742 29615 16373; CA 16373 29615 16372;
  CX 16372 29615 29616; CX 69 29616 29679; CI 29679 16887; CA 16887 127 29554; CX 29554 29490 16951; CX 29743 29616 16371; CA 16371 29616 16370; CX 16370 29616 29617;
  CX 70 29617 29680; CI 29680 16888; CA 16888 127 29555; CX 29555 29491 16952; CX 29744 29617 16369; CA 16369 29617 16368; CX 16368 29617 29618; CX 71 29618 29681;
  CI 29681 16889; CA 16889 127 29556; CX 29556 29492 16953; CX 29745 29618 16367; CA 16367 29618 16366; CX 16366 29618 29619; CX 72 29619 29682; CI 29682 16890;
  CA 16890 127 29557; CX 29557 29493 16954; CX 29746 29619 16365; CA 16365 29619 16364; CX 16364 29619 29620; CX 73 29620 29683; CI 29683 16891; CA 16891 127 29558;
  CX 29558 29494 16955; CX 29747 29620 16363; CA 16363 29620 16362; CX 16362 29620 29621; CX 74 29621 29684; CI 29684 16892; CA 16892 127 29559; CX 29559 29495 16956;
  CX 29748 29621 16361; CA 16361 29621 16360; CX 16360 29621 29622; CX 75 29622 29685; CI 29685 16893; CA 16893 127 29560; CX 29560 29496 16957; CX 29749 29622 16359;
  CA 16359 29622 16358; CX 16358 29622 29623; CX 76 29623 29686; CI 29686 16894; CA 16894 127 29561; CX 29561 29497 16958; CX 29750 29623 16357; CA 16357 29623 16356;
  CX 16356 29623 29624; CX 77 29624 29687; CI 29687 16895; CA 16895 127 29562; CX 29562 29498 16959; CX 29751 29624 16355; CA 16355 29624 16354; CX 16354 29624 29625;
  CX 78 29625 29688; CI 29688 16896; CA 16896 127 29563; CX 29563 29499 16960; CX 29752 29625 16353; CA 16353 29625 16352; CX 16352 29625 29626; CX 79 29626 29689;
  CI 29689 16897; CA 16897 127 29564; CX 29564 29500 16961; CX 29753 29626 16351; CA 16351 29626 16350; CX 16350 29626 29627; CX 80 29627 29690; CI 29690 16898;
  CA 16898 127 29565; CX 29565 29501 16962; CX 29754 29627 16349; CA 16349 29627 16348; CX 16348 29627 29628; CX 81 29628 29691; CI 29691 16899; CA 16899 127 29566;
  CX 29566 29502 16963; CX 29755 29628 16347; CA 16347 29628 16346; CX 16346 29628 29629; CX 82 29629 29692; CI 29692 16900; CA 16900 127 29567; CX 29567 29503 16964;
  CX 29756 29629 16345; CA 16345 29629 16344; CX 16344 29629 29630; CX 83 29630 29693; CI 29693 16901; CA 16901 127 29568; CX 29568 29504 16965; CX 29757 29630 16343;
  CA 16343 29630 16342; CX 16342 29630 29631; CX 84 29631 29694; CI 29694 16902; CA 16902 127 29569; CX 29569 29505 16966; CX 29758 29631 16341; CA 16341 29631 16340;
  CX 16340 29631 29632; CX 85 29632 29695; CI 29695 16903; CA 16903 127 29570; CX 29570 29506 16967; CX 29759 29632 16339; CA 16339 29632 16338; CX 16338 29632 29633;
  CX 86 29633 29696; CI 29696 16904; CA 16904 127 29571; CX 29571 29507 16968; CX 29760 29633 16337; CA 16337 29633 16336; CX 16336 29633 29634; CX 87 29634 29697;
  CI 29697 16905; CA 16905 127 29572; CX 29572 29508 16969; CX 29761 29634 16335; CA 16335 29634 16334; CX 16334 29634 29635; CX 88 29635 29698; CI 29698 16906;
  CA 16906 127 29573; CX 29573 29509 16970; CX 29762 29635 16333; CA 16333 29635 16332; CX 16332 29635 29636; CX 89 29636 29699; CI 29699 16907; CA 16907 127 29574;
  CX 29574 29510 16971; CX 29763 29636 16331; CA 16331 29636 16330; CX 16330 29636 29637; CX 90 29637 29700; CI 29700 16908; CA 16908 127 29575; CX 29575 29511 16972;
  CX 29764 29637 16329; CA 16329 29637 16328; CX 16328 29637 29638; CX 91 29638 29701; CI 29701 16909; CA 16909 127 29576; CX 29576 29512 16973; CX 29765 29638 16327;
  CA 16327 29638 16326; CX 16326 29638 29639; CX 92 29639 29702; CI 29702 16910; CA 16910 127 29577; CX 29577 29513 16974; CX 29766 29639 16325; CA 16325 29639 16324;
  CX 16324 29639 29640; CX 93 29640 29703; CI 29703 16911; CA 16911 127 29578; CX 29578 29514 16975; CX 29767 29640 16323; CA 16323 29640 16322; CX 16322 29640 29641;
  CX 94 29641 29704; CI 29704 16912; CA 16912 127 29579; CX 29579 29515 16976; CX 29768 29641 16321; CA 16321 29641 16320; CX 16320 29641 29642; CX 95 29642 29705;
  CI 29705 16913; CA 16913 127 29580; CX 29580 29516 16977; CX 29769 29642 16319; CA 16319 29642 16318; CX 16318 29642 29643; CX 96 29643 29706; CI 29706 16914;
  CA 16914 127 29581; CX 29581 29517 16978; CX 29770 29643 16317; CA 16317 29643 16316; CX 16316 29643 29644; CX 97 29644 29707; CI 29707 16915; CA 16915 127 29582;
  CX 29582 29518 16979; CX 29771 29644 16315; CA 16315 29644 16314; CX 16314 29644 29645; CX 98 29645 29708; CI 29708 16916; CA 16916 127 29583; CX 29583 29519 16980;
  CX 29772 29645 16313; CA 16313 29645 16312; CX 16312 29645 29646; CX 99 29646 29709; CI 29709 16917; CA 16917 127 29584; CX 29584 29520 16981; CX 29773 29646 16311;
  CA 16311 29646 16310; CX 16310 29646 29647; CX 100 29647 29710; CI 29710 16918; CA 16918 127 29585; CX 29585 29521 16982; CX 29774 29647 16309; CA 16309 29647 16308;
  CX 16308 29647 29648; CX 101 29648 29711; CI 29711 16919; CA 16919 127 29586; CX 29586 29522 16983; CX 29775 29648 16307; CA 16307 29648 16306; CX 16306 29648 29649;
  CX 102 29649 29712; CI 29712 16920; CA 16920 127 29587; CX 29587 29523 16984; CX 29776 29649 16305; CA 16305 29649 16304; CX 16304 29649 29650; CX 103 29650 29713;
  CI 29713 16921; CA 16921 127 29588; CX 29588 29524 16985; CX 29777 29650 16303; CA 16303 29650 16302; CX 16302 29650 29651; CX 104 29651 29714; CI 29714 16922;
  CA 16922 127 29589; CX 29589 29525 16986; CX 29778 29651 16301; CA 16301 29651 16300; CX 16300 29651 29652; CX 105 29652 29715; CI 29715 16923; CA 16923 127 29590;
  CX 29590 29526 16987; CX 29779 29652 16299; CA 16299 29652 16298; CX 16298 29652 29653; CX 106 29653 29716; CI 29716 16924; CA 16924 127 29591; CX 29591 29527 16988;
  CX 29780 29653 16297; CA 16297 29653 16296; CX 16296 29653 29654; CX 107 29654 29717; CI 29717 16925; CA 16925 127 29592; CX 29592 29528 16989; CX 29781 29654 16295;
  CA 16295 29654 16294; CX 16294 29654 29655; CX 108 29655 29718; CI 29718 16926; CA 16926 127 29593; CX 29593 29529 16990; CX 29782 29655 16293; CA 16293 29655 16292;
  CX 16292 29655 29656; CX 109 29656 29719; CI 29719 16927; CA 16927 127 29594; CX 29594 29530 16991; CX 29783 29656 16291; CA 16291 29656 16290; CX 16290 29656 29657;
  CX 110 29657 29720; CI 29720 16928; CA 16928 127 29595; CX 29595 29531 16992; CX 29784 29657 16289; CA 16289 29657 16288; CX 16288 29657 29658; CX 111 29658 29721;
  CI 29721 16929; CA 16929 127 29596; CX 29596 29532 16993; CX 29785 29658 16287; CA 16287 29658 16286; CX 16286 29658 29659; CX 112 29659 29722; CI 29722 16930;
  CA 16930 127 29597; CX 29597 29533 16994; CX 29786 29659 16285; CA 16285 29659 16284; CX 16284 29659 29660; CX 113 29660 29723; CI 29723 16931; CA 16931 127 29598;
  CX 29598 29534 16995; CX 29787 29660 16283; CA 16283 29660 16282; CX 16282 29660 29661; CX 114 29661 29724; CI 29724 16932; CA 16932 127 29599; CX 29599 29535 16996;
  CX 29788 29661 16281; CA 16281 29661 16280; CX 16280 29661 29662; CX 115 29662 29725; CI 29725 16933; CA 16933 127 29600; CX 29600 29536 16997; CX 29789 29662 16279;
  CA 16279 29662 16278; CX 16278 29662 29663; CX 116 29663 29726; CI 29726 16934; CA 16934 127 29601; CX 29601 29537 16998; CX 29790 29663 16277; CA 16277 29663 16276;
  CX 16276 29663 29664; CX 117 29664 29727; CI 29727 16935; CA 16935 127 29602; CX 29602 29538 16999; CX 29791 29664 16275; CA 16275 29664 16274; CX 16274 29664 29665;
  CX 118 29665 29728; CI 29728 16936; CA 16936 127 29603; CX 29603 29539 17000; CX 29792 29665 16273; CA 16273 29665 16272; CX 16272 29665 29666; CX 119 29666 29729].
(** Lines 1205-1604 of the file. *)
Definition divide64_3 : list cg := [
  CI 29729 16937; CA 16937 127 29604; CX 29604 29540 17001; CX 29793 29666 16271; CA 16271 29666 16270; CX 16270 29666 29667; CX 120 29667 29730; CI 29730 16938;
  CA 16938 127 29605; CX 29605 29541 17002; CX 29794 29667 16269; CA 16269 29667 16268; CX 16268 29667 29668; CX 121 29668 29731; CI 29731 16939; CA 16939 127 29606;
  CX 29606 29542 17003; CX 29795 29668 16267; CA 16267 29668 16266; CX 16266 29668 29669; CX 122 29669 29732; CI 29732 16940; CA 16940 127 29607; CX 29607 29543 17004;
  CX 29796 29669 16265; CA 16265 29669 16264; CX 16264 29669 29670; CX 123 29670 29733; CI 29733 16941; CA 16941 127 29608; CX 29608 29544 17005; CX 29797 29670 16263;
  CA 16263 29670 16262; CX 16262 29670 29671; CX 124 29671 29734; CI 29734 16942; CA 16942 127 29609; CX 29609 29545 17006; CX 29798 29671 16261; CA 16261 29671 16260;
  CX 16260 29671 29672; CX 125 29672 29735; CI 29735 16943; CA 16943 127 29610; CX 29610 29546 17007; CX 29799 29672 16259; CA 16259 29672 16258; CX 16258 29672 29673;
  CX 126 29673 29736; CI 29736 16944; CA 16944 127 29611; CX 29611 29547 17008; CX 29800 29673 16257; CA 16257 29673 16256; CX 16256 29673 29674; CX 127 29674 29737;
  CI 29737 16945; CA 16945 127 29612; CX 29612 29548 17009; CX 16882 16946 255; CX 255 16947 29359; CX 63 127 128; CI 128 4535; CI 16946 16755;
  CX 16946 16947 29864; CA 16755 29864 4410; CX 4410 16946 17326; CX 16948 17326 4409; CI 17326 16754; CA 16754 4409 4408; CX 4408 17326 17327; CX 16949 17327 4407;
  CI 17327 16753; CA 16753 4407 4406; CX 4406 17327 17328; CX 16950 17328 4405; CI 17328 16752; CA 16752 4405 4404; CX 4404 17328 17329; CX 16951 17329 4403;
  CI 17329 16751; CA 16751 4403 4402; CX 4402 17329 17330; CX 16952 17330 4401; CI 17330 16750; CA 16750 4401 4400; CX 4400 17330 17331; CX 16953 17331 4399;
  CI 17331 16749; CA 16749 4399 4398; CX 4398 17331 17332; CX 16954 17332 4397; CI 17332 16748; CA 16748 4397 4396; CX 4396 17332 17333; CX 16955 17333 4395;
  CI 17333 16747; CA 16747 4395 4394; CX 4394 17333 17334; CX 16956 17334 4393; CI 17334 16746; CA 16746 4393 4392; CX 4392 17334 17335; CX 16957 17335 4391;
  CI 17335 16745; CA 16745 4391 4390; CX 4390 17335 17336; CX 16958 17336 4389; CI 17336 16744; CA 16744 4389 4388; CX 4388 17336 17337; CX 16959 17337 4387;
  CI 17337 16743; CA 16743 4387 4386; CX 4386 17337 17338; CX 16960 17338 4385; CI 17338 16742; CA 16742 4385 4384; CX 4384 17338 17339; CX 16961 17339 4383;
  CI 17339 16741; CA 16741 4383 4382; CX 4382 17339 17340; CX 16962 17340 4381; CI 17340 16740; CA 16740 4381 4380; CX 4380 17340 17341; CX 16963 17341 4379;
  CI 17341 16739; CA 16739 4379 4378; CX 4378 17341 17342; CX 16964 17342 4377; CI 17342 16738; CA 16738 4377 4376; CX 4376 17342 17343; CX 16965 17343 4375;
  CI 17343 16737; CA 16737 4375 4374; CX 4374 17343 17344; CX 16966 17344 4373; CI 17344 16736; CA 16736 4373 4372; CX 4372 17344 17345; CX 16967 17345 4371;
  CI 17345 16735; CA 16735 4371 4370; CX 4370 17345 17346; CX 16968 17346 4369; CI 17346 16734; CA 16734 4369 4368; CX 4368 17346 17347; CX 16969 17347 4367;
  CI 17347 16733; CA 16733 4367 4366; CX 4366 17347 17348; CX 16970 17348 4365; CI 17348 16732; CA 16732 4365 4364; CX 4364 17348 17349; CX 16971 17349 4363;
  CI 17349 16731; CA 16731 4363 4362; CX 4362 17349 17350; CX 16972 17350 4361; CI 17350 16730; CA 16730 4361 4360; CX 4360 17350 17351; CX 16973 17351 4359;
  CI 17351 16729; CA 16729 4359 4358; CX 4358 17351 17352; CX 16974 17352 4357; CI 17352 16728; CA 16728 4357 4356; CX 4356 17352 17353; CX 16975 17353 4355;
  CI 17353 16727; CA 16727 4355 4354; CX 4354 17353 17354; CX 16976 17354 4353; CI 17354 16726; CA 16726 4353 4352; CX 4352 17354 17355; CX 16977 17355 4351;
  CI 17355 16725; CA 16725 4351 4350; CX 4350 17355 17356; CX 16978 17356 4349; CI 17356 16724; CA 16724 4349 4348; CX 4348 17356 17357; CX 16979 17357 4347;
  CI 17357 16723; CA 16723 4347 4346; CX 4346 17357 17358; CI 17358 16722; CX 16980 17358 4345; CA 16722 4345 4344; CX 4344 17358 17359; CI 17359 16721;
  CX 16981 17359 4343; CA 16721 4343 4342; CX 4342 17359 17360; CI 17360 16720; CX 16982 17360 4341; CA 16720 4341 4340; CX 4340 17360 17361; CI 17361 16719;
  CX 16983 17361 4339; CA 16719 4339 4338; CX 4338 17361 17362; CI 17362 16718; CX 16984 17362 4337; CA 16718 4337 4336; CX 4336 17362 17363; CI 17363 16717;
  CX 16985 17363 4335; CA 16717 4335 4334; CX 4334 17363 17364; CI 17364 16716; CX 16986 17364 4333; CA 16716 4333 4332; CX 4332 17364 17365; CI 17365 16715;
  CX 16987 17365 4331; CA 16715 4331 4330; CX 4330 17365 17366; CI 17366 16714; CX 16988 17366 4329; CA 16714 4329 4328; CX 4328 17366 17367; CI 17367 16713;
  CX 16989 17367 4327; CA 16713 4327 4326; CX 4326 17367 17368; CI 17368 16712; CX 16990 17368 4325; CA 16712 4325 4324; CX 4324 17368 17369; CI 17369 16711;
  CX 16991 17369 4323; CA 16711 4323 4322; CX 4322 17369 17370; CI 17370 16710; CX 16992 17370 4321; CA 16710 4321 4320; CX 4320 17370 17371; CI 17371 16709;
  CX 16993 17371 4319; CA 16709 4319 4318; CX 4318 17371 17372; CX 16994 17372 4317; CI 17372 16708; CA 16708 4317 4316; CX 4316 17372 17373; CI 17373 16707;
  CX 16995 17373 4315; CA 16707 4315 4314; CX 4314 17373 17374; CX 16996 17374 4313; CI 17374 16706; CA 16706 4313 4312; CX 4312 17374 17375; CI 17375 16705;
  CX 16997 17375 4311; CA 16705 4311 4310; CX 4310 17375 17376; CX 16998 17376 4309; CI 17376 16704; CA 16704 4309 4308; CX 4308 17376 17377; CX 16999 17377 4307;
  CI 17377 16703; CA 16703 4307 4306; CX 4306 17377 17378; CX 17000 17378 4305; CI 17378 16702; CA 16702 4305 4304; CX 4304 17378 17379; CX 17001 17379 4303;
  CI 17379 16701; CA 16701 4303 4302; CX 4302 17379 17380; CX 17002 17380 4301; CI 17380 16700; CA 16700 4301 4300; CX 4300 17380 17381; CX 17003 17381 4299;
  CI 17381 16699; CA 16699 4299 4298; CX 4298 17381 17382; CX 17004 17382 4297; CI 17382 16698; CA 16698 4297 4296; CX 4296 17382 17383; CX 17005 17383 4295;
  CI 17383 16697; CA 16697 4295 4294; CX 4294 17383 17384; CX 17006 17384 4293; CI 17384 16696; CA 16696 4293 4292; CX 4292 17384 17385; CI 17385 16695;
  CX 17007 17385 4291; CA 16695 4291 4290; CX 4290 17385 17386; CX 17008 17386 4289; CI 17386 16694; CA 16694 4289 4288; CX 4288 17386 17387; CX 17009 17387 129;
  CX 29864 16948 29865; CX 4409 16949 29866; CX 4407 16950 29867; CX 4405 16951 29868; CX 4403 16952 29869; CX 4401 16953 29870; CX 4399 16954 29871; CX 4397 16955 29872;
  CX 4395 16956 29873; CX 4393 16957 29874; CX 4391 16958 29875; CX 4389 16959 29876; CX 4387 16960 29877; CX 4385 16961 29878; CX 4383 16962 29879; CX 4381 16963 29880;
  CX 4379 16964 29881; CX 4377 16965 29882; CX 4375 16966 29883; CX 4373 16967 29884; CX 4371 16968 29885; CX 4369 16969 29886; CX 4367 16970 29887; CX 4365 16971 29888;
  CX 4363 16972 29889; CX 4361 16973 29890; CX 4359 16974 29891; CX 4357 16975 29892; CX 4355 16976 29893; CX 4353 16977 29894; CX 4351 16978 29895; CX 4349 16979 29896;
  CX 4347 16980 29897; CX 4345 16981 29898; CX 4343 16982 29899; CX 4341 16983 29900; CX 4339 16984 29901; CX 4337 16985 29902; CX 4335 16986 29903; CX 4333 16987 29904;
  CX 4331 16988 29905; CX 4329 16989 29906; CX 4327 16990 29907; CX 4325 16991 29908; CX 4323 16992 29909; CX 4321 16993 29910; CX 4319 16994 29911; CX 4317 16995 29912;
  CX 4315 16996 29913; CX 4313 16997 29914; CX 4311 16998 29915; CX 4309 16999 29916; CX 4307 17000 29917; CX 4305 17001 29918; CX 4303 17002 29919; CX 4301 17003 29920;
  CX 4299 17004 29921; CX 4297 17005 29922; CX 4295 17006 29923; CX 4293 17007 29924; CX 4291 17008 29925; CX 4289 17009 29926; CI 129 16693; CX 16882 16693 29927;
  CX 16946 16693 29928; CX 29864 16693 29929; CX 4409 16693 29930; CX 4407 16693 29931; CX 4405 16693 29932; CX 4403 16693 29933; CX 4401 16693 29934; CX 4399 16693 29935;
  CX 4397 16693 29936; CX 4395 16693 29937; CX 4393 16693 29938; CX 4391 16693 29939; CX 4389 16693 29940; CX 4387 16693 29941; CX 4385 16693 29942; CX 4383 16693 29943;
  CX 4381 16693 29944; CX 4379 16693 29945; CX 4377 16693 29946; CX 4375 16693 29947; CX 4373 16693 29948; CX 4371 16693 29949; CX 4369 16693 29950; CX 4367 16693 29951].
(** Lines 1605-2004 of the file. *)
Definition divide64_4 : list cg := [
  CX 4365 16693 29952; CX 4363 16693 29953; CX 4361 16693 29954; CX 4359 16693 29955; CX 4357 16693 29956; CX 4355 16693 29957; CX 4353 16693 29958; CX 4351 16693 29959;
  CX 4349 16693 29960; CX 4347 16693 29961; CX 4345 16693 29962; CX 4343 16693 29963; CX 4341 16693 29964; CX 4339 16693 29965; CX 4337 16693 29966; CX 4335 16693 29967;
  CX 4333 16693 29968; CX 4331 16693 29969; CX 4329 16693 29970; CX 4327 16693 29971; CX 4325 16693 29972; CX 4323 16693 29973; CX 4321 16693 29974; CX 4319 16693 29975;
  CX 4317 16693 29976; CX 4315 16693 29977; CX 4313 16693 29978; CX 4311 16693 29979; CX 4309 16693 29980; CX 4307 16693 29981; CX 4305 16693 29982; CX 4303 16693 29983;
  CX 4301 16693 29984; CX 4299 16693 29985; CX 4297 16693 29986; CX 4295 16693 29987; CX 4293 16693 29988; CX 4291 16693 29989; CA 29927 16946 29801; CX 29864 29801 254;
  CX 254 16948 29360; CX 29928 29801 16565; CX 16947 29801 16564; CA 16565 16564 16563; CX 16563 29801 29802; CX 29865 29802 253; CX 253 16949 29361; CX 29929 29802 16562;
  CX 16948 29802 16561; CA 16562 16561 16560; CX 16560 29802 29803; CX 29866 29803 252; CX 252 16950 29362; CX 29930 29803 16559; CX 16949 29803 16558; CA 16559 16558 16557;
  CX 16557 29803 29804; CX 29867 29804 251; CX 251 16951 29363; CX 29931 29804 16556; CX 16950 29804 16555; CA 16556 16555 16554; CX 16554 29804 29805; CX 29868 29805 250;
  CX 250 16952 29364; CX 29932 29805 16553; CX 16951 29805 16552; CA 16553 16552 16551; CX 16551 29805 29806; CX 29869 29806 249; CX 249 16953 29365; CX 29933 29806 16550;
  CX 16952 29806 16549; CA 16550 16549 16548; CX 16548 29806 29807; CX 29870 29807 248; CX 248 16954 29366; CX 29934 29807 16547; CX 16953 29807 16546; CA 16547 16546 16545;
  CX 16545 29807 29808; CX 29871 29808 247; CX 247 16955 29367; CX 29935 29808 16544; CX 16954 29808 16543; CA 16544 16543 16542; CX 16542 29808 29809; CX 29872 29809 246;
  CX 246 16956 29368; CX 29936 29809 16541; CX 16955 29809 16540; CA 16541 16540 16539; CX 16539 29809 29810; CX 29873 29810 245; CX 245 16957 29369; CX 29937 29810 16538;
  CX 16956 29810 16537; CA 16538 16537 16536; CX 16536 29810 29811; CX 29874 29811 244; CX 244 16958 29370; CX 29938 29811 16535; CX 16957 29811 16534; CA 16535 16534 16533;
  CX 16533 29811 29812; CX 29875 29812 243; CX 243 16959 29371; CX 29939 29812 16532; CX 16958 29812 16531; CA 16532 16531 16530; CX 16530 29812 29813; CX 29876 29813 242;
  CX 242 16960 29372; CX 29940 29813 16529; CX 16959 29813 16528; CA 16529 16528 16527; CX 16527 29813 29814; CX 29877 29814 241; CX 241 16961 29373; CX 29941 29814 16526;
  CX 16960 29814 16525; CA 16526 16525 16524; CX 16524 29814 29815; CX 29878 29815 240; CX 240 16962 29374; CX 29942 29815 16523; CX 16961 29815 16522; CA 16523 16522 16521;
  CX 16521 29815 29816; CX 29879 29816 239; CX 239 16963 29375; CX 29943 29816 16520; CX 16962 29816 16519; CA 16520 16519 16518; CX 16518 29816 29817; CX 29880 29817 238;
  CX 238 16964 29376; CX 29944 29817 16517; CX 16963 29817 16516; CA 16517 16516 16515; CX 16515 29817 29818; CX 29881 29818 237; CX 237 16965 29377; CX 29945 29818 16514;
  CX 16964 29818 16513; CA 16514 16513 16512; CX 16512 29818 29819; CX 29882 29819 236; CX 236 16966 29378; CX 29946 29819 16511; CX 16965 29819 16510; CA 16511 16510 16509;
  CX 16509 29819 29820; CX 29883 29820 235; CX 235 16967 29379; CX 29947 29820 16508; CX 16966 29820 16507; CA 16508 16507 16506; CX 16506 29820 29821; CX 29884 29821 234;
  CX 234 16968 29380; CX 29948 29821 16505; CX 16967 29821 16504; CA 16505 16504 16503; CX 16503 29821 29822; CX 29885 29822 233; CX 233 16969 29381; CX 29949 29822 16502;
  CX 16968 29822 16501; CA 16502 16501 16500; CX 16500 29822 29823; CX 29886 29823 232; CX 232 16970 29382; CX 29950 29823 16499; CX 16969 29823 16498; CA 16499 16498 16497;
  CX 16497 29823 29824; CX 29887 29824 231; CX 231 16971 29383; CX 29951 29824 16496; CX 16970 29824 16495; CA 16496 16495 16494; CX 16494 29824 29825; CX 29888 29825 230;
  CX 230 16972 29384; CX 29952 29825 16493; CX 16971 29825 16492; CA 16493 16492 16491; CX 16491 29825 29826; CX 29889 29826 229; CX 229 16973 29385; CX 29953 29826 16490;
  CX 16972 29826 16489; CA 16490 16489 16488; CX 16488 29826 29827; CX 29890 29827 228; CX 228 16974 29386; CX 29954 29827 16487; CX 16973 29827 16486; CA 16487 16486 16485;
  CX 16485 29827 29828; CX 29891 29828 227; CX 227 16975 29387; CX 29955 29828 16484; CX 16974 29828 16483; CA 16484 16483 16482; CX 16482 29828 29829; CX 29892 29829 226;
  CX 226 16976 29388; CX 29956 29829 16481; CX 16975 29829 16480; CA 16481 16480 16479; CX 16479 29829 29830; CX 29893 29830 225; CX 225 16977 29389; CX 29957 29830 16478;
  CX 16976 29830 16477; CA 16478 16477 16476; CX 16476 29830 29831; CX 29894 29831 224; CX 224 16978 29390; CX 29958 29831 16475; CX 16977 29831 16474; CA 16475 16474 16473;
  CX 16473 29831 29832; CX 29895 29832 223; CX 223 16979 29391; CX 29959 29832 16472; CX 16978 29832 16471; CA 16472 16471 16470; CX 16470 29832 29833; CX 29896 29833 222;
  CX 222 16980 29392; CX 29960 29833 16469; CX 16979 29833 16468; CA 16469 16468 16467; CX 16467 29833 29834; CX 29897 29834 221; CX 221 16981 29393; CX 29961 29834 16466;
  CX 16980 29834 16465; CA 16466 16465 16464; CX 16464 29834 29835; CX 29898 29835 220; CX 220 16982 29394; CX 29962 29835 16463; CX 16981 29835 16462; CA 16463 16462 16461;
  CX 16461 29835 29836; CX 29899 29836 219; CX 219 16983 29395; CX 29963 29836 16460; CX 16982 29836 16459; CA 16460 16459 16458; CX 16458 29836 29837; CX 29900 29837 218;
  CX 218 16984 29396; CX 29964 29837 16457; CX 16983 29837 16456; CA 16457 16456 16455; CX 16455 29837 29838; CX 29901 29838 217; CX 217 16985 29397; CX 29965 29838 16454;
  CX 16984 29838 16453; CA 16454 16453 16452; CX 16452 29838 29839; CX 29902 29839 216; CX 216 16986 29398; CX 29966 29839 16451; CX 16985 29839 16450; CA 16451 16450 16449;
  CX 16449 29839 29840; CX 29903 29840 215; CX 215 16987 29399; CX 29967 29840 16448; CX 16986 29840 16447; CA 16448 16447 16446; CX 16446 29840 29841; CX 29904 29841 214;
  CX 214 16988 29400; CX 29968 29841 16445; CX 16987 29841 16444; CA 16445 16444 16443; CX 16443 29841 29842; CX 29905 29842 213; CX 213 16989 29401; CX 29969 29842 16442;
  CX 16988 29842 16441; CA 16442 16441 16440; CX 16440 29842 29843; CX 29906 29843 212; CX 212 16990 29402; CX 29970 29843 16439; CX 16989 29843 16438; CA 16439 16438 16437;
  CX 16437 29843 29844; CX 29907 29844 211; CX 211 16991 29403; CX 29971 29844 16436; CX 16990 29844 16435; CA 16436 16435 16434; CX 16434 29844 29845; CX 29908 29845 210;
  CX 210 16992 29404; CX 29972 29845 16433; CX 16991 29845 16432; CA 16433 16432 16431; CX 16431 29845 29846; CX 29909 29846 209; CX 209 16993 29405; CX 29973 29846 16430;
  CX 16992 29846 16429; CA 16430 16429 16428; CX 16428 29846 29847; CX 29910 29847 208; CX 208 16994 29406; CX 29974 29847 16427; CX 16993 29847 16426; CA 16427 16426 16425;
  CX 16425 29847 29848; CX 29911 29848 207; CX 207 16995 29407; CX 29975 29848 16424; CX 16994 29848 16423; CA 16424 16423 16422; CX 16422 29848 29849; CX 29912 29849 206;
  CX 206 16996 29408; CX 29976 29849 16421; CX 16995 29849 16420; CA 16421 16420 16419; CX 16419 29849 29850; CX 29913 29850 205; CX 205 16997 29409; CX 29977 29850 16418;
  CX 16996 29850 16417; CA 16418 16417 16416; CX 16416 29850 29851; CX 29914 29851 204; CX 204 16998 29410; CX 29978 29851 16415; CX 16997 29851 16414; CA 16415 16414 16413;
  CX 16413 29851 29852; CX 29915 29852 203; CX 203 16999 29411; CX 29979 29852 16412; CX 16998 29852 16411; CA 16412 16411 16410; CX 16410 29852 29853; CX 29916 29853 202;
  CX 202 17000 29412; CX 29980 29853 16409; CX 16999 29853 16408; CA 16409 16408 16407; CX 16407 29853 29854; CX 29917 29854 201; CX 201 17001 29413; CX 29981 29854 16406;
  CX 17000 29854 16405; CA 16406 16405 16404; CX 16404 29854 29855; CX 29918 29855 200; CX 200 17002 29414; CX 29982 29855 16403; CX 17001 29855 16402; CA 16403 16402 16401;
  CX 16401 29855 29856; CX 29919 29856 199; CX 199 17003 29415; CX 29983 29856 16400; CX 17002 29856 16399; CA 16400 16399 16398; CX 16398 29856 29857; CX 29920 29857 198;
  CX 198 17004 29416; CX 29984 29857 16397; CX 17003 29857 16396; CA 16397 16396 16395; CX 16395 29857 29858; CX 29921 29858 197; CX 197 17005 29417; CX 29985 29858 16394;
  CX 17004 29858 16393; CA 16394 16393 16392; CX 16392 29858 29859; CX 29922 29859 196; CX 196 17006 29418; CX 29986 29859 16391; CX 17005 29859 16390; CA 16391 16390 16389;
  CX 16389 29859 29860; CX 29923 29860 195; CX 195 17007 29419; CX 29987 29860 16388; CX 17006 29860 16387; CA 16388 16387 16386; CX 16386 29860 29861; CX 29924 29861 194].
(** Lines 2005-2404 of the file. *)
Definition divide64_5 : list cg := [
  CX 194 17008 29420; CX 29988 29861 16385; CX 17007 29861 16384; CA 16385 16384 16383; CX 16383 29861 29862; CX 29925 29862 193; CX 193 17009 29421; CX 29989 29862 16382;
  CX 17008 29862 16381; CA 16382 16381 16380; CX 16380 29862 29863; CX 29926 29863 130; CI 130 16692; CX 16881 16692 29422; CX 255 16692 29423; CX 254 16692 29424;
  CX 253 16692 29425; CX 252 16692 29426; CX 251 16692 29427; CX 250 16692 29428; CX 249 16692 29429; CX 248 16692 29430; CX 247 16692 29431; CX 246 16692 29432;
  CX 245 16692 29433; CX 244 16692 29434; CX 243 16692 29435; CX 242 16692 29436; CX 241 16692 29437; CX 240 16692 29438; CX 239 16692 29439; CX 238 16692 29440;
  CX 237 16692 29441; CX 236 16692 29442; CX 235 16692 29443; CX 234 16692 29444; CX 233 16692 29445; CX 232 16692 29446; CX 231 16692 29447; CX 230 16692 29448;
  CX 229 16692 29449; CX 228 16692 29450; CX 227 16692 29451; CX 226 16692 29452; CX 225 16692 29453; CX 224 16692 29454; CX 223 16692 29455; CX 222 16692 29456;
  CX 221 16692 29457; CX 220 16692 29458; CX 219 16692 29459; CX 218 16692 29460; CX 217 16692 29461; CX 216 16692 29462; CX 215 16692 29463; CX 214 16692 29464;
  CX 213 16692 29465; CX 212 16692 29466; CX 211 16692 29467; CX 210 16692 29468; CX 209 16692 29469; CX 208 16692 29470; CX 207 16692 29471; CX 206 16692 29472;
  CX 205 16692 29473; CX 204 16692 29474; CX 203 16692 29475; CX 202 16692 29476; CX 201 16692 29477; CX 200 16692 29478; CX 199 16692 29479; CX 198 16692 29480;
  CX 197 16692 29481; CX 196 16692 29482; CX 195 16692 29483; CX 194 16692 29484; CA 29422 16946 29296; CX 29359 29296 317; CX 317 16948 29171; CX 29423 29296 16254;
  CX 16947 29296 16253; CA 16254 16253 16252; CX 16252 29296 29297; CX 29360 29297 316; CX 316 16949 29172; CX 29424 29297 16251; CX 16948 29297 16250; CA 16251 16250 16249;
  CX 16249 29297 29298; CX 29361 29298 315; CX 315 16950 29173; CX 29425 29298 16248; CX 16949 29298 16247; CA 16248 16247 16246; CX 16246 29298 29299; CX 29362 29299 314;
  CX 314 16951 29174; CX 29426 29299 16245; CX 16950 29299 16244; CA 16245 16244 16243; CX 16243 29299 29300; CX 29363 29300 313; CX 313 16952 29175; CX 29427 29300 16242;
  CX 16951 29300 16241; CA 16242 16241 16240; CX 16240 29300 29301; CX 29364 29301 312; CX 312 16953 29176; CX 29428 29301 16239; CX 16952 29301 16238; CA 16239 16238 16237;
  CX 16237 29301 29302; CX 29365 29302 311; CX 311 16954 29177; CX 29429 29302 16236; CX 16953 29302 16235; CA 16236 16235 16234; CX 16234 29302 29303; CX 29366 29303 310;
  CX 310 16955 29178; CX 29430 29303 16233; CX 16954 29303 16232; CA 16233 16232 16231; CX 16231 29303 29304; CX 29367 29304 309; CX 309 16956 29179; CX 29431 29304 16230;
  CX 16955 29304 16229; CA 16230 16229 16228; CX 16228 29304 29305; CX 29368 29305 308; CX 308 16957 29180; CX 29432 29305 16227; CX 16956 29305 16226; CA 16227 16226 16225;
  CX 16225 29305 29306; CX 29369 29306 307; CX 307 16958 29181; CX 29433 29306 16224; CX 16957 29306 16223; CA 16224 16223 16222; CX 16222 29306 29307; CX 29370 29307 306;
  CX 306 16959 29182; CX 29434 29307 16221; CX 16958 29307 16220; CA 16221 16220 16219; CX 16219 29307 29308; CX 29371 29308 305; CX 305 16960 29183; CX 29435 29308 16218;
  CX 16959 29308 16217; CA 16218 16217 16216; CX 16216 29308 29309; CX 29372 29309 304; CX 304 16961 29184; CX 29436 29309 16215; CX 16960 29309 16214; CA 16215 16214 16213;
  CX 16213 29309 29310; CX 29373 29310 303; CX 303 16962 29185; CX 29437 29310 16212; CX 16961 29310 16211; CA 16212 16211 16210; CX 16210 29310 29311; CX 29374 29311 302;
  CX 302 16963 29186; CX 29438 29311 16209; CX 16962 29311 16208; CA 16209 16208 16207; CX 16207 29311 29312; CX 29375 29312 301; CX 301 16964 29187; CX 29439 29312 16206;
  CX 16963 29312 16205; CA 16206 16205 16204; CX 16204 29312 29313; CX 29376 29313 300; CX 300 16965 29188; CX 29440 29313 16203; CX 16964 29313 16202; CA 16203 16202 16201;
  CX 16201 29313 29314; CX 29377 29314 299; CX 299 16966 29189; CX 29441 29314 16200; CX 16965 29314 16199; CA 16200 16199 16198; CX 16198 29314 29315; CX 29378 29315 298;
  CX 298 16967 29190; CX 29442 29315 16197; CX 16966 29315 16196; CA 16197 16196 16195; CX 16195 29315 29316; CX 29379 29316 297; CX 297 16968 29191; CX 29443 29316 16194;
  CX 16967 29316 16193; CA 16194 16193 16192; CX 16192 29316 29317; CX 29380 29317 296; CX 296 16969 29192; CX 29444 29317 16191; CX 16968 29317 16190; CA 16191 16190 16189;
  CX 16189 29317 29318; CX 29381 29318 295; CX 295 16970 29193; CX 29445 29318 16188; CX 16969 29318 16187; CA 16188 16187 16186; CX 16186 29318 29319; CX 29382 29319 294;
  CX 294 16971 29194; CX 29446 29319 16185; CX 16970 29319 16184; CA 16185 16184 16183; CX 16183 29319 29320; CX 29383 29320 293; CX 293 16972 29195; CX 29447 29320 16182;
  CX 16971 29320 16181; CA 16182 16181 16180; CX 16180 29320 29321; CX 29384 29321 292; CX 292 16973 29196; CX 29448 29321 16179; CX 16972 29321 16178; CA 16179 16178 16177;
  CX 16177 29321 29322; CX 29385 29322 291; CX 291 16974 29197; CX 29449 29322 16176; CX 16973 29322 16175; CA 16176 16175 16174; CX 16174 29322 29323; CX 29386 29323 290;
  CX 290 16975 29198; CX 29450 29323 16173; CX 16974 29323 16172; CA 16173 16172 16171; CX 16171 29323 29324; CX 29387 29324 289; CX 289 16976 29199; CX 29451 29324 16170;
  CX 16975 29324 16169; CA 16170 16169 16168; CX 16168 29324 29325; CX 29388 29325 288; CX 288 16977 29200; CX 29452 29325 16167; CX 16976 29325 16166; CA 16167 16166 16165;
  CX 16165 29325 29326; CX 29389 29326 287; CX 287 16978 29201; CX 29453 29326 16164; CX 16977 29326 16163; CA 16164 16163 16162; CX 16162 29326 29327; CX 29390 29327 286;
  CX 286 16979 29202; CX 29454 29327 16161; CX 16978 29327 16160; CA 16161 16160 16159; CX 16159 29327 29328; CX 29391 29328 285; CX 285 16980 29203; CX 29455 29328 16158;
  CX 16979 29328 16157; CA 16158 16157 16156; CX 16156 29328 29329; CX 29392 29329 284; CX 284 16981 29204; CX 29456 29329 16155; CX 16980 29329 16154; CA 16155 16154 16153;
  CX 16153 29329 29330; CX 29393 29330 283; CX 283 16982 29205; CX 29457 29330 16152; CX 16981 29330 16151; CA 16152 16151 16150; CX 16150 29330 29331; CX 29394 29331 282;
  CX 282 16983 29206; CX 29458 29331 16149; CX 16982 29331 16148; CA 16149 16148 16147; CX 16147 29331 29332; CX 29395 29332 281; CX 281 16984 29207; CX 29459 29332 16146;
  CX 16983 29332 16145; CA 16146 16145 16144; CX 16144 29332 29333; CX 29396 29333 280; CX 280 16985 29208; CX 29460 29333 16143; CX 16984 29333 16142; CA 16143 16142 16141;
  CX 16141 29333 29334; CX 29397 29334 279; CX 279 16986 29209; CX 29461 29334 16140; CX 16985 29334 16139; CA 16140 16139 16138; CX 16138 29334 29335; CX 29398 29335 278;
  CX 278 16987 29210; CX 29462 29335 16137; CX 16986 29335 16136; CA 16137 16136 16135; CX 16135 29335 29336; CX 29399 29336 277; CX 277 16988 29211; CX 29463 29336 16134;
  CX 16987 29336 16133; CA 16134 16133 16132; CX 16132 29336 29337; CX 29400 29337 276; CX 276 16989 29212; CX 29464 29337 16131; CX 16988 29337 16130; CA 16131 16130 16129;
  CX 16129 29337 29338; CX 29401 29338 275; CX 275 16990 29213; CX 29465 29338 16128; CX 16989 29338 16127; CA 16128 16127 16126; CX 16126 29338 29339; CX 29402 29339 274;
  CX 274 16991 29214; CX 29466 29339 16125; CX 16990 29339 16124; CA 16125 16124 16123; CX 16123 29339 29340; CX 29403 29340 273; CX 273 16992 29215; CX 29467 29340 16122;
  CX 16991 29340 16121; CA 16122 16121 16120; CX 16120 29340 29341; CX 29404 29341 272; CX 272 16993 29216; CX 29468 29341 16119; CX 16992 29341 16118; CA 16119 16118 16117;
  CX 16117 29341 29342; CX 29405 29342 271; CX 271 16994 29217; CX 29469 29342 16116; CX 16993 29342 16115; CA 16116 16115 16114; CX 16114 29342 29343; CX 29406 29343 270;
  CX 270 16995 29218; CX 29470 29343 16113; CX 16994 29343 16112; CA 16113 16112 16111; CX 16111 29343 29344; CX 29407 29344 269; CX 269 16996 29219; CX 29471 29344 16110;
  CX 16995 29344 16109; CA 16110 16109 16108; CX 16108 29344 29345; CX 29408 29345 268; CX 268 16997 29220; CX 29472 29345 16107; CX 16996 29345 16106; CA 16107 16106 16105;
  CX 16105 29345 29346; CX 29409 29346 267; CX 267 16998 29221; CX 29473 29346 16104; CX 16997 29346 16103; CA 16104 16103 16102; CX 16102 29346 29347; CX 29410 29347 266;
  CX 266 16999 29222; CX 29474 29347 16101; CX 16998 29347 16100; CA 16101 16100 16099; CX 16099 29347 29348; CX 29411 29348 265; CX 265 17000 29223; CX 29475 29348 16098;
  CX 16999 29348 16097; CA 16098 16097 16096; CX 16096 29348 29349; CX 29412 29349 264; CX 264 17001 29224; CX 29476 29349 16095; CX 17000 29349 16094; CA 16095 16094 16093].
(** Lines 2405-2804 of the file. *)
Definition divide64_6 : list cg := [
  CX 16093 29349 29350; CX 29413 29350 263; CX 263 17002 29225; CX 29477 29350 16092; CX 17001 29350 16091; CA 16092 16091 16090; CX 16090 29350 29351; CX 29414 29351 262;
  CX 262 17003 29226; CX 29478 29351 16089; CX 17002 29351 16088; CA 16089 16088 16087; CX 16087 29351 29352; CX 29415 29352 261; CX 261 17004 29227; CX 29479 29352 16086;
  CX 17003 29352 16085; CA 16086 16085 16084; CX 16084 29352 29353; CX 29416 29353 260; CX 260 17005 29228; CX 29480 29353 16083; CX 17004 29353 16082; CA 16083 16082 16081;
  CX 16081 29353 29354; CX 29417 29354 259; CX 259 17006 29229; CX 29481 29354 16080; CX 17005 29354 16079; CA 16080 16079 16078; CX 16078 29354 29355; CX 29418 29355 258;
  CX 258 17007 29230; CX 29482 29355 16077; CX 17006 29355 16076; CA 16077 16076 16075; CX 16075 29355 29356; CX 29419 29356 257; CX 257 17008 29231; CX 29483 29356 16074;
  CX 17007 29356 16073; CA 16074 16073 16072; CX 16072 29356 29357; CX 29420 29357 256; CX 256 17009 29232; CX 29484 29357 16071; CX 17008 29357 16070; CA 16071 16070 16069;
  CX 16069 29357 29358; CX 29421 29358 131; CA 16692 4535 17576; CI 131 16691; CX 16880 16691 29233; CX 318 16691 29234; CX 317 16691 29235; CX 316 16691 29236;
  CX 315 16691 29237; CX 314 16691 29238; CX 313 16691 29239; CX 312 16691 29240; CX 311 16691 29241; CX 310 16691 29242; CX 309 16691 29243; CX 308 16691 29244;
  CX 307 16691 29245; CX 306 16691 29246; CX 305 16691 29247; CX 304 16691 29248; CX 303 16691 29249; CX 302 16691 29250; CX 301 16691 29251; CX 300 16691 29252;
  CX 299 16691 29253; CX 298 16691 29254; CX 297 16691 29255; CX 296 16691 29256; CX 295 16691 29257; CX 294 16691 29258; CX 293 16691 29259; CX 292 16691 29260;
  CX 291 16691 29261; CX 290 16691 29262; CX 289 16691 29263; CX 288 16691 29264; CX 287 16691 29265; CX 286 16691 29266; CX 285 16691 29267; CX 284 16691 29268;
  CX 283 16691 29269; CX 282 16691 29270; CX 281 16691 29271; CX 280 16691 29272; CX 279 16691 29273; CX 278 16691 29274; CX 277 16691 29275; CX 276 16691 29276;
  CX 275 16691 29277; CX 274 16691 29278; CX 273 16691 29279; CX 272 16691 29280; CX 271 16691 29281; CX 270 16691 29282; CX 269 16691 29283; CX 268 16691 29284;
  CX 267 16691 29285; CX 266 16691 29286; CX 265 16691 29287; CX 264 16691 29288; CX 263 16691 29289; CX 262 16691 29290; CX 261 16691 29291; CX 260 16691 29292;
  CX 259 16691 29293; CX 258 16691 29294; CX 257 16691 29295; CA 29233 16946 29107; CX 29170 29107 380; CX 380 16948 28982; CX 29234 29107 16068; CX 16947 29107 16067;
  CA 16068 16067 16066; CX 16066 29107 29108; CX 29171 29108 379; CX 379 16949 28983; CX 29235 29108 16065; CX 16948 29108 16064; CA 16065 16064 16063; CX 16063 29108 29109;
  CX 29172 29109 378; CX 378 16950 28984; CX 29236 29109 16062; CX 16949 29109 16061; CA 16062 16061 16060; CX 16060 29109 29110; CX 29173 29110 377; CX 377 16951 28985;
  CX 29237 29110 16059; CX 16950 29110 16058; CA 16059 16058 16057; CX 16057 29110 29111; CX 29174 29111 376; CX 376 16952 28986; CX 29238 29111 16056; CX 16951 29111 16055;
  CA 16056 16055 16054; CX 16054 29111 29112; CX 29175 29112 375; CX 375 16953 28987; CX 29239 29112 16053; CX 16952 29112 16052; CA 16053 16052 16051; CX 16051 29112 29113;
  CX 29176 29113 374; CX 374 16954 28988; CX 29240 29113 16050; CX 16953 29113 16049; CA 16050 16049 16048; CX 16048 29113 29114; CX 29177 29114 373; CX 373 16955 28989;
  CX 29241 29114 16047; CX 16954 29114 16046; CA 16047 16046 16045; CX 16045 29114 29115; CX 29178 29115 372; CX 372 16956 28990; CX 29242 29115 16044; CX 16955 29115 16043;
  CA 16044 16043 16042; CX 16042 29115 29116; CX 29179 29116 371; CX 371 16957 28991; CX 29243 29116 16041; CX 16956 29116 16040; CA 16041 16040 16039; CX 16039 29116 29117;
  CX 29180 29117 370; CX 370 16958 28992; CX 29244 29117 16038; CX 16957 29117 16037; CA 16038 16037 16036; CX 16036 29117 29118; CX 29181 29118 369; CX 369 16959 28993;
  CX 29245 29118 16035; CX 16958 29118 16034; CA 16035 16034 16033; CX 16033 29118 29119; CX 29182 29119 368; CX 368 16960 28994; CX 29246 29119 16032; CX 16959 29119 16031;
  CA 16032 16031 16030; CX 16030 29119 29120; CX 29183 29120 367; CX 367 16961 28995; CX 29247 29120 16029; CX 16960 29120 16028; CA 16029 16028 16027; CX 16027 29120 29121;
  CX 29184 29121 366; CX 366 16962 28996; CX 29248 29121 16026; CX 16961 29121 16025; CA 16026 16025 16024; CX 16024 29121 29122; CX 29185 29122 365; CX 365 16963 28997;
  CX 29249 29122 16023; CX 16962 29122 16022; CA 16023 16022 16021; CX 16021 29122 29123; CX 29186 29123 364; CX 364 16964 28998; CX 29250 29123 16020; CX 16963 29123 16019;
  CA 16020 16019 16018; CX 16018 29123 29124; CX 29187 29124 363; CX 363 16965 28999; CX 29251 29124 16017; CX 16964 29124 16016; CA 16017 16016 16015; CX 16015 29124 29125;
  CX 29188 29125 362; CX 362 16966 29000; CX 29252 29125 16014; CX 16965 29125 16013; CA 16014 16013 16012; CX 16012 29125 29126; CX 29189 29126 361; CX 361 16967 29001;
  CX 29253 29126 16011; CX 16966 29126 16010; CA 16011 16010 16009; CX 16009 29126 29127; CX 29190 29127 360; CX 360 16968 29002; CX 29254 29127 16008; CX 16967 29127 16007;
  CA 16008 16007 16006; CX 16006 29127 29128; CX 29191 29128 359; CX 359 16969 29003; CX 29255 29128 16005; CX 16968 29128 16004; CA 16005 16004 16003; CX 16003 29128 29129;
  CX 29192 29129 358; CX 358 16970 29004; CX 29256 29129 16002; CX 16969 29129 16001; CA 16002 16001 16000; CX 16000 29129 29130; CX 29193 29130 357; CX 357 16971 29005;
  CX 29257 29130 15999; CX 16970 29130 15998; CA 15999 15998 15997; CX 15997 29130 29131; CX 29194 29131 356; CX 356 16972 29006; CX 29258 29131 15996; CX 16971 29131 15995;
  CA 15996 15995 15994; CX 15994 29131 29132; CX 29195 29132 355; CX 355 16973 29007; CX 29259 29132 15993; CX 16972 29132 15992; CA 15993 15992 15991; CX 15991 29132 29133;
  CX 29196 29133 354; CX 354 16974 29008; CX 29260 29133 15990; CX 16973 29133 15989; CA 15990 15989 15988; CX 15988 29133 29134; CX 29197 29134 353; CX 353 16975 29009;
  CX 29261 29134 15987; CX 16974 29134 15986; CA 15987 15986 15985; CX 15985 29134 29135; CX 29198 29135 352; CX 352 16976 29010; CX 29262 29135 15984; CX 16975 29135 15983;
  CA 15984 15983 15982; CX 15982 29135 29136; CX 29199 29136 351; CX 351 16977 29011; CX 29263 29136 15981; CX 16976 29136 15980; CA 15981 15980 15979; CX 15979 29136 29137;
  CX 29200 29137 350; CX 350 16978 29012; CX 29264 29137 15978; CX 16977 29137 15977; CA 15978 15977 15976; CX 15976 29137 29138; CX 29201 29138 349; CX 349 16979 29013;
  CX 29265 29138 15975; CX 16978 29138 15974; CA 15975 15974 15973; CX 15973 29138 29139; CX 29202 29139 348; CX 348 16980 29014; CX 29266 29139 15972; CX 16979 29139 15971;
  CA 15972 15971 15970; CX 15970 29139 29140; CX 29203 29140 347; CX 347 16981 29015; CX 29267 29140 15969; CX 16980 29140 15968; CA 15969 15968 15967; CX 15967 29140 29141;
  CX 29204 29141 346; CX 346 16982 29016; CX 29268 29141 15966; CX 16981 29141 15965; CA 15966 15965 15964; CX 15964 29141 29142; CX 29205 29142 345; CX 345 16983 29017;
  CX 29269 29142 15963; CX 16982 29142 15962; CA 15963 15962 15961; CX 15961 29142 29143; CX 29206 29143 344; CX 344 16984 29018; CX 29270 29143 15960; CX 16983 29143 15959;
  CA 15960 15959 15958; CX 15958 29143 29144; CX 29207 29144 343; CX 343 16985 29019; CX 29271 29144 15957; CX 16984 29144 15956; CA 15957 15956 15955; CX 15955 29144 29145;
  CX 29208 29145 342; CX 342 16986 29020; CX 29272 29145 15954; CX 16985 29145 15953; CA 15954 15953 15952; CX 15952 29145 29146; CX 29209 29146 341; CX 341 16987 29021;
  CX 29273 29146 15951; CX 16986 29146 15950; CA 15951 15950 15949; CX 15949 29146 29147; CX 29210 29147 340; CX 340 16988 29022; CX 29274 29147 15948; CX 16987 29147 15947;
  CA 15948 15947 15946; CX 15946 29147 29148; CX 29211 29148 339; CX 339 16989 29023; CX 29275 29148 15945; CX 16988 29148 15944; CA 15945 15944 15943; CX 15943 29148 29149;
  CX 29212 29149 338; CX 338 16990 29024; CX 29276 29149 15942; CX 16989 29149 15941; CA 15942 15941 15940; CX 15940 29149 29150; CX 29213 29150 337; CX 337 16991 29025;
  CX 29277 29150 15939; CX 16990 29150 15938; CA 15939 15938 15937; CX 15937 29150 29151; CX 29214 29151 336; CX 336 16992 29026; CX 29278 29151 15936; CX 16991 29151 15935;
  CA 15936 15935 15934; CX 15934 29151 29152; CX 29215 29152 335; CX 335 16993 29027; CX 29279 29152 15933; CX 16992 29152 15932; CA 15933 15932 15931; CX 15931 29152 29153;
  CX 29216 29153 334; CX 334 16994 29028; CX 29280 29153 15930; CX 16993 29153 15929; CA 15930 15929 15928; CX 15928 29153 29154; CX 29217 29154 333; CX 333 16995 29029].
(** Lines 2805-3204 of the file. *)
Definition divide64_7 : list cg := [
  CX 29281 29154 15927; CX 16994 29154 15926; CA 15927 15926 15925; CX 15925 29154 29155; CX 29218 29155 332; CX 332 16996 29030; CX 29282 29155 15924; CX 16995 29155 15923;
  CA 15924 15923 15922; CX 15922 29155 29156; CX 29219 29156 331; CX 331 16997 29031; CX 29283 29156 15921; CX 16996 29156 15920; CA 15921 15920 15919; CX 15919 29156 29157;
  CX 29220 29157 330; CX 330 16998 29032; CX 29284 29157 15918; CX 16997 29157 15917; CA 15918 15917 15916; CX 15916 29157 29158; CX 29221 29158 329; CX 329 16999 29033;
  CX 29285 29158 15915; CX 16998 29158 15914; CA 15915 15914 15913; CX 15913 29158 29159; CX 29222 29159 328; CX 328 17000 29034; CX 29286 29159 15912; CX 16999 29159 15911;
  CA 15912 15911 15910; CX 15910 29159 29160; CX 29223 29160 327; CX 327 17001 29035; CX 29287 29160 15909; CX 17000 29160 15908; CA 15909 15908 15907; CX 15907 29160 29161;
  CX 29224 29161 326; CX 326 17002 29036; CX 29288 29161 15906; CX 17001 29161 15905; CA 15906 15905 15904; CX 15904 29161 29162; CX 29225 29162 325; CX 325 17003 29037;
  CX 29289 29162 15903; CX 17002 29162 15902; CA 15903 15902 15901; CX 15901 29162 29163; CX 29226 29163 324; CX 324 17004 29038; CX 29290 29163 15900; CX 17003 29163 15899;
  CA 15900 15899 15898; CX 15898 29163 29164; CX 29227 29164 323; CX 323 17005 29039; CX 29291 29164 15897; CX 17004 29164 15896; CA 15897 15896 15895; CX 15895 29164 29165;
  CX 29228 29165 322; CX 322 17006 29040; CX 29292 29165 15894; CX 17005 29165 15893; CA 15894 15893 15892; CX 15892 29165 29166; CX 29229 29166 321; CX 321 17007 29041;
  CX 29293 29166 15891; CX 17006 29166 15890; CA 15891 15890 15889; CX 15889 29166 29167; CX 29230 29167 320; CX 320 17008 29042; CX 29294 29167 15888; CX 17007 29167 15887;
  CA 15888 15887 15886; CX 15886 29167 29168; CX 29231 29168 319; CX 319 17009 29043; CX 29295 29168 15885; CX 17008 29168 15884; CA 15885 15884 15883; CX 15883 29168 29169;
  CX 29232 29169 132; CI 132 16690; CX 16879 16690 29044; CX 381 16690 29045; CX 380 16690 29046; CX 379 16690 29047; CX 378 16690 29048; CX 377 16690 29049;
  CX 376 16690 29050; CX 375 16690 29051; CX 374 16690 29052; CX 373 16690 29053; CX 372 16690 29054; CX 371 16690 29055; CX 370 16690 29056; CX 369 16690 29057;
  CX 368 16690 29058; CX 367 16690 29059; CX 366 16690 29060; CX 365 16690 29061; CX 364 16690 29062; CX 363 16690 29063; CX 362 16690 29064; CX 361 16690 29065;
  CX 360 16690 29066; CX 359 16690 29067; CX 358 16690 29068; CX 357 16690 29069; CX 356 16690 29070; CX 355 16690 29071; CX 354 16690 29072; CX 353 16690 29073;
  CX 352 16690 29074; CX 351 16690 29075; CX 350 16690 29076; CX 349 16690 29077; CX 348 16690 29078; CX 347 16690 29079; CX 346 16690 29080; CX 345 16690 29081;
  CX 344 16690 29082; CX 343 16690 29083; CX 342 16690 29084; CX 341 16690 29085; CX 340 16690 29086; CX 339 16690 29087; CX 338 16690 29088; CX 337 16690 29089;
  CX 336 16690 29090; CX 335 16690 29091; CX 334 16690 29092; CX 333 16690 29093; CX 332 16690 29094; CX 331 16690 29095; CX 330 16690 29096; CX 329 16690 29097;
  CX 328 16690 29098; CX 327 16690 29099; CX 326 16690 29100; CX 325 16690 29101; CX 324 16690 29102; CX 323 16690 29103; CX 322 16690 29104; CX 321 16690 29105;
  CX 320 16690 29106; CA 29044 16946 28918; CX 28981 28918 443; CX 443 16948 28793; CX 29045 28918 15882; CX 16947 28918 15881; CA 15882 15881 15880; CX 15880 28918 28919;
  CX 28982 28919 442; CX 442 16949 28794; CX 29046 28919 15879; CX 16948 28919 15878; CA 15879 15878 15877; CX 15877 28919 28920; CX 28983 28920 441; CX 441 16950 28795;
  CX 29047 28920 15876; CX 16949 28920 15875; CA 15876 15875 15874; CX 15874 28920 28921; CX 28984 28921 440; CX 440 16951 28796; CX 29048 28921 15873; CX 16950 28921 15872;
  CA 15873 15872 15871; CX 15871 28921 28922; CX 28985 28922 439; CX 439 16952 28797; CX 29049 28922 15870; CX 16951 28922 15869; CA 15870 15869 15868; CX 15868 28922 28923;
  CX 28986 28923 438; CX 438 16953 28798; CX 29050 28923 15867; CX 16952 28923 15866; CA 15867 15866 15865; CX 15865 28923 28924; CX 28987 28924 437; CX 437 16954 28799;
  CX 29051 28924 15864; CX 16953 28924 15863; CA 15864 15863 15862; CX 15862 28924 28925; CX 28988 28925 436; CX 436 16955 28800; CX 29052 28925 15861; CX 16954 28925 15860;
  CA 15861 15860 15859; CX 15859 28925 28926; CX 28989 28926 435; CX 435 16956 28801; CX 29053 28926 15858; CX 16955 28926 15857; CA 15858 15857 15856; CX 15856 28926 28927;
  CX 28990 28927 434; CX 434 16957 28802; CX 29054 28927 15855; CX 16956 28927 15854; CA 15855 15854 15853; CX 15853 28927 28928; CX 28991 28928 433; CX 433 16958 28803;
  CX 29055 28928 15852; CX 16957 28928 15851; CA 15852 15851 15850; CX 15850 28928 28929; CX 28992 28929 432; CX 432 16959 28804; CX 29056 28929 15849; CX 16958 28929 15848;
  CA 15849 15848 15847; CX 15847 28929 28930; CX 28993 28930 431; CX 431 16960 28805; CX 29057 28930 15846; CX 16959 28930 15845; CA 15846 15845 15844; CX 15844 28930 28931;
  CX 28994 28931 430; CX 430 16961 28806; CX 29058 28931 15843; CX 16960 28931 15842; CA 15843 15842 15841; CX 15841 28931 28932; CX 28995 28932 429; CX 429 16962 28807;
  CX 29059 28932 15840; CX 16961 28932 15839; CA 15840 15839 15838; CX 15838 28932 28933; CX 28996 28933 428; CX 428 16963 28808; CX 29060 28933 15837; CX 16962 28933 15836;
  CA 15837 15836 15835; CX 15835 28933 28934; CX 28997 28934 427; CX 427 16964 28809; CX 29061 28934 15834; CX 16963 28934 15833; CA 15834 15833 15832; CX 15832 28934 28935;
  CX 28998 28935 426; CX 426 16965 28810; CX 29062 28935 15831; CX 16964 28935 15830; CA 15831 15830 15829; CX 15829 28935 28936; CX 28999 28936 425; CX 425 16966 28811;
  CX 29063 28936 15828; CX 16965 28936 15827; CA 15828 15827 15826; CX 15826 28936 28937; CX 29000 28937 424; CX 424 16967 28812; CX 29064 28937 15825; CX 16966 28937 15824;
  CA 15825 15824 15823; CX 15823 28937 28938; CX 29001 28938 423; CX 423 16968 28813; CX 29065 28938 15822; CX 16967 28938 15821; CA 15822 15821 15820; CX 15820 28938 28939;
  CX 29002 28939 422; CX 422 16969 28814; CX 29066 28939 15819; CX 16968 28939 15818; CA 15819 15818 15817; CX 15817 28939 28940; CX 29003 28940 421; CX 421 16970 28815;
  CX 29067 28940 15816; CX 16969 28940 15815; CA 15816 15815 15814; CX 15814 28940 28941; CX 29004 28941 420; CX 420 16971 28816; CX 29068 28941 15813; CX 16970 28941 15812;
  CA 15813 15812 15811; CX 15811 28941 28942; CX 29005 28942 419; CX 419 16972 28817; CX 29069 28942 15810; CX 16971 28942 15809; CA 15810 15809 15808; CX 15808 28942 28943;
  CX 29006 28943 418; CX 418 16973 28818; CX 29070 28943 15807; CX 16972 28943 15806; CA 15807 15806 15805; CX 15805 28943 28944; CX 29007 28944 417; CX 417 16974 28819;
  CX 29071 28944 15804; CX 16973 28944 15803; CA 15804 15803 15802; CX 15802 28944 28945; CX 29008 28945 416; CX 416 16975 28820; CX 29072 28945 15801; CX 16974 28945 15800;
  CA 15801 15800 15799; CX 15799 28945 28946; CX 29009 28946 415; CX 415 16976 28821; CX 29073 28946 15798; CX 16975 28946 15797; CA 15798 15797 15796; CX 15796 28946 28947;
  CX 29010 28947 414; CX 414 16977 28822; CX 29074 28947 15795; CX 16976 28947 15794; CA 15795 15794 15793; CX 15793 28947 28948; CX 29011 28948 413; CX 413 16978 28823;
  CX 29075 28948 15792; CX 16977 28948 15791; CA 15792 15791 15790; CX 15790 28948 28949; CX 29012 28949 412; CX 412 16979 28824; CX 29076 28949 15789; CX 16978 28949 15788;
  CA 15789 15788 15787; CX 15787 28949 28950; CX 29013 28950 411; CX 411 16980 28825; CX 29077 28950 15786; CX 16979 28950 15785; CA 15786 15785 15784; CX 15784 28950 28951;
  CX 29014 28951 410; CX 410 16981 28826; CX 29078 28951 15783; CX 16980 28951 15782; CA 15783 15782 15781; CX 15781 28951 28952; CX 29015 28952 409; CX 409 16982 28827;
  CX 29079 28952 15780; CX 16981 28952 15779; CA 15780 15779 15778; CX 15778 28952 28953; CX 29016 28953 408; CX 408 16983 28828; CX 29080 28953 15777; CX 16982 28953 15776;
  CA 15777 15776 15775; CX 15775 28953 28954; CX 29017 28954 407; CX 407 16984 28829; CX 29081 28954 15774; CX 16983 28954 15773; CA 15774 15773 15772; CX 15772 28954 28955;
  CX 29018 28955 406; CX 406 16985 28830; CX 29082 28955 15771; CX 16984 28955 15770; CA 15771 15770 15769; CX 15769 28955 28956; CX 29019 28956 405; CX 405 16986 28831;
  CX 29083 28956 15768; CX 16985 28956 15767; CA 15768 15767 15766; CX 15766 28956 28957; CX 29020 28957 404; CX 404 16987 28832; CX 29084 28957 15765; CX 16986 28957 15764;
  CA 15765 15764 15763; CX 15763 28957 28958; CX 29021 28958 403; CX 403 16988 28833; CX 29085 28958 15762; CX 16987 28958 15761; CA 15762 15761 15760; CX 15760 28958 28959].
(** Lines 3205-3604 of the file. *)
Definition divide64_8 : list cg := [
  CX 29022 28959 402; CX 402 16989 28834; CX 29086 28959 15759; CX 16988 28959 15758; CA 15759 15758 15757; CX 15757 28959 28960; CX 29023 28960 401; CX 401 16990 28835;
  CX 29087 28960 15756; CX 16989 28960 15755; CA 15756 15755 15754; CX 15754 28960 28961; CX 29024 28961 400; CX 400 16991 28836; CX 29088 28961 15753; CX 16990 28961 15752;
  CA 15753 15752 15751; CX 15751 28961 28962; CX 29025 28962 399; CX 399 16992 28837; CX 29089 28962 15750; CX 16991 28962 15749; CA 15750 15749 15748; CX 15748 28962 28963;
  CX 29026 28963 398; CX 398 16993 28838; CX 29090 28963 15747; CX 16992 28963 15746; CA 15747 15746 15745; CX 15745 28963 28964; CX 29027 28964 397; CX 397 16994 28839;
  CX 29091 28964 15744; CX 16993 28964 15743; CA 15744 15743 15742; CX 15742 28964 28965; CX 29028 28965 396; CX 396 16995 28840; CX 29092 28965 15741; CX 16994 28965 15740;
  CA 15741 15740 15739; CX 15739 28965 28966; CX 29029 28966 395; CX 395 16996 28841; CX 29093 28966 15738; CX 16995 28966 15737; CA 15738 15737 15736; CX 15736 28966 28967;
  CX 29030 28967 394; CX 394 16997 28842; CX 29094 28967 15735; CX 16996 28967 15734; CA 15735 15734 15733; CX 15733 28967 28968; CX 29031 28968 393; CX 393 16998 28843;
  CX 29095 28968 15732; CX 16997 28968 15731; CA 15732 15731 15730; CX 15730 28968 28969; CX 29032 28969 392; CX 392 16999 28844; CX 29096 28969 15729; CX 16998 28969 15728;
  CA 15729 15728 15727; CX 15727 28969 28970; CX 29033 28970 391; CX 391 17000 28845; CX 29097 28970 15726; CX 16999 28970 15725; CA 15726 15725 15724; CX 15724 28970 28971;
  CX 29034 28971 390; CX 390 17001 28846; CX 29098 28971 15723; CX 17000 28971 15722; CA 15723 15722 15721; CX 15721 28971 28972; CX 29035 28972 389; CX 389 17002 28847;
  CX 29099 28972 15720; CX 17001 28972 15719; CA 15720 15719 15718; CX 15718 28972 28973; CX 29036 28973 388; CX 388 17003 28848; CX 29100 28973 15717; CX 17002 28973 15716;
  CA 15717 15716 15715; CX 15715 28973 28974; CX 29037 28974 387; CX 387 17004 28849; CX 29101 28974 15714; CX 17003 28974 15713; CA 15714 15713 15712; CX 15712 28974 28975;
  CX 29038 28975 386; CX 386 17005 28850; CX 29102 28975 15711; CX 17004 28975 15710; CA 15711 15710 15709; CX 15709 28975 28976; CX 29039 28976 385; CX 385 17006 28851;
  CX 29103 28976 15708; CX 17005 28976 15707; CA 15708 15707 15706; CX 15706 28976 28977; CX 29040 28977 384; CX 384 17007 28852; CX 29104 28977 15705; CX 17006 28977 15704;
  CA 15705 15704 15703; CX 15703 28977 28978; CX 29041 28978 383; CX 383 17008 28853; CX 29105 28978 15702; CX 17007 28978 15701; CA 15702 15701 15700; CX 15700 28978 28979;
  CX 29042 28979 382; CX 382 17009 28854; CX 29106 28979 15699; CX 17008 28979 15698; CA 15699 15698 15697; CX 15697 28979 28980; CX 29043 28980 133; CA 16690 4535 17574;
  CI 133 16689; CX 16878 16689 28855; CX 444 16689 28856; CX 443 16689 28857; CX 442 16689 28858; CX 441 16689 28859; CX 440 16689 28860; CX 439 16689 28861;
  CX 438 16689 28862; CX 437 16689 28863; CX 436 16689 28864; CX 435 16689 28865; CX 434 16689 28866; CX 433 16689 28867; CX 432 16689 28868; CX 431 16689 28869;
  CX 430 16689 28870; CX 429 16689 28871; CX 428 16689 28872; CX 427 16689 28873; CX 426 16689 28874; CX 425 16689 28875; CX 424 16689 28876; CX 423 16689 28877;
  CX 422 16689 28878; CX 421 16689 28879; CX 420 16689 28880; CX 419 16689 28881; CX 418 16689 28882; CX 417 16689 28883; CX 416 16689 28884; CX 415 16689 28885;
  CX 414 16689 28886; CX 413 16689 28887; CX 412 16689 28888; CX 411 16689 28889; CX 410 16689 28890; CX 409 16689 28891; CX 408 16689 28892; CX 407 16689 28893;
  CX 406 16689 28894; CX 405 16689 28895; CX 404 16689 28896; CX 403 16689 28897; CX 402 16689 28898; CX 401 16689 28899; CX 400 16689 28900; CX 399 16689 28901;
  CX 398 16689 28902; CX 397 16689 28903; CX 396 16689 28904; CX 395 16689 28905; CX 394 16689 28906; CX 393 16689 28907; CX 392 16689 28908; CX 391 16689 28909;
  CX 390 16689 28910; CX 389 16689 28911; CX 388 16689 28912; CX 387 16689 28913; CX 386 16689 28914; CX 385 16689 28915; CX 384 16689 28916; CX 383 16689 28917;
  CA 28855 16946 28729; CX 28792 28729 506; CX 506 16948 28604; CX 28856 28729 15696; CX 16947 28729 15695; CA 15696 15695 15694; CX 15694 28729 28730; CX 28793 28730 505;
  CX 505 16949 28605; CX 28857 28730 15693; CX 16948 28730 15692; CA 15693 15692 15691; CX 15691 28730 28731; CX 28794 28731 504; CX 504 16950 28606; CX 28858 28731 15690;
  CX 16949 28731 15689; CA 15690 15689 15688; CX 15688 28731 28732; CX 28795 28732 503; CX 503 16951 28607; CX 28859 28732 15687; CX 16950 28732 15686; CA 15687 15686 15685;
  CX 15685 28732 28733; CX 28796 28733 502; CX 502 16952 28608; CX 28860 28733 15684; CX 16951 28733 15683; CA 15684 15683 15682; CX 15682 28733 28734; CX 28797 28734 501;
  CX 501 16953 28609; CX 28861 28734 15681; CX 16952 28734 15680; CA 15681 15680 15679; CX 15679 28734 28735; CX 28798 28735 500; CX 500 16954 28610; CX 28862 28735 15678;
  CX 16953 28735 15677; CA 15678 15677 15676; CX 15676 28735 28736; CX 28799 28736 499; CX 499 16955 28611; CX 28863 28736 15675; CX 16954 28736 15674; CA 15675 15674 15673;
  CX 15673 28736 28737; CX 28800 28737 498; CX 498 16956 28612; CX 28864 28737 15672; CX 16955 28737 15671; CA 15672 15671 15670; CX 15670 28737 28738; CX 28801 28738 497;
  CX 497 16957 28613; CX 28865 28738 15669; CX 16956 28738 15668; CA 15669 15668 15667; CX 15667 28738 28739; CX 28802 28739 496; CX 496 16958 28614; CX 28866 28739 15666;
  CX 16957 28739 15665; CA 15666 15665 15664; CX 15664 28739 28740; CX 28803 28740 495; CX 495 16959 28615; CX 28867 28740 15663; CX 16958 28740 15662; CA 15663 15662 15661;
  CX 15661 28740 28741; CX 28804 28741 494; CX 494 16960 28616; CX 28868 28741 15660; CX 16959 28741 15659; CA 15660 15659 15658; CX 15658 28741 28742; CX 28805 28742 493;
  CX 493 16961 28617; CX 28869 28742 15657; CX 16960 28742 15656; CA 15657 15656 15655; CX 15655 28742 28743; CX 28806 28743 492; CX 492 16962 28618; CX 28870 28743 15654;
  CX 16961 28743 15653; CA 15654 15653 15652; CX 15652 28743 28744; CX 28807 28744 491; CX 491 16963 28619; CX 28871 28744 15651; CX 16962 28744 15650; CA 15651 15650 15649;
  CX 15649 28744 28745; CX 28808 28745 490; CX 490 16964 28620; CX 28872 28745 15648; CX 16963 28745 15647; CA 15648 15647 15646; CX 15646 28745 28746; CX 28809 28746 489;
  CX 489 16965 28621; CX 28873 28746 15645; CX 16964 28746 15644; CA 15645 15644 15643; CX 15643 28746 28747; CX 28810 28747 488; CX 488 16966 28622; CX 28874 28747 15642;
  CX 16965 28747 15641; CA 15642 15641 15640; CX 15640 28747 28748; CX 28811 28748 487; CX 487 16967 28623; CX 28875 28748 15639; CX 16966 28748 15638; CA 15639 15638 15637;
  CX 15637 28748 28749; CX 28812 28749 486; CX 486 16968 28624; CX 28876 28749 15636; CX 16967 28749 15635; CA 15636 15635 15634; CX 15634 28749 28750; CX 28813 28750 485;
  CX 485 16969 28625; CX 28877 28750 15633; CX 16968 28750 15632; CA 15633 15632 15631; CX 15631 28750 28751; CX 28814 28751 484; CX 484 16970 28626; CX 28878 28751 15630;
  CX 16969 28751 15629; CA 15630 15629 15628; CX 15628 28751 28752; CX 28815 28752 483; CX 483 16971 28627; CX 28879 28752 15627; CX 16970 28752 15626; CA 15627 15626 15625;
  CX 15625 28752 28753; CX 28816 28753 482; CX 482 16972 28628; CX 28880 28753 15624; CX 16971 28753 15623; CA 15624 15623 15622; CX 15622 28753 28754; CX 28817 28754 481;
  CX 481 16973 28629; CX 28881 28754 15621; CX 16972 28754 15620; CA 15621 15620 15619; CX 15619 28754 28755; CX 28818 28755 480; CX 480 16974 28630; CX 28882 28755 15618;
  CX 16973 28755 15617; CA 15618 15617 15616; CX 15616 28755 28756; CX 28819 28756 479; CX 479 16975 28631; CX 28883 28756 15615; CX 16974 28756 15614; CA 15615 15614 15613;
  CX 15613 28756 28757; CX 28820 28757 478; CX 478 16976 28632; CX 28884 28757 15612; CX 16975 28757 15611; CA 15612 15611 15610; CX 15610 28757 28758; CX 28821 28758 477;
  CX 477 16977 28633; CX 28885 28758 15609; CX 16976 28758 15608; CA 15609 15608 15607; CX 15607 28758 28759; CX 28822 28759 476; CX 476 16978 28634; CX 28886 28759 15606;
  CX 16977 28759 15605; CA 15606 15605 15604; CX 15604 28759 28760; CX 28823 28760 475; CX 475 16979 28635; CX 28887 28760 15603; CX 16978 28760 15602; CA 15603 15602 15601;
  CX 15601 28760 28761; CX 28824 28761 474; CX 474 16980 28636; CX 28888 28761 15600; CX 16979 28761 15599; CA 15600 15599 15598; CX 15598 28761 28762; CX 28825 28762 473;
  CX 473 16981 28637; CX 28889 28762 15597; CX 16980 28762 15596; CA 15597 15596 15595; CX 15595 28762 28763; CX 28826 28763 472; CX 472 16982 28638; CX 28890 28763 15594].
(** Lines 3605-4004 of the file. *)
Definition divide64_9 : list cg := [
  CX 16981 28763 15593; CA 15594 15593 15592; CX 15592 28763 28764; CX 28827 28764 471; CX 471 16983 28639; CX 28891 28764 15591; CX 16982 28764 15590; CA 15591 15590 15589;
  CX 15589 28764 28765; CX 28828 28765 470; CX 470 16984 28640; CX 28892 28765 15588; CX 16983 28765 15587; CA 15588 15587 15586; CX 15586 28765 28766; CX 28829 28766 469;
  CX 469 16985 28641; CX 28893 28766 15585; CX 16984 28766 15584; CA 15585 15584 15583; CX 15583 28766 28767; CX 28830 28767 468; CX 468 16986 28642; CX 28894 28767 15582;
  CX 16985 28767 15581; CA 15582 15581 15580; CX 15580 28767 28768; CX 28831 28768 467; CX 467 16987 28643; CX 28895 28768 15579; CX 16986 28768 15578; CA 15579 15578 15577;
  CX 15577 28768 28769; CX 28832 28769 466; CX 466 16988 28644; CX 28896 28769 15576; CX 16987 28769 15575; CA 15576 15575 15574; CX 15574 28769 28770; CX 28833 28770 465;
  CX 465 16989 28645; CX 28897 28770 15573; CX 16988 28770 15572; CA 15573 15572 15571; CX 15571 28770 28771; CX 28834 28771 464; CX 464 16990 28646; CX 28898 28771 15570;
  CX 16989 28771 15569; CA 15570 15569 15568; CX 15568 28771 28772; CX 28835 28772 463; CX 463 16991 28647; CX 28899 28772 15567; CX 16990 28772 15566; CA 15567 15566 15565;
  CX 15565 28772 28773; CX 28836 28773 462; CX 462 16992 28648; CX 28900 28773 15564; CX 16991 28773 15563; CA 15564 15563 15562; CX 15562 28773 28774; CX 28837 28774 461;
  CX 461 16993 28649; CX 28901 28774 15561; CX 16992 28774 15560; CA 15561 15560 15559; CX 15559 28774 28775; CX 28838 28775 460; CX 460 16994 28650; CX 28902 28775 15558;
  CX 16993 28775 15557; CA 15558 15557 15556; CX 15556 28775 28776; CX 28839 28776 459; CX 459 16995 28651; CX 28903 28776 15555; CX 16994 28776 15554; CA 15555 15554 15553;
  CX 15553 28776 28777; CX 28840 28777 458; CX 458 16996 28652; CX 28904 28777 15552; CX 16995 28777 15551; CA 15552 15551 15550; CX 15550 28777 28778; CX 28841 28778 457;
  CX 457 16997 28653; CX 28905 28778 15549; CX 16996 28778 15548; CA 15549 15548 15547; CX 15547 28778 28779; CX 28842 28779 456; CX 456 16998 28654; CX 28906 28779 15546;
  CX 16997 28779 15545; CA 15546 15545 15544; CX 15544 28779 28780; CX 28843 28780 455; CX 455 16999 28655; CX 28907 28780 15543; CX 16998 28780 15542; CA 15543 15542 15541;
  CX 15541 28780 28781; CX 28844 28781 454; CX 454 17000 28656; CX 28908 28781 15540; CX 16999 28781 15539; CA 15540 15539 15538; CX 15538 28781 28782; CX 28845 28782 453;
  CX 453 17001 28657; CX 28909 28782 15537; CX 17000 28782 15536; CA 15537 15536 15535; CX 15535 28782 28783; CX 28846 28783 452; CX 452 17002 28658; CX 28910 28783 15534;
  CX 17001 28783 15533; CA 15534 15533 15532; CX 15532 28783 28784; CX 28847 28784 451; CX 451 17003 28659; CX 28911 28784 15531; CX 17002 28784 15530; CA 15531 15530 15529;
  CX 15529 28784 28785; CX 28848 28785 450; CX 450 17004 28660; CX 28912 28785 15528; CX 17003 28785 15527; CA 15528 15527 15526; CX 15526 28785 28786; CX 28849 28786 449;
  CX 449 17005 28661; CX 28913 28786 15525; CX 17004 28786 15524; CA 15525 15524 15523; CX 15523 28786 28787; CX 28850 28787 448; CX 448 17006 28662; CX 28914 28787 15522;
  CX 17005 28787 15521; CA 15522 15521 15520; CX 15520 28787 28788; CX 28851 28788 447; CX 447 17007 28663; CX 28915 28788 15519; CX 17006 28788 15518; CA 15519 15518 15517;
  CX 15517 28788 28789; CX 28852 28789 446; CX 446 17008 28664; CX 28916 28789 15516; CX 17007 28789 15515; CA 15516 15515 15514; CX 15514 28789 28790; CX 28853 28790 445;
  CX 445 17009 28665; CX 28917 28790 15513; CX 17008 28790 15512; CA 15513 15512 15511; CX 15511 28790 28791; CX 28854 28791 134; CI 134 16688; CX 16877 16688 28666;
  CX 507 16688 28667; CX 506 16688 28668; CX 505 16688 28669; CX 504 16688 28670; CX 503 16688 28671; CX 502 16688 28672; CX 501 16688 28673; CX 500 16688 28674;
  CX 499 16688 28675; CX 498 16688 28676; CX 497 16688 28677; CX 496 16688 28678; CX 495 16688 28679; CX 494 16688 28680; CX 493 16688 28681; CX 492 16688 28682;
  CX 491 16688 28683; CX 490 16688 28684; CX 489 16688 28685; CX 488 16688 28686; CX 487 16688 28687; CX 486 16688 28688; CX 485 16688 28689; CX 484 16688 28690;
  CX 483 16688 28691; CX 482 16688 28692; CX 481 16688 28693; CX 480 16688 28694; CX 479 16688 28695; CX 478 16688 28696; CX 477 16688 28697; CX 476 16688 28698;
  CX 475 16688 28699; CX 474 16688 28700; CX 473 16688 28701; CX 472 16688 28702; CX 471 16688 28703; CX 470 16688 28704; CX 469 16688 28705; CX 468 16688 28706;
  CX 467 16688 28707; CX 466 16688 28708; CX 465 16688 28709; CX 464 16688 28710; CX 463 16688 28711; CX 462 16688 28712; CX 461 16688 28713; CX 460 16688 28714;
  CX 459 16688 28715; CX 458 16688 28716; CX 457 16688 28717; CX 456 16688 28718; CX 455 16688 28719; CX 454 16688 28720; CX 453 16688 28721; CX 452 16688 28722;
  CX 451 16688 28723; CX 450 16688 28724; CX 449 16688 28725; CX 448 16688 28726; CX 447 16688 28727; CX 446 16688 28728; CA 28666 16946 28540; CX 28603 28540 569;
  CX 569 16948 28415; CX 28667 28540 15510; CX 16947 28540 15509; CA 15510 15509 15508; CX 15508 28540 28541; CX 28604 28541 568; CX 568 16949 28416; CX 28668 28541 15507;
  CX 16948 28541 15506; CA 15507 15506 15505; CX 15505 28541 28542; CX 28605 28542 567; CX 567 16950 28417; CX 28669 28542 15504; CX 16949 28542 15503; CA 15504 15503 15502;
  CX 15502 28542 28543; CX 28606 28543 566; CX 566 16951 28418; CX 28670 28543 15501; CX 16950 28543 15500; CA 15501 15500 15499; CX 15499 28543 28544; CX 28607 28544 565;
  CX 565 16952 28419; CX 28671 28544 15498; CX 16951 28544 15497; CA 15498 15497 15496; CX 15496 28544 28545; CX 28608 28545 564; CX 564 16953 28420; CX 28672 28545 15495;
  CX 16952 28545 15494; CA 15495 15494 15493; CX 15493 28545 28546; CX 28609 28546 563; CX 563 16954 28421; CX 28673 28546 15492; CX 16953 28546 15491; CA 15492 15491 15490;
  CX 15490 28546 28547; CX 28610 28547 562; CX 562 16955 28422; CX 28674 28547 15489; CX 16954 28547 15488; CA 15489 15488 15487; CX 15487 28547 28548; CX 28611 28548 561;
  CX 561 16956 28423; CX 28675 28548 15486; CX 16955 28548 15485; CA 15486 15485 15484; CX 15484 28548 28549; CX 28612 28549 560; CX 560 16957 28424; CX 28676 28549 15483;
  CX 16956 28549 15482; CA 15483 15482 15481; CX 15481 28549 28550; CX 28613 28550 559; CX 559 16958 28425; CX 28677 28550 15480; CX 16957 28550 15479; CA 15480 15479 15478;
  CX 15478 28550 28551; CX 28614 28551 558; CX 558 16959 28426; CX 28678 28551 15477; CX 16958 28551 15476; CA 15477 15476 15475; CX 15475 28551 28552; CX 28615 28552 557;
  CX 557 16960 28427; CX 28679 28552 15474; CX 16959 28552 15473; CA 15474 15473 15472; CX 15472 28552 28553; CX 28616 28553 556; CX 556 16961 28428; CX 28680 28553 15471;
  CX 16960 28553 15470; CA 15471 15470 15469; CX 15469 28553 28554; CX 28617 28554 555; CX 555 16962 28429; CX 28681 28554 15468; CX 16961 28554 15467; CA 15468 15467 15466;
  CX 15466 28554 28555; CX 28618 28555 554; CX 554 16963 28430; CX 28682 28555 15465; CX 16962 28555 15464; CA 15465 15464 15463; CX 15463 28555 28556; CX 28619 28556 553;
  CX 553 16964 28431; CX 28683 28556 15462; CX 16963 28556 15461; CA 15462 15461 15460; CX 15460 28556 28557; CX 28620 28557 552; CX 552 16965 28432; CX 28684 28557 15459;
  CX 16964 28557 15458; CA 15459 15458 15457; CX 15457 28557 28558; CX 28621 28558 551; CX 551 16966 28433; CX 28685 28558 15456; CX 16965 28558 15455; CA 15456 15455 15454;
  CX 15454 28558 28559; CX 28622 28559 550; CX 550 16967 28434; CX 28686 28559 15453; CX 16966 28559 15452; CA 15453 15452 15451; CX 15451 28559 28560; CX 28623 28560 549;
  CX 549 16968 28435; CX 28687 28560 15450; CX 16967 28560 15449; CA 15450 15449 15448; CX 15448 28560 28561; CX 28624 28561 548; CX 548 16969 28436; CX 28688 28561 15447;
  CX 16968 28561 15446; CA 15447 15446 15445; CX 15445 28561 28562; CX 28625 28562 547; CX 547 16970 28437; CX 28689 28562 15444; CX 16969 28562 15443; CA 15444 15443 15442;
  CX 15442 28562 28563; CX 28626 28563 546; CX 546 16971 28438; CX 28690 28563 15441; CX 16970 28563 15440; CA 15441 15440 15439; CX 15439 28563 28564; CX 28627 28564 545;
  CX 545 16972 28439; CX 28691 28564 15438; CX 16971 28564 15437; CA 15438 15437 15436; CX 15436 28564 28565; CX 28628 28565 544; CX 544 16973 28440; CX 28692 28565 15435;
  CX 16972 28565 15434; CA 15435 15434 15433; CX 15433 28565 28566; CX 28629 28566 543; CX 543 16974 28441; CX 28693 28566 15432; CX 16973 28566 15431; CA 15432 15431 15430;
  CX 15430 28566 28567; CX 28630 28567 542; CX 542 16975 28442; CX 28694 28567 15429; CX 16974 28567 15428; CA 15429 15428 15427; CX 15427 28567 28568; CX 28631 28568 541].
(** Lines 4005-4404 of the file. *)
Definition divide64_10 : list cg := [
  CX 541 16976 28443; CX 28695 28568 15426; CX 16975 28568 15425; CA 15426 15425 15424; CX 15424 28568 28569; CX 28632 28569 540; CX 540 16977 28444; CX 28696 28569 15423;
  CX 16976 28569 15422; CA 15423 15422 15421; CX 15421 28569 28570; CX 28633 28570 539; CX 539 16978 28445; CX 28697 28570 15420; CX 16977 28570 15419; CA 15420 15419 15418;
  CX 15418 28570 28571; CX 28634 28571 538; CX 538 16979 28446; CX 28698 28571 15417; CX 16978 28571 15416; CA 15417 15416 15415; CX 15415 28571 28572; CX 28635 28572 537;
  CX 537 16980 28447; CX 28699 28572 15414; CX 16979 28572 15413; CA 15414 15413 15412; CX 15412 28572 28573; CX 28636 28573 536; CX 536 16981 28448; CX 28700 28573 15411;
  CX 16980 28573 15410; CA 15411 15410 15409; CX 15409 28573 28574; CX 28637 28574 535; CX 535 16982 28449; CX 28701 28574 15408; CX 16981 28574 15407; CA 15408 15407 15406;
  CX 15406 28574 28575; CX 28638 28575 534; CX 534 16983 28450; CX 28702 28575 15405; CX 16982 28575 15404; CA 15405 15404 15403; CX 15403 28575 28576; CX 28639 28576 533;
  CX 533 16984 28451; CX 28703 28576 15402; CX 16983 28576 15401; CA 15402 15401 15400; CX 15400 28576 28577; CX 28640 28577 532; CX 532 16985 28452; CX 28704 28577 15399;
  CX 16984 28577 15398; CA 15399 15398 15397; CX 15397 28577 28578; CX 28641 28578 531; CX 531 16986 28453; CX 28705 28578 15396; CX 16985 28578 15395; CA 15396 15395 15394;
  CX 15394 28578 28579; CX 28642 28579 530; CX 530 16987 28454; CX 28706 28579 15393; CX 16986 28579 15392; CA 15393 15392 15391; CX 15391 28579 28580; CX 28643 28580 529;
  CX 529 16988 28455; CX 28707 28580 15390; CX 16987 28580 15389; CA 15390 15389 15388; CX 15388 28580 28581; CX 28644 28581 528; CX 528 16989 28456; CX 28708 28581 15387;
  CX 16988 28581 15386; CA 15387 15386 15385; CX 15385 28581 28582; CX 28645 28582 527; CX 527 16990 28457; CX 28709 28582 15384; CX 16989 28582 15383; CA 15384 15383 15382;
  CX 15382 28582 28583; CX 28646 28583 526; CX 526 16991 28458; CX 28710 28583 15381; CX 16990 28583 15380; CA 15381 15380 15379; CX 15379 28583 28584; CX 28647 28584 525;
  CX 525 16992 28459; CX 28711 28584 15378; CX 16991 28584 15377; CA 15378 15377 15376; CX 15376 28584 28585; CX 28648 28585 524; CX 524 16993 28460; CX 28712 28585 15375;
  CX 16992 28585 15374; CA 15375 15374 15373; CX 15373 28585 28586; CX 28649 28586 523; CX 523 16994 28461; CX 28713 28586 15372; CX 16993 28586 15371; CA 15372 15371 15370;
  CX 15370 28586 28587; CX 28650 28587 522; CX 522 16995 28462; CX 28714 28587 15369; CX 16994 28587 15368; CA 15369 15368 15367; CX 15367 28587 28588; CX 28651 28588 521;
  CX 521 16996 28463; CX 28715 28588 15366; CX 16995 28588 15365; CA 15366 15365 15364; CX 15364 28588 28589; CX 28652 28589 520; CX 520 16997 28464; CX 28716 28589 15363;
  CX 16996 28589 15362; CA 15363 15362 15361; CX 15361 28589 28590; CX 28653 28590 519; CX 519 16998 28465; CX 28717 28590 15360; CX 16997 28590 15359; CA 15360 15359 15358;
  CX 15358 28590 28591; CX 28654 28591 518; CX 518 16999 28466; CX 28718 28591 15357; CX 16998 28591 15356; CA 15357 15356 15355; CX 15355 28591 28592; CX 28655 28592 517;
  CX 517 17000 28467; CX 28719 28592 15354; CX 16999 28592 15353; CA 15354 15353 15352; CX 15352 28592 28593; CX 28656 28593 516; CX 516 17001 28468; CX 28720 28593 15351;
  CX 17000 28593 15350; CA 15351 15350 15349; CX 15349 28593 28594; CX 28657 28594 515; CX 515 17002 28469; CX 28721 28594 15348; CX 17001 28594 15347; CA 15348 15347 15346;
  CX 15346 28594 28595; CX 28658 28595 514; CX 514 17003 28470; CX 28722 28595 15345; CX 17002 28595 15344; CA 15345 15344 15343; CX 15343 28595 28596; CX 28659 28596 513;
  CX 513 17004 28471; CX 28723 28596 15342; CX 17003 28596 15341; CA 15342 15341 15340; CX 15340 28596 28597; CX 28660 28597 512; CX 512 17005 28472; CX 28724 28597 15339;
  CX 17004 28597 15338; CA 15339 15338 15337; CX 15337 28597 28598; CX 28661 28598 511; CX 511 17006 28473; CX 28725 28598 15336; CX 17005 28598 15335; CA 15336 15335 15334;
  CX 15334 28598 28599; CX 28662 28599 510; CX 510 17007 28474; CX 28726 28599 15333; CX 17006 28599 15332; CA 15333 15332 15331; CX 15331 28599 28600; CX 28663 28600 509;
  CX 509 17008 28475; CX 28727 28600 15330; CX 17007 28600 15329; CA 15330 15329 15328; CX 15328 28600 28601; CX 28664 28601 508; CX 508 17009 28476; CX 28728 28601 15327;
  CX 17008 28601 15326; CA 15327 15326 15325; CX 15325 28601 28602; CX 28665 28602 135; CA 16688 4535 17572; CI 135 16687; CX 16876 16687 28477; CX 570 16687 28478;
  CX 569 16687 28479; CX 568 16687 28480; CX 567 16687 28481; CX 566 16687 28482; CX 565 16687 28483; CX 564 16687 28484; CX 563 16687 28485; CX 562 16687 28486;
  CX 561 16687 28487; CX 560 16687 28488; CX 559 16687 28489; CX 558 16687 28490; CX 557 16687 28491; CX 556 16687 28492; CX 555 16687 28493; CX 554 16687 28494;
  CX 553 16687 28495; CX 552 16687 28496; CX 551 16687 28497; CX 550 16687 28498; CX 549 16687 28499; CX 548 16687 28500; CX 547 16687 28501; CX 546 16687 28502;
  CX 545 16687 28503; CX 544 16687 28504; CX 543 16687 28505; CX 542 16687 28506; CX 541 16687 28507; CX 540 16687 28508; CX 539 16687 28509; CX 538 16687 28510;
  CX 537 16687 28511; CX 536 16687 28512; CX 535 16687 28513; CX 534 16687 28514; CX 533 16687 28515; CX 532 16687 28516; CX 531 16687 28517; CX 530 16687 28518;
  CX 529 16687 28519; CX 528 16687 28520; CX 527 16687 28521; CX 526 16687 28522; CX 525 16687 28523; CX 524 16687 28524; CX 523 16687 28525; CX 522 16687 28526;
  CX 521 16687 28527; CX 520 16687 28528; CX 519 16687 28529; CX 518 16687 28530; CX 517 16687 28531; CX 516 16687 28532; CX 515 16687 28533; CX 514 16687 28534;
  CX 513 16687 28535; CX 512 16687 28536; CX 511 16687 28537; CX 510 16687 28538; CX 509 16687 28539; CA 28477 16946 28351; CX 28414 28351 632; CX 632 16948 28226;
  CX 28478 28351 15324; CX 16947 28351 15323; CA 15324 15323 15322; CX 15322 28351 28352; CX 28415 28352 631; CX 631 16949 28227; CX 28479 28352 15321; CX 16948 28352 15320;
  CA 15321 15320 15319; CX 15319 28352 28353; CX 28416 28353 630; CX 630 16950 28228; CX 28480 28353 15318; CX 16949 28353 15317; CA 15318 15317 15316; CX 15316 28353 28354;
  CX 28417 28354 629; CX 629 16951 28229; CX 28481 28354 15315; CX 16950 28354 15314; CA 15315 15314 15313; CX 15313 28354 28355; CX 28418 28355 628; CX 628 16952 28230;
  CX 28482 28355 15312; CX 16951 28355 15311; CA 15312 15311 15310; CX 15310 28355 28356; CX 28419 28356 627; CX 627 16953 28231; CX 28483 28356 15309; CX 16952 28356 15308;
  CA 15309 15308 15307; CX 15307 28356 28357; CX 28420 28357 626; CX 626 16954 28232; CX 28484 28357 15306; CX 16953 28357 15305; CA 15306 15305 15304; CX 15304 28357 28358;
  CX 28421 28358 625; CX 625 16955 28233; CX 28485 28358 15303; CX 16954 28358 15302; CA 15303 15302 15301; CX 15301 28358 28359; CX 28422 28359 624; CX 624 16956 28234;
  CX 28486 28359 15300; CX 16955 28359 15299; CA 15300 15299 15298; CX 15298 28359 28360; CX 28423 28360 623; CX 623 16957 28235; CX 28487 28360 15297; CX 16956 28360 15296;
  CA 15297 15296 15295; CX 15295 28360 28361; CX 28424 28361 622; CX 622 16958 28236; CX 28488 28361 15294; CX 16957 28361 15293; CA 15294 15293 15292; CX 15292 28361 28362;
  CX 28425 28362 621; CX 621 16959 28237; CX 28489 28362 15291; CX 16958 28362 15290; CA 15291 15290 15289; CX 15289 28362 28363; CX 28426 28363 620; CX 620 16960 28238;
  CX 28490 28363 15288; CX 16959 28363 15287; CA 15288 15287 15286; CX 15286 28363 28364; CX 28427 28364 619; CX 619 16961 28239; CX 28491 28364 15285; CX 16960 28364 15284;
  CA 15285 15284 15283; CX 15283 28364 28365; CX 28428 28365 618; CX 618 16962 28240; CX 28492 28365 15282; CX 16961 28365 15281; CA 15282 15281 15280; CX 15280 28365 28366;
  CX 28429 28366 617; CX 617 16963 28241; CX 28493 28366 15279; CX 16962 28366 15278; CA 15279 15278 15277; CX 15277 28366 28367; CX 28430 28367 616; CX 616 16964 28242;
  CX 28494 28367 15276; CX 16963 28367 15275; CA 15276 15275 15274; CX 15274 28367 28368; CX 28431 28368 615; CX 615 16965 28243; CX 28495 28368 15273; CX 16964 28368 15272;
  CA 15273 15272 15271; CX 15271 28368 28369; CX 28432 28369 614; CX 614 16966 28244; CX 28496 28369 15270; CX 16965 28369 15269; CA 15270 15269 15268; CX 15268 28369 28370;
  CX 28433 28370 613; CX 613 16967 28245; CX 28497 28370 15267; CX 16966 28370 15266; CA 15267 15266 15265; CX 15265 28370 28371; CX 28434 28371 612; CX 612 16968 28246;
  CX 28498 28371 15264; CX 16967 28371 15263; CA 15264 15263 15262; CX 15262 28371 28372; CX 28435 28372 611; CX 611 16969 28247; CX 28499 28372 15261; CX 16968 28372 15260].
(** Lines 4405-4804 of the file. *)
Definition divide64_11 : list cg := [
  CA 15261 15260 15259; CX 15259 28372 28373; CX 28436 28373 610; CX 610 16970 28248; CX 28500 28373 15258; CX 16969 28373 15257; CA 15258 15257 15256; CX 15256 28373 28374;
  CX 28437 28374 609; CX 609 16971 28249; CX 28501 28374 15255; CX 16970 28374 15254; CA 15255 15254 15253; CX 15253 28374 28375; CX 28438 28375 608; CX 608 16972 28250;
  CX 28502 28375 15252; CX 16971 28375 15251; CA 15252 15251 15250; CX 15250 28375 28376; CX 28439 28376 607; CX 607 16973 28251; CX 28503 28376 15249; CX 16972 28376 15248;
  CA 15249 15248 15247; CX 15247 28376 28377; CX 28440 28377 606; CX 606 16974 28252; CX 28504 28377 15246; CX 16973 28377 15245; CA 15246 15245 15244; CX 15244 28377 28378;
  CX 28441 28378 605; CX 605 16975 28253; CX 28505 28378 15243; CX 16974 28378 15242; CA 15243 15242 15241; CX 15241 28378 28379; CX 28442 28379 604; CX 604 16976 28254;
  CX 28506 28379 15240; CX 16975 28379 15239; CA 15240 15239 15238; CX 15238 28379 28380; CX 28443 28380 603; CX 603 16977 28255; CX 28507 28380 15237; CX 16976 28380 15236;
  CA 15237 15236 15235; CX 15235 28380 28381; CX 28444 28381 602; CX 602 16978 28256; CX 28508 28381 15234; CX 16977 28381 15233; CA 15234 15233 15232; CX 15232 28381 28382;
  CX 28445 28382 601; CX 601 16979 28257; CX 28509 28382 15231; CX 16978 28382 15230; CA 15231 15230 15229; CX 15229 28382 28383; CX 28446 28383 600; CX 600 16980 28258;
  CX 28510 28383 15228; CX 16979 28383 15227; CA 15228 15227 15226; CX 15226 28383 28384; CX 28447 28384 599; CX 599 16981 28259; CX 28511 28384 15225; CX 16980 28384 15224;
  CA 15225 15224 15223; CX 15223 28384 28385; CX 28448 28385 598; CX 598 16982 28260; CX 28512 28385 15222; CX 16981 28385 15221; CA 15222 15221 15220; CX 15220 28385 28386;
  CX 28449 28386 597; CX 597 16983 28261; CX 28513 28386 15219; CX 16982 28386 15218; CA 15219 15218 15217; CX 15217 28386 28387; CX 28450 28387 596; CX 596 16984 28262;
  CX 28514 28387 15216; CX 16983 28387 15215; CA 15216 15215 15214; CX 15214 28387 28388; CX 28451 28388 595; CX 595 16985 28263; CX 28515 28388 15213; CX 16984 28388 15212;
  CA 15213 15212 15211; CX 15211 28388 28389; CX 28452 28389 594; CX 594 16986 28264; CX 28516 28389 15210; CX 16985 28389 15209; CA 15210 15209 15208; CX 15208 28389 28390;
  CX 28453 28390 593; CX 593 16987 28265; CX 28517 28390 15207; CX 16986 28390 15206; CA 15207 15206 15205; CX 15205 28390 28391; CX 28454 28391 592; CX 592 16988 28266;
  CX 28518 28391 15204; CX 16987 28391 15203; CA 15204 15203 15202; CX 15202 28391 28392; CX 28455 28392 591; CX 591 16989 28267; CX 28519 28392 15201; CX 16988 28392 15200;
  CA 15201 15200 15199; CX 15199 28392 28393; CX 28456 28393 590; CX 590 16990 28268; CX 28520 28393 15198; CX 16989 28393 15197; CA 15198 15197 15196; CX 15196 28393 28394;
  CX 28457 28394 589; CX 589 16991 28269; CX 28521 28394 15195; CX 16990 28394 15194; CA 15195 15194 15193; CX 15193 28394 28395; CX 28458 28395 588; CX 588 16992 28270;
  CX 28522 28395 15192; CX 16991 28395 15191; CA 15192 15191 15190; CX 15190 28395 28396; CX 28459 28396 587; CX 587 16993 28271; CX 28523 28396 15189; CX 16992 28396 15188;
  CA 15189 15188 15187; CX 15187 28396 28397; CX 28460 28397 586; CX 586 16994 28272; CX 28524 28397 15186; CX 16993 28397 15185; CA 15186 15185 15184; CX 15184 28397 28398;
  CX 28461 28398 585; CX 585 16995 28273; CX 28525 28398 15183; CX 16994 28398 15182; CA 15183 15182 15181; CX 15181 28398 28399; CX 28462 28399 584; CX 584 16996 28274;
  CX 28526 28399 15180; CX 16995 28399 15179; CA 15180 15179 15178; CX 15178 28399 28400; CX 28463 28400 583; CX 583 16997 28275; CX 28527 28400 15177; CX 16996 28400 15176;
  CA 15177 15176 15175; CX 15175 28400 28401; CX 28464 28401 582; CX 582 16998 28276; CX 28528 28401 15174; CX 16997 28401 15173; CA 15174 15173 15172; CX 15172 28401 28402;
  CX 28465 28402 581; CX 581 16999 28277; CX 28529 28402 15171; CX 16998 28402 15170; CA 15171 15170 15169; CX 15169 28402 28403; CX 28466 28403 580; CX 580 17000 28278;
  CX 28530 28403 15168; CX 16999 28403 15167; CA 15168 15167 15166; CX 15166 28403 28404; CX 28467 28404 579; CX 579 17001 28279; CX 28531 28404 15165; CX 17000 28404 15164;
  CA 15165 15164 15163; CX 15163 28404 28405; CX 28468 28405 578; CX 578 17002 28280; CX 28532 28405 15162; CX 17001 28405 15161; CA 15162 15161 15160; CX 15160 28405 28406;
  CX 28469 28406 577; CX 577 17003 28281; CX 28533 28406 15159; CX 17002 28406 15158; CA 15159 15158 15157; CX 15157 28406 28407; CX 28470 28407 576; CX 576 17004 28282;
  CX 28534 28407 15156; CX 17003 28407 15155; CA 15156 15155 15154; CX 15154 28407 28408; CX 28471 28408 575; CX 575 17005 28283; CX 28535 28408 15153; CX 17004 28408 15152;
  CA 15153 15152 15151; CX 15151 28408 28409; CX 28472 28409 574; CX 574 17006 28284; CX 28536 28409 15150; CX 17005 28409 15149; CA 15150 15149 15148; CX 15148 28409 28410;
  CX 28473 28410 573; CX 573 17007 28285; CX 28537 28410 15147; CX 17006 28410 15146; CA 15147 15146 15145; CX 15145 28410 28411; CX 28474 28411 572; CX 572 17008 28286;
  CX 28538 28411 15144; CX 17007 28411 15143; CA 15144 15143 15142; CX 15142 28411 28412; CX 28475 28412 571; CX 571 17009 28287; CX 28539 28412 15141; CX 17008 28412 15140;
  CA 15141 15140 15139; CX 15139 28412 28413; CX 28476 28413 136; CI 136 16686; CX 16875 16686 28288; CX 633 16686 28289; CX 632 16686 28290; CX 631 16686 28291;
  CX 630 16686 28292; CX 629 16686 28293; CX 628 16686 28294; CX 627 16686 28295; CX 626 16686 28296; CX 625 16686 28297; CX 624 16686 28298; CX 623 16686 28299;
  CX 622 16686 28300; CX 621 16686 28301; CX 620 16686 28302; CX 619 16686 28303; CX 618 16686 28304; CX 617 16686 28305; CX 616 16686 28306; CX 615 16686 28307;
  CX 614 16686 28308; CX 613 16686 28309; CX 612 16686 28310; CX 611 16686 28311; CX 610 16686 28312; CX 609 16686 28313; CX 608 16686 28314; CX 607 16686 28315;
  CX 606 16686 28316; CX 605 16686 28317; CX 604 16686 28318; CX 603 16686 28319; CX 602 16686 28320; CX 601 16686 28321; CX 600 16686 28322; CX 599 16686 28323;
  CX 598 16686 28324; CX 597 16686 28325; CX 596 16686 28326; CX 595 16686 28327; CX 594 16686 28328; CX 593 16686 28329; CX 592 16686 28330; CX 591 16686 28331;
  CX 590 16686 28332; CX 589 16686 28333; CX 588 16686 28334; CX 587 16686 28335; CX 586 16686 28336; CX 585 16686 28337; CX 584 16686 28338; CX 583 16686 28339;
  CX 582 16686 28340; CX 581 16686 28341; CX 580 16686 28342; CX 579 16686 28343; CX 578 16686 28344; CX 577 16686 28345; CX 576 16686 28346; CX 575 16686 28347;
  CX 574 16686 28348; CX 573 16686 28349; CX 572 16686 28350; CA 28288 16946 28162; CX 28225 28162 695; CX 695 16948 28037; CX 28289 28162 15138; CX 16947 28162 15137;
  CA 15138 15137 15136; CX 15136 28162 28163; CX 28226 28163 694; CX 694 16949 28038; CX 28290 28163 15135; CX 16948 28163 15134; CA 15135 15134 15133; CX 15133 28163 28164;
  CX 28227 28164 693; CX 693 16950 28039; CX 28291 28164 15132; CX 16949 28164 15131; CA 15132 15131 15130; CX 15130 28164 28165; CX 28228 28165 692; CX 692 16951 28040;
  CX 28292 28165 15129; CX 16950 28165 15128; CA 15129 15128 15127; CX 15127 28165 28166; CX 28229 28166 691; CX 691 16952 28041; CX 28293 28166 15126; CX 16951 28166 15125;
  CA 15126 15125 15124; CX 15124 28166 28167; CX 28230 28167 690; CX 690 16953 28042; CX 28294 28167 15123; CX 16952 28167 15122; CA 15123 15122 15121; CX 15121 28167 28168;
  CX 28231 28168 689; CX 689 16954 28043; CX 28295 28168 15120; CX 16953 28168 15119; CA 15120 15119 15118; CX 15118 28168 28169; CX 28232 28169 688; CX 688 16955 28044;
  CX 28296 28169 15117; CX 16954 28169 15116; CA 15117 15116 15115; CX 15115 28169 28170; CX 28233 28170 687; CX 687 16956 28045; CX 28297 28170 15114; CX 16955 28170 15113;
  CA 15114 15113 15112; CX 15112 28170 28171; CX 28234 28171 686; CX 686 16957 28046; CX 28298 28171 15111; CX 16956 28171 15110; CA 15111 15110 15109; CX 15109 28171 28172;
  CX 28235 28172 685; CX 685 16958 28047; CX 28299 28172 15108; CX 16957 28172 15107; CA 15108 15107 15106; CX 15106 28172 28173; CX 28236 28173 684; CX 684 16959 28048;
  CX 28300 28173 15105; CX 16958 28173 15104; CA 15105 15104 15103; CX 15103 28173 28174; CX 28237 28174 683; CX 683 16960 28049; CX 28301 28174 15102; CX 16959 28174 15101;
  CA 15102 15101 15100; CX 15100 28174 28175; CX 28238 28175 682; CX 682 16961 28050; CX 28302 28175 15099; CX 16960 28175 15098; CA 15099 15098 15097; CX 15097 28175 28176;
  CX 28239 28176 681; CX 681 16962 28051; CX 28303 28176 15096; CX 16961 28176 15095; CA 15096 15095 15094; CX 15094 28176 28177; CX 28240 28177 680; CX 680 16963 28052].
(** Lines 4805-5204 of the file. *)
Definition divide64_12 : list cg := [
  CX 28304 28177 15093; CX 16962 28177 15092; CA 15093 15092 15091; CX 15091 28177 28178; CX 28241 28178 679; CX 679 16964 28053; CX 28305 28178 15090; CX 16963 28178 15089;
  CA 15090 15089 15088; CX 15088 28178 28179; CX 28242 28179 678; CX 678 16965 28054; CX 28306 28179 15087; CX 16964 28179 15086; CA 15087 15086 15085; CX 15085 28179 28180;
  CX 28243 28180 677; CX 677 16966 28055; CX 28307 28180 15084; CX 16965 28180 15083; CA 15084 15083 15082; CX 15082 28180 28181; CX 28244 28181 676; CX 676 16967 28056;
  CX 28308 28181 15081; CX 16966 28181 15080; CA 15081 15080 15079; CX 15079 28181 28182; CX 28245 28182 675; CX 675 16968 28057; CX 28309 28182 15078; CX 16967 28182 15077;
  CA 15078 15077 15076; CX 15076 28182 28183; CX 28246 28183 674; CX 674 16969 28058; CX 28310 28183 15075; CX 16968 28183 15074; CA 15075 15074 15073; CX 15073 28183 28184;
  CX 28247 28184 673; CX 673 16970 28059; CX 28311 28184 15072; CX 16969 28184 15071; CA 15072 15071 15070; CX 15070 28184 28185; CX 28248 28185 672; CX 672 16971 28060;
  CX 28312 28185 15069; CX 16970 28185 15068; CA 15069 15068 15067; CX 15067 28185 28186; CX 28249 28186 671; CX 671 16972 28061; CX 28313 28186 15066; CX 16971 28186 15065;
  CA 15066 15065 15064; CX 15064 28186 28187; CX 28250 28187 670; CX 670 16973 28062; CX 28314 28187 15063; CX 16972 28187 15062; CA 15063 15062 15061; CX 15061 28187 28188;
  CX 28251 28188 669; CX 669 16974 28063; CX 28315 28188 15060; CX 16973 28188 15059; CA 15060 15059 15058; CX 15058 28188 28189; CX 28252 28189 668; CX 668 16975 28064;
  CX 28316 28189 15057; CX 16974 28189 15056; CA 15057 15056 15055; CX 15055 28189 28190; CX 28253 28190 667; CX 667 16976 28065; CX 28317 28190 15054; CX 16975 28190 15053;
  CA 15054 15053 15052; CX 15052 28190 28191; CX 28254 28191 666; CX 666 16977 28066; CX 28318 28191 15051; CX 16976 28191 15050; CA 15051 15050 15049; CX 15049 28191 28192;
  CX 28255 28192 665; CX 665 16978 28067; CX 28319 28192 15048; CX 16977 28192 15047; CA 15048 15047 15046; CX 15046 28192 28193; CX 28256 28193 664; CX 664 16979 28068;
  CX 28320 28193 15045; CX 16978 28193 15044; CA 15045 15044 15043; CX 15043 28193 28194; CX 28257 28194 663; CX 663 16980 28069; CX 28321 28194 15042; CX 16979 28194 15041;
  CA 15042 15041 15040; CX 15040 28194 28195; CX 28258 28195 662; CX 662 16981 28070; CX 28322 28195 15039; CX 16980 28195 15038; CA 15039 15038 15037; CX 15037 28195 28196;
  CX 28259 28196 661; CX 661 16982 28071; CX 28323 28196 15036; CX 16981 28196 15035; CA 15036 15035 15034; CX 15034 28196 28197; CX 28260 28197 660; CX 660 16983 28072;
  CX 28324 28197 15033; CX 16982 28197 15032; CA 15033 15032 15031; CX 15031 28197 28198; CX 28261 28198 659; CX 659 16984 28073; CX 28325 28198 15030; CX 16983 28198 15029;
  CA 15030 15029 15028; CX 15028 28198 28199; CX 28262 28199 658; CX 658 16985 28074; CX 28326 28199 15027; CX 16984 28199 15026; CA 15027 15026 15025; CX 15025 28199 28200;
  CX 28263 28200 657; CX 657 16986 28075; CX 28327 28200 15024; CX 16985 28200 15023; CA 15024 15023 15022; CX 15022 28200 28201; CX 28264 28201 656; CX 656 16987 28076;
  CX 28328 28201 15021; CX 16986 28201 15020; CA 15021 15020 15019; CX 15019 28201 28202; CX 28265 28202 655; CX 655 16988 28077; CX 28329 28202 15018; CX 16987 28202 15017;
  CA 15018 15017 15016; CX 15016 28202 28203; CX 28266 28203 654; CX 654 16989 28078; CX 28330 28203 15015; CX 16988 28203 15014; CA 15015 15014 15013; CX 15013 28203 28204;
  CX 28267 28204 653; CX 653 16990 28079; CX 28331 28204 15012; CX 16989 28204 15011; CA 15012 15011 15010; CX 15010 28204 28205; CX 28268 28205 652; CX 652 16991 28080;
  CX 28332 28205 15009; CX 16990 28205 15008; CA 15009 15008 15007; CX 15007 28205 28206; CX 28269 28206 651; CX 651 16992 28081; CX 28333 28206 15006; CX 16991 28206 15005;
  CA 15006 15005 15004; CX 15004 28206 28207; CX 28270 28207 650; CX 650 16993 28082; CX 28334 28207 15003; CX 16992 28207 15002; CA 15003 15002 15001; CX 15001 28207 28208;
  CX 28271 28208 649; CX 649 16994 28083; CX 28335 28208 15000; CX 16993 28208 14999; CA 15000 14999 14998; CX 14998 28208 28209; CX 28272 28209 648; CX 648 16995 28084;
  CX 28336 28209 14997; CX 16994 28209 14996; CA 14997 14996 14995; CX 14995 28209 28210; CX 28273 28210 647; CX 647 16996 28085; CX 28337 28210 14994; CX 16995 28210 14993;
  CA 14994 14993 14992; CX 14992 28210 28211; CX 28274 28211 646; CX 646 16997 28086; CX 28338 28211 14991; CX 16996 28211 14990; CA 14991 14990 14989; CX 14989 28211 28212;
  CX 28275 28212 645; CX 645 16998 28087; CX 28339 28212 14988; CX 16997 28212 14987; CA 14988 14987 14986; CX 14986 28212 28213; CX 28276 28213 644; CX 644 16999 28088;
  CX 28340 28213 14985; CX 16998 28213 14984; CA 14985 14984 14983; CX 14983 28213 28214; CX 28277 28214 643; CX 643 17000 28089; CX 28341 28214 14982; CX 16999 28214 14981;
  CA 14982 14981 14980; CX 14980 28214 28215; CX 28278 28215 642; CX 642 17001 28090; CX 28342 28215 14979; CX 17000 28215 14978; CA 14979 14978 14977; CX 14977 28215 28216;
  CX 28279 28216 641; CX 641 17002 28091; CX 28343 28216 14976; CX 17001 28216 14975; CA 14976 14975 14974; CX 14974 28216 28217; CX 28280 28217 640; CX 640 17003 28092;
  CX 28344 28217 14973; CX 17002 28217 14972; CA 14973 14972 14971; CX 14971 28217 28218; CX 28281 28218 639; CX 639 17004 28093; CX 28345 28218 14970; CX 17003 28218 14969;
  CA 14970 14969 14968; CX 14968 28218 28219; CX 28282 28219 638; CX 638 17005 28094; CX 28346 28219 14967; CX 17004 28219 14966; CA 14967 14966 14965; CX 14965 28219 28220;
  CX 28283 28220 637; CX 637 17006 28095; CX 28347 28220 14964; CX 17005 28220 14963; CA 14964 14963 14962; CX 14962 28220 28221; CX 28284 28221 636; CX 636 17007 28096;
  CX 28348 28221 14961; CX 17006 28221 14960; CA 14961 14960 14959; CX 14959 28221 28222; CX 28285 28222 635; CX 635 17008 28097; CX 28349 28222 14958; CX 17007 28222 14957;
  CA 14958 14957 14956; CX 14956 28222 28223; CX 28286 28223 634; CX 634 17009 28098; CX 28350 28223 14955; CX 17008 28223 14954; CA 14955 14954 14953; CX 14953 28223 28224;
  CX 28287 28224 137; CA 16686 4535 17570; CI 137 16685; CX 16874 16685 28099; CX 696 16685 28100; CX 695 16685 28101; CX 694 16685 28102; CX 693 16685 28103;
  CX 692 16685 28104; CX 691 16685 28105; CX 690 16685 28106; CX 689 16685 28107; CX 688 16685 28108; CX 687 16685 28109; CX 686 16685 28110; CX 685 16685 28111;
  CX 684 16685 28112; CX 683 16685 28113; CX 682 16685 28114; CX 681 16685 28115; CX 680 16685 28116; CX 679 16685 28117; CX 678 16685 28118; CX 677 16685 28119;
  CX 676 16685 28120; CX 675 16685 28121; CX 674 16685 28122; CX 673 16685 28123; CX 672 16685 28124; CX 671 16685 28125; CX 670 16685 28126; CX 669 16685 28127;
  CX 668 16685 28128; CX 667 16685 28129; CX 666 16685 28130; CX 665 16685 28131; CX 664 16685 28132; CX 663 16685 28133; CX 662 16685 28134; CX 661 16685 28135;
  CX 660 16685 28136; CX 659 16685 28137; CX 658 16685 28138; CX 657 16685 28139; CX 656 16685 28140; CX 655 16685 28141; CX 654 16685 28142; CX 653 16685 28143;
  CX 652 16685 28144; CX 651 16685 28145; CX 650 16685 28146; CX 649 16685 28147; CX 648 16685 28148; CX 647 16685 28149; CX 646 16685 28150; CX 645 16685 28151;
  CX 644 16685 28152; CX 643 16685 28153; CX 642 16685 28154; CX 641 16685 28155; CX 640 16685 28156; CX 639 16685 28157; CX 638 16685 28158; CX 637 16685 28159;
  CX 636 16685 28160; CX 635 16685 28161; CA 28099 16946 27973; CX 28036 27973 758; CX 758 16948 27848; CX 28100 27973 14952; CX 16947 27973 14951; CA 14952 14951 14950;
  CX 14950 27973 27974; CX 28037 27974 757; CX 757 16949 27849; CX 28101 27974 14949; CX 16948 27974 14948; CA 14949 14948 14947; CX 14947 27974 27975; CX 28038 27975 756;
  CX 756 16950 27850; CX 28102 27975 14946; CX 16949 27975 14945; CA 14946 14945 14944; CX 14944 27975 27976; CX 28039 27976 755; CX 755 16951 27851; CX 28103 27976 14943;
  CX 16950 27976 14942; CA 14943 14942 14941; CX 14941 27976 27977; CX 28040 27977 754; CX 754 16952 27852; CX 28104 27977 14940; CX 16951 27977 14939; CA 14940 14939 14938;
  CX 14938 27977 27978; CX 28041 27978 753; CX 753 16953 27853; CX 28105 27978 14937; CX 16952 27978 14936; CA 14937 14936 14935; CX 14935 27978 27979; CX 28042 27979 752;
  CX 752 16954 27854; CX 28106 27979 14934; CX 16953 27979 14933; CA 14934 14933 14932; CX 14932 27979 27980; CX 28043 27980 751; CX 751 16955 27855; CX 28107 27980 14931;
  CX 16954 27980 14930; CA 14931 14930 14929; CX 14929 27980 27981; CX 28044 27981 750; CX 750 16956 27856; CX 28108 27981 14928; CX 16955 27981 14927; CA 14928 14927 14926].
(** Lines 5205-5604 of the file. *)
Definition divide64_13 : list cg := [
  CX 14926 27981 27982; CX 28045 27982 749; CX 749 16957 27857; CX 28109 27982 14925; CX 16956 27982 14924; CA 14925 14924 14923; CX 14923 27982 27983; CX 28046 27983 748;
  CX 748 16958 27858; CX 28110 27983 14922; CX 16957 27983 14921; CA 14922 14921 14920; CX 14920 27983 27984; CX 28047 27984 747; CX 747 16959 27859; CX 28111 27984 14919;
  CX 16958 27984 14918; CA 14919 14918 14917; CX 14917 27984 27985; CX 28048 27985 746; CX 746 16960 27860; CX 28112 27985 14916; CX 16959 27985 14915; CA 14916 14915 14914;
  CX 14914 27985 27986; CX 28049 27986 745; CX 745 16961 27861; CX 28113 27986 14913; CX 16960 27986 14912; CA 14913 14912 14911; CX 14911 27986 27987; CX 28050 27987 744;
  CX 744 16962 27862; CX 28114 27987 14910; CX 16961 27987 14909; CA 14910 14909 14908; CX 14908 27987 27988; CX 28051 27988 743; CX 743 16963 27863; CX 28115 27988 14907;
  CX 16962 27988 14906; CA 14907 14906 14905; CX 14905 27988 27989; CX 28052 27989 742; CX 742 16964 27864; CX 28116 27989 14904; CX 16963 27989 14903; CA 14904 14903 14902;
  CX 14902 27989 27990; CX 28053 27990 741; CX 741 16965 27865; CX 28117 27990 14901; CX 16964 27990 14900; CA 14901 14900 14899; CX 14899 27990 27991; CX 28054 27991 740;
  CX 740 16966 27866; CX 28118 27991 14898; CX 16965 27991 14897; CA 14898 14897 14896; CX 14896 27991 27992; CX 28055 27992 739; CX 739 16967 27867; CX 28119 27992 14895;
  CX 16966 27992 14894; CA 14895 14894 14893; CX 14893 27992 27993; CX 28056 27993 738; CX 738 16968 27868; CX 28120 27993 14892; CX 16967 27993 14891; CA 14892 14891 14890;
  CX 14890 27993 27994; CX 28057 27994 737; CX 737 16969 27869; CX 28121 27994 14889; CX 16968 27994 14888; CA 14889 14888 14887; CX 14887 27994 27995; CX 28058 27995 736;
  CX 736 16970 27870; CX 28122 27995 14886; CX 16969 27995 14885; CA 14886 14885 14884; CX 14884 27995 27996; CX 28059 27996 735; CX 735 16971 27871; CX 28123 27996 14883;
  CX 16970 27996 14882; CA 14883 14882 14881; CX 14881 27996 27997; CX 28060 27997 734; CX 734 16972 27872; CX 28124 27997 14880; CX 16971 27997 14879; CA 14880 14879 14878;
  CX 14878 27997 27998; CX 28061 27998 733; CX 733 16973 27873; CX 28125 27998 14877; CX 16972 27998 14876; CA 14877 14876 14875; CX 14875 27998 27999; CX 28062 27999 732;
  CX 732 16974 27874; CX 28126 27999 14874; CX 16973 27999 14873; CA 14874 14873 14872; CX 14872 27999 28000; CX 28063 28000 731; CX 731 16975 27875; CX 28127 28000 14871;
  CX 16974 28000 14870; CA 14871 14870 14869; CX 14869 28000 28001; CX 28064 28001 730; CX 730 16976 27876; CX 28128 28001 14868; CX 16975 28001 14867; CA 14868 14867 14866;
  CX 14866 28001 28002; CX 28065 28002 729; CX 729 16977 27877; CX 28129 28002 14865; CX 16976 28002 14864; CA 14865 14864 14863; CX 14863 28002 28003; CX 28066 28003 728;
  CX 728 16978 27878; CX 28130 28003 14862; CX 16977 28003 14861; CA 14862 14861 14860; CX 14860 28003 28004; CX 28067 28004 727; CX 727 16979 27879; CX 28131 28004 14859;
  CX 16978 28004 14858; CA 14859 14858 14857; CX 14857 28004 28005; CX 28068 28005 726; CX 726 16980 27880; CX 28132 28005 14856; CX 16979 28005 14855; CA 14856 14855 14854;
  CX 14854 28005 28006; CX 28069 28006 725; CX 725 16981 27881; CX 28133 28006 14853; CX 16980 28006 14852; CA 14853 14852 14851; CX 14851 28006 28007; CX 28070 28007 724;
  CX 724 16982 27882; CX 28134 28007 14850; CX 16981 28007 14849; CA 14850 14849 14848; CX 14848 28007 28008; CX 28071 28008 723; CX 723 16983 27883; CX 28135 28008 14847;
  CX 16982 28008 14846; CA 14847 14846 14845; CX 14845 28008 28009; CX 28072 28009 722; CX 722 16984 27884; CX 28136 28009 14844; CX 16983 28009 14843; CA 14844 14843 14842;
  CX 14842 28009 28010; CX 28073 28010 721; CX 721 16985 27885; CX 28137 28010 14841; CX 16984 28010 14840; CA 14841 14840 14839; CX 14839 28010 28011; CX 28074 28011 720;
  CX 720 16986 27886; CX 28138 28011 14838; CX 16985 28011 14837; CA 14838 14837 14836; CX 14836 28011 28012; CX 28075 28012 719; CX 719 16987 27887; CX 28139 28012 14835;
  CX 16986 28012 14834; CA 14835 14834 14833; CX 14833 28012 28013; CX 28076 28013 718; CX 718 16988 27888; CX 28140 28013 14832; CX 16987 28013 14831; CA 14832 14831 14830;
  CX 14830 28013 28014; CX 28077 28014 717; CX 717 16989 27889; CX 28141 28014 14829; CX 16988 28014 14828; CA 14829 14828 14827; CX 14827 28014 28015; CX 28078 28015 716;
  CX 716 16990 27890; CX 28142 28015 14826; CX 16989 28015 14825; CA 14826 14825 14824; CX 14824 28015 28016; CX 28079 28016 715; CX 715 16991 27891; CX 28143 28016 14823;
  CX 16990 28016 14822; CA 14823 14822 14821; CX 14821 28016 28017; CX 28080 28017 714; CX 714 16992 27892; CX 28144 28017 14820; CX 16991 28017 14819; CA 14820 14819 14818;
  CX 14818 28017 28018; CX 28081 28018 713; CX 713 16993 27893; CX 28145 28018 14817; CX 16992 28018 14816; CA 14817 14816 14815; CX 14815 28018 28019; CX 28082 28019 712;
  CX 712 16994 27894; CX 28146 28019 14814; CX 16993 28019 14813; CA 14814 14813 14812; CX 14812 28019 28020; CX 28083 28020 711; CX 711 16995 27895; CX 28147 28020 14811;
  CX 16994 28020 14810; CA 14811 14810 14809; CX 14809 28020 28021; CX 28084 28021 710; CX 710 16996 27896; CX 28148 28021 14808; CX 16995 28021 14807; CA 14808 14807 14806;
  CX 14806 28021 28022; CX 28085 28022 709; CX 709 16997 27897; CX 28149 28022 14805; CX 16996 28022 14804; CA 14805 14804 14803; CX 14803 28022 28023; CX 28086 28023 708;
  CX 708 16998 27898; CX 28150 28023 14802; CX 16997 28023 14801; CA 14802 14801 14800; CX 14800 28023 28024; CX 28087 28024 707; CX 707 16999 27899; CX 28151 28024 14799;
  CX 16998 28024 14798; CA 14799 14798 14797; CX 14797 28024 28025; CX 28088 28025 706; CX 706 17000 27900; CX 28152 28025 14796; CX 16999 28025 14795; CA 14796 14795 14794;
  CX 14794 28025 28026; CX 28089 28026 705; CX 705 17001 27901; CX 28153 28026 14793; CX 17000 28026 14792; CA 14793 14792 14791; CX 14791 28026 28027; CX 28090 28027 704;
  CX 704 17002 27902; CX 28154 28027 14790; CX 17001 28027 14789; CA 14790 14789 14788; CX 14788 28027 28028; CX 28091 28028 703; CX 703 17003 27903; CX 28155 28028 14787;
  CX 17002 28028 14786; CA 14787 14786 14785; CX 14785 28028 28029; CX 28092 28029 702; CX 702 17004 27904; CX 28156 28029 14784; CX 17003 28029 14783; CA 14784 14783 14782;
  CX 14782 28029 28030; CX 28093 28030 701; CX 701 17005 27905; CX 28157 28030 14781; CX 17004 28030 14780; CA 14781 14780 14779; CX 14779 28030 28031; CX 28094 28031 700;
  CX 700 17006 27906; CX 28158 28031 14778; CX 17005 28031 14777; CA 14778 14777 14776; CX 14776 28031 28032; CX 28095 28032 699; CX 699 17007 27907; CX 28159 28032 14775;
  CX 17006 28032 14774; CA 14775 14774 14773; CX 14773 28032 28033; CX 28096 28033 698; CX 698 17008 27908; CX 28160 28033 14772; CX 17007 28033 14771; CA 14772 14771 14770;
  CX 14770 28033 28034; CX 28097 28034 697; CX 697 17009 27909; CX 28161 28034 14769; CX 17008 28034 14768; CA 14769 14768 14767; CX 14767 28034 28035; CX 28098 28035 138;
  CI 138 16684; CX 16873 16684 27910; CX 759 16684 27911; CX 758 16684 27912; CX 757 16684 27913; CX 756 16684 27914; CX 755 16684 27915; CX 754 16684 27916;
  CX 753 16684 27917; CX 752 16684 27918; CX 751 16684 27919; CX 750 16684 27920; CX 749 16684 27921; CX 748 16684 27922; CX 747 16684 27923; CX 746 16684 27924;
  CX 745 16684 27925; CX 744 16684 27926; CX 743 16684 27927; CX 742 16684 27928; CX 741 16684 27929; CX 740 16684 27930; CX 739 16684 27931; CX 738 16684 27932;
  CX 737 16684 27933; CX 736 16684 27934; CX 735 16684 27935; CX 734 16684 27936; CX 733 16684 27937; CX 732 16684 27938; CX 731 16684 27939; CX 730 16684 27940;
  CX 729 16684 27941; CX 728 16684 27942; CX 727 16684 27943; CX 726 16684 27944; CX 725 16684 27945; CX 724 16684 27946; CX 723 16684 27947; CX 722 16684 27948;
  CX 721 16684 27949; CX 720 16684 27950; CX 719 16684 27951; CX 718 16684 27952; CX 717 16684 27953; CX 716 16684 27954; CX 715 16684 27955; CX 714 16684 27956;
  CX 713 16684 27957; CX 712 16684 27958; CX 711 16684 27959; CX 710 16684 27960; CX 709 16684 27961; CX 708 16684 27962; CX 707 16684 27963; CX 706 16684 27964;
  CX 705 16684 27965; CX 704 16684 27966; CX 703 16684 27967; CX 702 16684 27968; CX 701 16684 27969; CX 700 16684 27970; CX 699 16684 27971; CX 698 16684 27972;
  CA 27910 16946 27784; CX 27847 27784 821; CX 821 16948 27659; CX 27911 27784 14766; CX 16947 27784 14765; CA 14766 14765 14764; CX 14764 27784 27785; CX 27848 27785 820;
  CX 820 16949 27660; CX 27912 27785 14763; CX 16948 27785 14762; CA 14763 14762 14761; CX 14761 27785 27786; CX 27849 27786 819; CX 819 16950 27661; CX 27913 27786 14760].
(** Lines 5605-6004 of the file. *)
Definition divide64_14 : list cg := [
  CX 16949 27786 14759; CA 14760 14759 14758; CX 14758 27786 27787; CX 27850 27787 818; CX 818 16951 27662; CX 27914 27787 14757; CX 16950 27787 14756; CA 14757 14756 14755;
  CX 14755 27787 27788; CX 27851 27788 817; CX 817 16952 27663; CX 27915 27788 14754; CX 16951 27788 14753; CA 14754 14753 14752; CX 14752 27788 27789; CX 27852 27789 816;
  CX 816 16953 27664; CX 27916 27789 14751; CX 16952 27789 14750; CA 14751 14750 14749; CX 14749 27789 27790; CX 27853 27790 815; CX 815 16954 27665; CX 27917 27790 14748;
  CX 16953 27790 14747; CA 14748 14747 14746; CX 14746 27790 27791; CX 27854 27791 814; CX 814 16955 27666; CX 27918 27791 14745; CX 16954 27791 14744; CA 14745 14744 14743;
  CX 14743 27791 27792; CX 27855 27792 813; CX 813 16956 27667; CX 27919 27792 14742; CX 16955 27792 14741; CA 14742 14741 14740; CX 14740 27792 27793; CX 27856 27793 812;
  CX 812 16957 27668; CX 27920 27793 14739; CX 16956 27793 14738; CA 14739 14738 14737; CX 14737 27793 27794; CX 27857 27794 811; CX 811 16958 27669; CX 27921 27794 14736;
  CX 16957 27794 14735; CA 14736 14735 14734; CX 14734 27794 27795; CX 27858 27795 810; CX 810 16959 27670; CX 27922 27795 14733; CX 16958 27795 14732; CA 14733 14732 14731;
  CX 14731 27795 27796; CX 27859 27796 809; CX 809 16960 27671; CX 27923 27796 14730; CX 16959 27796 14729; CA 14730 14729 14728; CX 14728 27796 27797; CX 27860 27797 808;
  CX 808 16961 27672; CX 27924 27797 14727; CX 16960 27797 14726; CA 14727 14726 14725; CX 14725 27797 27798; CX 27861 27798 807; CX 807 16962 27673; CX 27925 27798 14724;
  CX 16961 27798 14723; CA 14724 14723 14722; CX 14722 27798 27799; CX 27862 27799 806; CX 806 16963 27674; CX 27926 27799 14721; CX 16962 27799 14720; CA 14721 14720 14719;
  CX 14719 27799 27800; CX 27863 27800 805; CX 805 16964 27675; CX 27927 27800 14718; CX 16963 27800 14717; CA 14718 14717 14716; CX 14716 27800 27801; CX 27864 27801 804;
  CX 804 16965 27676; CX 27928 27801 14715; CX 16964 27801 14714; CA 14715 14714 14713; CX 14713 27801 27802; CX 27865 27802 803; CX 803 16966 27677; CX 27929 27802 14712;
  CX 16965 27802 14711; CA 14712 14711 14710; CX 14710 27802 27803; CX 27866 27803 802; CX 802 16967 27678; CX 27930 27803 14709; CX 16966 27803 14708; CA 14709 14708 14707;
  CX 14707 27803 27804; CX 27867 27804 801; CX 801 16968 27679; CX 27931 27804 14706; CX 16967 27804 14705; CA 14706 14705 14704; CX 14704 27804 27805; CX 27868 27805 800;
  CX 800 16969 27680; CX 27932 27805 14703; CX 16968 27805 14702; CA 14703 14702 14701; CX 14701 27805 27806; CX 27869 27806 799; CX 799 16970 27681; CX 27933 27806 14700;
  CX 16969 27806 14699; CA 14700 14699 14698; CX 14698 27806 27807; CX 27870 27807 798; CX 798 16971 27682; CX 27934 27807 14697; CX 16970 27807 14696; CA 14697 14696 14695;
  CX 14695 27807 27808; CX 27871 27808 797; CX 797 16972 27683; CX 27935 27808 14694; CX 16971 27808 14693; CA 14694 14693 14692; CX 14692 27808 27809; CX 27872 27809 796;
  CX 796 16973 27684; CX 27936 27809 14691; CX 16972 27809 14690; CA 14691 14690 14689; CX 14689 27809 27810; CX 27873 27810 795; CX 795 16974 27685; CX 27937 27810 14688;
  CX 16973 27810 14687; CA 14688 14687 14686; CX 14686 27810 27811; CX 27874 27811 794; CX 794 16975 27686; CX 27938 27811 14685; CX 16974 27811 14684; CA 14685 14684 14683;
  CX 14683 27811 27812; CX 27875 27812 793; CX 793 16976 27687; CX 27939 27812 14682; CX 16975 27812 14681; CA 14682 14681 14680; CX 14680 27812 27813; CX 27876 27813 792;
  CX 792 16977 27688; CX 27940 27813 14679; CX 16976 27813 14678; CA 14679 14678 14677; CX 14677 27813 27814; CX 27877 27814 791; CX 791 16978 27689; CX 27941 27814 14676;
  CX 16977 27814 14675; CA 14676 14675 14674; CX 14674 27814 27815; CX 27878 27815 790; CX 790 16979 27690; CX 27942 27815 14673; CX 16978 27815 14672; CA 14673 14672 14671;
  CX 14671 27815 27816; CX 27879 27816 789; CX 789 16980 27691; CX 27943 27816 14670; CX 16979 27816 14669; CA 14670 14669 14668; CX 14668 27816 27817; CX 27880 27817 788;
  CX 788 16981 27692; CX 27944 27817 14667; CX 16980 27817 14666; CA 14667 14666 14665; CX 14665 27817 27818; CX 27881 27818 787; CX 787 16982 27693; CX 27945 27818 14664;
  CX 16981 27818 14663; CA 14664 14663 14662; CX 14662 27818 27819; CX 27882 27819 786; CX 786 16983 27694; CX 27946 27819 14661; CX 16982 27819 14660; CA 14661 14660 14659;
  CX 14659 27819 27820; CX 27883 27820 785; CX 785 16984 27695; CX 27947 27820 14658; CX 16983 27820 14657; CA 14658 14657 14656; CX 14656 27820 27821; CX 27884 27821 784;
  CX 784 16985 27696; CX 27948 27821 14655; CX 16984 27821 14654; CA 14655 14654 14653; CX 14653 27821 27822; CX 27885 27822 783; CX 783 16986 27697; CX 27949 27822 14652;
  CX 16985 27822 14651; CA 14652 14651 14650; CX 14650 27822 27823; CX 27886 27823 782; CX 782 16987 27698; CX 27950 27823 14649; CX 16986 27823 14648; CA 14649 14648 14647;
  CX 14647 27823 27824; CX 27887 27824 781; CX 781 16988 27699; CX 27951 27824 14646; CX 16987 27824 14645; CA 14646 14645 14644; CX 14644 27824 27825; CX 27888 27825 780;
  CX 780 16989 27700; CX 27952 27825 14643; CX 16988 27825 14642; CA 14643 14642 14641; CX 14641 27825 27826; CX 27889 27826 779; CX 779 16990 27701; CX 27953 27826 14640;
  CX 16989 27826 14639; CA 14640 14639 14638; CX 14638 27826 27827; CX 27890 27827 778; CX 778 16991 27702; CX 27954 27827 14637; CX 16990 27827 14636; CA 14637 14636 14635;
  CX 14635 27827 27828; CX 27891 27828 777; CX 777 16992 27703; CX 27955 27828 14634; CX 16991 27828 14633; CA 14634 14633 14632; CX 14632 27828 27829; CX 27892 27829 776;
  CX 776 16993 27704; CX 27956 27829 14631; CX 16992 27829 14630; CA 14631 14630 14629; CX 14629 27829 27830; CX 27893 27830 775; CX 775 16994 27705; CX 27957 27830 14628;
  CX 16993 27830 14627; CA 14628 14627 14626; CX 14626 27830 27831; CX 27894 27831 774; CX 774 16995 27706; CX 27958 27831 14625; CX 16994 27831 14624; CA 14625 14624 14623;
  CX 14623 27831 27832; CX 27895 27832 773; CX 773 16996 27707; CX 27959 27832 14622; CX 16995 27832 14621; CA 14622 14621 14620; CX 14620 27832 27833; CX 27896 27833 772;
  CX 772 16997 27708; CX 27960 27833 14619; CX 16996 27833 14618; CA 14619 14618 14617; CX 14617 27833 27834; CX 27897 27834 771; CX 771 16998 27709; CX 27961 27834 14616;
  CX 16997 27834 14615; CA 14616 14615 14614; CX 14614 27834 27835; CX 27898 27835 770; CX 770 16999 27710; CX 27962 27835 14613; CX 16998 27835 14612; CA 14613 14612 14611;
  CX 14611 27835 27836; CX 27899 27836 769; CX 769 17000 27711; CX 27963 27836 14610; CX 16999 27836 14609; CA 14610 14609 14608; CX 14608 27836 27837; CX 27900 27837 768;
  CX 768 17001 27712; CX 27964 27837 14607; CX 17000 27837 14606; CA 14607 14606 14605; CX 14605 27837 27838; CX 27901 27838 767; CX 767 17002 27713; CX 27965 27838 14604;
  CX 17001 27838 14603; CA 14604 14603 14602; CX 14602 27838 27839; CX 27902 27839 766; CX 766 17003 27714; CX 27966 27839 14601; CX 17002 27839 14600; CA 14601 14600 14599;
  CX 14599 27839 27840; CX 27903 27840 765; CX 765 17004 27715; CX 27967 27840 14598; CX 17003 27840 14597; CA 14598 14597 14596; CX 14596 27840 27841; CX 27904 27841 764;
  CX 764 17005 27716; CX 27968 27841 14595; CX 17004 27841 14594; CA 14595 14594 14593; CX 14593 27841 27842; CX 27905 27842 763; CX 763 17006 27717; CX 27969 27842 14592;
  CX 17005 27842 14591; CA 14592 14591 14590; CX 14590 27842 27843; CX 27906 27843 762; CX 762 17007 27718; CX 27970 27843 14589; CX 17006 27843 14588; CA 14589 14588 14587;
  CX 14587 27843 27844; CX 27907 27844 761; CX 761 17008 27719; CX 27971 27844 14586; CX 17007 27844 14585; CA 14586 14585 14584; CX 14584 27844 27845; CX 27908 27845 760;
  CX 760 17009 27720; CX 27972 27845 14583; CX 17008 27845 14582; CA 14583 14582 14581; CX 14581 27845 27846; CX 27909 27846 139; CA 16684 4535 17568; CI 139 16683;
  CX 16872 16683 27721; CX 822 16683 27722; CX 821 16683 27723; CX 820 16683 27724; CX 819 16683 27725; CX 818 16683 27726; CX 817 16683 27727; CX 816 16683 27728;
  CX 815 16683 27729; CX 814 16683 27730; CX 813 16683 27731; CX 812 16683 27732; CX 811 16683 27733; CX 810 16683 27734; CX 809 16683 27735; CX 808 16683 27736;
  CX 807 16683 27737; CX 806 16683 27738; CX 805 16683 27739; CX 804 16683 27740; CX 803 16683 27741; CX 802 16683 27742; CX 801 16683 27743; CX 800 16683 27744;
  CX 799 16683 27745; CX 798 16683 27746; CX 797 16683 27747; CX 796 16683 27748; CX 795 16683 27749; CX 794 16683 27750; CX 793 16683 27751; CX 792 16683 27752;
  CX 791 16683 27753; CX 790 16683 27754; CX 789 16683 27755; CX 788 16683 27756; CX 787 16683 27757; CX 786 16683 27758; CX 785 16683 27759; CX 784 16683 27760].
(** Lines 6005-6404 of the file. *)
Definition divide64_15 : list cg := [
  CX 783 16683 27761; CX 782 16683 27762; CX 781 16683 27763; CX 780 16683 27764; CX 779 16683 27765; CX 778 16683 27766; CX 777 16683 27767; CX 776 16683 27768;
  CX 775 16683 27769; CX 774 16683 27770; CX 773 16683 27771; CX 772 16683 27772; CX 771 16683 27773; CX 770 16683 27774; CX 769 16683 27775; CX 768 16683 27776;
  CX 767 16683 27777; CX 766 16683 27778; CX 765 16683 27779; CX 764 16683 27780; CX 763 16683 27781; CX 762 16683 27782; CX 761 16683 27783; CA 27721 16946 27595;
  CX 27658 27595 884; CX 884 16948 27470; CX 27722 27595 14580; CX 16947 27595 14579; CA 14580 14579 14578; CX 14578 27595 27596; CX 27659 27596 883; CX 883 16949 27471;
  CX 27723 27596 14577; CX 16948 27596 14576; CA 14577 14576 14575; CX 14575 27596 27597; CX 27660 27597 882; CX 882 16950 27472; CX 27724 27597 14574; CX 16949 27597 14573;
  CA 14574 14573 14572; CX 14572 27597 27598; CX 27661 27598 881; CX 881 16951 27473; CX 27725 27598 14571; CX 16950 27598 14570; CA 14571 14570 14569; CX 14569 27598 27599;
  CX 27662 27599 880; CX 880 16952 27474; CX 27726 27599 14568; CX 16951 27599 14567; CA 14568 14567 14566; CX 14566 27599 27600; CX 27663 27600 879; CX 879 16953 27475;
  CX 27727 27600 14565; CX 16952 27600 14564; CA 14565 14564 14563; CX 14563 27600 27601; CX 27664 27601 878; CX 878 16954 27476; CX 27728 27601 14562; CX 16953 27601 14561;
  CA 14562 14561 14560; CX 14560 27601 27602; CX 27665 27602 877; CX 877 16955 27477; CX 27729 27602 14559; CX 16954 27602 14558; CA 14559 14558 14557; CX 14557 27602 27603;
  CX 27666 27603 876; CX 876 16956 27478; CX 27730 27603 14556; CX 16955 27603 14555; CA 14556 14555 14554; CX 14554 27603 27604; CX 27667 27604 875; CX 875 16957 27479;
  CX 27731 27604 14553; CX 16956 27604 14552; CA 14553 14552 14551; CX 14551 27604 27605; CX 27668 27605 874; CX 874 16958 27480; CX 27732 27605 14550; CX 16957 27605 14549;
  CA 14550 14549 14548; CX 14548 27605 27606; CX 27669 27606 873; CX 873 16959 27481; CX 27733 27606 14547; CX 16958 27606 14546; CA 14547 14546 14545; CX 14545 27606 27607;
  CX 27670 27607 872; CX 872 16960 27482; CX 27734 27607 14544; CX 16959 27607 14543; CA 14544 14543 14542; CX 14542 27607 27608; CX 27671 27608 871; CX 871 16961 27483;
  CX 27735 27608 14541; CX 16960 27608 14540; CA 14541 14540 14539; CX 14539 27608 27609; CX 27672 27609 870; CX 870 16962 27484; CX 27736 27609 14538; CX 16961 27609 14537;
  CA 14538 14537 14536; CX 14536 27609 27610; CX 27673 27610 869; CX 869 16963 27485; CX 27737 27610 14535; CX 16962 27610 14534; CA 14535 14534 14533; CX 14533 27610 27611;
  CX 27674 27611 868; CX 868 16964 27486; CX 27738 27611 14532; CX 16963 27611 14531; CA 14532 14531 14530; CX 14530 27611 27612; CX 27675 27612 867; CX 867 16965 27487;
  CX 27739 27612 14529; CX 16964 27612 14528; CA 14529 14528 14527; CX 14527 27612 27613; CX 27676 27613 866; CX 866 16966 27488; CX 27740 27613 14526; CX 16965 27613 14525;
  CA 14526 14525 14524; CX 14524 27613 27614; CX 27677 27614 865; CX 865 16967 27489; CX 27741 27614 14523; CX 16966 27614 14522; CA 14523 14522 14521; CX 14521 27614 27615;
  CX 27678 27615 864; CX 864 16968 27490; CX 27742 27615 14520; CX 16967 27615 14519; CA 14520 14519 14518; CX 14518 27615 27616; CX 27679 27616 863; CX 863 16969 27491;
  CX 27743 27616 14517; CX 16968 27616 14516; CA 14517 14516 14515; CX 14515 27616 27617; CX 27680 27617 862; CX 862 16970 27492; CX 27744 27617 14514; CX 16969 27617 14513;
  CA 14514 14513 14512; CX 14512 27617 27618; CX 27681 27618 861; CX 861 16971 27493; CX 27745 27618 14511; CX 16970 27618 14510; CA 14511 14510 14509; CX 14509 27618 27619;
  CX 27682 27619 860; CX 860 16972 27494; CX 27746 27619 14508; CX 16971 27619 14507; CA 14508 14507 14506; CX 14506 27619 27620; CX 27683 27620 859; CX 859 16973 27495;
  CX 27747 27620 14505; CX 16972 27620 14504; CA 14505 14504 14503; CX 14503 27620 27621; CX 27684 27621 858; CX 858 16974 27496; CX 27748 27621 14502; CX 16973 27621 14501;
  CA 14502 14501 14500; CX 14500 27621 27622; CX 27685 27622 857; CX 857 16975 27497; CX 27749 27622 14499; CX 16974 27622 14498; CA 14499 14498 14497; CX 14497 27622 27623;
  CX 27686 27623 856; CX 856 16976 27498; CX 27750 27623 14496; CX 16975 27623 14495; CA 14496 14495 14494; CX 14494 27623 27624; CX 27687 27624 855; CX 855 16977 27499;
  CX 27751 27624 14493; CX 16976 27624 14492; CA 14493 14492 14491; CX 14491 27624 27625; CX 27688 27625 854; CX 854 16978 27500; CX 27752 27625 14490; CX 16977 27625 14489;
  CA 14490 14489 14488; CX 14488 27625 27626; CX 27689 27626 853; CX 853 16979 27501; CX 27753 27626 14487; CX 16978 27626 14486; CA 14487 14486 14485; CX 14485 27626 27627;
  CX 27690 27627 852; CX 852 16980 27502; CX 27754 27627 14484; CX 16979 27627 14483; CA 14484 14483 14482; CX 14482 27627 27628; CX 27691 27628 851; CX 851 16981 27503;
  CX 27755 27628 14481; CX 16980 27628 14480; CA 14481 14480 14479; CX 14479 27628 27629; CX 27692 27629 850; CX 850 16982 27504; CX 27756 27629 14478; CX 16981 27629 14477;
  CA 14478 14477 14476; CX 14476 27629 27630; CX 27693 27630 849; CX 849 16983 27505; CX 27757 27630 14475; CX 16982 27630 14474; CA 14475 14474 14473; CX 14473 27630 27631;
  CX 27694 27631 848; CX 848 16984 27506; CX 27758 27631 14472; CX 16983 27631 14471; CA 14472 14471 14470; CX 14470 27631 27632; CX 27695 27632 847; CX 847 16985 27507;
  CX 27759 27632 14469; CX 16984 27632 14468; CA 14469 14468 14467; CX 14467 27632 27633; CX 27696 27633 846; CX 846 16986 27508; CX 27760 27633 14466; CX 16985 27633 14465;
  CA 14466 14465 14464; CX 14464 27633 27634; CX 27697 27634 845; CX 845 16987 27509; CX 27761 27634 14463; CX 16986 27634 14462; CA 14463 14462 14461; CX 14461 27634 27635;
  CX 27698 27635 844; CX 844 16988 27510; CX 27762 27635 14460; CX 16987 27635 14459; CA 14460 14459 14458; CX 14458 27635 27636; CX 27699 27636 843; CX 843 16989 27511;
  CX 27763 27636 14457; CX 16988 27636 14456; CA 14457 14456 14455; CX 14455 27636 27637; CX 27700 27637 842; CX 842 16990 27512; CX 27764 27637 14454; CX 16989 27637 14453;
  CA 14454 14453 14452; CX 14452 27637 27638; CX 27701 27638 841; CX 841 16991 27513; CX 27765 27638 14451; CX 16990 27638 14450; CA 14451 14450 14449; CX 14449 27638 27639;
  CX 27702 27639 840; CX 840 16992 27514; CX 27766 27639 14448; CX 16991 27639 14447; CA 14448 14447 14446; CX 14446 27639 27640; CX 27703 27640 839; CX 839 16993 27515;
  CX 27767 27640 14445; CX 16992 27640 14444; CA 14445 14444 14443; CX 14443 27640 27641; CX 27704 27641 838; CX 838 16994 27516; CX 27768 27641 14442; CX 16993 27641 14441;
  CA 14442 14441 14440; CX 14440 27641 27642; CX 27705 27642 837; CX 837 16995 27517; CX 27769 27642 14439; CX 16994 27642 14438; CA 14439 14438 14437; CX 14437 27642 27643;
  CX 27706 27643 836; CX 836 16996 27518; CX 27770 27643 14436; CX 16995 27643 14435; CA 14436 14435 14434; CX 14434 27643 27644; CX 27707 27644 835; CX 835 16997 27519;
  CX 27771 27644 14433; CX 16996 27644 14432; CA 14433 14432 14431; CX 14431 27644 27645; CX 27708 27645 834; CX 834 16998 27520; CX 27772 27645 14430; CX 16997 27645 14429;
  CA 14430 14429 14428; CX 14428 27645 27646; CX 27709 27646 833; CX 833 16999 27521; CX 27773 27646 14427; CX 16998 27646 14426; CA 14427 14426 14425; CX 14425 27646 27647;
  CX 27710 27647 832; CX 832 17000 27522; CX 27774 27647 14424; CX 16999 27647 14423; CA 14424 14423 14422; CX 14422 27647 27648; CX 27711 27648 831; CX 831 17001 27523;
  CX 27775 27648 14421; CX 17000 27648 14420; CA 14421 14420 14419; CX 14419 27648 27649; CX 27712 27649 830; CX 830 17002 27524; CX 27776 27649 14418; CX 17001 27649 14417;
  CA 14418 14417 14416; CX 14416 27649 27650; CX 27713 27650 829; CX 829 17003 27525; CX 27777 27650 14415; CX 17002 27650 14414; CA 14415 14414 14413; CX 14413 27650 27651;
  CX 27714 27651 828; CX 828 17004 27526; CX 27778 27651 14412; CX 17003 27651 14411; CA 14412 14411 14410; CX 14410 27651 27652; CX 27715 27652 827; CX 827 17005 27527;
  CX 27779 27652 14409; CX 17004 27652 14408; CA 14409 14408 14407; CX 14407 27652 27653; CX 27716 27653 826; CX 826 17006 27528; CX 27780 27653 14406; CX 17005 27653 14405;
  CA 14406 14405 14404; CX 14404 27653 27654; CX 27717 27654 825; CX 825 17007 27529; CX 27781 27654 14403; CX 17006 27654 14402; CA 14403 14402 14401; CX 14401 27654 27655;
  CX 27718 27655 824; CX 824 17008 27530; CX 27782 27655 14400; CX 17007 27655 14399; CA 14400 14399 14398; CX 14398 27655 27656; CX 27719 27656 823; CX 823 17009 27531;
  CX 27783 27656 14397; CX 17008 27656 14396; CA 14397 14396 14395; CX 14395 27656 27657; CX 27720 27657 140; CI 140 16682; CX 16871 16682 27532; CX 885 16682 27533].
(** Lines 6405-6804 of the file. *)
Definition divide64_16 : list cg := [
  CX 884 16682 27534; CX 883 16682 27535; CX 882 16682 27536; CX 881 16682 27537; CX 880 16682 27538; CX 879 16682 27539; CX 878 16682 27540; CX 877 16682 27541;
  CX 876 16682 27542; CX 875 16682 27543; CX 874 16682 27544; CX 873 16682 27545; CX 872 16682 27546; CX 871 16682 27547; CX 870 16682 27548; CX 869 16682 27549;
  CX 868 16682 27550; CX 867 16682 27551; CX 866 16682 27552; CX 865 16682 27553; CX 864 16682 27554; CX 863 16682 27555; CX 862 16682 27556; CX 861 16682 27557;
  CX 860 16682 27558; CX 859 16682 27559; CX 858 16682 27560; CX 857 16682 27561; CX 856 16682 27562; CX 855 16682 27563; CX 854 16682 27564; CX 853 16682 27565;
  CX 852 16682 27566; CX 851 16682 27567; CX 850 16682 27568; CX 849 16682 27569; CX 848 16682 27570; CX 847 16682 27571; CX 846 16682 27572; CX 845 16682 27573;
  CX 844 16682 27574; CX 843 16682 27575; CX 842 16682 27576; CX 841 16682 27577; CX 840 16682 27578; CX 839 16682 27579; CX 838 16682 27580; CX 837 16682 27581;
  CX 836 16682 27582; CX 835 16682 27583; CX 834 16682 27584; CX 833 16682 27585; CX 832 16682 27586; CX 831 16682 27587; CX 830 16682 27588; CX 829 16682 27589;
  CX 828 16682 27590; CX 827 16682 27591; CX 826 16682 27592; CX 825 16682 27593; CX 824 16682 27594; CA 27532 16946 27406; CX 27469 27406 947; CX 947 16948 27281;
  CX 27533 27406 14394; CX 16947 27406 14393; CA 14394 14393 14392; CX 14392 27406 27407; CX 27470 27407 946; CX 946 16949 27282; CX 27534 27407 14391; CX 16948 27407 14390;
  CA 14391 14390 14389; CX 14389 27407 27408; CX 27471 27408 945; CX 945 16950 27283; CX 27535 27408 14388; CX 16949 27408 14387; CA 14388 14387 14386; CX 14386 27408 27409;
  CX 27472 27409 944; CX 944 16951 27284; CX 27536 27409 14385; CX 16950 27409 14384; CA 14385 14384 14383; CX 14383 27409 27410; CX 27473 27410 943; CX 943 16952 27285;
  CX 27537 27410 14382; CX 16951 27410 14381; CA 14382 14381 14380; CX 14380 27410 27411; CX 27474 27411 942; CX 942 16953 27286; CX 27538 27411 14379; CX 16952 27411 14378;
  CA 14379 14378 14377; CX 14377 27411 27412; CX 27475 27412 941; CX 941 16954 27287; CX 27539 27412 14376; CX 16953 27412 14375; CA 14376 14375 14374; CX 14374 27412 27413;
  CX 27476 27413 940; CX 940 16955 27288; CX 27540 27413 14373; CX 16954 27413 14372; CA 14373 14372 14371; CX 14371 27413 27414; CX 27477 27414 939; CX 939 16956 27289;
  CX 27541 27414 14370; CX 16955 27414 14369; CA 14370 14369 14368; CX 14368 27414 27415; CX 27478 27415 938; CX 938 16957 27290; CX 27542 27415 14367; CX 16956 27415 14366;
  CA 14367 14366 14365; CX 14365 27415 27416; CX 27479 27416 937; CX 937 16958 27291; CX 27543 27416 14364; CX 16957 27416 14363; CA 14364 14363 14362; CX 14362 27416 27417;
  CX 27480 27417 936; CX 936 16959 27292; CX 27544 27417 14361; CX 16958 27417 14360; CA 14361 14360 14359; CX 14359 27417 27418; CX 27481 27418 935; CX 935 16960 27293;
  CX 27545 27418 14358; CX 16959 27418 14357; CA 14358 14357 14356; CX 14356 27418 27419; CX 27482 27419 934; CX 934 16961 27294; CX 27546 27419 14355; CX 16960 27419 14354;
  CA 14355 14354 14353; CX 14353 27419 27420; CX 27483 27420 933; CX 933 16962 27295; CX 27547 27420 14352; CX 16961 27420 14351; CA 14352 14351 14350; CX 14350 27420 27421;
  CX 27484 27421 932; CX 932 16963 27296; CX 27548 27421 14349; CX 16962 27421 14348; CA 14349 14348 14347; CX 14347 27421 27422; CX 27485 27422 931; CX 931 16964 27297;
  CX 27549 27422 14346; CX 16963 27422 14345; CA 14346 14345 14344; CX 14344 27422 27423; CX 27486 27423 930; CX 930 16965 27298; CX 27550 27423 14343; CX 16964 27423 14342;
  CA 14343 14342 14341; CX 14341 27423 27424; CX 27487 27424 929; CX 929 16966 27299; CX 27551 27424 14340; CX 16965 27424 14339; CA 14340 14339 14338; CX 14338 27424 27425;
  CX 27488 27425 928; CX 928 16967 27300; CX 27552 27425 14337; CX 16966 27425 14336; CA 14337 14336 14335; CX 14335 27425 27426; CX 27489 27426 927; CX 927 16968 27301;
  CX 27553 27426 14334; CX 16967 27426 14333; CA 14334 14333 14332; CX 14332 27426 27427; CX 27490 27427 926; CX 926 16969 27302; CX 27554 27427 14331; CX 16968 27427 14330;
  CA 14331 14330 14329; CX 14329 27427 27428; CX 27491 27428 925; CX 925 16970 27303; CX 27555 27428 14328; CX 16969 27428 14327; CA 14328 14327 14326; CX 14326 27428 27429;
  CX 27492 27429 924; CX 924 16971 27304; CX 27556 27429 14325; CX 16970 27429 14324; CA 14325 14324 14323; CX 14323 27429 27430; CX 27493 27430 923; CX 923 16972 27305;
  CX 27557 27430 14322; CX 16971 27430 14321; CA 14322 14321 14320; CX 14320 27430 27431; CX 27494 27431 922; CX 922 16973 27306; CX 27558 27431 14319; CX 16972 27431 14318;
  CA 14319 14318 14317; CX 14317 27431 27432; CX 27495 27432 921; CX 921 16974 27307; CX 27559 27432 14316; CX 16973 27432 14315; CA 14316 14315 14314; CX 14314 27432 27433;
  CX 27496 27433 920; CX 920 16975 27308; CX 27560 27433 14313; CX 16974 27433 14312; CA 14313 14312 14311; CX 14311 27433 27434; CX 27497 27434 919; CX 919 16976 27309;
  CX 27561 27434 14310; CX 16975 27434 14309; CA 14310 14309 14308; CX 14308 27434 27435; CX 27498 27435 918; CX 918 16977 27310; CX 27562 27435 14307; CX 16976 27435 14306;
  CA 14307 14306 14305; CX 14305 27435 27436; CX 27499 27436 917; CX 917 16978 27311; CX 27563 27436 14304; CX 16977 27436 14303; CA 14304 14303 14302; CX 14302 27436 27437;
  CX 27500 27437 916; CX 916 16979 27312; CX 27564 27437 14301; CX 16978 27437 14300; CA 14301 14300 14299; CX 14299 27437 27438; CX 27501 27438 915; CX 915 16980 27313;
  CX 27565 27438 14298; CX 16979 27438 14297; CA 14298 14297 14296; CX 14296 27438 27439; CX 27502 27439 914; CX 914 16981 27314; CX 27566 27439 14295; CX 16980 27439 14294;
  CA 14295 14294 14293; CX 14293 27439 27440; CX 27503 27440 913; CX 913 16982 27315; CX 27567 27440 14292; CX 16981 27440 14291; CA 14292 14291 14290; CX 14290 27440 27441;
  CX 27504 27441 912; CX 912 16983 27316; CX 27568 27441 14289; CX 16982 27441 14288; CA 14289 14288 14287; CX 14287 27441 27442; CX 27505 27442 911; CX 911 16984 27317;
  CX 27569 27442 14286; CX 16983 27442 14285; CA 14286 14285 14284; CX 14284 27442 27443; CX 27506 27443 910; CX 910 16985 27318; CX 27570 27443 14283; CX 16984 27443 14282;
  CA 14283 14282 14281; CX 14281 27443 27444; CX 27507 27444 909; CX 909 16986 27319; CX 27571 27444 14280; CX 16985 27444 14279; CA 14280 14279 14278; CX 14278 27444 27445;
  CX 27508 27445 908; CX 908 16987 27320; CX 27572 27445 14277; CX 16986 27445 14276; CA 14277 14276 14275; CX 14275 27445 27446; CX 27509 27446 907; CX 907 16988 27321;
  CX 27573 27446 14274; CX 16987 27446 14273; CA 14274 14273 14272; CX 14272 27446 27447; CX 27510 27447 906; CX 906 16989 27322; CX 27574 27447 14271; CX 16988 27447 14270;
  CA 14271 14270 14269; CX 14269 27447 27448; CX 27511 27448 905; CX 905 16990 27323; CX 27575 27448 14268; CX 16989 27448 14267; CA 14268 14267 14266; CX 14266 27448 27449;
  CX 27512 27449 904; CX 904 16991 27324; CX 27576 27449 14265; CX 16990 27449 14264; CA 14265 14264 14263; CX 14263 27449 27450; CX 27513 27450 903; CX 903 16992 27325;
  CX 27577 27450 14262; CX 16991 27450 14261; CA 14262 14261 14260; CX 14260 27450 27451; CX 27514 27451 902; CX 902 16993 27326; CX 27578 27451 14259; CX 16992 27451 14258;
  CA 14259 14258 14257; CX 14257 27451 27452; CX 27515 27452 901; CX 901 16994 27327; CX 27579 27452 14256; CX 16993 27452 14255; CA 14256 14255 14254; CX 14254 27452 27453;
  CX 27516 27453 900; CX 900 16995 27328; CX 27580 27453 14253; CX 16994 27453 14252; CA 14253 14252 14251; CX 14251 27453 27454; CX 27517 27454 899; CX 899 16996 27329;
  CX 27581 27454 14250; CX 16995 27454 14249; CA 14250 14249 14248; CX 14248 27454 27455; CX 27518 27455 898; CX 898 16997 27330; CX 27582 27455 14247; CX 16996 27455 14246;
  CA 14247 14246 14245; CX 14245 27455 27456; CX 27519 27456 897; CX 897 16998 27331; CX 27583 27456 14244; CX 16997 27456 14243; CA 14244 14243 14242; CX 14242 27456 27457;
  CX 27520 27457 896; CX 896 16999 27332; CX 27584 27457 14241; CX 16998 27457 14240; CA 14241 14240 14239; CX 14239 27457 27458; CX 27521 27458 895; CX 895 17000 27333;
  CX 27585 27458 14238; CX 16999 27458 14237; CA 14238 14237 14236; CX 14236 27458 27459; CX 27522 27459 894; CX 894 17001 27334; CX 27586 27459 14235; CX 17000 27459 14234;
  CA 14235 14234 14233; CX 14233 27459 27460; CX 27523 27460 893; CX 893 17002 27335; CX 27587 27460 14232; CX 17001 27460 14231; CA 14232 14231 14230; CX 14230 27460 27461;
  CX 27524 27461 892; CX 892 17003 27336; CX 27588 27461 14229; CX 17002 27461 14228; CA 14229 14228 14227; CX 14227 27461 27462; CX 27525 27462 891; CX 891 17004 27337].
(** Lines 6805-7204 of the file. *)
Definition divide64_17 : list cg := [
  CX 27589 27462 14226; CX 17003 27462 14225; CA 14226 14225 14224; CX 14224 27462 27463; CX 27526 27463 890; CX 890 17005 27338; CX 27590 27463 14223; CX 17004 27463 14222;
  CA 14223 14222 14221; CX 14221 27463 27464; CX 27527 27464 889; CX 889 17006 27339; CX 27591 27464 14220; CX 17005 27464 14219; CA 14220 14219 14218; CX 14218 27464 27465;
  CX 27528 27465 888; CX 888 17007 27340; CX 27592 27465 14217; CX 17006 27465 14216; CA 14217 14216 14215; CX 14215 27465 27466; CX 27529 27466 887; CX 887 17008 27341;
  CX 27593 27466 14214; CX 17007 27466 14213; CA 14214 14213 14212; CX 14212 27466 27467; CX 27530 27467 886; CX 886 17009 27342; CX 27594 27467 14211; CX 17008 27467 14210;
  CA 14211 14210 14209; CX 14209 27467 27468; CX 27531 27468 141; CA 16682 4535 17566; CI 141 16681; CX 16870 16681 27343; CX 948 16681 27344; CX 947 16681 27345;
  CX 946 16681 27346; CX 945 16681 27347; CX 944 16681 27348; CX 943 16681 27349; CX 942 16681 27350; CX 941 16681 27351; CX 940 16681 27352; CX 939 16681 27353;
  CX 938 16681 27354; CX 937 16681 27355; CX 936 16681 27356; CX 935 16681 27357; CX 934 16681 27358; CX 933 16681 27359; CX 932 16681 27360; CX 931 16681 27361;
  CX 930 16681 27362; CX 929 16681 27363; CX 928 16681 27364; CX 927 16681 27365; CX 926 16681 27366; CX 925 16681 27367; CX 924 16681 27368; CX 923 16681 27369;
  CX 922 16681 27370; CX 921 16681 27371; CX 920 16681 27372; CX 919 16681 27373; CX 918 16681 27374; CX 917 16681 27375; CX 916 16681 27376; CX 915 16681 27377;
  CX 914 16681 27378; CX 913 16681 27379; CX 912 16681 27380; CX 911 16681 27381; CX 910 16681 27382; CX 909 16681 27383; CX 908 16681 27384; CX 907 16681 27385;
  CX 906 16681 27386; CX 905 16681 27387; CX 904 16681 27388; CX 903 16681 27389; CX 902 16681 27390; CX 901 16681 27391; CX 900 16681 27392; CX 899 16681 27393;
  CX 898 16681 27394; CX 897 16681 27395; CX 896 16681 27396; CX 895 16681 27397; CX 894 16681 27398; CX 893 16681 27399; CX 892 16681 27400; CX 891 16681 27401;
  CX 890 16681 27402; CX 889 16681 27403; CX 888 16681 27404; CX 887 16681 27405; CA 27343 16946 27217; CX 27280 27217 1010; CX 1010 16948 27092; CX 27344 27217 14208;
  CX 16947 27217 14207; CA 14208 14207 14206; CX 14206 27217 27218; CX 27281 27218 1009; CX 1009 16949 27093; CX 27345 27218 14205; CX 16948 27218 14204; CA 14205 14204 14203;
  CX 14203 27218 27219; CX 27282 27219 1008; CX 1008 16950 27094; CX 27346 27219 14202; CX 16949 27219 14201; CA 14202 14201 14200; CX 14200 27219 27220; CX 27283 27220 1007;
  CX 1007 16951 27095; CX 27347 27220 14199; CX 16950 27220 14198; CA 14199 14198 14197; CX 14197 27220 27221; CX 27284 27221 1006; CX 1006 16952 27096; CX 27348 27221 14196;
  CX 16951 27221 14195; CA 14196 14195 14194; CX 14194 27221 27222; CX 27285 27222 1005; CX 1005 16953 27097; CX 27349 27222 14193; CX 16952 27222 14192; CA 14193 14192 14191;
  CX 14191 27222 27223; CX 27286 27223 1004; CX 1004 16954 27098; CX 27350 27223 14190; CX 16953 27223 14189; CA 14190 14189 14188; CX 14188 27223 27224; CX 27287 27224 1003;
  CX 1003 16955 27099; CX 27351 27224 14187; CX 16954 27224 14186; CA 14187 14186 14185; CX 14185 27224 27225; CX 27288 27225 1002; CX 1002 16956 27100; CX 27352 27225 14184;
  CX 16955 27225 14183; CA 14184 14183 14182; CX 14182 27225 27226; CX 27289 27226 1001; CX 1001 16957 27101; CX 27353 27226 14181; CX 16956 27226 14180; CA 14181 14180 14179;
  CX 14179 27226 27227; CX 27290 27227 1000; CX 1000 16958 27102; CX 27354 27227 14178; CX 16957 27227 14177; CA 14178 14177 14176; CX 14176 27227 27228; CX 27291 27228 999;
  CX 999 16959 27103; CX 27355 27228 14175; CX 16958 27228 14174; CA 14175 14174 14173; CX 14173 27228 27229; CX 27292 27229 998; CX 998 16960 27104; CX 27356 27229 14172;
  CX 16959 27229 14171; CA 14172 14171 14170; CX 14170 27229 27230; CX 27293 27230 997; CX 997 16961 27105; CX 27357 27230 14169; CX 16960 27230 14168; CA 14169 14168 14167;
  CX 14167 27230 27231; CX 27294 27231 996; CX 996 16962 27106; CX 27358 27231 14166; CX 16961 27231 14165; CA 14166 14165 14164; CX 14164 27231 27232; CX 27295 27232 995;
  CX 995 16963 27107; CX 27359 27232 14163; CX 16962 27232 14162; CA 14163 14162 14161; CX 14161 27232 27233; CX 27296 27233 994; CX 994 16964 27108; CX 27360 27233 14160;
  CX 16963 27233 14159; CA 14160 14159 14158; CX 14158 27233 27234; CX 27297 27234 993; CX 993 16965 27109; CX 27361 27234 14157; CX 16964 27234 14156; CA 14157 14156 14155;
  CX 14155 27234 27235; CX 27298 27235 992; CX 992 16966 27110; CX 27362 27235 14154; CX 16965 27235 14153; CA 14154 14153 14152; CX 14152 27235 27236; CX 27299 27236 991;
  CX 991 16967 27111; CX 27363 27236 14151; CX 16966 27236 14150; CA 14151 14150 14149; CX 14149 27236 27237; CX 27300 27237 990; CX 990 16968 27112; CX 27364 27237 14148;
  CX 16967 27237 14147; CA 14148 14147 14146; CX 14146 27237 27238; CX 27301 27238 989; CX 989 16969 27113; CX 27365 27238 14145; CX 16968 27238 14144; CA 14145 14144 14143;
  CX 14143 27238 27239; CX 27302 27239 988; CX 988 16970 27114; CX 27366 27239 14142; CX 16969 27239 14141; CA 14142 14141 14140; CX 14140 27239 27240; CX 27303 27240 987;
  CX 987 16971 27115; CX 27367 27240 14139; CX 16970 27240 14138; CA 14139 14138 14137; CX 14137 27240 27241; CX 27304 27241 986; CX 986 16972 27116; CX 27368 27241 14136;
  CX 16971 27241 14135; CA 14136 14135 14134; CX 14134 27241 27242; CX 27305 27242 985; CX 985 16973 27117; CX 27369 27242 14133; CX 16972 27242 14132; CA 14133 14132 14131;
  CX 14131 27242 27243; CX 27306 27243 984; CX 984 16974 27118; CX 27370 27243 14130; CX 16973 27243 14129; CA 14130 14129 14128; CX 14128 27243 27244; CX 27307 27244 983;
  CX 983 16975 27119; CX 27371 27244 14127; CX 16974 27244 14126; CA 14127 14126 14125; CX 14125 27244 27245; CX 27308 27245 982; CX 982 16976 27120; CX 27372 27245 14124;
  CX 16975 27245 14123; CA 14124 14123 14122; CX 14122 27245 27246; CX 27309 27246 981; CX 981 16977 27121; CX 27373 27246 14121; CX 16976 27246 14120; CA 14121 14120 14119;
  CX 14119 27246 27247; CX 27310 27247 980; CX 980 16978 27122; CX 27374 27247 14118; CX 16977 27247 14117; CA 14118 14117 14116; CX 14116 27247 27248; CX 27311 27248 979;
  CX 979 16979 27123; CX 27375 27248 14115; CX 16978 27248 14114; CA 14115 14114 14113; CX 14113 27248 27249; CX 27312 27249 978; CX 978 16980 27124; CX 27376 27249 14112;
  CX 16979 27249 14111; CA 14112 14111 14110; CX 14110 27249 27250; CX 27313 27250 977; CX 977 16981 27125; CX 27377 27250 14109; CX 16980 27250 14108; CA 14109 14108 14107;
  CX 14107 27250 27251; CX 27314 27251 976; CX 976 16982 27126; CX 27378 27251 14106; CX 16981 27251 14105; CA 14106 14105 14104; CX 14104 27251 27252; CX 27315 27252 975;
  CX 975 16983 27127; CX 27379 27252 14103; CX 16982 27252 14102; CA 14103 14102 14101; CX 14101 27252 27253; CX 27316 27253 974; CX 974 16984 27128; CX 27380 27253 14100;
  CX 16983 27253 14099; CA 14100 14099 14098; CX 14098 27253 27254; CX 27317 27254 973; CX 973 16985 27129; CX 27381 27254 14097; CX 16984 27254 14096; CA 14097 14096 14095;
  CX 14095 27254 27255; CX 27318 27255 972; CX 972 16986 27130; CX 27382 27255 14094; CX 16985 27255 14093; CA 14094 14093 14092; CX 14092 27255 27256; CX 27319 27256 971;
  CX 971 16987 27131; CX 27383 27256 14091; CX 16986 27256 14090; CA 14091 14090 14089; CX 14089 27256 27257; CX 27320 27257 970; CX 970 16988 27132; CX 27384 27257 14088;
  CX 16987 27257 14087; CA 14088 14087 14086; CX 14086 27257 27258; CX 27321 27258 969; CX 969 16989 27133; CX 27385 27258 14085; CX 16988 27258 14084; CA 14085 14084 14083;
  CX 14083 27258 27259; CX 27322 27259 968; CX 968 16990 27134; CX 27386 27259 14082; CX 16989 27259 14081; CA 14082 14081 14080; CX 14080 27259 27260; CX 27323 27260 967;
  CX 967 16991 27135; CX 27387 27260 14079; CX 16990 27260 14078; CA 14079 14078 14077; CX 14077 27260 27261; CX 27324 27261 966; CX 966 16992 27136; CX 27388 27261 14076;
  CX 16991 27261 14075; CA 14076 14075 14074; CX 14074 27261 27262; CX 27325 27262 965; CX 965 16993 27137; CX 27389 27262 14073; CX 16992 27262 14072; CA 14073 14072 14071;
  CX 14071 27262 27263; CX 27326 27263 964; CX 964 16994 27138; CX 27390 27263 14070; CX 16993 27263 14069; CA 14070 14069 14068; CX 14068 27263 27264; CX 27327 27264 963;
  CX 963 16995 27139; CX 27391 27264 14067; CX 16994 27264 14066; CA 14067 14066 14065; CX 14065 27264 27265; CX 27328 27265 962; CX 962 16996 27140; CX 27392 27265 14064;
  CX 16995 27265 14063; CA 14064 14063 14062; CX 14062 27265 27266; CX 27329 27266 961; CX 961 16997 27141; CX 27393 27266 14061; CX 16996 27266 14060; CA 14061 14060 14059].
(** Lines 7205-7604 of the file. *)
Definition divide64_18 : list cg := [
  CX 14059 27266 27267; CX 27330 27267 960; CX 960 16998 27142; CX 27394 27267 14058; CX 16997 27267 14057; CA 14058 14057 14056; CX 14056 27267 27268; CX 27331 27268 959;
  CX 959 16999 27143; CX 27395 27268 14055; CX 16998 27268 14054; CA 14055 14054 14053; CX 14053 27268 27269; CX 27332 27269 958; CX 958 17000 27144; CX 27396 27269 14052;
  CX 16999 27269 14051; CA 14052 14051 14050; CX 14050 27269 27270; CX 27333 27270 957; CX 957 17001 27145; CX 27397 27270 14049; CX 17000 27270 14048; CA 14049 14048 14047;
  CX 14047 27270 27271; CX 27334 27271 956; CX 956 17002 27146; CX 27398 27271 14046; CX 17001 27271 14045; CA 14046 14045 14044; CX 14044 27271 27272; CX 27335 27272 955;
  CX 955 17003 27147; CX 27399 27272 14043; CX 17002 27272 14042; CA 14043 14042 14041; CX 14041 27272 27273; CX 27336 27273 954; CX 954 17004 27148; CX 27400 27273 14040;
  CX 17003 27273 14039; CA 14040 14039 14038; CX 14038 27273 27274; CX 27337 27274 953; CX 953 17005 27149; CX 27401 27274 14037; CX 17004 27274 14036; CA 14037 14036 14035;
  CX 14035 27274 27275; CX 27338 27275 952; CX 952 17006 27150; CX 27402 27275 14034; CX 17005 27275 14033; CA 14034 14033 14032; CX 14032 27275 27276; CX 27339 27276 951;
  CX 951 17007 27151; CX 27403 27276 14031; CX 17006 27276 14030; CA 14031 14030 14029; CX 14029 27276 27277; CX 27340 27277 950; CX 950 17008 27152; CX 27404 27277 14028;
  CX 17007 27277 14027; CA 14028 14027 14026; CX 14026 27277 27278; CX 27341 27278 949; CX 949 17009 27153; CX 27405 27278 14025; CX 17008 27278 14024; CA 14025 14024 14023;
  CX 14023 27278 27279; CX 27342 27279 142; CI 142 16680; CX 16869 16680 27154; CX 1011 16680 27155; CX 1010 16680 27156; CX 1009 16680 27157; CX 1008 16680 27158;
  CX 1007 16680 27159; CX 1006 16680 27160; CX 1005 16680 27161; CX 1004 16680 27162; CX 1003 16680 27163; CX 1002 16680 27164; CX 1001 16680 27165; CX 1000 16680 27166;
  CX 999 16680 27167; CX 998 16680 27168; CX 997 16680 27169; CX 996 16680 27170; CX 995 16680 27171; CX 994 16680 27172; CX 993 16680 27173; CX 992 16680 27174;
  CX 991 16680 27175; CX 990 16680 27176; CX 989 16680 27177; CX 988 16680 27178; CX 987 16680 27179; CX 986 16680 27180; CX 985 16680 27181; CX 984 16680 27182;
  CX 983 16680 27183; CX 982 16680 27184; CX 981 16680 27185; CX 980 16680 27186; CX 979 16680 27187; CX 978 16680 27188; CX 977 16680 27189; CX 976 16680 27190;
  CX 975 16680 27191; CX 974 16680 27192; CX 973 16680 27193; CX 972 16680 27194; CX 971 16680 27195; CX 970 16680 27196; CX 969 16680 27197; CX 968 16680 27198;
  CX 967 16680 27199; CX 966 16680 27200; CX 965 16680 27201; CX 964 16680 27202; CX 963 16680 27203; CX 962 16680 27204; CX 961 16680 27205; CX 960 16680 27206;
  CX 959 16680 27207; CX 958 16680 27208; CX 957 16680 27209; CX 956 16680 27210; CX 955 16680 27211; CX 954 16680 27212; CX 953 16680 27213; CX 952 16680 27214;
  CX 951 16680 27215; CX 950 16680 27216; CA 27154 16946 27028; CX 27091 27028 1073; CX 1073 16948 26903; CX 27155 27028 14022; CX 16947 27028 14021; CA 14022 14021 14020;
  CX 14020 27028 27029; CX 27092 27029 1072; CX 1072 16949 26904; CX 27156 27029 14019; CX 16948 27029 14018; CA 14019 14018 14017; CX 14017 27029 27030; CX 27093 27030 1071;
  CX 1071 16950 26905; CX 27157 27030 14016; CX 16949 27030 14015; CA 14016 14015 14014; CX 14014 27030 27031; CX 27094 27031 1070; CX 1070 16951 26906; CX 27158 27031 14013;
  CX 16950 27031 14012; CA 14013 14012 14011; CX 14011 27031 27032; CX 27095 27032 1069; CX 1069 16952 26907; CX 27159 27032 14010; CX 16951 27032 14009; CA 14010 14009 14008;
  CX 14008 27032 27033; CX 27096 27033 1068; CX 1068 16953 26908; CX 27160 27033 14007; CX 16952 27033 14006; CA 14007 14006 14005; CX 14005 27033 27034; CX 27097 27034 1067;
  CX 1067 16954 26909; CX 27161 27034 14004; CX 16953 27034 14003; CA 14004 14003 14002; CX 14002 27034 27035; CX 27098 27035 1066; CX 1066 16955 26910; CX 27162 27035 14001;
  CX 16954 27035 14000; CA 14001 14000 13999; CX 13999 27035 27036; CX 27099 27036 1065; CX 1065 16956 26911; CX 27163 27036 13998; CX 16955 27036 13997; CA 13998 13997 13996;
  CX 13996 27036 27037; CX 27100 27037 1064; CX 1064 16957 26912; CX 27164 27037 13995; CX 16956 27037 13994; CA 13995 13994 13993; CX 13993 27037 27038; CX 27101 27038 1063;
  CX 1063 16958 26913; CX 27165 27038 13992; CX 16957 27038 13991; CA 13992 13991 13990; CX 13990 27038 27039; CX 27102 27039 1062; CX 1062 16959 26914; CX 27166 27039 13989;
  CX 16958 27039 13988; CA 13989 13988 13987; CX 13987 27039 27040; CX 27103 27040 1061; CX 1061 16960 26915; CX 27167 27040 13986; CX 16959 27040 13985; CA 13986 13985 13984;
  CX 13984 27040 27041; CX 27104 27041 1060; CX 1060 16961 26916; CX 27168 27041 13983; CX 16960 27041 13982; CA 13983 13982 13981; CX 13981 27041 27042; CX 27105 27042 1059;
  CX 1059 16962 26917; CX 27169 27042 13980; CX 16961 27042 13979; CA 13980 13979 13978; CX 13978 27042 27043; CX 27106 27043 1058; CX 1058 16963 26918; CX 27170 27043 13977;
  CX 16962 27043 13976; CA 13977 13976 13975; CX 13975 27043 27044; CX 27107 27044 1057; CX 1057 16964 26919; CX 27171 27044 13974; CX 16963 27044 13973; CA 13974 13973 13972;
  CX 13972 27044 27045; CX 27108 27045 1056; CX 1056 16965 26920; CX 27172 27045 13971; CX 16964 27045 13970; CA 13971 13970 13969; CX 13969 27045 27046; CX 27109 27046 1055;
  CX 1055 16966 26921; CX 27173 27046 13968; CX 16965 27046 13967; CA 13968 13967 13966; CX 13966 27046 27047; CX 27110 27047 1054; CX 1054 16967 26922; CX 27174 27047 13965;
  CX 16966 27047 13964; CA 13965 13964 13963; CX 13963 27047 27048; CX 27111 27048 1053; CX 1053 16968 26923; CX 27175 27048 13962; CX 16967 27048 13961; CA 13962 13961 13960;
  CX 13960 27048 27049; CX 27112 27049 1052; CX 1052 16969 26924; CX 27176 27049 13959; CX 16968 27049 13958; CA 13959 13958 13957; CX 13957 27049 27050; CX 27113 27050 1051;
  CX 1051 16970 26925; CX 27177 27050 13956; CX 16969 27050 13955; CA 13956 13955 13954; CX 13954 27050 27051; CX 27114 27051 1050; CX 1050 16971 26926; CX 27178 27051 13953;
  CX 16970 27051 13952; CA 13953 13952 13951; CX 13951 27051 27052; CX 27115 27052 1049; CX 1049 16972 26927; CX 27179 27052 13950; CX 16971 27052 13949; CA 13950 13949 13948;
  CX 13948 27052 27053; CX 27116 27053 1048; CX 1048 16973 26928; CX 27180 27053 13947; CX 16972 27053 13946; CA 13947 13946 13945; CX 13945 27053 27054; CX 27117 27054 1047;
  CX 1047 16974 26929; CX 27181 27054 13944; CX 16973 27054 13943; CA 13944 13943 13942; CX 13942 27054 27055; CX 27118 27055 1046; CX 1046 16975 26930; CX 27182 27055 13941;
  CX 16974 27055 13940; CA 13941 13940 13939; CX 13939 27055 27056; CX 27119 27056 1045; CX 1045 16976 26931; CX 27183 27056 13938; CX 16975 27056 13937; CA 13938 13937 13936;
  CX 13936 27056 27057; CX 27120 27057 1044; CX 1044 16977 26932; CX 27184 27057 13935; CX 16976 27057 13934; CA 13935 13934 13933; CX 13933 27057 27058; CX 27121 27058 1043;
  CX 1043 16978 26933; CX 27185 27058 13932; CX 16977 27058 13931; CA 13932 13931 13930; CX 13930 27058 27059; CX 27122 27059 1042; CX 1042 16979 26934; CX 27186 27059 13929;
  CX 16978 27059 13928; CA 13929 13928 13927; CX 13927 27059 27060; CX 27123 27060 1041; CX 1041 16980 26935; CX 27187 27060 13926; CX 16979 27060 13925; CA 13926 13925 13924;
  CX 13924 27060 27061; CX 27124 27061 1040; CX 1040 16981 26936; CX 27188 27061 13923; CX 16980 27061 13922; CA 13923 13922 13921; CX 13921 27061 27062; CX 27125 27062 1039;
  CX 1039 16982 26937; CX 27189 27062 13920; CX 16981 27062 13919; CA 13920 13919 13918; CX 13918 27062 27063; CX 27126 27063 1038; CX 1038 16983 26938; CX 27190 27063 13917;
  CX 16982 27063 13916; CA 13917 13916 13915; CX 13915 27063 27064; CX 27127 27064 1037; CX 1037 16984 26939; CX 27191 27064 13914; CX 16983 27064 13913; CA 13914 13913 13912;
  CX 13912 27064 27065; CX 27128 27065 1036; CX 1036 16985 26940; CX 27192 27065 13911; CX 16984 27065 13910; CA 13911 13910 13909; CX 13909 27065 27066; CX 27129 27066 1035;
  CX 1035 16986 26941; CX 27193 27066 13908; CX 16985 27066 13907; CA 13908 13907 13906; CX 13906 27066 27067; CX 27130 27067 1034; CX 1034 16987 26942; CX 27194 27067 13905;
  CX 16986 27067 13904; CA 13905 13904 13903; CX 13903 27067 27068; CX 27131 27068 1033; CX 1033 16988 26943; CX 27195 27068 13902; CX 16987 27068 13901; CA 13902 13901 13900;
  CX 13900 27068 27069; CX 27132 27069 1032; CX 1032 16989 26944; CX 27196 27069 13899; CX 16988 27069 13898; CA 13899 13898 13897; CX 13897 27069 27070; CX 27133 27070 1031;
  CX 1031 16990 26945; CX 27197 27070 13896; CX 16989 27070 13895; CA 13896 13895 13894; CX 13894 27070 27071; CX 27134 27071 1030; CX 1030 16991 26946; CX 27198 27071 13893].
(** Lines 7605-8004 of the file. *)
Definition divide64_19 : list cg := [
  CX 16990 27071 13892; CA 13893 13892 13891; CX 13891 27071 27072; CX 27135 27072 1029; CX 1029 16992 26947; CX 27199 27072 13890; CX 16991 27072 13889; CA 13890 13889 13888;
  CX 13888 27072 27073; CX 27136 27073 1028; CX 1028 16993 26948; CX 27200 27073 13887; CX 16992 27073 13886; CA 13887 13886 13885; CX 13885 27073 27074; CX 27137 27074 1027;
  CX 1027 16994 26949; CX 27201 27074 13884; CX 16993 27074 13883; CA 13884 13883 13882; CX 13882 27074 27075; CX 27138 27075 1026; CX 1026 16995 26950; CX 27202 27075 13881;
  CX 16994 27075 13880; CA 13881 13880 13879; CX 13879 27075 27076; CX 27139 27076 1025; CX 1025 16996 26951; CX 27203 27076 13878; CX 16995 27076 13877; CA 13878 13877 13876;
  CX 13876 27076 27077; CX 27140 27077 1024; CX 1024 16997 26952; CX 27204 27077 13875; CX 16996 27077 13874; CA 13875 13874 13873; CX 13873 27077 27078; CX 27141 27078 1023;
  CX 1023 16998 26953; CX 27205 27078 13872; CX 16997 27078 13871; CA 13872 13871 13870; CX 13870 27078 27079; CX 27142 27079 1022; CX 1022 16999 26954; CX 27206 27079 13869;
  CX 16998 27079 13868; CA 13869 13868 13867; CX 13867 27079 27080; CX 27143 27080 1021; CX 1021 17000 26955; CX 27207 27080 13866; CX 16999 27080 13865; CA 13866 13865 13864;
  CX 13864 27080 27081; CX 27144 27081 1020; CX 1020 17001 26956; CX 27208 27081 13863; CX 17000 27081 13862; CA 13863 13862 13861; CX 13861 27081 27082; CX 27145 27082 1019;
  CX 1019 17002 26957; CX 27209 27082 13860; CX 17001 27082 13859; CA 13860 13859 13858; CX 13858 27082 27083; CX 27146 27083 1018; CX 1018 17003 26958; CX 27210 27083 13857;
  CX 17002 27083 13856; CA 13857 13856 13855; CX 13855 27083 27084; CX 27147 27084 1017; CX 1017 17004 26959; CX 27211 27084 13854; CX 17003 27084 13853; CA 13854 13853 13852;
  CX 13852 27084 27085; CX 27148 27085 1016; CX 1016 17005 26960; CX 27212 27085 13851; CX 17004 27085 13850; CA 13851 13850 13849; CX 13849 27085 27086; CX 27149 27086 1015;
  CX 1015 17006 26961; CX 27213 27086 13848; CX 17005 27086 13847; CA 13848 13847 13846; CX 13846 27086 27087; CX 27150 27087 1014; CX 1014 17007 26962; CX 27214 27087 13845;
  CX 17006 27087 13844; CA 13845 13844 13843; CX 13843 27087 27088; CX 27151 27088 1013; CX 1013 17008 26963; CX 27215 27088 13842; CX 17007 27088 13841; CA 13842 13841 13840;
  CX 13840 27088 27089; CX 27152 27089 1012; CX 1012 17009 26964; CX 27216 27089 13839; CX 17008 27089 13838; CA 13839 13838 13837; CX 13837 27089 27090; CX 27153 27090 143;
  CA 16680 4535 17564; CI 143 16679; CX 16868 16679 26965; CX 1074 16679 26966; CX 1073 16679 26967; CX 1072 16679 26968; CX 1071 16679 26969; CX 1070 16679 26970;
  CX 1069 16679 26971; CX 1068 16679 26972; CX 1067 16679 26973; CX 1066 16679 26974; CX 1065 16679 26975; CX 1064 16679 26976; CX 1063 16679 26977; CX 1062 16679 26978;
  CX 1061 16679 26979; CX 1060 16679 26980; CX 1059 16679 26981; CX 1058 16679 26982; CX 1057 16679 26983; CX 1056 16679 26984; CX 1055 16679 26985; CX 1054 16679 26986;
  CX 1053 16679 26987; CX 1052 16679 26988; CX 1051 16679 26989; CX 1050 16679 26990; CX 1049 16679 26991; CX 1048 16679 26992; CX 1047 16679 26993; CX 1046 16679 26994;
  CX 1045 16679 26995; CX 1044 16679 26996; CX 1043 16679 26997; CX 1042 16679 26998; CX 1041 16679 26999; CX 1040 16679 27000; CX 1039 16679 27001; CX 1038 16679 27002;
  CX 1037 16679 27003; CX 1036 16679 27004; CX 1035 16679 27005; CX 1034 16679 27006; CX 1033 16679 27007; CX 1032 16679 27008; CX 1031 16679 27009; CX 1030 16679 27010;
  CX 1029 16679 27011; CX 1028 16679 27012; CX 1027 16679 27013; CX 1026 16679 27014; CX 1025 16679 27015; CX 1024 16679 27016; CX 1023 16679 27017; CX 1022 16679 27018;
  CX 1021 16679 27019; CX 1020 16679 27020; CX 1019 16679 27021; CX 1018 16679 27022; CX 1017 16679 27023; CX 1016 16679 27024; CX 1015 16679 27025; CX 1014 16679 27026;
  CX 1013 16679 27027; CA 26965 16946 26839; CX 26902 26839 1136; CX 1136 16948 26714; CX 26966 26839 13836; CX 16947 26839 13835; CA 13836 13835 13834; CX 13834 26839 26840;
  CX 26903 26840 1135; CX 1135 16949 26715; CX 26967 26840 13833; CX 16948 26840 13832; CA 13833 13832 13831; CX 13831 26840 26841; CX 26904 26841 1134; CX 1134 16950 26716;
  CX 26968 26841 13830; CX 16949 26841 13829; CA 13830 13829 13828; CX 13828 26841 26842; CX 26905 26842 1133; CX 1133 16951 26717; CX 26969 26842 13827; CX 16950 26842 13826;
  CA 13827 13826 13825; CX 13825 26842 26843; CX 26906 26843 1132; CX 1132 16952 26718; CX 26970 26843 13824; CX 16951 26843 13823; CA 13824 13823 13822; CX 13822 26843 26844;
  CX 26907 26844 1131; CX 1131 16953 26719; CX 26971 26844 13821; CX 16952 26844 13820; CA 13821 13820 13819; CX 13819 26844 26845; CX 26908 26845 1130; CX 1130 16954 26720;
  CX 26972 26845 13818; CX 16953 26845 13817; CA 13818 13817 13816; CX 13816 26845 26846; CX 26909 26846 1129; CX 1129 16955 26721; CX 26973 26846 13815; CX 16954 26846 13814;
  CA 13815 13814 13813; CX 13813 26846 26847; CX 26910 26847 1128; CX 1128 16956 26722; CX 26974 26847 13812; CX 16955 26847 13811; CA 13812 13811 13810; CX 13810 26847 26848;
  CX 26911 26848 1127; CX 1127 16957 26723; CX 26975 26848 13809; CX 16956 26848 13808; CA 13809 13808 13807; CX 13807 26848 26849; CX 26912 26849 1126; CX 1126 16958 26724;
  CX 26976 26849 13806; CX 16957 26849 13805; CA 13806 13805 13804; CX 13804 26849 26850; CX 26913 26850 1125; CX 1125 16959 26725; CX 26977 26850 13803; CX 16958 26850 13802;
  CA 13803 13802 13801; CX 13801 26850 26851; CX 26914 26851 1124; CX 1124 16960 26726; CX 26978 26851 13800; CX 16959 26851 13799; CA 13800 13799 13798; CX 13798 26851 26852;
  CX 26915 26852 1123; CX 1123 16961 26727; CX 26979 26852 13797; CX 16960 26852 13796; CA 13797 13796 13795; CX 13795 26852 26853; CX 26916 26853 1122; CX 1122 16962 26728;
  CX 26980 26853 13794; CX 16961 26853 13793; CA 13794 13793 13792; CX 13792 26853 26854; CX 26917 26854 1121; CX 1121 16963 26729; CX 26981 26854 13791; CX 16962 26854 13790;
  CA 13791 13790 13789; CX 13789 26854 26855; CX 26918 26855 1120; CX 1120 16964 26730; CX 26982 26855 13788; CX 16963 26855 13787; CA 13788 13787 13786; CX 13786 26855 26856;
  CX 26919 26856 1119; CX 1119 16965 26731; CX 26983 26856 13785; CX 16964 26856 13784; CA 13785 13784 13783; CX 13783 26856 26857; CX 26920 26857 1118; CX 1118 16966 26732;
  CX 26984 26857 13782; CX 16965 26857 13781; CA 13782 13781 13780; CX 13780 26857 26858; CX 26921 26858 1117; CX 1117 16967 26733; CX 26985 26858 13779; CX 16966 26858 13778;
  CA 13779 13778 13777; CX 13777 26858 26859; CX 26922 26859 1116; CX 1116 16968 26734; CX 26986 26859 13776; CX 16967 26859 13775; CA 13776 13775 13774; CX 13774 26859 26860;
  CX 26923 26860 1115; CX 1115 16969 26735; CX 26987 26860 13773; CX 16968 26860 13772; CA 13773 13772 13771; CX 13771 26860 26861; CX 26924 26861 1114; CX 1114 16970 26736;
  CX 26988 26861 13770; CX 16969 26861 13769; CA 13770 13769 13768; CX 13768 26861 26862; CX 26925 26862 1113; CX 1113 16971 26737; CX 26989 26862 13767; CX 16970 26862 13766;
  CA 13767 13766 13765; CX 13765 26862 26863; CX 26926 26863 1112; CX 1112 16972 26738; CX 26990 26863 13764; CX 16971 26863 13763; CA 13764 13763 13762; CX 13762 26863 26864;
  CX 26927 26864 1111; CX 1111 16973 26739; CX 26991 26864 13761; CX 16972 26864 13760; CA 13761 13760 13759; CX 13759 26864 26865; CX 26928 26865 1110; CX 1110 16974 26740;
  CX 26992 26865 13758; CX 16973 26865 13757; CA 13758 13757 13756; CX 13756 26865 26866; CX 26929 26866 1109; CX 1109 16975 26741; CX 26993 26866 13755; CX 16974 26866 13754;
  CA 13755 13754 13753; CX 13753 26866 26867; CX 26930 26867 1108; CX 1108 16976 26742; CX 26994 26867 13752; CX 16975 26867 13751; CA 13752 13751 13750; CX 13750 26867 26868;
  CX 26931 26868 1107; CX 1107 16977 26743; CX 26995 26868 13749; CX 16976 26868 13748; CA 13749 13748 13747; CX 13747 26868 26869; CX 26932 26869 1106; CX 1106 16978 26744;
  CX 26996 26869 13746; CX 16977 26869 13745; CA 13746 13745 13744; CX 13744 26869 26870; CX 26933 26870 1105; CX 1105 16979 26745; CX 26997 26870 13743; CX 16978 26870 13742;
  CA 13743 13742 13741; CX 13741 26870 26871; CX 26934 26871 1104; CX 1104 16980 26746; CX 26998 26871 13740; CX 16979 26871 13739; CA 13740 13739 13738; CX 13738 26871 26872;
  CX 26935 26872 1103; CX 1103 16981 26747; CX 26999 26872 13737; CX 16980 26872 13736; CA 13737 13736 13735; CX 13735 26872 26873; CX 26936 26873 1102; CX 1102 16982 26748;
  CX 27000 26873 13734; CX 16981 26873 13733; CA 13734 13733 13732; CX 13732 26873 26874; CX 26937 26874 1101; CX 1101 16983 26749; CX 27001 26874 13731; CX 16982 26874 13730;
  CA 13731 13730 13729; CX 13729 26874 26875; CX 26938 26875 1100; CX 1100 16984 26750; CX 27002 26875 13728; CX 16983 26875 13727; CA 13728 13727 13726; CX 13726 26875 26876].
(** Lines 8005-8404 of the file. *)
Definition divide64_20 : list cg := [
  CX 26939 26876 1099; CX 1099 16985 26751; CX 27003 26876 13725; CX 16984 26876 13724; CA 13725 13724 13723; CX 13723 26876 26877; CX 26940 26877 1098; CX 1098 16986 26752;
  CX 27004 26877 13722; CX 16985 26877 13721; CA 13722 13721 13720; CX 13720 26877 26878; CX 26941 26878 1097; CX 1097 16987 26753; CX 27005 26878 13719; CX 16986 26878 13718;
  CA 13719 13718 13717; CX 13717 26878 26879; CX 26942 26879 1096; CX 1096 16988 26754; CX 27006 26879 13716; CX 16987 26879 13715; CA 13716 13715 13714; CX 13714 26879 26880;
  CX 26943 26880 1095; CX 1095 16989 26755; CX 27007 26880 13713; CX 16988 26880 13712; CA 13713 13712 13711; CX 13711 26880 26881; CX 26944 26881 1094; CX 1094 16990 26756;
  CX 27008 26881 13710; CX 16989 26881 13709; CA 13710 13709 13708; CX 13708 26881 26882; CX 26945 26882 1093; CX 1093 16991 26757; CX 27009 26882 13707; CX 16990 26882 13706;
  CA 13707 13706 13705; CX 13705 26882 26883; CX 26946 26883 1092; CX 1092 16992 26758; CX 27010 26883 13704; CX 16991 26883 13703; CA 13704 13703 13702; CX 13702 26883 26884;
  CX 26947 26884 1091; CX 1091 16993 26759; CX 27011 26884 13701; CX 16992 26884 13700; CA 13701 13700 13699; CX 13699 26884 26885; CX 26948 26885 1090; CX 1090 16994 26760;
  CX 27012 26885 13698; CX 16993 26885 13697; CA 13698 13697 13696; CX 13696 26885 26886; CX 26949 26886 1089; CX 1089 16995 26761; CX 27013 26886 13695; CX 16994 26886 13694;
  CA 13695 13694 13693; CX 13693 26886 26887; CX 26950 26887 1088; CX 1088 16996 26762; CX 27014 26887 13692; CX 16995 26887 13691; CA 13692 13691 13690; CX 13690 26887 26888;
  CX 26951 26888 1087; CX 1087 16997 26763; CX 27015 26888 13689; CX 16996 26888 13688; CA 13689 13688 13687; CX 13687 26888 26889; CX 26952 26889 1086; CX 1086 16998 26764;
  CX 27016 26889 13686; CX 16997 26889 13685; CA 13686 13685 13684; CX 13684 26889 26890; CX 26953 26890 1085; CX 1085 16999 26765; CX 27017 26890 13683; CX 16998 26890 13682;
  CA 13683 13682 13681; CX 13681 26890 26891; CX 26954 26891 1084; CX 1084 17000 26766; CX 27018 26891 13680; CX 16999 26891 13679; CA 13680 13679 13678; CX 13678 26891 26892;
  CX 26955 26892 1083; CX 1083 17001 26767; CX 27019 26892 13677; CX 17000 26892 13676; CA 13677 13676 13675; CX 13675 26892 26893; CX 26956 26893 1082; CX 1082 17002 26768;
  CX 27020 26893 13674; CX 17001 26893 13673; CA 13674 13673 13672; CX 13672 26893 26894; CX 26957 26894 1081; CX 1081 17003 26769; CX 27021 26894 13671; CX 17002 26894 13670;
  CA 13671 13670 13669; CX 13669 26894 26895; CX 26958 26895 1080; CX 1080 17004 26770; CX 27022 26895 13668; CX 17003 26895 13667; CA 13668 13667 13666; CX 13666 26895 26896;
  CX 26959 26896 1079; CX 1079 17005 26771; CX 27023 26896 13665; CX 17004 26896 13664; CA 13665 13664 13663; CX 13663 26896 26897; CX 26960 26897 1078; CX 1078 17006 26772;
  CX 27024 26897 13662; CX 17005 26897 13661; CA 13662 13661 13660; CX 13660 26897 26898; CX 26961 26898 1077; CX 1077 17007 26773; CX 27025 26898 13659; CX 17006 26898 13658;
  CA 13659 13658 13657; CX 13657 26898 26899; CX 26962 26899 1076; CX 1076 17008 26774; CX 27026 26899 13656; CX 17007 26899 13655; CA 13656 13655 13654; CX 13654 26899 26900;
  CX 26963 26900 1075; CX 1075 17009 26775; CX 27027 26900 13653; CX 17008 26900 13652; CA 13653 13652 13651; CX 13651 26900 26901; CX 26964 26901 144; CI 144 16678;
  CX 16867 16678 26776; CX 1137 16678 26777; CX 1136 16678 26778; CX 1135 16678 26779; CX 1134 16678 26780; CX 1133 16678 26781; CX 1132 16678 26782; CX 1131 16678 26783;
  CX 1130 16678 26784; CX 1129 16678 26785; CX 1128 16678 26786; CX 1127 16678 26787; CX 1126 16678 26788; CX 1125 16678 26789; CX 1124 16678 26790; CX 1123 16678 26791;
  CX 1122 16678 26792; CX 1121 16678 26793; CX 1120 16678 26794; CX 1119 16678 26795; CX 1118 16678 26796; CX 1117 16678 26797; CX 1116 16678 26798; CX 1115 16678 26799;
  CX 1114 16678 26800; CX 1113 16678 26801; CX 1112 16678 26802; CX 1111 16678 26803; CX 1110 16678 26804; CX 1109 16678 26805; CX 1108 16678 26806; CX 1107 16678 26807;
  CX 1106 16678 26808; CX 1105 16678 26809; CX 1104 16678 26810; CX 1103 16678 26811; CX 1102 16678 26812; CX 1101 16678 26813; CX 1100 16678 26814; CX 1099 16678 26815;
  CX 1098 16678 26816; CX 1097 16678 26817; CX 1096 16678 26818; CX 1095 16678 26819; CX 1094 16678 26820; CX 1093 16678 26821; CX 1092 16678 26822; CX 1091 16678 26823;
  CX 1090 16678 26824; CX 1089 16678 26825; CX 1088 16678 26826; CX 1087 16678 26827; CX 1086 16678 26828; CX 1085 16678 26829; CX 1084 16678 26830; CX 1083 16678 26831;
  CX 1082 16678 26832; CX 1081 16678 26833; CX 1080 16678 26834; CX 1079 16678 26835; CX 1078 16678 26836; CX 1077 16678 26837; CX 1076 16678 26838; CA 26776 16946 26650;
  CX 26713 26650 1199; CX 1199 16948 26525; CX 26777 26650 13650; CX 16947 26650 13649; CA 13650 13649 13648; CX 13648 26650 26651; CX 26714 26651 1198; CX 1198 16949 26526;
  CX 26778 26651 13647; CX 16948 26651 13646; CA 13647 13646 13645; CX 13645 26651 26652; CX 26715 26652 1197; CX 1197 16950 26527; CX 26779 26652 13644; CX 16949 26652 13643;
  CA 13644 13643 13642; CX 13642 26652 26653; CX 26716 26653 1196; CX 1196 16951 26528; CX 26780 26653 13641; CX 16950 26653 13640; CA 13641 13640 13639; CX 13639 26653 26654;
  CX 26717 26654 1195; CX 1195 16952 26529; CX 26781 26654 13638; CX 16951 26654 13637; CA 13638 13637 13636; CX 13636 26654 26655; CX 26718 26655 1194; CX 1194 16953 26530;
  CX 26782 26655 13635; CX 16952 26655 13634; CA 13635 13634 13633; CX 13633 26655 26656; CX 26719 26656 1193; CX 1193 16954 26531; CX 26783 26656 13632; CX 16953 26656 13631;
  CA 13632 13631 13630; CX 13630 26656 26657; CX 26720 26657 1192; CX 1192 16955 26532; CX 26784 26657 13629; CX 16954 26657 13628; CA 13629 13628 13627; CX 13627 26657 26658;
  CX 26721 26658 1191; CX 1191 16956 26533; CX 26785 26658 13626; CX 16955 26658 13625; CA 13626 13625 13624; CX 13624 26658 26659; CX 26722 26659 1190; CX 1190 16957 26534;
  CX 26786 26659 13623; CX 16956 26659 13622; CA 13623 13622 13621; CX 13621 26659 26660; CX 26723 26660 1189; CX 1189 16958 26535; CX 26787 26660 13620; CX 16957 26660 13619;
  CA 13620 13619 13618; CX 13618 26660 26661; CX 26724 26661 1188; CX 1188 16959 26536; CX 26788 26661 13617; CX 16958 26661 13616; CA 13617 13616 13615; CX 13615 26661 26662;
  CX 26725 26662 1187; CX 1187 16960 26537; CX 26789 26662 13614; CX 16959 26662 13613; CA 13614 13613 13612; CX 13612 26662 26663; CX 26726 26663 1186; CX 1186 16961 26538;
  CX 26790 26663 13611; CX 16960 26663 13610; CA 13611 13610 13609; CX 13609 26663 26664; CX 26727 26664 1185; CX 1185 16962 26539; CX 26791 26664 13608; CX 16961 26664 13607;
  CA 13608 13607 13606; CX 13606 26664 26665; CX 26728 26665 1184; CX 1184 16963 26540; CX 26792 26665 13605; CX 16962 26665 13604; CA 13605 13604 13603; CX 13603 26665 26666;
  CX 26729 26666 1183; CX 1183 16964 26541; CX 26793 26666 13602; CX 16963 26666 13601; CA 13602 13601 13600; CX 13600 26666 26667; CX 26730 26667 1182; CX 1182 16965 26542;
  CX 26794 26667 13599; CX 16964 26667 13598; CA 13599 13598 13597; CX 13597 26667 26668; CX 26731 26668 1181; CX 1181 16966 26543; CX 26795 26668 13596; CX 16965 26668 13595;
  CA 13596 13595 13594; CX 13594 26668 26669; CX 26732 26669 1180; CX 1180 16967 26544; CX 26796 26669 13593; CX 16966 26669 13592; CA 13593 13592 13591; CX 13591 26669 26670;
  CX 26733 26670 1179; CX 1179 16968 26545; CX 26797 26670 13590; CX 16967 26670 13589; CA 13590 13589 13588; CX 13588 26670 26671; CX 26734 26671 1178; CX 1178 16969 26546;
  CX 26798 26671 13587; CX 16968 26671 13586; CA 13587 13586 13585; CX 13585 26671 26672; CX 26735 26672 1177; CX 1177 16970 26547; CX 26799 26672 13584; CX 16969 26672 13583;
  CA 13584 13583 13582; CX 13582 26672 26673; CX 26736 26673 1176; CX 1176 16971 26548; CX 26800 26673 13581; CX 16970 26673 13580; CA 13581 13580 13579; CX 13579 26673 26674;
  CX 26737 26674 1175; CX 1175 16972 26549; CX 26801 26674 13578; CX 16971 26674 13577; CA 13578 13577 13576; CX 13576 26674 26675; CX 26738 26675 1174; CX 1174 16973 26550;
  CX 26802 26675 13575; CX 16972 26675 13574; CA 13575 13574 13573; CX 13573 26675 26676; CX 26739 26676 1173; CX 1173 16974 26551; CX 26803 26676 13572; CX 16973 26676 13571;
  CA 13572 13571 13570; CX 13570 26676 26677; CX 26740 26677 1172; CX 1172 16975 26552; CX 26804 26677 13569; CX 16974 26677 13568; CA 13569 13568 13567; CX 13567 26677 26678;
  CX 26741 26678 1171; CX 1171 16976 26553; CX 26805 26678 13566; CX 16975 26678 13565; CA 13566 13565 13564; CX 13564 26678 26679; CX 26742 26679 1170; CX 1170 16977 26554;
  CX 26806 26679 13563; CX 16976 26679 13562; CA 13563 13562 13561; CX 13561 26679 26680; CX 26743 26680 1169; CX 1169 16978 26555; CX 26807 26680 13560; CX 16977 26680 13559].
(** Lines 8405-8804 of the file. *)
Definition divide64_21 : list cg := [
  CA 13560 13559 13558; CX 13558 26680 26681; CX 26744 26681 1168; CX 1168 16979 26556; CX 26808 26681 13557; CX 16978 26681 13556; CA 13557 13556 13555; CX 13555 26681 26682;
  CX 26745 26682 1167; CX 1167 16980 26557; CX 26809 26682 13554; CX 16979 26682 13553; CA 13554 13553 13552; CX 13552 26682 26683; CX 26746 26683 1166; CX 1166 16981 26558;
  CX 26810 26683 13551; CX 16980 26683 13550; CA 13551 13550 13549; CX 13549 26683 26684; CX 26747 26684 1165; CX 1165 16982 26559; CX 26811 26684 13548; CX 16981 26684 13547;
  CA 13548 13547 13546; CX 13546 26684 26685; CX 26748 26685 1164; CX 1164 16983 26560; CX 26812 26685 13545; CX 16982 26685 13544; CA 13545 13544 13543; CX 13543 26685 26686;
  CX 26749 26686 1163; CX 1163 16984 26561; CX 26813 26686 13542; CX 16983 26686 13541; CA 13542 13541 13540; CX 13540 26686 26687; CX 26750 26687 1162; CX 1162 16985 26562;
  CX 26814 26687 13539; CX 16984 26687 13538; CA 13539 13538 13537; CX 13537 26687 26688; CX 26751 26688 1161; CX 1161 16986 26563; CX 26815 26688 13536; CX 16985 26688 13535;
  CA 13536 13535 13534; CX 13534 26688 26689; CX 26752 26689 1160; CX 1160 16987 26564; CX 26816 26689 13533; CX 16986 26689 13532; CA 13533 13532 13531; CX 13531 26689 26690;
  CX 26753 26690 1159; CX 1159 16988 26565; CX 26817 26690 13530; CX 16987 26690 13529; CA 13530 13529 13528; CX 13528 26690 26691; CX 26754 26691 1158; CX 1158 16989 26566;
  CX 26818 26691 13527; CX 16988 26691 13526; CA 13527 13526 13525; CX 13525 26691 26692; CX 26755 26692 1157; CX 1157 16990 26567; CX 26819 26692 13524; CX 16989 26692 13523;
  CA 13524 13523 13522; CX 13522 26692 26693; CX 26756 26693 1156; CX 1156 16991 26568; CX 26820 26693 13521; CX 16990 26693 13520; CA 13521 13520 13519; CX 13519 26693 26694;
  CX 26757 26694 1155; CX 1155 16992 26569; CX 26821 26694 13518; CX 16991 26694 13517; CA 13518 13517 13516; CX 13516 26694 26695; CX 26758 26695 1154; CX 1154 16993 26570;
  CX 26822 26695 13515; CX 16992 26695 13514; CA 13515 13514 13513; CX 13513 26695 26696; CX 26759 26696 1153; CX 1153 16994 26571; CX 26823 26696 13512; CX 16993 26696 13511;
  CA 13512 13511 13510; CX 13510 26696 26697; CX 26760 26697 1152; CX 1152 16995 26572; CX 26824 26697 13509; CX 16994 26697 13508; CA 13509 13508 13507; CX 13507 26697 26698;
  CX 26761 26698 1151; CX 1151 16996 26573; CX 26825 26698 13506; CX 16995 26698 13505; CA 13506 13505 13504; CX 13504 26698 26699; CX 26762 26699 1150; CX 1150 16997 26574;
  CX 26826 26699 13503; CX 16996 26699 13502; CA 13503 13502 13501; CX 13501 26699 26700; CX 26763 26700 1149; CX 1149 16998 26575; CX 26827 26700 13500; CX 16997 26700 13499;
  CA 13500 13499 13498; CX 13498 26700 26701; CX 26764 26701 1148; CX 1148 16999 26576; CX 26828 26701 13497; CX 16998 26701 13496; CA 13497 13496 13495; CX 13495 26701 26702;
  CX 26765 26702 1147; CX 1147 17000 26577; CX 26829 26702 13494; CX 16999 26702 13493; CA 13494 13493 13492; CX 13492 26702 26703; CX 26766 26703 1146; CX 1146 17001 26578;
  CX 26830 26703 13491; CX 17000 26703 13490; CA 13491 13490 13489; CX 13489 26703 26704; CX 26767 26704 1145; CX 1145 17002 26579; CX 26831 26704 13488; CX 17001 26704 13487;
  CA 13488 13487 13486; CX 13486 26704 26705; CX 26768 26705 1144; CX 1144 17003 26580; CX 26832 26705 13485; CX 17002 26705 13484; CA 13485 13484 13483; CX 13483 26705 26706;
  CX 26769 26706 1143; CX 1143 17004 26581; CX 26833 26706 13482; CX 17003 26706 13481; CA 13482 13481 13480; CX 13480 26706 26707; CX 26770 26707 1142; CX 1142 17005 26582;
  CX 26834 26707 13479; CX 17004 26707 13478; CA 13479 13478 13477; CX 13477 26707 26708; CX 26771 26708 1141; CX 1141 17006 26583; CX 26835 26708 13476; CX 17005 26708 13475;
  CA 13476 13475 13474; CX 13474 26708 26709; CX 26772 26709 1140; CX 1140 17007 26584; CX 26836 26709 13473; CX 17006 26709 13472; CA 13473 13472 13471; CX 13471 26709 26710;
  CX 26773 26710 1139; CX 1139 17008 26585; CX 26837 26710 13470; CX 17007 26710 13469; CA 13470 13469 13468; CX 13468 26710 26711; CX 26774 26711 1138; CX 1138 17009 26586;
  CX 26838 26711 13467; CX 17008 26711 13466; CA 13467 13466 13465; CX 13465 26711 26712; CX 26775 26712 145; CA 16678 4535 17562; CI 145 16677; CX 16866 16677 26587;
  CX 1200 16677 26588; CX 1199 16677 26589; CX 1198 16677 26590; CX 1197 16677 26591; CX 1196 16677 26592; CX 1195 16677 26593; CX 1194 16677 26594; CX 1193 16677 26595;
  CX 1192 16677 26596; CX 1191 16677 26597; CX 1190 16677 26598; CX 1189 16677 26599; CX 1188 16677 26600; CX 1187 16677 26601; CX 1186 16677 26602; CX 1185 16677 26603;
  CX 1184 16677 26604; CX 1183 16677 26605; CX 1182 16677 26606; CX 1181 16677 26607; CX 1180 16677 26608; CX 1179 16677 26609; CX 1178 16677 26610; CX 1177 16677 26611;
  CX 1176 16677 26612; CX 1175 16677 26613; CX 1174 16677 26614; CX 1173 16677 26615; CX 1172 16677 26616; CX 1171 16677 26617; CX 1170 16677 26618; CX 1169 16677 26619;
  CX 1168 16677 26620; CX 1167 16677 26621; CX 1166 16677 26622; CX 1165 16677 26623; CX 1164 16677 26624; CX 1163 16677 26625; CX 1162 16677 26626; CX 1161 16677 26627;
  CX 1160 16677 26628; CX 1159 16677 26629; CX 1158 16677 26630; CX 1157 16677 26631; CX 1156 16677 26632; CX 1155 16677 26633; CX 1154 16677 26634; CX 1153 16677 26635;
  CX 1152 16677 26636; CX 1151 16677 26637; CX 1150 16677 26638; CX 1149 16677 26639; CX 1148 16677 26640; CX 1147 16677 26641; CX 1146 16677 26642; CX 1145 16677 26643;
  CX 1144 16677 26644; CX 1143 16677 26645; CX 1142 16677 26646; CX 1141 16677 26647; CX 1140 16677 26648; CX 1139 16677 26649; CA 26587 16946 26461; CX 26524 26461 1262;
  CX 1262 16948 26336; CX 26588 26461 13464; CX 16947 26461 13463; CA 13464 13463 13462; CX 13462 26461 26462; CX 26525 26462 1261; CX 1261 16949 26337; CX 26589 26462 13461;
  CX 16948 26462 13460; CA 13461 13460 13459; CX 13459 26462 26463; CX 26526 26463 1260; CX 1260 16950 26338; CX 26590 26463 13458; CX 16949 26463 13457; CA 13458 13457 13456;
  CX 13456 26463 26464; CX 26527 26464 1259; CX 1259 16951 26339; CX 26591 26464 13455; CX 16950 26464 13454; CA 13455 13454 13453; CX 13453 26464 26465; CX 26528 26465 1258;
  CX 1258 16952 26340; CX 26592 26465 13452; CX 16951 26465 13451; CA 13452 13451 13450; CX 13450 26465 26466; CX 26529 26466 1257; CX 1257 16953 26341; CX 26593 26466 13449;
  CX 16952 26466 13448; CA 13449 13448 13447; CX 13447 26466 26467; CX 26530 26467 1256; CX 1256 16954 26342; CX 26594 26467 13446; CX 16953 26467 13445; CA 13446 13445 13444;
  CX 13444 26467 26468; CX 26531 26468 1255; CX 1255 16955 26343; CX 26595 26468 13443; CX 16954 26468 13442; CA 13443 13442 13441; CX 13441 26468 26469; CX 26532 26469 1254;
  CX 1254 16956 26344; CX 26596 26469 13440; CX 16955 26469 13439; CA 13440 13439 13438; CX 13438 26469 26470; CX 26533 26470 1253; CX 1253 16957 26345; CX 26597 26470 13437;
  CX 16956 26470 13436; CA 13437 13436 13435; CX 13435 26470 26471; CX 26534 26471 1252; CX 1252 16958 26346; CX 26598 26471 13434; CX 16957 26471 13433; CA 13434 13433 13432;
  CX 13432 26471 26472; CX 26535 26472 1251; CX 1251 16959 26347; CX 26599 26472 13431; CX 16958 26472 13430; CA 13431 13430 13429; CX 13429 26472 26473; CX 26536 26473 1250;
  CX 1250 16960 26348; CX 26600 26473 13428; CX 16959 26473 13427; CA 13428 13427 13426; CX 13426 26473 26474; CX 26537 26474 1249; CX 1249 16961 26349; CX 26601 26474 13425;
  CX 16960 26474 13424; CA 13425 13424 13423; CX 13423 26474 26475; CX 26538 26475 1248; CX 1248 16962 26350; CX 26602 26475 13422; CX 16961 26475 13421; CA 13422 13421 13420;
  CX 13420 26475 26476; CX 26539 26476 1247; CX 1247 16963 26351; CX 26603 26476 13419; CX 16962 26476 13418; CA 13419 13418 13417; CX 13417 26476 26477; CX 26540 26477 1246;
  CX 1246 16964 26352; CX 26604 26477 13416; CX 16963 26477 13415; CA 13416 13415 13414; CX 13414 26477 26478; CX 26541 26478 1245; CX 1245 16965 26353; CX 26605 26478 13413;
  CX 16964 26478 13412; CA 13413 13412 13411; CX 13411 26478 26479; CX 26542 26479 1244; CX 1244 16966 26354; CX 26606 26479 13410; CX 16965 26479 13409; CA 13410 13409 13408;
  CX 13408 26479 26480; CX 26543 26480 1243; CX 1243 16967 26355; CX 26607 26480 13407; CX 16966 26480 13406; CA 13407 13406 13405; CX 13405 26480 26481; CX 26544 26481 1242;
  CX 1242 16968 26356; CX 26608 26481 13404; CX 16967 26481 13403; CA 13404 13403 13402; CX 13402 26481 26482; CX 26545 26482 1241; CX 1241 16969 26357; CX 26609 26482 13401;
  CX 16968 26482 13400; CA 13401 13400 13399; CX 13399 26482 26483; CX 26546 26483 1240; CX 1240 16970 26358; CX 26610 26483 13398; CX 16969 26483 13397; CA 13398 13397 13396;
  CX 13396 26483 26484; CX 26547 26484 1239; CX 1239 16971 26359; CX 26611 26484 13395; CX 16970 26484 13394; CA 13395 13394 13393; CX 13393 26484 26485; CX 26548 26485 1238].
(** Lines 8805-9204 of the file. *)
Definition divide64_22 : list cg := [
  CX 1238 16972 26360; CX 26612 26485 13392; CX 16971 26485 13391; CA 13392 13391 13390; CX 13390 26485 26486; CX 26549 26486 1237; CX 1237 16973 26361; CX 26613 26486 13389;
  CX 16972 26486 13388; CA 13389 13388 13387; CX 13387 26486 26487; CX 26550 26487 1236; CX 1236 16974 26362; CX 26614 26487 13386; CX 16973 26487 13385; CA 13386 13385 13384;
  CX 13384 26487 26488; CX 26551 26488 1235; CX 1235 16975 26363; CX 26615 26488 13383; CX 16974 26488 13382; CA 13383 13382 13381; CX 13381 26488 26489; CX 26552 26489 1234;
  CX 1234 16976 26364; CX 26616 26489 13380; CX 16975 26489 13379; CA 13380 13379 13378; CX 13378 26489 26490; CX 26553 26490 1233; CX 1233 16977 26365; CX 26617 26490 13377;
  CX 16976 26490 13376; CA 13377 13376 13375; CX 13375 26490 26491; CX 26554 26491 1232; CX 1232 16978 26366; CX 26618 26491 13374; CX 16977 26491 13373; CA 13374 13373 13372;
  CX 13372 26491 26492; CX 26555 26492 1231; CX 1231 16979 26367; CX 26619 26492 13371; CX 16978 26492 13370; CA 13371 13370 13369; CX 13369 26492 26493; CX 26556 26493 1230;
  CX 1230 16980 26368; CX 26620 26493 13368; CX 16979 26493 13367; CA 13368 13367 13366; CX 13366 26493 26494; CX 26557 26494 1229; CX 1229 16981 26369; CX 26621 26494 13365;
  CX 16980 26494 13364; CA 13365 13364 13363; CX 13363 26494 26495; CX 26558 26495 1228; CX 1228 16982 26370; CX 26622 26495 13362; CX 16981 26495 13361; CA 13362 13361 13360;
  CX 13360 26495 26496; CX 26559 26496 1227; CX 1227 16983 26371; CX 26623 26496 13359; CX 16982 26496 13358; CA 13359 13358 13357; CX 13357 26496 26497; CX 26560 26497 1226;
  CX 1226 16984 26372; CX 26624 26497 13356; CX 16983 26497 13355; CA 13356 13355 13354; CX 13354 26497 26498; CX 26561 26498 1225; CX 1225 16985 26373; CX 26625 26498 13353;
  CX 16984 26498 13352; CA 13353 13352 13351; CX 13351 26498 26499; CX 26562 26499 1224; CX 1224 16986 26374; CX 26626 26499 13350; CX 16985 26499 13349; CA 13350 13349 13348;
  CX 13348 26499 26500; CX 26563 26500 1223; CX 1223 16987 26375; CX 26627 26500 13347; CX 16986 26500 13346; CA 13347 13346 13345; CX 13345 26500 26501; CX 26564 26501 1222;
  CX 1222 16988 26376; CX 26628 26501 13344; CX 16987 26501 13343; CA 13344 13343 13342; CX 13342 26501 26502; CX 26565 26502 1221; CX 1221 16989 26377; CX 26629 26502 13341;
  CX 16988 26502 13340; CA 13341 13340 13339; CX 13339 26502 26503; CX 26566 26503 1220; CX 1220 16990 26378; CX 26630 26503 13338; CX 16989 26503 13337; CA 13338 13337 13336;
  CX 13336 26503 26504; CX 26567 26504 1219; CX 1219 16991 26379; CX 26631 26504 13335; CX 16990 26504 13334; CA 13335 13334 13333; CX 13333 26504 26505; CX 26568 26505 1218;
  CX 1218 16992 26380; CX 26632 26505 13332; CX 16991 26505 13331; CA 13332 13331 13330; CX 13330 26505 26506; CX 26569 26506 1217; CX 1217 16993 26381; CX 26633 26506 13329;
  CX 16992 26506 13328; CA 13329 13328 13327; CX 13327 26506 26507; CX 26570 26507 1216; CX 1216 16994 26382; CX 26634 26507 13326; CX 16993 26507 13325; CA 13326 13325 13324;
  CX 13324 26507 26508; CX 26571 26508 1215; CX 1215 16995 26383; CX 26635 26508 13323; CX 16994 26508 13322; CA 13323 13322 13321; CX 13321 26508 26509; CX 26572 26509 1214;
  CX 1214 16996 26384; CX 26636 26509 13320; CX 16995 26509 13319; CA 13320 13319 13318; CX 13318 26509 26510; CX 26573 26510 1213; CX 1213 16997 26385; CX 26637 26510 13317;
  CX 16996 26510 13316; CA 13317 13316 13315; CX 13315 26510 26511; CX 26574 26511 1212; CX 1212 16998 26386; CX 26638 26511 13314; CX 16997 26511 13313; CA 13314 13313 13312;
  CX 13312 26511 26512; CX 26575 26512 1211; CX 1211 16999 26387; CX 26639 26512 13311; CX 16998 26512 13310; CA 13311 13310 13309; CX 13309 26512 26513; CX 26576 26513 1210;
  CX 1210 17000 26388; CX 26640 26513 13308; CX 16999 26513 13307; CA 13308 13307 13306; CX 13306 26513 26514; CX 26577 26514 1209; CX 1209 17001 26389; CX 26641 26514 13305;
  CX 17000 26514 13304; CA 13305 13304 13303; CX 13303 26514 26515; CX 26578 26515 1208; CX 1208 17002 26390; CX 26642 26515 13302; CX 17001 26515 13301; CA 13302 13301 13300;
  CX 13300 26515 26516; CX 26579 26516 1207; CX 1207 17003 26391; CX 26643 26516 13299; CX 17002 26516 13298; CA 13299 13298 13297; CX 13297 26516 26517; CX 26580 26517 1206;
  CX 1206 17004 26392; CX 26644 26517 13296; CX 17003 26517 13295; CA 13296 13295 13294; CX 13294 26517 26518; CX 26581 26518 1205; CX 1205 17005 26393; CX 26645 26518 13293;
  CX 17004 26518 13292; CA 13293 13292 13291; CX 13291 26518 26519; CX 26582 26519 1204; CX 1204 17006 26394; CX 26646 26519 13290; CX 17005 26519 13289; CA 13290 13289 13288;
  CX 13288 26519 26520; CX 26583 26520 1203; CX 1203 17007 26395; CX 26647 26520 13287; CX 17006 26520 13286; CA 13287 13286 13285; CX 13285 26520 26521; CX 26584 26521 1202;
  CX 1202 17008 26396; CX 26648 26521 13284; CX 17007 26521 13283; CA 13284 13283 13282; CX 13282 26521 26522; CX 26585 26522 1201; CX 1201 17009 26397; CX 26649 26522 13281;
  CX 17008 26522 13280; CA 13281 13280 13279; CX 13279 26522 26523; CX 26586 26523 146; CI 146 16676; CX 16865 16676 26398; CX 1263 16676 26399; CX 1262 16676 26400;
  CX 1261 16676 26401; CX 1260 16676 26402; CX 1259 16676 26403; CX 1258 16676 26404; CX 1257 16676 26405; CX 1256 16676 26406; CX 1255 16676 26407; CX 1254 16676 26408;
  CX 1253 16676 26409; CX 1252 16676 26410; CX 1251 16676 26411; CX 1250 16676 26412; CX 1249 16676 26413; CX 1248 16676 26414; CX 1247 16676 26415; CX 1246 16676 26416;
  CX 1245 16676 26417; CX 1244 16676 26418; CX 1243 16676 26419; CX 1242 16676 26420; CX 1241 16676 26421; CX 1240 16676 26422; CX 1239 16676 26423; CX 1238 16676 26424;
  CX 1237 16676 26425; CX 1236 16676 26426; CX 1235 16676 26427; CX 1234 16676 26428; CX 1233 16676 26429; CX 1232 16676 26430; CX 1231 16676 26431; CX 1230 16676 26432;
  CX 1229 16676 26433; CX 1228 16676 26434; CX 1227 16676 26435; CX 1226 16676 26436; CX 1225 16676 26437; CX 1224 16676 26438; CX 1223 16676 26439; CX 1222 16676 26440;
  CX 1221 16676 26441; CX 1220 16676 26442; CX 1219 16676 26443; CX 1218 16676 26444; CX 1217 16676 26445; CX 1216 16676 26446; CX 1215 16676 26447; CX 1214 16676 26448;
  CX 1213 16676 26449; CX 1212 16676 26450; CX 1211 16676 26451; CX 1210 16676 26452; CX 1209 16676 26453; CX 1208 16676 26454; CX 1207 16676 26455; CX 1206 16676 26456;
  CX 1205 16676 26457; CX 1204 16676 26458; CX 1203 16676 26459; CX 1202 16676 26460; CA 26398 16946 26272; CX 26335 26272 1325; CX 1325 16948 26147; CX 26399 26272 13278;
  CX 16947 26272 13277; CA 13278 13277 13276; CX 13276 26272 26273; CX 26336 26273 1324; CX 1324 16949 26148; CX 26400 26273 13275; CX 16948 26273 13274; CA 13275 13274 13273;
  CX 13273 26273 26274; CX 26337 26274 1323; CX 1323 16950 26149; CX 26401 26274 13272; CX 16949 26274 13271; CA 13272 13271 13270; CX 13270 26274 26275; CX 26338 26275 1322;
  CX 1322 16951 26150; CX 26402 26275 13269; CX 16950 26275 13268; CA 13269 13268 13267; CX 13267 26275 26276; CX 26339 26276 1321; CX 1321 16952 26151; CX 26403 26276 13266;
  CX 16951 26276 13265; CA 13266 13265 13264; CX 13264 26276 26277; CX 26340 26277 1320; CX 1320 16953 26152; CX 26404 26277 13263; CX 16952 26277 13262; CA 13263 13262 13261;
  CX 13261 26277 26278; CX 26341 26278 1319; CX 1319 16954 26153; CX 26405 26278 13260; CX 16953 26278 13259; CA 13260 13259 13258; CX 13258 26278 26279; CX 26342 26279 1318;
  CX 1318 16955 26154; CX 26406 26279 13257; CX 16954 26279 13256; CA 13257 13256 13255; CX 13255 26279 26280; CX 26343 26280 1317; CX 1317 16956 26155; CX 26407 26280 13254;
  CX 16955 26280 13253; CA 13254 13253 13252; CX 13252 26280 26281; CX 26344 26281 1316; CX 1316 16957 26156; CX 26408 26281 13251; CX 16956 26281 13250; CA 13251 13250 13249;
  CX 13249 26281 26282; CX 26345 26282 1315; CX 1315 16958 26157; CX 26409 26282 13248; CX 16957 26282 13247; CA 13248 13247 13246; CX 13246 26282 26283; CX 26346 26283 1314;
  CX 1314 16959 26158; CX 26410 26283 13245; CX 16958 26283 13244; CA 13245 13244 13243; CX 13243 26283 26284; CX 26347 26284 1313; CX 1313 16960 26159; CX 26411 26284 13242;
  CX 16959 26284 13241; CA 13242 13241 13240; CX 13240 26284 26285; CX 26348 26285 1312; CX 1312 16961 26160; CX 26412 26285 13239; CX 16960 26285 13238; CA 13239 13238 13237;
  CX 13237 26285 26286; CX 26349 26286 1311; CX 1311 16962 26161; CX 26413 26286 13236; CX 16961 26286 13235; CA 13236 13235 13234; CX 13234 26286 26287; CX 26350 26287 1310;
  CX 1310 16963 26162; CX 26414 26287 13233; CX 16962 26287 13232; CA 13233 13232 13231; CX 13231 26287 26288; CX 26351 26288 1309; CX 1309 16964 26163; CX 26415 26288 13230;
  CX 16963 26288 13229; CA 13230 13229 13228; CX 13228 26288 26289; CX 26352 26289 1308; CX 1308 16965 26164; CX 26416 26289 13227; CX 16964 26289 13226; CA 13227 13226 13225].
(** Lines 9205-9604 of the file. *)
Definition divide64_23 : list cg := [
  CX 13225 26289 26290; CX 26353 26290 1307; CX 1307 16966 26165; CX 26417 26290 13224; CX 16965 26290 13223; CA 13224 13223 13222; CX 13222 26290 26291; CX 26354 26291 1306;
  CX 1306 16967 26166; CX 26418 26291 13221; CX 16966 26291 13220; CA 13221 13220 13219; CX 13219 26291 26292; CX 26355 26292 1305; CX 1305 16968 26167; CX 26419 26292 13218;
  CX 16967 26292 13217; CA 13218 13217 13216; CX 13216 26292 26293; CX 26356 26293 1304; CX 1304 16969 26168; CX 26420 26293 13215; CX 16968 26293 13214; CA 13215 13214 13213;
  CX 13213 26293 26294; CX 26357 26294 1303; CX 1303 16970 26169; CX 26421 26294 13212; CX 16969 26294 13211; CA 13212 13211 13210; CX 13210 26294 26295; CX 26358 26295 1302;
  CX 1302 16971 26170; CX 26422 26295 13209; CX 16970 26295 13208; CA 13209 13208 13207; CX 13207 26295 26296; CX 26359 26296 1301; CX 1301 16972 26171; CX 26423 26296 13206;
  CX 16971 26296 13205; CA 13206 13205 13204; CX 13204 26296 26297; CX 26360 26297 1300; CX 1300 16973 26172; CX 26424 26297 13203; CX 16972 26297 13202; CA 13203 13202 13201;
  CX 13201 26297 26298; CX 26361 26298 1299; CX 1299 16974 26173; CX 26425 26298 13200; CX 16973 26298 13199; CA 13200 13199 13198; CX 13198 26298 26299; CX 26362 26299 1298;
  CX 1298 16975 26174; CX 26426 26299 13197; CX 16974 26299 13196; CA 13197 13196 13195; CX 13195 26299 26300; CX 26363 26300 1297; CX 1297 16976 26175; CX 26427 26300 13194;
  CX 16975 26300 13193; CA 13194 13193 13192; CX 13192 26300 26301; CX 26364 26301 1296; CX 1296 16977 26176; CX 26428 26301 13191; CX 16976 26301 13190; CA 13191 13190 13189;
  CX 13189 26301 26302; CX 26365 26302 1295; CX 1295 16978 26177; CX 26429 26302 13188; CX 16977 26302 13187; CA 13188 13187 13186; CX 13186 26302 26303; CX 26366 26303 1294;
  CX 1294 16979 26178; CX 26430 26303 13185; CX 16978 26303 13184; CA 13185 13184 13183; CX 13183 26303 26304; CX 26367 26304 1293; CX 1293 16980 26179; CX 26431 26304 13182;
  CX 16979 26304 13181; CA 13182 13181 13180; CX 13180 26304 26305; CX 26368 26305 1292; CX 1292 16981 26180; CX 26432 26305 13179; CX 16980 26305 13178; CA 13179 13178 13177;
  CX 13177 26305 26306; CX 26369 26306 1291; CX 1291 16982 26181; CX 26433 26306 13176; CX 16981 26306 13175; CA 13176 13175 13174; CX 13174 26306 26307; CX 26370 26307 1290;
  CX 1290 16983 26182; CX 26434 26307 13173; CX 16982 26307 13172; CA 13173 13172 13171; CX 13171 26307 26308; CX 26371 26308 1289; CX 1289 16984 26183; CX 26435 26308 13170;
  CX 16983 26308 13169; CA 13170 13169 13168; CX 13168 26308 26309; CX 26372 26309 1288; CX 1288 16985 26184; CX 26436 26309 13167; CX 16984 26309 13166; CA 13167 13166 13165;
  CX 13165 26309 26310; CX 26373 26310 1287; CX 1287 16986 26185; CX 26437 26310 13164; CX 16985 26310 13163; CA 13164 13163 13162; CX 13162 26310 26311; CX 26374 26311 1286;
  CX 1286 16987 26186; CX 26438 26311 13161; CX 16986 26311 13160; CA 13161 13160 13159; CX 13159 26311 26312; CX 26375 26312 1285; CX 1285 16988 26187; CX 26439 26312 13158;
  CX 16987 26312 13157; CA 13158 13157 13156; CX 13156 26312 26313; CX 26376 26313 1284; CX 1284 16989 26188; CX 26440 26313 13155; CX 16988 26313 13154; CA 13155 13154 13153;
  CX 13153 26313 26314; CX 26377 26314 1283; CX 1283 16990 26189; CX 26441 26314 13152; CX 16989 26314 13151; CA 13152 13151 13150; CX 13150 26314 26315; CX 26378 26315 1282;
  CX 1282 16991 26190; CX 26442 26315 13149; CX 16990 26315 13148; CA 13149 13148 13147; CX 13147 26315 26316; CX 26379 26316 1281; CX 1281 16992 26191; CX 26443 26316 13146;
  CX 16991 26316 13145; CA 13146 13145 13144; CX 13144 26316 26317; CX 26380 26317 1280; CX 1280 16993 26192; CX 26444 26317 13143; CX 16992 26317 13142; CA 13143 13142 13141;
  CX 13141 26317 26318; CX 26381 26318 1279; CX 1279 16994 26193; CX 26445 26318 13140; CX 16993 26318 13139; CA 13140 13139 13138; CX 13138 26318 26319; CX 26382 26319 1278;
  CX 1278 16995 26194; CX 26446 26319 13137; CX 16994 26319 13136; CA 13137 13136 13135; CX 13135 26319 26320; CX 26383 26320 1277; CX 1277 16996 26195; CX 26447 26320 13134;
  CX 16995 26320 13133; CA 13134 13133 13132; CX 13132 26320 26321; CX 26384 26321 1276; CX 1276 16997 26196; CX 26448 26321 13131; CX 16996 26321 13130; CA 13131 13130 13129;
  CX 13129 26321 26322; CX 26385 26322 1275; CX 1275 16998 26197; CX 26449 26322 13128; CX 16997 26322 13127; CA 13128 13127 13126; CX 13126 26322 26323; CX 26386 26323 1274;
  CX 1274 16999 26198; CX 26450 26323 13125; CX 16998 26323 13124; CA 13125 13124 13123; CX 13123 26323 26324; CX 26387 26324 1273; CX 1273 17000 26199; CX 26451 26324 13122;
  CX 16999 26324 13121; CA 13122 13121 13120; CX 13120 26324 26325; CX 26388 26325 1272; CX 1272 17001 26200; CX 26452 26325 13119; CX 17000 26325 13118; CA 13119 13118 13117;
  CX 13117 26325 26326; CX 26389 26326 1271; CX 1271 17002 26201; CX 26453 26326 13116; CX 17001 26326 13115; CA 13116 13115 13114; CX 13114 26326 26327; CX 26390 26327 1270;
  CX 1270 17003 26202; CX 26454 26327 13113; CX 17002 26327 13112; CA 13113 13112 13111; CX 13111 26327 26328; CX 26391 26328 1269; CX 1269 17004 26203; CX 26455 26328 13110;
  CX 17003 26328 13109; CA 13110 13109 13108; CX 13108 26328 26329; CX 26392 26329 1268; CX 1268 17005 26204; CX 26456 26329 13107; CX 17004 26329 13106; CA 13107 13106 13105;
  CX 13105 26329 26330; CX 26393 26330 1267; CX 1267 17006 26205; CX 26457 26330 13104; CX 17005 26330 13103; CA 13104 13103 13102; CX 13102 26330 26331; CX 26394 26331 1266;
  CX 1266 17007 26206; CX 26458 26331 13101; CX 17006 26331 13100; CA 13101 13100 13099; CX 13099 26331 26332; CX 26395 26332 1265; CX 1265 17008 26207; CX 26459 26332 13098;
  CX 17007 26332 13097; CA 13098 13097 13096; CX 13096 26332 26333; CX 26396 26333 1264; CX 1264 17009 26208; CX 26460 26333 13095; CX 17008 26333 13094; CA 13095 13094 13093;
  CX 13093 26333 26334; CX 26397 26334 147; CA 16676 4535 17560; CI 147 16675; CX 16864 16675 26209; CX 1326 16675 26210; CX 1325 16675 26211; CX 1324 16675 26212;
  CX 1323 16675 26213; CX 1322 16675 26214; CX 1321 16675 26215; CX 1320 16675 26216; CX 1319 16675 26217; CX 1318 16675 26218; CX 1317 16675 26219; CX 1316 16675 26220;
  CX 1315 16675 26221; CX 1314 16675 26222; CX 1313 16675 26223; CX 1312 16675 26224; CX 1311 16675 26225; CX 1310 16675 26226; CX 1309 16675 26227; CX 1308 16675 26228;
  CX 1307 16675 26229; CX 1306 16675 26230; CX 1305 16675 26231; CX 1304 16675 26232; CX 1303 16675 26233; CX 1302 16675 26234; CX 1301 16675 26235; CX 1300 16675 26236;
  CX 1299 16675 26237; CX 1298 16675 26238; CX 1297 16675 26239; CX 1296 16675 26240; CX 1295 16675 26241; CX 1294 16675 26242; CX 1293 16675 26243; CX 1292 16675 26244;
  CX 1291 16675 26245; CX 1290 16675 26246; CX 1289 16675 26247; CX 1288 16675 26248; CX 1287 16675 26249; CX 1286 16675 26250; CX 1285 16675 26251; CX 1284 16675 26252;
  CX 1283 16675 26253; CX 1282 16675 26254; CX 1281 16675 26255; CX 1280 16675 26256; CX 1279 16675 26257; CX 1278 16675 26258; CX 1277 16675 26259; CX 1276 16675 26260;
  CX 1275 16675 26261; CX 1274 16675 26262; CX 1273 16675 26263; CX 1272 16675 26264; CX 1271 16675 26265; CX 1270 16675 26266; CX 1269 16675 26267; CX 1268 16675 26268;
  CX 1267 16675 26269; CX 1266 16675 26270; CX 1265 16675 26271; CA 26209 16946 26083; CX 26146 26083 1388; CX 1388 16948 25958; CX 26210 26083 13092; CX 16947 26083 13091;
  CA 13092 13091 13090; CX 13090 26083 26084; CX 26147 26084 1387; CX 1387 16949 25959; CX 26211 26084 13089; CX 16948 26084 13088; CA 13089 13088 13087; CX 13087 26084 26085;
  CX 26148 26085 1386; CX 1386 16950 25960; CX 26212 26085 13086; CX 16949 26085 13085; CA 13086 13085 13084; CX 13084 26085 26086; CX 26149 26086 1385; CX 1385 16951 25961;
  CX 26213 26086 13083; CX 16950 26086 13082; CA 13083 13082 13081; CX 13081 26086 26087; CX 26150 26087 1384; CX 1384 16952 25962; CX 26214 26087 13080; CX 16951 26087 13079;
  CA 13080 13079 13078; CX 13078 26087 26088; CX 26151 26088 1383; CX 1383 16953 25963; CX 26215 26088 13077; CX 16952 26088 13076; CA 13077 13076 13075; CX 13075 26088 26089;
  CX 26152 26089 1382; CX 1382 16954 25964; CX 26216 26089 13074; CX 16953 26089 13073; CA 13074 13073 13072; CX 13072 26089 26090; CX 26153 26090 1381; CX 1381 16955 25965;
  CX 26217 26090 13071; CX 16954 26090 13070; CA 13071 13070 13069; CX 13069 26090 26091; CX 26154 26091 1380; CX 1380 16956 25966; CX 26218 26091 13068; CX 16955 26091 13067;
  CA 13068 13067 13066; CX 13066 26091 26092; CX 26155 26092 1379; CX 1379 16957 25967; CX 26219 26092 13065; CX 16956 26092 13064; CA 13065 13064 13063; CX 13063 26092 26093;
  CX 26156 26093 1378; CX 1378 16958 25968; CX 26220 26093 13062; CX 16957 26093 13061; CA 13062 13061 13060; CX 13060 26093 26094; CX 26157 26094 1377; CX 1377 16959 25969].
(** Lines 9605-10004 of the file. *)
Definition divide64_24 : list cg := [
  CX 26221 26094 13059; CX 16958 26094 13058; CA 13059 13058 13057; CX 13057 26094 26095; CX 26158 26095 1376; CX 1376 16960 25970; CX 26222 26095 13056; CX 16959 26095 13055;
  CA 13056 13055 13054; CX 13054 26095 26096; CX 26159 26096 1375; CX 1375 16961 25971; CX 26223 26096 13053; CX 16960 26096 13052; CA 13053 13052 13051; CX 13051 26096 26097;
  CX 26160 26097 1374; CX 1374 16962 25972; CX 26224 26097 13050; CX 16961 26097 13049; CA 13050 13049 13048; CX 13048 26097 26098; CX 26161 26098 1373; CX 1373 16963 25973;
  CX 26225 26098 13047; CX 16962 26098 13046; CA 13047 13046 13045; CX 13045 26098 26099; CX 26162 26099 1372; CX 1372 16964 25974; CX 26226 26099 13044; CX 16963 26099 13043;
  CA 13044 13043 13042; CX 13042 26099 26100; CX 26163 26100 1371; CX 1371 16965 25975; CX 26227 26100 13041; CX 16964 26100 13040; CA 13041 13040 13039; CX 13039 26100 26101;
  CX 26164 26101 1370; CX 1370 16966 25976; CX 26228 26101 13038; CX 16965 26101 13037; CA 13038 13037 13036; CX 13036 26101 26102; CX 26165 26102 1369; CX 1369 16967 25977;
  CX 26229 26102 13035; CX 16966 26102 13034; CA 13035 13034 13033; CX 13033 26102 26103; CX 26166 26103 1368; CX 1368 16968 25978; CX 26230 26103 13032; CX 16967 26103 13031;
  CA 13032 13031 13030; CX 13030 26103 26104; CX 26167 26104 1367; CX 1367 16969 25979; CX 26231 26104 13029; CX 16968 26104 13028; CA 13029 13028 13027; CX 13027 26104 26105;
  CX 26168 26105 1366; CX 1366 16970 25980; CX 26232 26105 13026; CX 16969 26105 13025; CA 13026 13025 13024; CX 13024 26105 26106; CX 26169 26106 1365; CX 1365 16971 25981;
  CX 26233 26106 13023; CX 16970 26106 13022; CA 13023 13022 13021; CX 13021 26106 26107; CX 26170 26107 1364; CX 1364 16972 25982; CX 26234 26107 13020; CX 16971 26107 13019;
  CA 13020 13019 13018; CX 13018 26107 26108; CX 26171 26108 1363; CX 1363 16973 25983; CX 26235 26108 13017; CX 16972 26108 13016; CA 13017 13016 13015; CX 13015 26108 26109;
  CX 26172 26109 1362; CX 1362 16974 25984; CX 26236 26109 13014; CX 16973 26109 13013; CA 13014 13013 13012; CX 13012 26109 26110; CX 26173 26110 1361; CX 1361 16975 25985;
  CX 26237 26110 13011; CX 16974 26110 13010; CA 13011 13010 13009; CX 13009 26110 26111; CX 26174 26111 1360; CX 1360 16976 25986; CX 26238 26111 13008; CX 16975 26111 13007;
  CA 13008 13007 13006; CX 13006 26111 26112; CX 26175 26112 1359; CX 1359 16977 25987; CX 26239 26112 13005; CX 16976 26112 13004; CA 13005 13004 13003; CX 13003 26112 26113;
  CX 26176 26113 1358; CX 1358 16978 25988; CX 26240 26113 13002; CX 16977 26113 13001; CA 13002 13001 13000; CX 13000 26113 26114; CX 26177 26114 1357; CX 1357 16979 25989;
  CX 26241 26114 12999; CX 16978 26114 12998; CA 12999 12998 12997; CX 12997 26114 26115; CX 26178 26115 1356; CX 1356 16980 25990; CX 26242 26115 12996; CX 16979 26115 12995;
  CA 12996 12995 12994; CX 12994 26115 26116; CX 26179 26116 1355; CX 1355 16981 25991; CX 26243 26116 12993; CX 16980 26116 12992; CA 12993 12992 12991; CX 12991 26116 26117;
  CX 26180 26117 1354; CX 1354 16982 25992; CX 26244 26117 12990; CX 16981 26117 12989; CA 12990 12989 12988; CX 12988 26117 26118; CX 26181 26118 1353; CX 1353 16983 25993;
  CX 26245 26118 12987; CX 16982 26118 12986; CA 12987 12986 12985; CX 12985 26118 26119; CX 26182 26119 1352; CX 1352 16984 25994; CX 26246 26119 12984; CX 16983 26119 12983;
  CA 12984 12983 12982; CX 12982 26119 26120; CX 26183 26120 1351; CX 1351 16985 25995; CX 26247 26120 12981; CX 16984 26120 12980; CA 12981 12980 12979; CX 12979 26120 26121;
  CX 26184 26121 1350; CX 1350 16986 25996; CX 26248 26121 12978; CX 16985 26121 12977; CA 12978 12977 12976; CX 12976 26121 26122; CX 26185 26122 1349; CX 1349 16987 25997;
  CX 26249 26122 12975; CX 16986 26122 12974; CA 12975 12974 12973; CX 12973 26122 26123; CX 26186 26123 1348; CX 1348 16988 25998; CX 26250 26123 12972; CX 16987 26123 12971;
  CA 12972 12971 12970; CX 12970 26123 26124; CX 26187 26124 1347; CX 1347 16989 25999; CX 26251 26124 12969; CX 16988 26124 12968; CA 12969 12968 12967; CX 12967 26124 26125;
  CX 26188 26125 1346; CX 1346 16990 26000; CX 26252 26125 12966; CX 16989 26125 12965; CA 12966 12965 12964; CX 12964 26125 26126; CX 26189 26126 1345; CX 1345 16991 26001;
  CX 26253 26126 12963; CX 16990 26126 12962; CA 12963 12962 12961; CX 12961 26126 26127; CX 26190 26127 1344; CX 1344 16992 26002; CX 26254 26127 12960; CX 16991 26127 12959;
  CA 12960 12959 12958; CX 12958 26127 26128; CX 26191 26128 1343; CX 1343 16993 26003; CX 26255 26128 12957; CX 16992 26128 12956; CA 12957 12956 12955; CX 12955 26128 26129;
  CX 26192 26129 1342; CX 1342 16994 26004; CX 26256 26129 12954; CX 16993 26129 12953; CA 12954 12953 12952; CX 12952 26129 26130; CX 26193 26130 1341; CX 1341 16995 26005;
  CX 26257 26130 12951; CX 16994 26130 12950; CA 12951 12950 12949; CX 12949 26130 26131; CX 26194 26131 1340; CX 1340 16996 26006; CX 26258 26131 12948; CX 16995 26131 12947;
  CA 12948 12947 12946; CX 12946 26131 26132; CX 26195 26132 1339; CX 1339 16997 26007; CX 26259 26132 12945; CX 16996 26132 12944; CA 12945 12944 12943; CX 12943 26132 26133;
  CX 26196 26133 1338; CX 1338 16998 26008; CX 26260 26133 12942; CX 16997 26133 12941; CA 12942 12941 12940; CX 12940 26133 26134; CX 26197 26134 1337; CX 1337 16999 26009;
  CX 26261 26134 12939; CX 16998 26134 12938; CA 12939 12938 12937; CX 12937 26134 26135; CX 26198 26135 1336; CX 1336 17000 26010; CX 26262 26135 12936; CX 16999 26135 12935;
  CA 12936 12935 12934; CX 12934 26135 26136; CX 26199 26136 1335; CX 1335 17001 26011; CX 26263 26136 12933; CX 17000 26136 12932; CA 12933 12932 12931; CX 12931 26136 26137;
  CX 26200 26137 1334; CX 1334 17002 26012; CX 26264 26137 12930; CX 17001 26137 12929; CA 12930 12929 12928; CX 12928 26137 26138; CX 26201 26138 1333; CX 1333 17003 26013;
  CX 26265 26138 12927; CX 17002 26138 12926; CA 12927 12926 12925; CX 12925 26138 26139; CX 26202 26139 1332; CX 1332 17004 26014; CX 26266 26139 12924; CX 17003 26139 12923;
  CA 12924 12923 12922; CX 12922 26139 26140; CX 26203 26140 1331; CX 1331 17005 26015; CX 26267 26140 12921; CX 17004 26140 12920; CA 12921 12920 12919; CX 12919 26140 26141;
  CX 26204 26141 1330; CX 1330 17006 26016; CX 26268 26141 12918; CX 17005 26141 12917; CA 12918 12917 12916; CX 12916 26141 26142; CX 26205 26142 1329; CX 1329 17007 26017;
  CX 26269 26142 12915; CX 17006 26142 12914; CA 12915 12914 12913; CX 12913 26142 26143; CX 26206 26143 1328; CX 1328 17008 26018; CX 26270 26143 12912; CX 17007 26143 12911;
  CA 12912 12911 12910; CX 12910 26143 26144; CX 26207 26144 1327; CX 1327 17009 26019; CX 26271 26144 12909; CX 17008 26144 12908; CA 12909 12908 12907; CX 12907 26144 26145;
  CX 26208 26145 148; CI 148 16674; CX 16863 16674 26020; CX 1389 16674 26021; CX 1388 16674 26022; CX 1387 16674 26023; CX 1386 16674 26024; CX 1385 16674 26025;
  CX 1384 16674 26026; CX 1383 16674 26027; CX 1382 16674 26028; CX 1381 16674 26029; CX 1380 16674 26030; CX 1379 16674 26031; CX 1378 16674 26032; CX 1377 16674 26033;
  CX 1376 16674 26034; CX 1375 16674 26035; CX 1374 16674 26036; CX 1373 16674 26037; CX 1372 16674 26038; CX 1371 16674 26039; CX 1370 16674 26040; CX 1369 16674 26041;
  CX 1368 16674 26042; CX 1367 16674 26043; CX 1366 16674 26044; CX 1365 16674 26045; CX 1364 16674 26046; CX 1363 16674 26047; CX 1362 16674 26048; CX 1361 16674 26049;
  CX 1360 16674 26050; CX 1359 16674 26051; CX 1358 16674 26052; CX 1357 16674 26053; CX 1356 16674 26054; CX 1355 16674 26055; CX 1354 16674 26056; CX 1353 16674 26057;
  CX 1352 16674 26058; CX 1351 16674 26059; CX 1350 16674 26060; CX 1349 16674 26061; CX 1348 16674 26062; CX 1347 16674 26063; CX 1346 16674 26064; CX 1345 16674 26065;
  CX 1344 16674 26066; CX 1343 16674 26067; CX 1342 16674 26068; CX 1341 16674 26069; CX 1340 16674 26070; CX 1339 16674 26071; CX 1338 16674 26072; CX 1337 16674 26073;
  CX 1336 16674 26074; CX 1335 16674 26075; CX 1334 16674 26076; CX 1333 16674 26077; CX 1332 16674 26078; CX 1331 16674 26079; CX 1330 16674 26080; CX 1329 16674 26081;
  CX 1328 16674 26082; CA 26020 16946 25894; CX 25957 25894 1451; CX 1451 16948 25769; CX 26021 25894 12906; CX 16947 25894 12905; CA 12906 12905 12904; CX 12904 25894 25895;
  CX 25958 25895 1450; CX 1450 16949 25770; CX 26022 25895 12903; CX 16948 25895 12902; CA 12903 12902 12901; CX 12901 25895 25896; CX 25959 25896 1449; CX 1449 16950 25771;
  CX 26023 25896 12900; CX 16949 25896 12899; CA 12900 12899 12898; CX 12898 25896 25897; CX 25960 25897 1448; CX 1448 16951 25772; CX 26024 25897 12897; CX 16950 25897 12896;
  CA 12897 12896 12895; CX 12895 25897 25898; CX 25961 25898 1447; CX 1447 16952 25773; CX 26025 25898 12894; CX 16951 25898 12893; CA 12894 12893 12892; CX 12892 25898 25899].
(** Lines 10005-10404 of the file. *)
Definition divide64_25 : list cg := [
  CX 25962 25899 1446; CX 1446 16953 25774; CX 26026 25899 12891; CX 16952 25899 12890; CA 12891 12890 12889; CX 12889 25899 25900; CX 25963 25900 1445; CX 1445 16954 25775;
  CX 26027 25900 12888; CX 16953 25900 12887; CA 12888 12887 12886; CX 12886 25900 25901; CX 25964 25901 1444; CX 1444 16955 25776; CX 26028 25901 12885; CX 16954 25901 12884;
  CA 12885 12884 12883; CX 12883 25901 25902; CX 25965 25902 1443; CX 1443 16956 25777; CX 26029 25902 12882; CX 16955 25902 12881; CA 12882 12881 12880; CX 12880 25902 25903;
  CX 25966 25903 1442; CX 1442 16957 25778; CX 26030 25903 12879; CX 16956 25903 12878; CA 12879 12878 12877; CX 12877 25903 25904; CX 25967 25904 1441; CX 1441 16958 25779;
  CX 26031 25904 12876; CX 16957 25904 12875; CA 12876 12875 12874; CX 12874 25904 25905; CX 25968 25905 1440; CX 1440 16959 25780; CX 26032 25905 12873; CX 16958 25905 12872;
  CA 12873 12872 12871; CX 12871 25905 25906; CX 25969 25906 1439; CX 1439 16960 25781; CX 26033 25906 12870; CX 16959 25906 12869; CA 12870 12869 12868; CX 12868 25906 25907;
  CX 25970 25907 1438; CX 1438 16961 25782; CX 26034 25907 12867; CX 16960 25907 12866; CA 12867 12866 12865; CX 12865 25907 25908; CX 25971 25908 1437; CX 1437 16962 25783;
  CX 26035 25908 12864; CX 16961 25908 12863; CA 12864 12863 12862; CX 12862 25908 25909; CX 25972 25909 1436; CX 1436 16963 25784; CX 26036 25909 12861; CX 16962 25909 12860;
  CA 12861 12860 12859; CX 12859 25909 25910; CX 25973 25910 1435; CX 1435 16964 25785; CX 26037 25910 12858; CX 16963 25910 12857; CA 12858 12857 12856; CX 12856 25910 25911;
  CX 25974 25911 1434; CX 1434 16965 25786; CX 26038 25911 12855; CX 16964 25911 12854; CA 12855 12854 12853; CX 12853 25911 25912; CX 25975 25912 1433; CX 1433 16966 25787;
  CX 26039 25912 12852; CX 16965 25912 12851; CA 12852 12851 12850; CX 12850 25912 25913; CX 25976 25913 1432; CX 1432 16967 25788; CX 26040 25913 12849; CX 16966 25913 12848;
  CA 12849 12848 12847; CX 12847 25913 25914; CX 25977 25914 1431; CX 1431 16968 25789; CX 26041 25914 12846; CX 16967 25914 12845; CA 12846 12845 12844; CX 12844 25914 25915;
  CX 25978 25915 1430; CX 1430 16969 25790; CX 26042 25915 12843; CX 16968 25915 12842; CA 12843 12842 12841; CX 12841 25915 25916; CX 25979 25916 1429; CX 1429 16970 25791;
  CX 26043 25916 12840; CX 16969 25916 12839; CA 12840 12839 12838; CX 12838 25916 25917; CX 25980 25917 1428; CX 1428 16971 25792; CX 26044 25917 12837; CX 16970 25917 12836;
  CA 12837 12836 12835; CX 12835 25917 25918; CX 25981 25918 1427; CX 1427 16972 25793; CX 26045 25918 12834; CX 16971 25918 12833; CA 12834 12833 12832; CX 12832 25918 25919;
  CX 25982 25919 1426; CX 1426 16973 25794; CX 26046 25919 12831; CX 16972 25919 12830; CA 12831 12830 12829; CX 12829 25919 25920; CX 25983 25920 1425; CX 1425 16974 25795;
  CX 26047 25920 12828; CX 16973 25920 12827; CA 12828 12827 12826; CX 12826 25920 25921; CX 25984 25921 1424; CX 1424 16975 25796; CX 26048 25921 12825; CX 16974 25921 12824;
  CA 12825 12824 12823; CX 12823 25921 25922; CX 25985 25922 1423; CX 1423 16976 25797; CX 26049 25922 12822; CX 16975 25922 12821; CA 12822 12821 12820; CX 12820 25922 25923;
  CX 25986 25923 1422; CX 1422 16977 25798; CX 26050 25923 12819; CX 16976 25923 12818; CA 12819 12818 12817; CX 12817 25923 25924; CX 25987 25924 1421; CX 1421 16978 25799;
  CX 26051 25924 12816; CX 16977 25924 12815; CA 12816 12815 12814; CX 12814 25924 25925; CX 25988 25925 1420; CX 1420 16979 25800; CX 26052 25925 12813; CX 16978 25925 12812;
  CA 12813 12812 12811; CX 12811 25925 25926; CX 25989 25926 1419; CX 1419 16980 25801; CX 26053 25926 12810; CX 16979 25926 12809; CA 12810 12809 12808; CX 12808 25926 25927;
  CX 25990 25927 1418; CX 1418 16981 25802; CX 26054 25927 12807; CX 16980 25927 12806; CA 12807 12806 12805; CX 12805 25927 25928; CX 25991 25928 1417; CX 1417 16982 25803;
  CX 26055 25928 12804; CX 16981 25928 12803; CA 12804 12803 12802; CX 12802 25928 25929; CX 25992 25929 1416; CX 1416 16983 25804; CX 26056 25929 12801; CX 16982 25929 12800;
  CA 12801 12800 12799; CX 12799 25929 25930; CX 25993 25930 1415; CX 1415 16984 25805; CX 26057 25930 12798; CX 16983 25930 12797; CA 12798 12797 12796; CX 12796 25930 25931;
  CX 25994 25931 1414; CX 1414 16985 25806; CX 26058 25931 12795; CX 16984 25931 12794; CA 12795 12794 12793; CX 12793 25931 25932; CX 25995 25932 1413; CX 1413 16986 25807;
  CX 26059 25932 12792; CX 16985 25932 12791; CA 12792 12791 12790; CX 12790 25932 25933; CX 25996 25933 1412; CX 1412 16987 25808; CX 26060 25933 12789; CX 16986 25933 12788;
  CA 12789 12788 12787; CX 12787 25933 25934; CX 25997 25934 1411; CX 1411 16988 25809; CX 26061 25934 12786; CX 16987 25934 12785; CA 12786 12785 12784; CX 12784 25934 25935;
  CX 25998 25935 1410; CX 1410 16989 25810; CX 26062 25935 12783; CX 16988 25935 12782; CA 12783 12782 12781; CX 12781 25935 25936; CX 25999 25936 1409; CX 1409 16990 25811;
  CX 26063 25936 12780; CX 16989 25936 12779; CA 12780 12779 12778; CX 12778 25936 25937; CX 26000 25937 1408; CX 1408 16991 25812; CX 26064 25937 12777; CX 16990 25937 12776;
  CA 12777 12776 12775; CX 12775 25937 25938; CX 26001 25938 1407; CX 1407 16992 25813; CX 26065 25938 12774; CX 16991 25938 12773; CA 12774 12773 12772; CX 12772 25938 25939;
  CX 26002 25939 1406; CX 1406 16993 25814; CX 26066 25939 12771; CX 16992 25939 12770; CA 12771 12770 12769; CX 12769 25939 25940; CX 26003 25940 1405; CX 1405 16994 25815;
  CX 26067 25940 12768; CX 16993 25940 12767; CA 12768 12767 12766; CX 12766 25940 25941; CX 26004 25941 1404; CX 1404 16995 25816; CX 26068 25941 12765; CX 16994 25941 12764;
  CA 12765 12764 12763; CX 12763 25941 25942; CX 26005 25942 1403; CX 1403 16996 25817; CX 26069 25942 12762; CX 16995 25942 12761; CA 12762 12761 12760; CX 12760 25942 25943;
  CX 26006 25943 1402; CX 1402 16997 25818; CX 26070 25943 12759; CX 16996 25943 12758; CA 12759 12758 12757; CX 12757 25943 25944; CX 26007 25944 1401; CX 1401 16998 25819;
  CX 26071 25944 12756; CX 16997 25944 12755; CA 12756 12755 12754; CX 12754 25944 25945; CX 26008 25945 1400; CX 1400 16999 25820; CX 26072 25945 12753; CX 16998 25945 12752;
  CA 12753 12752 12751; CX 12751 25945 25946; CX 26009 25946 1399; CX 1399 17000 25821; CX 26073 25946 12750; CX 16999 25946 12749; CA 12750 12749 12748; CX 12748 25946 25947;
  CX 26010 25947 1398; CX 1398 17001 25822; CX 26074 25947 12747; CX 17000 25947 12746; CA 12747 12746 12745; CX 12745 25947 25948; CX 26011 25948 1397; CX 1397 17002 25823;
  CX 26075 25948 12744; CX 17001 25948 12743; CA 12744 12743 12742; CX 12742 25948 25949; CX 26012 25949 1396; CX 1396 17003 25824; CX 26076 25949 12741; CX 17002 25949 12740;
  CA 12741 12740 12739; CX 12739 25949 25950; CX 26013 25950 1395; CX 1395 17004 25825; CX 26077 25950 12738; CX 17003 25950 12737; CA 12738 12737 12736; CX 12736 25950 25951;
  CX 26014 25951 1394; CX 1394 17005 25826; CX 26078 25951 12735; CX 17004 25951 12734; CA 12735 12734 12733; CX 12733 25951 25952; CX 26015 25952 1393; CX 1393 17006 25827;
  CX 26079 25952 12732; CX 17005 25952 12731; CA 12732 12731 12730; CX 12730 25952 25953; CX 26016 25953 1392; CX 1392 17007 25828; CX 26080 25953 12729; CX 17006 25953 12728;
  CA 12729 12728 12727; CX 12727 25953 25954; CX 26017 25954 1391; CX 1391 17008 25829; CX 26081 25954 12726; CX 17007 25954 12725; CA 12726 12725 12724; CX 12724 25954 25955;
  CX 26018 25955 1390; CX 1390 17009 25830; CX 26082 25955 12723; CX 17008 25955 12722; CA 12723 12722 12721; CX 12721 25955 25956; CX 26019 25956 149; CA 16674 4535 17558;
  CI 149 16673; CX 16862 16673 25831; CX 1452 16673 25832; CX 1451 16673 25833; CX 1450 16673 25834; CX 1449 16673 25835; CX 1448 16673 25836; CX 1447 16673 25837;
  CX 1446 16673 25838; CX 1445 16673 25839; CX 1444 16673 25840; CX 1443 16673 25841; CX 1442 16673 25842; CX 1441 16673 25843; CX 1440 16673 25844; CX 1439 16673 25845;
  CX 1438 16673 25846; CX 1437 16673 25847; CX 1436 16673 25848; CX 1435 16673 25849; CX 1434 16673 25850; CX 1433 16673 25851; CX 1432 16673 25852; CX 1431 16673 25853;
  CX 1430 16673 25854; CX 1429 16673 25855; CX 1428 16673 25856; CX 1427 16673 25857; CX 1426 16673 25858; CX 1425 16673 25859; CX 1424 16673 25860; CX 1423 16673 25861;
  CX 1422 16673 25862; CX 1421 16673 25863; CX 1420 16673 25864; CX 1419 16673 25865; CX 1418 16673 25866; CX 1417 16673 25867; CX 1416 16673 25868; CX 1415 16673 25869;
  CX 1414 16673 25870; CX 1413 16673 25871; CX 1412 16673 25872; CX 1411 16673 25873; CX 1410 16673 25874; CX 1409 16673 25875; CX 1408 16673 25876; CX 1407 16673 25877;
  CX 1406 16673 25878; CX 1405 16673 25879; CX 1404 16673 25880; CX 1403 16673 25881; CX 1402 16673 25882; CX 1401 16673 25883; CX 1400 16673 25884; CX 1399 16673 25885].
(** Lines 10405-10804 of the file. *)
Definition divide64_26 : list cg := [
  CX 1398 16673 25886; CX 1397 16673 25887; CX 1396 16673 25888; CX 1395 16673 25889; CX 1394 16673 25890; CX 1393 16673 25891; CX 1392 16673 25892; CX 1391 16673 25893;
  CA 25831 16946 25705; CX 25768 25705 1514; CX 1514 16948 25580; CX 25832 25705 12720; CX 16947 25705 12719; CA 12720 12719 12718; CX 12718 25705 25706; CX 25769 25706 1513;
  CX 1513 16949 25581; CX 25833 25706 12717; CX 16948 25706 12716; CA 12717 12716 12715; CX 12715 25706 25707; CX 25770 25707 1512; CX 1512 16950 25582; CX 25834 25707 12714;
  CX 16949 25707 12713; CA 12714 12713 12712; CX 12712 25707 25708; CX 25771 25708 1511; CX 1511 16951 25583; CX 25835 25708 12711; CX 16950 25708 12710; CA 12711 12710 12709;
  CX 12709 25708 25709; CX 25772 25709 1510; CX 1510 16952 25584; CX 25836 25709 12708; CX 16951 25709 12707; CA 12708 12707 12706; CX 12706 25709 25710; CX 25773 25710 1509;
  CX 1509 16953 25585; CX 25837 25710 12705; CX 16952 25710 12704; CA 12705 12704 12703; CX 12703 25710 25711; CX 25774 25711 1508; CX 1508 16954 25586; CX 25838 25711 12702;
  CX 16953 25711 12701; CA 12702 12701 12700; CX 12700 25711 25712; CX 25775 25712 1507; CX 1507 16955 25587; CX 25839 25712 12699; CX 16954 25712 12698; CA 12699 12698 12697;
  CX 12697 25712 25713; CX 25776 25713 1506; CX 1506 16956 25588; CX 25840 25713 12696; CX 16955 25713 12695; CA 12696 12695 12694; CX 12694 25713 25714; CX 25777 25714 1505;
  CX 1505 16957 25589; CX 25841 25714 12693; CX 16956 25714 12692; CA 12693 12692 12691; CX 12691 25714 25715; CX 25778 25715 1504; CX 1504 16958 25590; CX 25842 25715 12690;
  CX 16957 25715 12689; CA 12690 12689 12688; CX 12688 25715 25716; CX 25779 25716 1503; CX 1503 16959 25591; CX 25843 25716 12687; CX 16958 25716 12686; CA 12687 12686 12685;
  CX 12685 25716 25717; CX 25780 25717 1502; CX 1502 16960 25592; CX 25844 25717 12684; CX 16959 25717 12683; CA 12684 12683 12682; CX 12682 25717 25718; CX 25781 25718 1501;
  CX 1501 16961 25593; CX 25845 25718 12681; CX 16960 25718 12680; CA 12681 12680 12679; CX 12679 25718 25719; CX 25782 25719 1500; CX 1500 16962 25594; CX 25846 25719 12678;
  CX 16961 25719 12677; CA 12678 12677 12676; CX 12676 25719 25720; CX 25783 25720 1499; CX 1499 16963 25595; CX 25847 25720 12675; CX 16962 25720 12674; CA 12675 12674 12673;
  CX 12673 25720 25721; CX 25784 25721 1498; CX 1498 16964 25596; CX 25848 25721 12672; CX 16963 25721 12671; CA 12672 12671 12670; CX 12670 25721 25722; CX 25785 25722 1497;
  CX 1497 16965 25597; CX 25849 25722 12669; CX 16964 25722 12668; CA 12669 12668 12667; CX 12667 25722 25723; CX 25786 25723 1496; CX 1496 16966 25598; CX 25850 25723 12666;
  CX 16965 25723 12665; CA 12666 12665 12664; CX 12664 25723 25724; CX 25787 25724 1495; CX 1495 16967 25599; CX 25851 25724 12663; CX 16966 25724 12662; CA 12663 12662 12661;
  CX 12661 25724 25725; CX 25788 25725 1494; CX 1494 16968 25600; CX 25852 25725 12660; CX 16967 25725 12659; CA 12660 12659 12658; CX 12658 25725 25726; CX 25789 25726 1493;
  CX 1493 16969 25601; CX 25853 25726 12657; CX 16968 25726 12656; CA 12657 12656 12655; CX 12655 25726 25727; CX 25790 25727 1492; CX 1492 16970 25602; CX 25854 25727 12654;
  CX 16969 25727 12653; CA 12654 12653 12652; CX 12652 25727 25728; CX 25791 25728 1491; CX 1491 16971 25603; CX 25855 25728 12651; CX 16970 25728 12650; CA 12651 12650 12649;
  CX 12649 25728 25729; CX 25792 25729 1490; CX 1490 16972 25604; CX 25856 25729 12648; CX 16971 25729 12647; CA 12648 12647 12646; CX 12646 25729 25730; CX 25793 25730 1489;
  CX 1489 16973 25605; CX 25857 25730 12645; CX 16972 25730 12644; CA 12645 12644 12643; CX 12643 25730 25731; CX 25794 25731 1488; CX 1488 16974 25606; CX 25858 25731 12642;
  CX 16973 25731 12641; CA 12642 12641 12640; CX 12640 25731 25732; CX 25795 25732 1487; CX 1487 16975 25607; CX 25859 25732 12639; CX 16974 25732 12638; CA 12639 12638 12637;
  CX 12637 25732 25733; CX 25796 25733 1486; CX 1486 16976 25608; CX 25860 25733 12636; CX 16975 25733 12635; CA 12636 12635 12634; CX 12634 25733 25734; CX 25797 25734 1485;
  CX 1485 16977 25609; CX 25861 25734 12633; CX 16976 25734 12632; CA 12633 12632 12631; CX 12631 25734 25735; CX 25798 25735 1484; CX 1484 16978 25610; CX 25862 25735 12630;
  CX 16977 25735 12629; CA 12630 12629 12628; CX 12628 25735 25736; CX 25799 25736 1483; CX 1483 16979 25611; CX 25863 25736 12627; CX 16978 25736 12626; CA 12627 12626 12625;
  CX 12625 25736 25737; CX 25800 25737 1482; CX 1482 16980 25612; CX 25864 25737 12624; CX 16979 25737 12623; CA 12624 12623 12622; CX 12622 25737 25738; CX 25801 25738 1481;
  CX 1481 16981 25613; CX 25865 25738 12621; CX 16980 25738 12620; CA 12621 12620 12619; CX 12619 25738 25739; CX 25802 25739 1480; CX 1480 16982 25614; CX 25866 25739 12618;
  CX 16981 25739 12617; CA 12618 12617 12616; CX 12616 25739 25740; CX 25803 25740 1479; CX 1479 16983 25615; CX 25867 25740 12615; CX 16982 25740 12614; CA 12615 12614 12613;
  CX 12613 25740 25741; CX 25804 25741 1478; CX 1478 16984 25616; CX 25868 25741 12612; CX 16983 25741 12611; CA 12612 12611 12610; CX 12610 25741 25742; CX 25805 25742 1477;
  CX 1477 16985 25617; CX 25869 25742 12609; CX 16984 25742 12608; CA 12609 12608 12607; CX 12607 25742 25743; CX 25806 25743 1476; CX 1476 16986 25618; CX 25870 25743 12606;
  CX 16985 25743 12605; CA 12606 12605 12604; CX 12604 25743 25744; CX 25807 25744 1475; CX 1475 16987 25619; CX 25871 25744 12603; CX 16986 25744 12602; CA 12603 12602 12601;
  CX 12601 25744 25745; CX 25808 25745 1474; CX 1474 16988 25620; CX 25872 25745 12600; CX 16987 25745 12599; CA 12600 12599 12598; CX 12598 25745 25746; CX 25809 25746 1473;
  CX 1473 16989 25621; CX 25873 25746 12597; CX 16988 25746 12596; CA 12597 12596 12595; CX 12595 25746 25747; CX 25810 25747 1472; CX 1472 16990 25622; CX 25874 25747 12594;
  CX 16989 25747 12593; CA 12594 12593 12592; CX 12592 25747 25748; CX 25811 25748 1471; CX 1471 16991 25623; CX 25875 25748 12591; CX 16990 25748 12590; CA 12591 12590 12589;
  CX 12589 25748 25749; CX 25812 25749 1470; CX 1470 16992 25624; CX 25876 25749 12588; CX 16991 25749 12587; CA 12588 12587 12586; CX 12586 25749 25750; CX 25813 25750 1469;
  CX 1469 16993 25625; CX 25877 25750 12585; CX 16992 25750 12584; CA 12585 12584 12583; CX 12583 25750 25751; CX 25814 25751 1468; CX 1468 16994 25626; CX 25878 25751 12582;
  CX 16993 25751 12581; CA 12582 12581 12580; CX 12580 25751 25752; CX 25815 25752 1467; CX 1467 16995 25627; CX 25879 25752 12579; CX 16994 25752 12578; CA 12579 12578 12577;
  CX 12577 25752 25753; CX 25816 25753 1466; CX 1466 16996 25628; CX 25880 25753 12576; CX 16995 25753 12575; CA 12576 12575 12574; CX 12574 25753 25754; CX 25817 25754 1465;
  CX 1465 16997 25629; CX 25881 25754 12573; CX 16996 25754 12572; CA 12573 12572 12571; CX 12571 25754 25755; CX 25818 25755 1464; CX 1464 16998 25630; CX 25882 25755 12570;
  CX 16997 25755 12569; CA 12570 12569 12568; CX 12568 25755 25756; CX 25819 25756 1463; CX 1463 16999 25631; CX 25883 25756 12567; CX 16998 25756 12566; CA 12567 12566 12565;
  CX 12565 25756 25757; CX 25820 25757 1462; CX 1462 17000 25632; CX 25884 25757 12564; CX 16999 25757 12563; CA 12564 12563 12562; CX 12562 25757 25758; CX 25821 25758 1461;
  CX 1461 17001 25633; CX 25885 25758 12561; CX 17000 25758 12560; CA 12561 12560 12559; CX 12559 25758 25759; CX 25822 25759 1460; CX 1460 17002 25634; CX 25886 25759 12558;
  CX 17001 25759 12557; CA 12558 12557 12556; CX 12556 25759 25760; CX 25823 25760 1459; CX 1459 17003 25635; CX 25887 25760 12555; CX 17002 25760 12554; CA 12555 12554 12553;
  CX 12553 25760 25761; CX 25824 25761 1458; CX 1458 17004 25636; CX 25888 25761 12552; CX 17003 25761 12551; CA 12552 12551 12550; CX 12550 25761 25762; CX 25825 25762 1457;
  CX 1457 17005 25637; CX 25889 25762 12549; CX 17004 25762 12548; CA 12549 12548 12547; CX 12547 25762 25763; CX 25826 25763 1456; CX 1456 17006 25638; CX 25890 25763 12546;
  CX 17005 25763 12545; CA 12546 12545 12544; CX 12544 25763 25764; CX 25827 25764 1455; CX 1455 17007 25639; CX 25891 25764 12543; CX 17006 25764 12542; CA 12543 12542 12541;
  CX 12541 25764 25765; CX 25828 25765 1454; CX 1454 17008 25640; CX 25892 25765 12540; CX 17007 25765 12539; CA 12540 12539 12538; CX 12538 25765 25766; CX 25829 25766 1453;
  CX 1453 17009 25641; CX 25893 25766 12537; CX 17008 25766 12536; CA 12537 12536 12535; CX 12535 25766 25767; CX 25830 25767 150; CI 150 16672; CX 16861 16672 25642;
  CX 1515 16672 25643; CX 1514 16672 25644; CX 1513 16672 25645; CX 1512 16672 25646; CX 1511 16672 25647; CX 1510 16672 25648; CX 1509 16672 25649; CX 1508 16672 25650;
  CX 1507 16672 25651; CX 1506 16672 25652; CX 1505 16672 25653; CX 1504 16672 25654; CX 1503 16672 25655; CX 1502 16672 25656; CX 1501 16672 25657; CX 1500 16672 25658].
(** Lines 10805-11204 of the file. *)
Definition divide64_27 : list cg := [
  CX 1499 16672 25659; CX 1498 16672 25660; CX 1497 16672 25661; CX 1496 16672 25662; CX 1495 16672 25663; CX 1494 16672 25664; CX 1493 16672 25665; CX 1492 16672 25666;
  CX 1491 16672 25667; CX 1490 16672 25668; CX 1489 16672 25669; CX 1488 16672 25670; CX 1487 16672 25671; CX 1486 16672 25672; CX 1485 16672 25673; CX 1484 16672 25674;
  CX 1483 16672 25675; CX 1482 16672 25676; CX 1481 16672 25677; CX 1480 16672 25678; CX 1479 16672 25679; CX 1478 16672 25680; CX 1477 16672 25681; CX 1476 16672 25682;
  CX 1475 16672 25683; CX 1474 16672 25684; CX 1473 16672 25685; CX 1472 16672 25686; CX 1471 16672 25687; CX 1470 16672 25688; CX 1469 16672 25689; CX 1468 16672 25690;
  CX 1467 16672 25691; CX 1466 16672 25692; CX 1465 16672 25693; CX 1464 16672 25694; CX 1463 16672 25695; CX 1462 16672 25696; CX 1461 16672 25697; CX 1460 16672 25698;
  CX 1459 16672 25699; CX 1458 16672 25700; CX 1457 16672 25701; CX 1456 16672 25702; CX 1455 16672 25703; CX 1454 16672 25704; CA 25642 16946 25516; CX 25579 25516 1577;
  CX 1577 16948 25391; CX 25643 25516 12534; CX 16947 25516 12533; CA 12534 12533 12532; CX 12532 25516 25517; CX 25580 25517 1576; CX 1576 16949 25392; CX 25644 25517 12531;
  CX 16948 25517 12530; CA 12531 12530 12529; CX 12529 25517 25518; CX 25581 25518 1575; CX 1575 16950 25393; CX 25645 25518 12528; CX 16949 25518 12527; CA 12528 12527 12526;
  CX 12526 25518 25519; CX 25582 25519 1574; CX 1574 16951 25394; CX 25646 25519 12525; CX 16950 25519 12524; CA 12525 12524 12523; CX 12523 25519 25520; CX 25583 25520 1573;
  CX 1573 16952 25395; CX 25647 25520 12522; CX 16951 25520 12521; CA 12522 12521 12520; CX 12520 25520 25521; CX 25584 25521 1572; CX 1572 16953 25396; CX 25648 25521 12519;
  CX 16952 25521 12518; CA 12519 12518 12517; CX 12517 25521 25522; CX 25585 25522 1571; CX 1571 16954 25397; CX 25649 25522 12516; CX 16953 25522 12515; CA 12516 12515 12514;
  CX 12514 25522 25523; CX 25586 25523 1570; CX 1570 16955 25398; CX 25650 25523 12513; CX 16954 25523 12512; CA 12513 12512 12511; CX 12511 25523 25524; CX 25587 25524 1569;
  CX 1569 16956 25399; CX 25651 25524 12510; CX 16955 25524 12509; CA 12510 12509 12508; CX 12508 25524 25525; CX 25588 25525 1568; CX 1568 16957 25400; CX 25652 25525 12507;
  CX 16956 25525 12506; CA 12507 12506 12505; CX 12505 25525 25526; CX 25589 25526 1567; CX 1567 16958 25401; CX 25653 25526 12504; CX 16957 25526 12503; CA 12504 12503 12502;
  CX 12502 25526 25527; CX 25590 25527 1566; CX 1566 16959 25402; CX 25654 25527 12501; CX 16958 25527 12500; CA 12501 12500 12499; CX 12499 25527 25528; CX 25591 25528 1565;
  CX 1565 16960 25403; CX 25655 25528 12498; CX 16959 25528 12497; CA 12498 12497 12496; CX 12496 25528 25529; CX 25592 25529 1564; CX 1564 16961 25404; CX 25656 25529 12495;
  CX 16960 25529 12494; CA 12495 12494 12493; CX 12493 25529 25530; CX 25593 25530 1563; CX 1563 16962 25405; CX 25657 25530 12492; CX 16961 25530 12491; CA 12492 12491 12490;
  CX 12490 25530 25531; CX 25594 25531 1562; CX 1562 16963 25406; CX 25658 25531 12489; CX 16962 25531 12488; CA 12489 12488 12487; CX 12487 25531 25532; CX 25595 25532 1561;
  CX 1561 16964 25407; CX 25659 25532 12486; CX 16963 25532 12485; CA 12486 12485 12484; CX 12484 25532 25533; CX 25596 25533 1560; CX 1560 16965 25408; CX 25660 25533 12483;
  CX 16964 25533 12482; CA 12483 12482 12481; CX 12481 25533 25534; CX 25597 25534 1559; CX 1559 16966 25409; CX 25661 25534 12480; CX 16965 25534 12479; CA 12480 12479 12478;
  CX 12478 25534 25535; CX 25598 25535 1558; CX 1558 16967 25410; CX 25662 25535 12477; CX 16966 25535 12476; CA 12477 12476 12475; CX 12475 25535 25536; CX 25599 25536 1557;
  CX 1557 16968 25411; CX 25663 25536 12474; CX 16967 25536 12473; CA 12474 12473 12472; CX 12472 25536 25537; CX 25600 25537 1556; CX 1556 16969 25412; CX 25664 25537 12471;
  CX 16968 25537 12470; CA 12471 12470 12469; CX 12469 25537 25538; CX 25601 25538 1555; CX 1555 16970 25413; CX 25665 25538 12468; CX 16969 25538 12467; CA 12468 12467 12466;
  CX 12466 25538 25539; CX 25602 25539 1554; CX 1554 16971 25414; CX 25666 25539 12465; CX 16970 25539 12464; CA 12465 12464 12463; CX 12463 25539 25540; CX 25603 25540 1553;
  CX 1553 16972 25415; CX 25667 25540 12462; CX 16971 25540 12461; CA 12462 12461 12460; CX 12460 25540 25541; CX 25604 25541 1552; CX 1552 16973 25416; CX 25668 25541 12459;
  CX 16972 25541 12458; CA 12459 12458 12457; CX 12457 25541 25542; CX 25605 25542 1551; CX 1551 16974 25417; CX 25669 25542 12456; CX 16973 25542 12455; CA 12456 12455 12454;
  CX 12454 25542 25543; CX 25606 25543 1550; CX 1550 16975 25418; CX 25670 25543 12453; CX 16974 25543 12452; CA 12453 12452 12451; CX 12451 25543 25544; CX 25607 25544 1549;
  CX 1549 16976 25419; CX 25671 25544 12450; CX 16975 25544 12449; CA 12450 12449 12448; CX 12448 25544 25545; CX 25608 25545 1548; CX 1548 16977 25420; CX 25672 25545 12447;
  CX 16976 25545 12446; CA 12447 12446 12445; CX 12445 25545 25546; CX 25609 25546 1547; CX 1547 16978 25421; CX 25673 25546 12444; CX 16977 25546 12443; CA 12444 12443 12442;
  CX 12442 25546 25547; CX 25610 25547 1546; CX 1546 16979 25422; CX 25674 25547 12441; CX 16978 25547 12440; CA 12441 12440 12439; CX 12439 25547 25548; CX 25611 25548 1545;
  CX 1545 16980 25423; CX 25675 25548 12438; CX 16979 25548 12437; CA 12438 12437 12436; CX 12436 25548 25549; CX 25612 25549 1544; CX 1544 16981 25424; CX 25676 25549 12435;
  CX 16980 25549 12434; CA 12435 12434 12433; CX 12433 25549 25550; CX 25613 25550 1543; CX 1543 16982 25425; CX 25677 25550 12432; CX 16981 25550 12431; CA 12432 12431 12430;
  CX 12430 25550 25551; CX 25614 25551 1542; CX 1542 16983 25426; CX 25678 25551 12429; CX 16982 25551 12428; CA 12429 12428 12427; CX 12427 25551 25552; CX 25615 25552 1541;
  CX 1541 16984 25427; CX 25679 25552 12426; CX 16983 25552 12425; CA 12426 12425 12424; CX 12424 25552 25553; CX 25616 25553 1540; CX 1540 16985 25428; CX 25680 25553 12423;
  CX 16984 25553 12422; CA 12423 12422 12421; CX 12421 25553 25554; CX 25617 25554 1539; CX 1539 16986 25429; CX 25681 25554 12420; CX 16985 25554 12419; CA 12420 12419 12418;
  CX 12418 25554 25555; CX 25618 25555 1538; CX 1538 16987 25430; CX 25682 25555 12417; CX 16986 25555 12416; CA 12417 12416 12415; CX 12415 25555 25556; CX 25619 25556 1537;
  CX 1537 16988 25431; CX 25683 25556 12414; CX 16987 25556 12413; CA 12414 12413 12412; CX 12412 25556 25557; CX 25620 25557 1536; CX 1536 16989 25432; CX 25684 25557 12411;
  CX 16988 25557 12410; CA 12411 12410 12409; CX 12409 25557 25558; CX 25621 25558 1535; CX 1535 16990 25433; CX 25685 25558 12408; CX 16989 25558 12407; CA 12408 12407 12406;
  CX 12406 25558 25559; CX 25622 25559 1534; CX 1534 16991 25434; CX 25686 25559 12405; CX 16990 25559 12404; CA 12405 12404 12403; CX 12403 25559 25560; CX 25623 25560 1533;
  CX 1533 16992 25435; CX 25687 25560 12402; CX 16991 25560 12401; CA 12402 12401 12400; CX 12400 25560 25561; CX 25624 25561 1532; CX 1532 16993 25436; CX 25688 25561 12399;
  CX 16992 25561 12398; CA 12399 12398 12397; CX 12397 25561 25562; CX 25625 25562 1531; CX 1531 16994 25437; CX 25689 25562 12396; CX 16993 25562 12395; CA 12396 12395 12394;
  CX 12394 25562 25563; CX 25626 25563 1530; CX 1530 16995 25438; CX 25690 25563 12393; CX 16994 25563 12392; CA 12393 12392 12391; CX 12391 25563 25564; CX 25627 25564 1529;
  CX 1529 16996 25439; CX 25691 25564 12390; CX 16995 25564 12389; CA 12390 12389 12388; CX 12388 25564 25565; CX 25628 25565 1528; CX 1528 16997 25440; CX 25692 25565 12387;
  CX 16996 25565 12386; CA 12387 12386 12385; CX 12385 25565 25566; CX 25629 25566 1527; CX 1527 16998 25441; CX 25693 25566 12384; CX 16997 25566 12383; CA 12384 12383 12382;
  CX 12382 25566 25567; CX 25630 25567 1526; CX 1526 16999 25442; CX 25694 25567 12381; CX 16998 25567 12380; CA 12381 12380 12379; CX 12379 25567 25568; CX 25631 25568 1525;
  CX 1525 17000 25443; CX 25695 25568 12378; CX 16999 25568 12377; CA 12378 12377 12376; CX 12376 25568 25569; CX 25632 25569 1524; CX 1524 17001 25444; CX 25696 25569 12375;
  CX 17000 25569 12374; CA 12375 12374 12373; CX 12373 25569 25570; CX 25633 25570 1523; CX 1523 17002 25445; CX 25697 25570 12372; CX 17001 25570 12371; CA 12372 12371 12370;
  CX 12370 25570 25571; CX 25634 25571 1522; CX 1522 17003 25446; CX 25698 25571 12369; CX 17002 25571 12368; CA 12369 12368 12367; CX 12367 25571 25572; CX 25635 25572 1521;
  CX 1521 17004 25447; CX 25699 25572 12366; CX 17003 25572 12365; CA 12366 12365 12364; CX 12364 25572 25573; CX 25636 25573 1520; CX 1520 17005 25448; CX 25700 25573 12363;
  CX 17004 25573 12362; CA 12363 12362 12361; CX 12361 25573 25574; CX 25637 25574 1519; CX 1519 17006 25449; CX 25701 25574 12360; CX 17005 25574 12359; CA 12360 12359 12358].
(** Lines 11205-11604 of the file. *)
Definition divide64_28 : list cg := [
  CX 12358 25574 25575; CX 25638 25575 1518; CX 1518 17007 25450; CX 25702 25575 12357; CX 17006 25575 12356; CA 12357 12356 12355; CX 12355 25575 25576; CX 25639 25576 1517;
  CX 1517 17008 25451; CX 25703 25576 12354; CX 17007 25576 12353; CA 12354 12353 12352; CX 12352 25576 25577; CX 25640 25577 1516; CX 1516 17009 25452; CX 25704 25577 12351;
  CX 17008 25577 12350; CA 12351 12350 12349; CX 12349 25577 25578; CX 25641 25578 151; CA 16672 4535 17556; CI 151 16671; CX 16860 16671 25453; CX 1578 16671 25454;
  CX 1577 16671 25455; CX 1576 16671 25456; CX 1575 16671 25457; CX 1574 16671 25458; CX 1573 16671 25459; CX 1572 16671 25460; CX 1571 16671 25461; CX 1570 16671 25462;
  CX 1569 16671 25463; CX 1568 16671 25464; CX 1567 16671 25465; CX 1566 16671 25466; CX 1565 16671 25467; CX 1564 16671 25468; CX 1563 16671 25469; CX 1562 16671 25470;
  CX 1561 16671 25471; CX 1560 16671 25472; CX 1559 16671 25473; CX 1558 16671 25474; CX 1557 16671 25475; CX 1556 16671 25476; CX 1555 16671 25477; CX 1554 16671 25478;
  CX 1553 16671 25479; CX 1552 16671 25480; CX 1551 16671 25481; CX 1550 16671 25482; CX 1549 16671 25483; CX 1548 16671 25484; CX 1547 16671 25485; CX 1546 16671 25486;
  CX 1545 16671 25487; CX 1544 16671 25488; CX 1543 16671 25489; CX 1542 16671 25490; CX 1541 16671 25491; CX 1540 16671 25492; CX 1539 16671 25493; CX 1538 16671 25494;
  CX 1537 16671 25495; CX 1536 16671 25496; CX 1535 16671 25497; CX 1534 16671 25498; CX 1533 16671 25499; CX 1532 16671 25500; CX 1531 16671 25501; CX 1530 16671 25502;
  CX 1529 16671 25503; CX 1528 16671 25504; CX 1527 16671 25505; CX 1526 16671 25506; CX 1525 16671 25507; CX 1524 16671 25508; CX 1523 16671 25509; CX 1522 16671 25510;
  CX 1521 16671 25511; CX 1520 16671 25512; CX 1519 16671 25513; CX 1518 16671 25514; CX 1517 16671 25515; CA 25453 16946 25327; CX 25390 25327 1640; CX 1640 16948 25202;
  CX 25454 25327 12348; CX 16947 25327 12347; CA 12348 12347 12346; CX 12346 25327 25328; CX 25391 25328 1639; CX 1639 16949 25203; CX 25455 25328 12345; CX 16948 25328 12344;
  CA 12345 12344 12343; CX 12343 25328 25329; CX 25392 25329 1638; CX 1638 16950 25204; CX 25456 25329 12342; CX 16949 25329 12341; CA 12342 12341 12340; CX 12340 25329 25330;
  CX 25393 25330 1637; CX 1637 16951 25205; CX 25457 25330 12339; CX 16950 25330 12338; CA 12339 12338 12337; CX 12337 25330 25331; CX 25394 25331 1636; CX 1636 16952 25206;
  CX 25458 25331 12336; CX 16951 25331 12335; CA 12336 12335 12334; CX 12334 25331 25332; CX 25395 25332 1635; CX 1635 16953 25207; CX 25459 25332 12333; CX 16952 25332 12332;
  CA 12333 12332 12331; CX 12331 25332 25333; CX 25396 25333 1634; CX 1634 16954 25208; CX 25460 25333 12330; CX 16953 25333 12329; CA 12330 12329 12328; CX 12328 25333 25334;
  CX 25397 25334 1633; CX 1633 16955 25209; CX 25461 25334 12327; CX 16954 25334 12326; CA 12327 12326 12325; CX 12325 25334 25335; CX 25398 25335 1632; CX 1632 16956 25210;
  CX 25462 25335 12324; CX 16955 25335 12323; CA 12324 12323 12322; CX 12322 25335 25336; CX 25399 25336 1631; CX 1631 16957 25211; CX 25463 25336 12321; CX 16956 25336 12320;
  CA 12321 12320 12319; CX 12319 25336 25337; CX 25400 25337 1630; CX 1630 16958 25212; CX 25464 25337 12318; CX 16957 25337 12317; CA 12318 12317 12316; CX 12316 25337 25338;
  CX 25401 25338 1629; CX 1629 16959 25213; CX 25465 25338 12315; CX 16958 25338 12314; CA 12315 12314 12313; CX 12313 25338 25339; CX 25402 25339 1628; CX 1628 16960 25214;
  CX 25466 25339 12312; CX 16959 25339 12311; CA 12312 12311 12310; CX 12310 25339 25340; CX 25403 25340 1627; CX 1627 16961 25215; CX 25467 25340 12309; CX 16960 25340 12308;
  CA 12309 12308 12307; CX 12307 25340 25341; CX 25404 25341 1626; CX 1626 16962 25216; CX 25468 25341 12306; CX 16961 25341 12305; CA 12306 12305 12304; CX 12304 25341 25342;
  CX 25405 25342 1625; CX 1625 16963 25217; CX 25469 25342 12303; CX 16962 25342 12302; CA 12303 12302 12301; CX 12301 25342 25343; CX 25406 25343 1624; CX 1624 16964 25218;
  CX 25470 25343 12300; CX 16963 25343 12299; CA 12300 12299 12298; CX 12298 25343 25344; CX 25407 25344 1623; CX 1623 16965 25219; CX 25471 25344 12297; CX 16964 25344 12296;
  CA 12297 12296 12295; CX 12295 25344 25345; CX 25408 25345 1622; CX 1622 16966 25220; CX 25472 25345 12294; CX 16965 25345 12293; CA 12294 12293 12292; CX 12292 25345 25346;
  CX 25409 25346 1621; CX 1621 16967 25221; CX 25473 25346 12291; CX 16966 25346 12290; CA 12291 12290 12289; CX 12289 25346 25347; CX 25410 25347 1620; CX 1620 16968 25222;
  CX 25474 25347 12288; CX 16967 25347 12287; CA 12288 12287 12286; CX 12286 25347 25348; CX 25411 25348 1619; CX 1619 16969 25223; CX 25475 25348 12285; CX 16968 25348 12284;
  CA 12285 12284 12283; CX 12283 25348 25349; CX 25412 25349 1618; CX 1618 16970 25224; CX 25476 25349 12282; CX 16969 25349 12281; CA 12282 12281 12280; CX 12280 25349 25350;
  CX 25413 25350 1617; CX 1617 16971 25225; CX 25477 25350 12279; CX 16970 25350 12278; CA 12279 12278 12277; CX 12277 25350 25351; CX 25414 25351 1616; CX 1616 16972 25226;
  CX 25478 25351 12276; CX 16971 25351 12275; CA 12276 12275 12274; CX 12274 25351 25352; CX 25415 25352 1615; CX 1615 16973 25227; CX 25479 25352 12273; CX 16972 25352 12272;
  CA 12273 12272 12271; CX 12271 25352 25353; CX 25416 25353 1614; CX 1614 16974 25228; CX 25480 25353 12270; CX 16973 25353 12269; CA 12270 12269 12268; CX 12268 25353 25354;
  CX 25417 25354 1613; CX 1613 16975 25229; CX 25481 25354 12267; CX 16974 25354 12266; CA 12267 12266 12265; CX 12265 25354 25355; CX 25418 25355 1612; CX 1612 16976 25230;
  CX 25482 25355 12264; CX 16975 25355 12263; CA 12264 12263 12262; CX 12262 25355 25356; CX 25419 25356 1611; CX 1611 16977 25231; CX 25483 25356 12261; CX 16976 25356 12260;
  CA 12261 12260 12259; CX 12259 25356 25357; CX 25420 25357 1610; CX 1610 16978 25232; CX 25484 25357 12258; CX 16977 25357 12257; CA 12258 12257 12256; CX 12256 25357 25358;
  CX 25421 25358 1609; CX 1609 16979 25233; CX 25485 25358 12255; CX 16978 25358 12254; CA 12255 12254 12253; CX 12253 25358 25359; CX 25422 25359 1608; CX 1608 16980 25234;
  CX 25486 25359 12252; CX 16979 25359 12251; CA 12252 12251 12250; CX 12250 25359 25360; CX 25423 25360 1607; CX 1607 16981 25235; CX 25487 25360 12249; CX 16980 25360 12248;
  CA 12249 12248 12247; CX 12247 25360 25361; CX 25424 25361 1606; CX 1606 16982 25236; CX 25488 25361 12246; CX 16981 25361 12245; CA 12246 12245 12244; CX 12244 25361 25362;
  CX 25425 25362 1605; CX 1605 16983 25237; CX 25489 25362 12243; CX 16982 25362 12242; CA 12243 12242 12241; CX 12241 25362 25363; CX 25426 25363 1604; CX 1604 16984 25238;
  CX 25490 25363 12240; CX 16983 25363 12239; CA 12240 12239 12238; CX 12238 25363 25364; CX 25427 25364 1603; CX 1603 16985 25239; CX 25491 25364 12237; CX 16984 25364 12236;
  CA 12237 12236 12235; CX 12235 25364 25365; CX 25428 25365 1602; CX 1602 16986 25240; CX 25492 25365 12234; CX 16985 25365 12233; CA 12234 12233 12232; CX 12232 25365 25366;
  CX 25429 25366 1601; CX 1601 16987 25241; CX 25493 25366 12231; CX 16986 25366 12230; CA 12231 12230 12229; CX 12229 25366 25367; CX 25430 25367 1600; CX 1600 16988 25242;
  CX 25494 25367 12228; CX 16987 25367 12227; CA 12228 12227 12226; CX 12226 25367 25368; CX 25431 25368 1599; CX 1599 16989 25243; CX 25495 25368 12225; CX 16988 25368 12224;
  CA 12225 12224 12223; CX 12223 25368 25369; CX 25432 25369 1598; CX 1598 16990 25244; CX 25496 25369 12222; CX 16989 25369 12221; CA 12222 12221 12220; CX 12220 25369 25370;
  CX 25433 25370 1597; CX 1597 16991 25245; CX 25497 25370 12219; CX 16990 25370 12218; CA 12219 12218 12217; CX 12217 25370 25371; CX 25434 25371 1596; CX 1596 16992 25246;
  CX 25498 25371 12216; CX 16991 25371 12215; CA 12216 12215 12214; CX 12214 25371 25372; CX 25435 25372 1595; CX 1595 16993 25247; CX 25499 25372 12213; CX 16992 25372 12212;
  CA 12213 12212 12211; CX 12211 25372 25373; CX 25436 25373 1594; CX 1594 16994 25248; CX 25500 25373 12210; CX 16993 25373 12209; CA 12210 12209 12208; CX 12208 25373 25374;
  CX 25437 25374 1593; CX 1593 16995 25249; CX 25501 25374 12207; CX 16994 25374 12206; CA 12207 12206 12205; CX 12205 25374 25375; CX 25438 25375 1592; CX 1592 16996 25250;
  CX 25502 25375 12204; CX 16995 25375 12203; CA 12204 12203 12202; CX 12202 25375 25376; CX 25439 25376 1591; CX 1591 16997 25251; CX 25503 25376 12201; CX 16996 25376 12200;
  CA 12201 12200 12199; CX 12199 25376 25377; CX 25440 25377 1590; CX 1590 16998 25252; CX 25504 25377 12198; CX 16997 25377 12197; CA 12198 12197 12196; CX 12196 25377 25378;
  CX 25441 25378 1589; CX 1589 16999 25253; CX 25505 25378 12195; CX 16998 25378 12194; CA 12195 12194 12193; CX 12193 25378 25379; CX 25442 25379 1588; CX 1588 17000 25254].
(** Lines 11605-12004 of the file. *)
Definition divide64_29 : list cg := [
  CX 25506 25379 12192; CX 16999 25379 12191; CA 12192 12191 12190; CX 12190 25379 25380; CX 25443 25380 1587; CX 1587 17001 25255; CX 25507 25380 12189; CX 17000 25380 12188;
  CA 12189 12188 12187; CX 12187 25380 25381; CX 25444 25381 1586; CX 1586 17002 25256; CX 25508 25381 12186; CX 17001 25381 12185; CA 12186 12185 12184; CX 12184 25381 25382;
  CX 25445 25382 1585; CX 1585 17003 25257; CX 25509 25382 12183; CX 17002 25382 12182; CA 12183 12182 12181; CX 12181 25382 25383; CX 25446 25383 1584; CX 1584 17004 25258;
  CX 25510 25383 12180; CX 17003 25383 12179; CA 12180 12179 12178; CX 12178 25383 25384; CX 25447 25384 1583; CX 1583 17005 25259; CX 25511 25384 12177; CX 17004 25384 12176;
  CA 12177 12176 12175; CX 12175 25384 25385; CX 25448 25385 1582; CX 1582 17006 25260; CX 25512 25385 12174; CX 17005 25385 12173; CA 12174 12173 12172; CX 12172 25385 25386;
  CX 25449 25386 1581; CX 1581 17007 25261; CX 25513 25386 12171; CX 17006 25386 12170; CA 12171 12170 12169; CX 12169 25386 25387; CX 25450 25387 1580; CX 1580 17008 25262;
  CX 25514 25387 12168; CX 17007 25387 12167; CA 12168 12167 12166; CX 12166 25387 25388; CX 25451 25388 1579; CX 1579 17009 25263; CX 25515 25388 12165; CX 17008 25388 12164;
  CA 12165 12164 12163; CX 12163 25388 25389; CX 25452 25389 152; CI 152 16670; CX 16859 16670 25264; CX 1641 16670 25265; CX 1640 16670 25266; CX 1639 16670 25267;
  CX 1638 16670 25268; CX 1637 16670 25269; CX 1636 16670 25270; CX 1635 16670 25271; CX 1634 16670 25272; CX 1633 16670 25273; CX 1632 16670 25274; CX 1631 16670 25275;
  CX 1630 16670 25276; CX 1629 16670 25277; CX 1628 16670 25278; CX 1627 16670 25279; CX 1626 16670 25280; CX 1625 16670 25281; CX 1624 16670 25282; CX 1623 16670 25283;
  CX 1622 16670 25284; CX 1621 16670 25285; CX 1620 16670 25286; CX 1619 16670 25287; CX 1618 16670 25288; CX 1617 16670 25289; CX 1616 16670 25290; CX 1615 16670 25291;
  CX 1614 16670 25292; CX 1613 16670 25293; CX 1612 16670 25294; CX 1611 16670 25295; CX 1610 16670 25296; CX 1609 16670 25297; CX 1608 16670 25298; CX 1607 16670 25299;
  CX 1606 16670 25300; CX 1605 16670 25301; CX 1604 16670 25302; CX 1603 16670 25303; CX 1602 16670 25304; CX 1601 16670 25305; CX 1600 16670 25306; CX 1599 16670 25307;
  CX 1598 16670 25308; CX 1597 16670 25309; CX 1596 16670 25310; CX 1595 16670 25311; CX 1594 16670 25312; CX 1593 16670 25313; CX 1592 16670 25314; CX 1591 16670 25315;
  CX 1590 16670 25316; CX 1589 16670 25317; CX 1588 16670 25318; CX 1587 16670 25319; CX 1586 16670 25320; CX 1585 16670 25321; CX 1584 16670 25322; CX 1583 16670 25323;
  CX 1582 16670 25324; CX 1581 16670 25325; CX 1580 16670 25326; CA 25264 16946 25138; CX 25201 25138 1703; CX 1703 16948 25013; CX 25265 25138 12162; CX 16947 25138 12161;
  CA 12162 12161 12160; CX 12160 25138 25139; CX 25202 25139 1702; CX 1702 16949 25014; CX 25266 25139 12159; CX 16948 25139 12158; CA 12159 12158 12157; CX 12157 25139 25140;
  CX 25203 25140 1701; CX 1701 16950 25015; CX 25267 25140 12156; CX 16949 25140 12155; CA 12156 12155 12154; CX 12154 25140 25141; CX 25204 25141 1700; CX 1700 16951 25016;
  CX 25268 25141 12153; CX 16950 25141 12152; CA 12153 12152 12151; CX 12151 25141 25142; CX 25205 25142 1699; CX 1699 16952 25017; CX 25269 25142 12150; CX 16951 25142 12149;
  CA 12150 12149 12148; CX 12148 25142 25143; CX 25206 25143 1698; CX 1698 16953 25018; CX 25270 25143 12147; CX 16952 25143 12146; CA 12147 12146 12145; CX 12145 25143 25144;
  CX 25207 25144 1697; CX 1697 16954 25019; CX 25271 25144 12144; CX 16953 25144 12143; CA 12144 12143 12142; CX 12142 25144 25145; CX 25208 25145 1696; CX 1696 16955 25020;
  CX 25272 25145 12141; CX 16954 25145 12140; CA 12141 12140 12139; CX 12139 25145 25146; CX 25209 25146 1695; CX 1695 16956 25021; CX 25273 25146 12138; CX 16955 25146 12137;
  CA 12138 12137 12136; CX 12136 25146 25147; CX 25210 25147 1694; CX 1694 16957 25022; CX 25274 25147 12135; CX 16956 25147 12134; CA 12135 12134 12133; CX 12133 25147 25148;
  CX 25211 25148 1693; CX 1693 16958 25023; CX 25275 25148 12132; CX 16957 25148 12131; CA 12132 12131 12130; CX 12130 25148 25149; CX 25212 25149 1692; CX 1692 16959 25024;
  CX 25276 25149 12129; CX 16958 25149 12128; CA 12129 12128 12127; CX 12127 25149 25150; CX 25213 25150 1691; CX 1691 16960 25025; CX 25277 25150 12126; CX 16959 25150 12125;
  CA 12126 12125 12124; CX 12124 25150 25151; CX 25214 25151 1690; CX 1690 16961 25026; CX 25278 25151 12123; CX 16960 25151 12122; CA 12123 12122 12121; CX 12121 25151 25152;
  CX 25215 25152 1689; CX 1689 16962 25027; CX 25279 25152 12120; CX 16961 25152 12119; CA 12120 12119 12118; CX 12118 25152 25153; CX 25216 25153 1688; CX 1688 16963 25028;
  CX 25280 25153 12117; CX 16962 25153 12116; CA 12117 12116 12115; CX 12115 25153 25154; CX 25217 25154 1687; CX 1687 16964 25029; CX 25281 25154 12114; CX 16963 25154 12113;
  CA 12114 12113 12112; CX 12112 25154 25155; CX 25218 25155 1686; CX 1686 16965 25030; CX 25282 25155 12111; CX 16964 25155 12110; CA 12111 12110 12109; CX 12109 25155 25156;
  CX 25219 25156 1685; CX 1685 16966 25031; CX 25283 25156 12108; CX 16965 25156 12107; CA 12108 12107 12106; CX 12106 25156 25157; CX 25220 25157 1684; CX 1684 16967 25032;
  CX 25284 25157 12105; CX 16966 25157 12104; CA 12105 12104 12103; CX 12103 25157 25158; CX 25221 25158 1683; CX 1683 16968 25033; CX 25285 25158 12102; CX 16967 25158 12101;
  CA 12102 12101 12100; CX 12100 25158 25159; CX 25222 25159 1682; CX 1682 16969 25034; CX 25286 25159 12099; CX 16968 25159 12098; CA 12099 12098 12097; CX 12097 25159 25160;
  CX 25223 25160 1681; CX 1681 16970 25035; CX 25287 25160 12096; CX 16969 25160 12095; CA 12096 12095 12094; CX 12094 25160 25161; CX 25224 25161 1680; CX 1680 16971 25036;
  CX 25288 25161 12093; CX 16970 25161 12092; CA 12093 12092 12091; CX 12091 25161 25162; CX 25225 25162 1679; CX 1679 16972 25037; CX 25289 25162 12090; CX 16971 25162 12089;
  CA 12090 12089 12088; CX 12088 25162 25163; CX 25226 25163 1678; CX 1678 16973 25038; CX 25290 25163 12087; CX 16972 25163 12086; CA 12087 12086 12085; CX 12085 25163 25164;
  CX 25227 25164 1677; CX 1677 16974 25039; CX 25291 25164 12084; CX 16973 25164 12083; CA 12084 12083 12082; CX 12082 25164 25165; CX 25228 25165 1676; CX 1676 16975 25040;
  CX 25292 25165 12081; CX 16974 25165 12080; CA 12081 12080 12079; CX 12079 25165 25166; CX 25229 25166 1675; CX 1675 16976 25041; CX 25293 25166 12078; CX 16975 25166 12077;
  CA 12078 12077 12076; CX 12076 25166 25167; CX 25230 25167 1674; CX 1674 16977 25042; CX 25294 25167 12075; CX 16976 25167 12074; CA 12075 12074 12073; CX 12073 25167 25168;
  CX 25231 25168 1673; CX 1673 16978 25043; CX 25295 25168 12072; CX 16977 25168 12071; CA 12072 12071 12070; CX 12070 25168 25169; CX 25232 25169 1672; CX 1672 16979 25044;
  CX 25296 25169 12069; CX 16978 25169 12068; CA 12069 12068 12067; CX 12067 25169 25170; CX 25233 25170 1671; CX 1671 16980 25045; CX 25297 25170 12066; CX 16979 25170 12065;
  CA 12066 12065 12064; CX 12064 25170 25171; CX 25234 25171 1670; CX 1670 16981 25046; CX 25298 25171 12063; CX 16980 25171 12062; CA 12063 12062 12061; CX 12061 25171 25172;
  CX 25235 25172 1669; CX 1669 16982 25047; CX 25299 25172 12060; CX 16981 25172 12059; CA 12060 12059 12058; CX 12058 25172 25173; CX 25236 25173 1668; CX 1668 16983 25048;
  CX 25300 25173 12057; CX 16982 25173 12056; CA 12057 12056 12055; CX 12055 25173 25174; CX 25237 25174 1667; CX 1667 16984 25049; CX 25301 25174 12054; CX 16983 25174 12053;
  CA 12054 12053 12052; CX 12052 25174 25175; CX 25238 25175 1666; CX 1666 16985 25050; CX 25302 25175 12051; CX 16984 25175 12050; CA 12051 12050 12049; CX 12049 25175 25176;
  CX 25239 25176 1665; CX 1665 16986 25051; CX 25303 25176 12048; CX 16985 25176 12047; CA 12048 12047 12046; CX 12046 25176 25177; CX 25240 25177 1664; CX 1664 16987 25052;
  CX 25304 25177 12045; CX 16986 25177 12044; CA 12045 12044 12043; CX 12043 25177 25178; CX 25241 25178 1663; CX 1663 16988 25053; CX 25305 25178 12042; CX 16987 25178 12041;
  CA 12042 12041 12040; CX 12040 25178 25179; CX 25242 25179 1662; CX 1662 16989 25054; CX 25306 25179 12039; CX 16988 25179 12038; CA 12039 12038 12037; CX 12037 25179 25180;
  CX 25243 25180 1661; CX 1661 16990 25055; CX 25307 25180 12036; CX 16989 25180 12035; CA 12036 12035 12034; CX 12034 25180 25181; CX 25244 25181 1660; CX 1660 16991 25056;
  CX 25308 25181 12033; CX 16990 25181 12032; CA 12033 12032 12031; CX 12031 25181 25182; CX 25245 25182 1659; CX 1659 16992 25057; CX 25309 25182 12030; CX 16991 25182 12029;
  CA 12030 12029 12028; CX 12028 25182 25183; CX 25246 25183 1658; CX 1658 16993 25058; CX 25310 25183 12027; CX 16992 25183 12026; CA 12027 12026 12025; CX 12025 25183 25184].
(** Lines 12005-12404 of the file. *)
Definition divide64_30 : list cg := [
  CX 25247 25184 1657; CX 1657 16994 25059; CX 25311 25184 12024; CX 16993 25184 12023; CA 12024 12023 12022; CX 12022 25184 25185; CX 25248 25185 1656; CX 1656 16995 25060;
  CX 25312 25185 12021; CX 16994 25185 12020; CA 12021 12020 12019; CX 12019 25185 25186; CX 25249 25186 1655; CX 1655 16996 25061; CX 25313 25186 12018; CX 16995 25186 12017;
  CA 12018 12017 12016; CX 12016 25186 25187; CX 25250 25187 1654; CX 1654 16997 25062; CX 25314 25187 12015; CX 16996 25187 12014; CA 12015 12014 12013; CX 12013 25187 25188;
  CX 25251 25188 1653; CX 1653 16998 25063; CX 25315 25188 12012; CX 16997 25188 12011; CA 12012 12011 12010; CX 12010 25188 25189; CX 25252 25189 1652; CX 1652 16999 25064;
  CX 25316 25189 12009; CX 16998 25189 12008; CA 12009 12008 12007; CX 12007 25189 25190; CX 25253 25190 1651; CX 1651 17000 25065; CX 25317 25190 12006; CX 16999 25190 12005;
  CA 12006 12005 12004; CX 12004 25190 25191; CX 25254 25191 1650; CX 1650 17001 25066; CX 25318 25191 12003; CX 17000 25191 12002; CA 12003 12002 12001; CX 12001 25191 25192;
  CX 25255 25192 1649; CX 1649 17002 25067; CX 25319 25192 12000; CX 17001 25192 11999; CA 12000 11999 11998; CX 11998 25192 25193; CX 25256 25193 1648; CX 1648 17003 25068;
  CX 25320 25193 11997; CX 17002 25193 11996; CA 11997 11996 11995; CX 11995 25193 25194; CX 25257 25194 1647; CX 1647 17004 25069; CX 25321 25194 11994; CX 17003 25194 11993;
  CA 11994 11993 11992; CX 11992 25194 25195; CX 25258 25195 1646; CX 1646 17005 25070; CX 25322 25195 11991; CX 17004 25195 11990; CA 11991 11990 11989; CX 11989 25195 25196;
  CX 25259 25196 1645; CX 1645 17006 25071; CX 25323 25196 11988; CX 17005 25196 11987; CA 11988 11987 11986; CX 11986 25196 25197; CX 25260 25197 1644; CX 1644 17007 25072;
  CX 25324 25197 11985; CX 17006 25197 11984; CA 11985 11984 11983; CX 11983 25197 25198; CX 25261 25198 1643; CX 1643 17008 25073; CX 25325 25198 11982; CX 17007 25198 11981;
  CA 11982 11981 11980; CX 11980 25198 25199; CX 25262 25199 1642; CX 1642 17009 25074; CX 25326 25199 11979; CX 17008 25199 11978; CA 11979 11978 11977; CX 11977 25199 25200;
  CX 25263 25200 153; CA 16670 4535 17554; CI 153 16669; CX 16858 16669 25075; CX 1704 16669 25076; CX 1703 16669 25077; CX 1702 16669 25078; CX 1701 16669 25079;
  CX 1700 16669 25080; CX 1699 16669 25081; CX 1698 16669 25082; CX 1697 16669 25083; CX 1696 16669 25084; CX 1695 16669 25085; CX 1694 16669 25086; CX 1693 16669 25087;
  CX 1692 16669 25088; CX 1691 16669 25089; CX 1690 16669 25090; CX 1689 16669 25091; CX 1688 16669 25092; CX 1687 16669 25093; CX 1686 16669 25094; CX 1685 16669 25095;
  CX 1684 16669 25096; CX 1683 16669 25097; CX 1682 16669 25098; CX 1681 16669 25099; CX 1680 16669 25100; CX 1679 16669 25101; CX 1678 16669 25102; CX 1677 16669 25103;
  CX 1676 16669 25104; CX 1675 16669 25105; CX 1674 16669 25106; CX 1673 16669 25107; CX 1672 16669 25108; CX 1671 16669 25109; CX 1670 16669 25110; CX 1669 16669 25111;
  CX 1668 16669 25112; CX 1667 16669 25113; CX 1666 16669 25114; CX 1665 16669 25115; CX 1664 16669 25116; CX 1663 16669 25117; CX 1662 16669 25118; CX 1661 16669 25119;
  CX 1660 16669 25120; CX 1659 16669 25121; CX 1658 16669 25122; CX 1657 16669 25123; CX 1656 16669 25124; CX 1655 16669 25125; CX 1654 16669 25126; CX 1653 16669 25127;
  CX 1652 16669 25128; CX 1651 16669 25129; CX 1650 16669 25130; CX 1649 16669 25131; CX 1648 16669 25132; CX 1647 16669 25133; CX 1646 16669 25134; CX 1645 16669 25135;
  CX 1644 16669 25136; CX 1643 16669 25137; CA 25075 16946 24949; CX 25012 24949 1766; CX 1766 16948 24824; CX 25076 24949 11976; CX 16947 24949 11975; CA 11976 11975 11974;
  CX 11974 24949 24950; CX 25013 24950 1765; CX 1765 16949 24825; CX 25077 24950 11973; CX 16948 24950 11972; CA 11973 11972 11971; CX 11971 24950 24951; CX 25014 24951 1764;
  CX 1764 16950 24826; CX 25078 24951 11970; CX 16949 24951 11969; CA 11970 11969 11968; CX 11968 24951 24952; CX 25015 24952 1763; CX 1763 16951 24827; CX 25079 24952 11967;
  CX 16950 24952 11966; CA 11967 11966 11965; CX 11965 24952 24953; CX 25016 24953 1762; CX 1762 16952 24828; CX 25080 24953 11964; CX 16951 24953 11963; CA 11964 11963 11962;
  CX 11962 24953 24954; CX 25017 24954 1761; CX 1761 16953 24829; CX 25081 24954 11961; CX 16952 24954 11960; CA 11961 11960 11959; CX 11959 24954 24955; CX 25018 24955 1760;
  CX 1760 16954 24830; CX 25082 24955 11958; CX 16953 24955 11957; CA 11958 11957 11956; CX 11956 24955 24956; CX 25019 24956 1759; CX 1759 16955 24831; CX 25083 24956 11955;
  CX 16954 24956 11954; CA 11955 11954 11953; CX 11953 24956 24957; CX 25020 24957 1758; CX 1758 16956 24832; CX 25084 24957 11952; CX 16955 24957 11951; CA 11952 11951 11950;
  CX 11950 24957 24958; CX 25021 24958 1757; CX 1757 16957 24833; CX 25085 24958 11949; CX 16956 24958 11948; CA 11949 11948 11947; CX 11947 24958 24959; CX 25022 24959 1756;
  CX 1756 16958 24834; CX 25086 24959 11946; CX 16957 24959 11945; CA 11946 11945 11944; CX 11944 24959 24960; CX 25023 24960 1755; CX 1755 16959 24835; CX 25087 24960 11943;
  CX 16958 24960 11942; CA 11943 11942 11941; CX 11941 24960 24961; CX 25024 24961 1754; CX 1754 16960 24836; CX 25088 24961 11940; CX 16959 24961 11939; CA 11940 11939 11938;
  CX 11938 24961 24962; CX 25025 24962 1753; CX 1753 16961 24837; CX 25089 24962 11937; CX 16960 24962 11936; CA 11937 11936 11935; CX 11935 24962 24963; CX 25026 24963 1752;
  CX 1752 16962 24838; CX 25090 24963 11934; CX 16961 24963 11933; CA 11934 11933 11932; CX 11932 24963 24964; CX 25027 24964 1751; CX 1751 16963 24839; CX 25091 24964 11931;
  CX 16962 24964 11930; CA 11931 11930 11929; CX 11929 24964 24965; CX 25028 24965 1750; CX 1750 16964 24840; CX 25092 24965 11928; CX 16963 24965 11927; CA 11928 11927 11926;
  CX 11926 24965 24966; CX 25029 24966 1749; CX 1749 16965 24841; CX 25093 24966 11925; CX 16964 24966 11924; CA 11925 11924 11923; CX 11923 24966 24967; CX 25030 24967 1748;
  CX 1748 16966 24842; CX 25094 24967 11922; CX 16965 24967 11921; CA 11922 11921 11920; CX 11920 24967 24968; CX 25031 24968 1747; CX 1747 16967 24843; CX 25095 24968 11919;
  CX 16966 24968 11918; CA 11919 11918 11917; CX 11917 24968 24969; CX 25032 24969 1746; CX 1746 16968 24844; CX 25096 24969 11916; CX 16967 24969 11915; CA 11916 11915 11914;
  CX 11914 24969 24970; CX 25033 24970 1745; CX 1745 16969 24845; CX 25097 24970 11913; CX 16968 24970 11912; CA 11913 11912 11911; CX 11911 24970 24971; CX 25034 24971 1744;
  CX 1744 16970 24846; CX 25098 24971 11910; CX 16969 24971 11909; CA 11910 11909 11908; CX 11908 24971 24972; CX 25035 24972 1743; CX 1743 16971 24847; CX 25099 24972 11907;
  CX 16970 24972 11906; CA 11907 11906 11905; CX 11905 24972 24973; CX 25036 24973 1742; CX 1742 16972 24848; CX 25100 24973 11904; CX 16971 24973 11903; CA 11904 11903 11902;
  CX 11902 24973 24974; CX 25037 24974 1741; CX 1741 16973 24849; CX 25101 24974 11901; CX 16972 24974 11900; CA 11901 11900 11899; CX 11899 24974 24975; CX 25038 24975 1740;
  CX 1740 16974 24850; CX 25102 24975 11898; CX 16973 24975 11897; CA 11898 11897 11896; CX 11896 24975 24976; CX 25039 24976 1739; CX 1739 16975 24851; CX 25103 24976 11895;
  CX 16974 24976 11894; CA 11895 11894 11893; CX 11893 24976 24977; CX 25040 24977 1738; CX 1738 16976 24852; CX 25104 24977 11892; CX 16975 24977 11891; CA 11892 11891 11890;
  CX 11890 24977 24978; CX 25041 24978 1737; CX 1737 16977 24853; CX 25105 24978 11889; CX 16976 24978 11888; CA 11889 11888 11887; CX 11887 24978 24979; CX 25042 24979 1736;
  CX 1736 16978 24854; CX 25106 24979 11886; CX 16977 24979 11885; CA 11886 11885 11884; CX 11884 24979 24980; CX 25043 24980 1735; CX 1735 16979 24855; CX 25107 24980 11883;
  CX 16978 24980 11882; CA 11883 11882 11881; CX 11881 24980 24981; CX 25044 24981 1734; CX 1734 16980 24856; CX 25108 24981 11880; CX 16979 24981 11879; CA 11880 11879 11878;
  CX 11878 24981 24982; CX 25045 24982 1733; CX 1733 16981 24857; CX 25109 24982 11877; CX 16980 24982 11876; CA 11877 11876 11875; CX 11875 24982 24983; CX 25046 24983 1732;
  CX 1732 16982 24858; CX 25110 24983 11874; CX 16981 24983 11873; CA 11874 11873 11872; CX 11872 24983 24984; CX 25047 24984 1731; CX 1731 16983 24859; CX 25111 24984 11871;
  CX 16982 24984 11870; CA 11871 11870 11869; CX 11869 24984 24985; CX 25048 24985 1730; CX 1730 16984 24860; CX 25112 24985 11868; CX 16983 24985 11867; CA 11868 11867 11866;
  CX 11866 24985 24986; CX 25049 24986 1729; CX 1729 16985 24861; CX 25113 24986 11865; CX 16984 24986 11864; CA 11865 11864 11863; CX 11863 24986 24987; CX 25050 24987 1728;
  CX 1728 16986 24862; CX 25114 24987 11862; CX 16985 24987 11861; CA 11862 11861 11860; CX 11860 24987 24988; CX 25051 24988 1727; CX 1727 16987 24863; CX 25115 24988 11859].
(** Lines 12405-12804 of the file. *)
Definition divide64_31 : list cg := [
  CX 16986 24988 11858; CA 11859 11858 11857; CX 11857 24988 24989; CX 25052 24989 1726; CX 1726 16988 24864; CX 25116 24989 11856; CX 16987 24989 11855; CA 11856 11855 11854;
  CX 11854 24989 24990; CX 25053 24990 1725; CX 1725 16989 24865; CX 25117 24990 11853; CX 16988 24990 11852; CA 11853 11852 11851; CX 11851 24990 24991; CX 25054 24991 1724;
  CX 1724 16990 24866; CX 25118 24991 11850; CX 16989 24991 11849; CA 11850 11849 11848; CX 11848 24991 24992; CX 25055 24992 1723; CX 1723 16991 24867; CX 25119 24992 11847;
  CX 16990 24992 11846; CA 11847 11846 11845; CX 11845 24992 24993; CX 25056 24993 1722; CX 1722 16992 24868; CX 25120 24993 11844; CX 16991 24993 11843; CA 11844 11843 11842;
  CX 11842 24993 24994; CX 25057 24994 1721; CX 1721 16993 24869; CX 25121 24994 11841; CX 16992 24994 11840; CA 11841 11840 11839; CX 11839 24994 24995; CX 25058 24995 1720;
  CX 1720 16994 24870; CX 25122 24995 11838; CX 16993 24995 11837; CA 11838 11837 11836; CX 11836 24995 24996; CX 25059 24996 1719; CX 1719 16995 24871; CX 25123 24996 11835;
  CX 16994 24996 11834; CA 11835 11834 11833; CX 11833 24996 24997; CX 25060 24997 1718; CX 1718 16996 24872; CX 25124 24997 11832; CX 16995 24997 11831; CA 11832 11831 11830;
  CX 11830 24997 24998; CX 25061 24998 1717; CX 1717 16997 24873; CX 25125 24998 11829; CX 16996 24998 11828; CA 11829 11828 11827; CX 11827 24998 24999; CX 25062 24999 1716;
  CX 1716 16998 24874; CX 25126 24999 11826; CX 16997 24999 11825; CA 11826 11825 11824; CX 11824 24999 25000; CX 25063 25000 1715; CX 1715 16999 24875; CX 25127 25000 11823;
  CX 16998 25000 11822; CA 11823 11822 11821; CX 11821 25000 25001; CX 25064 25001 1714; CX 1714 17000 24876; CX 25128 25001 11820; CX 16999 25001 11819; CA 11820 11819 11818;
  CX 11818 25001 25002; CX 25065 25002 1713; CX 1713 17001 24877; CX 25129 25002 11817; CX 17000 25002 11816; CA 11817 11816 11815; CX 11815 25002 25003; CX 25066 25003 1712;
  CX 1712 17002 24878; CX 25130 25003 11814; CX 17001 25003 11813; CA 11814 11813 11812; CX 11812 25003 25004; CX 25067 25004 1711; CX 1711 17003 24879; CX 25131 25004 11811;
  CX 17002 25004 11810; CA 11811 11810 11809; CX 11809 25004 25005; CX 25068 25005 1710; CX 1710 17004 24880; CX 25132 25005 11808; CX 17003 25005 11807; CA 11808 11807 11806;
  CX 11806 25005 25006; CX 25069 25006 1709; CX 1709 17005 24881; CX 25133 25006 11805; CX 17004 25006 11804; CA 11805 11804 11803; CX 11803 25006 25007; CX 25070 25007 1708;
  CX 1708 17006 24882; CX 25134 25007 11802; CX 17005 25007 11801; CA 11802 11801 11800; CX 11800 25007 25008; CX 25071 25008 1707; CX 1707 17007 24883; CX 25135 25008 11799;
  CX 17006 25008 11798; CA 11799 11798 11797; CX 11797 25008 25009; CX 25072 25009 1706; CX 1706 17008 24884; CX 25136 25009 11796; CX 17007 25009 11795; CA 11796 11795 11794;
  CX 11794 25009 25010; CX 25073 25010 1705; CX 1705 17009 24885; CX 25137 25010 11793; CX 17008 25010 11792; CA 11793 11792 11791; CX 11791 25010 25011; CX 25074 25011 154;
  CI 154 16668; CX 16857 16668 24886; CX 1767 16668 24887; CX 1766 16668 24888; CX 1765 16668 24889; CX 1764 16668 24890; CX 1763 16668 24891; CX 1762 16668 24892;
  CX 1761 16668 24893; CX 1760 16668 24894; CX 1759 16668 24895; CX 1758 16668 24896; CX 1757 16668 24897; CX 1756 16668 24898; CX 1755 16668 24899; CX 1754 16668 24900;
  CX 1753 16668 24901; CX 1752 16668 24902; CX 1751 16668 24903; CX 1750 16668 24904; CX 1749 16668 24905; CX 1748 16668 24906; CX 1747 16668 24907; CX 1746 16668 24908;
  CX 1745 16668 24909; CX 1744 16668 24910; CX 1743 16668 24911; CX 1742 16668 24912; CX 1741 16668 24913; CX 1740 16668 24914; CX 1739 16668 24915; CX 1738 16668 24916;
  CX 1737 16668 24917; CX 1736 16668 24918; CX 1735 16668 24919; CX 1734 16668 24920; CX 1733 16668 24921; CX 1732 16668 24922; CX 1731 16668 24923; CX 1730 16668 24924;
  CX 1729 16668 24925; CX 1728 16668 24926; CX 1727 16668 24927; CX 1726 16668 24928; CX 1725 16668 24929; CX 1724 16668 24930; CX 1723 16668 24931; CX 1722 16668 24932;
  CX 1721 16668 24933; CX 1720 16668 24934; CX 1719 16668 24935; CX 1718 16668 24936; CX 1717 16668 24937; CX 1716 16668 24938; CX 1715 16668 24939; CX 1714 16668 24940;
  CX 1713 16668 24941; CX 1712 16668 24942; CX 1711 16668 24943; CX 1710 16668 24944; CX 1709 16668 24945; CX 1708 16668 24946; CX 1707 16668 24947; CX 1706 16668 24948;
  CA 24886 16946 24760; CX 24823 24760 1829; CX 1829 16948 24635; CX 24887 24760 11790; CX 16947 24760 11789; CA 11790 11789 11788; CX 11788 24760 24761; CX 24824 24761 1828;
  CX 1828 16949 24636; CX 24888 24761 11787; CX 16948 24761 11786; CA 11787 11786 11785; CX 11785 24761 24762; CX 24825 24762 1827; CX 1827 16950 24637; CX 24889 24762 11784;
  CX 16949 24762 11783; CA 11784 11783 11782; CX 11782 24762 24763; CX 24826 24763 1826; CX 1826 16951 24638; CX 24890 24763 11781; CX 16950 24763 11780; CA 11781 11780 11779;
  CX 11779 24763 24764; CX 24827 24764 1825; CX 1825 16952 24639; CX 24891 24764 11778; CX 16951 24764 11777; CA 11778 11777 11776; CX 11776 24764 24765; CX 24828 24765 1824;
  CX 1824 16953 24640; CX 24892 24765 11775; CX 16952 24765 11774; CA 11775 11774 11773; CX 11773 24765 24766; CX 24829 24766 1823; CX 1823 16954 24641; CX 24893 24766 11772;
  CX 16953 24766 11771; CA 11772 11771 11770; CX 11770 24766 24767; CX 24830 24767 1822; CX 1822 16955 24642; CX 24894 24767 11769; CX 16954 24767 11768; CA 11769 11768 11767;
  CX 11767 24767 24768; CX 24831 24768 1821; CX 1821 16956 24643; CX 24895 24768 11766; CX 16955 24768 11765; CA 11766 11765 11764; CX 11764 24768 24769; CX 24832 24769 1820;
  CX 1820 16957 24644; CX 24896 24769 11763; CX 16956 24769 11762; CA 11763 11762 11761; CX 11761 24769 24770; CX 24833 24770 1819; CX 1819 16958 24645; CX 24897 24770 11760;
  CX 16957 24770 11759; CA 11760 11759 11758; CX 11758 24770 24771; CX 24834 24771 1818; CX 1818 16959 24646; CX 24898 24771 11757; CX 16958 24771 11756; CA 11757 11756 11755;
  CX 11755 24771 24772; CX 24835 24772 1817; CX 1817 16960 24647; CX 24899 24772 11754; CX 16959 24772 11753; CA 11754 11753 11752; CX 11752 24772 24773; CX 24836 24773 1816;
  CX 1816 16961 24648; CX 24900 24773 11751; CX 16960 24773 11750; CA 11751 11750 11749; CX 11749 24773 24774; CX 24837 24774 1815; CX 1815 16962 24649; CX 24901 24774 11748;
  CX 16961 24774 11747; CA 11748 11747 11746; CX 11746 24774 24775; CX 24838 24775 1814; CX 1814 16963 24650; CX 24902 24775 11745; CX 16962 24775 11744; CA 11745 11744 11743;
  CX 11743 24775 24776; CX 24839 24776 1813; CX 1813 16964 24651; CX 24903 24776 11742; CX 16963 24776 11741; CA 11742 11741 11740; CX 11740 24776 24777; CX 24840 24777 1812;
  CX 1812 16965 24652; CX 24904 24777 11739; CX 16964 24777 11738; CA 11739 11738 11737; CX 11737 24777 24778; CX 24841 24778 1811; CX 1811 16966 24653; CX 24905 24778 11736;
  CX 16965 24778 11735; CA 11736 11735 11734; CX 11734 24778 24779; CX 24842 24779 1810; CX 1810 16967 24654; CX 24906 24779 11733; CX 16966 24779 11732; CA 11733 11732 11731;
  CX 11731 24779 24780; CX 24843 24780 1809; CX 1809 16968 24655; CX 24907 24780 11730; CX 16967 24780 11729; CA 11730 11729 11728; CX 11728 24780 24781; CX 24844 24781 1808;
  CX 1808 16969 24656; CX 24908 24781 11727; CX 16968 24781 11726; CA 11727 11726 11725; CX 11725 24781 24782; CX 24845 24782 1807; CX 1807 16970 24657; CX 24909 24782 11724;
  CX 16969 24782 11723; CA 11724 11723 11722; CX 11722 24782 24783; CX 24846 24783 1806; CX 1806 16971 24658; CX 24910 24783 11721; CX 16970 24783 11720; CA 11721 11720 11719;
  CX 11719 24783 24784; CX 24847 24784 1805; CX 1805 16972 24659; CX 24911 24784 11718; CX 16971 24784 11717; CA 11718 11717 11716; CX 11716 24784 24785; CX 24848 24785 1804;
  CX 1804 16973 24660; CX 24912 24785 11715; CX 16972 24785 11714; CA 11715 11714 11713; CX 11713 24785 24786; CX 24849 24786 1803; CX 1803 16974 24661; CX 24913 24786 11712;
  CX 16973 24786 11711; CA 11712 11711 11710; CX 11710 24786 24787; CX 24850 24787 1802; CX 1802 16975 24662; CX 24914 24787 11709; CX 16974 24787 11708; CA 11709 11708 11707;
  CX 11707 24787 24788; CX 24851 24788 1801; CX 1801 16976 24663; CX 24915 24788 11706; CX 16975 24788 11705; CA 11706 11705 11704; CX 11704 24788 24789; CX 24852 24789 1800;
  CX 1800 16977 24664; CX 24916 24789 11703; CX 16976 24789 11702; CA 11703 11702 11701; CX 11701 24789 24790; CX 24853 24790 1799; CX 1799 16978 24665; CX 24917 24790 11700;
  CX 16977 24790 11699; CA 11700 11699 11698; CX 11698 24790 24791; CX 24854 24791 1798; CX 1798 16979 24666; CX 24918 24791 11697; CX 16978 24791 11696; CA 11697 11696 11695;
  CX 11695 24791 24792; CX 24855 24792 1797; CX 1797 16980 24667; CX 24919 24792 11694; CX 16979 24792 11693; CA 11694 11693 11692; CX 11692 24792 24793; CX 24856 24793 1796].
(** Lines 12805-13204 of the file. *)
Definition divide64_32 : list cg := [
  CX 1796 16981 24668; CX 24920 24793 11691; CX 16980 24793 11690; CA 11691 11690 11689; CX 11689 24793 24794; CX 24857 24794 1795; CX 1795 16982 24669; CX 24921 24794 11688;
  CX 16981 24794 11687; CA 11688 11687 11686; CX 11686 24794 24795; CX 24858 24795 1794; CX 1794 16983 24670; CX 24922 24795 11685; CX 16982 24795 11684; CA 11685 11684 11683;
  CX 11683 24795 24796; CX 24859 24796 1793; CX 1793 16984 24671; CX 24923 24796 11682; CX 16983 24796 11681; CA 11682 11681 11680; CX 11680 24796 24797; CX 24860 24797 1792;
  CX 1792 16985 24672; CX 24924 24797 11679; CX 16984 24797 11678; CA 11679 11678 11677; CX 11677 24797 24798; CX 24861 24798 1791; CX 1791 16986 24673; CX 24925 24798 11676;
  CX 16985 24798 11675; CA 11676 11675 11674; CX 11674 24798 24799; CX 24862 24799 1790; CX 1790 16987 24674; CX 24926 24799 11673; CX 16986 24799 11672; CA 11673 11672 11671;
  CX 11671 24799 24800; CX 24863 24800 1789; CX 1789 16988 24675; CX 24927 24800 11670; CX 16987 24800 11669; CA 11670 11669 11668; CX 11668 24800 24801; CX 24864 24801 1788;
  CX 1788 16989 24676; CX 24928 24801 11667; CX 16988 24801 11666; CA 11667 11666 11665; CX 11665 24801 24802; CX 24865 24802 1787; CX 1787 16990 24677; CX 24929 24802 11664;
  CX 16989 24802 11663; CA 11664 11663 11662; CX 11662 24802 24803; CX 24866 24803 1786; CX 1786 16991 24678; CX 24930 24803 11661; CX 16990 24803 11660; CA 11661 11660 11659;
  CX 11659 24803 24804; CX 24867 24804 1785; CX 1785 16992 24679; CX 24931 24804 11658; CX 16991 24804 11657; CA 11658 11657 11656; CX 11656 24804 24805; CX 24868 24805 1784;
  CX 1784 16993 24680; CX 24932 24805 11655; CX 16992 24805 11654; CA 11655 11654 11653; CX 11653 24805 24806; CX 24869 24806 1783; CX 1783 16994 24681; CX 24933 24806 11652;
  CX 16993 24806 11651; CA 11652 11651 11650; CX 11650 24806 24807; CX 24870 24807 1782; CX 1782 16995 24682; CX 24934 24807 11649; CX 16994 24807 11648; CA 11649 11648 11647;
  CX 11647 24807 24808; CX 24871 24808 1781; CX 1781 16996 24683; CX 24935 24808 11646; CX 16995 24808 11645; CA 11646 11645 11644; CX 11644 24808 24809; CX 24872 24809 1780;
  CX 1780 16997 24684; CX 24936 24809 11643; CX 16996 24809 11642; CA 11643 11642 11641; CX 11641 24809 24810; CX 24873 24810 1779; CX 1779 16998 24685; CX 24937 24810 11640;
  CX 16997 24810 11639; CA 11640 11639 11638; CX 11638 24810 24811; CX 24874 24811 1778; CX 1778 16999 24686; CX 24938 24811 11637; CX 16998 24811 11636; CA 11637 11636 11635;
  CX 11635 24811 24812; CX 24875 24812 1777; CX 1777 17000 24687; CX 24939 24812 11634; CX 16999 24812 11633; CA 11634 11633 11632; CX 11632 24812 24813; CX 24876 24813 1776;
  CX 1776 17001 24688; CX 24940 24813 11631; CX 17000 24813 11630; CA 11631 11630 11629; CX 11629 24813 24814; CX 24877 24814 1775; CX 1775 17002 24689; CX 24941 24814 11628;
  CX 17001 24814 11627; CA 11628 11627 11626; CX 11626 24814 24815; CX 24878 24815 1774; CX 1774 17003 24690; CX 24942 24815 11625; CX 17002 24815 11624; CA 11625 11624 11623;
  CX 11623 24815 24816; CX 24879 24816 1773; CX 1773 17004 24691; CX 24943 24816 11622; CX 17003 24816 11621; CA 11622 11621 11620; CX 11620 24816 24817; CX 24880 24817 1772;
  CX 1772 17005 24692; CX 24944 24817 11619; CX 17004 24817 11618; CA 11619 11618 11617; CX 11617 24817 24818; CX 24881 24818 1771; CX 1771 17006 24693; CX 24945 24818 11616;
  CX 17005 24818 11615; CA 11616 11615 11614; CX 11614 24818 24819; CX 24882 24819 1770; CX 1770 17007 24694; CX 24946 24819 11613; CX 17006 24819 11612; CA 11613 11612 11611;
  CX 11611 24819 24820; CX 24883 24820 1769; CX 1769 17008 24695; CX 24947 24820 11610; CX 17007 24820 11609; CA 11610 11609 11608; CX 11608 24820 24821; CX 24884 24821 1768;
  CX 1768 17009 24696; CX 24948 24821 11607; CX 17008 24821 11606; CA 11607 11606 11605; CX 11605 24821 24822; CX 24885 24822 155; CA 16668 4535 17552; CI 155 16667;
  CX 16856 16667 24697; CX 1830 16667 24698; CX 1829 16667 24699; CX 1828 16667 24700; CX 1827 16667 24701; CX 1826 16667 24702; CX 1825 16667 24703; CX 1824 16667 24704;
  CX 1823 16667 24705; CX 1822 16667 24706; CX 1821 16667 24707; CX 1820 16667 24708; CX 1819 16667 24709; CX 1818 16667 24710; CX 1817 16667 24711; CX 1816 16667 24712;
  CX 1815 16667 24713; CX 1814 16667 24714; CX 1813 16667 24715; CX 1812 16667 24716; CX 1811 16667 24717; CX 1810 16667 24718; CX 1809 16667 24719; CX 1808 16667 24720;
  CX 1807 16667 24721; CX 1806 16667 24722; CX 1805 16667 24723; CX 1804 16667 24724; CX 1803 16667 24725; CX 1802 16667 24726; CX 1801 16667 24727; CX 1800 16667 24728;
  CX 1799 16667 24729; CX 1798 16667 24730; CX 1797 16667 24731; CX 1796 16667 24732; CX 1795 16667 24733; CX 1794 16667 24734; CX 1793 16667 24735; CX 1792 16667 24736;
  CX 1791 16667 24737; CX 1790 16667 24738; CX 1789 16667 24739; CX 1788 16667 24740; CX 1787 16667 24741; CX 1786 16667 24742; CX 1785 16667 24743; CX 1784 16667 24744;
  CX 1783 16667 24745; CX 1782 16667 24746; CX 1781 16667 24747; CX 1780 16667 24748; CX 1779 16667 24749; CX 1778 16667 24750; CX 1777 16667 24751; CX 1776 16667 24752;
  CX 1775 16667 24753; CX 1774 16667 24754; CX 1773 16667 24755; CX 1772 16667 24756; CX 1771 16667 24757; CX 1770 16667 24758; CX 1769 16667 24759; CA 24697 16946 24571;
  CX 24634 24571 1892; CX 1892 16948 24446; CX 24698 24571 11604; CX 16947 24571 11603; CA 11604 11603 11602; CX 11602 24571 24572; CX 24635 24572 1891; CX 1891 16949 24447;
  CX 24699 24572 11601; CX 16948 24572 11600; CA 11601 11600 11599; CX 11599 24572 24573; CX 24636 24573 1890; CX 1890 16950 24448; CX 24700 24573 11598; CX 16949 24573 11597;
  CA 11598 11597 11596; CX 11596 24573 24574; CX 24637 24574 1889; CX 1889 16951 24449; CX 24701 24574 11595; CX 16950 24574 11594; CA 11595 11594 11593; CX 11593 24574 24575;
  CX 24638 24575 1888; CX 1888 16952 24450; CX 24702 24575 11592; CX 16951 24575 11591; CA 11592 11591 11590; CX 11590 24575 24576; CX 24639 24576 1887; CX 1887 16953 24451;
  CX 24703 24576 11589; CX 16952 24576 11588; CA 11589 11588 11587; CX 11587 24576 24577; CX 24640 24577 1886; CX 1886 16954 24452; CX 24704 24577 11586; CX 16953 24577 11585;
  CA 11586 11585 11584; CX 11584 24577 24578; CX 24641 24578 1885; CX 1885 16955 24453; CX 24705 24578 11583; CX 16954 24578 11582; CA 11583 11582 11581; CX 11581 24578 24579;
  CX 24642 24579 1884; CX 1884 16956 24454; CX 24706 24579 11580; CX 16955 24579 11579; CA 11580 11579 11578; CX 11578 24579 24580; CX 24643 24580 1883; CX 1883 16957 24455;
  CX 24707 24580 11577; CX 16956 24580 11576; CA 11577 11576 11575; CX 11575 24580 24581; CX 24644 24581 1882; CX 1882 16958 24456; CX 24708 24581 11574; CX 16957 24581 11573;
  CA 11574 11573 11572; CX 11572 24581 24582; CX 24645 24582 1881; CX 1881 16959 24457; CX 24709 24582 11571; CX 16958 24582 11570; CA 11571 11570 11569; CX 11569 24582 24583;
  CX 24646 24583 1880; CX 1880 16960 24458; CX 24710 24583 11568; CX 16959 24583 11567; CA 11568 11567 11566; CX 11566 24583 24584; CX 24647 24584 1879; CX 1879 16961 24459;
  CX 24711 24584 11565; CX 16960 24584 11564; CA 11565 11564 11563; CX 11563 24584 24585; CX 24648 24585 1878; CX 1878 16962 24460; CX 24712 24585 11562; CX 16961 24585 11561;
  CA 11562 11561 11560; CX 11560 24585 24586; CX 24649 24586 1877; CX 1877 16963 24461; CX 24713 24586 11559; CX 16962 24586 11558; CA 11559 11558 11557; CX 11557 24586 24587;
  CX 24650 24587 1876; CX 1876 16964 24462; CX 24714 24587 11556; CX 16963 24587 11555; CA 11556 11555 11554; CX 11554 24587 24588; CX 24651 24588 1875; CX 1875 16965 24463;
  CX 24715 24588 11553; CX 16964 24588 11552; CA 11553 11552 11551; CX 11551 24588 24589; CX 24652 24589 1874; CX 1874 16966 24464; CX 24716 24589 11550; CX 16965 24589 11549;
  CA 11550 11549 11548; CX 11548 24589 24590; CX 24653 24590 1873; CX 1873 16967 24465; CX 24717 24590 11547; CX 16966 24590 11546; CA 11547 11546 11545; CX 11545 24590 24591;
  CX 24654 24591 1872; CX 1872 16968 24466; CX 24718 24591 11544; CX 16967 24591 11543; CA 11544 11543 11542; CX 11542 24591 24592; CX 24655 24592 1871; CX 1871 16969 24467;
  CX 24719 24592 11541; CX 16968 24592 11540; CA 11541 11540 11539; CX 11539 24592 24593; CX 24656 24593 1870; CX 1870 16970 24468; CX 24720 24593 11538; CX 16969 24593 11537;
  CA 11538 11537 11536; CX 11536 24593 24594; CX 24657 24594 1869; CX 1869 16971 24469; CX 24721 24594 11535; CX 16970 24594 11534; CA 11535 11534 11533; CX 11533 24594 24595;
  CX 24658 24595 1868; CX 1868 16972 24470; CX 24722 24595 11532; CX 16971 24595 11531; CA 11532 11531 11530; CX 11530 24595 24596; CX 24659 24596 1867; CX 1867 16973 24471;
  CX 24723 24596 11529; CX 16972 24596 11528; CA 11529 11528 11527; CX 11527 24596 24597; CX 24660 24597 1866; CX 1866 16974 24472; CX 24724 24597 11526; CX 16973 24597 11525].
(** Lines 13205-13604 of the file. *)
Definition divide64_33 : list cg := [
  CA 11526 11525 11524; CX 11524 24597 24598; CX 24661 24598 1865; CX 1865 16975 24473; CX 24725 24598 11523; CX 16974 24598 11522; CA 11523 11522 11521; CX 11521 24598 24599;
  CX 24662 24599 1864; CX 1864 16976 24474; CX 24726 24599 11520; CX 16975 24599 11519; CA 11520 11519 11518; CX 11518 24599 24600; CX 24663 24600 1863; CX 1863 16977 24475;
  CX 24727 24600 11517; CX 16976 24600 11516; CA 11517 11516 11515; CX 11515 24600 24601; CX 24664 24601 1862; CX 1862 16978 24476; CX 24728 24601 11514; CX 16977 24601 11513;
  CA 11514 11513 11512; CX 11512 24601 24602; CX 24665 24602 1861; CX 1861 16979 24477; CX 24729 24602 11511; CX 16978 24602 11510; CA 11511 11510 11509; CX 11509 24602 24603;
  CX 24666 24603 1860; CX 1860 16980 24478; CX 24730 24603 11508; CX 16979 24603 11507; CA 11508 11507 11506; CX 11506 24603 24604; CX 24667 24604 1859; CX 1859 16981 24479;
  CX 24731 24604 11505; CX 16980 24604 11504; CA 11505 11504 11503; CX 11503 24604 24605; CX 24668 24605 1858; CX 1858 16982 24480; CX 24732 24605 11502; CX 16981 24605 11501;
  CA 11502 11501 11500; CX 11500 24605 24606; CX 24669 24606 1857; CX 1857 16983 24481; CX 24733 24606 11499; CX 16982 24606 11498; CA 11499 11498 11497; CX 11497 24606 24607;
  CX 24670 24607 1856; CX 1856 16984 24482; CX 24734 24607 11496; CX 16983 24607 11495; CA 11496 11495 11494; CX 11494 24607 24608; CX 24671 24608 1855; CX 1855 16985 24483;
  CX 24735 24608 11493; CX 16984 24608 11492; CA 11493 11492 11491; CX 11491 24608 24609; CX 24672 24609 1854; CX 1854 16986 24484; CX 24736 24609 11490; CX 16985 24609 11489;
  CA 11490 11489 11488; CX 11488 24609 24610; CX 24673 24610 1853; CX 1853 16987 24485; CX 24737 24610 11487; CX 16986 24610 11486; CA 11487 11486 11485; CX 11485 24610 24611;
  CX 24674 24611 1852; CX 1852 16988 24486; CX 24738 24611 11484; CX 16987 24611 11483; CA 11484 11483 11482; CX 11482 24611 24612; CX 24675 24612 1851; CX 1851 16989 24487;
  CX 24739 24612 11481; CX 16988 24612 11480; CA 11481 11480 11479; CX 11479 24612 24613; CX 24676 24613 1850; CX 1850 16990 24488; CX 24740 24613 11478; CX 16989 24613 11477;
  CA 11478 11477 11476; CX 11476 24613 24614; CX 24677 24614 1849; CX 1849 16991 24489; CX 24741 24614 11475; CX 16990 24614 11474; CA 11475 11474 11473; CX 11473 24614 24615;
  CX 24678 24615 1848; CX 1848 16992 24490; CX 24742 24615 11472; CX 16991 24615 11471; CA 11472 11471 11470; CX 11470 24615 24616; CX 24679 24616 1847; CX 1847 16993 24491;
  CX 24743 24616 11469; CX 16992 24616 11468; CA 11469 11468 11467; CX 11467 24616 24617; CX 24680 24617 1846; CX 1846 16994 24492; CX 24744 24617 11466; CX 16993 24617 11465;
  CA 11466 11465 11464; CX 11464 24617 24618; CX 24681 24618 1845; CX 1845 16995 24493; CX 24745 24618 11463; CX 16994 24618 11462; CA 11463 11462 11461; CX 11461 24618 24619;
  CX 24682 24619 1844; CX 1844 16996 24494; CX 24746 24619 11460; CX 16995 24619 11459; CA 11460 11459 11458; CX 11458 24619 24620; CX 24683 24620 1843; CX 1843 16997 24495;
  CX 24747 24620 11457; CX 16996 24620 11456; CA 11457 11456 11455; CX 11455 24620 24621; CX 24684 24621 1842; CX 1842 16998 24496; CX 24748 24621 11454; CX 16997 24621 11453;
  CA 11454 11453 11452; CX 11452 24621 24622; CX 24685 24622 1841; CX 1841 16999 24497; CX 24749 24622 11451; CX 16998 24622 11450; CA 11451 11450 11449; CX 11449 24622 24623;
  CX 24686 24623 1840; CX 1840 17000 24498; CX 24750 24623 11448; CX 16999 24623 11447; CA 11448 11447 11446; CX 11446 24623 24624; CX 24687 24624 1839; CX 1839 17001 24499;
  CX 24751 24624 11445; CX 17000 24624 11444; CA 11445 11444 11443; CX 11443 24624 24625; CX 24688 24625 1838; CX 1838 17002 24500; CX 24752 24625 11442; CX 17001 24625 11441;
  CA 11442 11441 11440; CX 11440 24625 24626; CX 24689 24626 1837; CX 1837 17003 24501; CX 24753 24626 11439; CX 17002 24626 11438; CA 11439 11438 11437; CX 11437 24626 24627;
  CX 24690 24627 1836; CX 1836 17004 24502; CX 24754 24627 11436; CX 17003 24627 11435; CA 11436 11435 11434; CX 11434 24627 24628; CX 24691 24628 1835; CX 1835 17005 24503;
  CX 24755 24628 11433; CX 17004 24628 11432; CA 11433 11432 11431; CX 11431 24628 24629; CX 24692 24629 1834; CX 1834 17006 24504; CX 24756 24629 11430; CX 17005 24629 11429;
  CA 11430 11429 11428; CX 11428 24629 24630; CX 24693 24630 1833; CX 1833 17007 24505; CX 24757 24630 11427; CX 17006 24630 11426; CA 11427 11426 11425; CX 11425 24630 24631;
  CX 24694 24631 1832; CX 1832 17008 24506; CX 24758 24631 11424; CX 17007 24631 11423; CA 11424 11423 11422; CX 11422 24631 24632; CX 24695 24632 1831; CX 1831 17009 24507;
  CX 24759 24632 11421; CX 17008 24632 11420; CA 11421 11420 11419; CX 11419 24632 24633; CX 24696 24633 156; CI 156 16666; CX 16855 16666 24508; CX 1893 16666 24509;
  CX 1892 16666 24510; CX 1891 16666 24511; CX 1890 16666 24512; CX 1889 16666 24513; CX 1888 16666 24514; CX 1887 16666 24515; CX 1886 16666 24516; CX 1885 16666 24517;
  CX 1884 16666 24518; CX 1883 16666 24519; CX 1882 16666 24520; CX 1881 16666 24521; CX 1880 16666 24522; CX 1879 16666 24523; CX 1878 16666 24524; CX 1877 16666 24525;
  CX 1876 16666 24526; CX 1875 16666 24527; CX 1874 16666 24528; CX 1873 16666 24529; CX 1872 16666 24530; CX 1871 16666 24531; CX 1870 16666 24532; CX 1869 16666 24533;
  CX 1868 16666 24534; CX 1867 16666 24535; CX 1866 16666 24536; CX 1865 16666 24537; CX 1864 16666 24538; CX 1863 16666 24539; CX 1862 16666 24540; CX 1861 16666 24541;
  CX 1860 16666 24542; CX 1859 16666 24543; CX 1858 16666 24544; CX 1857 16666 24545; CX 1856 16666 24546; CX 1855 16666 24547; CX 1854 16666 24548; CX 1853 16666 24549;
  CX 1852 16666 24550; CX 1851 16666 24551; CX 1850 16666 24552; CX 1849 16666 24553; CX 1848 16666 24554; CX 1847 16666 24555; CX 1846 16666 24556; CX 1845 16666 24557;
  CX 1844 16666 24558; CX 1843 16666 24559; CX 1842 16666 24560; CX 1841 16666 24561; CX 1840 16666 24562; CX 1839 16666 24563; CX 1838 16666 24564; CX 1837 16666 24565;
  CX 1836 16666 24566; CX 1835 16666 24567; CX 1834 16666 24568; CX 1833 16666 24569; CX 1832 16666 24570; CA 24508 16946 24382; CX 24445 24382 1955; CX 1955 16948 24257;
  CX 24509 24382 11418; CX 16947 24382 11417; CA 11418 11417 11416; CX 11416 24382 24383; CX 24446 24383 1954; CX 1954 16949 24258; CX 24510 24383 11415; CX 16948 24383 11414;
  CA 11415 11414 11413; CX 11413 24383 24384; CX 24447 24384 1953; CX 1953 16950 24259; CX 24511 24384 11412; CX 16949 24384 11411; CA 11412 11411 11410; CX 11410 24384 24385;
  CX 24448 24385 1952; CX 1952 16951 24260; CX 24512 24385 11409; CX 16950 24385 11408; CA 11409 11408 11407; CX 11407 24385 24386; CX 24449 24386 1951; CX 1951 16952 24261;
  CX 24513 24386 11406; CX 16951 24386 11405; CA 11406 11405 11404; CX 11404 24386 24387; CX 24450 24387 1950; CX 1950 16953 24262; CX 24514 24387 11403; CX 16952 24387 11402;
  CA 11403 11402 11401; CX 11401 24387 24388; CX 24451 24388 1949; CX 1949 16954 24263; CX 24515 24388 11400; CX 16953 24388 11399; CA 11400 11399 11398; CX 11398 24388 24389;
  CX 24452 24389 1948; CX 1948 16955 24264; CX 24516 24389 11397; CX 16954 24389 11396; CA 11397 11396 11395; CX 11395 24389 24390; CX 24453 24390 1947; CX 1947 16956 24265;
  CX 24517 24390 11394; CX 16955 24390 11393; CA 11394 11393 11392; CX 11392 24390 24391; CX 24454 24391 1946; CX 1946 16957 24266; CX 24518 24391 11391; CX 16956 24391 11390;
  CA 11391 11390 11389; CX 11389 24391 24392; CX 24455 24392 1945; CX 1945 16958 24267; CX 24519 24392 11388; CX 16957 24392 11387; CA 11388 11387 11386; CX 11386 24392 24393;
  CX 24456 24393 1944; CX 1944 16959 24268; CX 24520 24393 11385; CX 16958 24393 11384; CA 11385 11384 11383; CX 11383 24393 24394; CX 24457 24394 1943; CX 1943 16960 24269;
  CX 24521 24394 11382; CX 16959 24394 11381; CA 11382 11381 11380; CX 11380 24394 24395; CX 24458 24395 1942; CX 1942 16961 24270; CX 24522 24395 11379; CX 16960 24395 11378;
  CA 11379 11378 11377; CX 11377 24395 24396; CX 24459 24396 1941; CX 1941 16962 24271; CX 24523 24396 11376; CX 16961 24396 11375; CA 11376 11375 11374; CX 11374 24396 24397;
  CX 24460 24397 1940; CX 1940 16963 24272; CX 24524 24397 11373; CX 16962 24397 11372; CA 11373 11372 11371; CX 11371 24397 24398; CX 24461 24398 1939; CX 1939 16964 24273;
  CX 24525 24398 11370; CX 16963 24398 11369; CA 11370 11369 11368; CX 11368 24398 24399; CX 24462 24399 1938; CX 1938 16965 24274; CX 24526 24399 11367; CX 16964 24399 11366;
  CA 11367 11366 11365; CX 11365 24399 24400; CX 24463 24400 1937; CX 1937 16966 24275; CX 24527 24400 11364; CX 16965 24400 11363; CA 11364 11363 11362; CX 11362 24400 24401;
  CX 24464 24401 1936; CX 1936 16967 24276; CX 24528 24401 11361; CX 16966 24401 11360; CA 11361 11360 11359; CX 11359 24401 24402; CX 24465 24402 1935; CX 1935 16968 24277].
(** Lines 13605-14004 of the file. *)
Definition divide64_34 : list cg := [
  CX 24529 24402 11358; CX 16967 24402 11357; CA 11358 11357 11356; CX 11356 24402 24403; CX 24466 24403 1934; CX 1934 16969 24278; CX 24530 24403 11355; CX 16968 24403 11354;
  CA 11355 11354 11353; CX 11353 24403 24404; CX 24467 24404 1933; CX 1933 16970 24279; CX 24531 24404 11352; CX 16969 24404 11351; CA 11352 11351 11350; CX 11350 24404 24405;
  CX 24468 24405 1932; CX 1932 16971 24280; CX 24532 24405 11349; CX 16970 24405 11348; CA 11349 11348 11347; CX 11347 24405 24406; CX 24469 24406 1931; CX 1931 16972 24281;
  CX 24533 24406 11346; CX 16971 24406 11345; CA 11346 11345 11344; CX 11344 24406 24407; CX 24470 24407 1930; CX 1930 16973 24282; CX 24534 24407 11343; CX 16972 24407 11342;
  CA 11343 11342 11341; CX 11341 24407 24408; CX 24471 24408 1929; CX 1929 16974 24283; CX 24535 24408 11340; CX 16973 24408 11339; CA 11340 11339 11338; CX 11338 24408 24409;
  CX 24472 24409 1928; CX 1928 16975 24284; CX 24536 24409 11337; CX 16974 24409 11336; CA 11337 11336 11335; CX 11335 24409 24410; CX 24473 24410 1927; CX 1927 16976 24285;
  CX 24537 24410 11334; CX 16975 24410 11333; CA 11334 11333 11332; CX 11332 24410 24411; CX 24474 24411 1926; CX 1926 16977 24286; CX 24538 24411 11331; CX 16976 24411 11330;
  CA 11331 11330 11329; CX 11329 24411 24412; CX 24475 24412 1925; CX 1925 16978 24287; CX 24539 24412 11328; CX 16977 24412 11327; CA 11328 11327 11326; CX 11326 24412 24413;
  CX 24476 24413 1924; CX 1924 16979 24288; CX 24540 24413 11325; CX 16978 24413 11324; CA 11325 11324 11323; CX 11323 24413 24414; CX 24477 24414 1923; CX 1923 16980 24289;
  CX 24541 24414 11322; CX 16979 24414 11321; CA 11322 11321 11320; CX 11320 24414 24415; CX 24478 24415 1922; CX 1922 16981 24290; CX 24542 24415 11319; CX 16980 24415 11318;
  CA 11319 11318 11317; CX 11317 24415 24416; CX 24479 24416 1921; CX 1921 16982 24291; CX 24543 24416 11316; CX 16981 24416 11315; CA 11316 11315 11314; CX 11314 24416 24417;
  CX 24480 24417 1920; CX 1920 16983 24292; CX 24544 24417 11313; CX 16982 24417 11312; CA 11313 11312 11311; CX 11311 24417 24418; CX 24481 24418 1919; CX 1919 16984 24293;
  CX 24545 24418 11310; CX 16983 24418 11309; CA 11310 11309 11308; CX 11308 24418 24419; CX 24482 24419 1918; CX 1918 16985 24294; CX 24546 24419 11307; CX 16984 24419 11306;
  CA 11307 11306 11305; CX 11305 24419 24420; CX 24483 24420 1917; CX 1917 16986 24295; CX 24547 24420 11304; CX 16985 24420 11303; CA 11304 11303 11302; CX 11302 24420 24421;
  CX 24484 24421 1916; CX 1916 16987 24296; CX 24548 24421 11301; CX 16986 24421 11300; CA 11301 11300 11299; CX 11299 24421 24422; CX 24485 24422 1915; CX 1915 16988 24297;
  CX 24549 24422 11298; CX 16987 24422 11297; CA 11298 11297 11296; CX 11296 24422 24423; CX 24486 24423 1914; CX 1914 16989 24298; CX 24550 24423 11295; CX 16988 24423 11294;
  CA 11295 11294 11293; CX 11293 24423 24424; CX 24487 24424 1913; CX 1913 16990 24299; CX 24551 24424 11292; CX 16989 24424 11291; CA 11292 11291 11290; CX 11290 24424 24425;
  CX 24488 24425 1912; CX 1912 16991 24300; CX 24552 24425 11289; CX 16990 24425 11288; CA 11289 11288 11287; CX 11287 24425 24426; CX 24489 24426 1911; CX 1911 16992 24301;
  CX 24553 24426 11286; CX 16991 24426 11285; CA 11286 11285 11284; CX 11284 24426 24427; CX 24490 24427 1910; CX 1910 16993 24302; CX 24554 24427 11283; CX 16992 24427 11282;
  CA 11283 11282 11281; CX 11281 24427 24428; CX 24491 24428 1909; CX 1909 16994 24303; CX 24555 24428 11280; CX 16993 24428 11279; CA 11280 11279 11278; CX 11278 24428 24429;
  CX 24492 24429 1908; CX 1908 16995 24304; CX 24556 24429 11277; CX 16994 24429 11276; CA 11277 11276 11275; CX 11275 24429 24430; CX 24493 24430 1907; CX 1907 16996 24305;
  CX 24557 24430 11274; CX 16995 24430 11273; CA 11274 11273 11272; CX 11272 24430 24431; CX 24494 24431 1906; CX 1906 16997 24306; CX 24558 24431 11271; CX 16996 24431 11270;
  CA 11271 11270 11269; CX 11269 24431 24432; CX 24495 24432 1905; CX 1905 16998 24307; CX 24559 24432 11268; CX 16997 24432 11267; CA 11268 11267 11266; CX 11266 24432 24433;
  CX 24496 24433 1904; CX 1904 16999 24308; CX 24560 24433 11265; CX 16998 24433 11264; CA 11265 11264 11263; CX 11263 24433 24434; CX 24497 24434 1903; CX 1903 17000 24309;
  CX 24561 24434 11262; CX 16999 24434 11261; CA 11262 11261 11260; CX 11260 24434 24435; CX 24498 24435 1902; CX 1902 17001 24310; CX 24562 24435 11259; CX 17000 24435 11258;
  CA 11259 11258 11257; CX 11257 24435 24436; CX 24499 24436 1901; CX 1901 17002 24311; CX 24563 24436 11256; CX 17001 24436 11255; CA 11256 11255 11254; CX 11254 24436 24437;
  CX 24500 24437 1900; CX 1900 17003 24312; CX 24564 24437 11253; CX 17002 24437 11252; CA 11253 11252 11251; CX 11251 24437 24438; CX 24501 24438 1899; CX 1899 17004 24313;
  CX 24565 24438 11250; CX 17003 24438 11249; CA 11250 11249 11248; CX 11248 24438 24439; CX 24502 24439 1898; CX 1898 17005 24314; CX 24566 24439 11247; CX 17004 24439 11246;
  CA 11247 11246 11245; CX 11245 24439 24440; CX 24503 24440 1897; CX 1897 17006 24315; CX 24567 24440 11244; CX 17005 24440 11243; CA 11244 11243 11242; CX 11242 24440 24441;
  CX 24504 24441 1896; CX 1896 17007 24316; CX 24568 24441 11241; CX 17006 24441 11240; CA 11241 11240 11239; CX 11239 24441 24442; CX 24505 24442 1895; CX 1895 17008 24317;
  CX 24569 24442 11238; CX 17007 24442 11237; CA 11238 11237 11236; CX 11236 24442 24443; CX 24506 24443 1894; CX 1894 17009 24318; CX 24570 24443 11235; CX 17008 24443 11234;
  CA 11235 11234 11233; CX 11233 24443 24444; CX 24507 24444 157; CA 16666 4535 17550; CI 157 16665; CX 16854 16665 24319; CX 1956 16665 24320; CX 1955 16665 24321;
  CX 1954 16665 24322; CX 1953 16665 24323; CX 1952 16665 24324; CX 1951 16665 24325; CX 1950 16665 24326; CX 1949 16665 24327; CX 1948 16665 24328; CX 1947 16665 24329;
  CX 1946 16665 24330; CX 1945 16665 24331; CX 1944 16665 24332; CX 1943 16665 24333; CX 1942 16665 24334; CX 1941 16665 24335; CX 1940 16665 24336; CX 1939 16665 24337;
  CX 1938 16665 24338; CX 1937 16665 24339; CX 1936 16665 24340; CX 1935 16665 24341; CX 1934 16665 24342; CX 1933 16665 24343; CX 1932 16665 24344; CX 1931 16665 24345;
  CX 1930 16665 24346; CX 1929 16665 24347; CX 1928 16665 24348; CX 1927 16665 24349; CX 1926 16665 24350; CX 1925 16665 24351; CX 1924 16665 24352; CX 1923 16665 24353;
  CX 1922 16665 24354; CX 1921 16665 24355; CX 1920 16665 24356; CX 1919 16665 24357; CX 1918 16665 24358; CX 1917 16665 24359; CX 1916 16665 24360; CX 1915 16665 24361;
  CX 1914 16665 24362; CX 1913 16665 24363; CX 1912 16665 24364; CX 1911 16665 24365; CX 1910 16665 24366; CX 1909 16665 24367; CX 1908 16665 24368; CX 1907 16665 24369;
  CX 1906 16665 24370; CX 1905 16665 24371; CX 1904 16665 24372; CX 1903 16665 24373; CX 1902 16665 24374; CX 1901 16665 24375; CX 1900 16665 24376; CX 1899 16665 24377;
  CX 1898 16665 24378; CX 1897 16665 24379; CX 1896 16665 24380; CX 1895 16665 24381; CA 24319 16946 24193; CX 24256 24193 2018; CX 2018 16948 24068; CX 24320 24193 11232;
  CX 16947 24193 11231; CA 11232 11231 11230; CX 11230 24193 24194; CX 24257 24194 2017; CX 2017 16949 24069; CX 24321 24194 11229; CX 16948 24194 11228; CA 11229 11228 11227;
  CX 11227 24194 24195; CX 24258 24195 2016; CX 2016 16950 24070; CX 24322 24195 11226; CX 16949 24195 11225; CA 11226 11225 11224; CX 11224 24195 24196; CX 24259 24196 2015;
  CX 2015 16951 24071; CX 24323 24196 11223; CX 16950 24196 11222; CA 11223 11222 11221; CX 11221 24196 24197; CX 24260 24197 2014; CX 2014 16952 24072; CX 24324 24197 11220;
  CX 16951 24197 11219; CA 11220 11219 11218; CX 11218 24197 24198; CX 24261 24198 2013; CX 2013 16953 24073; CX 24325 24198 11217; CX 16952 24198 11216; CA 11217 11216 11215;
  CX 11215 24198 24199; CX 24262 24199 2012; CX 2012 16954 24074; CX 24326 24199 11214; CX 16953 24199 11213; CA 11214 11213 11212; CX 11212 24199 24200; CX 24263 24200 2011;
  CX 2011 16955 24075; CX 24327 24200 11211; CX 16954 24200 11210; CA 11211 11210 11209; CX 11209 24200 24201; CX 24264 24201 2010; CX 2010 16956 24076; CX 24328 24201 11208;
  CX 16955 24201 11207; CA 11208 11207 11206; CX 11206 24201 24202; CX 24265 24202 2009; CX 2009 16957 24077; CX 24329 24202 11205; CX 16956 24202 11204; CA 11205 11204 11203;
  CX 11203 24202 24203; CX 24266 24203 2008; CX 2008 16958 24078; CX 24330 24203 11202; CX 16957 24203 11201; CA 11202 11201 11200; CX 11200 24203 24204; CX 24267 24204 2007;
  CX 2007 16959 24079; CX 24331 24204 11199; CX 16958 24204 11198; CA 11199 11198 11197; CX 11197 24204 24205; CX 24268 24205 2006; CX 2006 16960 24080; CX 24332 24205 11196;
  CX 16959 24205 11195; CA 11196 11195 11194; CX 11194 24205 24206; CX 24269 24206 2005; CX 2005 16961 24081; CX 24333 24206 11193; CX 16960 24206 11192; CA 11193 11192 11191].
(** Lines 14005-14404 of the file. *)
Definition divide64_35 : list cg := [
  CX 11191 24206 24207; CX 24270 24207 2004; CX 2004 16962 24082; CX 24334 24207 11190; CX 16961 24207 11189; CA 11190 11189 11188; CX 11188 24207 24208; CX 24271 24208 2003;
  CX 2003 16963 24083; CX 24335 24208 11187; CX 16962 24208 11186; CA 11187 11186 11185; CX 11185 24208 24209; CX 24272 24209 2002; CX 2002 16964 24084; CX 24336 24209 11184;
  CX 16963 24209 11183; CA 11184 11183 11182; CX 11182 24209 24210; CX 24273 24210 2001; CX 2001 16965 24085; CX 24337 24210 11181; CX 16964 24210 11180; CA 11181 11180 11179;
  CX 11179 24210 24211; CX 24274 24211 2000; CX 2000 16966 24086; CX 24338 24211 11178; CX 16965 24211 11177; CA 11178 11177 11176; CX 11176 24211 24212; CX 24275 24212 1999;
  CX 1999 16967 24087; CX 24339 24212 11175; CX 16966 24212 11174; CA 11175 11174 11173; CX 11173 24212 24213; CX 24276 24213 1998; CX 1998 16968 24088; CX 24340 24213 11172;
  CX 16967 24213 11171; CA 11172 11171 11170; CX 11170 24213 24214; CX 24277 24214 1997; CX 1997 16969 24089; CX 24341 24214 11169; CX 16968 24214 11168; CA 11169 11168 11167;
  CX 11167 24214 24215; CX 24278 24215 1996; CX 1996 16970 24090; CX 24342 24215 11166; CX 16969 24215 11165; CA 11166 11165 11164; CX 11164 24215 24216; CX 24279 24216 1995;
  CX 1995 16971 24091; CX 24343 24216 11163; CX 16970 24216 11162; CA 11163 11162 11161; CX 11161 24216 24217; CX 24280 24217 1994; CX 1994 16972 24092; CX 24344 24217 11160;
  CX 16971 24217 11159; CA 11160 11159 11158; CX 11158 24217 24218; CX 24281 24218 1993; CX 1993 16973 24093; CX 24345 24218 11157; CX 16972 24218 11156; CA 11157 11156 11155;
  CX 11155 24218 24219; CX 24282 24219 1992; CX 1992 16974 24094; CX 24346 24219 11154; CX 16973 24219 11153; CA 11154 11153 11152; CX 11152 24219 24220; CX 24283 24220 1991;
  CX 1991 16975 24095; CX 24347 24220 11151; CX 16974 24220 11150; CA 11151 11150 11149; CX 11149 24220 24221; CX 24284 24221 1990; CX 1990 16976 24096; CX 24348 24221 11148;
  CX 16975 24221 11147; CA 11148 11147 11146; CX 11146 24221 24222; CX 24285 24222 1989; CX 1989 16977 24097; CX 24349 24222 11145; CX 16976 24222 11144; CA 11145 11144 11143;
  CX 11143 24222 24223; CX 24286 24223 1988; CX 1988 16978 24098; CX 24350 24223 11142; CX 16977 24223 11141; CA 11142 11141 11140; CX 11140 24223 24224; CX 24287 24224 1987;
  CX 1987 16979 24099; CX 24351 24224 11139; CX 16978 24224 11138; CA 11139 11138 11137; CX 11137 24224 24225; CX 24288 24225 1986; CX 1986 16980 24100; CX 24352 24225 11136;
  CX 16979 24225 11135; CA 11136 11135 11134; CX 11134 24225 24226; CX 24289 24226 1985; CX 1985 16981 24101; CX 24353 24226 11133; CX 16980 24226 11132; CA 11133 11132 11131;
  CX 11131 24226 24227; CX 24290 24227 1984; CX 1984 16982 24102; CX 24354 24227 11130; CX 16981 24227 11129; CA 11130 11129 11128; CX 11128 24227 24228; CX 24291 24228 1983;
  CX 1983 16983 24103; CX 24355 24228 11127; CX 16982 24228 11126; CA 11127 11126 11125; CX 11125 24228 24229; CX 24292 24229 1982; CX 1982 16984 24104; CX 24356 24229 11124;
  CX 16983 24229 11123; CA 11124 11123 11122; CX 11122 24229 24230; CX 24293 24230 1981; CX 1981 16985 24105; CX 24357 24230 11121; CX 16984 24230 11120; CA 11121 11120 11119;
  CX 11119 24230 24231; CX 24294 24231 1980; CX 1980 16986 24106; CX 24358 24231 11118; CX 16985 24231 11117; CA 11118 11117 11116; CX 11116 24231 24232; CX 24295 24232 1979;
  CX 1979 16987 24107; CX 24359 24232 11115; CX 16986 24232 11114; CA 11115 11114 11113; CX 11113 24232 24233; CX 24296 24233 1978; CX 1978 16988 24108; CX 24360 24233 11112;
  CX 16987 24233 11111; CA 11112 11111 11110; CX 11110 24233 24234; CX 24297 24234 1977; CX 1977 16989 24109; CX 24361 24234 11109; CX 16988 24234 11108; CA 11109 11108 11107;
  CX 11107 24234 24235; CX 24298 24235 1976; CX 1976 16990 24110; CX 24362 24235 11106; CX 16989 24235 11105; CA 11106 11105 11104; CX 11104 24235 24236; CX 24299 24236 1975;
  CX 1975 16991 24111; CX 24363 24236 11103; CX 16990 24236 11102; CA 11103 11102 11101; CX 11101 24236 24237; CX 24300 24237 1974; CX 1974 16992 24112; CX 24364 24237 11100;
  CX 16991 24237 11099; CA 11100 11099 11098; CX 11098 24237 24238; CX 24301 24238 1973; CX 1973 16993 24113; CX 24365 24238 11097; CX 16992 24238 11096; CA 11097 11096 11095;
  CX 11095 24238 24239; CX 24302 24239 1972; CX 1972 16994 24114; CX 24366 24239 11094; CX 16993 24239 11093; CA 11094 11093 11092; CX 11092 24239 24240; CX 24303 24240 1971;
  CX 1971 16995 24115; CX 24367 24240 11091; CX 16994 24240 11090; CA 11091 11090 11089; CX 11089 24240 24241; CX 24304 24241 1970; CX 1970 16996 24116; CX 24368 24241 11088;
  CX 16995 24241 11087; CA 11088 11087 11086; CX 11086 24241 24242; CX 24305 24242 1969; CX 1969 16997 24117; CX 24369 24242 11085; CX 16996 24242 11084; CA 11085 11084 11083;
  CX 11083 24242 24243; CX 24306 24243 1968; CX 1968 16998 24118; CX 24370 24243 11082; CX 16997 24243 11081; CA 11082 11081 11080; CX 11080 24243 24244; CX 24307 24244 1967;
  CX 1967 16999 24119; CX 24371 24244 11079; CX 16998 24244 11078; CA 11079 11078 11077; CX 11077 24244 24245; CX 24308 24245 1966; CX 1966 17000 24120; CX 24372 24245 11076;
  CX 16999 24245 11075; CA 11076 11075 11074; CX 11074 24245 24246; CX 24309 24246 1965; CX 1965 17001 24121; CX 24373 24246 11073; CX 17000 24246 11072; CA 11073 11072 11071;
  CX 11071 24246 24247; CX 24310 24247 1964; CX 1964 17002 24122; CX 24374 24247 11070; CX 17001 24247 11069; CA 11070 11069 11068; CX 11068 24247 24248; CX 24311 24248 1963;
  CX 1963 17003 24123; CX 24375 24248 11067; CX 17002 24248 11066; CA 11067 11066 11065; CX 11065 24248 24249; CX 24312 24249 1962; CX 1962 17004 24124; CX 24376 24249 11064;
  CX 17003 24249 11063; CA 11064 11063 11062; CX 11062 24249 24250; CX 24313 24250 1961; CX 1961 17005 24125; CX 24377 24250 11061; CX 17004 24250 11060; CA 11061 11060 11059;
  CX 11059 24250 24251; CX 24314 24251 1960; CX 1960 17006 24126; CX 24378 24251 11058; CX 17005 24251 11057; CA 11058 11057 11056; CX 11056 24251 24252; CX 24315 24252 1959;
  CX 1959 17007 24127; CX 24379 24252 11055; CX 17006 24252 11054; CA 11055 11054 11053; CX 11053 24252 24253; CX 24316 24253 1958; CX 1958 17008 24128; CX 24380 24253 11052;
  CX 17007 24253 11051; CA 11052 11051 11050; CX 11050 24253 24254; CX 24317 24254 1957; CX 1957 17009 24129; CX 24381 24254 11049; CX 17008 24254 11048; CA 11049 11048 11047;
  CX 11047 24254 24255; CX 24318 24255 158; CI 158 16664; CX 16853 16664 24130; CX 2019 16664 24131; CX 2018 16664 24132; CX 2017 16664 24133; CX 2016 16664 24134;
  CX 2015 16664 24135; CX 2014 16664 24136; CX 2013 16664 24137; CX 2012 16664 24138; CX 2011 16664 24139; CX 2010 16664 24140; CX 2009 16664 24141; CX 2008 16664 24142;
  CX 2007 16664 24143; CX 2006 16664 24144; CX 2005 16664 24145; CX 2004 16664 24146; CX 2003 16664 24147; CX 2002 16664 24148; CX 2001 16664 24149; CX 2000 16664 24150;
  CX 1999 16664 24151; CX 1998 16664 24152; CX 1997 16664 24153; CX 1996 16664 24154; CX 1995 16664 24155; CX 1994 16664 24156; CX 1993 16664 24157; CX 1992 16664 24158;
  CX 1991 16664 24159; CX 1990 16664 24160; CX 1989 16664 24161; CX 1988 16664 24162; CX 1987 16664 24163; CX 1986 16664 24164; CX 1985 16664 24165; CX 1984 16664 24166;
  CX 1983 16664 24167; CX 1982 16664 24168; CX 1981 16664 24169; CX 1980 16664 24170; CX 1979 16664 24171; CX 1978 16664 24172; CX 1977 16664 24173; CX 1976 16664 24174;
  CX 1975 16664 24175; CX 1974 16664 24176; CX 1973 16664 24177; CX 1972 16664 24178; CX 1971 16664 24179; CX 1970 16664 24180; CX 1969 16664 24181; CX 1968 16664 24182;
  CX 1967 16664 24183; CX 1966 16664 24184; CX 1965 16664 24185; CX 1964 16664 24186; CX 1963 16664 24187; CX 1962 16664 24188; CX 1961 16664 24189; CX 1960 16664 24190;
  CX 1959 16664 24191; CX 1958 16664 24192; CA 24130 16946 24004; CX 24067 24004 2081; CX 2081 16948 23879; CX 24131 24004 11046; CX 16947 24004 11045; CA 11046 11045 11044;
  CX 11044 24004 24005; CX 24068 24005 2080; CX 2080 16949 23880; CX 24132 24005 11043; CX 16948 24005 11042; CA 11043 11042 11041; CX 11041 24005 24006; CX 24069 24006 2079;
  CX 2079 16950 23881; CX 24133 24006 11040; CX 16949 24006 11039; CA 11040 11039 11038; CX 11038 24006 24007; CX 24070 24007 2078; CX 2078 16951 23882; CX 24134 24007 11037;
  CX 16950 24007 11036; CA 11037 11036 11035; CX 11035 24007 24008; CX 24071 24008 2077; CX 2077 16952 23883; CX 24135 24008 11034; CX 16951 24008 11033; CA 11034 11033 11032;
  CX 11032 24008 24009; CX 24072 24009 2076; CX 2076 16953 23884; CX 24136 24009 11031; CX 16952 24009 11030; CA 11031 11030 11029; CX 11029 24009 24010; CX 24073 24010 2075;
  CX 2075 16954 23885; CX 24137 24010 11028; CX 16953 24010 11027; CA 11028 11027 11026; CX 11026 24010 24011; CX 24074 24011 2074; CX 2074 16955 23886; CX 24138 24011 11025].
(** Lines 14405-14804 of the file. *)
Definition divide64_36 : list cg := [
  CX 16954 24011 11024; CA 11025 11024 11023; CX 11023 24011 24012; CX 24075 24012 2073; CX 2073 16956 23887; CX 24139 24012 11022; CX 16955 24012 11021; CA 11022 11021 11020;
  CX 11020 24012 24013; CX 24076 24013 2072; CX 2072 16957 23888; CX 24140 24013 11019; CX 16956 24013 11018; CA 11019 11018 11017; CX 11017 24013 24014; CX 24077 24014 2071;
  CX 2071 16958 23889; CX 24141 24014 11016; CX 16957 24014 11015; CA 11016 11015 11014; CX 11014 24014 24015; CX 24078 24015 2070; CX 2070 16959 23890; CX 24142 24015 11013;
  CX 16958 24015 11012; CA 11013 11012 11011; CX 11011 24015 24016; CX 24079 24016 2069; CX 2069 16960 23891; CX 24143 24016 11010; CX 16959 24016 11009; CA 11010 11009 11008;
  CX 11008 24016 24017; CX 24080 24017 2068; CX 2068 16961 23892; CX 24144 24017 11007; CX 16960 24017 11006; CA 11007 11006 11005; CX 11005 24017 24018; CX 24081 24018 2067;
  CX 2067 16962 23893; CX 24145 24018 11004; CX 16961 24018 11003; CA 11004 11003 11002; CX 11002 24018 24019; CX 24082 24019 2066; CX 2066 16963 23894; CX 24146 24019 11001;
  CX 16962 24019 11000; CA 11001 11000 10999; CX 10999 24019 24020; CX 24083 24020 2065; CX 2065 16964 23895; CX 24147 24020 10998; CX 16963 24020 10997; CA 10998 10997 10996;
  CX 10996 24020 24021; CX 24084 24021 2064; CX 2064 16965 23896; CX 24148 24021 10995; CX 16964 24021 10994; CA 10995 10994 10993; CX 10993 24021 24022; CX 24085 24022 2063;
  CX 2063 16966 23897; CX 24149 24022 10992; CX 16965 24022 10991; CA 10992 10991 10990; CX 10990 24022 24023; CX 24086 24023 2062; CX 2062 16967 23898; CX 24150 24023 10989;
  CX 16966 24023 10988; CA 10989 10988 10987; CX 10987 24023 24024; CX 24087 24024 2061; CX 2061 16968 23899; CX 24151 24024 10986; CX 16967 24024 10985; CA 10986 10985 10984;
  CX 10984 24024 24025; CX 24088 24025 2060; CX 2060 16969 23900; CX 24152 24025 10983; CX 16968 24025 10982; CA 10983 10982 10981; CX 10981 24025 24026; CX 24089 24026 2059;
  CX 2059 16970 23901; CX 24153 24026 10980; CX 16969 24026 10979; CA 10980 10979 10978; CX 10978 24026 24027; CX 24090 24027 2058; CX 2058 16971 23902; CX 24154 24027 10977;
  CX 16970 24027 10976; CA 10977 10976 10975; CX 10975 24027 24028; CX 24091 24028 2057; CX 2057 16972 23903; CX 24155 24028 10974; CX 16971 24028 10973; CA 10974 10973 10972;
  CX 10972 24028 24029; CX 24092 24029 2056; CX 2056 16973 23904; CX 24156 24029 10971; CX 16972 24029 10970; CA 10971 10970 10969; CX 10969 24029 24030; CX 24093 24030 2055;
  CX 2055 16974 23905; CX 24157 24030 10968; CX 16973 24030 10967; CA 10968 10967 10966; CX 10966 24030 24031; CX 24094 24031 2054; CX 2054 16975 23906; CX 24158 24031 10965;
  CX 16974 24031 10964; CA 10965 10964 10963; CX 10963 24031 24032; CX 24095 24032 2053; CX 2053 16976 23907; CX 24159 24032 10962; CX 16975 24032 10961; CA 10962 10961 10960;
  CX 10960 24032 24033; CX 24096 24033 2052; CX 2052 16977 23908; CX 24160 24033 10959; CX 16976 24033 10958; CA 10959 10958 10957; CX 10957 24033 24034; CX 24097 24034 2051;
  CX 2051 16978 23909; CX 24161 24034 10956; CX 16977 24034 10955; CA 10956 10955 10954; CX 10954 24034 24035; CX 24098 24035 2050; CX 2050 16979 23910; CX 24162 24035 10953;
  CX 16978 24035 10952; CA 10953 10952 10951; CX 10951 24035 24036; CX 24099 24036 2049; CX 2049 16980 23911; CX 24163 24036 10950; CX 16979 24036 10949; CA 10950 10949 10948;
  CX 10948 24036 24037; CX 24100 24037 2048; CX 2048 16981 23912; CX 24164 24037 10947; CX 16980 24037 10946; CA 10947 10946 10945; CX 10945 24037 24038; CX 24101 24038 2047;
  CX 2047 16982 23913; CX 24165 24038 10944; CX 16981 24038 10943; CA 10944 10943 10942; CX 10942 24038 24039; CX 24102 24039 2046; CX 2046 16983 23914; CX 24166 24039 10941;
  CX 16982 24039 10940; CA 10941 10940 10939; CX 10939 24039 24040; CX 24103 24040 2045; CX 2045 16984 23915; CX 24167 24040 10938; CX 16983 24040 10937; CA 10938 10937 10936;
  CX 10936 24040 24041; CX 24104 24041 2044; CX 2044 16985 23916; CX 24168 24041 10935; CX 16984 24041 10934; CA 10935 10934 10933; CX 10933 24041 24042; CX 24105 24042 2043;
  CX 2043 16986 23917; CX 24169 24042 10932; CX 16985 24042 10931; CA 10932 10931 10930; CX 10930 24042 24043; CX 24106 24043 2042; CX 2042 16987 23918; CX 24170 24043 10929;
  CX 16986 24043 10928; CA 10929 10928 10927; CX 10927 24043 24044; CX 24107 24044 2041; CX 2041 16988 23919; CX 24171 24044 10926; CX 16987 24044 10925; CA 10926 10925 10924;
  CX 10924 24044 24045; CX 24108 24045 2040; CX 2040 16989 23920; CX 24172 24045 10923; CX 16988 24045 10922; CA 10923 10922 10921; CX 10921 24045 24046; CX 24109 24046 2039;
  CX 2039 16990 23921; CX 24173 24046 10920; CX 16989 24046 10919; CA 10920 10919 10918; CX 10918 24046 24047; CX 24110 24047 2038; CX 2038 16991 23922; CX 24174 24047 10917;
  CX 16990 24047 10916; CA 10917 10916 10915; CX 10915 24047 24048; CX 24111 24048 2037; CX 2037 16992 23923; CX 24175 24048 10914; CX 16991 24048 10913; CA 10914 10913 10912;
  CX 10912 24048 24049; CX 24112 24049 2036; CX 2036 16993 23924; CX 24176 24049 10911; CX 16992 24049 10910; CA 10911 10910 10909; CX 10909 24049 24050; CX 24113 24050 2035;
  CX 2035 16994 23925; CX 24177 24050 10908; CX 16993 24050 10907; CA 10908 10907 10906; CX 10906 24050 24051; CX 24114 24051 2034; CX 2034 16995 23926; CX 24178 24051 10905;
  CX 16994 24051 10904; CA 10905 10904 10903; CX 10903 24051 24052; CX 24115 24052 2033; CX 2033 16996 23927; CX 24179 24052 10902; CX 16995 24052 10901; CA 10902 10901 10900;
  CX 10900 24052 24053; CX 24116 24053 2032; CX 2032 16997 23928; CX 24180 24053 10899; CX 16996 24053 10898; CA 10899 10898 10897; CX 10897 24053 24054; CX 24117 24054 2031;
  CX 2031 16998 23929; CX 24181 24054 10896; CX 16997 24054 10895; CA 10896 10895 10894; CX 10894 24054 24055; CX 24118 24055 2030; CX 2030 16999 23930; CX 24182 24055 10893;
  CX 16998 24055 10892; CA 10893 10892 10891; CX 10891 24055 24056; CX 24119 24056 2029; CX 2029 17000 23931; CX 24183 24056 10890; CX 16999 24056 10889; CA 10890 10889 10888;
  CX 10888 24056 24057; CX 24120 24057 2028; CX 2028 17001 23932; CX 24184 24057 10887; CX 17000 24057 10886; CA 10887 10886 10885; CX 10885 24057 24058; CX 24121 24058 2027;
  CX 2027 17002 23933; CX 24185 24058 10884; CX 17001 24058 10883; CA 10884 10883 10882; CX 10882 24058 24059; CX 24122 24059 2026; CX 2026 17003 23934; CX 24186 24059 10881;
  CX 17002 24059 10880; CA 10881 10880 10879; CX 10879 24059 24060; CX 24123 24060 2025; CX 2025 17004 23935; CX 24187 24060 10878; CX 17003 24060 10877; CA 10878 10877 10876;
  CX 10876 24060 24061; CX 24124 24061 2024; CX 2024 17005 23936; CX 24188 24061 10875; CX 17004 24061 10874; CA 10875 10874 10873; CX 10873 24061 24062; CX 24125 24062 2023;
  CX 2023 17006 23937; CX 24189 24062 10872; CX 17005 24062 10871; CA 10872 10871 10870; CX 10870 24062 24063; CX 24126 24063 2022; CX 2022 17007 23938; CX 24190 24063 10869;
  CX 17006 24063 10868; CA 10869 10868 10867; CX 10867 24063 24064; CX 24127 24064 2021; CX 2021 17008 23939; CX 24191 24064 10866; CX 17007 24064 10865; CA 10866 10865 10864;
  CX 10864 24064 24065; CX 24128 24065 2020; CX 2020 17009 23940; CX 24192 24065 10863; CX 17008 24065 10862; CA 10863 10862 10861; CX 10861 24065 24066; CX 24129 24066 159;
  CA 16664 4535 17548; CI 159 16663; CX 16852 16663 23941; CX 2082 16663 23942; CX 2081 16663 23943; CX 2080 16663 23944; CX 2079 16663 23945; CX 2078 16663 23946;
  CX 2077 16663 23947; CX 2076 16663 23948; CX 2075 16663 23949; CX 2074 16663 23950; CX 2073 16663 23951; CX 2072 16663 23952; CX 2071 16663 23953; CX 2070 16663 23954;
  CX 2069 16663 23955; CX 2068 16663 23956; CX 2067 16663 23957; CX 2066 16663 23958; CX 2065 16663 23959; CX 2064 16663 23960; CX 2063 16663 23961; CX 2062 16663 23962;
  CX 2061 16663 23963; CX 2060 16663 23964; CX 2059 16663 23965; CX 2058 16663 23966; CX 2057 16663 23967; CX 2056 16663 23968; CX 2055 16663 23969; CX 2054 16663 23970;
  CX 2053 16663 23971; CX 2052 16663 23972; CX 2051 16663 23973; CX 2050 16663 23974; CX 2049 16663 23975; CX 2048 16663 23976; CX 2047 16663 23977; CX 2046 16663 23978;
  CX 2045 16663 23979; CX 2044 16663 23980; CX 2043 16663 23981; CX 2042 16663 23982; CX 2041 16663 23983; CX 2040 16663 23984; CX 2039 16663 23985; CX 2038 16663 23986;
  CX 2037 16663 23987; CX 2036 16663 23988; CX 2035 16663 23989; CX 2034 16663 23990; CX 2033 16663 23991; CX 2032 16663 23992; CX 2031 16663 23993; CX 2030 16663 23994;
  CX 2029 16663 23995; CX 2028 16663 23996; CX 2027 16663 23997; CX 2026 16663 23998; CX 2025 16663 23999; CX 2024 16663 24000; CX 2023 16663 24001; CX 2022 16663 24002;
  CX 2021 16663 24003; CA 23941 16946 23815; CX 23878 23815 2144; CX 2144 16948 23690; CX 23942 23815 10860; CX 16947 23815 10859; CA 10860 10859 10858; CX 10858 23815 23816].
(** Lines 14805-15204 of the file. *)
Definition divide64_37 : list cg := [
  CX 23879 23816 2143; CX 2143 16949 23691; CX 23943 23816 10857; CX 16948 23816 10856; CA 10857 10856 10855; CX 10855 23816 23817; CX 23880 23817 2142; CX 2142 16950 23692;
  CX 23944 23817 10854; CX 16949 23817 10853; CA 10854 10853 10852; CX 10852 23817 23818; CX 23881 23818 2141; CX 2141 16951 23693; CX 23945 23818 10851; CX 16950 23818 10850;
  CA 10851 10850 10849; CX 10849 23818 23819; CX 23882 23819 2140; CX 2140 16952 23694; CX 23946 23819 10848; CX 16951 23819 10847; CA 10848 10847 10846; CX 10846 23819 23820;
  CX 23883 23820 2139; CX 2139 16953 23695; CX 23947 23820 10845; CX 16952 23820 10844; CA 10845 10844 10843; CX 10843 23820 23821; CX 23884 23821 2138; CX 2138 16954 23696;
  CX 23948 23821 10842; CX 16953 23821 10841; CA 10842 10841 10840; CX 10840 23821 23822; CX 23885 23822 2137; CX 2137 16955 23697; CX 23949 23822 10839; CX 16954 23822 10838;
  CA 10839 10838 10837; CX 10837 23822 23823; CX 23886 23823 2136; CX 2136 16956 23698; CX 23950 23823 10836; CX 16955 23823 10835; CA 10836 10835 10834; CX 10834 23823 23824;
  CX 23887 23824 2135; CX 2135 16957 23699; CX 23951 23824 10833; CX 16956 23824 10832; CA 10833 10832 10831; CX 10831 23824 23825; CX 23888 23825 2134; CX 2134 16958 23700;
  CX 23952 23825 10830; CX 16957 23825 10829; CA 10830 10829 10828; CX 10828 23825 23826; CX 23889 23826 2133; CX 2133 16959 23701; CX 23953 23826 10827; CX 16958 23826 10826;
  CA 10827 10826 10825; CX 10825 23826 23827; CX 23890 23827 2132; CX 2132 16960 23702; CX 23954 23827 10824; CX 16959 23827 10823; CA 10824 10823 10822; CX 10822 23827 23828;
  CX 23891 23828 2131; CX 2131 16961 23703; CX 23955 23828 10821; CX 16960 23828 10820; CA 10821 10820 10819; CX 10819 23828 23829; CX 23892 23829 2130; CX 2130 16962 23704;
  CX 23956 23829 10818; CX 16961 23829 10817; CA 10818 10817 10816; CX 10816 23829 23830; CX 23893 23830 2129; CX 2129 16963 23705; CX 23957 23830 10815; CX 16962 23830 10814;
  CA 10815 10814 10813; CX 10813 23830 23831; CX 23894 23831 2128; CX 2128 16964 23706; CX 23958 23831 10812; CX 16963 23831 10811; CA 10812 10811 10810; CX 10810 23831 23832;
  CX 23895 23832 2127; CX 2127 16965 23707; CX 23959 23832 10809; CX 16964 23832 10808; CA 10809 10808 10807; CX 10807 23832 23833; CX 23896 23833 2126; CX 2126 16966 23708;
  CX 23960 23833 10806; CX 16965 23833 10805; CA 10806 10805 10804; CX 10804 23833 23834; CX 23897 23834 2125; CX 2125 16967 23709; CX 23961 23834 10803; CX 16966 23834 10802;
  CA 10803 10802 10801; CX 10801 23834 23835; CX 23898 23835 2124; CX 2124 16968 23710; CX 23962 23835 10800; CX 16967 23835 10799; CA 10800 10799 10798; CX 10798 23835 23836;
  CX 23899 23836 2123; CX 2123 16969 23711; CX 23963 23836 10797; CX 16968 23836 10796; CA 10797 10796 10795; CX 10795 23836 23837; CX 23900 23837 2122; CX 2122 16970 23712;
  CX 23964 23837 10794; CX 16969 23837 10793; CA 10794 10793 10792; CX 10792 23837 23838; CX 23901 23838 2121; CX 2121 16971 23713; CX 23965 23838 10791; CX 16970 23838 10790;
  CA 10791 10790 10789; CX 10789 23838 23839; CX 23902 23839 2120; CX 2120 16972 23714; CX 23966 23839 10788; CX 16971 23839 10787; CA 10788 10787 10786; CX 10786 23839 23840;
  CX 23903 23840 2119; CX 2119 16973 23715; CX 23967 23840 10785; CX 16972 23840 10784; CA 10785 10784 10783; CX 10783 23840 23841; CX 23904 23841 2118; CX 2118 16974 23716;
  CX 23968 23841 10782; CX 16973 23841 10781; CA 10782 10781 10780; CX 10780 23841 23842; CX 23905 23842 2117; CX 2117 16975 23717; CX 23969 23842 10779; CX 16974 23842 10778;
  CA 10779 10778 10777; CX 10777 23842 23843; CX 23906 23843 2116; CX 2116 16976 23718; CX 23970 23843 10776; CX 16975 23843 10775; CA 10776 10775 10774; CX 10774 23843 23844;
  CX 23907 23844 2115; CX 2115 16977 23719; CX 23971 23844 10773; CX 16976 23844 10772; CA 10773 10772 10771; CX 10771 23844 23845; CX 23908 23845 2114; CX 2114 16978 23720;
  CX 23972 23845 10770; CX 16977 23845 10769; CA 10770 10769 10768; CX 10768 23845 23846; CX 23909 23846 2113; CX 2113 16979 23721; CX 23973 23846 10767; CX 16978 23846 10766;
  CA 10767 10766 10765; CX 10765 23846 23847; CX 23910 23847 2112; CX 2112 16980 23722; CX 23974 23847 10764; CX 16979 23847 10763; CA 10764 10763 10762; CX 10762 23847 23848;
  CX 23911 23848 2111; CX 2111 16981 23723; CX 23975 23848 10761; CX 16980 23848 10760; CA 10761 10760 10759; CX 10759 23848 23849; CX 23912 23849 2110; CX 2110 16982 23724;
  CX 23976 23849 10758; CX 16981 23849 10757; CA 10758 10757 10756; CX 10756 23849 23850; CX 23913 23850 2109; CX 2109 16983 23725; CX 23977 23850 10755; CX 16982 23850 10754;
  CA 10755 10754 10753; CX 10753 23850 23851; CX 23914 23851 2108; CX 2108 16984 23726; CX 23978 23851 10752; CX 16983 23851 10751; CA 10752 10751 10750; CX 10750 23851 23852;
  CX 23915 23852 2107; CX 2107 16985 23727; CX 23979 23852 10749; CX 16984 23852 10748; CA 10749 10748 10747; CX 10747 23852 23853; CX 23916 23853 2106; CX 2106 16986 23728;
  CX 23980 23853 10746; CX 16985 23853 10745; CA 10746 10745 10744; CX 10744 23853 23854; CX 23917 23854 2105; CX 2105 16987 23729; CX 23981 23854 10743; CX 16986 23854 10742;
  CA 10743 10742 10741; CX 10741 23854 23855; CX 23918 23855 2104; CX 2104 16988 23730; CX 23982 23855 10740; CX 16987 23855 10739; CA 10740 10739 10738; CX 10738 23855 23856;
  CX 23919 23856 2103; CX 2103 16989 23731; CX 23983 23856 10737; CX 16988 23856 10736; CA 10737 10736 10735; CX 10735 23856 23857; CX 23920 23857 2102; CX 2102 16990 23732;
  CX 23984 23857 10734; CX 16989 23857 10733; CA 10734 10733 10732; CX 10732 23857 23858; CX 23921 23858 2101; CX 2101 16991 23733; CX 23985 23858 10731; CX 16990 23858 10730;
  CA 10731 10730 10729; CX 10729 23858 23859; CX 23922 23859 2100; CX 2100 16992 23734; CX 23986 23859 10728; CX 16991 23859 10727; CA 10728 10727 10726; CX 10726 23859 23860;
  CX 23923 23860 2099; CX 2099 16993 23735; CX 23987 23860 10725; CX 16992 23860 10724; CA 10725 10724 10723; CX 10723 23860 23861; CX 23924 23861 2098; CX 2098 16994 23736;
  CX 23988 23861 10722; CX 16993 23861 10721; CA 10722 10721 10720; CX 10720 23861 23862; CX 23925 23862 2097; CX 2097 16995 23737; CX 23989 23862 10719; CX 16994 23862 10718;
  CA 10719 10718 10717; CX 10717 23862 23863; CX 23926 23863 2096; CX 2096 16996 23738; CX 23990 23863 10716; CX 16995 23863 10715; CA 10716 10715 10714; CX 10714 23863 23864;
  CX 23927 23864 2095; CX 2095 16997 23739; CX 23991 23864 10713; CX 16996 23864 10712; CA 10713 10712 10711; CX 10711 23864 23865; CX 23928 23865 2094; CX 2094 16998 23740;
  CX 23992 23865 10710; CX 16997 23865 10709; CA 10710 10709 10708; CX 10708 23865 23866; CX 23929 23866 2093; CX 2093 16999 23741; CX 23993 23866 10707; CX 16998 23866 10706;
  CA 10707 10706 10705; CX 10705 23866 23867; CX 23930 23867 2092; CX 2092 17000 23742; CX 23994 23867 10704; CX 16999 23867 10703; CA 10704 10703 10702; CX 10702 23867 23868;
  CX 23931 23868 2091; CX 2091 17001 23743; CX 23995 23868 10701; CX 17000 23868 10700; CA 10701 10700 10699; CX 10699 23868 23869; CX 23932 23869 2090; CX 2090 17002 23744;
  CX 23996 23869 10698; CX 17001 23869 10697; CA 10698 10697 10696; CX 10696 23869 23870; CX 23933 23870 2089; CX 2089 17003 23745; CX 23997 23870 10695; CX 17002 23870 10694;
  CA 10695 10694 10693; CX 10693 23870 23871; CX 23934 23871 2088; CX 2088 17004 23746; CX 23998 23871 10692; CX 17003 23871 10691; CA 10692 10691 10690; CX 10690 23871 23872;
  CX 23935 23872 2087; CX 2087 17005 23747; CX 23999 23872 10689; CX 17004 23872 10688; CA 10689 10688 10687; CX 10687 23872 23873; CX 23936 23873 2086; CX 2086 17006 23748;
  CX 24000 23873 10686; CX 17005 23873 10685; CA 10686 10685 10684; CX 10684 23873 23874; CX 23937 23874 2085; CX 2085 17007 23749; CX 24001 23874 10683; CX 17006 23874 10682;
  CA 10683 10682 10681; CX 10681 23874 23875; CX 23938 23875 2084; CX 2084 17008 23750; CX 24002 23875 10680; CX 17007 23875 10679; CA 10680 10679 10678; CX 10678 23875 23876;
  CX 23939 23876 2083; CX 2083 17009 23751; CX 24003 23876 10677; CX 17008 23876 10676; CA 10677 10676 10675; CX 10675 23876 23877; CX 23940 23877 160; CI 160 16662;
  CX 2096 16662 23802; CX 2095 16662 23803; CX 2094 16662 23804; CX 2093 16662 23805; CX 2092 16662 23806; CX 2091 16662 23807; CX 2090 16662 23808; CX 2089 16662 23809;
  CX 2088 16662 23810; CX 2087 16662 23811; CX 2086 16662 23812; CX 2085 16662 23813; CX 2084 16662 23814; CX 2145 16662 23753; CX 2139 16662 23759; CX 2133 16662 23765;
  CX 2127 16662 23771; CX 2121 16662 23777; CX 2115 16662 23783; CX 2109 16662 23789; CX 2103 16662 23795; CX 16851 16662 23752; CA 23752 16946 23626; CX 23689 23626 2207;
  CX 23753 23626 10674; CX 16947 23626 10673; CA 10674 10673 10672; CX 10672 23626 23627; CX 23690 23627 2206; CX 16948 23627 10670; CX 2207 16948 23501; CX 2206 16949 23502].
(** Lines 15205-15604 of the file. *)
Definition divide64_38 : list cg := [
  CX 2141 16662 23757; CX 2142 16662 23756; CX 2144 16662 23754; CX 23754 23627 10671; CA 10671 10670 10669; CX 10669 23627 23628; CX 23691 23628 2205; CX 16949 23628 10667;
  CX 2205 16950 23503; CX 2143 16662 23755; CX 23755 23628 10668; CA 10668 10667 10666; CX 10666 23628 23629; CX 23692 23629 2204; CX 23756 23629 10665; CX 16950 23629 10664;
  CA 10665 10664 10663; CX 10663 23629 23630; CX 23693 23630 2203; CX 23757 23630 10662; CX 16951 23630 10661; CA 10662 10661 10660; CX 10660 23630 23631; CX 23694 23631 2202;
  CX 16952 23631 10658; CX 2204 16951 23504; CX 2203 16952 23505; CX 2202 16953 23506; CX 2140 16662 23758; CX 23758 23631 10659; CA 10659 10658 10657; CX 10657 23631 23632;
  CX 23695 23632 2201; CX 23759 23632 10656; CX 16953 23632 10655; CA 10656 10655 10654; CX 10654 23632 23633; CX 23696 23633 2200; CX 16954 23633 10652; CX 2201 16954 23507;
  CX 2200 16955 23508; CX 2135 16662 23763; CX 2136 16662 23762; CX 2138 16662 23760; CX 23760 23633 10653; CA 10653 10652 10651; CX 10651 23633 23634; CX 23697 23634 2199;
  CX 16955 23634 10649; CX 2199 16956 23509; CX 2137 16662 23761; CX 23761 23634 10650; CA 10650 10649 10648; CX 10648 23634 23635; CX 23698 23635 2198; CX 23762 23635 10647;
  CX 16956 23635 10646; CA 10647 10646 10645; CX 10645 23635 23636; CX 23699 23636 2197; CX 23763 23636 10644; CX 16957 23636 10643; CA 10644 10643 10642; CX 10642 23636 23637;
  CX 23700 23637 2196; CX 16958 23637 10640; CX 2198 16957 23510; CX 2197 16958 23511; CX 2196 16959 23512; CX 2134 16662 23764; CX 23764 23637 10641; CA 10641 10640 10639;
  CX 10639 23637 23638; CX 23701 23638 2195; CX 23765 23638 10638; CX 16959 23638 10637; CA 10638 10637 10636; CX 10636 23638 23639; CX 23702 23639 2194; CX 16960 23639 10634;
  CX 2195 16960 23513; CX 2194 16961 23514; CX 2129 16662 23769; CX 2130 16662 23768; CX 2132 16662 23766; CX 23766 23639 10635; CA 10635 10634 10633; CX 10633 23639 23640;
  CX 23703 23640 2193; CX 16961 23640 10631; CX 2193 16962 23515; CX 2131 16662 23767; CX 23767 23640 10632; CA 10632 10631 10630; CX 10630 23640 23641; CX 23704 23641 2192;
  CX 23768 23641 10629; CX 16962 23641 10628; CA 10629 10628 10627; CX 10627 23641 23642; CX 23705 23642 2191; CX 23769 23642 10626; CX 16963 23642 10625; CA 10626 10625 10624;
  CX 10624 23642 23643; CX 23706 23643 2190; CX 16964 23643 10622; CX 2192 16963 23516; CX 2191 16964 23517; CX 2190 16965 23518; CX 2128 16662 23770; CX 23770 23643 10623;
  CA 10623 10622 10621; CX 10621 23643 23644; CX 23707 23644 2189; CX 23771 23644 10620; CX 16965 23644 10619; CA 10620 10619 10618; CX 10618 23644 23645; CX 23708 23645 2188;
  CX 16966 23645 10616; CX 2189 16966 23519; CX 2188 16967 23520; CX 2123 16662 23775; CX 2124 16662 23774; CX 2126 16662 23772; CX 23772 23645 10617; CA 10617 10616 10615;
  CX 10615 23645 23646; CX 23709 23646 2187; CX 16967 23646 10613; CX 2187 16968 23521; CX 2125 16662 23773; CX 23773 23646 10614; CA 10614 10613 10612; CX 10612 23646 23647;
  CX 23710 23647 2186; CX 23774 23647 10611; CX 16968 23647 10610; CA 10611 10610 10609; CX 10609 23647 23648; CX 23711 23648 2185; CX 23775 23648 10608; CX 16969 23648 10607;
  CA 10608 10607 10606; CX 10606 23648 23649; CX 23712 23649 2184; CX 16970 23649 10604; CX 2186 16969 23522; CX 2185 16970 23523; CX 2184 16971 23524; CX 2122 16662 23776;
  CX 23776 23649 10605; CA 10605 10604 10603; CX 10603 23649 23650; CX 23713 23650 2183; CX 23777 23650 10602; CX 16971 23650 10601; CA 10602 10601 10600; CX 10600 23650 23651;
  CX 23714 23651 2182; CX 16972 23651 10598; CX 2183 16972 23525; CX 2182 16973 23526; CX 2117 16662 23781; CX 2118 16662 23780; CX 2120 16662 23778; CX 23778 23651 10599;
  CA 10599 10598 10597; CX 10597 23651 23652; CX 23715 23652 2181; CX 16973 23652 10595; CX 2181 16974 23527; CX 2119 16662 23779; CX 23779 23652 10596; CA 10596 10595 10594;
  CX 10594 23652 23653; CX 23716 23653 2180; CX 23780 23653 10593; CX 16974 23653 10592; CA 10593 10592 10591; CX 10591 23653 23654; CX 23717 23654 2179; CX 23781 23654 10590;
  CX 16975 23654 10589; CA 10590 10589 10588; CX 10588 23654 23655; CX 23718 23655 2178; CX 16976 23655 10586; CX 2180 16975 23528; CX 2179 16976 23529; CX 2178 16977 23530;
  CX 2116 16662 23782; CX 23782 23655 10587; CA 10587 10586 10585; CX 10585 23655 23656; CX 23719 23656 2177; CX 23783 23656 10584; CX 16977 23656 10583; CA 10584 10583 10582;
  CX 10582 23656 23657; CX 23720 23657 2176; CX 16978 23657 10580; CX 2177 16978 23531; CX 2176 16979 23532; CX 2111 16662 23787; CX 2112 16662 23786; CX 2114 16662 23784;
  CX 23784 23657 10581; CA 10581 10580 10579; CX 10579 23657 23658; CX 16979 23658 10577; CX 23721 23658 2175; CX 2175 16980 23533; CX 2113 16662 23785; CX 23785 23658 10578;
  CA 10578 10577 10576; CX 10576 23658 23659; CX 16980 23659 10574; CX 23722 23659 2174; CX 2174 16981 23534; CX 23786 23659 10575; CA 10575 10574 10573; CX 10573 23659 23660;
  CX 23723 23660 2173; CX 16981 23660 10571; CX 2173 16982 23535; CX 23787 23660 10572; CA 10572 10571 10570; CX 10570 23660 23661; CX 16982 23661 10568; CX 23724 23661 2172;
  CX 2172 16983 23536; CX 2110 16662 23788; CX 23788 23661 10569; CA 10569 10568 10567; CX 10567 23661 23662; CX 16983 23662 10565; CX 23725 23662 2171; CX 2171 16984 23537;
  CX 23789 23662 10566; CA 10566 10565 10564; CX 10564 23662 23663; CX 16984 23663 10562; CX 23726 23663 2170; CX 2170 16985 23538; CX 2105 16662 23793; CX 2106 16662 23792;
  CX 2108 16662 23790; CX 23790 23663 10563; CA 10563 10562 10561; CX 10561 23663 23664; CX 23727 23664 2169; CX 2169 16986 23539; CX 16985 23664 10559; CX 2107 16662 23791;
  CX 23791 23664 10560; CA 10560 10559 10558; CX 10558 23664 23665; CX 23728 23665 2168; CX 16986 23665 10556; CX 2168 16987 23540; CX 23792 23665 10557; CA 10557 10556 10555;
  CX 10555 23665 23666; CX 23793 23666 10554; CX 16987 23666 10553; CX 23729 23666 2167; CX 2167 16988 23541; CA 10554 10553 10552; CX 10552 23666 23667; CX 23730 23667 2166;
  CX 2166 16989 23542; CX 16988 23667 10550; CX 2104 16662 23794; CX 23794 23667 10551; CA 10551 10550 10549; CX 10549 23667 23668; CX 23795 23668 10548; CX 23731 23668 2165;
  CX 16989 23668 10547; CA 10548 10547 10546; CX 10546 23668 23669; CX 16990 23669 10544; CX 23732 23669 2164; CX 2165 16990 23543; CX 2164 16991 23544; CX 2099 16662 23799;
  CX 2100 16662 23798; CX 2102 16662 23796; CX 23796 23669 10545; CA 10545 10544 10543; CX 10543 23669 23670; CX 23733 23670 2163; CX 2163 16992 23545; CX 16991 23670 10541;
  CX 2101 16662 23797; CX 23797 23670 10542; CA 10542 10541 10540; CX 10540 23670 23671; CX 23734 23671 2162; CX 2162 16993 23546; CX 16992 23671 10538; CX 23798 23671 10539;
  CA 10539 10538 10537; CX 10537 23671 23672; CX 23799 23672 10536; CX 16993 23672 10535; CA 10536 10535 10534; CX 10534 23672 23673; CX 23736 23673 2160; CX 23735 23672 2161;
  CX 16994 23673 10532; CX 2161 16994 23547; CX 2160 16995 23548; CX 2098 16662 23800; CX 23800 23673 10533; CA 10533 10532 10531; CX 10531 23673 23674; CX 23737 23674 2159;
  CX 2159 16996 23549; CX 16995 23674 10529; CA 16662 4535 17546; CX 2097 16662 23801; CX 23801 23674 10530; CA 10530 10529 10528; CX 10528 23674 23675; CX 23802 23675 10527;
  CX 23738 23675 2158; CX 2158 16997 23550; CX 16996 23675 10526; CA 10527 10526 10525; CX 10525 23675 23676; CX 16997 23676 10523; CX 23803 23676 10524; CA 10524 10523 10522;
  CX 10522 23676 23677; CX 16998 23677 10520; CX 23740 23677 2156; CX 2156 16999 23552; CX 23804 23677 10521; CA 10521 10520 10519; CX 10519 23677 23678; CX 23805 23678 10518;
  CX 16999 23678 10517; CA 10518 10517 10516; CX 23741 23678 2155; CX 10516 23678 23679; CX 23742 23679 2154; CX 23806 23679 10515; CX 2154 17001 23554; CX 2155 17000 23553;
  CX 23739 23676 2157; CX 2157 16998 23551; CX 17000 23679 10514; CA 10515 10514 10513; CX 10513 23679 23680; CX 23743 23680 2153; CX 23807 23680 10512; CX 17001 23680 10511;
  CA 10512 10511 10510; CX 10510 23680 23681; CX 2153 17002 23555; CX 23744 23681 2152; CX 2152 17003 23556; CX 17002 23681 10508; CX 23808 23681 10509; CA 10509 10508 10507;
  CX 10507 23681 23682; CX 23809 23682 10506; CX 17003 23682 10505; CA 10506 10505 10504; CX 10504 23682 23683; CX 17004 23683 10502; CX 23746 23683 2150; CX 2150 17005 23558;
  CX 23810 23683 10503; CA 10503 10502 10501; CX 10501 23683 23684; CX 23811 23684 10500; CX 23747 23684 2149; CX 2149 17006 23559; CX 17005 23684 10499; CA 10500 10499 10498;
  CX 10498 23684 23685; CX 17006 23685 10496; CX 23812 23685 10497; CA 10497 10496 10495; CX 10495 23685 23686; CX 23749 23686 2147; CX 23813 23686 10494; CX 17007 23686 10493;
  CA 10494 10493 10492; CX 10492 23686 23687; CX 17008 23687 10490; CX 23750 23687 2146; CX 2147 17008 23561; CX 2146 17009 23562; CX 23748 23685 2148; CX 2148 17007 23560].
(** Lines 15605-16004 of the file. *)
Definition divide64_39 : list cg := [
  CX 23745 23682 2151; CX 2151 17004 23557; CX 23814 23687 10491; CA 10491 10490 10489; CX 10489 23687 23688; CX 23751 23688 161; CI 161 16661; CX 2158 16661 23614;
  CX 2157 16661 23615; CX 2156 16661 23616; CX 2208 16661 23564; CX 2202 16661 23570; CX 2196 16661 23576; CX 2190 16661 23582; CX 2184 16661 23588; CX 2178 16661 23594;
  CX 2172 16661 23600; CX 2166 16661 23606; CX 2153 16661 23619; CX 2151 16661 23621; CX 2154 16661 23618; CX 2152 16661 23620; CX 2150 16661 23622; CX 2149 16661 23623;
  CX 16850 16661 23563; CA 23563 16946 23437; CX 16947 23437 10487; CX 23564 23437 10488; CA 10488 10487 10486; CX 10486 23437 23438; CX 23501 23438 2269; CX 16948 23438 10484;
  CX 23500 23437 2270; CX 2270 16948 23312; CX 2269 16949 23313; CX 2204 16661 23568; CX 2205 16661 23567; CX 2207 16661 23565; CX 23565 23438 10485; CA 10485 10484 10483;
  CX 10483 23438 23439; CX 23502 23439 2268; CX 16949 23439 10481; CX 2268 16950 23314; CX 2206 16661 23566; CX 23566 23439 10482; CA 10482 10481 10480; CX 10480 23439 23440;
  CX 23503 23440 2267; CX 16950 23440 10478; CX 23567 23440 10479; CA 10479 10478 10477; CX 10477 23440 23441; CX 23504 23441 2266; CX 23568 23441 10476; CX 16951 23441 10475;
  CA 10476 10475 10474; CX 10474 23441 23442; CX 23505 23442 2265; CX 16952 23442 10472; CX 2267 16951 23315; CX 2266 16952 23316; CX 2265 16953 23317; CX 2203 16661 23569;
  CX 23569 23442 10473; CA 10473 10472 10471; CX 10471 23442 23443; CX 16953 23443 10469; CX 23570 23443 10470; CA 10470 10469 10468; CX 10468 23443 23444; CX 23507 23444 2263;
  CX 16954 23444 10466; CX 23506 23443 2264; CX 2264 16954 23318; CX 2263 16955 23319; CX 2198 16661 23574; CX 2199 16661 23573; CX 2201 16661 23571; CX 23571 23444 10467;
  CA 10467 10466 10465; CX 10465 23444 23445; CX 23508 23445 2262; CX 16955 23445 10463; CX 2262 16956 23320; CX 2200 16661 23572; CX 23572 23445 10464; CA 10464 10463 10462;
  CX 10462 23445 23446; CX 23509 23446 2261; CX 16956 23446 10460; CX 23573 23446 10461; CA 10461 10460 10459; CX 10459 23446 23447; CX 23510 23447 2260; CX 23574 23447 10458;
  CX 16957 23447 10457; CA 10458 10457 10456; CX 10456 23447 23448; CX 23511 23448 2259; CX 16958 23448 10454; CX 2261 16957 23321; CX 2260 16958 23322; CX 2259 16959 23323;
  CX 2197 16661 23575; CX 23575 23448 10455; CA 10455 10454 10453; CX 10453 23448 23449; CX 16959 23449 10451; CX 23576 23449 10452; CA 10452 10451 10450; CX 10450 23449 23450;
  CX 23513 23450 2257; CX 16960 23450 10448; CX 23512 23449 2258; CX 2258 16960 23324; CX 2257 16961 23325; CX 2192 16661 23580; CX 2193 16661 23579; CX 2195 16661 23577;
  CX 23577 23450 10449; CA 10449 10448 10447; CX 10447 23450 23451; CX 23514 23451 2256; CX 16961 23451 10445; CX 2256 16962 23326; CX 2194 16661 23578; CX 23578 23451 10446;
  CA 10446 10445 10444; CX 10444 23451 23452; CX 23579 23452 10443; CX 23515 23452 2255; CX 16962 23452 10442; CA 10443 10442 10441; CX 10441 23452 23453; CX 23516 23453 2254;
  CX 23580 23453 10440; CX 16963 23453 10439; CA 10440 10439 10438; CX 10438 23453 23454; CX 23517 23454 2253; CX 16964 23454 10436; CX 2255 16963 23327; CX 2254 16964 23328;
  CX 2253 16965 23329; CX 2191 16661 23581; CX 23581 23454 10437; CA 10437 10436 10435; CX 10435 23454 23455; CX 16965 23455 10433; CX 23582 23455 10434; CA 10434 10433 10432;
  CX 10432 23455 23456; CX 23519 23456 2251; CX 16966 23456 10430; CX 23518 23455 2252; CX 2252 16966 23330; CX 2251 16967 23331; CX 2186 16661 23586; CX 2187 16661 23585;
  CX 2189 16661 23583; CX 23583 23456 10431; CA 10431 10430 10429; CX 10429 23456 23457; CX 23520 23457 2250; CX 16967 23457 10427; CX 2250 16968 23332; CX 2188 16661 23584;
  CX 23584 23457 10428; CA 10428 10427 10426; CX 10426 23457 23458; CX 23521 23458 2249; CX 16968 23458 10424; CX 2249 16969 23333; CX 23585 23458 10425; CA 10425 10424 10423;
  CX 10423 23458 23459; CX 23522 23459 2248; CX 23586 23459 10422; CX 16969 23459 10421; CA 10422 10421 10420; CX 10420 23459 23460; CX 23523 23460 2247; CX 16970 23460 10418;
  CX 2248 16970 23334; CX 2247 16971 23335; CX 2185 16661 23587; CX 23587 23460 10419; CA 10419 10418 10417; CX 10417 23460 23461; CX 16971 23461 10415; CX 23588 23461 10416;
  CA 10416 10415 10414; CX 10414 23461 23462; CX 23525 23462 2245; CX 16972 23462 10412; CX 23524 23461 2246; CX 2246 16972 23336; CX 2245 16973 23337; CX 2180 16661 23592;
  CX 2181 16661 23591; CX 2183 16661 23589; CX 23589 23462 10413; CA 10413 10412 10411; CX 10411 23462 23463; CX 16973 23463 10409; CX 23526 23463 2244; CX 2244 16974 23338;
  CX 2182 16661 23590; CX 23590 23463 10410; CA 10410 10409 10408; CX 10408 23463 23464; CX 16974 23464 10406; CX 23591 23464 10407; CA 10407 10406 10405; CX 23527 23464 2243;
  CX 2243 16975 23339; CX 10405 23464 23465; CX 16975 23465 10403; CX 23528 23465 2242; CX 23592 23465 10404; CX 2242 16976 23340; CA 10404 10403 10402; CX 10402 23465 23466;
  CX 23529 23466 2241; CX 16976 23466 10400; CX 2241 16977 23341; CX 2179 16661 23593; CX 23593 23466 10401; CA 10401 10400 10399; CX 10399 23466 23467; CX 23530 23467 2240;
  CX 16977 23467 10397; CX 2240 16978 23342; CX 23594 23467 10398; CA 10398 10397 10396; CX 10396 23467 23468; CX 23531 23468 2239; CX 2239 16979 23343; CX 16978 23468 10394;
  CX 2174 16661 23598; CX 2175 16661 23597; CX 2177 16661 23595; CX 23595 23468 10395; CA 10395 10394 10393; CX 10393 23468 23469; CX 23532 23469 2238; CX 2238 16980 23344;
  CX 16979 23469 10391; CX 2176 16661 23596; CX 23596 23469 10392; CA 10392 10391 10390; CX 10390 23469 23470; CX 23597 23470 10389; CX 23533 23470 2237; CX 16980 23470 10388;
  CA 10389 10388 10387; CX 10387 23470 23471; CX 2237 16981 23345; CX 16981 23471 10385; CX 23534 23471 2236; CX 2236 16982 23346; CX 23598 23471 10386; CA 10386 10385 10384;
  CX 10384 23471 23472; CX 16982 23472 10382; CX 23535 23472 2235; CX 2235 16983 23347; CX 2173 16661 23599; CX 23599 23472 10383; CA 10383 10382 10381; CX 10381 23472 23473;
  CX 23536 23473 2234; CX 16983 23473 10379; CX 23600 23473 10380; CX 2234 16984 23348; CA 10380 10379 10378; CX 10378 23473 23474; CX 16984 23474 10376; CX 23537 23474 2233;
  CX 2233 16985 23349; CX 2168 16661 23604; CX 2169 16661 23603; CX 2171 16661 23601; CX 23601 23474 10377; CA 10377 10376 10375; CX 10375 23474 23475; CX 23538 23475 2232;
  CX 2232 16986 23350; CX 16985 23475 10373; CX 2170 16661 23602; CX 23602 23475 10374; CA 10374 10373 10372; CX 10372 23475 23476; CX 16986 23476 10370; CX 23603 23476 10371;
  CX 23539 23476 2231; CX 2231 16987 23351; CA 10371 10370 10369; CX 10369 23476 23477; CX 23604 23477 10368; CX 16987 23477 10367; CX 23540 23477 2230; CA 10368 10367 10366;
  CX 2230 16988 23352; CX 10366 23477 23478; CX 16988 23478 10364; CX 23541 23478 2229; CX 2229 16989 23353; CX 2167 16661 23605; CX 23605 23478 10365; CA 10365 10364 10363;
  CX 10363 23478 23479; CX 23606 23479 10362; CX 23542 23479 2228; CX 16989 23479 10361; CA 10362 10361 10360; CX 10360 23479 23480; CX 23543 23480 2227; CX 2228 16990 23354;
  CX 2227 16991 23355; CX 16990 23480 10358; CX 2162 16661 23610; CX 2163 16661 23609; CX 2165 16661 23607; CX 23607 23480 10359; CA 10359 10358 10357; CX 10357 23480 23481;
  CX 16991 23481 10355; CX 23544 23481 2226; CX 2226 16992 23356; CX 2164 16661 23608; CX 23608 23481 10356; CA 10356 10355 10354; CX 10354 23481 23482; CX 23609 23482 10353;
  CX 16992 23482 10352; CA 10353 10352 10351; CX 10351 23482 23483; CX 16993 23483 10349; CX 23546 23483 2224; CX 2224 16994 23358; CX 23545 23482 2225; CX 2225 16993 23357;
  CX 23610 23483 10350; CA 10350 10349 10348; CX 10348 23483 23484; CX 16994 23484 10346; CX 23547 23484 2223; CX 2223 16995 23359; CX 2161 16661 23611; CX 23611 23484 10347;
  CA 10347 10346 10345; CX 10345 23484 23485; CX 23548 23485 2222; CX 16995 23485 10343; CX 2222 16996 23360; CX 2160 16661 23612; CX 23612 23485 10344; CA 10344 10343 10342;
  CX 10342 23485 23486; CX 23549 23486 2221; CX 16996 23486 10340; CX 2221 16997 23361; CA 16661 4535 17545; CX 2147 16661 23625; CX 2155 16661 23617; CX 2148 16661 23624;
  CX 2159 16661 23613; CX 23613 23486 10341; CA 10341 10340 10339; CX 10339 23486 23487; CX 23550 23487 2220; CX 2220 16998 23362; CX 23614 23487 10338; CX 16997 23487 10337;
  CA 10338 10337 10336; CX 10336 23487 23488; CX 16998 23488 10334; CX 23615 23488 10335; CA 10335 10334 10333; CX 10333 23488 23489; CX 23552 23489 2218; CX 23616 23489 10332;
  CX 2218 17000 23364; CX 16999 23489 10331; CA 10332 10331 10330; CX 10330 23489 23490; CX 23617 23490 10329; CX 23553 23490 2217; CX 17000 23490 10328; CA 10329 10328 10327;
  CX 10327 23490 23491; CX 23554 23491 2216; CX 2216 17002 23366; CX 2217 17001 23365; CX 17001 23491 10325; CX 23551 23488 2219; CX 2219 16999 23363; CX 23618 23491 10326].
(** Lines 16005-16404 of the file. *)
Definition divide64_40 : list cg := [
  CA 10326 10325 10324; CX 10324 23491 23492; CX 23555 23492 2215; CX 17002 23492 10322; CX 2215 17003 23367; CX 23619 23492 10323; CA 10323 10322 10321; CX 10321 23492 23493;
  CX 17003 23493 10319; CX 23620 23493 10320; CX 23556 23493 2214; CX 2214 17004 23368; CA 10320 10319 10318; CX 10318 23493 23494; CX 23621 23494 10317; CX 17004 23494 10316;
  CA 10317 10316 10315; CX 23557 23494 2213; CX 2213 17005 23369; CX 10315 23494 23495; CX 23558 23495 2212; CX 17005 23495 10313; CX 2212 17006 23370; CX 23622 23495 10314;
  CA 10314 10313 10312; CX 10312 23495 23496; CX 23559 23496 2211; CX 23623 23496 10311; CX 2211 17007 23371; CX 17006 23496 10310; CA 10311 10310 10309; CX 10309 23496 23497;
  CX 23560 23497 2210; CX 2210 17008 23372; CX 17007 23497 10307; CX 23624 23497 10308; CA 10308 10307 10306; CX 10306 23497 23498; CX 23625 23498 10305; CX 17008 23498 10304;
  CX 23561 23498 2209; CX 2209 17009 23373; CA 10305 10304 10303; CX 10303 23498 23499; CX 23562 23499 162; CI 162 16660; CX 2210 16660 23436; CX 2214 16660 23432;
  CX 2270 16660 23376; CX 2264 16660 23382; CX 2258 16660 23388; CX 2252 16660 23394; CX 2246 16660 23400; CX 2240 16660 23406; CX 2234 16660 23412; CX 2228 16660 23418;
  CX 2219 16660 23427; CX 2213 16660 23433; CX 2215 16660 23431; CX 2221 16660 23425; CX 2211 16660 23435; CX 2212 16660 23434; CX 2220 16660 23426; CX 2218 16660 23428;
  CX 2216 16660 23430; CX 2217 16660 23429; CX 16849 16660 23374; CA 23374 16946 23248; CX 16947 23248 10301; CX 23311 23248 2333; CX 2333 16948 23123; CX 2271 16660 23375;
  CX 23375 23248 10302; CA 10302 10301 10300; CX 10300 23248 23249; CX 23312 23249 2332; CX 16948 23249 10298; CX 23376 23249 10299; CA 10299 10298 10297; CX 10297 23249 23250;
  CX 23313 23250 2331; CX 16949 23250 10295; CX 2332 16949 23124; CX 2331 16950 23125; CX 2266 16660 23380; CX 2267 16660 23379; CX 2269 16660 23377; CX 23377 23250 10296;
  CA 10296 10295 10294; CX 10294 23250 23251; CX 23314 23251 2330; CX 16950 23251 10292; CX 2330 16951 23126; CX 2268 16660 23378; CX 23378 23251 10293; CA 10293 10292 10291;
  CX 10291 23251 23252; CX 23315 23252 2329; CX 23379 23252 10290; CX 16951 23252 10289; CA 10290 10289 10288; CX 10288 23252 23253; CX 23380 23253 10287; CX 23316 23253 2328;
  CX 16952 23253 10286; CA 10287 10286 10285; CX 10285 23253 23254; CX 16953 23254 10283; CX 23317 23254 2327; CX 2329 16952 23127; CX 2328 16953 23128; CX 2327 16954 23129;
  CX 2265 16660 23381; CX 23381 23254 10284; CA 10284 10283 10282; CX 10282 23254 23255; CX 23318 23255 2326; CX 16954 23255 10280; CX 23382 23255 10281; CA 10281 10280 10279;
  CX 10279 23255 23256; CX 23319 23256 2325; CX 16955 23256 10277; CX 2326 16955 23130; CX 2325 16956 23131; CX 2260 16660 23386; CX 2261 16660 23385; CX 2263 16660 23383;
  CX 23383 23256 10278; CA 10278 10277 10276; CX 10276 23256 23257; CX 23320 23257 2324; CX 16956 23257 10274; CX 2324 16957 23132; CX 2262 16660 23384; CX 23384 23257 10275;
  CA 10275 10274 10273; CX 10273 23257 23258; CX 23321 23258 2323; CX 23385 23258 10272; CX 2323 16958 23133; CX 2259 16660 23387; CX 2254 16660 23392; CX 2255 16660 23391;
  CX 2257 16660 23389; CX 2256 16660 23390; CX 2253 16660 23393; CX 2248 16660 23398; CX 2249 16660 23397; CX 2251 16660 23395; CX 2250 16660 23396; CX 2247 16660 23399;
  CX 2242 16660 23404; CX 2243 16660 23403; CX 2245 16660 23401; CX 2244 16660 23402; CX 2241 16660 23405; CX 2236 16660 23410; CX 2237 16660 23409; CX 2239 16660 23407;
  CX 2238 16660 23408; CX 2235 16660 23411; CX 2230 16660 23416; CX 2231 16660 23415; CX 2233 16660 23413; CX 2232 16660 23414; CX 2229 16660 23417; CX 2224 16660 23422;
  CX 2225 16660 23421; CX 2227 16660 23419; CX 2226 16660 23420; CX 2223 16660 23423; CA 16660 4535 17544; CX 16957 23258 10271; CA 10272 10271 10270; CX 10270 23258 23259;
  CX 23386 23259 10269; CX 23322 23259 2322; CX 16958 23259 10268; CA 10269 10268 10267; CX 10267 23259 23260; CX 16959 23260 10265; CX 23387 23260 10266; CA 10266 10265 10264;
  CX 10264 23260 23261; CX 23324 23261 2320; CX 16960 23261 10262; CX 23388 23261 10263; CA 10263 10262 10261; CX 23323 23260 2321; CX 10261 23261 23262; CX 23389 23262 10260;
  CX 16961 23262 10259; CX 23325 23262 2319; CA 10260 10259 10258; CX 10258 23262 23263; CX 23326 23263 2318; CX 16962 23263 10256; CX 23390 23263 10257; CA 10257 10256 10255;
  CX 10255 23263 23264; CX 23327 23264 2317; CX 23391 23264 10254; CX 16963 23264 10253; CA 10254 10253 10252; CX 10252 23264 23265; CX 23328 23265 2316; CX 16964 23265 10250;
  CX 23392 23265 10251; CA 10251 10250 10249; CX 10249 23265 23266; CX 23393 23266 10248; CX 16965 23266 10247; CA 10248 10247 10246; CX 10246 23266 23267; CX 16966 23267 10244;
  CX 23394 23267 10245; CA 10245 10244 10243; CX 10243 23267 23268; CX 23395 23268 10242; CX 16967 23268 10241; CA 10242 10241 10240; CX 10240 23268 23269; CX 16968 23269 10238;
  CX 23332 23269 2312; CX 23331 23268 2313; CX 23396 23269 10239; CA 10239 10238 10237; CX 10237 23269 23270; CX 23397 23270 10236; CX 16969 23270 10235; CX 23333 23270 2311;
  CA 10236 10235 10234; CX 10234 23270 23271; CX 16970 23271 10232; CX 23398 23271 10233; CA 10233 10232 10231; CX 23334 23271 2310; CX 10231 23271 23272; CX 16971 23272 10229;
  CX 23399 23272 10230; CX 23335 23272 2309; CA 10230 10229 10228; CX 10228 23272 23273; CX 23336 23273 2308; CX 23400 23273 10227; CX 16972 23273 10226; CA 10227 10226 10225;
  CX 23330 23267 2314; CX 2322 16959 23134; CX 2321 16960 23135; CX 2320 16961 23136; CX 2319 16962 23137; CX 2318 16963 23138; CX 2317 16964 23139; CX 2316 16965 23140;
  CX 2314 16967 23142; CX 2313 16968 23143; CX 2312 16969 23144; CX 2311 16970 23145; CX 2310 16971 23146; CX 2309 16972 23147; CX 2308 16973 23148; CX 10225 23273 23274;
  CX 23337 23274 2307; CX 23401 23274 10224; CX 16973 23274 10223; CA 10224 10223 10222; CX 10222 23274 23275; CX 23338 23275 2306; CX 16974 23275 10220; CX 2307 16974 23149;
  CX 2306 16975 23150; CX 23402 23275 10221; CA 10221 10220 10219; CX 10219 23275 23276; CX 23339 23276 2305; CX 23403 23276 10218; CX 2305 16976 23151; CX 16975 23276 10217;
  CA 10218 10217 10216; CX 10216 23276 23277; CX 23404 23277 10215; CX 23340 23277 2304; CX 16976 23277 10214; CA 10215 10214 10213; CX 10213 23277 23278; CX 16977 23278 10211;
  CX 23405 23278 10212; CX 2304 16977 23152; CX 23341 23278 2303; CX 2303 16978 23153; CA 10212 10211 10210; CX 10210 23278 23279; CX 23406 23279 10209; CX 23342 23279 2302;
  CX 16978 23279 10208; CA 10209 10208 10207; CX 2302 16979 23154; CX 10207 23279 23280; CX 23343 23280 2301; CX 23407 23280 10206; CX 2301 16980 23155; CX 16979 23280 10205;
  CA 10206 10205 10204; CX 10204 23280 23281; CX 16980 23281 10202; CX 23344 23281 2300; CX 2300 16981 23156; CX 23408 23281 10203; CA 10203 10202 10201; CX 10201 23281 23282;
  CX 16981 23282 10199; CX 23345 23282 2299; CX 2299 16982 23157; CX 23409 23282 10200; CA 10200 10199 10198; CX 10198 23282 23283; CX 23410 23283 10197; CX 23346 23283 2298;
  CX 16982 23283 10196; CA 10197 10196 10195; CX 10195 23283 23284; CX 23347 23284 2297; CX 16983 23284 10193; CX 23411 23284 10194; CA 10194 10193 10192; CX 10192 23284 23285;
  CX 23412 23285 10191; CX 23348 23285 2296; CX 16984 23285 10190; CX 2298 16983 23158; CX 2297 16984 23159; CX 2296 16985 23160; CA 10191 10190 10189; CX 10189 23285 23286;
  CX 23413 23286 10188; CX 16985 23286 10187; CA 10188 10187 10186; CX 10186 23286 23287; CX 23414 23287 10185; CX 23350 23287 2294; CX 16986 23287 10184; CX 2294 16987 23162;
  CA 10185 10184 10183; CX 10183 23287 23288; CX 16987 23288 10181; CX 23415 23288 10182; CA 10182 10181 10180; CX 10180 23288 23289; CX 23416 23289 10179; CX 23352 23289 2292;
  CX 2292 16989 23164; CX 23351 23288 2293; CX 2293 16988 23163; CX 23349 23286 2295; CX 2295 16986 23161; CX 16988 23289 10178; CA 10179 10178 10177; CX 10177 23289 23290;
  CX 23353 23290 2291; CX 16989 23290 10175; CX 23417 23290 10176; CA 10176 10175 10174; CX 10174 23290 23291; CX 16990 23291 10172; CX 23418 23291 10173; CA 10173 10172 10171;
  CX 10171 23291 23292; CX 16991 23292 10169; CX 23419 23292 10170; CX 23354 23291 2290; CX 2291 16990 23165; CX 2290 16991 23166; CX 23355 23292 2289; CX 2289 16992 23167;
  CA 10170 10169 10168; CX 10168 23292 23293; CX 23420 23293 10167; CX 23356 23293 2288; CX 16992 23293 10166; CA 10167 10166 10165; CX 10165 23293 23294; CX 23357 23294 2287;
  CX 23421 23294 10164; CX 2288 16993 23168; CX 2287 16994 23169; CX 16993 23294 10163; CA 10164 10163 10162; CX 10162 23294 23295; CX 23422 23295 10161; CX 23358 23295 2286;
  CX 2286 16995 23170; CX 16994 23295 10160; CA 10161 10160 10159; CX 10159 23295 23296; CX 23359 23296 2285; CX 23423 23296 10158; CX 2285 16996 23171; CX 16995 23296 10157].
(** Lines 16405-16804 of the file. *)
Definition divide64_41 : list cg := [
  CA 10158 10157 10156; CX 10156 23296 23297; CX 16996 23297 10154; CX 23360 23297 2284; CX 2284 16997 23172; CX 23329 23266 2315; CX 2315 16966 23141; CX 2222 16660 23424;
  CX 23424 23297 10155; CA 10155 10154 10153; CX 10153 23297 23298; CX 16997 23298 10151; CX 23361 23298 2283; CX 2283 16998 23173; CX 23425 23298 10152; CA 10152 10151 10150;
  CX 10150 23298 23299; CX 16998 23299 10148; CX 23362 23299 2282; CX 2282 16999 23174; CX 23426 23299 10149; CA 10149 10148 10147; CX 10147 23299 23300; CX 16999 23300 10145;
  CX 23427 23300 10146; CA 10146 10145 10144; CX 10144 23300 23301; CX 17000 23301 10142; CX 23363 23300 2281; CX 2281 17000 23175; CX 23428 23301 10143; CA 10143 10142 10141;
  CX 10141 23301 23302; CX 17001 23302 10139; CX 23429 23302 10140; CX 23365 23302 2279; CA 10140 10139 10138; CX 10138 23302 23303; CX 17002 23303 10136; CX 23366 23303 2278;
  CX 2278 17003 23178; CX 2279 17002 23177; CX 23430 23303 10137; CA 10137 10136 10135; CX 10135 23303 23304; CX 23367 23304 2277; CX 23431 23304 10134; CX 17003 23304 10133;
  CX 2277 17004 23179; CX 23364 23301 2280; CX 2280 17001 23176; CA 10134 10133 10132; CX 10132 23304 23305; CX 17004 23305 10130; CX 23368 23305 2276; CX 2276 17005 23180;
  CX 23432 23305 10131; CA 10131 10130 10129; CX 10129 23305 23306; CX 23433 23306 10128; CX 17005 23306 10127; CA 10128 10127 10126; CX 23369 23306 2275; CX 2275 17006 23181;
  CX 10126 23306 23307; CX 23370 23307 2274; CX 23434 23307 10125; CX 17006 23307 10124; CA 10125 10124 10123; CX 10123 23307 23308; CX 17007 23308 10121; CX 23435 23308 10122;
  CA 10122 10121 10120; CX 2274 17007 23182; CX 23371 23308 2273; CX 2273 17008 23183; CX 10120 23308 23309; CX 17008 23309 10118; CX 23372 23309 2272; CX 2272 17009 23184;
  CX 23436 23309 10119; CA 10119 10118 10117; CX 10117 23309 23310; CX 23373 23310 163; CI 163 16659; CX 2282 16659 23238; CX 2274 16659 23246; CX 2280 16659 23240;
  CX 2333 16659 23187; CX 2327 16659 23193; CX 2321 16659 23199; CX 2315 16659 23205; CX 2309 16659 23211; CX 2303 16659 23217; CX 2297 16659 23223; CX 2291 16659 23229;
  CX 2278 16659 23242; CX 2277 16659 23243; CX 2273 16659 23247; CX 2281 16659 23239; CX 2283 16659 23237; CX 2276 16659 23244; CX 16848 16659 23185; CA 23185 16946 23059;
  CX 23122 23059 2396; CX 16947 23059 10115; CX 2396 16948 22934; CX 2334 16659 23186; CX 23186 23059 10116; CA 10116 10115 10114; CX 10114 23059 23060; CX 23123 23060 2395;
  CX 23187 23060 10113; CX 16948 23060 10112; CA 10113 10112 10111; CX 10111 23060 23061; CX 23124 23061 2394; CX 16949 23061 10109; CX 2395 16949 22935; CX 2394 16950 22936;
  CX 2329 16659 23191; CX 2330 16659 23190; CX 2332 16659 23188; CX 23188 23061 10110; CA 10110 10109 10108; CX 10108 23061 23062; CX 23125 23062 2393; CX 16950 23062 10106;
  CX 2393 16951 22937; CX 2331 16659 23189; CX 23189 23062 10107; CA 10107 10106 10105; CX 10105 23062 23063; CX 23190 23063 10104; CX 23126 23063 2392; CX 16951 23063 10103;
  CA 10104 10103 10102; CX 10102 23063 23064; CX 16952 23064 10100; CX 23191 23064 10101; CA 10101 10100 10099; CX 10099 23064 23065; CX 23128 23065 2390; CX 16953 23065 10097;
  CX 2392 16952 22938; CX 2390 16954 22940; CX 2328 16659 23192; CX 23192 23065 10098; CA 10098 10097 10096; CX 10096 23065 23066; CX 23129 23066 2389; CX 23193 23066 10095;
  CX 16954 23066 10094; CX 2389 16955 22941; CX 2323 16659 23197; CX 2324 16659 23196; CX 2326 16659 23194; CX 2325 16659 23195; CX 2322 16659 23198; CX 2317 16659 23203;
  CX 2318 16659 23202; CX 2320 16659 23200; CX 2319 16659 23201; CX 2316 16659 23204; CX 2311 16659 23209; CX 2312 16659 23208; CX 2314 16659 23206; CX 2313 16659 23207;
  CX 2310 16659 23210; CX 2305 16659 23215; CX 2306 16659 23214; CX 2308 16659 23212; CX 2307 16659 23213; CX 2304 16659 23216; CX 2299 16659 23221; CX 2300 16659 23220;
  CX 2302 16659 23218; CX 2301 16659 23219; CX 2298 16659 23222; CX 2293 16659 23227; CX 2294 16659 23226; CX 2296 16659 23224; CX 2295 16659 23225; CX 2292 16659 23228;
  CX 2287 16659 23233; CX 2288 16659 23232; CX 2290 16659 23230; CX 2289 16659 23231; CX 2286 16659 23234; CX 2285 16659 23235; CA 16659 4535 17543; CA 10095 10094 10093;
  CX 10093 23066 23067; CX 23130 23067 2388; CX 16955 23067 10091; CX 23194 23067 10092; CA 10092 10091 10090; CX 10090 23067 23068; CX 23131 23068 2387; CX 23195 23068 10089;
  CX 2388 16956 22942; CX 2387 16957 22943; CX 16956 23068 10088; CA 10089 10088 10087; CX 10087 23068 23069; CX 23196 23069 10086; CX 23132 23069 2386; CX 16957 23069 10085;
  CA 10086 10085 10084; CX 10084 23069 23070; CX 16958 23070 10082; CX 23197 23070 10083; CA 10083 10082 10081; CX 10081 23070 23071; CX 23134 23071 2384; CX 16959 23071 10079;
  CX 23198 23071 10080; CA 10080 10079 10078; CX 10078 23071 23072; CX 23135 23072 2383; CX 23199 23072 10077; CX 16960 23072 10076; CX 2386 16958 22944; CX 2384 16960 22946;
  CX 2383 16961 22947; CA 10077 10076 10075; CX 10075 23072 23073; CX 23136 23073 2382; CX 16961 23073 10073; CX 23200 23073 10074; CA 10074 10073 10072; CX 10072 23073 23074;
  CX 23137 23074 2381; CX 23201 23074 10071; CX 16962 23074 10070; CA 10071 10070 10069; CX 10069 23074 23075; CX 23202 23075 10068; CX 23138 23075 2380; CX 16963 23075 10067;
  CA 10068 10067 10066; CX 10066 23075 23076; CX 16964 23076 10064; CX 23203 23076 10065; CA 10065 10064 10063; CX 10063 23076 23077; CX 23140 23077 2378; CX 16965 23077 10061;
  CX 23204 23077 10062; CA 10062 10061 10060; CX 10060 23077 23078; CX 23141 23078 2377; CX 23205 23078 10059; CX 16966 23078 10058; CX 23139 23076 2379; CA 10059 10058 10057;
  CX 10057 23078 23079; CX 16967 23079 10055; CX 23206 23079 10056; CA 10056 10055 10054; CX 10054 23079 23080; CX 23143 23080 2375; CX 23207 23080 10053; CX 23142 23079 2376;
  CX 2382 16962 22948; CX 2381 16963 22949; CX 2380 16964 22950; CX 2379 16965 22951; CX 2378 16966 22952; CX 2377 16967 22953; CX 2376 16968 22954; CX 2375 16969 22955;
  CX 16968 23080 10052; CA 10053 10052 10051; CX 10051 23080 23081; CX 23208 23081 10050; CX 23144 23081 2374; CX 16969 23081 10049; CA 10050 10049 10048; CX 10048 23081 23082;
  CX 16970 23082 10046; CX 23209 23082 10047; CX 2374 16970 22956; CA 10047 10046 10045; CX 10045 23082 23083; CX 23146 23083 2372; CX 16971 23083 10043; CX 23210 23083 10044;
  CA 10044 10043 10042; CX 10042 23083 23084; CX 23147 23084 2371; CX 23211 23084 10041; CX 16972 23084 10040; CA 10041 10040 10039; CX 10039 23084 23085; CX 23212 23085 10038;
  CX 16973 23085 10037; CX 23148 23085 2370; CX 2372 16972 22958; CX 2371 16973 22959; CX 2370 16974 22960; CA 10038 10037 10036; CX 10036 23085 23086; CX 16974 23086 10034;
  CX 23213 23086 10035; CX 23149 23086 2369; CA 10035 10034 10033; CX 10033 23086 23087; CX 23214 23087 10032; CX 16975 23087 10031; CA 10032 10031 10030; CX 23150 23087 2368;
  CX 10030 23087 23088; CX 23215 23088 10029; CX 23151 23088 2367; CX 16976 23088 10028; CA 10029 10028 10027; CX 10027 23088 23089; CX 23216 23089 10026; CX 23152 23089 2366;
  CX 16977 23089 10025; CX 2369 16975 22961; CX 2368 16976 22962; CX 2367 16977 22963; CX 2366 16978 22964; CA 10026 10025 10024; CX 10024 23089 23090; CX 16978 23090 10022;
  CX 23217 23090 10023; CA 10023 10022 10021; CX 10021 23090 23091; CX 23218 23091 10020; CX 23154 23091 2364; CX 16979 23091 10019; CA 10020 10019 10018; CX 10018 23091 23092;
  CX 23219 23092 10017; CX 23155 23092 2363; CX 23153 23090 2365; CX 2365 16979 22965; CX 2364 16980 22966; CX 2363 16981 22967; CX 16980 23092 10016; CA 10017 10016 10015;
  CX 10015 23092 23093; CX 23220 23093 10014; CX 16981 23093 10013; CA 10014 10013 10012; CX 10012 23093 23094; CX 23157 23094 2361; CX 23156 23093 2362; CX 16982 23094 10010;
  CX 23221 23094 10011; CA 10011 10010 10009; CX 10009 23094 23095; CX 23222 23095 10008; CX 23158 23095 2360; CX 2362 16982 22968; CX 2361 16983 22969; CX 2360 16984 22970;
  CX 16983 23095 10007; CA 10008 10007 10006; CX 10006 23095 23096; CX 23223 23096 10005; CX 16984 23096 10004; CA 10005 10004 10003; CX 10003 23096 23097; CX 16985 23097 10001;
  CX 23224 23097 10002; CX 23160 23097 2358; CA 10002 10001 10000; CX 10000 23097 23098; CX 16986 23098 9998; CX 23161 23098 2357; CX 23225 23098 9999; CA 9999 9998 9997;
  CX 9997 23098 23099; CX 16987 23099 9995; CX 23159 23096 2359; CX 23226 23099 9996; CA 9996 9995 9994; CX 23162 23099 2356; CX 2359 16985 22971; CX 2358 16986 22972;
  CX 2357 16987 22973; CX 2356 16988 22974; CX 9994 23099 23100; CX 16988 23100 9992; CX 23163 23100 2355; CX 23227 23100 9993; CA 9993 9992 9991; CX 9991 23100 23101;
  CX 23164 23101 2354; CX 16989 23101 9989; CX 23228 23101 9990; CA 9990 9989 9988; CX 9988 23101 23102; CX 23165 23102 2353; CX 23229 23102 9987; CX 16990 23102 9986].
(** Lines 16805-17204 of the file. *)
Definition divide64_42 : list cg := [
  CA 9987 9986 9985; CX 9985 23102 23103; CX 16991 23103 9983; CX 23166 23103 2352; CX 23230 23103 9984; CA 9984 9983 9982; CX 9982 23103 23104; CX 23167 23104 2351;
  CX 23231 23104 9981; CX 16992 23104 9980; CA 9981 9980 9979; CX 2355 16989 22975; CX 2354 16990 22976; CX 2353 16991 22977; CX 2352 16992 22978; CX 2351 16993 22979;
  CX 9979 23104 23105; CX 16993 23105 9977; CX 23232 23105 9978; CA 9978 9977 9976; CX 9976 23105 23106; CX 16994 23106 9974; CX 23169 23106 2349; CX 23233 23106 9975;
  CA 9975 9974 9973; CX 9973 23106 23107; CX 16995 23107 9971; CX 23234 23107 9972; CA 9972 9971 9970; CX 9970 23107 23108; CX 23168 23105 2350; CX 23170 23107 2348;
  CX 23171 23108 2347; CX 23235 23108 9969; CX 16996 23108 9968; CA 9969 9968 9967; CX 9967 23108 23109; CX 23172 23109 2346; CX 2350 16994 22980; CX 2349 16995 22981;
  CX 2348 16996 22982; CX 2347 16997 22983; CX 2346 16998 22984; CX 16997 23109 9965; CX 23127 23064 2391; CX 2391 16953 22939; CX 2275 16659 23245; CX 2279 16659 23241;
  CX 23133 23070 2385; CX 2385 16959 22945; CX 23145 23082 2373; CX 2373 16971 22957; CX 2284 16659 23236; CX 23236 23109 9966; CA 9966 9965 9964; CX 9964 23109 23110;
  CX 23237 23110 9963; CX 16998 23110 9962; CA 9963 9962 9961; CX 9961 23110 23111; CX 23238 23111 9960; CX 23174 23111 2344; CX 16999 23111 9959; CA 9960 9959 9958;
  CX 9958 23111 23112; CX 23239 23112 9957; CX 17000 23112 9956; CA 9957 9956 9955; CX 9955 23112 23113; CX 23176 23113 2342; CX 2342 17002 22988; CX 2344 17000 22986;
  CX 23175 23112 2343; CX 2343 17001 22987; CX 23173 23110 2345; CX 2345 16999 22985; CX 23240 23113 9954; CX 17001 23113 9953; CA 9954 9953 9952; CX 9952 23113 23114;
  CX 23241 23114 9951; CX 23177 23114 2341; CX 17002 23114 9950; CX 2341 17003 22989; CA 9951 9950 9949; CX 9949 23114 23115; CX 23178 23115 2340; CX 17003 23115 9947;
  CX 2340 17004 22990; CX 23242 23115 9948; CA 9948 9947 9946; CX 9946 23115 23116; CX 23179 23116 2339; CX 23243 23116 9945; CX 17004 23116 9944; CA 9945 9944 9943;
  CX 9943 23116 23117; CX 17005 23117 9941; CX 23244 23117 9942; CA 9942 9941 9940; CX 2339 17005 22991; CX 23180 23117 2338; CX 2338 17006 22992; CX 9940 23117 23118;
  CX 17006 23118 9938; CX 23245 23118 9939; CA 9939 9938 9937; CX 9937 23118 23119; CX 23182 23119 2336; CX 23246 23119 9936; CX 2336 17008 22994; CX 23181 23118 2337;
  CX 2337 17007 22993; CX 17007 23119 9935; CA 9936 9935 9934; CX 9934 23119 23120; CX 23183 23120 2335; CX 2335 17009 22995; CX 23247 23120 9933; CX 17008 23120 9932;
  CA 9933 9932 9931; CX 9931 23120 23121; CX 23184 23121 164; CI 164 16658; CX 2339 16658 23055; CX 2338 16658 23056; CX 2395 16658 22999; CX 2389 16658 23005;
  CX 2383 16658 23011; CX 2377 16658 23017; CX 2371 16658 23023; CX 2365 16658 23029; CX 2359 16658 23035; CX 2353 16658 23041; CX 2337 16658 23057; CX 2345 16658 23049;
  CX 2340 16658 23054; CX 2341 16658 23053; CX 2336 16658 23058; CX 2397 16658 22997; CX 16847 16658 22996; CX 2396 16658 22998; CX 2391 16658 23003; CX 2392 16658 23002;
  CX 2394 16658 23000; CX 2393 16658 23001; CX 2390 16658 23004; CX 2385 16658 23009; CX 2386 16658 23008; CX 2388 16658 23006; CX 2387 16658 23007; CX 2384 16658 23010;
  CX 2379 16658 23015; CX 2380 16658 23014; CX 2382 16658 23012; CX 2381 16658 23013; CX 2378 16658 23016; CX 2373 16658 23021; CX 2374 16658 23020; CX 2376 16658 23018;
  CX 2375 16658 23019; CX 2372 16658 23022; CX 2367 16658 23027; CX 2368 16658 23026; CX 2370 16658 23024; CX 2369 16658 23025; CX 2366 16658 23028; CX 2361 16658 23033;
  CX 2362 16658 23032; CX 2364 16658 23030; CX 2363 16658 23031; CX 2360 16658 23034; CX 2355 16658 23039; CX 2356 16658 23038; CX 2358 16658 23036; CX 2357 16658 23037;
  CX 2354 16658 23040; CX 2349 16658 23045; CX 2350 16658 23044; CX 2352 16658 23042; CX 2351 16658 23043; CX 2348 16658 23046; CA 16658 4535 17542; CX 2346 16658 23048;
  CX 2344 16658 23050; CX 2342 16658 23052; CA 22996 16946 22870; CX 22933 22870 2459; CX 16947 22870 9929; CX 22997 22870 9930; CA 9930 9929 9928; CX 9928 22870 22871;
  CX 22934 22871 2458; CX 22998 22871 9927; CX 16948 22871 9926; CA 9927 9926 9925; CX 9925 22871 22872; CX 22935 22872 2457; CX 16949 22872 9923; CX 22999 22872 9924;
  CA 9924 9923 9922; CX 9922 22872 22873; CX 16950 22873 9920; CX 22936 22873 2456; CX 23000 22873 9921; CA 9921 9920 9919; CX 9919 22873 22874; CX 23001 22874 9918;
  CX 22937 22874 2455; CX 16951 22874 9917; CA 9918 9917 9916; CX 9916 22874 22875; CX 16952 22875 9914; CX 23002 22875 9915; CA 9915 9914 9913; CX 9913 22875 22876;
  CX 22939 22876 2453; CX 16953 22876 9911; CX 23003 22876 9912; CA 9912 9911 9910; CX 22938 22875 2454; CX 9910 22876 22877; CX 22940 22877 2452; CX 23004 22877 9909;
  CX 16954 22877 9908; CA 9909 9908 9907; CX 9907 22877 22878; CX 22941 22878 2451; CX 16955 22878 9905; CX 23005 22878 9906; CA 9906 9905 9904; CX 9904 22878 22879;
  CX 22942 22879 2450; CX 23006 22879 9903; CX 16956 22879 9902; CA 9903 9902 9901; CX 9901 22879 22880; CX 23007 22880 9900; CX 22943 22880 2449; CX 16957 22880 9899;
  CA 9900 9899 9898; CX 9898 22880 22881; CX 16958 22881 9896; CX 23008 22881 9897; CA 9897 9896 9895; CX 9895 22881 22882; CX 22945 22882 2447; CX 16959 22882 9893;
  CX 23009 22882 9894; CA 9894 9893 9892; CX 22944 22881 2448; CX 9892 22882 22883; CX 22946 22883 2446; CX 23010 22883 9891; CX 16960 22883 9890; CA 9891 9890 9889;
  CX 9889 22883 22884; CX 22947 22884 2445; CX 16961 22884 9887; CX 23011 22884 9888; CA 9888 9887 9886; CX 9886 22884 22885; CX 22948 22885 2444; CX 23012 22885 9885;
  CX 16962 22885 9884; CA 9885 9884 9883; CX 9883 22885 22886; CX 23013 22886 9882; CX 22949 22886 2443; CX 16963 22886 9881; CA 9882 9881 9880; CX 9880 22886 22887;
  CX 16964 22887 9878; CX 23014 22887 9879; CA 9879 9878 9877; CX 9877 22887 22888; CX 22951 22888 2441; CX 16965 22888 9875; CX 23015 22888 9876; CA 9876 9875 9874;
  CX 22950 22887 2442; CX 2459 16948 22745; CX 2458 16949 22746; CX 2457 16950 22747; CX 2456 16951 22748; CX 2455 16952 22749; CX 2454 16953 22750; CX 2453 16954 22751;
  CX 2452 16955 22752; CX 2451 16956 22753; CX 2450 16957 22754; CX 2449 16958 22755; CX 2448 16959 22756; CX 2447 16960 22757; CX 2446 16961 22758; CX 2445 16962 22759;
  CX 2444 16963 22760; CX 2443 16964 22761; CX 2442 16965 22762; CX 2441 16966 22763; CX 9874 22888 22889; CX 22952 22889 2440; CX 23016 22889 9873; CX 16966 22889 9872;
  CA 9873 9872 9871; CX 9871 22889 22890; CX 23017 22890 9870; CX 22953 22890 2439; CX 2440 16967 22764; CX 2439 16968 22765; CX 16967 22890 9869; CA 9870 9869 9868;
  CX 9868 22890 22891; CX 16968 22891 9866; CX 22954 22891 2438; CX 23018 22891 9867; CA 9867 9866 9865; CX 9865 22891 22892; CX 22955 22892 2437; CX 16969 22892 9863;
  CX 23019 22892 9864; CA 9864 9863 9862; CX 9862 22892 22893; CX 22956 22893 2436; CX 16970 22893 9860; CX 23020 22893 9861; CA 9861 9860 9859; CX 2438 16969 22766;
  CX 2437 16970 22767; CX 2436 16971 22768; CX 9859 22893 22894; CX 16971 22894 9857; CX 22957 22894 2435; CX 23021 22894 9858; CA 9858 9857 9856; CX 9856 22894 22895;
  CX 22958 22895 2434; CX 16972 22895 9854; CX 23022 22895 9855; CA 9855 9854 9853; CX 9853 22895 22896; CX 23023 22896 9852; CX 22959 22896 2433; CX 16973 22896 9851;
  CA 9852 9851 9850; CX 9850 22896 22897; CX 16974 22897 9848; CX 22960 22897 2432; CX 23024 22897 9849; CA 9849 9848 9847; CX 9847 22897 22898; CX 16975 22898 9845;
  CX 23025 22898 9846; CA 9846 9845 9844; CX 9844 22898 22899; CX 22962 22899 2430; CX 23026 22899 9843; CX 16976 22899 9842; CA 9843 9842 9841; CX 9841 22899 22900;
  CX 22963 22900 2429; CX 23027 22900 9840; CX 16977 22900 9839; CA 9840 9839 9838; CX 9838 22900 22901; CX 16978 22901 9836; CX 23028 22901 9837; CA 9837 9836 9835;
  CX 9835 22901 22902; CX 22965 22902 2427; CX 23029 22902 9834; CX 22964 22901 2428; CX 16979 22902 9833; CA 9834 9833 9832; CX 9832 22902 22903; CX 16980 22903 9830;
  CX 22966 22903 2426; CX 23030 22903 9831; CA 9831 9830 9829; CX 9829 22903 22904; CX 22967 22904 2425; CX 16981 22904 9827; CX 23031 22904 9828; CA 9828 9827 9826;
  CX 9826 22904 22905; CX 16982 22905 9824; CX 23032 22905 9825; CA 9825 9824 9823; CX 9823 22905 22906; CX 22969 22906 2423; CX 22968 22905 2424; CX 16983 22906 9821;
  CX 23033 22906 9822; CA 9822 9821 9820; CX 2435 16972 22769; CX 2434 16973 22770; CX 2433 16974 22771; CX 2432 16975 22772; CX 2430 16977 22774; CX 2429 16978 22775].
(** Lines 17205-17604 of the file. *)
Definition divide64_43 : list cg := [
  CX 2428 16979 22776; CX 2427 16980 22777; CX 2426 16981 22778; CX 2425 16982 22779; CX 2424 16983 22780; CX 2423 16984 22781; CX 9820 22906 22907; CX 23034 22907 9819;
  CX 16984 22907 9818; CX 22970 22907 2422; CX 2422 16985 22782; CX 22961 22898 2431; CX 2431 16976 22773; CA 9819 9818 9817; CX 9817 22907 22908; CX 23035 22908 9816;
  CX 22971 22908 2421; CX 16985 22908 9815; CA 9816 9815 9814; CX 9814 22908 22909; CX 22972 22909 2420; CX 23036 22909 9813; CX 2421 16986 22783; CX 2420 16987 22784;
  CX 16986 22909 9812; CA 9813 9812 9811; CX 9811 22909 22910; CX 22973 22910 2419; CX 23037 22910 9810; CX 16987 22910 9809; CA 9810 9809 9808; CX 9808 22910 22911;
  CX 22974 22911 2418; CX 16988 22911 9806; CX 23038 22911 9807; CA 9807 9806 9805; CX 9805 22911 22912; CX 22975 22912 2417; CX 16989 22912 9803; CX 23039 22912 9804;
  CA 9804 9803 9802; CX 9802 22912 22913; CX 22976 22913 2416; CX 23040 22913 9801; CX 16990 22913 9800; CX 2419 16988 22785; CX 2418 16989 22786; CX 2417 16990 22787;
  CX 2416 16991 22788; CA 9801 9800 9799; CX 9799 22913 22914; CX 23041 22914 9798; CX 22977 22914 2415; CX 16991 22914 9797; CA 9798 9797 9796; CX 9796 22914 22915;
  CX 16992 22915 9794; CX 22978 22915 2414; CX 23042 22915 9795; CA 9795 9794 9793; CX 9793 22915 22916; CX 16993 22916 9791; CX 23043 22916 9792; CA 9792 9791 9790;
  CX 22979 22916 2413; CX 2415 16992 22789; CX 2414 16993 22790; CX 2413 16994 22791; CX 9790 22916 22917; CX 22980 22917 2412; CX 16994 22917 9788; CX 23044 22917 9789;
  CX 2412 16995 22792; CA 9789 9788 9787; CX 9787 22917 22918; CX 16995 22918 9785; CX 22981 22918 2411; CX 2411 16996 22793; CX 23045 22918 9786; CA 9786 9785 9784;
  CX 9784 22918 22919; CX 23046 22919 9783; CX 16996 22919 9782; CA 9783 9782 9781; CX 9781 22919 22920; CX 22983 22920 2409; CX 16997 22920 9779; CX 2409 16998 22795;
  CX 22982 22919 2410; CX 2410 16997 22794; CX 2343 16658 23051; CX 2347 16658 23047; CX 23047 22920 9780; CA 9780 9779 9778; CX 9778 22920 22921; CX 23048 22921 9777;
  CX 22984 22921 2408; CX 16998 22921 9776; CA 9777 9776 9775; CX 2408 16999 22796; CX 9775 22921 22922; CX 23049 22922 9774; CX 22985 22922 2407; CX 16999 22922 9773;
  CA 9774 9773 9772; CX 9772 22922 22923; CX 17000 22923 9770; CX 23050 22923 9771; CX 22986 22923 2406; CA 9771 9770 9769; CX 9769 22923 22924; CX 17001 22924 9767;
  CX 22987 22924 2405; CX 2406 17001 22798; CX 2405 17002 22799; CX 2407 17000 22797; CX 23051 22924 9768; CA 9768 9767 9766; CX 9766 22924 22925; CX 22988 22925 2404;
  CX 23052 22925 9765; CX 17002 22925 9764; CA 9765 9764 9763; CX 9763 22925 22926; CX 17003 22926 9761; CX 23053 22926 9762; CX 22989 22926 2403; CA 9762 9761 9760;
  CX 9760 22926 22927; CX 23054 22927 9759; CX 17004 22927 9758; CA 9759 9758 9757; CX 2403 17004 22801; CX 2404 17003 22800; CX 9757 22927 22928; CX 22991 22928 2401;
  CX 23055 22928 9756; CX 17005 22928 9755; CA 9756 9755 9754; CX 2401 17006 22803; CX 9754 22928 22929; CX 23056 22929 9753; CX 17006 22929 9752; CA 9753 9752 9751;
  CX 9751 22929 22930; CX 22993 22930 2399; CX 17007 22930 9749; CX 23057 22930 9750; CA 9750 9749 9748; CX 9748 22930 22931; CX 23058 22931 9747; CX 17008 22931 9746;
  CX 22994 22931 2398; CX 2398 17009 22806; CX 2399 17008 22805; CA 9747 9746 9745; CX 9745 22931 22932; CX 22995 22932 165; CX 22992 22929 2400; CX 2400 17007 22804;
  CI 165 16657; CX 2404 16657 22864; CX 2401 16657 22867; CX 2400 16657 22868; CX 2403 16657 22865; CX 2399 16657 22869; CX 2458 16657 22810; CX 2452 16657 22816;
  CX 2446 16657 22822; CX 2440 16657 22828; CX 2434 16657 22834; CX 2428 16657 22840; CX 2422 16657 22846; CX 2416 16657 22852; CX 2408 16657 22860; CX 2407 16657 22861;
  CX 2406 16657 22862; CX 2460 16657 22808; CX 16846 16657 22807; CA 22807 16946 22681; CX 22744 22681 2522; CX 22808 22681 9744; CX 16947 22681 9743; CA 9744 9743 9742;
  CX 9742 22681 22682; CX 22745 22682 2521; CX 16948 22682 9740; CX 2522 16948 22556; CX 2521 16949 22557; CX 2459 16657 22809; CX 22809 22682 9741; CA 9741 9740 9739;
  CX 9739 22682 22683; CX 22746 22683 2520; CX 22810 22683 9738; CX 16949 22683 9737; CA 9738 9737 9736; CX 9736 22683 22684; CX 22747 22684 2519; CX 16950 22684 9734;
  CX 2520 16950 22558; CX 2519 16951 22559; CX 2454 16657 22814; CX 2455 16657 22813; CX 2457 16657 22811; CX 22811 22684 9735; CA 9735 9734 9733; CX 9733 22684 22685;
  CX 16951 22685 9731; CX 22748 22685 2518; CX 2518 16952 22560; CX 2456 16657 22812; CX 22812 22685 9732; CA 9732 9731 9730; CX 9730 22685 22686; CX 22749 22686 2517;
  CX 16952 22686 9728; CX 22813 22686 9729; CA 9729 9728 9727; CX 9727 22686 22687; CX 22750 22687 2516; CX 22814 22687 9726; CX 16953 22687 9725; CA 9726 9725 9724;
  CX 9724 22687 22688; CX 22751 22688 2515; CX 16954 22688 9722; CX 2517 16953 22561; CX 2516 16954 22562; CX 2515 16955 22563; CX 2453 16657 22815; CX 22815 22688 9723;
  CA 9723 9722 9721; CX 9721 22688 22689; CX 22752 22689 2514; CX 22816 22689 9720; CX 16955 22689 9719; CA 9720 9719 9718; CX 9718 22689 22690; CX 22753 22690 2513;
  CX 16956 22690 9716; CX 2514 16956 22564; CX 2513 16957 22565; CX 2448 16657 22820; CX 2449 16657 22819; CX 2451 16657 22817; CX 22817 22690 9717; CA 9717 9716 9715;
  CX 9715 22690 22691; CX 16957 22691 9713; CX 22754 22691 2512; CX 2512 16958 22566; CX 2450 16657 22818; CX 22818 22691 9714; CA 9714 9713 9712; CX 9712 22691 22692;
  CX 22755 22692 2511; CX 16958 22692 9710; CX 22819 22692 9711; CA 9711 9710 9709; CX 9709 22692 22693; CX 22756 22693 2510; CX 22820 22693 9708; CX 16959 22693 9707;
  CA 9708 9707 9706; CX 9706 22693 22694; CX 22757 22694 2509; CX 16960 22694 9704; CX 2511 16959 22567; CX 2510 16960 22568; CX 2509 16961 22569; CX 2447 16657 22821;
  CX 22821 22694 9705; CA 9705 9704 9703; CX 9703 22694 22695; CX 22758 22695 2508; CX 22822 22695 9702; CX 16961 22695 9701; CA 9702 9701 9700; CX 9700 22695 22696;
  CX 22759 22696 2507; CX 16962 22696 9698; CX 2508 16962 22570; CX 2507 16963 22571; CX 2442 16657 22826; CX 2443 16657 22825; CX 2445 16657 22823; CX 22823 22696 9699;
  CA 9699 9698 9697; CX 9697 22696 22697; CX 16963 22697 9695; CX 22760 22697 2506; CX 2506 16964 22572; CX 2444 16657 22824; CX 22824 22697 9696; CA 9696 9695 9694;
  CX 9694 22697 22698; CX 22761 22698 2505; CX 16964 22698 9692; CX 22825 22698 9693; CA 9693 9692 9691; CX 9691 22698 22699; CX 22762 22699 2504; CX 22826 22699 9690;
  CX 16965 22699 9689; CA 9690 9689 9688; CX 9688 22699 22700; CX 22763 22700 2503; CX 16966 22700 9686; CX 2505 16965 22573; CX 2504 16966 22574; CX 2503 16967 22575;
  CX 2441 16657 22827; CX 22827 22700 9687; CA 9687 9686 9685; CX 9685 22700 22701; CX 22764 22701 2502; CX 22828 22701 9684; CX 16967 22701 9683; CA 9684 9683 9682;
  CX 9682 22701 22702; CX 22765 22702 2501; CX 16968 22702 9680; CX 2502 16968 22576; CX 2501 16969 22577; CX 2436 16657 22832; CX 2437 16657 22831; CX 2439 16657 22829;
  CX 22829 22702 9681; CA 9681 9680 9679; CX 9679 22702 22703; CX 16969 22703 9677; CX 22766 22703 2500; CX 2500 16970 22578; CX 2438 16657 22830; CX 22830 22703 9678;
  CA 9678 9677 9676; CX 9676 22703 22704; CX 22767 22704 2499; CX 16970 22704 9674; CX 22831 22704 9675; CA 9675 9674 9673; CX 9673 22704 22705; CX 22768 22705 2498;
  CX 22832 22705 9672; CX 16971 22705 9671; CA 9672 9671 9670; CX 9670 22705 22706; CX 22769 22706 2497; CX 16972 22706 9668; CX 2499 16971 22579; CX 2498 16972 22580;
  CX 2497 16973 22581; CX 2435 16657 22833; CX 22833 22706 9669; CA 9669 9668 9667; CX 9667 22706 22707; CX 22770 22707 2496; CX 22834 22707 9666; CX 16973 22707 9665;
  CA 9666 9665 9664; CX 9664 22707 22708; CX 22771 22708 2495; CX 16974 22708 9662; CX 2496 16974 22582; CX 2495 16975 22583; CX 2430 16657 22838; CX 2431 16657 22837;
  CX 2433 16657 22835; CX 22835 22708 9663; CA 9663 9662 9661; CX 9661 22708 22709; CX 22772 22709 2494; CX 2494 16976 22584; CX 16975 22709 9659; CX 2432 16657 22836;
  CX 22836 22709 9660; CA 9660 9659 9658; CX 9658 22709 22710; CX 22773 22710 2493; CX 16976 22710 9656; CX 2493 16977 22585; CX 22837 22710 9657; CA 9657 9656 9655;
  CX 9655 22710 22711; CX 22774 22711 2492; CX 22838 22711 9654; CX 16977 22711 9653; CA 9654 9653 9652; CX 2492 16978 22586; CX 9652 22711 22712; CX 16978 22712 9650;
  CX 22775 22712 2491; CX 2491 16979 22587; CX 2429 16657 22839; CX 22839 22712 9651; CA 9651 9650 9649; CX 9649 22712 22713; CX 22776 22713 2490; CX 16979 22713 9647].
(** Lines 17605-18004 of the file. *)
Definition divide64_44 : list cg := [
  CX 22840 22713 9648; CX 2490 16980 22588; CA 9648 9647 9646; CX 9646 22713 22714; CX 16980 22714 9644; CX 22777 22714 2489; CX 2489 16981 22589; CX 2424 16657 22844;
  CX 2425 16657 22843; CX 2427 16657 22841; CX 22841 22714 9645; CA 9645 9644 9643; CX 9643 22714 22715; CX 22778 22715 2488; CX 16981 22715 9641; CX 2488 16982 22590;
  CX 2426 16657 22842; CX 22842 22715 9642; CA 9642 9641 9640; CX 9640 22715 22716; CX 16982 22716 9638; CX 22843 22716 9639; CA 9639 9638 9637; CX 9637 22716 22717;
  CX 22844 22717 9636; CX 22779 22716 2487; CX 16983 22717 9635; CA 9636 9635 9634; CX 9634 22717 22718; CX 2487 16983 22591; CX 22780 22717 2486; CX 2486 16984 22592;
  CX 22781 22718 2485; CX 2485 16985 22593; CX 16984 22718 9632; CX 2423 16657 22845; CX 22845 22718 9633; CA 9633 9632 9631; CX 9631 22718 22719; CX 22846 22719 9630;
  CX 16985 22719 9629; CX 22782 22719 2484; CX 2484 16986 22594; CA 9630 9629 9628; CX 9628 22719 22720; CX 22783 22720 2483; CX 2483 16987 22595; CX 16986 22720 9626;
  CX 2418 16657 22850; CX 2419 16657 22849; CX 2421 16657 22847; CX 22847 22720 9627; CA 9627 9626 9625; CX 9625 22720 22721; CX 22784 22721 2482; CX 16987 22721 9623;
  CX 2482 16988 22596; CX 2420 16657 22848; CX 22848 22721 9624; CA 9624 9623 9622; CX 9622 22721 22722; CX 16988 22722 9620; CX 22785 22722 2481; CX 22849 22722 9621;
  CA 9621 9620 9619; CX 9619 22722 22723; CX 22786 22723 2480; CX 22850 22723 9618; CX 2481 16989 22597; CX 2480 16990 22598; CX 16989 22723 9617; CA 9618 9617 9616;
  CX 9616 22723 22724; CX 22787 22724 2479; CX 2479 16991 22599; CX 16990 22724 9614; CX 2417 16657 22851; CX 22851 22724 9615; CA 9615 9614 9613; CX 9613 22724 22725;
  CX 22852 22725 9612; CX 16991 22725 9611; CA 9612 9611 9610; CX 9610 22725 22726; CX 22789 22726 2477; CX 16992 22726 9608; CX 2477 16993 22601; CX 22788 22725 2478;
  CX 2478 16992 22600; CX 2412 16657 22856; CX 2413 16657 22855; CX 2415 16657 22853; CX 22853 22726 9609; CA 9609 9608 9607; CX 9607 22726 22727; CX 22790 22727 2476;
  CX 16993 22727 9605; CX 2476 16994 22602; CX 2414 16657 22854; CX 22854 22727 9606; CA 9606 9605 9604; CX 9604 22727 22728; CX 22791 22728 2475; CX 2475 16995 22603;
  CX 16994 22728 9602; CX 22855 22728 9603; CA 9603 9602 9601; CX 9601 22728 22729; CX 22856 22729 9600; CX 16995 22729 9599; CX 22792 22729 2474; CX 2474 16996 22604;
  CX 2411 16657 22857; CA 16657 4535 17541; CX 2410 16657 22858; CA 9600 9599 9598; CX 9598 22729 22730; CX 16996 22730 9596; CX 22793 22730 2473; CX 2473 16997 22605;
  CX 22857 22730 9597; CA 9597 9596 9595; CX 9595 22730 22731; CX 22858 22731 9594; CX 22794 22731 2472; CX 2472 16998 22606; CX 16997 22731 9593; CA 9594 9593 9592;
  CX 9592 22731 22732; CX 22795 22732 2471; CX 16998 22732 9590; CX 2471 16999 22607; CX 2405 16657 22863; CX 22990 22927 2402; CX 2402 17005 22802; CX 2402 16657 22866;
  CX 2409 16657 22859; CX 22859 22732 9591; CA 9591 9590 9589; CX 9589 22732 22733; CX 16999 22733 9587; CX 22860 22733 9588; CA 9588 9587 9586; CX 9586 22733 22734;
  CX 22797 22734 2469; CX 17000 22734 9584; CX 2469 17001 22609; CX 22861 22734 9585; CA 9585 9584 9583; CX 22796 22733 2470; CX 2470 17000 22608; CX 9583 22734 22735;
  CX 22798 22735 2468; CX 17001 22735 9581; CX 2468 17002 22610; CX 22862 22735 9582; CA 9582 9581 9580; CX 9580 22735 22736; CX 17002 22736 9578; CX 22799 22736 2467;
  CX 2467 17003 22611; CX 22863 22736 9579; CA 9579 9578 9577; CX 9577 22736 22737; CX 22800 22737 2466; CX 22864 22737 9576; CX 2466 17004 22612; CX 17003 22737 9575;
  CA 9576 9575 9574; CX 9574 22737 22738; CX 22865 22738 9573; CX 22801 22738 2465; CX 2465 17005 22613; CX 17004 22738 9572; CA 9573 9572 9571; CX 9571 22738 22739;
  CX 17005 22739 9569; CX 22802 22739 2464; CX 2464 17006 22614; CX 22866 22739 9570; CA 9570 9569 9568; CX 9568 22739 22740; CX 22867 22740 9567; CX 22803 22740 2463;
  CX 2463 17007 22615; CX 17006 22740 9566; CA 9567 9566 9565; CX 9565 22740 22741; CX 22804 22741 2462; CX 2462 17008 22616; CX 22868 22741 9564; CX 17007 22741 9563;
  CA 9564 9563 9562; CX 9562 22741 22742; CX 17008 22742 9560; CX 22805 22742 2461; CX 22869 22742 9561; CX 2461 17009 22617; CA 9561 9560 9559; CX 9559 22742 22743;
  CX 22806 22743 166; CI 166 16656; CX 2470 16656 22672; CX 2471 16656 22671; CX 2520 16656 22622; CX 2514 16656 22628; CX 2508 16656 22634; CX 2502 16656 22640;
  CX 2496 16656 22646; CX 2490 16656 22652; CX 2484 16656 22658; CX 2478 16656 22664; CX 2463 16656 22679; CX 2469 16656 22673; CX 2465 16656 22677; CX 2468 16656 22674;
  CX 2466 16656 22676; CX 2522 16656 22620; CX 2523 16656 22619; CX 16845 16656 22618; CX 2521 16656 22621; CX 2516 16656 22626; CX 2517 16656 22625; CX 2519 16656 22623;
  CX 2518 16656 22624; CX 2515 16656 22627; CX 2510 16656 22632; CX 2511 16656 22631; CX 2513 16656 22629; CX 2512 16656 22630; CX 2509 16656 22633; CX 2504 16656 22638;
  CX 2505 16656 22637; CX 2507 16656 22635; CX 2506 16656 22636; CX 2503 16656 22639; CX 2498 16656 22644; CX 2499 16656 22643; CX 2501 16656 22641; CX 2500 16656 22642;
  CX 2497 16656 22645; CX 2492 16656 22650; CX 2493 16656 22649; CX 2495 16656 22647; CX 2494 16656 22648; CX 2491 16656 22651; CX 2486 16656 22656; CX 2487 16656 22655;
  CX 2489 16656 22653; CX 2488 16656 22654; CX 2485 16656 22657; CX 2480 16656 22662; CX 2481 16656 22661; CX 2483 16656 22659; CX 2482 16656 22660; CX 2479 16656 22663;
  CX 2474 16656 22668; CX 2475 16656 22667; CX 2477 16656 22665; CX 2476 16656 22666; CX 2473 16656 22669; CA 16656 4535 17540; CX 2462 16656 22680; CX 2464 16656 22678;
  CX 2467 16656 22675; CA 22618 16946 22492; CX 22555 22492 2585; CX 22619 22492 9558; CX 16947 22492 9557; CA 9558 9557 9556; CX 9556 22492 22493; CX 22556 22493 2584;
  CX 16948 22493 9554; CX 2585 16948 22367; CX 2584 16949 22368; CX 22620 22493 9555; CA 9555 9554 9553; CX 9553 22493 22494; CX 22557 22494 2583; CX 22621 22494 9552;
  CX 16949 22494 9551; CA 9552 9551 9550; CX 9550 22494 22495; CX 22622 22495 9549; CX 22558 22495 2582; CX 16950 22495 9548; CA 9549 9548 9547; CX 9547 22495 22496;
  CX 16951 22496 9545; CX 22623 22496 9546; CA 9546 9545 9544; CX 9544 22496 22497; CX 22560 22497 2580; CX 16952 22497 9542; CX 22624 22497 9543; CA 9543 9542 9541;
  CX 9541 22497 22498; CX 22561 22498 2579; CX 22625 22498 9540; CX 16953 22498 9539; CA 9540 9539 9538; CX 9538 22498 22499; CX 22562 22499 2578; CX 22626 22499 9537;
  CX 16954 22499 9536; CA 9537 9536 9535; CX 9535 22499 22500; CX 22563 22500 2577; CX 22627 22500 9534; CX 16955 22500 9533; CA 9534 9533 9532; CX 9532 22500 22501;
  CX 22628 22501 9531; CX 22564 22501 2576; CX 16956 22501 9530; CA 9531 9530 9529; CX 9529 22501 22502; CX 16957 22502 9527; CX 22629 22502 9528; CA 9528 9527 9526;
  CX 9526 22502 22503; CX 22566 22503 2574; CX 16958 22503 9524; CX 22630 22503 9525; CA 9525 9524 9523; CX 22565 22502 2575; CX 22559 22496 2581; CX 2583 16950 22369;
  CX 2582 16951 22370; CX 2581 16952 22371; CX 2580 16953 22372; CX 2579 16954 22373; CX 2578 16955 22374; CX 2577 16956 22375; CX 2576 16957 22376; CX 2575 16958 22377;
  CX 2574 16959 22378; CX 9523 22503 22504; CX 22631 22504 9522; CX 16959 22504 9521; CA 9522 9521 9520; CX 9520 22504 22505; CX 22568 22505 2572; CX 16960 22505 9518;
  CX 22632 22505 9519; CA 9519 9518 9517; CX 9517 22505 22506; CX 22569 22506 2571; CX 22633 22506 9516; CX 16961 22506 9515; CA 9516 9515 9514; CX 9514 22506 22507;
  CX 22570 22507 2570; CX 16962 22507 9512; CX 22634 22507 9513; CA 9513 9512 9511; CX 9511 22507 22508; CX 22635 22508 9510; CX 22571 22508 2569; CX 16963 22508 9509;
  CA 9510 9509 9508; CX 9508 22508 22509; CX 16964 22509 9506; CX 22636 22509 9507; CA 9507 9506 9505; CX 22572 22509 2568; CX 22567 22504 2573; CX 2573 16960 22379;
  CX 2572 16961 22380; CX 2571 16962 22381; CX 2570 16963 22382; CX 2569 16964 22383; CX 2568 16965 22384; CX 9505 22509 22510; CX 22573 22510 2567; CX 22637 22510 9504;
  CX 16965 22510 9503; CA 9504 9503 9502; CX 9502 22510 22511; CX 22638 22511 9501; CX 22574 22511 2566; CX 2567 16966 22385; CX 2566 16967 22386; CX 16966 22511 9500;
  CA 9501 9500 9499; CX 9499 22511 22512; CX 22575 22512 2565; CX 16967 22512 9497; CX 22639 22512 9498; CA 9498 9497 9496; CX 9496 22512 22513; CX 22576 22513 2564;
  CX 16968 22513 9494; CX 22640 22513 9495; CA 9495 9494 9493; CX 9493 22513 22514; CX 16969 22514 9491; CX 22641 22514 9492; CA 9492 9491 9490; CX 2565 16968 22387].
(** Lines 18005-18404 of the file. *)
Definition divide64_45 : list cg := [
  CX 2564 16969 22388; CX 9490 22514 22515; CX 16970 22515 9488; CX 22578 22515 2562; CX 22642 22515 9489; CA 9489 9488 9487; CX 9487 22515 22516; CX 22579 22516 2561;
  CX 16971 22516 9485; CX 22643 22516 9486; CA 9486 9485 9484; CX 9484 22516 22517; CX 22644 22517 9483; CX 22580 22517 2560; CX 16972 22517 9482; CA 9483 9482 9481;
  CX 9481 22517 22518; CX 16973 22518 9479; CX 22581 22518 2559; CX 22645 22518 9480; CA 9480 9479 9478; CX 9478 22518 22519; CX 22582 22519 2558; CX 16974 22519 9476;
  CX 2562 16971 22390; CX 2561 16972 22391; CX 2560 16973 22392; CX 2559 16974 22393; CX 2558 16975 22394; CX 22646 22519 9477; CA 9477 9476 9475; CX 9475 22519 22520;
  CX 22583 22520 2557; CX 16975 22520 9473; CX 22647 22520 9474; CA 9474 9473 9472; CX 9472 22520 22521; CX 16976 22521 9470; CX 22584 22521 2556; CX 22648 22521 9471;
  CA 9471 9470 9469; CX 9469 22521 22522; CX 22585 22522 2555; CX 22649 22522 9468; CX 16977 22522 9467; CA 9468 9467 9466; CX 9466 22522 22523; CX 22586 22523 2554;
  CX 16978 22523 9464; CX 2557 16976 22395; CX 2556 16977 22396; CX 2555 16978 22397; CX 2554 16979 22398; CX 22650 22523 9465; CA 9465 9464 9463; CX 9463 22523 22524;
  CX 16979 22524 9461; CX 22587 22524 2553; CX 22651 22524 9462; CA 9462 9461 9460; CX 9460 22524 22525; CX 16980 22525 9458; CX 22652 22525 9459; CA 9459 9458 9457;
  CX 22588 22525 2552; CX 2553 16980 22399; CX 2552 16981 22400; CX 9457 22525 22526; CX 22653 22526 9456; CX 16981 22526 9455; CA 9456 9455 9454; CX 9454 22526 22527;
  CX 16982 22527 9452; CX 22590 22527 2550; CX 22654 22527 9453; CA 9453 9452 9451; CX 2550 16983 22402; CX 22589 22526 2551; CX 2551 16982 22401; CX 22577 22514 2563;
  CX 2563 16970 22389; CX 9451 22527 22528; CX 22591 22528 2549; CX 22655 22528 9450; CX 16983 22528 9449; CA 9450 9449 9448; CX 9448 22528 22529; CX 22656 22529 9447;
  CX 16984 22529 9446; CA 9447 9446 9445; CX 9445 22529 22530; CX 16985 22530 9443; CX 22592 22529 2548; CX 22593 22530 2547; CX 22657 22530 9444; CA 9444 9443 9442;
  CX 9442 22530 22531; CX 16986 22531 9440; CX 22658 22531 9441; CA 9441 9440 9439; CX 9439 22531 22532; CX 22595 22532 2545; CX 16987 22532 9437; CX 22659 22532 9438;
  CA 9438 9437 9436; CX 9436 22532 22533; CX 22596 22533 2544; CX 16988 22533 9434; CX 22660 22533 9435; CA 9435 9434 9433; CX 9433 22533 22534; CX 22661 22534 9432;
  CX 22597 22534 2543; CX 16989 22534 9431; CA 9432 9431 9430; CX 9430 22534 22535; CX 16990 22535 9428; CX 2549 16984 22403; CX 2548 16985 22404; CX 2547 16986 22405;
  CX 2545 16988 22407; CX 2544 16989 22408; CX 2543 16990 22409; CX 22662 22535 9429; CA 9429 9428 9427; CX 9427 22535 22536; CX 16991 22536 9425; CX 22663 22536 9426;
  CA 9426 9425 9424; CX 9424 22536 22537; CX 22599 22536 2541; CX 16992 22537 9422; CX 22600 22537 2540; CX 22664 22537 9423; CX 2541 16992 22411; CX 2540 16993 22412;
  CX 22598 22535 2542; CX 2542 16991 22410; CA 9423 9422 9421; CX 22594 22531 2546; CX 2546 16987 22406; CX 9421 22537 22538; CX 22601 22538 2539; CX 22665 22538 9420;
  CX 2539 16994 22413; CX 16993 22538 9419; CA 9420 9419 9418; CX 9418 22538 22539; CX 22602 22539 2538; CX 16994 22539 9416; CX 22666 22539 9417; CA 9417 9416 9415;
  CX 9415 22539 22540; CX 22603 22540 2537; CX 22667 22540 9414; CX 16995 22540 9413; CA 9414 9413 9412; CX 9412 22540 22541; CX 22668 22541 9411; CX 22604 22541 2536;
  CX 16996 22541 9410; CA 9411 9410 9409; CX 9409 22541 22542; CX 22669 22542 9408; CX 22605 22542 2535; CX 2538 16995 22414; CX 2537 16996 22415; CX 2536 16997 22416;
  CX 2535 16998 22417; CX 16997 22542 9407; CA 9408 9407 9406; CX 9406 22542 22543; CX 22606 22543 2534; CX 16998 22543 9404; CX 2534 16999 22418; CX 2472 16656 22670;
  CX 22670 22543 9405; CA 9405 9404 9403; CX 9403 22543 22544; CX 22607 22544 2533; CX 16999 22544 9401; CX 22671 22544 9402; CA 9402 9401 9400; CX 9400 22544 22545;
  CX 17000 22545 9398; CX 22608 22545 2532; CX 22672 22545 9399; CA 9399 9398 9397; CX 2533 17000 22419; CX 2532 17001 22420; CX 9397 22545 22546; CX 22609 22546 2531;
  CX 22673 22546 9396; CX 17001 22546 9395; CX 2531 17002 22421; CA 9396 9395 9394; CX 9394 22546 22547; CX 22674 22547 9393; CX 22610 22547 2530; CX 2530 17003 22422;
  CX 17002 22547 9392; CA 9393 9392 9391; CX 9391 22547 22548; CX 22611 22548 2529; CX 22675 22548 9390; CX 17003 22548 9389; CA 9390 9389 9388; CX 9388 22548 22549;
  CX 17004 22549 9386; CX 22676 22549 9387; CA 9387 9386 9385; CX 9385 22549 22550; CX 22613 22550 2527; CX 17005 22550 9383; CX 22677 22550 9384; CA 9384 9383 9382;
  CX 9382 22550 22551; CX 17006 22551 9380; CX 22614 22551 2526; CX 22612 22549 2528; CX 2528 17005 22424; CX 2529 17004 22423; CX 2527 17006 22425; CX 2526 17007 22426;
  CX 22678 22551 9381; CA 9381 9380 9379; CX 9379 22551 22552; CX 17007 22552 9377; CX 22679 22552 9378; CA 9378 9377 9376; CX 9376 22552 22553; CX 17008 22553 9374;
  CX 22616 22553 2524; CX 22680 22553 9375; CX 2524 17009 22428; CX 22615 22552 2525; CX 2525 17008 22427; CA 9375 9374 9373; CX 9373 22553 22554; CX 22617 22554 167;
  CI 167 16655; CX 2531 16655 22485; CX 2533 16655 22483; CX 2526 16655 22490; CX 2583 16655 22433; CX 2577 16655 22439; CX 2571 16655 22445; CX 2565 16655 22451;
  CX 2559 16655 22457; CX 2553 16655 22463; CX 2547 16655 22469; CX 2541 16655 22475; CX 2530 16655 22486; CX 2525 16655 22491; CX 2585 16655 22431; CX 2586 16655 22430;
  CX 16844 16655 22429; CX 2584 16655 22432; CX 2579 16655 22437; CX 2580 16655 22436; CX 2582 16655 22434; CX 2581 16655 22435; CX 2578 16655 22438; CX 2573 16655 22443;
  CX 2574 16655 22442; CX 2576 16655 22440; CX 2575 16655 22441; CX 2572 16655 22444; CX 2567 16655 22449; CX 2568 16655 22448; CX 2570 16655 22446; CX 2569 16655 22447;
  CX 2566 16655 22450; CX 2561 16655 22455; CX 2562 16655 22454; CX 2564 16655 22452; CX 2563 16655 22453; CX 2560 16655 22456; CX 2555 16655 22461; CX 2556 16655 22460;
  CX 2558 16655 22458; CX 2557 16655 22459; CX 2554 16655 22462; CX 2549 16655 22467; CX 2550 16655 22466; CX 2552 16655 22464; CX 2551 16655 22465; CX 2548 16655 22468;
  CX 2543 16655 22473; CX 2544 16655 22472; CX 2546 16655 22470; CX 2545 16655 22471; CX 2542 16655 22474; CX 2537 16655 22479; CX 2538 16655 22478; CX 2540 16655 22476;
  CX 2539 16655 22477; CX 2536 16655 22480; CA 22429 16946 22303; CX 22366 22303 2648; CX 16947 22303 9371; CX 22430 22303 9372; CA 9372 9371 9370; CX 9370 22303 22304;
  CX 22367 22304 2647; CX 22431 22304 9369; CX 16948 22304 9368; CA 9369 9368 9367; CX 9367 22304 22305; CX 22432 22305 9366; CX 22368 22305 2646; CX 16949 22305 9365;
  CA 9366 9365 9364; CX 9364 22305 22306; CX 16950 22306 9362; CX 22433 22306 9363; CA 9363 9362 9361; CX 9361 22306 22307; CX 22370 22307 2644; CX 16951 22307 9359;
  CX 22434 22307 9360; CA 9360 9359 9358; CX 22369 22306 2645; CX 9358 22307 22308; CX 22371 22308 2643; CX 22435 22308 9357; CX 16952 22308 9356; CA 9357 9356 9355;
  CX 9355 22308 22309; CX 22372 22309 2642; CX 16953 22309 9353; CX 22436 22309 9354; CA 9354 9353 9352; CX 9352 22309 22310; CX 22373 22310 2641; CX 22437 22310 9351;
  CX 16954 22310 9350; CA 9351 9350 9349; CX 9349 22310 22311; CX 22438 22311 9348; CX 22374 22311 2640; CX 16955 22311 9347; CA 9348 9347 9346; CX 9346 22311 22312;
  CX 16956 22312 9344; CX 22439 22312 9345; CA 9345 9344 9343; CX 9343 22312 22313; CX 22376 22313 2638; CX 16957 22313 9341; CX 22440 22313 9342; CA 9342 9341 9340;
  CX 22375 22312 2639; CX 9340 22313 22314; CX 22377 22314 2637; CX 22441 22314 9339; CX 16958 22314 9338; CA 9339 9338 9337; CX 9337 22314 22315; CX 22378 22315 2636;
  CX 16959 22315 9335; CX 22442 22315 9336; CA 9336 9335 9334; CX 9334 22315 22316; CX 22379 22316 2635; CX 22443 22316 9333; CX 16960 22316 9332; CA 9333 9332 9331;
  CX 9331 22316 22317; CX 22444 22317 9330; CX 22380 22317 2634; CX 16961 22317 9329; CA 9330 9329 9328; CX 9328 22317 22318; CX 16962 22318 9326; CX 22445 22318 9327;
  CA 9327 9326 9325; CX 9325 22318 22319; CX 22382 22319 2632; CX 16963 22319 9323; CX 22446 22319 9324; CA 9324 9323 9322; CX 22381 22318 2633; CX 9322 22319 22320;
  CX 22383 22320 2631; CX 22447 22320 9321; CX 16964 22320 9320; CA 9321 9320 9319; CX 9319 22320 22321; CX 22384 22321 2630; CX 16965 22321 9317; CX 22448 22321 9318;
  CA 9318 9317 9316; CX 9316 22321 22322; CX 22385 22322 2629; CX 22449 22322 9315; CX 16966 22322 9314; CA 9315 9314 9313; CX 9313 22322 22323; CX 22450 22323 9312].
(** Lines 18405-18804 of the file. *)
Definition divide64_46 : list cg := [
  CX 22386 22323 2628; CX 16967 22323 9311; CA 9312 9311 9310; CX 9310 22323 22324; CX 16968 22324 9308; CX 22451 22324 9309; CA 9309 9308 9307; CX 9307 22324 22325;
  CX 22388 22325 2626; CX 16969 22325 9305; CX 22452 22325 9306; CA 9306 9305 9304; CX 22387 22324 2627; CX 9304 22325 22326; CX 22389 22326 2625; CX 22453 22326 9303;
  CX 16970 22326 9302; CA 9303 9302 9301; CX 9301 22326 22327; CX 22390 22327 2624; CX 16971 22327 9299; CX 22454 22327 9300; CA 9300 9299 9298; CX 9298 22327 22328;
  CX 22391 22328 2623; CX 22455 22328 9297; CX 16972 22328 9296; CA 9297 9296 9295; CX 9295 22328 22329; CX 22456 22329 9294; CX 22392 22329 2622; CX 16973 22329 9293;
  CA 9294 9293 9292; CX 9292 22329 22330; CX 16974 22330 9290; CX 22457 22330 9291; CA 9291 9290 9289; CX 9289 22330 22331; CX 22394 22331 2620; CX 16975 22331 9287;
  CX 22458 22331 9288; CA 9288 9287 9286; CX 22393 22330 2621; CX 9286 22331 22332; CX 22395 22332 2619; CX 22459 22332 9285; CX 16976 22332 9284; CA 9285 9284 9283;
  CX 9283 22332 22333; CX 22396 22333 2618; CX 16977 22333 9281; CX 22460 22333 9282; CA 9282 9281 9280; CX 9280 22333 22334; CX 22397 22334 2617; CX 22461 22334 9279;
  CX 16978 22334 9278; CA 9279 9278 9277; CX 9277 22334 22335; CX 22462 22335 9276; CX 22398 22335 2616; CX 16979 22335 9275; CA 9276 9275 9274; CX 9274 22335 22336;
  CX 16980 22336 9272; CX 22463 22336 9273; CA 9273 9272 9271; CX 9271 22336 22337; CX 22400 22337 2614; CX 16981 22337 9269; CX 22464 22337 9270; CA 9270 9269 9268;
  CX 22399 22336 2615; CX 9268 22337 22338; CX 22465 22338 9267; CX 16982 22338 9266; CX 22401 22338 2613; CA 9267 9266 9265; CX 9265 22338 22339; CX 16983 22339 9263;
  CX 22402 22339 2612; CX 22466 22339 9264; CA 9264 9263 9262; CX 9262 22339 22340; CX 22467 22340 9261; CX 22403 22340 2611; CX 16984 22340 9260; CA 9261 9260 9259;
  CX 9259 22340 22341; CX 16985 22341 9257; CX 22404 22341 2610; CX 22468 22341 9258; CA 9258 9257 9256; CX 9256 22341 22342; CX 16986 22342 9254; CX 22469 22342 9255;
  CA 9255 9254 9253; CX 9253 22342 22343; CX 22470 22343 9252; CX 22406 22343 2608; CX 16987 22343 9251; CA 9252 9251 9250; CX 22405 22342 2609; CX 9250 22343 22344;
  CX 22407 22344 2607; CX 22471 22344 9249; CX 16988 22344 9248; CA 9249 9248 9247; CX 9247 22344 22345; CX 22408 22345 2606; CX 16989 22345 9245; CX 22472 22345 9246;
  CA 9246 9245 9244; CX 9244 22345 22346; CX 22409 22346 2605; CX 22473 22346 9243; CX 16990 22346 9242; CA 9243 9242 9241; CX 9241 22346 22347; CX 16991 22347 9239;
  CX 22410 22347 2604; CX 22474 22347 9240; CA 9240 9239 9238; CX 9238 22347 22348; CX 16992 22348 9236; CX 22475 22348 9237; CA 9237 9236 9235; CX 9235 22348 22349;
  CX 22412 22349 2602; CX 22476 22349 9234; CX 16993 22349 9233; CA 9234 9233 9232; CX 22411 22348 2603; CX 9232 22349 22350; CX 16994 22350 9230; CX 22413 22350 2601;
  CX 22477 22350 9231; CA 9231 9230 9229; CX 9229 22350 22351; CX 22414 22351 2600; CX 16995 22351 9227; CX 22478 22351 9228; CA 9228 9227 9226; CX 9226 22351 22352;
  CX 22479 22352 9225; CX 22415 22352 2599; CX 2648 16948 22178; CX 2647 16949 22179; CX 2646 16950 22180; CX 2645 16951 22181; CX 2644 16952 22182; CX 2643 16953 22183;
  CX 2642 16954 22184; CX 2641 16955 22185; CX 2640 16956 22186; CX 2639 16957 22187; CX 2638 16958 22188; CX 2637 16959 22189; CX 2636 16960 22190; CX 2635 16961 22191;
  CX 2634 16962 22192; CX 2633 16963 22193; CX 2632 16964 22194; CX 2631 16965 22195; CX 2630 16966 22196; CX 2629 16967 22197; CX 2628 16968 22198; CX 2627 16969 22199;
  CX 2626 16970 22200; CX 2625 16971 22201; CX 2624 16972 22202; CX 2623 16973 22203; CX 2622 16974 22204; CX 2621 16975 22205; CX 2620 16976 22206; CX 2619 16977 22207;
  CX 2618 16978 22208; CX 2617 16979 22209; CX 2616 16980 22210; CX 2615 16981 22211; CX 2614 16982 22212; CX 2613 16983 22213; CX 2612 16984 22214; CX 2611 16985 22215;
  CX 2610 16986 22216; CX 2609 16987 22217; CX 2608 16988 22218; CX 2607 16989 22219; CX 2606 16990 22220; CX 2605 16991 22221; CX 2604 16992 22222; CX 2603 16993 22223;
  CX 2602 16994 22224; CX 2601 16995 22225; CX 2600 16996 22226; CX 2599 16997 22227; CX 2528 16655 22488; CX 2535 16655 22481; CX 16996 22352 9224; CA 9225 9224 9223;
  CX 9223 22352 22353; CX 22480 22353 9222; CX 16997 22353 9221; CA 9222 9221 9220; CX 9220 22353 22354; CX 16998 22354 9218; CX 22416 22353 2598; CX 22481 22354 9219;
  CA 9219 9218 9217; CX 9217 22354 22355; CX 22418 22355 2596; CX 16999 22355 9215; CX 2598 16998 22228; CX 2596 17000 22230; CA 16655 4535 17539; CX 22417 22354 2597;
  CX 2597 16999 22229; CX 2532 16655 22484; CX 2529 16655 22487; CX 2527 16655 22489; CX 2534 16655 22482; CX 22482 22355 9216; CA 9216 9215 9214; CX 9214 22355 22356;
  CX 22419 22356 2595; CX 22483 22356 9213; CX 17000 22356 9212; CX 2595 17001 22231; CA 9213 9212 9211; CX 9211 22356 22357; CX 22420 22357 2594; CX 17001 22357 9209;
  CX 2594 17002 22232; CX 22484 22357 9210; CA 9210 9209 9208; CX 9208 22357 22358; CX 22421 22358 2593; CX 22485 22358 9207; CX 2593 17003 22233; CX 17002 22358 9206;
  CA 9207 9206 9205; CX 9205 22358 22359; CX 22486 22359 9204; CX 22422 22359 2592; CX 17003 22359 9203; CA 9204 9203 9202; CX 9202 22359 22360; CX 17004 22360 9200;
  CX 22487 22360 9201; CA 9201 9200 9199; CX 9199 22360 22361; CX 22424 22361 2590; CX 17005 22361 9197; CX 22488 22361 9198; CA 9198 9197 9196; CX 9196 22361 22362;
  CX 22425 22362 2589; CX 22489 22362 9195; CX 17006 22362 9194; CX 22423 22360 2591; CX 2591 17005 22235; CX 2592 17004 22234; CX 2590 17006 22236; CA 9195 9194 9193;
  CX 9193 22362 22363; CX 22426 22363 2588; CX 17007 22363 9191; CX 22490 22363 9192; CA 9192 9191 9190; CX 9190 22363 22364; CX 22427 22364 2587; CX 22491 22364 9189;
  CX 2588 17008 22238; CX 2587 17009 22239; CX 2589 17007 22237; CX 17008 22364 9188; CA 9189 9188 9187; CX 9187 22364 22365; CX 22428 22365 168; CI 168 16654;
  CX 2595 16654 22295; CX 2591 16654 22299; CX 2645 16654 22245; CX 2639 16654 22251; CX 2633 16654 22257; CX 2627 16654 22263; CX 2621 16654 22269; CX 2615 16654 22275;
  CX 2609 16654 22281; CX 2603 16654 22287; CX 2596 16654 22294; CX 2594 16654 22296; CX 2588 16654 22302; CX 2592 16654 22298; CX 2589 16654 22301; CX 2647 16654 22243;
  CX 2648 16654 22242; CX 16843 16654 22240; CX 2649 16654 22241; CX 2646 16654 22244; CX 2641 16654 22249; CX 2642 16654 22248; CX 2644 16654 22246; CX 2643 16654 22247;
  CX 2640 16654 22250; CX 2635 16654 22255; CX 2636 16654 22254; CX 2638 16654 22252; CX 2637 16654 22253; CX 2634 16654 22256; CX 2629 16654 22261; CX 2630 16654 22260;
  CX 2632 16654 22258; CX 2631 16654 22259; CX 2628 16654 22262; CX 2623 16654 22267; CX 2624 16654 22266; CX 2626 16654 22264; CX 2625 16654 22265; CX 2622 16654 22268;
  CX 2617 16654 22273; CX 2618 16654 22272; CX 2620 16654 22270; CX 2619 16654 22271; CX 2616 16654 22274; CX 2611 16654 22279; CX 2612 16654 22278; CX 2614 16654 22276;
  CX 2613 16654 22277; CX 2610 16654 22280; CX 2605 16654 22285; CX 2606 16654 22284; CX 2608 16654 22282; CX 2607 16654 22283; CX 2604 16654 22286; CX 2599 16654 22291;
  CX 2600 16654 22290; CX 2602 16654 22288; CX 2601 16654 22289; CX 2598 16654 22292; CA 16654 4535 17538; CX 2590 16654 22300; CA 22240 16946 22114; CX 22177 22114 2711;
  CX 16947 22114 9185; CX 22241 22114 9186; CA 9186 9185 9184; CX 9184 22114 22115; CX 22178 22115 2710; CX 22242 22115 9183; CX 16948 22115 9182; CA 9183 9182 9181;
  CX 9181 22115 22116; CX 22243 22116 9180; CX 22179 22116 2709; CX 16949 22116 9179; CA 9180 9179 9178; CX 9178 22116 22117; CX 16950 22117 9176; CX 22244 22117 9177;
  CA 9177 9176 9175; CX 9175 22117 22118; CX 22181 22118 2707; CX 16951 22118 9173; CX 22245 22118 9174; CA 9174 9173 9172; CX 22180 22117 2708; CX 9172 22118 22119;
  CX 22182 22119 2706; CX 22246 22119 9171; CX 16952 22119 9170; CA 9171 9170 9169; CX 9169 22119 22120; CX 22183 22120 2705; CX 16953 22120 9167; CX 22247 22120 9168;
  CA 9168 9167 9166; CX 9166 22120 22121; CX 22184 22121 2704; CX 22248 22121 9165; CX 16954 22121 9164; CA 9165 9164 9163; CX 9163 22121 22122; CX 22249 22122 9162;
  CX 22185 22122 2703; CX 16955 22122 9161; CA 9162 9161 9160; CX 9160 22122 22123; CX 16956 22123 9158; CX 22250 22123 9159; CA 9159 9158 9157; CX 9157 22123 22124;
  CX 22187 22124 2701; CX 16957 22124 9155; CX 22251 22124 9156; CA 9156 9155 9154; CX 22186 22123 2702; CX 9154 22124 22125; CX 22188 22125 2700; CX 22252 22125 9153].
(** Lines 18805-19204 of the file. *)
Definition divide64_47 : list cg := [
  CX 16958 22125 9152; CA 9153 9152 9151; CX 9151 22125 22126; CX 22189 22126 2699; CX 16959 22126 9149; CX 22253 22126 9150; CA 9150 9149 9148; CX 9148 22126 22127;
  CX 22190 22127 2698; CX 22254 22127 9147; CX 16960 22127 9146; CA 9147 9146 9145; CX 9145 22127 22128; CX 22255 22128 9144; CX 22191 22128 2697; CX 16961 22128 9143;
  CA 9144 9143 9142; CX 9142 22128 22129; CX 16962 22129 9140; CX 22256 22129 9141; CA 9141 9140 9139; CX 9139 22129 22130; CX 22193 22130 2695; CX 16963 22130 9137;
  CX 22257 22130 9138; CA 9138 9137 9136; CX 22192 22129 2696; CX 9136 22130 22131; CX 22194 22131 2694; CX 22258 22131 9135; CX 16964 22131 9134; CA 9135 9134 9133;
  CX 9133 22131 22132; CX 22195 22132 2693; CX 16965 22132 9131; CX 22259 22132 9132; CA 9132 9131 9130; CX 9130 22132 22133; CX 22196 22133 2692; CX 22260 22133 9129;
  CX 16966 22133 9128; CA 9129 9128 9127; CX 9127 22133 22134; CX 22261 22134 9126; CX 22197 22134 2691; CX 16967 22134 9125; CA 9126 9125 9124; CX 9124 22134 22135;
  CX 16968 22135 9122; CX 22262 22135 9123; CA 9123 9122 9121; CX 9121 22135 22136; CX 22199 22136 2689; CX 16969 22136 9119; CX 22263 22136 9120; CA 9120 9119 9118;
  CX 22198 22135 2690; CX 9118 22136 22137; CX 22200 22137 2688; CX 22264 22137 9117; CX 16970 22137 9116; CA 9117 9116 9115; CX 9115 22137 22138; CX 22201 22138 2687;
  CX 16971 22138 9113; CX 22265 22138 9114; CA 9114 9113 9112; CX 9112 22138 22139; CX 22202 22139 2686; CX 22266 22139 9111; CX 16972 22139 9110; CA 9111 9110 9109;
  CX 9109 22139 22140; CX 22267 22140 9108; CX 22203 22140 2685; CX 16973 22140 9107; CA 9108 9107 9106; CX 9106 22140 22141; CX 16974 22141 9104; CX 22268 22141 9105;
  CA 9105 9104 9103; CX 9103 22141 22142; CX 22205 22142 2683; CX 16975 22142 9101; CX 22269 22142 9102; CA 9102 9101 9100; CX 22204 22141 2684; CX 9100 22142 22143;
  CX 22270 22143 9099; CX 16976 22143 9098; CX 22206 22143 2682; CA 9099 9098 9097; CX 9097 22143 22144; CX 16977 22144 9095; CX 22207 22144 2681; CX 22271 22144 9096;
  CA 9096 9095 9094; CX 9094 22144 22145; CX 22272 22145 9093; CX 22208 22145 2680; CX 16978 22145 9092; CA 9093 9092 9091; CX 9091 22145 22146; CX 16979 22146 9089;
  CX 22209 22146 2679; CX 22273 22146 9090; CA 9090 9089 9088; CX 9088 22146 22147; CX 16980 22147 9086; CX 22274 22147 9087; CA 9087 9086 9085; CX 9085 22147 22148;
  CX 22275 22148 9084; CX 22211 22148 2677; CX 16981 22148 9083; CA 9084 9083 9082; CX 22210 22147 2678; CX 9082 22148 22149; CX 22212 22149 2676; CX 22276 22149 9081;
  CX 16982 22149 9080; CA 9081 9080 9079; CX 9079 22149 22150; CX 22213 22150 2675; CX 16983 22150 9077; CX 22277 22150 9078; CA 9078 9077 9076; CX 9076 22150 22151;
  CX 22214 22151 2674; CX 22278 22151 9075; CX 16984 22151 9074; CA 9075 9074 9073; CX 9073 22151 22152; CX 16985 22152 9071; CX 22215 22152 2673; CX 22279 22152 9072;
  CA 9072 9071 9070; CX 9070 22152 22153; CX 16986 22153 9068; CX 22280 22153 9069; CA 9069 9068 9067; CX 9067 22153 22154; CX 22217 22154 2671; CX 22281 22154 9066;
  CX 16987 22154 9065; CA 9066 9065 9064; CX 22216 22153 2672; CX 9064 22154 22155; CX 16988 22155 9062; CX 22218 22155 2670; CX 22282 22155 9063; CA 9063 9062 9061;
  CX 9061 22155 22156; CX 22219 22156 2669; CX 16989 22156 9059; CX 22283 22156 9060; CA 9060 9059 9058; CX 9058 22156 22157; CX 22284 22157 9057; CX 22220 22157 2668;
  CX 16990 22157 9056; CA 9057 9056 9055; CX 9055 22157 22158; CX 22285 22158 9054; CX 16991 22158 9053; CA 9054 9053 9052; CX 9052 22158 22159; CX 16992 22159 9050;
  CX 22221 22158 2667; CX 22286 22159 9051; CA 9051 9050 9049; CX 9049 22159 22160; CX 22223 22160 2665; CX 22287 22160 9048; CX 16993 22160 9047; CA 9048 9047 9046;
  CX 22222 22159 2666; CX 9046 22160 22161; CX 22288 22161 9045; CX 16994 22161 9044; CX 22224 22161 2664; CX 2711 16948 21989; CX 2710 16949 21990; CX 2709 16950 21991;
  CX 2708 16951 21992; CX 2707 16952 21993; CX 2706 16953 21994; CX 2705 16954 21995; CX 2704 16955 21996; CX 2703 16956 21997; CX 2702 16957 21998; CX 2701 16958 21999;
  CX 2700 16959 22000; CX 2699 16960 22001; CX 2698 16961 22002; CX 2697 16962 22003; CX 2696 16963 22004; CX 2695 16964 22005; CX 2694 16965 22006; CX 2693 16966 22007;
  CX 2692 16967 22008; CX 2691 16968 22009; CX 2690 16969 22010; CX 2689 16970 22011; CX 2688 16971 22012; CX 2687 16972 22013; CX 2686 16973 22014; CX 2685 16974 22015;
  CX 2684 16975 22016; CX 2683 16976 22017; CX 2682 16977 22018; CX 2681 16978 22019; CX 2680 16979 22020; CX 2679 16980 22021; CX 2678 16981 22022; CX 2677 16982 22023;
  CX 2676 16983 22024; CX 2675 16984 22025; CX 2674 16985 22026; CX 2673 16986 22027; CX 2672 16987 22028; CX 2671 16988 22029; CX 2670 16989 22030; CX 2669 16990 22031;
  CX 2668 16991 22032; CX 2667 16992 22033; CX 2666 16993 22034; CX 2665 16994 22035; CX 2664 16995 22036; CA 9045 9044 9043; CX 9043 22161 22162; CX 16995 22162 9041;
  CX 22225 22162 2663; CX 2663 16996 22037; CX 22289 22162 9042; CA 9042 9041 9040; CX 9040 22162 22163; CX 22226 22163 2662; CX 16996 22163 9038; CX 22290 22163 9039;
  CA 9039 9038 9037; CX 9037 22163 22164; CX 16997 22164 9035; CX 22291 22164 9036; CA 9036 9035 9034; CX 22227 22164 2661; CX 9034 22164 22165; CX 22228 22165 2660;
  CX 16998 22165 9032; CX 22292 22165 9033; CA 9033 9032 9031; CX 9031 22165 22166; CX 22229 22166 2659; CX 16999 22166 9029; CX 2662 16997 22038; CX 2661 16998 22039;
  CX 2660 16999 22040; CX 2659 17000 22041; CX 2593 16654 22297; CX 2597 16654 22293; CX 22293 22166 9030; CA 9030 9029 9028; CX 9028 22166 22167; CX 22230 22167 2658;
  CX 22294 22167 9027; CX 17000 22167 9026; CX 2658 17001 22042; CA 9027 9026 9025; CX 9025 22167 22168; CX 22231 22168 2657; CX 17001 22168 9023; CX 2657 17002 22043;
  CX 22295 22168 9024; CA 9024 9023 9022; CX 9022 22168 22169; CX 22232 22169 2656; CX 22296 22169 9021; CX 17002 22169 9020; CA 9021 9020 9019; CX 9019 22169 22170;
  CX 22297 22170 9018; CX 22233 22170 2655; CX 17003 22170 9017; CA 9018 9017 9016; CX 9016 22170 22171; CX 22234 22171 2654; CX 17004 22171 9014; CX 22298 22171 9015;
  CA 9015 9014 9013; CX 9013 22171 22172; CX 22235 22172 2653; CX 17005 22172 9011; CX 22299 22172 9012; CA 9012 9011 9010; CX 2653 17006 22047; CX 2654 17005 22046;
  CX 2656 17003 22044; CX 2655 17004 22045; CX 9010 22172 22173; CX 22236 22173 2652; CX 22300 22173 9009; CX 17006 22173 9008; CA 9009 9008 9007; CX 9007 22173 22174;
  CX 22237 22174 2651; CX 17007 22174 9005; CX 2652 17007 22048; CX 2651 17008 22049; CX 22301 22174 9006; CA 9006 9005 9004; CX 9004 22174 22175; CX 17008 22175 9002;
  CX 22238 22175 2650; CX 22302 22175 9003; CA 9003 9002 9001; CX 9001 22175 22176; CX 22239 22176 169; CX 2650 17009 22050; CI 169 16653; CX 2658 16653 22106;
  CX 2654 16653 22110; CX 2708 16653 22056; CX 2702 16653 22062; CX 2696 16653 22068; CX 2690 16653 22074; CX 2684 16653 22080; CX 2678 16653 22086; CX 2672 16653 22092;
  CX 2666 16653 22098; CX 2657 16653 22107; CX 2652 16653 22112; CX 2651 16653 22113; CX 2653 16653 22111; CX 2656 16653 22108; CX 2710 16653 22054; CX 2711 16653 22053;
  CX 16842 16653 22051; CA 22051 16946 21925; CX 21988 21925 2774; CX 16947 21925 8999; CX 2774 16948 21800; CX 2712 16653 22052; CX 22052 21925 9000; CA 9000 8999 8998;
  CX 8998 21925 21926; CX 22053 21926 8997; CX 21989 21926 2773; CX 16948 21926 8996; CA 8997 8996 8995; CX 8995 21926 21927; CX 16949 21927 8993; CX 22054 21927 8994;
  CA 8994 8993 8992; CX 8992 21927 21928; CX 21991 21928 2771; CX 16950 21928 8990; CX 21990 21927 2772; CX 2773 16949 21801; CX 2772 16950 21802; CX 2771 16951 21803;
  CX 2709 16653 22055; CX 22055 21928 8991; CA 8991 8990 8989; CX 8989 21928 21929; CX 21992 21929 2770; CX 22056 21929 8988; CX 16951 21929 8987; CA 8988 8987 8986;
  CX 8986 21929 21930; CX 21993 21930 2769; CX 16952 21930 8984; CX 2770 16952 21804; CX 2769 16953 21805; CX 2704 16653 22060; CX 2705 16653 22059; CX 2707 16653 22057;
  CX 22057 21930 8985; CA 8985 8984 8983; CX 8983 21930 21931; CX 21994 21931 2768; CX 16953 21931 8981; CX 2768 16954 21806; CX 2706 16653 22058; CX 22058 21931 8982;
  CA 8982 8981 8980; CX 8980 21931 21932; CX 22059 21932 8979; CX 21995 21932 2767; CX 16954 21932 8978; CA 8979 8978 8977; CX 8977 21932 21933; CX 16955 21933 8975;
  CX 22060 21933 8976; CA 8976 8975 8974; CX 8974 21933 21934; CX 21997 21934 2765; CX 16956 21934 8972; CX 21996 21933 2766; CX 2767 16955 21807; CX 2766 16956 21808].
(** Lines 19205-19604 of the file. *)
Definition divide64_48 : list cg := [
  CX 2765 16957 21809; CX 2703 16653 22061; CX 22061 21934 8973; CA 8973 8972 8971; CX 8971 21934 21935; CX 21998 21935 2764; CX 22062 21935 8970; CX 16957 21935 8969;
  CA 8970 8969 8968; CX 8968 21935 21936; CX 21999 21936 2763; CX 16958 21936 8966; CX 2764 16958 21810; CX 2763 16959 21811; CX 2698 16653 22066; CX 2699 16653 22065;
  CX 2701 16653 22063; CX 22063 21936 8967; CA 8967 8966 8965; CX 8965 21936 21937; CX 22000 21937 2762; CX 16959 21937 8963; CX 2762 16960 21812; CX 2700 16653 22064;
  CX 22064 21937 8964; CA 8964 8963 8962; CX 8962 21937 21938; CX 22065 21938 8961; CX 22001 21938 2761; CX 16960 21938 8960; CA 8961 8960 8959; CX 8959 21938 21939;
  CX 16961 21939 8957; CX 22066 21939 8958; CA 8958 8957 8956; CX 8956 21939 21940; CX 22003 21940 2759; CX 16962 21940 8954; CX 22002 21939 2760; CX 2761 16961 21813;
  CX 2760 16962 21814; CX 2759 16963 21815; CX 2697 16653 22067; CX 22067 21940 8955; CA 8955 8954 8953; CX 8953 21940 21941; CX 22004 21941 2758; CX 22068 21941 8952;
  CX 16963 21941 8951; CA 8952 8951 8950; CX 8950 21941 21942; CX 22005 21942 2757; CX 16964 21942 8948; CX 2758 16964 21816; CX 2757 16965 21817; CX 2692 16653 22072;
  CX 2693 16653 22071; CX 2695 16653 22069; CX 22069 21942 8949; CA 8949 8948 8947; CX 8947 21942 21943; CX 22006 21943 2756; CX 16965 21943 8945; CX 2756 16966 21818;
  CX 2694 16653 22070; CX 22070 21943 8946; CA 8946 8945 8944; CX 8944 21943 21944; CX 22071 21944 8943; CX 22007 21944 2755; CX 16966 21944 8942; CA 8943 8942 8941;
  CX 8941 21944 21945; CX 16967 21945 8939; CX 22072 21945 8940; CA 8940 8939 8938; CX 8938 21945 21946; CX 22009 21946 2753; CX 16968 21946 8936; CX 22008 21945 2754;
  CX 2755 16967 21819; CX 2754 16968 21820; CX 2753 16969 21821; CX 2691 16653 22073; CX 22073 21946 8937; CA 8937 8936 8935; CX 8935 21946 21947; CX 22010 21947 2752;
  CX 22074 21947 8934; CX 16969 21947 8933; CA 8934 8933 8932; CX 8932 21947 21948; CX 22011 21948 2751; CX 16970 21948 8930; CX 2752 16970 21822; CX 2751 16971 21823;
  CX 2686 16653 22078; CX 2687 16653 22077; CX 2689 16653 22075; CX 22075 21948 8931; CA 8931 8930 8929; CX 8929 21948 21949; CX 22012 21949 2750; CX 16971 21949 8927;
  CX 2750 16972 21824; CX 2688 16653 22076; CX 22076 21949 8928; CA 8928 8927 8926; CX 8926 21949 21950; CX 22013 21950 2749; CX 16972 21950 8924; CX 22077 21950 8925;
  CA 8925 8924 8923; CX 8923 21950 21951; CX 22078 21951 8922; CX 22014 21951 2748; CX 16973 21951 8921; CA 8922 8921 8920; CX 8920 21951 21952; CX 16974 21952 8918;
  CX 22015 21952 2747; CX 2749 16973 21825; CX 2748 16974 21826; CX 2747 16975 21827; CX 2685 16653 22079; CX 22079 21952 8919; CA 8919 8918 8917; CX 8917 21952 21953;
  CX 22016 21953 2746; CX 16975 21953 8915; CX 22080 21953 8916; CA 8916 8915 8914; CX 8914 21953 21954; CX 16976 21954 8912; CX 2746 16976 21828; CX 22017 21954 2745;
  CX 2745 16977 21829; CX 2680 16653 22084; CX 2681 16653 22083; CX 2683 16653 22081; CX 22081 21954 8913; CA 8913 8912 8911; CX 8911 21954 21955; CX 22018 21955 2744;
  CX 16977 21955 8909; CX 2744 16978 21830; CX 2682 16653 22082; CX 22082 21955 8910; CA 8910 8909 8908; CX 8908 21955 21956; CX 22083 21956 8907; CX 22019 21956 2743;
  CX 2743 16979 21831; CX 16978 21956 8906; CA 8907 8906 8905; CX 8905 21956 21957; CX 22020 21957 2742; CX 2742 16980 21832; CX 16979 21957 8903; CX 22084 21957 8904;
  CA 8904 8903 8902; CX 8902 21957 21958; CX 16980 21958 8900; CX 22021 21958 2741; CX 2741 16981 21833; CX 2679 16653 22085; CX 22085 21958 8901; CA 8901 8900 8899;
  CX 8899 21958 21959; CX 22022 21959 2740; CX 22086 21959 8898; CX 2740 16982 21834; CX 16981 21959 8897; CA 8898 8897 8896; CX 8896 21959 21960; CX 22023 21960 2739;
  CX 16982 21960 8894; CX 2739 16983 21835; CX 2674 16653 22090; CX 2675 16653 22089; CX 2677 16653 22087; CX 22087 21960 8895; CA 8895 8894 8893; CX 8893 21960 21961;
  CX 22024 21961 2738; CX 16983 21961 8891; CX 2738 16984 21836; CX 2676 16653 22088; CX 22088 21961 8892; CA 8892 8891 8890; CX 8890 21961 21962; CX 22025 21962 2737;
  CX 16984 21962 8888; CX 2737 16985 21837; CX 22089 21962 8889; CA 8889 8888 8887; CX 8887 21962 21963; CX 22026 21963 2736; CX 16985 21963 8885; CX 22090 21963 8886;
  CX 2736 16986 21838; CA 8886 8885 8884; CX 8884 21963 21964; CX 16986 21964 8882; CX 22027 21964 2735; CX 2735 16987 21839; CX 2673 16653 22091; CX 22091 21964 8883;
  CA 8883 8882 8881; CX 8881 21964 21965; CX 22028 21965 2734; CX 22092 21965 8880; CX 16987 21965 8879; CA 8880 8879 8878; CX 2734 16988 21840; CX 8878 21965 21966;
  CX 22029 21966 2733; CX 2733 16989 21841; CX 16988 21966 8876; CX 2668 16653 22096; CX 2669 16653 22095; CX 2671 16653 22093; CX 22093 21966 8877; CA 8877 8876 8875;
  CX 8875 21966 21967; CX 22030 21967 2732; CX 16989 21967 8873; CX 2732 16990 21842; CX 2670 16653 22094; CX 22094 21967 8874; CA 8874 8873 8872; CX 8872 21967 21968;
  CX 22095 21968 8871; CX 22031 21968 2731; CX 2731 16991 21843; CX 16990 21968 8870; CA 8871 8870 8869; CX 8869 21968 21969; CX 22032 21969 2730; CX 16991 21969 8867;
  CX 2730 16992 21844; CX 22096 21969 8868; CA 8868 8867 8866; CX 8866 21969 21970; CX 22033 21970 2729; CX 2729 16993 21845; CX 16992 21970 8864; CX 2667 16653 22097;
  CX 22097 21970 8865; CA 8865 8864 8863; CX 8863 21970 21971; CX 22034 21971 2728; CX 22098 21971 8862; CX 2728 16994 21846; CX 16993 21971 8861; CA 8862 8861 8860;
  CX 8860 21971 21972; CX 22035 21972 2727; CX 16994 21972 8858; CX 2727 16995 21847; CX 2662 16653 22102; CX 2663 16653 22101; CX 2665 16653 22099; CX 22099 21972 8859;
  CA 8859 8858 8857; CX 8857 21972 21973; CX 16995 21973 8855; CX 22036 21973 2726; CX 2726 16996 21848; CX 2664 16653 22100; CX 22100 21973 8856; CA 8856 8855 8854;
  CX 8854 21973 21974; CX 22037 21974 2725; CX 22101 21974 8853; CX 16996 21974 8852; CA 8853 8852 8851; CX 8851 21974 21975; CX 16997 21975 8849; CX 22038 21975 2724;
  CX 22102 21975 8850; CA 8850 8849 8848; CX 2725 16997 21849; CX 2724 16998 21850; CX 8848 21975 21976; CX 22039 21976 2723; CX 2723 16999 21851; CX 16998 21976 8846;
  CX 2661 16653 22103; CX 22103 21976 8847; CA 8847 8846 8845; CX 2660 16653 22104; CA 16653 4535 17537; CX 2655 16653 22109; CX 8845 21976 21977; CX 22104 21977 8844;
  CX 16999 21977 8843; CX 22040 21977 2722; CX 2722 17000 21852; CA 8844 8843 8842; CX 8842 21977 21978; CX 17000 21978 8840; CX 22041 21978 2721; CX 2721 17001 21853;
  CX 2659 16653 22105; CX 22105 21978 8841; CA 8841 8840 8839; CX 8839 21978 21979; CX 17001 21979 8837; CX 22042 21979 2720; CX 2720 17002 21854; CX 22106 21979 8838;
  CA 8838 8837 8836; CX 8836 21979 21980; CX 17002 21980 8834; CX 22107 21980 8835; CA 8835 8834 8833; CX 22043 21980 2719; CX 2719 17003 21855; CX 8833 21980 21981;
  CX 22108 21981 8832; CX 22044 21981 2718; CX 2718 17004 21856; CX 17003 21981 8831; CA 8832 8831 8830; CX 8830 21981 21982; CX 22109 21982 8829; CX 22045 21982 2717;
  CX 2717 17005 21857; CX 17004 21982 8828; CA 8829 8828 8827; CX 8827 21982 21983; CX 22046 21983 2716; CX 17005 21983 8825; CX 22110 21983 8826; CA 8826 8825 8824;
  CX 2716 17006 21858; CX 8824 21983 21984; CX 22111 21984 8823; CX 22047 21984 2715; CX 2715 17007 21859; CX 17006 21984 8822; CA 8823 8822 8821; CX 8821 21984 21985;
  CX 22112 21985 8820; CX 22048 21985 2714; CX 2714 17008 21860; CX 17007 21985 8819; CA 8820 8819 8818; CX 8818 21985 21986; CX 22113 21986 8817; CX 22049 21986 2713;
  CX 2713 17009 21861; CX 17008 21986 8816; CA 8817 8816 8815; CX 8815 21986 21987; CX 22050 21987 170; CI 170 16652; CX 2716 16652 21922; CX 16841 16652 21862;
  CA 21862 16946 21736; CX 2770 16652 21868; CX 2764 16652 21874; CX 2758 16652 21880; CX 2752 16652 21886; CX 2746 16652 21892; CX 2740 16652 21898; CX 2734 16652 21904;
  CX 2728 16652 21910; CX 21799 21736 2837; CX 2719 16652 21919; CX 16947 21736 8813; CX 2721 16652 21917; CX 2714 16652 21924; CX 2720 16652 21918; CX 2718 16652 21920;
  CX 2717 16652 21921; CX 2715 16652 21923; CX 2837 16948 21611; CX 2772 16652 21866; CX 2773 16652 21865; CX 2775 16652 21863; CX 21863 21736 8814; CA 8814 8813 8812;
  CX 8812 21736 21737; CX 21800 21737 2836; CX 16948 21737 8810; CX 2836 16949 21612; CX 2774 16652 21864; CX 21864 21737 8811; CA 8811 8810 8809; CX 8809 21737 21738;
  CX 21801 21738 2835; CX 16949 21738 8807; CX 21865 21738 8808; CA 8808 8807 8806; CX 8806 21738 21739; CX 21802 21739 2834; CX 16950 21739 8804; CX 21866 21739 8805].
(** Lines 19605-20004 of the file. *)
Definition divide64_49 : list cg := [
  CA 8805 8804 8803; CX 8803 21739 21740; CX 21803 21740 2833; CX 16951 21740 8801; CX 2835 16950 21613; CX 2834 16951 21614; CX 2833 16952 21615; CX 2771 16652 21867;
  CX 21867 21740 8802; CX 2766 16652 21872; CX 2767 16652 21871; CX 2769 16652 21869; CX 2768 16652 21870; CX 2765 16652 21873; CX 2760 16652 21878; CX 2761 16652 21877;
  CX 2763 16652 21875; CX 2762 16652 21876; CX 2759 16652 21879; CX 2754 16652 21884; CX 2755 16652 21883; CX 2757 16652 21881; CX 2756 16652 21882; CX 2753 16652 21885;
  CX 2748 16652 21890; CX 2749 16652 21889; CX 2751 16652 21887; CX 2750 16652 21888; CX 2747 16652 21891; CX 2742 16652 21896; CX 2743 16652 21895; CX 2745 16652 21893;
  CX 2744 16652 21894; CX 2741 16652 21897; CX 2736 16652 21902; CX 2737 16652 21901; CX 2739 16652 21899; CX 2738 16652 21900; CX 2735 16652 21903; CX 2730 16652 21908;
  CX 2731 16652 21907; CX 2733 16652 21905; CX 2732 16652 21906; CX 2729 16652 21909; CX 2724 16652 21914; CX 2725 16652 21913; CX 2727 16652 21911; CX 2726 16652 21912;
  CX 2723 16652 21915; CA 8802 8801 8800; CX 8800 21740 21741; CX 21804 21741 2832; CX 16952 21741 8798; CX 21868 21741 8799; CA 8799 8798 8797; CX 8797 21741 21742;
  CX 21805 21742 2831; CX 21869 21742 8796; CX 16953 21742 8795; CA 8796 8795 8794; CX 8794 21742 21743; CX 21870 21743 8793; CX 21806 21743 2830; CX 16954 21743 8792;
  CA 8793 8792 8791; CX 8791 21743 21744; CX 16955 21744 8789; CX 21871 21744 8790; CA 8790 8789 8788; CX 8788 21744 21745; CX 21808 21745 2828; CX 16956 21745 8786;
  CX 21872 21745 8787; CA 8787 8786 8785; CX 2832 16953 21616; CX 2831 16954 21617; CX 2830 16955 21618; CX 2828 16957 21620; CA 16652 4535 17536; CX 8785 21745 21746;
  CX 21809 21746 2827; CX 21873 21746 8784; CX 16957 21746 8783; CX 2827 16958 21621; CA 8784 8783 8782; CX 8782 21746 21747; CX 21810 21747 2826; CX 16958 21747 8780;
  CX 2826 16959 21622; CX 21874 21747 8781; CA 8781 8780 8779; CX 8779 21747 21748; CX 21811 21748 2825; CX 21875 21748 8778; CX 2825 16960 21623; CX 16959 21748 8777;
  CA 8778 8777 8776; CX 8776 21748 21749; CX 21812 21749 2824; CX 16960 21749 8774; CX 2824 16961 21624; CX 21876 21749 8775; CA 8775 8774 8773; CX 8773 21749 21750;
  CX 21813 21750 2823; CX 21877 21750 8772; CX 2823 16962 21625; CX 16961 21750 8771; CA 8772 8771 8770; CX 8770 21750 21751; CX 21878 21751 8769; CX 16962 21751 8768;
  CA 8769 8768 8767; CX 8767 21751 21752; CX 21879 21752 8766; CX 16963 21752 8765; CX 21814 21751 2822; CX 2822 16963 21626; CA 8766 8765 8764; CX 8764 21752 21753;
  CX 21880 21753 8763; CX 21816 21753 2820; CX 16964 21753 8762; CA 8763 8762 8761; CX 8761 21753 21754; CX 21817 21754 2819; CX 16965 21754 8759; CX 21881 21754 8760;
  CA 8760 8759 8758; CX 2820 16965 21628; CX 2819 16966 21629; CX 8758 21754 21755; CX 16966 21755 8756; CX 21818 21755 2818; CX 21882 21755 8757; CA 8757 8756 8755;
  CX 8755 21755 21756; CX 21819 21756 2817; CX 16967 21756 8753; CX 21883 21756 8754; CA 8754 8753 8752; CX 8752 21756 21757; CX 16968 21757 8750; CX 21884 21757 8751;
  CA 8751 8750 8749; CX 2818 16967 21630; CX 2817 16968 21631; CX 21820 21757 2816; CX 2816 16969 21632; CX 8749 21757 21758; CX 21821 21758 2815; CX 21885 21758 8748;
  CX 16969 21758 8747; CA 8748 8747 8746; CX 8746 21758 21759; CX 21822 21759 2814; CX 21886 21759 8745; CX 16970 21759 8744; CA 8745 8744 8743; CX 8743 21759 21760;
  CX 16971 21760 8741; CX 21823 21760 2813; CX 21887 21760 8742; CA 8742 8741 8740; CX 8740 21760 21761; CX 16972 21761 8738; CX 2815 16970 21633; CX 2814 16971 21634;
  CX 2813 16972 21635; CX 21888 21761 8739; CA 8739 8738 8737; CX 8737 21761 21762; CX 21889 21762 8736; CX 16973 21762 8735; CA 8736 8735 8734; CX 8734 21762 21763;
  CX 21826 21763 2810; CX 21890 21763 8733; CX 16974 21763 8732; CA 8733 8732 8731; CX 2810 16975 21638; CX 21824 21761 2812; CX 2812 16973 21636; CX 8731 21763 21764;
  CX 21827 21764 2809; CX 21891 21764 8730; CX 16975 21764 8729; CA 8730 8729 8728; CX 8728 21764 21765; CX 21828 21765 2808; CX 21892 21765 8727; CX 2809 16976 21639;
  CX 2808 16977 21640; CX 16976 21765 8726; CA 8727 8726 8725; CX 8725 21765 21766; CX 21893 21766 8724; CX 16977 21766 8723; CX 21829 21766 2807; CA 8724 8723 8722;
  CX 8722 21766 21767; CX 21830 21767 2806; CX 21894 21767 8721; CX 16978 21767 8720; CA 8721 8720 8719; CX 8719 21767 21768; CX 16979 21768 8717; CX 21895 21768 8718;
  CA 8718 8717 8716; CX 8716 21768 21769; CX 21896 21769 8715; CX 2807 16978 21641; CX 2806 16979 21642; CX 21832 21769 2804; CX 2804 16981 21644; CX 21831 21768 2805;
  CX 2805 16980 21643; CX 16980 21769 8714; CA 8715 8714 8713; CX 8713 21769 21770; CX 21897 21770 8712; CX 16981 21770 8711; CX 21833 21770 2803; CX 2803 16982 21645;
  CX 21825 21762 2811; CX 2811 16974 21637; CX 21815 21752 2821; CX 2821 16964 21627; CX 21807 21744 2829; CX 2829 16956 21619; CA 8712 8711 8710; CX 8710 21770 21771;
  CX 21834 21771 2802; CX 16982 21771 8708; CX 2802 16983 21646; CX 21898 21771 8709; CA 8709 8708 8707; CX 8707 21771 21772; CX 21899 21772 8706; CX 16983 21772 8705;
  CX 21835 21772 2801; CA 8706 8705 8704; CX 2801 16984 21647; CX 8704 21772 21773; CX 16984 21773 8702; CX 21900 21773 8703; CA 8703 8702 8701; CX 21836 21773 2800;
  CX 8701 21773 21774; CX 16985 21774 8699; CX 21901 21774 8700; CA 8700 8699 8698; CX 21837 21774 2799; CX 8698 21774 21775; CX 21838 21775 2798; CX 21902 21775 8697;
  CX 16986 21775 8696; CA 8697 8696 8695; CX 8695 21775 21776; CX 21839 21776 2797; CX 21903 21776 8694; CX 2800 16985 21648; CX 2799 16986 21649; CX 2798 16987 21650;
  CX 2797 16988 21651; CX 16987 21776 8693; CA 8694 8693 8692; CX 8692 21776 21777; CX 21840 21777 2796; CX 2796 16989 21652; CX 16988 21777 8690; CX 21904 21777 8691;
  CA 8691 8690 8689; CX 8689 21777 21778; CX 21841 21778 2795; CX 21905 21778 8688; CX 16989 21778 8687; CX 2795 16990 21653; CA 8688 8687 8686; CX 8686 21778 21779;
  CX 21906 21779 8685; CX 21842 21779 2794; CX 2794 16991 21654; CX 16990 21779 8684; CA 8685 8684 8683; CX 8683 21779 21780; CX 21843 21780 2793; CX 16991 21780 8681;
  CX 2793 16992 21655; CX 21907 21780 8682; CA 8682 8681 8680; CX 8680 21780 21781; CX 21844 21781 2792; CX 16992 21781 8678; CX 2792 16993 21656; CX 21908 21781 8679;
  CA 8679 8678 8677; CX 8677 21781 21782; CX 21909 21782 8676; CX 21845 21782 2791; CX 16993 21782 8675; CA 8676 8675 8674; CX 8674 21782 21783; CX 21846 21783 2790;
  CX 16994 21783 8672; CX 21910 21783 8673; CA 8673 8672 8671; CX 8671 21783 21784; CX 21847 21784 2789; CX 21911 21784 8670; CX 2791 16994 21657; CX 2790 16995 21658;
  CX 2789 16996 21659; CX 16995 21784 8669; CA 8670 8669 8668; CX 8668 21784 21785; CX 21848 21785 2788; CX 21912 21785 8667; CX 16996 21785 8666; CA 8667 8666 8665;
  CX 8665 21785 21786; CX 16997 21786 8663; CX 21913 21786 8664; CA 8664 8663 8662; CX 8662 21786 21787; CX 16998 21787 8660; CX 21850 21787 2786; CX 21914 21787 8661;
  CA 8661 8660 8659; CX 8659 21787 21788; CX 21915 21788 8658; CX 2788 16997 21660; CX 2786 16999 21662; CX 21851 21788 2785; CX 2785 17000 21663; CX 21849 21786 2787;
  CX 2787 16998 21661; CX 16999 21788 8657; CA 8658 8657 8656; CX 8656 21788 21789; CX 21852 21789 2784; CX 17000 21789 8654; CX 2784 17001 21664; CX 2722 16652 21916;
  CX 21916 21789 8655; CA 8655 8654 8653; CX 8653 21789 21790; CX 17001 21790 8651; CX 21853 21790 2783; CX 2783 17002 21665; CX 21917 21790 8652; CA 8652 8651 8650;
  CX 8650 21790 21791; CX 21854 21791 2782; CX 21918 21791 8649; CX 17002 21791 8648; CA 8649 8648 8647; CX 8647 21791 21792; CX 21855 21792 2781; CX 17003 21792 8645;
  CX 2781 17004 21667; CX 2782 17003 21666; CX 21919 21792 8646; CA 8646 8645 8644; CX 8644 21792 21793; CX 21920 21793 8643; CX 21856 21793 2780; CX 2780 17005 21668;
  CX 17004 21793 8642; CA 8643 8642 8641; CX 8641 21793 21794; CX 21857 21794 2779; CX 2779 17006 21669; CX 21921 21794 8640; CX 17005 21794 8639; CA 8640 8639 8638;
  CX 8638 21794 21795; CX 21858 21795 2778; CX 17006 21795 8636; CX 21922 21795 8637; CA 8637 8636 8635; CX 2778 17007 21670; CX 8635 21795 21796; CX 21923 21796 8634;
  CX 21859 21796 2777; CX 2777 17008 21671; CX 17007 21796 8633; CA 8634 8633 8632; CX 8632 21796 21797; CX 17008 21797 8630; CX 21924 21797 8631; CA 8631 8630 8629;
  CX 8629 21797 21798; CX 21860 21797 2776; CX 2776 17009 21672; CX 21861 21798 171; CI 171 16651; CX 2777 16651 21735; CX 2783 16651 21729; CX 16840 16651 21673].
(** Lines 20005-20404 of the file. *)
Definition divide64_50 : list cg := [
  CA 21673 16946 21547; CX 2833 16651 21679; CX 2827 16651 21685; CX 2821 16651 21691; CX 2815 16651 21697; CX 2809 16651 21703; CX 2803 16651 21709; CX 2797 16651 21715;
  CX 2791 16651 21721; CX 2781 16651 21731; CX 2779 16651 21733; CX 21610 21547 2900; CX 16947 21547 8627; CX 2778 16651 21734; CX 2782 16651 21730; CX 2900 16948 21422;
  CX 2835 16651 21677; CX 2836 16651 21676; CX 2838 16651 21674; CX 21674 21547 8628; CA 8628 8627 8626; CX 8626 21547 21548; CX 16948 21548 8624; CX 2837 16651 21675;
  CX 21675 21548 8625; CA 8625 8624 8623; CX 8623 21548 21549; CX 21612 21549 2898; CX 16949 21549 8621; CX 21676 21549 8622; CA 8622 8621 8620; CX 2898 16950 21424;
  CX 2834 16651 21678; CX 2829 16651 21683; CX 2830 16651 21682; CX 2832 16651 21680; CX 2831 16651 21681; CX 2828 16651 21684; CX 2823 16651 21689; CX 2824 16651 21688;
  CX 2826 16651 21686; CX 2825 16651 21687; CX 2822 16651 21690; CX 2817 16651 21695; CX 2818 16651 21694; CX 2820 16651 21692; CX 2819 16651 21693; CX 2816 16651 21696;
  CX 2811 16651 21701; CX 2812 16651 21700; CX 2814 16651 21698; CX 2813 16651 21699; CX 2810 16651 21702; CX 2805 16651 21707; CX 2806 16651 21706; CX 2808 16651 21704;
  CX 2807 16651 21705; CX 2804 16651 21708; CX 2799 16651 21713; CX 2800 16651 21712; CX 2802 16651 21710; CX 2801 16651 21711; CX 2798 16651 21714; CX 2793 16651 21719;
  CX 2794 16651 21718; CX 2796 16651 21716; CX 2795 16651 21717; CX 2792 16651 21720; CX 2787 16651 21725; CX 2788 16651 21724; CX 2790 16651 21722; CX 2789 16651 21723;
  CX 2786 16651 21726; CX 2785 16651 21727; CA 16651 4535 17535; CX 2780 16651 21732; CX 21611 21548 2899; CX 2899 16949 21423; CX 8620 21549 21550; CX 21613 21550 2897;
  CX 21677 21550 8619; CX 16950 21550 8618; CX 2897 16951 21425; CA 8619 8618 8617; CX 8617 21550 21551; CX 21614 21551 2896; CX 16951 21551 8615; CX 21678 21551 8616;
  CA 8616 8615 8614; CX 8614 21551 21552; CX 21615 21552 2895; CX 21679 21552 8613; CX 16952 21552 8612; CA 8613 8612 8611; CX 8611 21552 21553; CX 21680 21553 8610;
  CX 21616 21553 2894; CX 16953 21553 8609; CA 8610 8609 8608; CX 8608 21553 21554; CX 16954 21554 8606; CX 21681 21554 8607; CA 8607 8606 8605; CX 8605 21554 21555;
  CX 21618 21555 2892; CX 16955 21555 8603; CX 21682 21555 8604; CA 8604 8603 8602; CX 21617 21554 2893; CX 8602 21555 21556; CX 21619 21556 2891; CX 21683 21556 8601;
  CX 16956 21556 8600; CA 8601 8600 8599; CX 8599 21556 21557; CX 21620 21557 2890; CX 16957 21557 8597; CX 21684 21557 8598; CA 8598 8597 8596; CX 8596 21557 21558;
  CX 21621 21558 2889; CX 21685 21558 8595; CX 2896 16952 21426; CX 2895 16953 21427; CX 2894 16954 21428; CX 2893 16955 21429; CX 2892 16956 21430; CX 2891 16957 21431;
  CX 2890 16958 21432; CX 2889 16959 21433; CX 16958 21558 8594; CA 8595 8594 8593; CX 8593 21558 21559; CX 21622 21559 2888; CX 16959 21559 8591; CX 21686 21559 8592;
  CA 8592 8591 8590; CX 8590 21559 21560; CX 21623 21560 2887; CX 21687 21560 8589; CX 16960 21560 8588; CA 8589 8588 8587; CX 8587 21560 21561; CX 21688 21561 8586;
  CX 16961 21561 8585; CA 8586 8585 8584; CX 21624 21561 2886; CX 2888 16960 21434; CX 2887 16961 21435; CX 2886 16962 21436; CX 8584 21561 21562; CX 21625 21562 2885;
  CX 21689 21562 8583; CX 16962 21562 8582; CA 8583 8582 8581; CX 8581 21562 21563; CX 21690 21563 8580; CX 21626 21563 2884; CX 16963 21563 8579; CX 2885 16963 21437;
  CX 2884 16964 21438; CA 8580 8579 8578; CX 8578 21563 21564; CX 21627 21564 2883; CX 21691 21564 8577; CX 16964 21564 8576; CA 8577 8576 8575; CX 8575 21564 21565;
  CX 21692 21565 8574; CX 21628 21565 2882; CX 16965 21565 8573; CA 8574 8573 8572; CX 8572 21565 21566; CX 21693 21566 8571; CX 2883 16965 21439; CX 2882 16966 21440;
  CX 16966 21566 8570; CA 8571 8570 8569; CX 8569 21566 21567; CX 21630 21567 2880; CX 16967 21567 8567; CX 21694 21567 8568; CA 8568 8567 8566; CX 8566 21567 21568;
  CX 21631 21568 2879; CX 21695 21568 8565; CX 16968 21568 8564; CX 2880 16968 21442; CX 2879 16969 21443; CX 21629 21566 2881; CX 2881 16967 21441; CA 8565 8564 8563;
  CX 8563 21568 21569; CX 16969 21569 8561; CX 21696 21569 8562; CX 21632 21569 2878; CA 8562 8561 8560; CX 8560 21569 21570; CX 16970 21570 8558; CX 21633 21570 2877;
  CX 21697 21570 8559; CX 2878 16970 21444; CX 2877 16971 21445; CA 8559 8558 8557; CX 8557 21570 21571; CX 21634 21571 2876; CX 16971 21571 8555; CX 21698 21571 8556;
  CA 8556 8555 8554; CX 8554 21571 21572; CX 16972 21572 8552; CX 21699 21572 8553; CX 2876 16972 21446; CX 21635 21572 2875; CX 2875 16973 21447; CA 8553 8552 8551;
  CX 8551 21572 21573; CX 21700 21573 8550; CX 16973 21573 8549; CA 8550 8549 8548; CX 8548 21573 21574; CX 21701 21574 8547; CX 16974 21574 8546; CA 8547 8546 8545;
  CX 8545 21574 21575; CX 21702 21575 8544; CX 21638 21575 2872; CX 21636 21573 2874; CX 2874 16974 21448; CX 2872 16976 21450; CX 16975 21575 8543; CA 8544 8543 8542;
  CX 8542 21575 21576; CX 21639 21576 2871; CX 21703 21576 8541; CX 2871 16977 21451; CX 16976 21576 8540; CA 8541 8540 8539; CX 8539 21576 21577; CX 21640 21577 2870;
  CX 21704 21577 8538; CX 16977 21577 8537; CA 8538 8537 8536; CX 8536 21577 21578; CX 21641 21578 2869; CX 16978 21578 8534; CX 21705 21578 8535; CA 8535 8534 8533;
  CX 2870 16978 21452; CX 2869 16979 21453; CX 8533 21578 21579; CX 21706 21579 8532; CX 16979 21579 8531; CA 8532 8531 8530; CX 8530 21579 21580; CX 21707 21580 8529;
  CX 16980 21580 8528; CX 21643 21580 2867; CX 2867 16981 21455; CX 21642 21579 2868; CX 2868 16980 21454; CX 21637 21574 2873; CX 2873 16975 21449; CA 8529 8528 8527;
  CX 8527 21580 21581; CX 21644 21581 2866; CX 16981 21581 8525; CX 2866 16982 21456; CX 21708 21581 8526; CA 8526 8525 8524; CX 8524 21581 21582; CX 21645 21582 2865;
  CX 2865 16983 21457; CX 21709 21582 8523; CX 16982 21582 8522; CA 8523 8522 8521; CX 8521 21582 21583; CX 21646 21583 2864; CX 21710 21583 8520; CX 16983 21583 8519;
  CA 8520 8519 8518; CX 8518 21583 21584; CX 21647 21584 2863; CX 21711 21584 8517; CX 2864 16984 21458; CX 2863 16985 21459; CX 16984 21584 8516; CA 8517 8516 8515;
  CX 8515 21584 21585; CX 21712 21585 8514; CX 21648 21585 2862; CX 16985 21585 8513; CA 8514 8513 8512; CX 8512 21585 21586; CX 21649 21586 2861; CX 21713 21586 8511;
  CX 16986 21586 8510; CA 8511 8510 8509; CX 8509 21586 21587; CX 21714 21587 8508; CX 16987 21587 8507; CX 21650 21587 2860; CX 2862 16986 21460; CX 2861 16987 21461;
  CX 2860 16988 21462; CA 8508 8507 8506; CX 8506 21587 21588; CX 16988 21588 8504; CX 21651 21588 2859; CX 21715 21588 8505; CA 8505 8504 8503; CX 8503 21588 21589;
  CX 21716 21589 8502; CX 16989 21589 8501; CA 8502 8501 8500; CX 21652 21589 2858; CX 2859 16989 21463; CX 2858 16990 21464; CX 8500 21589 21590; CX 21653 21590 2857;
  CX 21717 21590 8499; CX 2857 16991 21465; CX 16990 21590 8498; CA 8499 8498 8497; CX 8497 21590 21591; CX 21718 21591 8496; CX 21654 21591 2856; CX 16991 21591 8495;
  CX 2856 16992 21466; CA 8496 8495 8494; CX 8494 21591 21592; CX 21655 21592 2855; CX 2855 16993 21467; CX 21719 21592 8493; CX 16992 21592 8492; CA 8493 8492 8491;
  CX 8491 21592 21593; CX 21720 21593 8490; CX 16993 21593 8489; CA 8490 8489 8488; CX 8488 21593 21594; CX 16994 21594 8486; CX 21721 21594 8487; CA 8487 8486 8485;
  CX 8485 21594 21595; CX 21722 21595 8484; CX 21658 21595 2852; CX 21657 21594 2853; CX 21656 21593 2854; CX 16995 21595 8483; CA 8484 8483 8482; CX 8482 21595 21596;
  CX 21659 21596 2851; CX 21723 21596 8481; CX 2854 16994 21468; CX 2853 16995 21469; CX 2852 16996 21470; CX 2851 16997 21471; CX 16996 21596 8480; CA 8481 8480 8479;
  CX 8479 21596 21597; CX 16997 21597 8477; CX 21660 21597 2850; CX 21724 21597 8478; CA 8478 8477 8476; CX 8476 21597 21598; CX 21661 21598 2849; CX 21725 21598 8475;
  CX 16998 21598 8474; CA 8475 8474 8473; CX 8473 21598 21599; CX 21662 21599 2848; CX 16999 21599 8471; CX 21726 21599 8472; CA 8472 8471 8470; CX 8470 21599 21600;
  CX 21663 21600 2847; CX 17000 21600 8468; CX 2850 16998 21472; CX 2849 16999 21473; CX 2848 17000 21474; CX 2847 17001 21475; CX 21727 21600 8469; CA 8469 8468 8467;
  CX 8467 21600 21601; CX 17001 21601 8465; CX 21664 21601 2846; CX 2846 17002 21476; CX 2784 16651 21728; CX 21728 21601 8466; CA 8466 8465 8464; CX 8464 21601 21602;
  CX 21729 21602 8463; CX 17002 21602 8462; CA 8463 8462 8461; CX 8461 21602 21603; CX 21666 21603 2844; CX 21730 21603 8460; CX 17003 21603 8459; CX 2844 17004 21478].
(** Lines 20405-20804 of the file. *)
Definition divide64_51 : list cg := [
  CA 8460 8459 8458; CX 8458 21603 21604; CX 21731 21604 8457; CX 21667 21604 2843; CX 2843 17005 21479; CX 21665 21602 2845; CX 2845 17003 21477; CX 17004 21604 8456;
  CA 8457 8456 8455; CX 8455 21604 21605; CX 17005 21605 8453; CX 21732 21605 8454; CA 8454 8453 8452; CX 8452 21605 21606; CX 21733 21606 8451; CX 21669 21606 2841;
  CX 2841 17007 21481; CX 17006 21606 8450; CA 8451 8450 8449; CX 8449 21606 21607; CX 21734 21607 8448; CX 21670 21607 2840; CX 2840 17008 21482; CX 17007 21607 8447;
  CA 8448 8447 8446; CX 21668 21605 2842; CX 2842 17006 21480; CX 8446 21607 21608; CX 21735 21608 8445; CX 21671 21608 2839; CX 2839 17009 21483; CX 17008 21608 8444;
  CA 8445 8444 8443; CX 8443 21608 21609; CX 21672 21609 172; CI 172 16650; CX 2841 16650 21545; CX 2846 16650 21540; CX 2901 16650 21485; CX 2895 16650 21491;
  CX 2889 16650 21497; CX 2883 16650 21503; CX 2877 16650 21509; CX 2871 16650 21515; CX 2865 16650 21521; CX 2859 16650 21527; CX 2853 16650 21533; CX 2845 16650 21541;
  CX 2840 16650 21546; CX 2843 16650 21543; CX 16839 16650 21484; CA 21484 16946 21358; CX 21485 21358 8442; CX 21421 21358 2963; CX 16947 21358 8441; CA 8442 8441 8440;
  CX 8440 21358 21359; CX 21422 21359 2962; CX 16948 21359 8438; CX 2963 16948 21233; CX 2962 16949 21234; CX 2897 16650 21489; CX 2898 16650 21488; CX 2900 16650 21486;
  CX 21486 21359 8439; CA 8439 8438 8437; CX 8437 21359 21360; CX 21423 21360 2961; CX 16949 21360 8435; CX 2961 16950 21235; CX 2899 16650 21487; CX 21487 21360 8436;
  CA 8436 8435 8434; CX 8434 21360 21361; CX 21424 21361 2960; CX 21488 21361 8433; CX 16950 21361 8432; CA 8433 8432 8431; CX 8431 21361 21362; CX 21425 21362 2959;
  CX 16951 21362 8429; CX 21489 21362 8430; CA 8430 8429 8428; CX 8428 21362 21363; CX 21426 21363 2958; CX 16952 21363 8426; CX 2960 16951 21236; CX 2959 16952 21237;
  CX 2958 16953 21238; CX 2896 16650 21490; CX 21490 21363 8427; CA 8427 8426 8425; CX 8425 21363 21364; CX 21491 21364 8424; CX 21427 21364 2957; CX 16953 21364 8423;
  CA 8424 8423 8422; CX 8422 21364 21365; CX 21428 21365 2956; CX 16954 21365 8420; CX 2957 16954 21239; CX 2956 16955 21240; CX 2891 16650 21495; CX 2892 16650 21494;
  CX 2894 16650 21492; CX 21492 21365 8421; CA 8421 8420 8419; CX 8419 21365 21366; CX 21429 21366 2955; CX 16955 21366 8417; CX 2955 16956 21241; CX 2893 16650 21493;
  CX 21493 21366 8418; CA 8418 8417 8416; CX 2890 16650 21496; CX 2885 16650 21501; CX 2886 16650 21500; CX 2888 16650 21498; CX 2887 16650 21499; CX 2884 16650 21502;
  CX 2879 16650 21507; CX 2880 16650 21506; CX 2882 16650 21504; CX 2881 16650 21505; CX 2878 16650 21508; CX 2873 16650 21513; CX 2874 16650 21512; CX 2876 16650 21510;
  CX 2875 16650 21511; CX 2872 16650 21514; CX 2867 16650 21519; CX 2868 16650 21518; CX 2870 16650 21516; CX 2869 16650 21517; CX 2866 16650 21520; CX 2861 16650 21525;
  CX 2862 16650 21524; CX 2864 16650 21522; CX 2863 16650 21523; CX 2860 16650 21526; CX 2855 16650 21531; CX 2856 16650 21530; CX 2858 16650 21528; CX 2857 16650 21529;
  CX 2854 16650 21532; CX 2849 16650 21537; CX 2850 16650 21536; CX 2852 16650 21534; CX 2851 16650 21535; CX 2848 16650 21538; CA 16650 4535 17534; CX 8416 21366 21367;
  CX 21430 21367 2954; CX 21494 21367 8415; CX 16956 21367 8414; CX 2954 16957 21242; CA 8415 8414 8413; CX 8413 21367 21368; CX 21431 21368 2953; CX 16957 21368 8411;
  CX 21495 21368 8412; CA 8412 8411 8410; CX 8410 21368 21369; CX 16958 21369 8408; CX 21432 21369 2952; CX 21496 21369 8409; CA 8409 8408 8407; CX 8407 21369 21370;
  CX 21497 21370 8406; CX 21433 21370 2951; CX 16959 21370 8405; CA 8406 8405 8404; CX 8404 21370 21371; CX 16960 21371 8402; CX 21498 21371 8403; CA 8403 8402 8401;
  CX 8401 21371 21372; CX 21435 21372 2949; CX 16961 21372 8399; CX 21499 21372 8400; CA 8400 8399 8398; CX 21434 21371 2950; CX 2953 16958 21243; CX 2952 16959 21244;
  CX 2951 16960 21245; CX 2950 16961 21246; CX 2949 16962 21247; CX 8398 21372 21373; CX 16962 21373 8396; CX 21436 21373 2948; CX 2948 16963 21248; CX 21500 21373 8397;
  CA 8397 8396 8395; CX 8395 21373 21374; CX 21437 21374 2947; CX 2947 16964 21249; CX 21501 21374 8394; CX 16963 21374 8393; CA 8394 8393 8392; CX 8392 21374 21375;
  CX 21438 21375 2946; CX 21502 21375 8391; CX 2946 16965 21250; CX 2842 16650 21544; CX 16964 21375 8390; CA 8391 8390 8389; CX 8389 21375 21376; CX 16965 21376 8387;
  CX 21503 21376 8388; CA 8388 8387 8386; CX 8386 21376 21377; CX 16966 21377 8384; CX 21504 21377 8385; CX 21440 21377 2944; CX 2944 16967 21252; CX 21439 21376 2945;
  CX 2945 16966 21251; CA 8385 8384 8383; CX 8383 21377 21378; CX 21505 21378 8382; CX 16967 21378 8381; CA 8382 8381 8380; CX 8380 21378 21379; CX 21506 21379 8379;
  CX 21442 21379 2942; CX 2942 16969 21254; CX 16968 21379 8378; CA 8379 8378 8377; CX 8377 21379 21380; CX 21507 21380 8376; CX 21443 21380 2941; CX 2941 16970 21255;
  CX 16969 21380 8375; CA 8376 8375 8374; CX 8374 21380 21381; CX 16970 21381 8372; CX 21508 21381 8373; CX 21444 21381 2940; CX 2940 16971 21256; CA 8373 8372 8371;
  CX 8371 21381 21382; CX 16971 21382 8369; CX 21509 21382 8370; CA 8370 8369 8368; CX 8368 21382 21383; CX 21446 21383 2938; CX 16972 21383 8366; CX 2938 16973 21258;
  CX 21510 21383 8367; CA 8367 8366 8365; CX 8365 21383 21384; CX 21447 21384 2937; CX 21511 21384 8364; CX 16973 21384 8363; CX 2937 16974 21259; CX 21445 21382 2939;
  CX 2939 16972 21257; CA 8364 8363 8362; CX 8362 21384 21385; CX 21448 21385 2936; CX 21512 21385 8361; CX 16974 21385 8360; CA 8361 8360 8359; CX 8359 21385 21386;
  CX 21513 21386 8358; CX 21449 21386 2935; CX 2936 16975 21260; CX 2935 16976 21261; CX 16975 21386 8357; CA 8358 8357 8356; CX 8356 21386 21387; CX 16976 21387 8354;
  CX 21450 21387 2934; CX 21514 21387 8355; CA 8355 8354 8353; CX 8353 21387 21388; CX 21515 21388 8352; CX 21451 21388 2933; CX 2934 16977 21262; CX 2933 16978 21263;
  CX 16977 21388 8351; CA 8352 8351 8350; CX 8350 21388 21389; CX 16978 21389 8348; CX 21516 21389 8349; CX 21452 21389 2932; CA 8349 8348 8347; CX 8347 21389 21390;
  CX 21517 21390 8346; CX 16979 21390 8345; CX 21453 21390 2931; CX 2932 16979 21264; CX 2931 16980 21265; CA 8346 8345 8344; CX 8344 21390 21391; CX 21518 21391 8343;
  CX 16980 21391 8342; CA 8343 8342 8341; CX 8341 21391 21392; CX 21519 21392 8340; CX 21455 21392 2929; CX 16981 21392 8339; CA 8340 8339 8338; CX 8338 21392 21393;
  CX 16982 21393 8336; CX 2929 16982 21267; CX 21456 21393 2928; CX 2928 16983 21268; CX 21520 21393 8337; CA 8337 8336 8335; CX 8335 21393 21394; CX 21521 21394 8334;
  CX 21457 21394 2927; CX 16983 21394 8333; CA 8334 8333 8332; CX 8332 21394 21395; CX 21522 21395 8331; CX 21458 21395 2926; CX 16984 21395 8330; CA 8331 8330 8329;
  CX 8329 21395 21396; CX 21523 21396 8328; CX 16985 21396 8327; CX 21459 21396 2925; CX 2927 16984 21269; CX 2926 16985 21270; CX 2925 16986 21271; CA 8328 8327 8326;
  CX 8326 21396 21397; CX 16986 21397 8324; CX 21524 21397 8325; CA 8325 8324 8323; CX 8323 21397 21398; CX 21525 21398 8322; CX 21461 21398 2923; CX 16987 21398 8321;
  CA 8322 8321 8320; CX 8320 21398 21399; CX 21526 21399 8319; CX 16988 21399 8318; CA 8319 8318 8317; CX 8317 21399 21400; CX 21527 21400 8316; CX 21463 21400 2921;
  CX 16989 21400 8315; CA 8316 8315 8314; CX 8314 21400 21401; CX 21464 21401 2920; CX 16990 21401 8312; CX 21528 21401 8313; CA 8313 8312 8311; CX 8311 21401 21402;
  CX 21465 21402 2919; CX 2923 16988 21273; CX 2921 16990 21275; CX 2920 16991 21276; CX 2919 16992 21277; CX 16991 21402 8309; CX 21460 21397 2924; CX 2924 16987 21272;
  CX 21529 21402 8310; CA 8310 8309 8308; CX 8308 21402 21403; CX 21530 21403 8307; CX 16992 21403 8306; CA 8307 8306 8305; CX 8305 21403 21404; CX 21467 21404 2917;
  CX 16993 21404 8303; CX 21531 21404 8304; CA 8304 8303 8302; CX 8302 21404 21405; CX 16994 21405 8300; CX 21468 21405 2916; CX 21532 21405 8301; CA 8301 8300 8299;
  CX 8299 21405 21406; CX 21469 21406 2915; CX 21533 21406 8298; CX 21466 21403 2918; CX 16995 21406 8297; CA 8298 8297 8296; CX 8296 21406 21407; CX 21470 21407 2914;
  CX 16996 21407 8294; CX 21534 21407 8295; CA 8295 8294 8293; CX 2918 16993 21278; CX 2917 16994 21279; CX 2916 16995 21280; CX 2915 16996 21281; CX 2914 16997 21282;
  CX 8293 21407 21408; CX 16997 21408 8291; CX 21535 21408 8292; CA 8292 8291 8290; CX 8290 21408 21409; CX 16998 21409 8288; CX 21472 21409 2912; CX 21471 21408 2913].
(** Lines 20805-21204 of the file. *)
Definition divide64_52 : list cg := [
  CX 2913 16998 21283; CX 2912 16999 21284; CX 21536 21409 8289; CA 8289 8288 8287; CX 8287 21409 21410; CX 21537 21410 8286; CX 21473 21410 2911; CX 16999 21410 8285;
  CA 8286 8285 8284; CX 8284 21410 21411; CX 17000 21411 8282; CX 21538 21411 8283; CA 8283 8282 8281; CX 8281 21411 21412; CX 17001 21412 8279; CX 21474 21411 2910;
  CX 2911 17000 21285; CX 2910 17001 21286; CX 21475 21412 2909; CX 2909 17002 21287; CX 21454 21391 2930; CX 2930 16981 21266; CX 21462 21399 2922; CX 2922 16989 21274;
  CX 21441 21378 2943; CX 2943 16968 21253; CX 2844 16650 21542; CX 2847 16650 21539; CX 21539 21412 8280; CA 8280 8279 8278; CX 8278 21412 21413; CX 17002 21413 8276;
  CX 21476 21413 2908; CX 21540 21413 8277; CA 8277 8276 8275; CX 8275 21413 21414; CX 21477 21414 2907; CX 17003 21414 8273; CX 2908 17003 21288; CX 2907 17004 21289;
  CX 21541 21414 8274; CA 8274 8273 8272; CX 8272 21414 21415; CX 17004 21415 8270; CX 21542 21415 8271; CA 8271 8270 8269; CX 8269 21415 21416; CX 17005 21416 8267;
  CX 21479 21416 2905; CX 21478 21415 2906; CX 21543 21416 8268; CA 8268 8267 8266; CX 2906 17005 21290; CX 2905 17006 21291; CX 8266 21416 21417; CX 21544 21417 8265;
  CX 21480 21417 2904; CX 17006 21417 8264; CA 8265 8264 8263; CX 8263 21417 21418; CX 17007 21418 8261; CX 21481 21418 2903; CX 21545 21418 8262; CA 8262 8261 8260;
  CX 8260 21418 21419; CX 17008 21419 8258; CX 21546 21419 8259; CA 8259 8258 8257; CX 8257 21419 21420; CX 21483 21420 173; CX 21482 21419 2902; CX 2903 17008 21293;
  CX 2904 17007 21292; CX 2902 17009 21294; CI 173 16649; CX 2905 16649 21355; CX 2903 16649 21357; CX 2964 16649 21296; CX 2958 16649 21302; CX 2952 16649 21308;
  CX 2946 16649 21314; CX 2940 16649 21320; CX 2934 16649 21326; CX 2928 16649 21332; CX 2922 16649 21338; CX 2916 16649 21344; CX 2904 16649 21356; CX 16838 16649 21295;
  CA 21295 16946 21169; CX 16947 21169 8255; CX 21296 21169 8256; CA 8256 8255 8254; CX 8254 21169 21170; CX 21233 21170 3025; CX 16948 21170 8252; CX 21232 21169 3026;
  CX 3026 16948 21044; CX 3025 16949 21045; CX 2960 16649 21300; CX 2961 16649 21299; CX 2963 16649 21297; CX 21297 21170 8253; CA 8253 8252 8251; CX 8251 21170 21171;
  CX 21234 21171 3024; CX 16949 21171 8249; CX 3024 16950 21046; CX 2962 16649 21298; CX 21298 21171 8250; CA 8250 8249 8248; CX 8248 21171 21172; CX 21235 21172 3023;
  CX 16950 21172 8246; CX 21299 21172 8247; CA 8247 8246 8245; CX 8245 21172 21173; CX 16951 21173 8243; CX 21236 21173 3022; CX 21300 21173 8244; CA 8244 8243 8242;
  CX 8242 21173 21174; CX 21237 21174 3021; CX 16952 21174 8240; CX 3023 16951 21047; CX 3022 16952 21048; CX 3021 16953 21049; CX 2959 16649 21301; CX 21301 21174 8241;
  CA 8241 8240 8239; CX 8239 21174 21175; CX 16953 21175 8237; CX 21302 21175 8238; CA 8238 8237 8236; CX 8236 21175 21176; CX 21239 21176 3019; CX 16954 21176 8234;
  CX 21238 21175 3020; CX 3020 16954 21050; CX 3019 16955 21051; CX 2954 16649 21306; CX 2955 16649 21305; CX 2957 16649 21303; CX 21303 21176 8235; CA 8235 8234 8233;
  CX 2956 16649 21304; CX 2953 16649 21307; CX 2948 16649 21312; CX 2949 16649 21311; CX 2951 16649 21309; CX 2950 16649 21310; CX 2947 16649 21313; CX 2942 16649 21318;
  CX 2943 16649 21317; CX 2945 16649 21315; CX 2944 16649 21316; CX 2941 16649 21319; CX 2936 16649 21324; CX 2937 16649 21323; CX 2939 16649 21321; CX 2938 16649 21322;
  CX 2935 16649 21325; CX 2930 16649 21330; CX 2931 16649 21329; CX 2933 16649 21327; CX 2932 16649 21328; CX 2929 16649 21331; CX 2924 16649 21336; CX 2925 16649 21335;
  CX 2927 16649 21333; CX 2926 16649 21334; CX 2923 16649 21337; CX 2918 16649 21342; CX 2919 16649 21341; CX 2921 16649 21339; CX 2920 16649 21340; CX 2917 16649 21343;
  CX 2912 16649 21348; CX 2913 16649 21347; CX 2915 16649 21345; CX 2914 16649 21346; CX 2911 16649 21349; CX 2908 16649 21352; CX 2910 16649 21350; CA 16649 4535 17533;
  CX 8233 21176 21177; CX 21240 21177 3018; CX 21304 21177 8232; CX 16955 21177 8231; CX 3018 16956 21052; CA 8232 8231 8230; CX 8230 21177 21178; CX 21241 21178 3017;
  CX 16956 21178 8228; CX 21305 21178 8229; CA 8229 8228 8227; CX 8227 21178 21179; CX 21242 21179 3016; CX 21306 21179 8226; CX 16957 21179 8225; CA 8226 8225 8224;
  CX 8224 21179 21180; CX 21307 21180 8223; CX 21243 21180 3015; CX 16958 21180 8222; CA 8223 8222 8221; CX 8221 21180 21181; CX 16959 21181 8219; CX 21308 21181 8220;
  CA 8220 8219 8218; CX 8218 21181 21182; CX 21245 21182 3013; CX 16960 21182 8216; CX 21309 21182 8217; CA 8217 8216 8215; CX 21244 21181 3014; CX 8215 21182 21183;
  CX 21310 21183 8214; CX 16961 21183 8213; CX 21246 21183 3012; CA 8214 8213 8212; CX 8212 21183 21184; CX 16962 21184 8210; CX 21247 21184 3011; CX 21311 21184 8211;
  CA 8211 8210 8209; CX 8209 21184 21185; CX 21248 21185 3010; CX 21312 21185 8208; CX 16963 21185 8207; CA 8208 8207 8206; CX 8206 21185 21186; CX 21249 21186 3009;
  CX 16964 21186 8204; CX 21313 21186 8205; CA 8205 8204 8203; CX 8203 21186 21187; CX 21314 21187 8202; CX 16965 21187 8201; CA 8202 8201 8200; CX 8200 21187 21188;
  CX 16966 21188 8198; CX 21315 21188 8199; CA 8199 8198 8197; CX 21251 21188 3007; CX 21250 21187 3008; CX 3017 16957 21053; CX 3016 16958 21054; CX 3015 16959 21055;
  CX 3014 16960 21056; CX 3013 16961 21057; CX 3012 16962 21058; CX 3011 16963 21059; CX 3010 16964 21060; CX 3009 16965 21061; CX 3008 16966 21062; CX 3007 16967 21063;
  CX 8197 21188 21189; CX 21252 21189 3006; CX 21316 21189 8196; CX 16967 21189 8195; CA 8196 8195 8194; CX 8194 21189 21190; CX 21317 21190 8193; CX 21253 21190 3005;
  CX 16968 21190 8192; CA 8193 8192 8191; CX 8191 21190 21191; CX 16969 21191 8189; CX 21254 21191 3004; CX 21318 21191 8190; CA 8190 8189 8188; CX 8188 21191 21192;
  CX 16970 21192 8186; CX 21319 21192 8187; CA 8187 8186 8185; CX 8185 21192 21193; CX 21320 21193 8184; CX 16971 21193 8183; CA 8184 8183 8182; CX 8182 21193 21194;
  CX 21321 21194 8181; CX 21257 21194 3001; CX 16972 21194 8180; CA 8181 8180 8179; CX 8179 21194 21195; CX 16973 21195 8177; CX 21322 21195 8178; CA 8178 8177 8176;
  CX 21258 21195 3000; CX 8176 21195 21196; CX 16974 21196 8174; CX 21323 21196 8175; CX 21259 21196 2999; CA 8175 8174 8173; CX 8173 21196 21197; CX 21324 21197 8172;
  CX 21260 21197 2998; CX 3006 16968 21064; CX 3005 16969 21065; CX 3004 16970 21066; CX 3001 16973 21069; CX 3000 16974 21070; CX 2999 16975 21071; CX 2998 16976 21072;
  CX 21256 21193 3002; CX 3002 16972 21068; CX 16975 21197 8171; CA 8172 8171 8170; CX 8170 21197 21198; CX 21325 21198 8169; CX 16976 21198 8168; CA 8169 8168 8167;
  CX 21261 21198 2997; CX 8167 21198 21199; CX 16977 21199 8165; CX 21262 21199 2996; CX 21326 21199 8166; CA 8166 8165 8164; CX 8164 21199 21200; CX 16978 21200 8162;
  CX 21327 21200 8163; CA 8163 8162 8161; CX 8161 21200 21201; CX 21328 21201 8160; CX 21263 21200 2995; CX 21264 21201 2994; CX 16979 21201 8159; CA 8160 8159 8158;
  CX 8158 21201 21202; CX 21265 21202 2993; CX 16980 21202 8156; CX 2997 16977 21073; CX 2996 16978 21074; CX 2995 16979 21075; CX 2994 16980 21076; CX 2993 16981 21077;
  CX 21329 21202 8157; CA 8157 8156 8155; CX 8155 21202 21203; CX 16981 21203 8153; CX 21266 21203 2992; CX 21330 21203 8154; CA 8154 8153 8152; CX 8152 21203 21204;
  CX 16982 21204 8150; CX 2992 16982 21078; CX 21331 21204 8151; CA 8151 8150 8149; CX 8149 21204 21205; CX 16983 21205 8147; CX 21332 21205 8148; CX 21268 21205 2990;
  CA 8148 8147 8146; CX 8146 21205 21206; CX 16984 21206 8144; CX 21333 21206 8145; CA 8145 8144 8143; CX 8143 21206 21207; CX 21270 21207 2988; CX 16985 21207 8141;
  CX 21334 21207 8142; CX 21269 21206 2989; CX 2990 16984 21080; CX 2989 16985 21081; CX 2988 16986 21082; CA 8142 8141 8140; CX 8140 21207 21208; CX 21271 21208 2987;
  CX 16986 21208 8138; CX 2987 16987 21083; CX 21335 21208 8139; CA 8139 8138 8137; CX 8137 21208 21209; CX 21272 21209 2986; CX 21336 21209 8136; CX 2986 16988 21084;
  CX 16987 21209 8135; CA 8136 8135 8134; CX 8134 21209 21210; CX 21337 21210 8133; CX 21273 21210 2985; CX 16988 21210 8132; CA 8133 8132 8131; CX 8131 21210 21211;
  CX 21274 21211 2984; CX 16989 21211 8129; CX 21338 21211 8130; CA 8130 8129 8128; CX 2985 16989 21085; CX 2984 16990 21086; CX 8128 21211 21212; CX 21275 21212 2983;
  CX 21339 21212 8127; CX 16990 21212 8126; CA 8127 8126 8125; CX 8125 21212 21213; CX 21276 21213 2982; CX 16991 21213 8123; CX 2983 16991 21087; CX 2982 16992 21088].
(** Lines 21205-21604 of the file. *)
Definition divide64_53 : list cg := [
  CX 21340 21213 8124; CA 8124 8123 8122; CX 8122 21213 21214; CX 16992 21214 8120; CX 21341 21214 8121; CA 8121 8120 8119; CX 8119 21214 21215; CX 21342 21215 8118;
  CX 16993 21215 8117; CA 8118 8117 8116; CX 8116 21215 21216; CX 16994 21216 8114; CX 21343 21216 8115; CA 8115 8114 8113; CX 8113 21216 21217; CX 16995 21217 8111;
  CX 21344 21217 8112; CX 21280 21217 2978; CX 21278 21215 2980; CX 21279 21216 2979; CX 21277 21214 2981; CA 8112 8111 8110; CX 8110 21217 21218; CX 21345 21218 8109;
  CX 21281 21218 2977; CX 2981 16993 21089; CX 2980 16994 21090; CX 2979 16995 21091; CX 2978 16996 21092; CX 2977 16997 21093; CX 16996 21218 8108; CA 8109 8108 8107;
  CX 8107 21218 21219; CX 21346 21219 8106; CX 16997 21219 8105; CA 8106 8105 8104; CX 8104 21219 21220; CX 21347 21220 8103; CX 21282 21219 2976; CX 2976 16998 21094;
  CX 21283 21220 2975; CX 2975 16999 21095; CX 16998 21220 8102; CA 8103 8102 8101; CX 8101 21220 21221; CX 16999 21221 8099; CX 21284 21221 2974; CX 21348 21221 8100;
  CA 8100 8099 8098; CX 8098 21221 21222; CX 21349 21222 8097; CX 17000 21222 8096; CA 8097 8096 8095; CX 8095 21222 21223; CX 17001 21223 8093; CX 21286 21223 2972;
  CX 21285 21222 2973; CX 21350 21223 8094; CA 8094 8093 8092; CX 8092 21223 21224; CX 21287 21224 2971; CX 2974 17000 21096; CX 2973 17001 21097; CX 2972 17002 21098;
  CX 2971 17003 21099; CX 17002 21224 8090; CX 21267 21204 2991; CX 2991 16983 21079; CX 21255 21192 3003; CX 3003 16971 21067; CX 2907 16649 21353; CX 2906 16649 21354;
  CX 2909 16649 21351; CX 21351 21224 8091; CA 8091 8090 8089; CX 8089 21224 21225; CX 17003 21225 8087; CX 21352 21225 8088; CX 21288 21225 2970; CX 2970 17004 21100;
  CA 8088 8087 8086; CX 8086 21225 21226; CX 21289 21226 2969; CX 17004 21226 8084; CX 21353 21226 8085; CA 8085 8084 8083; CX 8083 21226 21227; CX 21290 21227 2968;
  CX 17005 21227 8081; CX 21354 21227 8082; CA 8082 8081 8080; CX 2969 17005 21101; CX 2968 17006 21102; CX 8080 21227 21228; CX 17006 21228 8078; CX 21355 21228 8079;
  CX 21291 21228 2967; CX 2967 17007 21103; CA 8079 8078 8077; CX 8077 21228 21229; CX 21292 21229 2966; CX 21356 21229 8076; CX 2966 17008 21104; CX 17007 21229 8075;
  CA 8076 8075 8074; CX 8074 21229 21230; CX 21357 21230 8073; CX 17008 21230 8072; CA 8073 8072 8071; CX 8071 21230 21231; CX 21294 21231 174; CX 21293 21230 2965;
  CX 2965 17009 21105; CI 174 16648; CX 2966 16648 21168; CX 3026 16648 21108; CX 3020 16648 21114; CX 3014 16648 21120; CX 3008 16648 21126; CX 3002 16648 21132;
  CX 2996 16648 21138; CX 2990 16648 21144; CX 2984 16648 21150; CX 2978 16648 21156; CX 2971 16648 21163; CX 2968 16648 21166; CX 2970 16648 21164; CX 2969 16648 21165;
  CX 2967 16648 21167; CX 16837 16648 21106; CX 3027 16648 21107; CX 3022 16648 21112; CX 3023 16648 21111; CX 3025 16648 21109; CX 3024 16648 21110; CX 3021 16648 21113;
  CX 3016 16648 21118; CX 3017 16648 21117; CX 3019 16648 21115; CX 3018 16648 21116; CX 3015 16648 21119; CX 3010 16648 21124; CX 3011 16648 21123; CX 3013 16648 21121;
  CX 3012 16648 21122; CX 3009 16648 21125; CX 3004 16648 21130; CX 3005 16648 21129; CX 3007 16648 21127; CX 3006 16648 21128; CX 3003 16648 21131; CX 2998 16648 21136;
  CX 2999 16648 21135; CX 3001 16648 21133; CX 3000 16648 21134; CX 2997 16648 21137; CX 2992 16648 21142; CX 2993 16648 21141; CX 2995 16648 21139; CX 2994 16648 21140;
  CX 2991 16648 21143; CX 2986 16648 21148; CX 2987 16648 21147; CX 2989 16648 21145; CX 2988 16648 21146; CX 2985 16648 21149; CX 2980 16648 21154; CX 2981 16648 21153;
  CX 2983 16648 21151; CX 2982 16648 21152; CX 2979 16648 21155; CX 2974 16648 21160; CX 2975 16648 21159; CX 2977 16648 21157; CX 2976 16648 21158; CX 2973 16648 21161;
  CA 16648 4535 17532; CA 21106 16946 20980; CX 16947 20980 8069; CX 21107 20980 8070; CA 8070 8069 8068; CX 8068 20980 20981; CX 21044 20981 3088; CX 16948 20981 8066;
  CX 21108 20981 8067; CA 8067 8066 8065; CX 21043 20980 3089; CX 8065 20981 20982; CX 21045 20982 3087; CX 21109 20982 8064; CX 16949 20982 8063; CA 8064 8063 8062;
  CX 8062 20982 20983; CX 21046 20983 3086; CX 16950 20983 8060; CX 21110 20983 8061; CA 8061 8060 8059; CX 8059 20983 20984; CX 16951 20984 8057; CX 21047 20984 3085;
  CX 21111 20984 8058; CA 8058 8057 8056; CX 8056 20984 20985; CX 21112 20985 8055; CX 21048 20985 3084; CX 16952 20985 8054; CA 8055 8054 8053; CX 8053 20985 20986;
  CX 21049 20986 3083; CX 16953 20986 8051; CX 21113 20986 8052; CA 8052 8051 8050; CX 8050 20986 20987; CX 21050 20987 3082; CX 16954 20987 8048; CX 21114 20987 8049;
  CA 8049 8048 8047; CX 8047 20987 20988; CX 21051 20988 3081; CX 21115 20988 8046; CX 16955 20988 8045; CA 8046 8045 8044; CX 8044 20988 20989; CX 21052 20989 3080;
  CX 16956 20989 8042; CX 21116 20989 8043; CA 8043 8042 8041; CX 8041 20989 20990; CX 21053 20990 3079; CX 21117 20990 8040; CX 16957 20990 8039; CA 8040 8039 8038;
  CX 8038 20990 20991; CX 21118 20991 8037; CX 21054 20991 3078; CX 16958 20991 8036; CA 8037 8036 8035; CX 8035 20991 20992; CX 16959 20992 8033; CX 21119 20992 8034;
  CA 8034 8033 8032; CX 8032 20992 20993; CX 21056 20993 3076; CX 16960 20993 8030; CX 21120 20993 8031; CA 8031 8030 8029; CX 8029 20993 20994; CX 21057 20994 3075;
  CX 21121 20994 8028; CX 16961 20994 8027; CA 8028 8027 8026; CX 8026 20994 20995; CX 21058 20995 3074; CX 16962 20995 8024; CX 21055 20992 3077; CX 21122 20995 8025;
  CA 8025 8024 8023; CX 8023 20995 20996; CX 21059 20996 3073; CX 21123 20996 8022; CX 3089 16948 20855; CX 3088 16949 20856; CX 3087 16950 20857; CX 3086 16951 20858;
  CX 3085 16952 20859; CX 3084 16953 20860; CX 3083 16954 20861; CX 3082 16955 20862; CX 3081 16956 20863; CX 3080 16957 20864; CX 3079 16958 20865; CX 3078 16959 20866;
  CX 3077 16960 20867; CX 3076 16961 20868; CX 3075 16962 20869; CX 3074 16963 20870; CX 3073 16964 20871; CX 16963 20996 8021; CA 8022 8021 8020; CX 8020 20996 20997;
  CX 21124 20997 8019; CX 21060 20997 3072; CX 16964 20997 8018; CA 8019 8018 8017; CX 8017 20997 20998; CX 21061 20998 3071; CX 16965 20998 8015; CX 21125 20998 8016;
  CA 8016 8015 8014; CX 8014 20998 20999; CX 16966 20999 8012; CX 21126 20999 8013; CA 8013 8012 8011; CX 8011 20999 21000; CX 21127 21000 8010; CX 21063 21000 3069;
  CX 16967 21000 8009; CA 8010 8009 8008; CX 8008 21000 21001; CX 21128 21001 8007; CX 16968 21001 8006; CX 21064 21001 3068; CA 8007 8006 8005; CX 8005 21001 21002;
  CX 16969 21002 8003; CX 21129 21002 8004; CX 21065 21002 3067; CA 8004 8003 8002; CX 8002 21002 21003; CX 16970 21003 8000; CX 21130 21003 8001; CA 8001 8000 7999;
  CX 21066 21003 3066; CX 7999 21003 21004; CX 21131 21004 7998; CX 21067 21004 3065; CX 16971 21004 7997; CA 7998 7997 7996; CX 7996 21004 21005; CX 16972 21005 7994;
  CX 21132 21005 7995; CA 7995 7994 7993; CX 7993 21005 21006; CX 16973 21006 7991; CX 21133 21006 7992; CA 7992 7991 7990; CX 21069 21006 3063; CX 21068 21005 3064;
  CX 7990 21006 21007; CX 21070 21007 3062; CX 21134 21007 7989; CX 16974 21007 7988; CA 7989 7988 7987; CX 7987 21007 21008; CX 16975 21008 7985; CX 21135 21008 7986;
  CX 21071 21008 3061; CA 7986 7985 7984; CX 7984 21008 21009; CX 16976 21009 7982; CX 21136 21009 7983; CA 7983 7982 7981; CX 7981 21009 21010; CX 16977 21010 7979;
  CX 21137 21010 7980; CX 21073 21010 3059; CA 7980 7979 7978; CX 7978 21010 21011; CX 16978 21011 7976; CX 21138 21011 7977; CA 7977 7976 7975; CX 7975 21011 21012;
  CX 21072 21009 3060; CX 21139 21012 7974; CX 16979 21012 7973; CA 7974 7973 7972; CX 7972 21012 21013; CX 21076 21013 3056; CX 21140 21013 7971; CX 16980 21013 7970;
  CA 7971 7970 7969; CX 21074 21011 3058; CX 7969 21013 21014; CX 21077 21014 3055; CX 21141 21014 7968; CX 21075 21012 3057; CX 3072 16965 20872; CX 3071 16966 20873;
  CX 3069 16968 20875; CX 3068 16969 20876; CX 3067 16970 20877; CX 3066 16971 20878; CX 3065 16972 20879; CX 3064 16973 20880; CX 3063 16974 20881; CX 3062 16975 20882;
  CX 3061 16976 20883; CX 3060 16977 20884; CX 3059 16978 20885; CX 3058 16979 20886; CX 3057 16980 20887; CX 3056 16981 20888; CX 3055 16982 20889; CX 21062 20999 3070;
  CX 3070 16967 20874; CX 16981 21014 7967; CA 7968 7967 7966; CX 7966 21014 21015; CX 21142 21015 7965; CX 16982 21015 7964; CA 7965 7964 7963; CX 21078 21015 3054;
  CX 7963 21015 21016; CX 16983 21016 7961; CX 21143 21016 7962; CA 7962 7961 7960; CX 7960 21016 21017; CX 21144 21017 7959; CX 21080 21017 3052; CX 16984 21017 7958].
(** Lines 21605-22004 of the file. *)
Definition divide64_54 : list cg := [
  CA 7959 7958 7957; CX 7957 21017 21018; CX 21081 21018 3051; CX 21145 21018 7956; CX 16985 21018 7955; CA 7956 7955 7954; CX 7954 21018 21019; CX 21146 21019 7953;
  CX 21082 21019 3050; CX 16986 21019 7952; CA 7953 7952 7951; CX 7951 21019 21020; CX 16987 21020 7949; CX 21083 21020 3049; CX 21147 21020 7950; CA 7950 7949 7948;
  CX 7948 21020 21021; CX 21148 21021 7947; CX 21084 21021 3048; CX 16988 21021 7946; CA 7947 7946 7945; CX 7945 21021 21022; CX 21085 21022 3047; CX 16989 21022 7943;
  CX 21149 21022 7944; CA 7944 7943 7942; CX 7942 21022 21023; CX 21086 21023 3046; CX 16990 21023 7940; CX 21150 21023 7941; CA 7941 7940 7939; CX 7939 21023 21024;
  CX 16991 21024 7937; CX 21087 21024 3045; CX 3054 16983 20890; CX 3052 16985 20892; CX 3051 16986 20893; CX 3050 16987 20894; CX 3049 16988 20895; CX 3048 16989 20896;
  CX 3047 16990 20897; CX 3046 16991 20898; CX 3045 16992 20899; CX 21151 21024 7938; CA 7938 7937 7936; CX 7936 21024 21025; CX 16992 21025 7934; CX 21088 21025 3044;
  CX 3044 16993 20900; CX 21079 21016 3053; CX 3053 16984 20891; CX 21152 21025 7935; CA 7935 7934 7933; CX 7933 21025 21026; CX 16993 21026 7931; CX 21089 21026 3043;
  CX 21153 21026 7932; CA 7932 7931 7930; CX 7930 21026 21027; CX 21154 21027 7929; CX 21090 21027 3042; CX 16994 21027 7928; CA 7929 7928 7927; CX 7927 21027 21028;
  CX 21091 21028 3041; CX 16995 21028 7925; CX 21155 21028 7926; CA 7926 7925 7924; CX 7924 21028 21029; CX 21156 21029 7923; CX 21092 21029 3040; CX 16996 21029 7922;
  CA 7923 7922 7921; CX 7921 21029 21030; CX 16997 21030 7919; CX 21093 21030 3039; CX 21157 21030 7920; CA 7920 7919 7918; CX 7918 21030 21031; CX 16998 21031 7916;
  CX 21158 21031 7917; CA 7917 7916 7915; CX 7915 21031 21032; CX 16999 21032 7913; CX 21095 21032 3037; CX 21094 21031 3038; CX 21159 21032 7914; CA 7914 7913 7912;
  CX 7912 21032 21033; CX 17000 21033 7910; CX 21096 21033 3036; CX 21160 21033 7911; CA 7911 7910 7909; CX 7909 21033 21034; CX 21097 21034 3035; CX 17001 21034 7907;
  CX 21161 21034 7908; CA 7908 7907 7906; CX 7906 21034 21035; CX 21098 21035 3034; CX 17002 21035 7904; CX 3043 16994 20901; CX 3042 16995 20902; CX 3041 16996 20903;
  CX 3040 16997 20904; CX 3039 16998 20905; CX 3038 16999 20906; CX 3037 17000 20907; CX 3036 17001 20908; CX 3035 17002 20909; CX 3034 17003 20910; CX 2972 16648 21162;
  CX 21162 21035 7905; CA 7905 7904 7903; CX 7903 21035 21036; CX 21099 21036 3033; CX 21163 21036 7902; CX 17003 21036 7901; CA 7902 7901 7900; CX 7900 21036 21037;
  CX 21164 21037 7899; CX 21100 21037 3032; CX 17004 21037 7898; CA 7899 7898 7897; CX 7897 21037 21038; CX 17005 21038 7895; CX 21101 21038 3031; CX 21165 21038 7896;
  CA 7896 7895 7894; CX 7894 21038 21039; CX 17006 21039 7892; CX 21102 21039 3030; CX 3033 17004 20911; CX 3031 17006 20913; CX 3030 17007 20914; CX 3032 17005 20912;
  CX 21166 21039 7893; CA 7893 7892 7891; CX 7891 21039 21040; CX 17007 21040 7889; CX 21103 21040 3029; CX 3029 17008 20915; CX 21167 21040 7890; CA 7890 7889 7888;
  CX 7888 21040 21041; CX 21104 21041 3028; CX 21168 21041 7887; CX 3028 17009 20916; CX 17008 21041 7886; CA 7887 7886 7885; CX 7885 21041 21042; CX 21105 21042 175;
  CI 175 16647; CX 3033 16647 20975; CX 3032 16647 20976; CX 3031 16647 20977; CX 3030 16647 20978; CX 3029 16647 20979; CX 3089 16647 20919; CX 3083 16647 20925;
  CX 3077 16647 20931; CX 3071 16647 20937; CX 3065 16647 20943; CX 3059 16647 20949; CX 3053 16647 20955; CX 3047 16647 20961; CX 3041 16647 20967; CX 16836 16647 20917;
  CA 20917 16946 20791; CX 20854 20791 3152; CX 16947 20791 7883; CX 3152 16948 20666; CX 3090 16647 20918; CX 20918 20791 7884; CA 7884 7883 7882; CX 7882 20791 20792;
  CX 20855 20792 3151; CX 20919 20792 7881; CX 16948 20792 7880; CA 7881 7880 7879; CX 7879 20792 20793; CX 20856 20793 3150; CX 16949 20793 7877; CX 3151 16949 20667;
  CX 3150 16950 20668; CX 3085 16647 20923; CX 3086 16647 20922; CX 3088 16647 20920; CX 20920 20793 7878; CA 7878 7877 7876; CX 7876 20793 20794; CX 20857 20794 3149;
  CX 16950 20794 7874; CX 3149 16951 20669; CX 3087 16647 20921; CX 20921 20794 7875; CA 7875 7874 7873; CX 7873 20794 20795; CX 20922 20795 7872; CX 20858 20795 3148;
  CX 16951 20795 7871; CA 7872 7871 7870; CX 7870 20795 20796; CX 16952 20796 7868; CX 20923 20796 7869; CA 7869 7868 7867; CX 7867 20796 20797; CX 20860 20797 3146;
  CX 16953 20797 7865; CX 20859 20796 3147; CX 3148 16952 20670; CX 3147 16953 20671; CX 3146 16954 20672; CX 3084 16647 20924; CX 20924 20797 7866; CA 7866 7865 7864;
  CX 7864 20797 20798; CX 20861 20798 3145; CX 20925 20798 7863; CX 16954 20798 7862; CA 7863 7862 7861; CX 7861 20798 20799; CX 20862 20799 3144; CX 16955 20799 7859;
  CX 3145 16955 20673; CX 3144 16956 20674; CX 3079 16647 20929; CX 3080 16647 20928; CX 3082 16647 20926; CX 20926 20799 7860; CA 7860 7859 7858; CX 7858 20799 20800;
  CX 20863 20800 3143; CX 16956 20800 7856; CX 3143 16957 20675; CX 3081 16647 20927; CX 20927 20800 7857; CA 7857 7856 7855; CX 7855 20800 20801; CX 20928 20801 7854;
  CX 20864 20801 3142; CX 16957 20801 7853; CA 7854 7853 7852; CX 7852 20801 20802; CX 16958 20802 7850; CX 20929 20802 7851; CA 7851 7850 7849; CX 7849 20802 20803;
  CX 20866 20803 3140; CX 16959 20803 7847; CX 20865 20802 3141; CX 3142 16958 20676; CX 3141 16959 20677; CX 3140 16960 20678; CX 3078 16647 20930; CX 20930 20803 7848;
  CA 7848 7847 7846; CX 7846 20803 20804; CX 20867 20804 3139; CX 20931 20804 7845; CX 16960 20804 7844; CA 7845 7844 7843; CX 7843 20804 20805; CX 20868 20805 3138;
  CX 16961 20805 7841; CX 3139 16961 20679; CX 3138 16962 20680; CX 3073 16647 20935; CX 3074 16647 20934; CX 3076 16647 20932; CX 20932 20805 7842; CA 7842 7841 7840;
  CX 7840 20805 20806; CX 20869 20806 3137; CX 16962 20806 7838; CX 3137 16963 20681; CX 3075 16647 20933; CX 20933 20806 7839; CA 7839 7838 7837; CX 7837 20806 20807;
  CX 20934 20807 7836; CX 20870 20807 3136; CX 16963 20807 7835; CA 7836 7835 7834; CX 7834 20807 20808; CX 16964 20808 7832; CX 20935 20808 7833; CA 7833 7832 7831;
  CX 7831 20808 20809; CX 20872 20809 3134; CX 16965 20809 7829; CX 20871 20808 3135; CX 3136 16964 20682; CX 3135 16965 20683; CX 3134 16966 20684; CX 3072 16647 20936;
  CX 20936 20809 7830; CA 7830 7829 7828; CX 7828 20809 20810; CX 20873 20810 3133; CX 20937 20810 7827; CX 16966 20810 7826; CA 7827 7826 7825; CX 7825 20810 20811;
  CX 20874 20811 3132; CX 16967 20811 7823; CX 3133 16967 20685; CX 3132 16968 20686; CX 3067 16647 20941; CX 3068 16647 20940; CX 3070 16647 20938; CX 20938 20811 7824;
  CA 7824 7823 7822; CX 7822 20811 20812; CX 20875 20812 3131; CX 16968 20812 7820; CX 3131 16969 20687; CX 3069 16647 20939; CX 20939 20812 7821; CA 7821 7820 7819;
  CX 7819 20812 20813; CX 20940 20813 7818; CX 20876 20813 3130; CX 16969 20813 7817; CA 7818 7817 7816; CX 7816 20813 20814; CX 16970 20814 7814; CX 20941 20814 7815;
  CA 7815 7814 7813; CX 7813 20814 20815; CX 20878 20815 3128; CX 16971 20815 7811; CX 20877 20814 3129; CX 3130 16970 20688; CX 3129 16971 20689; CX 3128 16972 20690;
  CX 3066 16647 20942; CX 20942 20815 7812; CA 7812 7811 7810; CX 7810 20815 20816; CX 20879 20816 3127; CX 20943 20816 7809; CX 16972 20816 7808; CA 7809 7808 7807;
  CX 7807 20816 20817; CX 16973 20817 7805; CX 20880 20817 3126; CX 3127 16973 20691; CX 3126 16974 20692; CX 3061 16647 20947; CX 3062 16647 20946; CX 3064 16647 20944;
  CX 20944 20817 7806; CA 7806 7805 7804; CX 7804 20817 20818; CX 16974 20818 7802; CX 20881 20818 3125; CX 3125 16975 20693; CX 3063 16647 20945; CX 20945 20818 7803;
  CA 7803 7802 7801; CX 7801 20818 20819; CX 20946 20819 7800; CX 20882 20819 3124; CX 3124 16976 20694; CX 16975 20819 7799; CA 7800 7799 7798; CX 7798 20819 20820;
  CX 20883 20820 3123; CX 16976 20820 7796; CX 3123 16977 20695; CX 20947 20820 7797; CA 7797 7796 7795; CX 7795 20820 20821; CX 20884 20821 3122; CX 3122 16978 20696;
  CX 16977 20821 7793; CX 3060 16647 20948; CX 20948 20821 7794; CA 7794 7793 7792; CX 7792 20821 20822; CX 20885 20822 3121; CX 20949 20822 7791; CX 16978 20822 7790;
  CA 7791 7790 7789; CX 7789 20822 20823; CX 20886 20823 3120; CX 16979 20823 7787; CX 3121 16979 20697; CX 3120 16980 20698; CX 3055 16647 20953; CX 3056 16647 20952;
  CX 3058 16647 20950; CX 20950 20823 7788; CA 7788 7787 7786; CX 7786 20823 20824; CX 16980 20824 7784; CX 20887 20824 3119; CX 3119 16981 20699; CX 3057 16647 20951].
(** Lines 22005-22404 of the file. *)
Definition divide64_55 : list cg := [
  CX 20951 20824 7785; CA 7785 7784 7783; CX 7783 20824 20825; CX 16981 20825 7781; CX 20888 20825 3118; CX 3118 16982 20700; CX 20952 20825 7782; CA 7782 7781 7780;
  CX 7780 20825 20826; CX 20889 20826 3117; CX 16982 20826 7778; CX 20953 20826 7779; CA 7779 7778 7777; CX 7777 20826 20827; CX 20890 20827 3116; CX 16983 20827 7775;
  CX 3117 16983 20701; CX 3116 16984 20702; CX 3054 16647 20954; CX 20954 20827 7776; CA 7776 7775 7774; CX 7774 20827 20828; CX 16984 20828 7772; CX 20891 20828 3115;
  CX 3115 16985 20703; CX 20955 20828 7773; CA 7773 7772 7771; CX 7771 20828 20829; CX 20892 20829 3114; CX 3114 16986 20704; CX 16985 20829 7769; CX 3049 16647 20959;
  CX 3050 16647 20958; CX 3052 16647 20956; CX 20956 20829 7770; CA 7770 7769 7768; CX 7768 20829 20830; CX 16986 20830 7766; CX 20893 20830 3113; CX 3113 16987 20705;
  CX 3051 16647 20957; CX 20957 20830 7767; CA 7767 7766 7765; CX 7765 20830 20831; CX 20894 20831 3112; CX 3112 16988 20706; CX 20958 20831 7764; CX 16987 20831 7763;
  CA 7764 7763 7762; CX 7762 20831 20832; CX 20959 20832 7761; CX 20895 20832 3111; CX 3111 16989 20707; CX 16988 20832 7760; CA 7761 7760 7759; CX 7759 20832 20833;
  CX 16989 20833 7757; CX 20896 20833 3110; CX 3110 16990 20708; CX 3048 16647 20960; CX 20960 20833 7758; CA 7758 7757 7756; CX 7756 20833 20834; CX 20897 20834 3109;
  CX 16990 20834 7754; CX 3109 16991 20709; CX 20961 20834 7755; CA 7755 7754 7753; CX 7753 20834 20835; CX 16991 20835 7751; CX 20898 20835 3108; CX 3108 16992 20710;
  CX 3043 16647 20965; CX 3044 16647 20964; CX 3046 16647 20962; CX 20962 20835 7752; CA 7752 7751 7750; CX 7750 20835 20836; CX 16992 20836 7748; CX 20899 20836 3107;
  CX 3107 16993 20711; CX 3045 16647 20963; CX 20963 20836 7749; CA 7749 7748 7747; CX 7747 20836 20837; CX 20900 20837 3106; CX 3106 16994 20712; CX 20964 20837 7746;
  CX 16993 20837 7745; CA 7746 7745 7744; CX 7744 20837 20838; CX 20901 20838 3105; CX 3105 16995 20713; CX 16994 20838 7742; CX 20965 20838 7743; CA 7743 7742 7741;
  CX 7741 20838 20839; CX 16995 20839 7739; CX 20902 20839 3104; CX 3104 16996 20714; CX 3042 16647 20966; CX 20966 20839 7740; CA 7740 7739 7738; CX 7738 20839 20840;
  CX 20903 20840 3103; CX 20967 20840 7737; CX 16996 20840 7736; CA 7737 7736 7735; CX 7735 20840 20841; CX 20904 20841 3102; CX 16997 20841 7733; CX 3103 16997 20715;
  CX 3102 16998 20716; CX 3037 16647 20971; CX 3038 16647 20970; CX 3040 16647 20968; CX 20968 20841 7734; CA 7734 7733 7732; CX 7732 20841 20842; CX 20905 20842 3101;
  CX 16998 20842 7730; CX 3101 16999 20717; CX 3039 16647 20969; CX 20969 20842 7731; CA 7731 7730 7729; CX 7729 20842 20843; CX 16999 20843 7727; CX 20906 20843 3100;
  CX 20970 20843 7728; CX 3100 17000 20718; CA 7728 7727 7726; CX 7726 20843 20844; CX 20907 20844 3099; CX 17000 20844 7724; CX 20971 20844 7725; CA 7725 7724 7723;
  CX 3099 17001 20719; CX 7723 20844 20845; CX 17001 20845 7721; CX 20908 20845 3098; CX 3098 17002 20720; CX 3036 16647 20972; CX 20972 20845 7722; CA 7722 7721 7720;
  CX 3035 16647 20973; CX 7720 20845 20846; CX 20973 20846 7719; CX 17002 20846 7718; CX 20909 20846 3097; CX 3097 17003 20721; CA 16647 4535 17531; CA 7719 7718 7717;
  CX 7717 20846 20847; CX 20910 20847 3096; CX 3096 17004 20722; CX 17003 20847 7715; CX 3034 16647 20974; CX 20974 20847 7716; CA 7716 7715 7714; CX 7714 20847 20848;
  CX 20975 20848 7713; CX 20911 20848 3095; CX 17004 20848 7712; CX 3095 17005 20723; CA 7713 7712 7711; CX 7711 20848 20849; CX 20976 20849 7710; CX 20912 20849 3094;
  CX 3094 17006 20724; CX 17005 20849 7709; CA 7710 7709 7708; CX 7708 20849 20850; CX 17006 20850 7706; CX 20977 20850 7707; CA 7707 7706 7705; CX 7705 20850 20851;
  CX 20914 20851 3092; CX 3092 17008 20726; CX 20978 20851 7704; CX 17007 20851 7703; CA 7704 7703 7702; CX 7702 20851 20852; CX 20915 20852 3091; CX 3091 17009 20727;
  CX 20979 20852 7701; CX 17008 20852 7700; CA 7701 7700 7699; CX 7699 20852 20853; CX 20916 20853 176; CI 176 16646; CX 3096 16646 20786; CX 3092 16646 20790;
  CX 3151 16646 20731; CX 3145 16646 20737; CX 3139 16646 20743; CX 3133 16646 20749; CX 3127 16646 20755; CX 3121 16646 20761; CX 3115 16646 20767; CX 3109 16646 20773;
  CX 3103 16646 20779; CX 3095 16646 20787; CX 3153 16646 20729; CX 16835 16646 20728; CA 20728 16946 20602; CX 20665 20602 3215; CX 16947 20602 7697; CX 20729 20602 7698;
  CA 7698 7697 7696; CX 7696 20602 20603; CX 20666 20603 3214; CX 16948 20603 7694; CX 3215 16948 20477; CX 3214 16949 20478; CX 3152 16646 20730; CX 20730 20603 7695;
  CX 3147 16646 20735; CX 3148 16646 20734; CX 3150 16646 20732; CX 3149 16646 20733; CX 3146 16646 20736; CX 3141 16646 20741; CX 3142 16646 20740; CX 3144 16646 20738;
  CX 3143 16646 20739; CX 3140 16646 20742; CX 3135 16646 20747; CX 3136 16646 20746; CX 3138 16646 20744; CX 3137 16646 20745; CX 3134 16646 20748; CX 3129 16646 20753;
  CX 3130 16646 20752; CX 3132 16646 20750; CX 3131 16646 20751; CX 3128 16646 20754; CX 3123 16646 20759; CX 3124 16646 20758; CX 3126 16646 20756; CX 3125 16646 20757;
  CX 3122 16646 20760; CX 3117 16646 20765; CX 3118 16646 20764; CX 3120 16646 20762; CX 3119 16646 20763; CX 3116 16646 20766; CX 3111 16646 20771; CX 3112 16646 20770;
  CX 3114 16646 20768; CX 3113 16646 20769; CX 3110 16646 20772; CX 3105 16646 20777; CX 3106 16646 20776; CX 3108 16646 20774; CX 3107 16646 20775; CX 3104 16646 20778;
  CX 3099 16646 20783; CX 3100 16646 20782; CX 3102 16646 20780; CX 3101 16646 20781; CX 3098 16646 20784; CX 3094 16646 20788; CA 16646 4535 17530; CA 7695 7694 7693;
  CX 7693 20603 20604; CX 20667 20604 3213; CX 16949 20604 7691; CX 20731 20604 7692; CA 7692 7691 7690; CX 7690 20604 20605; CX 16950 20605 7688; CX 20668 20605 3212;
  CX 20732 20605 7689; CA 7689 7688 7687; CX 7687 20605 20606; CX 20733 20606 7686; CX 20669 20606 3211; CX 16951 20606 7685; CA 7686 7685 7684; CX 7684 20606 20607;
  CX 16952 20607 7682; CX 20734 20607 7683; CA 7683 7682 7681; CX 7681 20607 20608; CX 20671 20608 3209; CX 16953 20608 7679; CX 20735 20608 7680; CA 7680 7679 7678;
  CX 7678 20608 20609; CX 20672 20609 3208; CX 20736 20609 7677; CX 16954 20609 7676; CX 20670 20607 3210; CA 7677 7676 7675; CX 7675 20609 20610; CX 20673 20610 3207;
  CX 16955 20610 7673; CX 20737 20610 7674; CA 7674 7673 7672; CX 7672 20610 20611; CX 16956 20611 7670; CX 20674 20611 3206; CX 20738 20611 7671; CA 7671 7670 7669;
  CX 7669 20611 20612; CX 20739 20612 7668; CX 20675 20612 3205; CX 16957 20612 7667; CA 7668 7667 7666; CX 7666 20612 20613; CX 16958 20613 7664; CX 20740 20613 7665;
  CA 7665 7664 7663; CX 7663 20613 20614; CX 20677 20614 3203; CX 16959 20614 7661; CX 20741 20614 7662; CA 7662 7661 7660; CX 7660 20614 20615; CX 20678 20615 3202;
  CX 20742 20615 7659; CX 16960 20615 7658; CX 20676 20613 3204; CA 7659 7658 7657; CX 7657 20615 20616; CX 20679 20616 3201; CX 16961 20616 7655; CX 20743 20616 7656;
  CA 7656 7655 7654; CX 7654 20616 20617; CX 20680 20617 3200; CX 20744 20617 7653; CX 3213 16950 20479; CX 3212 16951 20480; CX 3211 16952 20481; CX 3210 16953 20482;
  CX 3209 16954 20483; CX 3208 16955 20484; CX 3207 16956 20485; CX 3206 16957 20486; CX 3205 16958 20487; CX 3204 16959 20488; CX 3203 16960 20489; CX 3202 16961 20490;
  CX 3201 16962 20491; CX 3200 16963 20492; CX 20913 20850 3093; CX 3093 17007 20725; CX 3093 16646 20789; CX 16962 20617 7652; CA 7653 7652 7651; CX 7651 20617 20618;
  CX 20745 20618 7650; CX 20681 20618 3199; CX 16963 20618 7649; CA 7650 7649 7648; CX 7648 20618 20619; CX 20682 20619 3198; CX 20746 20619 7647; CX 3199 16964 20493;
  CX 3198 16965 20494; CX 16964 20619 7646; CA 7647 7646 7645; CX 7645 20619 20620; CX 20683 20620 3197; CX 16965 20620 7643; CX 20747 20620 7644; CA 7644 7643 7642;
  CX 7642 20620 20621; CX 20748 20621 7641; CX 20684 20621 3196; CX 16966 20621 7640; CA 7641 7640 7639; CX 7639 20621 20622; CX 20749 20622 7638; CX 20685 20622 3195;
  CX 3197 16966 20495; CX 3196 16967 20496; CX 3195 16968 20497; CX 16967 20622 7637; CA 7638 7637 7636; CX 7636 20622 20623; CX 16968 20623 7634; CX 20686 20623 3194;
  CX 20750 20623 7635; CX 3194 16969 20498; CA 7635 7634 7633; CX 7633 20623 20624; CX 20687 20624 3193; CX 16969 20624 7631; CX 20751 20624 7632; CA 7632 7631 7630;
  CX 7630 20624 20625; CX 20752 20625 7629; CX 16970 20625 7628; CA 7629 7628 7627; CX 7627 20625 20626; CX 20689 20626 3191; CX 16971 20626 7625; CX 3193 16970 20499].
(** Lines 22405-22804 of the file. *)
Definition divide64_56 : list cg := [
  CX 3191 16972 20501; CX 20688 20625 3192; CX 3192 16971 20500; CX 20753 20626 7626; CA 7626 7625 7624; CX 7624 20626 20627; CX 20754 20627 7623; CX 16972 20627 7622;
  CX 20690 20627 3190; CX 3190 16973 20502; CA 7623 7622 7621; CX 7621 20627 20628; CX 20691 20628 3189; CX 16973 20628 7619; CX 20755 20628 7620; CA 7620 7619 7618;
  CX 7618 20628 20629; CX 16974 20629 7616; CX 20692 20629 3188; CX 20756 20629 7617; CX 3189 16974 20503; CX 3188 16975 20504; CA 7617 7616 7615; CX 7615 20629 20630;
  CX 20693 20630 3187; CX 16975 20630 7613; CX 20757 20630 7614; CA 7614 7613 7612; CX 7612 20630 20631; CX 20694 20631 3186; CX 20758 20631 7611; CX 16976 20631 7610;
  CA 7611 7610 7609; CX 7609 20631 20632; CX 20759 20632 7608; CX 16977 20632 7607; CX 20695 20632 3185; CX 3187 16976 20505; CX 3186 16977 20506; CX 3185 16978 20507;
  CA 7608 7607 7606; CX 7606 20632 20633; CX 20760 20633 7605; CX 16978 20633 7604; CA 7605 7604 7603; CX 7603 20633 20634; CX 16979 20634 7601; CX 20761 20634 7602;
  CX 20697 20634 3183; CX 3183 16980 20509; CX 20696 20633 3184; CX 3184 16979 20508; CA 7602 7601 7600; CX 7600 20634 20635; CX 20698 20635 3182; CX 20762 20635 7599;
  CX 3182 16981 20510; CX 16980 20635 7598; CA 7599 7598 7597; CX 7597 20635 20636; CX 20699 20636 3181; CX 20763 20636 7596; CX 16981 20636 7595; CA 7596 7595 7594;
  CX 7594 20636 20637; CX 20700 20637 3180; CX 16982 20637 7592; CX 3181 16982 20511; CX 3180 16983 20512; CX 20764 20637 7593; CA 7593 7592 7591; CX 7591 20637 20638;
  CX 20701 20638 3179; CX 20765 20638 7590; CX 16983 20638 7589; CA 7590 7589 7588; CX 7588 20638 20639; CX 20702 20639 3178; CX 20766 20639 7587; CX 16984 20639 7586;
  CA 7587 7586 7585; CX 7585 20639 20640; CX 20767 20640 7584; CX 20703 20640 3177; CX 16985 20640 7583; CA 7584 7583 7582; CX 7582 20640 20641; CX 16986 20641 7580;
  CX 20704 20641 3176; CX 3179 16984 20513; CX 3178 16985 20514; CX 3177 16986 20515; CX 3176 16987 20516; CX 20768 20641 7581; CA 7581 7580 7579; CX 7579 20641 20642;
  CX 16987 20642 7577; CX 20769 20642 7578; CA 7578 7577 7576; CX 7576 20642 20643; CX 16988 20643 7574; CX 20770 20643 7575; CX 20706 20643 3174; CX 20705 20642 3175;
  CA 7575 7574 7573; CX 7573 20643 20644; CX 20771 20644 7572; CX 3175 16988 20517; CX 3174 16989 20518; CX 20707 20644 3173; CX 3173 16990 20519; CX 16989 20644 7571;
  CA 7572 7571 7570; CX 7570 20644 20645; CX 16990 20645 7568; CX 20772 20645 7569; CA 7569 7568 7567; CX 7567 20645 20646; CX 20773 20646 7566; CX 16991 20646 7565;
  CA 7566 7565 7564; CX 20708 20645 3172; CX 7564 20646 20647; CX 20774 20647 7563; CX 16992 20647 7562; CA 7563 7562 7561; CX 20710 20647 3170; CX 7561 20647 20648;
  CX 16993 20648 7559; CX 20775 20648 7560; CA 7560 7559 7558; CX 20711 20648 3169; CX 3172 16991 20520; CX 3170 16993 20522; CX 3169 16994 20523; CX 20709 20646 3171;
  CX 3171 16992 20521; CX 7558 20648 20649; CX 20776 20649 7557; CX 20712 20649 3168; CX 3168 16995 20524; CX 16994 20649 7556; CA 7557 7556 7555; CX 7555 20649 20650;
  CX 16995 20650 7553; CX 20713 20650 3167; CX 20777 20650 7554; CA 7554 7553 7552; CX 7552 20650 20651; CX 20714 20651 3166; CX 20778 20651 7551; CX 16996 20651 7550;
  CA 7551 7550 7549; CX 7549 20651 20652; CX 20715 20652 3165; CX 16997 20652 7547; CX 3167 16996 20525; CX 3166 16997 20526; CX 3165 16998 20527; CX 20779 20652 7548;
  CA 7548 7547 7546; CX 7546 20652 20653; CX 20716 20653 3164; CX 20780 20653 7545; CX 16998 20653 7544; CA 7545 7544 7543; CX 7543 20653 20654; CX 16999 20654 7541;
  CX 20781 20654 7542; CA 7542 7541 7540; CX 7540 20654 20655; CX 20718 20655 3162; CX 20782 20655 7539; CX 17000 20655 7538; CA 7539 7538 7537; CX 7537 20655 20656;
  CX 20783 20656 7536; CX 17001 20656 7535; CA 7536 7535 7534; CX 20719 20656 3161; CX 3164 16999 20528; CX 3162 17001 20530; CX 3161 17002 20531; CX 7534 20656 20657;
  CX 20720 20657 3160; CX 20784 20657 7533; CX 3160 17003 20532; CX 17002 20657 7532; CX 20717 20654 3163; CX 3163 17000 20529; CA 7533 7532 7531; CX 7531 20657 20658;
  CX 17003 20658 7529; CX 20721 20658 3159; CX 3159 17004 20533; CX 3097 16646 20785; CX 20785 20658 7530; CA 7530 7529 7528; CX 7528 20658 20659; CX 20786 20659 7527;
  CX 17004 20659 7526; CX 20722 20659 3158; CX 3158 17005 20534; CA 7527 7526 7525; CX 7525 20659 20660; CX 20723 20660 3157; CX 20787 20660 7524; CX 3157 17006 20535;
  CX 17005 20660 7523; CA 7524 7523 7522; CX 7522 20660 20661; CX 17006 20661 7520; CX 20788 20661 7521; CX 20724 20661 3156; CX 3156 17007 20536; CA 7521 7520 7519;
  CX 7519 20661 20662; CX 20725 20662 3155; CX 17007 20662 7517; CX 3155 17008 20537; CX 20789 20662 7518; CA 7518 7517 7516; CX 7516 20662 20663; CX 20790 20663 7515;
  CX 17008 20663 7514; CA 7515 7514 7513; CX 20726 20663 3154; CX 3154 17009 20538; CX 7513 20663 20664; CX 20727 20664 177; CI 177 16645; CX 3158 16645 20598;
  CX 3157 16645 20599; CX 3214 16645 20542; CX 3208 16645 20548; CX 3202 16645 20554; CX 3196 16645 20560; CX 3190 16645 20566; CX 3184 16645 20572; CX 3178 16645 20578;
  CX 3172 16645 20584; CX 3166 16645 20590; CX 3155 16645 20601; CX 3156 16645 20600; CX 3216 16645 20540; CX 16834 16645 20539; CA 20539 16946 20413; CX 20476 20413 3278;
  CX 20540 20413 7512; CX 16947 20413 7511; CX 3278 16948 20288; CA 7512 7511 7510; CX 7510 20413 20414; CX 20477 20414 3277; CX 16948 20414 7508; CX 3277 16949 20289;
  CX 3215 16645 20541; CX 20541 20414 7509; CA 7509 7508 7507; CX 7507 20414 20415; CX 20478 20415 3276; CX 20542 20415 7506; CX 3276 16950 20290; CX 3210 16645 20546;
  CX 3211 16645 20545; CX 3213 16645 20543; CX 3212 16645 20544; CX 3209 16645 20547; CX 3204 16645 20552; CX 3205 16645 20551; CX 3207 16645 20549; CX 3206 16645 20550;
  CX 3203 16645 20553; CX 3198 16645 20558; CX 3199 16645 20557; CX 3201 16645 20555; CX 3200 16645 20556; CX 3197 16645 20559; CX 3192 16645 20564; CX 3193 16645 20563;
  CX 3195 16645 20561; CX 3194 16645 20562; CX 3191 16645 20565; CX 3186 16645 20570; CX 3187 16645 20569; CX 3189 16645 20567; CX 3188 16645 20568; CX 3185 16645 20571;
  CX 3180 16645 20576; CX 3181 16645 20575; CX 3183 16645 20573; CX 3182 16645 20574; CX 3179 16645 20577; CX 3174 16645 20582; CX 3175 16645 20581; CX 3177 16645 20579;
  CX 3176 16645 20580; CX 3173 16645 20583; CX 3168 16645 20588; CX 3169 16645 20587; CX 3171 16645 20585; CX 3170 16645 20586; CX 3167 16645 20589; CX 3162 16645 20594;
  CX 3163 16645 20593; CX 3165 16645 20591; CX 3164 16645 20592; CX 3161 16645 20595; CX 3160 16645 20596; CA 16645 4535 17529; CX 16949 20415 7505; CA 7506 7505 7504;
  CX 7504 20415 20416; CX 20543 20416 7503; CX 20479 20416 3275; CX 16950 20416 7502; CA 7503 7502 7501; CX 7501 20416 20417; CX 16951 20417 7499; CX 20544 20417 7500;
  CA 7500 7499 7498; CX 7498 20417 20418; CX 20481 20418 3273; CX 16952 20418 7496; CX 20545 20418 7497; CA 7497 7496 7495; CX 3275 16951 20291; CX 3273 16953 20293;
  CX 7495 20418 20419; CX 20482 20419 3272; CX 20546 20419 7494; CX 16953 20419 7493; CA 7494 7493 7492; CX 7492 20419 20420; CX 20483 20420 3271; CX 16954 20420 7490;
  CX 3272 16954 20294; CX 3271 16955 20295; CX 20547 20420 7491; CA 7491 7490 7489; CX 7489 20420 20421; CX 20484 20421 3270; CX 20548 20421 7488; CX 16955 20421 7487;
  CA 7488 7487 7486; CX 7486 20421 20422; CX 20549 20422 7485; CX 20485 20422 3269; CX 16956 20422 7484; CA 7485 7484 7483; CX 7483 20422 20423; CX 16957 20423 7481;
  CX 20550 20423 7482; CA 7482 7481 7480; CX 7480 20423 20424; CX 20487 20424 3267; CX 16958 20424 7478; CX 20551 20424 7479; CA 7479 7478 7477; CX 20486 20423 3268;
  CX 7477 20424 20425; CX 20552 20425 7476; CX 16959 20425 7475; CX 20488 20425 3266; CA 7476 7475 7474; CX 7474 20425 20426; CX 20489 20426 3265; CX 16960 20426 7472;
  CX 20553 20426 7473; CA 7473 7472 7471; CX 7471 20426 20427; CX 20490 20427 3264; CX 20554 20427 7470; CX 16961 20427 7469; CA 7470 7469 7468; CX 7468 20427 20428;
  CX 20491 20428 3263; CX 16962 20428 7466; CX 20555 20428 7467; CA 7467 7466 7465; CX 7465 20428 20429; CX 20556 20429 7464; CX 16963 20429 7463; CA 7464 7463 7462;
  CX 7462 20429 20430; CX 16964 20430 7460; CX 20557 20430 7461; CA 7461 7460 7459; CX 20493 20430 3261; CX 20492 20429 3262; CX 7459 20430 20431; CX 20558 20431 7458;
  CX 16965 20431 7457; CX 20494 20431 3260; CA 7458 7457 7456; CX 7456 20431 20432; CX 16966 20432 7454; CX 20495 20432 3259; CX 20559 20432 7455; CA 7455 7454 7453].
(** Lines 22805-23204 of the file. *)
Definition divide64_57 : list cg := [
  CX 7453 20432 20433; CX 20560 20433 7452; CX 20496 20433 3258; CX 16967 20433 7451; CA 7452 7451 7450; CX 7450 20433 20434; CX 16968 20434 7448; CX 20561 20434 7449;
  CA 7449 7448 7447; CX 20497 20434 3257; CX 7447 20434 20435; CX 16969 20435 7445; CX 20562 20435 7446; CA 7446 7445 7444; CX 7444 20435 20436; CX 16970 20436 7442;
  CX 20563 20436 7443; CA 7443 7442 7441; CX 20499 20436 3255; CX 20498 20435 3256; CX 7441 20436 20437; CX 20564 20437 7440; CX 16971 20437 7439; CX 20500 20437 3254;
  CA 7440 7439 7438; CX 7438 20437 20438; CX 20501 20438 3253; CX 16972 20438 7436; CX 20565 20438 7437; CA 7437 7436 7435; CX 7435 20438 20439; CX 20502 20439 3252;
  CX 20566 20439 7434; CX 16973 20439 7433; CA 7434 7433 7432; CX 7432 20439 20440; CX 20567 20440 7431; CX 20503 20440 3251; CX 16974 20440 7430; CA 7431 7430 7429;
  CX 7429 20440 20441; CX 16975 20441 7427; CX 20568 20441 7428; CA 7428 7427 7426; CX 7426 20441 20442; CX 16976 20442 7424; CX 20569 20442 7425; CA 7425 7424 7423;
  CX 20505 20442 3249; CX 20504 20441 3250; CX 7423 20442 20443; CX 20506 20443 3248; CX 20570 20443 7422; CX 16977 20443 7421; CA 7422 7421 7420; CX 7420 20443 20444;
  CX 20507 20444 3247; CX 16978 20444 7418; CX 20571 20444 7419; CA 7419 7418 7417; CX 7417 20444 20445; CX 20508 20445 3246; CX 20572 20445 7416; CX 16979 20445 7415;
  CA 7416 7415 7414; CX 7414 20445 20446; CX 20509 20446 3245; CX 20573 20446 7413; CX 16980 20446 7412; CA 7413 7412 7411; CX 7411 20446 20447; CX 20574 20447 7410;
  CX 16981 20447 7409; CA 7410 7409 7408; CX 7408 20447 20448; CX 16982 20448 7406; CX 20511 20448 3243; CX 20575 20448 7407; CA 7407 7406 7405; CX 20510 20447 3244;
  CX 7405 20448 20449; CX 20512 20449 3242; CX 20576 20449 7404; CX 16983 20449 7403; CA 7404 7403 7402; CX 7402 20449 20450; CX 16984 20450 7400; CX 20513 20450 3241;
  CX 20577 20450 7401; CA 7401 7400 7399; CX 7399 20450 20451; CX 20578 20451 7398; CX 20514 20451 3240; CX 16985 20451 7397; CA 7398 7397 7396; CX 7396 20451 20452;
  CX 20579 20452 7395; CX 20515 20452 3239; CX 16986 20452 7394; CA 7395 7394 7393; CX 7393 20452 20453; CX 20580 20453 7392; CX 16987 20453 7391; CA 7392 7391 7390;
  CX 7390 20453 20454; CX 16988 20454 7388; CX 20517 20454 3237; CX 20581 20454 7389; CA 7389 7388 7387; CX 20516 20453 3238; CX 7387 20454 20455; CX 20518 20455 3236;
  CX 20582 20455 7386; CX 16989 20455 7385; CA 7386 7385 7384; CX 7384 20455 20456; CX 20519 20456 3235; CX 16990 20456 7382; CX 20583 20456 7383; CA 7383 7382 7381;
  CX 7381 20456 20457; CX 20584 20457 7380; CX 20520 20457 3234; CX 16991 20457 7379; CA 7380 7379 7378; CX 7378 20457 20458; CX 20585 20458 7377; CX 16992 20458 7376;
  CA 7377 7376 7375; CX 7375 20458 20459; CX 16993 20459 7373; CX 20521 20458 3233; CX 20586 20459 7374; CA 7374 7373 7372; CX 7372 20459 20460; CX 16994 20460 7370;
  CX 20587 20460 7371; CA 7371 7370 7369; CX 20523 20460 3231; CX 20522 20459 3232; CX 7369 20460 20461; CX 20588 20461 7368; CX 20524 20461 3230; CX 16995 20461 7367;
  CA 7368 7367 7366; CX 7366 20461 20462; CX 20525 20462 3229; CX 16996 20462 7364; CX 20589 20462 7365; CA 7365 7364 7363; CX 7363 20462 20463; CX 20590 20463 7362;
  CX 20526 20463 3228; CX 16997 20463 7361; CA 7362 7361 7360; CX 7360 20463 20464; CX 20591 20464 7359; CX 20527 20464 3227; CX 16998 20464 7358; CA 7359 7358 7357;
  CX 7357 20464 20465; CX 16999 20465 7355; CX 20592 20465 7356; CA 7356 7355 7354; CX 7354 20465 20466; CX 20529 20466 3225; CX 17000 20466 7352; CX 20593 20466 7353;
  CA 7353 7352 7351; CX 20528 20465 3226; CX 7351 20466 20467; CX 20530 20467 3224; CX 20594 20467 7350; CX 17001 20467 7349; CA 7350 7349 7348; CX 7348 20467 20468;
  CX 20531 20468 3223; CX 17002 20468 7346; CX 20595 20468 7347; CA 7347 7346 7345; CX 7345 20468 20469; CX 20596 20469 7344; CX 20532 20469 3222; CX 17003 20469 7343;
  CA 7344 7343 7342; CX 7342 20469 20470; CX 17004 20470 7340; CX 20533 20470 3221; CX 3270 16956 20296; CX 3269 16957 20297; CX 3268 16958 20298; CX 3267 16959 20299;
  CX 3266 16960 20300; CX 3265 16961 20301; CX 3264 16962 20302; CX 3263 16963 20303; CX 3262 16964 20304; CX 3261 16965 20305; CX 3260 16966 20306; CX 3259 16967 20307;
  CX 3258 16968 20308; CX 3257 16969 20309; CX 3256 16970 20310; CX 3255 16971 20311; CX 3254 16972 20312; CX 3253 16973 20313; CX 3252 16974 20314; CX 3251 16975 20315;
  CX 3250 16976 20316; CX 3249 16977 20317; CX 3248 16978 20318; CX 3247 16979 20319; CX 3246 16980 20320; CX 3245 16981 20321; CX 3244 16982 20322; CX 3243 16983 20323;
  CX 3242 16984 20324; CX 3241 16985 20325; CX 3240 16986 20326; CX 3239 16987 20327; CX 3238 16988 20328; CX 3237 16989 20329; CX 3236 16990 20330; CX 3235 16991 20331;
  CX 3234 16992 20332; CX 3233 16993 20333; CX 3232 16994 20334; CX 3231 16995 20335; CX 3230 16996 20336; CX 3229 16997 20337; CX 3228 16998 20338; CX 3227 16999 20339;
  CX 3226 17000 20340; CX 3225 17001 20341; CX 3224 17002 20342; CX 3223 17003 20343; CX 3222 17004 20344; CX 3221 17005 20345; CX 20480 20417 3274; CX 3274 16952 20292;
  CX 3159 16645 20597; CX 20597 20470 7341; CA 7341 7340 7339; CX 7339 20470 20471; CX 20598 20471 7338; CX 20534 20471 3220; CX 17005 20471 7337; CX 3220 17006 20346;
  CA 7338 7337 7336; CX 7336 20471 20472; CX 20599 20472 7335; CX 17006 20472 7334; CA 7335 7334 7333; CX 7333 20472 20473; CX 20536 20473 3218; CX 17007 20473 7331;
  CX 3218 17008 20348; CX 20535 20472 3219; CX 3219 17007 20347; CX 20600 20473 7332; CA 7332 7331 7330; CX 7330 20473 20474; CX 20601 20474 7329; CX 17008 20474 7328;
  CA 7329 7328 7327; CX 7327 20474 20475; CX 20538 20475 178; CI 178 16644; CX 3220 16644 20410; CX 3219 16644 20411; CX 3218 16644 20412; CX 3276 16644 20354;
  CX 3270 16644 20360; CX 3264 16644 20366; CX 3258 16644 20372; CX 3252 16644 20378; CX 3246 16644 20384; CX 3240 16644 20390; CX 3234 16644 20396; CX 3228 16644 20402;
  CX 3278 16644 20352; CX 3279 16644 20351; CX 16833 16644 20350; CA 20350 16946 20224; CX 20287 20224 3341; CX 20351 20224 7326; CX 16947 20224 7325; CA 7326 7325 7324;
  CX 7324 20224 20225; CX 20352 20225 7323; CX 20288 20225 3340; CX 16948 20225 7322; CA 7323 7322 7321; CX 7321 20225 20226; CX 16949 20226 7319; CX 20289 20226 3339;
  CX 3341 16948 20099; CX 3340 16949 20100; CX 3339 16950 20101; CX 3277 16644 20353; CX 20353 20226 7320; CA 7320 7319 7318; CX 7318 20226 20227; CX 20354 20227 7317;
  CX 20290 20227 3338; CX 16950 20227 7316; CA 7317 7316 7315; CX 7315 20227 20228; CX 16951 20228 7313; CX 20291 20228 3337; CX 3338 16951 20102; CX 3337 16952 20103;
  CX 3272 16644 20358; CX 3273 16644 20357; CX 3275 16644 20355; CX 20355 20228 7314; CA 7314 7313 7312; CX 7312 20228 20229; CX 20292 20229 3336; CX 16952 20229 7310;
  CX 3336 16953 20104; CX 3274 16644 20356; CX 20356 20229 7311; CA 7311 7310 7309; CX 7309 20229 20230; CX 20293 20230 3335; CX 20357 20230 7308; CX 16953 20230 7307;
  CA 7308 7307 7306; CX 7306 20230 20231; CX 20294 20231 3334; CX 16954 20231 7304; CX 3335 16954 20105; CX 3334 16955 20106; CX 3271 16644 20359; CX 3266 16644 20364;
  CX 3267 16644 20363; CX 3269 16644 20361; CX 3268 16644 20362; CX 3265 16644 20365; CX 3260 16644 20370; CX 3261 16644 20369; CX 3263 16644 20367; CX 3262 16644 20368;
  CX 3259 16644 20371; CX 3254 16644 20376; CX 3255 16644 20375; CX 3257 16644 20373; CX 3256 16644 20374; CX 3253 16644 20377; CX 3248 16644 20382; CX 3249 16644 20381;
  CX 3251 16644 20379; CX 3250 16644 20380; CX 3247 16644 20383; CX 3242 16644 20388; CX 3243 16644 20387; CX 3245 16644 20385; CX 3244 16644 20386; CX 3241 16644 20389;
  CX 3236 16644 20394; CX 3237 16644 20393; CX 3239 16644 20391; CX 3238 16644 20392; CX 3235 16644 20395; CX 3230 16644 20400; CX 3231 16644 20399; CX 3233 16644 20397;
  CX 3232 16644 20398; CX 3229 16644 20401; CX 3224 16644 20406; CX 3225 16644 20405; CX 3227 16644 20403; CX 3226 16644 20404; CX 3223 16644 20407; CA 16644 4535 17528;
  CX 20358 20231 7305; CA 7305 7304 7303; CX 7303 20231 20232; CX 20295 20232 3333; CX 20359 20232 7302; CX 3333 16956 20107; CX 16955 20232 7301; CA 7302 7301 7300;
  CX 7300 20232 20233; CX 20360 20233 7299; CX 20296 20233 3332; CX 16956 20233 7298; CA 7299 7298 7297; CX 7297 20233 20234; CX 16957 20234 7295; CX 20361 20234 7296;
  CA 7296 7295 7294; CX 7294 20234 20235; CX 20298 20235 3330; CX 16958 20235 7292; CX 20362 20235 7293; CA 7293 7292 7291; CX 20297 20234 3331; CX 3332 16957 20108].
(** Lines 23205-23604 of the file. *)
Definition divide64_58 : list cg := [
  CX 3331 16958 20109; CX 3330 16959 20110; CX 7291 20235 20236; CX 20363 20236 7290; CX 16959 20236 7289; CX 20299 20236 3329; CX 3329 16960 20111; CA 7290 7289 7288;
  CX 7288 20236 20237; CX 16960 20237 7286; CX 20300 20237 3328; CX 3328 16961 20112; CX 20364 20237 7287; CA 7287 7286 7285; CX 7285 20237 20238; CX 20365 20238 7284;
  CX 16961 20238 7283; CA 7284 7283 7282; CX 7282 20238 20239; CX 16962 20239 7280; CX 20302 20239 3326; CX 3326 16963 20114; CX 20301 20238 3327; CX 3327 16962 20113;
  CX 20366 20239 7281; CA 7281 7280 7279; CX 7279 20239 20240; CX 16963 20240 7277; CX 20367 20240 7278; CA 7278 7277 7276; CX 7276 20240 20241; CX 20368 20241 7275;
  CX 16964 20241 7274; CA 7275 7274 7273; CX 20304 20241 3324; CX 3324 16965 20116; CX 7273 20241 20242; CX 20369 20242 7272; CX 16965 20242 7271; CA 7272 7271 7270;
  CX 7270 20242 20243; CX 20370 20243 7269; CX 20306 20243 3322; CX 3322 16967 20118; CX 16966 20243 7268; CA 7269 7268 7267; CX 7267 20243 20244; CX 16967 20244 7265;
  CX 20307 20244 3321; CX 20371 20244 7266; CA 7266 7265 7264; CX 7264 20244 20245; CX 20372 20245 7263; CX 20308 20245 3320; CX 16968 20245 7262; CX 3321 16968 20119;
  CX 3320 16969 20120; CA 7263 7262 7261; CX 7261 20245 20246; CX 20309 20246 3319; CX 20373 20246 7260; CX 3319 16970 20121; CX 16969 20246 7259; CA 7260 7259 7258;
  CX 7258 20246 20247; CX 20374 20247 7257; CX 20310 20247 3318; CX 16970 20247 7256; CA 7257 7256 7255; CX 7255 20247 20248; CX 20311 20248 3317; CX 20375 20248 7254;
  CX 3318 16971 20122; CX 3317 16972 20123; CX 16971 20248 7253; CA 7254 7253 7252; CX 7252 20248 20249; CX 20376 20249 7251; CX 20312 20249 3316; CX 16972 20249 7250;
  CA 7251 7250 7249; CX 7249 20249 20250; CX 20377 20250 7248; CX 16973 20250 7247; CA 7248 7247 7246; CX 7246 20250 20251; CX 20314 20251 3314; CX 16974 20251 7244;
  CX 3316 16973 20124; CX 3314 16975 20126; CX 20313 20250 3315; CX 3315 16974 20125; CX 20378 20251 7245; CA 7245 7244 7243; CX 7243 20251 20252; CX 16975 20252 7241;
  CX 20315 20252 3313; CX 20379 20252 7242; CA 7242 7241 7240; CX 7240 20252 20253; CX 16976 20253 7238; CX 20380 20253 7239; CA 7239 7238 7237; CX 7237 20253 20254;
  CX 16977 20254 7235; CX 20381 20254 7236; CA 7236 7235 7234; CX 7234 20254 20255; CX 20382 20255 7233; CX 16978 20255 7232; CA 7233 7232 7231; CX 20318 20255 3310;
  CX 7231 20255 20256; CX 16979 20256 7229; CX 20319 20256 3309; CX 20316 20253 3312; CX 20383 20256 7230; CA 7230 7229 7228; CX 7228 20256 20257; CX 16980 20257 7226;
  CX 20320 20257 3308; CX 20384 20257 7227; CX 3313 16976 20127; CX 3312 16977 20128; CX 3310 16979 20130; CX 3309 16980 20131; CX 3308 16981 20132; CX 20317 20254 3311;
  CX 3311 16978 20129; CA 7227 7226 7225; CX 7225 20257 20258; CX 20385 20258 7224; CX 20321 20258 3307; CX 16981 20258 7223; CA 7224 7223 7222; CX 7222 20258 20259;
  CX 20386 20259 7221; CX 16982 20259 7220; CA 7221 7220 7219; CX 7219 20259 20260; CX 20387 20260 7218; CX 16983 20260 7217; CA 7218 7217 7216; CX 7216 20260 20261;
  CX 20388 20261 7215; CX 16984 20261 7214; CA 7215 7214 7213; CX 7213 20261 20262; CX 20389 20262 7212; CX 16985 20262 7211; CA 7212 7211 7210; CX 7210 20262 20263;
  CX 16986 20263 7208; CX 20390 20263 7209; CX 20324 20261 3304; CX 20323 20260 3305; CX 20325 20262 3303; CX 20322 20259 3306; CA 7209 7208 7207; CX 7207 20263 20264;
  CX 16987 20264 7205; CX 20327 20264 3301; CX 20326 20263 3302; CX 20391 20264 7206; CA 7206 7205 7204; CX 7204 20264 20265; CX 20328 20265 3300; CX 16988 20265 7202;
  CX 3307 16982 20133; CX 3306 16983 20134; CX 3305 16984 20135; CX 3304 16985 20136; CX 3303 16986 20137; CX 3302 16987 20138; CX 3301 16988 20139; CX 3300 16989 20140;
  CX 20392 20265 7203; CA 7203 7202 7201; CX 7201 20265 20266; CX 20393 20266 7200; CX 16989 20266 7199; CA 7200 7199 7198; CX 7198 20266 20267; CX 16990 20267 7196;
  CX 20394 20267 7197; CA 7197 7196 7195; CX 20329 20266 3299; CX 3299 16990 20141; CX 7195 20267 20268; CX 20331 20268 3297; CX 20395 20268 7194; CX 16991 20268 7193;
  CA 7194 7193 7192; CX 7192 20268 20269; CX 16992 20269 7190; CX 20396 20269 7191; CA 7191 7190 7189; CX 7189 20269 20270; CX 16993 20270 7187; CX 20333 20270 3295;
  CX 20397 20270 7188; CA 7188 7187 7186; CX 7186 20270 20271; CX 20334 20271 3294; CX 16994 20271 7184; CX 20398 20271 7185; CA 7185 7184 7183; CX 7183 20271 20272;
  CX 20335 20272 3293; CX 20332 20269 3296; CX 20399 20272 7182; CX 16995 20272 7181; CA 7182 7181 7180; CX 7180 20272 20273; CX 16996 20273 7178; CX 20400 20273 7179;
  CX 20336 20273 3292; CA 7179 7178 7177; CX 7177 20273 20274; CX 16997 20274 7175; CX 20337 20274 3291; CX 20401 20274 7176; CA 7176 7175 7174; CX 7174 20274 20275;
  CX 20402 20275 7173; CX 20338 20275 3290; CX 16998 20275 7172; CA 7173 7172 7171; CX 7171 20275 20276; CX 20339 20276 3289; CX 16999 20276 7169; CX 20403 20276 7170;
  CA 7170 7169 7168; CX 7168 20276 20277; CX 20404 20277 7167; CX 20340 20277 3288; CX 17000 20277 7166; CX 3297 16992 20143; CX 3296 16993 20144; CX 3295 16994 20145;
  CX 3294 16995 20146; CX 3293 16996 20147; CX 3292 16997 20148; CX 3291 16998 20149; CX 3290 16999 20150; CX 3289 17000 20151; CX 3288 17001 20152; CA 7167 7166 7165;
  CX 7165 20277 20278; CX 17001 20278 7163; CX 20405 20278 7164; CX 20341 20278 3287; CA 7164 7163 7162; CX 7162 20278 20279; CX 20342 20279 3286; CX 17002 20279 7160;
  CX 20406 20279 7161; CA 7161 7160 7159; CX 7159 20279 20280; CX 20343 20280 3285; CX 17003 20280 7157; CX 3287 17002 20153; CX 3286 17003 20154; CX 3285 17004 20155;
  CX 20407 20280 7158; CA 7158 7157 7156; CX 7156 20280 20281; CX 17004 20281 7154; CX 20344 20281 3284; CX 3284 17005 20156; CX 20330 20267 3298; CX 3298 16991 20142;
  CX 20305 20242 3323; CX 3323 16966 20117; CX 20303 20240 3325; CX 3325 16964 20115; CX 3221 16644 20409; CX 20537 20474 3217; CX 3217 17009 20349; CX 3222 16644 20408;
  CX 20408 20281 7155; CA 7155 7154 7153; CX 7153 20281 20282; CX 20409 20282 7152; CX 17005 20282 7151; CA 7152 7151 7150; CX 7150 20282 20283; CX 20410 20283 7149;
  CX 20346 20283 3282; CX 17006 20283 7148; CA 7149 7148 7147; CX 7147 20283 20284; CX 20347 20284 3281; CX 17007 20284 7145; CX 20411 20284 7146; CA 7146 7145 7144;
  CX 7144 20284 20285; CX 20412 20285 7143; CX 17008 20285 7142; CA 7143 7142 7141; CX 3281 17008 20159; CX 20345 20282 3283; CX 3283 17006 20157; CX 20348 20285 3280;
  CX 3280 17009 20160; CX 3282 17007 20158; CX 7141 20285 20286; CX 20349 20286 179; CI 179 16643; CX 3283 16643 20221; CX 3282 16643 20222; CX 3281 16643 20223;
  CX 3339 16643 20165; CX 3333 16643 20171; CX 3327 16643 20177; CX 3321 16643 20183; CX 3315 16643 20189; CX 3309 16643 20195; CX 3303 16643 20201; CX 3297 16643 20207;
  CX 3291 16643 20213; CX 3341 16643 20163; CX 3342 16643 20162; CX 16832 16643 20161; CA 20161 16946 20035; CX 20098 20035 3404; CX 16947 20035 7139; CX 20162 20035 7140;
  CA 7140 7139 7138; CX 7138 20035 20036; CX 20099 20036 3403; CX 20163 20036 7137; CX 16948 20036 7136; CA 7137 7136 7135; CX 7135 20036 20037; CX 20100 20037 3402;
  CX 16949 20037 7133; CX 3404 16948 19910; CX 3403 16949 19911; CX 3402 16950 19912; CX 3340 16643 20164; CX 20164 20037 7134; CA 7134 7133 7132; CX 7132 20037 20038;
  CX 16950 20038 7130; CX 20165 20038 7131; CA 7131 7130 7129; CX 7129 20038 20039; CX 20102 20039 3400; CX 16951 20039 7127; CX 20101 20038 3401; CX 3401 16951 19913;
  CX 3400 16952 19914; CX 3335 16643 20169; CX 3336 16643 20168; CX 3338 16643 20166; CX 20166 20039 7128; CA 7128 7127 7126; CX 7126 20039 20040; CX 20103 20040 3399;
  CX 16952 20040 7124; CX 3399 16953 19915; CX 3337 16643 20167; CX 20167 20040 7125; CA 7125 7124 7123; CX 7123 20040 20041; CX 20104 20041 3398; CX 16953 20041 7121;
  CX 20168 20041 7122; CA 7122 7121 7120; CX 7120 20041 20042; CX 20105 20042 3397; CX 20169 20042 7119; CX 16954 20042 7118; CA 7119 7118 7117; CX 7117 20042 20043;
  CX 20106 20043 3396; CX 16955 20043 7115; CX 3398 16954 19916; CX 3397 16955 19917; CX 3396 16956 19918; CX 3334 16643 20170; CX 20170 20043 7116; CA 7116 7115 7114;
  CX 7114 20043 20044; CX 16956 20044 7112; CX 20171 20044 7113; CA 7113 7112 7111; CX 7111 20044 20045; CX 20108 20045 3394; CX 16957 20045 7109; CX 20107 20044 3395;
  CX 3395 16957 19919; CX 3394 16958 19920; CX 3329 16643 20175; CX 3330 16643 20174; CX 3332 16643 20172; CX 20172 20045 7110; CA 7110 7109 7108; CX 7108 20045 20046].
(** Lines 23605-24004 of the file. *)
Definition divide64_59 : list cg := [
  CX 20109 20046 3393; CX 16958 20046 7106; CX 3393 16959 19921; CX 3331 16643 20173; CX 20173 20046 7107; CA 7107 7106 7105; CX 7105 20046 20047; CX 20110 20047 3392;
  CX 16959 20047 7103; CX 3392 16960 19922; CX 3328 16643 20176; CX 3323 16643 20181; CX 3324 16643 20180; CX 3326 16643 20178; CX 3325 16643 20179; CX 3322 16643 20182;
  CX 3317 16643 20187; CX 3318 16643 20186; CX 3320 16643 20184; CX 3319 16643 20185; CX 3316 16643 20188; CX 3311 16643 20193; CX 3312 16643 20192; CX 3314 16643 20190;
  CX 3313 16643 20191; CX 3310 16643 20194; CX 3305 16643 20199; CX 3306 16643 20198; CX 3308 16643 20196; CX 3307 16643 20197; CX 3304 16643 20200; CX 3299 16643 20205;
  CX 3300 16643 20204; CX 3302 16643 20202; CX 3301 16643 20203; CX 3298 16643 20206; CX 3293 16643 20211; CX 3294 16643 20210; CX 3296 16643 20208; CX 3295 16643 20209;
  CX 3292 16643 20212; CX 3287 16643 20217; CX 3288 16643 20216; CX 3290 16643 20214; CX 3289 16643 20215; CX 3286 16643 20218; CA 16643 4535 17527; CX 3285 16643 20219;
  CX 20174 20047 7104; CA 7104 7103 7102; CX 7102 20047 20048; CX 16960 20048 7100; CX 20111 20048 3391; CX 3391 16961 19923; CX 20175 20048 7101; CA 7101 7100 7099;
  CX 7099 20048 20049; CX 20112 20049 3390; CX 3390 16962 19924; CX 16961 20049 7097; CX 20176 20049 7098; CA 7098 7097 7096; CX 7096 20049 20050; CX 20113 20050 3389;
  CX 16962 20050 7094; CX 3389 16963 19925; CX 20177 20050 7095; CA 7095 7094 7093; CX 7093 20050 20051; CX 20114 20051 3388; CX 3388 16964 19926; CX 20178 20051 7092;
  CX 16963 20051 7091; CA 7092 7091 7090; CX 7090 20051 20052; CX 20115 20052 3387; CX 20179 20052 7089; CX 3387 16965 19927; CX 16964 20052 7088; CA 7089 7088 7087;
  CX 7087 20052 20053; CX 20180 20053 7086; CX 20116 20053 3386; CX 16965 20053 7085; CX 3386 16966 19928; CA 7086 7085 7084; CX 7084 20053 20054; CX 16966 20054 7082;
  CX 20117 20054 3385; CX 3385 16967 19929; CX 20181 20054 7083; CA 7083 7082 7081; CX 7081 20054 20055; CX 20118 20055 3384; CX 16967 20055 7079; CX 3384 16968 19930;
  CX 20182 20055 7080; CA 7080 7079 7078; CX 7078 20055 20056; CX 20183 20056 7077; CX 20119 20056 3383; CX 3383 16969 19931; CX 16968 20056 7076; CA 7077 7076 7075;
  CX 7075 20056 20057; CX 20184 20057 7074; CX 20120 20057 3382; CX 16969 20057 7073; CX 3382 16970 19932; CA 7074 7073 7072; CX 7072 20057 20058; CX 20121 20058 3381;
  CX 3381 16971 19933; CX 16970 20058 7070; CX 20185 20058 7071; CA 7071 7070 7069; CX 7069 20058 20059; CX 20186 20059 7068; CX 20122 20059 3380; CX 16971 20059 7067;
  CX 3380 16972 19934; CA 7068 7067 7066; CX 7066 20059 20060; CX 20187 20060 7065; CX 16972 20060 7064; CA 7065 7064 7063; CX 7063 20060 20061; CX 20124 20061 3378;
  CX 20188 20061 7062; CX 3378 16974 19936; CX 16973 20061 7061; CA 7062 7061 7060; CX 7060 20061 20062; CX 16974 20062 7058; CX 20189 20062 7059; CX 20125 20062 3377;
  CA 7059 7058 7057; CX 7057 20062 20063; CX 20190 20063 7056; CX 20126 20063 3376; CX 3377 16975 19937; CX 3376 16976 19938; CX 16975 20063 7055; CA 7056 7055 7054;
  CX 7054 20063 20064; CX 16976 20064 7052; CX 20191 20064 7053; CX 20127 20064 3375; CX 3375 16977 19939; CA 7053 7052 7051; CX 7051 20064 20065; CX 20192 20065 7050;
  CX 16977 20065 7049; CA 7050 7049 7048; CX 7048 20065 20066; CX 16978 20066 7046; CX 20129 20066 3373; CX 3373 16979 19941; CX 20193 20066 7047; CA 7047 7046 7045;
  CX 7045 20066 20067; CX 20194 20067 7044; CX 16979 20067 7043; CA 7044 7043 7042; CX 20130 20067 3372; CX 7042 20067 20068; CX 20131 20068 3371; CX 16980 20068 7040;
  CX 20195 20068 7041; CA 7041 7040 7039; CX 3372 16980 19942; CX 3371 16981 19943; CX 20128 20065 3374; CX 3374 16978 19940; CX 7039 20068 20069; CX 16981 20069 7037;
  CX 20196 20069 7038; CA 7038 7037 7036; CX 7036 20069 20070; CX 20133 20070 3369; CX 20132 20069 3370; CX 20197 20070 7035; CX 16982 20070 7034; CA 7035 7034 7033;
  CX 7033 20070 20071; CX 16983 20071 7031; CX 20198 20071 7032; CX 20134 20071 3368; CX 3370 16982 19944; CX 3369 16983 19945; CX 3368 16984 19946; CA 7032 7031 7030;
  CX 7030 20071 20072; CX 20135 20072 3367; CX 16984 20072 7028; CX 20199 20072 7029; CA 7029 7028 7027; CX 3367 16985 19947; CX 7027 20072 20073; CX 20136 20073 3366;
  CX 16985 20073 7025; CX 20200 20073 7026; CX 3366 16986 19948; CA 7026 7025 7024; CX 7024 20073 20074; CX 16986 20074 7022; CX 20201 20074 7023; CA 7023 7022 7021;
  CX 7021 20074 20075; CX 20202 20075 7020; CX 16987 20075 7019; CA 7020 7019 7018; CX 7018 20075 20076; CX 16988 20076 7016; CX 20203 20076 7017; CA 7017 7016 7015;
  CX 7015 20076 20077; CX 20140 20077 3362; CX 20138 20075 3364; CX 16989 20077 7013; CX 3364 16988 19950; CX 3362 16990 19952; CX 20139 20076 3363; CX 3363 16989 19951;
  CX 20137 20074 3365; CX 3365 16987 19949; CX 20204 20077 7014; CA 7014 7013 7012; CX 7012 20077 20078; CX 20141 20078 3361; CX 3361 16991 19953; CX 20205 20078 7011;
  CX 16990 20078 7010; CA 7011 7010 7009; CX 7009 20078 20079; CX 20142 20079 3360; CX 16991 20079 7007; CX 20206 20079 7008; CX 3360 16992 19954; CA 7008 7007 7006;
  CX 7006 20079 20080; CX 20143 20080 3359; CX 20207 20080 7005; CX 16992 20080 7004; CA 7005 7004 7003; CX 7003 20080 20081; CX 16993 20081 7001; CX 20208 20081 7002;
  CA 7002 7001 7000; CX 7000 20081 20082; CX 20145 20082 3357; CX 20144 20081 3358; CX 20209 20082 6999; CX 3359 16993 19955; CX 3358 16994 19956; CX 3357 16995 19957;
  CX 16994 20082 6998; CA 6999 6998 6997; CX 6997 20082 20083; CX 20210 20083 6996; CX 16995 20083 6995; CA 6996 6995 6994; CX 6994 20083 20084; CX 16996 20084 6992;
  CX 20147 20084 3355; CX 20146 20083 3356; CX 20211 20084 6993; CA 6993 6992 6991; CX 6991 20084 20085; CX 20148 20085 3354; CX 16997 20085 6989; CX 3356 16996 19958;
  CX 3355 16997 19959; CX 3354 16998 19960; CX 20212 20085 6990; CA 6990 6989 6988; CX 6988 20085 20086; CX 20149 20086 3353; CX 20213 20086 6987; CX 3353 16999 19961;
  CX 16998 20086 6986; CA 6987 6986 6985; CX 6985 20086 20087; CX 16999 20087 6983; CX 20214 20087 6984; CA 6984 6983 6982; CX 20150 20087 3352; CX 3352 17000 19962;
  CX 6982 20087 20088; CX 17000 20088 6980; CX 20151 20088 3351; CX 3351 17001 19963; CX 20215 20088 6981; CA 6981 6980 6979; CX 6979 20088 20089; CX 20152 20089 3350;
  CX 17001 20089 6977; CX 3350 17002 19964; CX 20216 20089 6978; CA 6978 6977 6976; CX 6976 20089 20090; CX 20153 20090 3349; CX 3349 17003 19965; CX 20217 20090 6975;
  CX 17002 20090 6974; CA 6975 6974 6973; CX 6973 20090 20091; CX 17003 20091 6971; CX 20154 20091 3348; CX 20218 20091 6972; CX 3348 17004 19966; CA 6972 6971 6970;
  CX 6970 20091 20092; CX 20219 20092 6969; CX 20155 20092 3347; CX 3347 17005 19967; CX 17004 20092 6968; CA 6969 6968 6967; CX 6967 20092 20093; CX 17005 20093 6965;
  CX 20156 20093 3346; CX 3346 17006 19968; CX 20123 20060 3379; CX 3379 16973 19935; CX 3284 16643 20220; CX 20220 20093 6966; CA 6966 6965 6964; CX 6964 20093 20094;
  CX 20157 20094 3345; CX 17006 20094 6962; CX 3345 17007 19969; CX 20221 20094 6963; CA 6963 6962 6961; CX 6961 20094 20095; CX 20158 20095 3344; CX 3344 17008 19970;
  CX 20222 20095 6960; CX 17007 20095 6959; CA 6960 6959 6958; CX 6958 20095 20096; CX 20159 20096 3343; CX 3343 17009 19971; CX 20223 20096 6957; CX 17008 20096 6956;
  CA 6957 6956 6955; CX 6955 20096 20097; CX 20160 20097 180; CI 180 16642; CX 3344 16642 20034; CX 3401 16642 19977; CX 3395 16642 19983; CX 3389 16642 19989;
  CX 3383 16642 19995; CX 3377 16642 20001; CX 3371 16642 20007; CX 3365 16642 20013; CX 3359 16642 20019; CX 3353 16642 20025; CX 3403 16642 19975; CX 3404 16642 19974;
  CX 16831 16642 19972; CA 19972 16946 19846; CX 19909 19846 3467; CX 16947 19846 6953; CX 3467 16948 19721; CX 3405 16642 19973; CX 19973 19846 6954; CA 6954 6953 6952;
  CX 6952 19846 19847; CX 16948 19847 6950; CX 19910 19847 3466; CX 19974 19847 6951; CA 6951 6950 6949; CX 6949 19847 19848; CX 19975 19848 6948; CX 19911 19848 3465;
  CX 16949 19848 6947; CA 6948 6947 6946; CX 6946 19848 19849; CX 16950 19849 6944; CX 3466 16949 19722; CX 3465 16950 19723; CX 3402 16642 19976; CX 19976 19849 6945;
  CA 6945 6944 6943; CX 6943 19849 19850; CX 19913 19850 3463; CX 16951 19850 6941; CX 19977 19850 6942; CA 6942 6941 6940; CX 6940 19850 19851; CX 19914 19851 3462;
  CX 16952 19851 6938; CX 3463 16952 19725; CX 3462 16953 19726; CX 3397 16642 19981; CX 3398 16642 19980; CX 3400 16642 19978; CX 19978 19851 6939; CA 6939 6938 6937].
(** Lines 24005-24404 of the file. *)
Definition divide64_60 : list cg := [
  CX 6937 19851 19852; CX 19915 19852 3461; CX 16953 19852 6935; CX 3461 16954 19727; CX 3399 16642 19979; CX 19979 19852 6936; CA 6936 6935 6934; CX 6934 19852 19853;
  CX 19916 19853 3460; CX 19980 19853 6933; CX 3460 16955 19728; CX 3396 16642 19982; CX 3391 16642 19987; CX 3392 16642 19986; CX 3394 16642 19984; CX 3393 16642 19985;
  CX 3390 16642 19988; CX 3385 16642 19993; CX 3386 16642 19992; CX 3388 16642 19990; CX 3387 16642 19991; CX 3384 16642 19994; CX 3379 16642 19999; CX 3380 16642 19998;
  CX 3382 16642 19996; CX 3381 16642 19997; CX 3378 16642 20000; CX 3373 16642 20005; CX 3374 16642 20004; CX 3376 16642 20002; CX 3375 16642 20003; CX 3372 16642 20006;
  CX 3367 16642 20011; CX 3368 16642 20010; CX 3370 16642 20008; CX 3369 16642 20009; CX 3366 16642 20012; CX 3361 16642 20017; CX 3362 16642 20016; CX 3364 16642 20014;
  CX 3363 16642 20015; CX 3360 16642 20018; CX 3355 16642 20023; CX 3356 16642 20022; CX 3358 16642 20020; CX 3357 16642 20021; CX 3354 16642 20024; CX 3349 16642 20029;
  CX 3350 16642 20028; CX 3352 16642 20026; CX 3351 16642 20027; CX 3348 16642 20030; CX 16954 19853 6932; CA 6933 6932 6931; CX 6931 19853 19854; CX 19981 19854 6930;
  CX 19917 19854 3459; CX 16955 19854 6929; CA 6930 6929 6928; CX 6928 19854 19855; CX 16956 19855 6926; CX 19982 19855 6927; CA 6927 6926 6925; CX 6925 19855 19856;
  CX 19919 19856 3457; CX 16957 19856 6923; CX 19983 19856 6924; CA 6924 6923 6922; CX 6922 19856 19857; CX 19920 19857 3456; CX 19984 19857 6921; CX 16958 19857 6920;
  CA 6921 6920 6919; CX 6919 19857 19858; CX 19921 19858 3455; CX 16959 19858 6917; CX 19918 19855 3458; CX 3459 16956 19729; CX 3458 16957 19730; CX 3457 16958 19731;
  CX 3456 16959 19732; CX 3455 16960 19733; CX 19985 19858 6918; CA 6918 6917 6916; CX 6916 19858 19859; CX 19922 19859 3454; CX 19986 19859 6915; CX 3454 16961 19734;
  CA 16642 4535 17526; CX 16960 19859 6914; CA 6915 6914 6913; CX 6913 19859 19860; CX 16961 19860 6911; CX 19987 19860 6912; CA 6912 6911 6910; CX 6910 19860 19861;
  CX 16962 19861 6908; CX 19988 19861 6909; CA 6909 6908 6907; CX 19924 19861 3452; CX 3452 16963 19736; CX 6907 19861 19862; CX 19925 19862 3451; CX 19989 19862 6906;
  CX 3451 16964 19737; CX 16963 19862 6905; CA 6906 6905 6904; CX 6904 19862 19863; CX 19926 19863 3450; CX 19990 19863 6903; CX 3450 16965 19738; CX 16964 19863 6902;
  CA 6903 6902 6901; CX 6901 19863 19864; CX 19991 19864 6900; CX 19927 19864 3449; CX 16965 19864 6899; CX 3449 16966 19739; CA 6900 6899 6898; CX 6898 19864 19865;
  CX 16966 19865 6896; CX 19928 19865 3448; CX 3448 16967 19740; CX 19992 19865 6897; CA 6897 6896 6895; CX 6895 19865 19866; CX 19993 19866 6894; CX 19929 19866 3447;
  CX 16967 19866 6893; CX 3447 16968 19741; CA 6894 6893 6892; CX 6892 19866 19867; CX 19930 19867 3446; CX 16968 19867 6890; CX 3446 16969 19742; CX 19994 19867 6891;
  CA 6891 6890 6889; CX 6889 19867 19868; CX 19995 19868 6888; CX 19931 19868 3445; CX 3445 16970 19743; CX 16969 19868 6887; CA 6888 6887 6886; CX 6886 19868 19869;
  CX 19932 19869 3444; CX 19996 19869 6885; CX 3444 16971 19744; CX 16970 19869 6884; CA 6885 6884 6883; CX 6883 19869 19870; CX 19997 19870 6882; CX 19933 19870 3443;
  CX 16971 19870 6881; CA 6882 6881 6880; CX 6880 19870 19871; CX 19998 19871 6879; CX 3443 16972 19745; CX 16972 19871 6878; CA 6879 6878 6877; CX 6877 19871 19872;
  CX 19999 19872 6876; CX 19935 19872 3441; CX 3441 16974 19747; CX 16973 19872 6875; CA 6876 6875 6874; CX 6874 19872 19873; CX 20000 19873 6873; CX 19936 19873 3440;
  CX 3440 16975 19748; CX 19934 19871 3442; CX 3442 16973 19746; CX 16974 19873 6872; CA 6873 6872 6871; CX 6871 19873 19874; CX 20001 19874 6870; CX 16975 19874 6869;
  CA 6870 6869 6868; CX 6868 19874 19875; CX 16976 19875 6866; CX 20002 19875 6867; CA 6867 6866 6865; CX 6865 19875 19876; CX 19939 19876 3437; CX 16977 19876 6863;
  CX 19937 19874 3439; CX 3439 16976 19749; CX 3437 16978 19751; CX 20003 19876 6864; CA 6864 6863 6862; CX 6862 19876 19877; CX 19940 19877 3436; CX 20004 19877 6861;
  CX 3436 16979 19752; CX 19938 19875 3438; CX 3438 16977 19750; CX 19923 19860 3453; CX 3453 16962 19735; CX 16978 19877 6860; CA 6861 6860 6859; CX 6859 19877 19878;
  CX 16979 19878 6857; CX 19941 19878 3435; CX 20005 19878 6858; CX 3435 16980 19753; CA 6858 6857 6856; CX 6856 19878 19879; CX 19942 19879 3434; CX 16980 19879 6854;
  CX 20006 19879 6855; CA 6855 6854 6853; CX 3434 16981 19754; CX 6853 19879 19880; CX 20007 19880 6852; CX 16981 19880 6851; CA 6852 6851 6850; CX 6850 19880 19881;
  CX 20008 19881 6849; CX 16982 19881 6848; CA 6849 6848 6847; CX 6847 19881 19882; CX 20009 19882 6846; CX 19945 19882 3431; CX 19944 19881 3432; CX 16983 19882 6845;
  CA 6846 6845 6844; CX 6844 19882 19883; CX 16984 19883 6842; CX 19946 19883 3430; CX 20010 19883 6843; CA 6843 6842 6841; CX 6841 19883 19884; CX 16985 19884 6839;
  CX 19947 19884 3429; CX 3432 16983 19756; CX 3431 16984 19757; CX 3430 16985 19758; CX 3429 16986 19759; CX 20011 19884 6840; CA 6840 6839 6838; CX 6838 19884 19885;
  CX 16986 19885 6836; CX 19948 19885 3428; CX 3428 16987 19760; CX 20012 19885 6837; CX 19943 19880 3433; CX 3433 16982 19755; CA 6837 6836 6835; CX 6835 19885 19886;
  CX 20013 19886 6834; CX 19949 19886 3427; CX 3427 16988 19761; CX 16987 19886 6833; CA 6834 6833 6832; CX 6832 19886 19887; CX 16988 19887 6830; CX 20014 19887 6831;
  CA 6831 6830 6829; CX 6829 19887 19888; CX 16989 19888 6827; CX 19951 19888 3425; CX 3425 16990 19763; CX 20015 19888 6828; CA 6828 6827 6826; CX 6826 19888 19889;
  CX 16990 19889 6824; CX 19952 19889 3424; CX 3424 16991 19764; CX 20016 19889 6825; CA 6825 6824 6823; CX 6823 19889 19890; CX 16991 19890 6821; CX 19953 19890 3423;
  CX 20017 19890 6822; CA 6822 6821 6820; CX 6820 19890 19891; CX 20018 19891 6819; CX 19954 19891 3422; CX 16992 19891 6818; CA 6819 6818 6817; CX 6817 19891 19892;
  CX 19955 19892 3421; CX 20019 19892 6816; CX 16993 19892 6815; CA 6816 6815 6814; CX 3423 16992 19765; CX 3422 16993 19766; CX 3421 16994 19767; CX 19950 19887 3426;
  CX 3426 16989 19762; CX 3345 16642 20033; CX 3346 16642 20032; CX 19912 19849 3464; CX 3464 16951 19724; CX 6814 19892 19893; CX 20020 19893 6813; CX 16994 19893 6812;
  CA 6813 6812 6811; CX 6811 19893 19894; CX 20021 19894 6810; CX 19956 19893 3420; CX 19957 19894 3419; CX 16995 19894 6809; CA 6810 6809 6808; CX 6808 19894 19895;
  CX 16996 19895 6806; CX 19958 19895 3418; CX 20022 19895 6807; CA 6807 6806 6805; CX 6805 19895 19896; CX 19959 19896 3417; CX 3420 16995 19768; CX 3419 16996 19769;
  CX 3418 16997 19770; CX 3417 16998 19771; CX 16997 19896 6803; CX 20023 19896 6804; CA 6804 6803 6802; CX 6802 19896 19897; CX 19960 19897 3416; CX 16998 19897 6800;
  CX 3416 16999 19772; CX 20024 19897 6801; CA 6801 6800 6799; CX 6799 19897 19898; CX 16999 19898 6797; CX 20025 19898 6798; CA 6798 6797 6796; CX 6796 19898 19899;
  CX 20026 19899 6795; CX 19962 19899 3414; CX 3414 17001 19774; CX 17000 19899 6794; CA 6795 6794 6793; CX 6793 19899 19900; CX 19963 19900 3413; CX 17001 19900 6791;
  CX 20027 19900 6792; CA 6792 6791 6790; CX 6790 19900 19901; CX 19964 19901 3412; CX 17002 19901 6788; CX 3413 17002 19775; CX 3412 17003 19776; CX 20028 19901 6789;
  CA 6789 6788 6787; CX 6787 19901 19902; CX 19965 19902 3411; CX 20029 19902 6786; CX 17003 19902 6785; CA 6786 6785 6784; CX 6784 19902 19903; CX 20030 19903 6783;
  CX 3411 17004 19777; CX 19966 19903 3410; CX 3410 17005 19778; CX 17004 19903 6782; CA 6783 6782 6781; CX 6781 19903 19904; CX 17005 19904 6779; CX 19967 19904 3409;
  CX 3409 17006 19779; CX 19961 19898 3415; CX 3415 17000 19773; CX 3347 16642 20031; CX 20031 19904 6780; CA 6780 6779 6778; CX 6778 19904 19905; CX 19968 19905 3408;
  CX 3408 17007 19780; CX 17006 19905 6776; CX 20032 19905 6777; CA 6777 6776 6775; CX 6775 19905 19906; CX 17007 19906 6773; CX 20033 19906 6774; CA 6774 6773 6772;
  CX 6772 19906 19907; CX 19970 19907 3406; CX 20034 19907 6771; CX 17008 19907 6770; CX 3406 17009 19782; CX 19969 19906 3407; CX 3407 17008 19781; CA 6771 6770 6769;
  CX 6769 19907 19908; CX 19971 19908 181; CI 181 16641; CX 3407 16641 19845; CX 3464 16641 19788; CX 3458 16641 19794; CX 3452 16641 19800; CX 3446 16641 19806;
  CX 3440 16641 19812; CX 3434 16641 19818; CX 3428 16641 19824; CX 3422 16641 19830; CX 3416 16641 19836; CX 3466 16641 19786; CX 3467 16641 19785; CX 16830 16641 19783].
(** Lines 24405-24804 of the file. *)
Definition divide64_61 : list cg := [
  CX 3468 16641 19784; CX 3465 16641 19787; CX 3460 16641 19792; CX 3461 16641 19791; CX 3463 16641 19789; CX 3462 16641 19790; CX 3459 16641 19793; CX 3454 16641 19798;
  CX 3455 16641 19797; CX 3457 16641 19795; CX 3456 16641 19796; CX 3453 16641 19799; CX 3448 16641 19804; CX 3449 16641 19803; CX 3451 16641 19801; CX 3450 16641 19802;
  CX 3447 16641 19805; CX 3442 16641 19810; CX 3443 16641 19809; CX 3445 16641 19807; CX 3444 16641 19808; CX 3441 16641 19811; CX 3436 16641 19816; CX 3437 16641 19815;
  CX 3439 16641 19813; CX 3438 16641 19814; CX 3435 16641 19817; CX 3430 16641 19822; CX 3431 16641 19821; CX 3433 16641 19819; CX 3432 16641 19820; CX 3429 16641 19823;
  CX 3424 16641 19828; CX 3425 16641 19827; CX 3427 16641 19825; CX 3426 16641 19826; CX 3423 16641 19829; CX 3418 16641 19834; CX 3419 16641 19833; CX 3421 16641 19831;
  CX 3420 16641 19832; CX 3417 16641 19835; CX 3412 16641 19840; CX 3413 16641 19839; CX 3415 16641 19837; CX 3414 16641 19838; CX 3411 16641 19841; CX 3410 16641 19842;
  CA 16641 4535 17525; CA 19783 16946 19657; CX 19720 19657 3530; CX 19784 19657 6768; CX 16947 19657 6767; CA 6768 6767 6766; CX 6766 19657 19658; CX 19785 19658 6765;
  CX 19721 19658 3529; CX 16948 19658 6764; CA 6765 6764 6763; CX 6763 19658 19659; CX 19722 19659 3528; CX 16949 19659 6761; CX 19786 19659 6762; CA 6762 6761 6760;
  CX 6760 19659 19660; CX 19723 19660 3527; CX 16950 19660 6758; CX 19787 19660 6759; CA 6759 6758 6757; CX 6757 19660 19661; CX 19724 19661 3526; CX 19788 19661 6756;
  CX 16951 19661 6755; CA 6756 6755 6754; CX 6754 19661 19662; CX 19725 19662 3525; CX 16952 19662 6752; CX 19789 19662 6753; CA 6753 6752 6751; CX 6751 19662 19663;
  CX 19726 19663 3524; CX 19790 19663 6750; CX 16953 19663 6749; CA 6750 6749 6748; CX 6748 19663 19664; CX 19791 19664 6747; CX 19727 19664 3523; CX 16954 19664 6746;
  CA 6747 6746 6745; CX 6745 19664 19665; CX 16955 19665 6743; CX 19792 19665 6744; CA 6744 6743 6742; CX 6742 19665 19666; CX 19729 19666 3521; CX 16956 19666 6740;
  CX 19793 19666 6741; CA 6741 6740 6739; CX 6739 19666 19667; CX 19730 19667 3520; CX 19794 19667 6738; CX 16957 19667 6737; CA 6738 6737 6736; CX 6736 19667 19668;
  CX 19731 19668 3519; CX 16958 19668 6734; CX 19728 19665 3522; CX 19795 19668 6735; CA 6735 6734 6733; CX 6733 19668 19669; CX 19732 19669 3518; CX 19796 19669 6732;
  CX 16959 19669 6731; CA 6732 6731 6730; CX 6730 19669 19670; CX 19797 19670 6729; CX 19733 19670 3517; CX 16960 19670 6728; CA 6729 6728 6727; CX 6727 19670 19671;
  CX 16961 19671 6725; CX 19798 19671 6726; CA 6726 6725 6724; CX 6724 19671 19672; CX 19735 19672 3515; CX 16962 19672 6722; CX 19799 19672 6723; CA 6723 6722 6721;
  CX 6721 19672 19673; CX 19736 19673 3514; CX 19800 19673 6720; CX 16963 19673 6719; CA 6720 6719 6718; CX 6718 19673 19674; CX 19737 19674 3513; CX 16964 19674 6716;
  CX 19734 19671 3516; CX 19801 19674 6717; CA 6717 6716 6715; CX 6715 19674 19675; CX 19738 19675 3512; CX 19802 19675 6714; CX 3530 16948 19532; CX 3529 16949 19533;
  CX 3528 16950 19534; CX 3527 16951 19535; CX 3526 16952 19536; CX 3525 16953 19537; CX 3524 16954 19538; CX 3523 16955 19539; CX 3522 16956 19540; CX 3521 16957 19541;
  CX 3520 16958 19542; CX 3519 16959 19543; CX 3518 16960 19544; CX 3517 16961 19545; CX 3516 16962 19546; CX 3515 16963 19547; CX 3514 16964 19548; CX 3513 16965 19549;
  CX 3512 16966 19550; CX 16965 19675 6713; CA 6714 6713 6712; CX 6712 19675 19676; CX 19803 19676 6711; CX 19739 19676 3511; CX 16966 19676 6710; CA 6711 6710 6709;
  CX 6709 19676 19677; CX 19740 19677 3510; CX 16967 19677 6707; CX 19804 19677 6708; CA 6708 6707 6706; CX 6706 19677 19678; CX 19741 19678 3509; CX 16968 19678 6704;
  CX 19805 19678 6705; CA 6705 6704 6703; CX 6703 19678 19679; CX 19806 19679 6702; CX 16969 19679 6701; CA 6702 6701 6700; CX 19742 19679 3508; CX 6700 19679 19680;
  CX 19807 19680 6699; CX 19743 19680 3507; CX 16970 19680 6698; CA 6699 6698 6697; CX 3511 16967 19551; CX 3510 16968 19552; CX 3509 16969 19553; CX 3508 16970 19554;
  CX 3507 16971 19555; CX 6697 19680 19681; CX 19744 19681 3506; CX 16971 19681 6695; CX 19808 19681 6696; CA 6696 6695 6694; CX 6694 19681 19682; CX 19809 19682 6693;
  CX 19745 19682 3505; CX 16972 19682 6692; CA 6693 6692 6691; CX 6691 19682 19683; CX 19746 19683 3504; CX 19810 19683 6690; CX 16973 19683 6689; CA 6690 6689 6688;
  CX 6688 19683 19684; CX 19811 19684 6687; CX 19747 19684 3503; CX 16974 19684 6686; CA 6687 6686 6685; CX 6685 19684 19685; CX 19748 19685 3502; CX 19812 19685 6684;
  CX 16975 19685 6683; CA 6684 6683 6682; CX 6682 19685 19686; CX 19813 19686 6681; CX 19749 19686 3501; CX 3506 16972 19556; CX 3505 16973 19557; CX 3504 16974 19558;
  CX 3503 16975 19559; CX 3502 16976 19560; CX 3501 16977 19561; CX 16976 19686 6680; CA 6681 6680 6679; CX 6679 19686 19687; CX 19750 19687 3500; CX 19814 19687 6678;
  CX 3500 16978 19562; CX 16977 19687 6677; CA 6678 6677 6676; CX 6676 19687 19688; CX 19751 19688 3499; CX 19815 19688 6675; CX 16978 19688 6674; CA 6675 6674 6673;
  CX 6673 19688 19689; CX 19752 19689 3498; CX 19816 19689 6672; CX 16979 19689 6671; CA 6672 6671 6670; CX 6670 19689 19690; CX 19817 19690 6669; CX 16980 19690 6668;
  CA 6669 6668 6667; CX 19753 19690 3497; CX 3499 16979 19563; CX 3498 16980 19564; CX 3497 16981 19565; CX 6667 19690 19691; CX 16981 19691 6665; CX 19818 19691 6666;
  CX 19754 19691 3496; CX 3496 16982 19566; CA 6666 6665 6664; CX 6664 19691 19692; CX 19819 19692 6663; CX 16982 19692 6662; CX 19755 19692 3495; CA 6663 6662 6661;
  CX 6661 19692 19693; CX 16983 19693 6659; CX 19756 19693 3494; CX 19820 19693 6660; CA 6660 6659 6658; CX 6658 19693 19694; CX 19821 19694 6657; CX 19757 19694 3493;
  CX 16984 19694 6656; CA 6657 6656 6655; CX 6655 19694 19695; CX 19758 19695 3492; CX 16985 19695 6653; CX 3495 16983 19567; CX 3494 16984 19568; CX 3493 16985 19569;
  CX 3492 16986 19570; CX 19822 19695 6654; CA 6654 6653 6652; CX 6652 19695 19696; CX 19759 19696 3491; CX 19823 19696 6651; CX 16986 19696 6650; CX 3491 16987 19571;
  CA 6651 6650 6649; CX 6649 19696 19697; CX 19760 19697 3490; CX 16987 19697 6647; CX 19824 19697 6648; CA 6648 6647 6646; CX 6646 19697 19698; CX 19825 19698 6645;
  CX 19761 19698 3489; CX 16988 19698 6644; CA 6645 6644 6643; CX 6643 19698 19699; CX 19762 19699 3488; CX 16989 19699 6641; CX 19826 19699 6642; CA 6642 6641 6640;
  CX 6640 19699 19700; CX 19763 19700 3487; CX 19827 19700 6639; CX 16990 19700 6638; CA 6639 6638 6637; CX 6637 19700 19701; CX 16991 19701 6635; CX 19828 19701 6636;
  CA 6636 6635 6634; CX 3490 16988 19572; CX 3489 16989 19573; CX 3488 16990 19574; CX 3487 16991 19575; CX 6634 19701 19702; CX 19765 19702 3485; CX 19829 19702 6633;
  CX 16992 19702 6632; CX 3485 16993 19577; CX 19764 19701 3486; CX 3486 16992 19576; CA 6633 6632 6631; CX 6631 19702 19703; CX 16993 19703 6629; CX 19766 19703 3484;
  CX 19830 19703 6630; CX 3484 16994 19578; CA 6630 6629 6628; CX 6628 19703 19704; CX 19831 19704 6627; CX 19767 19704 3483; CX 16994 19704 6626; CA 6627 6626 6625;
  CX 6625 19704 19705; CX 16995 19705 6623; CX 19768 19705 3482; CX 19832 19705 6624; CA 6624 6623 6622; CX 6622 19705 19706; CX 16996 19706 6620; CX 19769 19706 3481;
  CX 19833 19706 6621; CA 6621 6620 6619; CX 6619 19706 19707; CX 19770 19707 3480; CX 16997 19707 6617; CX 19834 19707 6618; CA 6618 6617 6616; CX 6616 19707 19708;
  CX 19835 19708 6615; CX 16998 19708 6614; CA 6615 6614 6613; CX 19771 19708 3479; CX 3483 16995 19579; CX 3482 16996 19580; CX 3481 16997 19581; CX 3480 16998 19582;
  CX 3479 16999 19583; CX 6613 19708 19709; CX 16999 19709 6611; CX 19772 19709 3478; CX 3478 17000 19584; CX 19836 19709 6612; CA 6612 6611 6610; CX 6610 19709 19710;
  CX 19837 19710 6609; CX 19773 19710 3477; CX 17000 19710 6608; CA 6609 6608 6607; CX 6607 19710 19711; CX 19774 19711 3476; CX 19838 19711 6606; CX 3477 17001 19585;
  CX 3476 17002 19586; CX 17001 19711 6605; CA 6606 6605 6604; CX 6604 19711 19712; CX 19839 19712 6603; CX 19775 19712 3475; CX 17002 19712 6602; CA 6603 6602 6601;
  CX 6601 19712 19713; CX 19840 19713 6600; CX 19776 19713 3474; CX 17003 19713 6599; CA 6600 6599 6598; CX 6598 19713 19714; CX 19841 19714 6597; CX 17004 19714 6596;
  CA 6597 6596 6595; CX 6595 19714 19715; CX 19778 19715 3472; CX 19842 19715 6594; CX 17005 19715 6593; CA 6594 6593 6592; CX 6592 19715 19716; CX 19779 19716 3471].
(** Lines 24805-25204 of the file. *)
Definition divide64_62 : list cg := [
  CX 17006 19716 6590; CX 3475 17003 19587; CX 3474 17004 19588; CX 3472 17006 19590; CX 3471 17007 19591; CX 19777 19714 3473; CX 3473 17005 19589; CX 3408 16641 19844;
  CX 3409 16641 19843; CX 19843 19716 6591; CA 6591 6590 6589; CX 6589 19716 19717; CX 19844 19717 6588; CX 19780 19717 3470; CX 3470 17008 19592; CX 17007 19717 6587;
  CA 6588 6587 6586; CX 6586 19717 19718; CX 19781 19718 3469; CX 19845 19718 6585; CX 3469 17009 19593; CX 17008 19718 6584; CA 6585 6584 6583; CX 6583 19718 19719;
  CX 19782 19719 182; CI 182 16640; CX 3471 16640 19655; CX 16829 16640 19594; CX 3526 16640 19600; CX 3520 16640 19606; CX 3514 16640 19612; CX 3508 16640 19618;
  CX 3502 16640 19624; CX 3496 16640 19630; CX 3490 16640 19636; CX 3484 16640 19642; CX 3478 16640 19648; CA 19594 16946 19468; CX 19531 19468 3593; CX 16947 19468 6581;
  CX 3593 16948 19343; CX 3528 16640 19598; CX 3529 16640 19597; CX 3531 16640 19595; CX 19595 19468 6582; CA 6582 6581 6580; CX 6580 19468 19469; CX 19532 19469 3592;
  CX 16948 19469 6578; CX 3592 16949 19344; CX 3530 16640 19596; CX 19596 19469 6579; CA 6579 6578 6577; CX 6577 19469 19470; CX 16949 19470 6575; CX 19597 19470 6576;
  CA 6576 6575 6574; CX 6574 19470 19471; CX 19534 19471 3590; CX 16950 19471 6572; CX 19598 19471 6573; CA 6573 6572 6571; CX 19533 19470 3591; CX 6571 19471 19472;
  CX 19535 19472 3589; CX 16951 19472 6569; CX 3591 16950 19345; CX 3590 16951 19346; CX 3589 16952 19347; CX 3527 16640 19599; CX 19599 19472 6570; CA 6570 6569 6568;
  CX 6568 19472 19473; CX 19536 19473 3588; CX 16952 19473 6566; CX 19600 19473 6567; CA 6567 6566 6565; CX 6565 19473 19474; CX 19537 19474 3587; CX 16953 19474 6563;
  CX 3588 16953 19348; CX 3587 16954 19349; CX 3522 16640 19604; CX 3523 16640 19603; CX 3525 16640 19601; CX 19601 19474 6564; CA 6564 6563 6562; CX 6562 19474 19475;
  CX 19538 19475 3586; CX 16954 19475 6560; CX 3586 16955 19350; CX 3524 16640 19602; CX 19602 19475 6561; CA 6561 6560 6559; CX 6559 19475 19476; CX 16955 19476 6557;
  CX 19603 19476 6558; CA 6558 6557 6556; CX 6556 19476 19477; CX 19540 19477 3584; CX 16956 19477 6554; CX 19604 19477 6555; CA 6555 6554 6553; CX 19539 19476 3585;
  CX 6553 19477 19478; CX 19541 19478 3583; CX 16957 19478 6551; CX 3585 16956 19351; CX 3584 16957 19352; CX 3583 16958 19353; CX 3521 16640 19605; CX 19605 19478 6552;
  CA 6552 6551 6550; CX 6550 19478 19479; CX 19542 19479 3582; CX 16958 19479 6548; CX 19606 19479 6549; CA 6549 6548 6547; CX 6547 19479 19480; CX 19543 19480 3581;
  CX 16959 19480 6545; CX 3582 16959 19354; CX 3581 16960 19355; CX 3516 16640 19610; CX 3517 16640 19609; CX 3519 16640 19607; CX 19607 19480 6546; CA 6546 6545 6544;
  CX 6544 19480 19481; CX 19544 19481 3580; CX 16960 19481 6542; CX 3580 16961 19356; CX 3518 16640 19608; CX 19608 19481 6543; CA 6543 6542 6541; CX 6541 19481 19482;
  CX 16961 19482 6539; CX 19609 19482 6540; CA 6540 6539 6538; CX 6538 19482 19483; CX 19546 19483 3578; CX 16962 19483 6536; CX 19610 19483 6537; CA 6537 6536 6535;
  CX 19545 19482 3579; CX 6535 19483 19484; CX 19547 19484 3577; CX 16963 19484 6533; CX 3579 16962 19357; CX 3578 16963 19358; CX 3577 16964 19359; CX 3515 16640 19611;
  CX 19611 19484 6534; CA 6534 6533 6532; CX 6532 19484 19485; CX 19548 19485 3576; CX 16964 19485 6530; CX 19612 19485 6531; CA 6531 6530 6529; CX 6529 19485 19486;
  CX 19549 19486 3575; CX 16965 19486 6527; CX 3576 16965 19360; CX 3575 16966 19361; CX 3510 16640 19616; CX 3511 16640 19615; CX 3513 16640 19613; CX 19613 19486 6528;
  CA 6528 6527 6526; CX 6526 19486 19487; CX 19550 19487 3574; CX 16966 19487 6524; CX 3574 16967 19362; CX 3512 16640 19614; CX 19614 19487 6525; CA 6525 6524 6523;
  CX 6523 19487 19488; CX 16967 19488 6521; CX 19615 19488 6522; CA 6522 6521 6520; CX 6520 19488 19489; CX 19552 19489 3572; CX 16968 19489 6518; CX 19616 19489 6519;
  CA 6519 6518 6517; CX 19551 19488 3573; CX 6517 19489 19490; CX 19553 19490 3571; CX 16969 19490 6515; CX 3573 16968 19363; CX 3572 16969 19364; CX 3571 16970 19365;
  CX 3509 16640 19617; CX 19617 19490 6516; CA 6516 6515 6514; CX 6514 19490 19491; CX 19554 19491 3570; CX 16970 19491 6512; CX 19618 19491 6513; CA 6513 6512 6511;
  CX 6511 19491 19492; CX 19555 19492 3569; CX 16971 19492 6509; CX 3570 16971 19366; CX 3569 16972 19367; CX 3504 16640 19622; CX 3505 16640 19621; CX 3507 16640 19619;
  CX 19619 19492 6510; CA 6510 6509 6508; CX 6508 19492 19493; CX 19556 19493 3568; CX 16972 19493 6506; CX 3568 16973 19368; CX 3506 16640 19620; CX 19620 19493 6507;
  CA 6507 6506 6505; CX 6505 19493 19494; CX 19557 19494 3567; CX 3567 16974 19369; CX 16973 19494 6503; CX 19621 19494 6504; CA 6504 6503 6502; CX 6502 19494 19495;
  CX 19622 19495 6501; CX 19558 19495 3566; CX 3566 16975 19370; CX 16974 19495 6500; CA 6501 6500 6499; CX 6499 19495 19496; CX 16975 19496 6497; CX 19559 19496 3565;
  CX 3565 16976 19371; CX 3503 16640 19623; CX 19623 19496 6498; CA 6498 6497 6496; CX 6496 19496 19497; CX 19624 19497 6495; CX 19560 19497 3564; CX 16976 19497 6494;
  CA 6495 6494 6493; CX 6493 19497 19498; CX 16977 19498 6491; CX 3564 16977 19372; CX 19561 19498 3563; CX 3563 16978 19373; CX 3498 16640 19628; CX 3499 16640 19627;
  CX 3501 16640 19625; CX 19625 19498 6492; CA 6492 6491 6490; CX 6490 19498 19499; CX 19562 19499 3562; CX 16978 19499 6488; CX 3562 16979 19374; CX 3500 16640 19626;
  CX 19626 19499 6489; CA 6489 6488 6487; CX 6487 19499 19500; CX 16979 19500 6485; CX 19563 19500 3561; CX 19627 19500 6486; CA 6486 6485 6484; CX 6484 19500 19501;
  CX 3561 16980 19375; CX 19564 19501 3560; CX 3560 16981 19376; CX 16980 19501 6482; CX 19628 19501 6483; CA 6483 6482 6481; CX 6481 19501 19502; CX 16981 19502 6479;
  CX 19565 19502 3559; CX 3559 16982 19377; CX 3497 16640 19629; CX 19629 19502 6480; CA 6480 6479 6478; CX 6478 19502 19503; CX 19630 19503 6477; CX 16982 19503 6476;
  CA 6477 6476 6475; CX 6475 19503 19504; CX 16983 19504 6473; CX 19567 19504 3557; CX 3557 16984 19379; CX 19566 19503 3558; CX 3558 16983 19378; CX 3492 16640 19634;
  CX 3493 16640 19633; CX 3495 16640 19631; CX 19631 19504 6474; CA 6474 6473 6472; CX 6472 19504 19505; CX 19568 19505 3556; CX 16984 19505 6470; CX 3556 16985 19380;
  CX 3494 16640 19632; CX 19632 19505 6471; CA 6471 6470 6469; CX 6469 19505 19506; CX 19569 19506 3555; CX 19633 19506 6468; CX 3555 16986 19381; CX 16985 19506 6467;
  CA 6468 6467 6466; CX 6466 19506 19507; CX 16986 19507 6464; CX 19634 19507 6465; CA 6465 6464 6463; CX 6463 19507 19508; CX 19571 19508 3553; CX 16987 19508 6461;
  CX 3553 16988 19383; CX 19570 19507 3554; CX 3554 16987 19382; CX 3491 16640 19635; CX 19635 19508 6462; CA 6462 6461 6460; CX 6460 19508 19509; CX 19572 19509 3552;
  CX 16988 19509 6458; CX 19636 19509 6459; CA 6459 6458 6457; CX 6457 19509 19510; CX 16989 19510 6455; CX 19573 19510 3551; CX 3552 16989 19384; CX 3551 16990 19385;
  CX 3486 16640 19640; CX 3487 16640 19639; CX 3489 16640 19637; CX 19637 19510 6456; CA 6456 6455 6454; CX 6454 19510 19511; CX 19574 19511 3550; CX 3550 16991 19386;
  CX 16990 19511 6452; CX 3488 16640 19638; CX 19638 19511 6453; CA 6453 6452 6451; CX 6451 19511 19512; CX 16991 19512 6449; CX 19575 19512 3549; CX 3549 16992 19387;
  CX 19639 19512 6450; CA 6450 6449 6448; CX 6448 19512 19513; CX 19640 19513 6447; CX 19576 19513 3548; CX 3548 16993 19388; CX 16992 19513 6446; CA 6447 6446 6445;
  CX 6445 19513 19514; CX 19577 19514 3547; CX 3547 16994 19389; CX 16993 19514 6443; CX 3485 16640 19641; CX 19641 19514 6444; CA 6444 6443 6442; CX 6442 19514 19515;
  CX 19642 19515 6441; CX 19578 19515 3546; CX 16994 19515 6440; CX 3546 16995 19390; CA 6441 6440 6439; CX 6439 19515 19516; CX 16995 19516 6437; CX 19579 19516 3545;
  CX 3545 16996 19391; CX 3480 16640 19646; CX 3481 16640 19645; CX 3483 16640 19643; CX 19643 19516 6438; CA 6438 6437 6436; CX 6436 19516 19517; CX 16996 19517 6434;
  CX 19580 19517 3544; CX 3544 16997 19392; CX 3482 16640 19644; CX 19644 19517 6435; CA 6435 6434 6433; CX 6433 19517 19518; CX 19581 19518 3543; CX 3543 16998 19393;
  CX 19645 19518 6432; CX 16997 19518 6431; CA 6432 6431 6430; CX 6430 19518 19519; CX 19646 19519 6429; CX 19582 19519 3542; CX 16998 19519 6428; CA 6429 6428 6427;
  CX 6427 19519 19520; CX 19583 19520 3541; CX 3542 16999 19394; CX 3541 17000 19395; CX 16999 19520 6425; CX 3479 16640 19647; CX 19647 19520 6426; CX 3474 16640 19652].
(** Lines 25205-25604 of the file. *)
Definition divide64_63 : list cg := [
  CX 3475 16640 19651; CX 3477 16640 19649; CX 3476 16640 19650; CX 3473 16640 19653; CA 6426 6425 6424; CX 6424 19520 19521; CX 17000 19521 6422; CX 19584 19521 3540;
  CX 3540 17001 19396; CX 3470 16640 19656; CX 19648 19521 6423; CA 6423 6422 6421; CX 6421 19521 19522; CX 19649 19522 6420; CX 19585 19522 3539; CX 3539 17002 19397;
  CA 16640 4535 17524; CX 17001 19522 6419; CA 6420 6419 6418; CX 6418 19522 19523; CX 17002 19523 6416; CX 19650 19523 6417; CA 6417 6416 6415; CX 6415 19523 19524;
  CX 19587 19524 3537; CX 19651 19524 6414; CX 3537 17004 19399; CX 17003 19524 6413; CA 6414 6413 6412; CX 6412 19524 19525; CX 19652 19525 6411; CX 17004 19525 6410;
  CA 6411 6410 6409; CX 19588 19525 3536; CX 3536 17005 19400; CX 19586 19523 3538; CX 3538 17003 19398; CX 6409 19525 19526; CX 19589 19526 3535; CX 17005 19526 6407;
  CX 3535 17006 19401; CX 19653 19526 6408; CA 6408 6407 6406; CX 6406 19526 19527; CX 17006 19527 6404; CX 19590 19527 3534; CX 3534 17007 19402; CX 3472 16640 19654;
  CX 19654 19527 6405; CA 6405 6404 6403; CX 6403 19527 19528; CX 19655 19528 6402; CX 17007 19528 6401; CA 6402 6401 6400; CX 6400 19528 19529; CX 19592 19529 3532;
  CX 3532 17009 19404; CX 17008 19529 6398; CX 19656 19529 6399; CA 6399 6398 6397; CX 6397 19529 19530; CX 19593 19530 183; CX 19591 19528 3533; CX 3533 17008 19403;
  CI 183 16639; CX 3533 16639 19467; CX 16828 16639 19405; CX 3589 16639 19411; CX 3583 16639 19417; CX 3577 16639 19423; CX 3571 16639 19429; CX 3565 16639 19435;
  CX 3559 16639 19441; CX 3553 16639 19447; CX 3547 16639 19453; CX 3541 16639 19459; CX 3591 16639 19409; CX 3592 16639 19408; CX 3594 16639 19406; CX 3593 16639 19407;
  CX 3590 16639 19410; CX 3585 16639 19415; CX 3586 16639 19414; CX 3588 16639 19412; CX 3587 16639 19413; CX 3584 16639 19416; CX 3579 16639 19421; CX 3580 16639 19420;
  CX 3582 16639 19418; CX 3581 16639 19419; CX 3578 16639 19422; CX 3573 16639 19427; CX 3574 16639 19426; CX 3576 16639 19424; CX 3575 16639 19425; CX 3572 16639 19428;
  CX 3567 16639 19433; CX 3568 16639 19432; CX 3570 16639 19430; CX 3569 16639 19431; CX 3566 16639 19434; CX 3561 16639 19439; CX 3562 16639 19438; CX 3564 16639 19436;
  CX 3563 16639 19437; CX 3560 16639 19440; CX 3555 16639 19445; CX 3556 16639 19444; CX 3558 16639 19442; CX 3557 16639 19443; CX 3554 16639 19446; CX 3549 16639 19451;
  CX 3550 16639 19450; CX 3552 16639 19448; CX 3551 16639 19449; CX 3548 16639 19452; CX 3543 16639 19457; CX 3544 16639 19456; CX 3546 16639 19454; CX 3545 16639 19455;
  CX 3542 16639 19458; CX 3537 16639 19463; CX 3538 16639 19462; CX 3540 16639 19460; CX 3539 16639 19461; CX 3536 16639 19464; CX 3535 16639 19465; CA 16639 4535 17523;
  CA 19405 16946 19279; CX 19406 19279 6396; CX 19342 19279 3656; CX 16947 19279 6395; CA 6396 6395 6394; CX 6394 19279 19280; CX 16948 19280 6392; CX 19407 19280 6393;
  CA 6393 6392 6391; CX 6391 19280 19281; CX 19344 19281 3654; CX 16949 19281 6389; CX 19408 19281 6390; CA 6390 6389 6388; CX 6388 19281 19282; CX 19345 19282 3653;
  CX 19409 19282 6387; CX 16950 19282 6386; CX 19343 19280 3655; CA 6387 6386 6385; CX 6385 19282 19283; CX 19346 19283 3652; CX 16951 19283 6383; CX 19410 19283 6384;
  CA 6384 6383 6382; CX 6382 19283 19284; CX 19347 19284 3651; CX 19411 19284 6381; CX 16952 19284 6380; CA 6381 6380 6379; CX 6379 19284 19285; CX 19412 19285 6378;
  CX 19348 19285 3650; CX 16953 19285 6377; CA 6378 6377 6376; CX 6376 19285 19286; CX 16954 19286 6374; CX 19413 19286 6375; CA 6375 6374 6373; CX 6373 19286 19287;
  CX 19350 19287 3648; CX 16955 19287 6371; CX 19414 19287 6372; CA 6372 6371 6370; CX 19349 19286 3649; CX 6370 19287 19288; CX 19351 19288 3647; CX 19415 19288 6369;
  CX 16956 19288 6368; CA 6369 6368 6367; CX 6367 19288 19289; CX 19352 19289 3646; CX 16957 19289 6365; CX 19416 19289 6366; CA 6366 6365 6364; CX 6364 19289 19290;
  CX 19353 19290 3645; CX 19417 19290 6363; CX 3656 16948 19154; CX 3655 16949 19155; CX 3654 16950 19156; CX 3653 16951 19157; CX 3652 16952 19158; CX 3651 16953 19159;
  CX 3650 16954 19160; CX 3649 16955 19161; CX 3648 16956 19162; CX 3647 16957 19163; CX 3646 16958 19164; CX 3645 16959 19165; CX 16958 19290 6362; CA 6363 6362 6361;
  CX 6361 19290 19291; CX 19418 19291 6360; CX 19354 19291 3644; CX 3644 16960 19166; CX 16959 19291 6359; CA 6360 6359 6358; CX 6358 19291 19292; CX 16960 19292 6356;
  CX 19419 19292 6357; CA 6357 6356 6355; CX 6355 19292 19293; CX 19420 19293 6354; CX 16961 19293 6353; CA 6354 6353 6352; CX 6352 19293 19294; CX 19421 19294 6351;
  CX 16962 19294 6350; CA 6351 6350 6349; CX 6349 19294 19295; CX 19422 19295 6348; CX 19358 19295 3640; CX 16963 19295 6347; CA 6348 6347 6346; CX 6346 19295 19296;
  CX 19359 19296 3639; CX 16964 19296 6344; CX 19423 19296 6345; CA 6345 6344 6343; CX 6343 19296 19297; CX 19424 19297 6342; CX 19360 19297 3638; CX 16965 19297 6341;
  CA 6342 6341 6340; CX 6340 19297 19298; CX 16966 19298 6338; CX 19425 19298 6339; CA 6339 6338 6337; CX 19361 19298 3637; CX 6337 19298 19299; CX 19362 19299 3636;
  CX 19426 19299 6336; CX 16967 19299 6335; CA 6336 6335 6334; CX 6334 19299 19300; CX 19427 19300 6333; CX 19363 19300 3635; CX 16968 19300 6332; CA 6333 6332 6331;
  CX 6331 19300 19301; CX 19364 19301 3634; CX 19428 19301 6330; CX 16969 19301 6329; CA 6330 6329 6328; CX 6328 19301 19302; CX 16970 19302 6326; CX 19429 19302 6327;
  CA 6327 6326 6325; CX 6325 19302 19303; CX 19430 19303 6324; CX 19366 19303 3632; CX 19365 19302 3633; CX 16971 19303 6323; CA 6324 6323 6322; CX 6322 19303 19304;
  CX 16972 19304 6320; CX 19431 19304 6321; CA 6321 6320 6319; CX 6319 19304 19305; CX 19368 19305 3630; CX 16973 19305 6317; CX 19432 19305 6318; CA 6318 6317 6316;
  CX 6316 19305 19306; CX 19369 19306 3629; CX 16974 19306 6314; CX 19433 19306 6315; CA 6315 6314 6313; CX 6313 19306 19307; CX 16975 19307 6311; CX 19370 19307 3628;
  CX 19356 19293 3642; CX 3642 16962 19168; CX 3640 16964 19170; CX 3639 16965 19171; CX 3638 16966 19172; CX 3637 16967 19173; CX 3636 16968 19174; CX 3635 16969 19175;
  CX 3634 16970 19176; CX 3633 16971 19177; CX 3632 16972 19178; CX 3630 16974 19180; CX 3629 16975 19181; CX 3628 16976 19182; CX 19355 19292 3643; CX 3643 16961 19167;
  CX 19357 19294 3641; CX 3641 16963 19169; CX 19434 19307 6312; CA 6312 6311 6310; CX 6310 19307 19308; CX 19435 19308 6309; CX 16976 19308 6308; CA 6309 6308 6307;
  CX 6307 19308 19309; CX 16977 19309 6305; CX 19436 19309 6306; CX 19372 19309 3626; CA 6306 6305 6304; CX 6304 19309 19310; CX 19373 19310 3625; CX 16978 19310 6302;
  CX 19371 19308 3627; CX 19437 19310 6303; CA 6303 6302 6301; CX 6301 19310 19311; CX 19374 19311 3624; CX 16979 19311 6299; CX 19438 19311 6300; CA 6300 6299 6298;
  CX 6298 19311 19312; CX 19375 19312 3623; CX 19439 19312 6297; CX 16980 19312 6296; CA 6297 6296 6295; CX 6295 19312 19313; CX 19440 19313 6294; CX 19376 19313 3622;
  CX 16981 19313 6293; CA 6294 6293 6292; CX 6292 19313 19314; CX 16982 19314 6290; CX 19377 19314 3621; CX 19441 19314 6291; CA 6291 6290 6289; CX 6289 19314 19315;
  CX 3627 16977 19183; CX 3626 16978 19184; CX 3625 16979 19185; CX 3624 16980 19186; CX 3623 16981 19187; CX 3622 16982 19188; CX 3621 16983 19189; CX 19442 19315 6288;
  CX 19378 19315 3620; CX 3620 16984 19190; CX 16983 19315 6287; CA 6288 6287 6286; CX 6286 19315 19316; CX 16984 19316 6284; CX 19379 19316 3619; CX 19443 19316 6285;
  CA 6285 6284 6283; CX 6283 19316 19317; CX 16985 19317 6281; CX 19380 19317 3618; CX 19444 19317 6282; CA 6282 6281 6280; CX 6280 19317 19318; CX 19445 19318 6279;
  CX 19381 19318 3617; CX 16986 19318 6278; CX 3619 16985 19191; CX 3618 16986 19192; CX 3617 16987 19193; CA 6279 6278 6277; CX 6277 19318 19319; CX 19382 19319 3616;
  CX 19446 19319 6276; CX 16987 19319 6275; CA 6276 6275 6274; CX 6274 19319 19320; CX 16988 19320 6272; CX 19383 19320 3615; CX 19447 19320 6273; CA 6273 6272 6271;
  CX 6271 19320 19321; CX 19384 19321 3614; CX 19448 19321 6270; CX 16989 19321 6269; CA 6270 6269 6268; CX 6268 19321 19322; CX 16990 19322 6266; CX 19385 19322 3613;
  CX 19449 19322 6267; CA 6267 6266 6265; CX 6265 19322 19323; CX 16991 19323 6263; CX 19386 19323 3612; CX 19450 19323 6264; CA 6264 6263 6262; CX 6262 19323 19324;
  CX 19387 19324 3611; CX 19451 19324 6261; CX 16992 19324 6260; CX 3616 16988 19194; CX 3615 16989 19195; CX 3614 16990 19196; CX 3613 16991 19197; CX 3612 16992 19198].
(** Lines 25605-26004 of the file. *)
Definition divide64_64 : list cg := [
  CX 3611 16993 19199; CA 6261 6260 6259; CX 6259 19324 19325; CX 19452 19325 6258; CX 19388 19325 3610; CX 16993 19325 6257; CA 6258 6257 6256; CX 6256 19325 19326;
  CX 16994 19326 6254; CX 19389 19326 3609; CX 3610 16994 19200; CX 3609 16995 19201; CX 19453 19326 6255; CA 6255 6254 6253; CX 6253 19326 19327; CX 16995 19327 6251;
  CX 19454 19327 6252; CA 6252 6251 6250; CX 6250 19327 19328; CX 19455 19328 6249; CX 16996 19328 6248; CA 6249 6248 6247; CX 6247 19328 19329; CX 19392 19329 3606;
  CX 16997 19329 6245; CX 19456 19329 6246; CA 6246 6245 6244; CX 19391 19328 3607; CX 6244 19329 19330; CX 19393 19330 3605; CX 19457 19330 6243; CX 16998 19330 6242;
  CA 6243 6242 6241; CX 6241 19330 19331; CX 19458 19331 6240; CX 19394 19331 3604; CX 16999 19331 6239; CA 6240 6239 6238; CX 6238 19331 19332; CX 19395 19332 3603;
  CX 19459 19332 6237; CX 17000 19332 6236; CA 6237 6236 6235; CX 3607 16997 19203; CX 3606 16998 19204; CX 3605 16999 19205; CX 3604 17000 19206; CX 3603 17001 19207;
  CX 6235 19332 19333; CX 19396 19333 3602; CX 19460 19333 6234; CX 17001 19333 6233; CA 6234 6233 6232; CX 3602 17002 19208; CX 6232 19333 19334; CX 19397 19334 3601;
  CX 17002 19334 6230; CX 19461 19334 6231; CA 6231 6230 6229; CX 3601 17003 19209; CX 6229 19334 19335; CX 19462 19335 6228; CX 19398 19335 3600; CX 17003 19335 6227;
  CA 6228 6227 6226; CX 6226 19335 19336; CX 19463 19336 6225; CX 17004 19336 6224; CA 6225 6224 6223; CX 19399 19336 3599; CX 6223 19336 19337; CX 19400 19337 3598;
  CX 17005 19337 6221; CX 3600 17004 19210; CX 3599 17005 19211; CX 3598 17006 19212; CX 19464 19337 6222; CA 6222 6221 6220; CX 6220 19337 19338; CX 19401 19338 3597;
  CX 19465 19338 6219; CX 3597 17007 19213; CX 17006 19338 6218; CA 6219 6218 6217; CX 6217 19338 19339; CX 19402 19339 3596; CX 17007 19339 6215; CX 3596 17008 19214;
  CX 19390 19327 3608; CX 3608 16996 19202; CX 19367 19304 3631; CX 3631 16973 19179; CX 3534 16639 19466; CX 19466 19339 6216; CA 6216 6215 6214; CX 6214 19339 19340;
  CX 19403 19340 3595; CX 17008 19340 6212; CX 19467 19340 6213; CA 6213 6212 6211; CX 3595 17009 19215; CX 6211 19340 19341; CX 19404 19341 184; CI 184 16638;
  CX 3657 16638 19217; CX 3651 16638 19223; CX 3645 16638 19229; CX 3639 16638 19235; CX 3633 16638 19241; CX 3627 16638 19247; CX 3621 16638 19253; CX 3615 16638 19259;
  CX 3609 16638 19265; CX 3603 16638 19271; CX 3596 16638 19278; CX 16827 16638 19216; CA 19216 16946 19090; CX 19217 19090 6210; CX 19153 19090 3719; CX 16947 19090 6209;
  CA 6210 6209 6208; CX 6208 19090 19091; CX 16948 19091 6206; CX 19154 19091 3718; CX 3719 16948 18965; CX 3718 16949 18966; CX 3653 16638 19221; CX 3654 16638 19220;
  CX 3656 16638 19218; CX 19218 19091 6207; CA 6207 6206 6205; CX 6205 19091 19092; CX 19155 19092 3717; CX 16949 19092 6203; CX 3717 16950 18967; CX 3655 16638 19219;
  CX 19219 19092 6204; CA 6204 6203 6202; CX 6202 19092 19093; CX 19156 19093 3716; CX 19220 19093 6201; CX 16950 19093 6200; CA 6201 6200 6199; CX 6199 19093 19094;
  CX 19157 19094 3715; CX 16951 19094 6197; CX 19221 19094 6198; CA 6198 6197 6196; CX 6196 19094 19095; CX 19158 19095 3714; CX 16952 19095 6194; CX 3716 16951 18968;
  CX 3715 16952 18969; CX 3714 16953 18970; CX 3652 16638 19222; CX 19222 19095 6195; CA 6195 6194 6193; CX 6193 19095 19096; CX 19223 19096 6192; CX 19159 19096 3713;
  CX 16953 19096 6191; CA 6192 6191 6190; CX 6190 19096 19097; CX 16954 19097 6188; CX 19160 19097 3712; CX 3713 16954 18971; CX 3712 16955 18972; CX 3647 16638 19227;
  CX 3648 16638 19226; CX 3650 16638 19224; CX 19224 19097 6189; CA 6189 6188 6187; CX 6187 19097 19098; CX 19161 19098 3711; CX 16955 19098 6185; CX 3711 16956 18973;
  CX 3649 16638 19225; CX 19225 19098 6186; CA 6186 6185 6184; CX 6184 19098 19099; CX 19162 19099 3710; CX 19226 19099 6183; CX 16956 19099 6182; CA 6183 6182 6181;
  CX 6181 19099 19100; CX 19163 19100 3709; CX 16957 19100 6179; CX 19227 19100 6180; CA 6180 6179 6178; CX 6178 19100 19101; CX 19164 19101 3708; CX 16958 19101 6176;
  CX 3710 16957 18974; CX 3709 16958 18975; CX 3708 16959 18976; CX 3646 16638 19228; CX 19228 19101 6177; CA 6177 6176 6175; CX 6175 19101 19102; CX 19229 19102 6174;
  CX 19165 19102 3707; CX 16959 19102 6173; CA 6174 6173 6172; CX 6172 19102 19103; CX 16960 19103 6170; CX 19166 19103 3706; CX 3707 16960 18977; CX 3706 16961 18978;
  CX 3641 16638 19233; CX 3642 16638 19232; CX 3644 16638 19230; CX 19230 19103 6171; CA 6171 6170 6169; CX 6169 19103 19104; CX 19167 19104 3705; CX 16961 19104 6167;
  CX 3705 16962 18979; CX 3643 16638 19231; CX 19231 19104 6168; CA 6168 6167 6166; CX 6166 19104 19105; CX 19168 19105 3704; CX 19232 19105 6165; CX 16962 19105 6164;
  CA 6165 6164 6163; CX 6163 19105 19106; CX 19169 19106 3703; CX 16963 19106 6161; CX 19233 19106 6162; CA 6162 6161 6160; CX 6160 19106 19107; CX 19170 19107 3702;
  CX 16964 19107 6158; CX 3704 16963 18980; CX 3703 16964 18981; CX 3702 16965 18982; CX 3640 16638 19234; CX 19234 19107 6159; CA 6159 6158 6157; CX 6157 19107 19108;
  CX 19235 19108 6156; CX 19171 19108 3701; CX 16965 19108 6155; CA 6156 6155 6154; CX 6154 19108 19109; CX 16966 19109 6152; CX 19172 19109 3700; CX 3701 16966 18983;
  CX 3700 16967 18984; CX 3635 16638 19239; CX 3636 16638 19238; CX 3638 16638 19236; CX 19236 19109 6153; CA 6153 6152 6151; CX 6151 19109 19110; CX 19173 19110 3699;
  CX 16967 19110 6149; CX 3699 16968 18985; CX 3637 16638 19237; CX 19237 19110 6150; CA 6150 6149 6148; CX 6148 19110 19111; CX 19174 19111 3698; CX 19238 19111 6147;
  CX 16968 19111 6146; CA 6147 6146 6145; CX 6145 19111 19112; CX 19175 19112 3697; CX 16969 19112 6143; CX 19239 19112 6144; CA 6144 6143 6142; CX 6142 19112 19113;
  CX 19176 19113 3696; CX 16970 19113 6140; CX 3698 16969 18986; CX 3697 16970 18987; CX 3696 16971 18988; CX 3634 16638 19240; CX 19240 19113 6141; CA 6141 6140 6139;
  CX 6139 19113 19114; CX 19241 19114 6138; CX 19177 19114 3695; CX 16971 19114 6137; CA 6138 6137 6136; CX 6136 19114 19115; CX 16972 19115 6134; CX 19178 19115 3694;
  CX 3695 16972 18989; CX 3694 16973 18990; CX 3629 16638 19245; CX 3630 16638 19244; CX 3632 16638 19242; CX 19242 19115 6135; CA 6135 6134 6133; CX 6133 19115 19116;
  CX 16973 19116 6131; CX 19179 19116 3693; CX 3693 16974 18991; CX 3631 16638 19243; CX 19243 19116 6132; CA 6132 6131 6130; CX 6130 19116 19117; CX 19180 19117 3692;
  CX 3692 16975 18992; CX 16974 19117 6128; CX 19244 19117 6129; CA 6129 6128 6127; CX 6127 19117 19118; CX 19245 19118 6126; CX 16975 19118 6125; CA 6126 6125 6124;
  CX 6124 19118 19119; CX 16976 19119 6122; CX 19182 19119 3690; CX 3690 16977 18994; CX 19181 19118 3691; CX 3691 16976 18993; CX 3628 16638 19246; CX 19246 19119 6123;
  CA 6123 6122 6121; CX 6121 19119 19120; CX 16977 19120 6119; CX 19183 19120 3689; CX 3689 16978 18995; CX 19247 19120 6120; CA 6120 6119 6118; CX 6118 19120 19121;
  CX 16978 19121 6116; CX 19184 19121 3688; CX 3688 16979 18996; CX 3623 16638 19251; CX 3624 16638 19250; CX 3626 16638 19248; CX 19248 19121 6117; CA 6117 6116 6115;
  CX 6115 19121 19122; CX 16979 19122 6113; CX 19185 19122 3687; CX 3687 16980 18997; CX 3625 16638 19249; CX 19249 19122 6114; CA 6114 6113 6112; CX 6112 19122 19123;
  CX 16980 19123 6110; CX 19250 19123 6111; CA 6111 6110 6109; CX 6109 19123 19124; CX 19251 19124 6108; CX 19187 19124 3685; CX 16981 19124 6107; CA 6108 6107 6106;
  CX 3685 16982 18999; CX 6106 19124 19125; CX 16982 19125 6104; CX 19186 19123 3686; CX 3686 16981 18998; CX 19188 19125 3684; CX 3684 16983 19000; CX 3622 16638 19252;
  CX 19252 19125 6105; CA 6105 6104 6103; CX 6103 19125 19126; CX 16983 19126 6101; CX 19189 19126 3683; CX 3683 16984 19001; CX 19253 19126 6102; CA 6102 6101 6100;
  CX 6100 19126 19127; CX 19190 19127 3682; CX 16984 19127 6098; CX 3682 16985 19002; CX 3617 16638 19257; CX 3618 16638 19256; CX 3620 16638 19254; CX 19254 19127 6099;
  CA 6099 6098 6097; CX 6097 19127 19128; CX 16985 19128 6095; CX 19191 19128 3681; CX 3681 16986 19003; CX 3619 16638 19255; CX 19255 19128 6096; CA 6096 6095 6094;
  CX 6094 19128 19129; CX 16986 19129 6092; CX 19192 19129 3680; CX 19256 19129 6093; CA 6093 6092 6091; CX 6091 19129 19130; CX 19257 19130 6090; CX 19193 19130 3679;
  CX 3680 16987 19004; CX 3679 16988 19005; CX 16987 19130 6089; CA 6090 6089 6088; CX 6088 19130 19131; CX 16988 19131 6086; CX 19194 19131 3678; CX 3678 16989 19006].
(** Lines 26005-26404 of the file. *)
Definition divide64_65 : list cg := [
  CX 3616 16638 19258; CX 19258 19131 6087; CA 6087 6086 6085; CX 6085 19131 19132; CX 16989 19132 6083; CX 19259 19132 6084; CX 19195 19132 3677; CX 3677 16990 19007;
  CA 6084 6083 6082; CX 6082 19132 19133; CX 16990 19133 6080; CX 19196 19133 3676; CX 3676 16991 19008; CX 3611 16638 19263; CX 3612 16638 19262; CX 3614 16638 19260;
  CX 19260 19133 6081; CA 6081 6080 6079; CX 6079 19133 19134; CX 16991 19134 6077; CX 19197 19134 3675; CX 3675 16992 19009; CX 3613 16638 19261; CX 19261 19134 6078;
  CA 6078 6077 6076; CX 6076 19134 19135; CX 16992 19135 6074; CX 19198 19135 3674; CX 19262 19135 6075; CA 6075 6074 6073; CX 3674 16993 19010; CX 6073 19135 19136;
  CX 19263 19136 6072; CX 16993 19136 6071; CA 6072 6071 6070; CX 6070 19136 19137; CX 16994 19137 6068; CX 19199 19136 3673; CX 3673 16994 19011; CX 19200 19137 3672;
  CX 3672 16995 19012; CX 3610 16638 19264; CX 19264 19137 6069; CA 6069 6068 6067; CX 6067 19137 19138; CX 19201 19138 3671; CX 16995 19138 6065; CX 3671 16996 19013;
  CX 19265 19138 6066; CA 6066 6065 6064; CX 6064 19138 19139; CX 16996 19139 6062; CX 19202 19139 3670; CX 3670 16997 19014; CX 3605 16638 19269; CX 3606 16638 19268;
  CX 3608 16638 19266; CX 19266 19139 6063; CA 6063 6062 6061; CX 6061 19139 19140; CX 19203 19140 3669; CX 3669 16998 19015; CX 16997 19140 6059; CX 3607 16638 19267;
  CX 19267 19140 6060; CA 6060 6059 6058; CX 6058 19140 19141; CX 19204 19141 3668; CX 3668 16999 19016; CX 16998 19141 6056; CX 19268 19141 6057; CA 6057 6056 6055;
  CX 6055 19141 19142; CX 19269 19142 6054; CX 16999 19142 6053; CX 19205 19142 3667; CX 3667 17000 19017; CA 6054 6053 6052; CX 6052 19142 19143; CX 19206 19143 3666;
  CX 3666 17001 19018; CX 3604 16638 19270; CX 19270 19143 6051; CX 3599 16638 19275; CX 3600 16638 19274; CX 3602 16638 19272; CX 3601 16638 19273; CX 3598 16638 19276;
  CX 17000 19143 6050; CA 6051 6050 6049; CX 6049 19143 19144; CX 19207 19144 3665; CX 17001 19144 6047; CX 3665 17002 19019; CX 19271 19144 6048; CA 6048 6047 6046;
  CX 6046 19144 19145; CX 17002 19145 6044; CX 19272 19145 6045; CA 6045 6044 6043; CX 6043 19145 19146; CX 19273 19146 6042; CX 17003 19146 6041; CA 6042 6041 6040;
  CX 19209 19146 3663; CX 3663 17004 19021; CX 19208 19145 3664; CX 3664 17003 19020; CA 16638 4535 17522; CX 6040 19146 19147; CX 17004 19147 6038; CX 19210 19147 3662;
  CX 3662 17005 19022; CX 19274 19147 6039; CA 6039 6038 6037; CX 6037 19147 19148; CX 19275 19148 6036; CX 19211 19148 3661; CX 17005 19148 6035; CA 6036 6035 6034;
  CX 6034 19148 19149; CX 3661 17006 19023; CX 17006 19149 6032; CX 19212 19149 3660; CX 3660 17007 19024; CX 19276 19149 6033; CA 6033 6032 6031; CX 6031 19149 19150;
  CX 19213 19150 3659; CX 3659 17008 19025; CX 17007 19150 6029; CX 3597 16638 19277; CX 19277 19150 6030; CA 6030 6029 6028; CX 6028 19150 19151; CX 17008 19151 6026;
  CX 19278 19151 6027; CA 6027 6026 6025; CX 6025 19151 19152; CX 19215 19152 185; CX 19214 19151 3658; CX 3658 17009 19026; CI 185 16637; CX 3720 16637 19028;
  CX 3714 16637 19034; CX 3708 16637 19040; CX 3702 16637 19046; CX 3696 16637 19052; CX 3690 16637 19058; CX 3684 16637 19064; CX 3678 16637 19070; CX 3672 16637 19076;
  CX 3666 16637 19082; CX 16826 16637 19027; CA 19027 16946 18901; CX 16947 18901 6023; CX 19028 18901 6024; CA 6024 6023 6022; CX 6022 18901 18902; CX 18965 18902 3781;
  CX 16948 18902 6020; CX 18964 18901 3782; CX 3782 16948 18776; CX 3781 16949 18777; CX 3716 16637 19032; CX 3717 16637 19031; CX 3719 16637 19029; CX 19029 18902 6021;
  CA 6021 6020 6019; CX 6019 18902 18903; CX 18966 18903 3780; CX 16949 18903 6017; CX 3780 16950 18778; CX 3718 16637 19030; CX 19030 18903 6018; CA 6018 6017 6016;
  CX 6016 18903 18904; CX 19031 18904 6015; CX 18967 18904 3779; CX 16950 18904 6014; CA 6015 6014 6013; CX 6013 18904 18905; CX 18968 18905 3778; CX 19032 18905 6012;
  CX 16951 18905 6011; CA 6012 6011 6010; CX 6010 18905 18906; CX 18969 18906 3777; CX 16952 18906 6008; CX 3779 16951 18779; CX 3778 16952 18780; CX 3777 16953 18781;
  CX 3715 16637 19033; CX 19033 18906 6009; CA 6009 6008 6007; CX 6007 18906 18907; CX 16953 18907 6005; CX 19034 18907 6006; CA 6006 6005 6004; CX 6004 18907 18908;
  CX 18971 18908 3775; CX 16954 18908 6002; CX 18970 18907 3776; CX 3776 16954 18782; CX 3775 16955 18783; CX 3710 16637 19038; CX 3711 16637 19037; CX 3713 16637 19035;
  CX 19035 18908 6003; CA 6003 6002 6001; CX 6001 18908 18909; CX 18972 18909 3774; CX 16955 18909 5999; CX 3774 16956 18784; CX 3712 16637 19036; CX 19036 18909 6000;
  CA 6000 5999 5998; CX 5998 18909 18910; CX 18973 18910 3773; CX 16956 18910 5996; CX 19037 18910 5997; CA 5997 5996 5995; CX 5995 18910 18911; CX 18974 18911 3772;
  CX 19038 18911 5994; CX 16957 18911 5993; CA 5994 5993 5992; CX 5992 18911 18912; CX 18975 18912 3771; CX 16958 18912 5990; CX 3773 16957 18785; CX 3772 16958 18786;
  CX 3771 16959 18787; CX 3709 16637 19039; CX 19039 18912 5991; CA 5991 5990 5989; CX 5989 18912 18913; CX 16959 18913 5987; CX 19040 18913 5988; CA 5988 5987 5986;
  CX 5986 18913 18914; CX 18977 18914 3769; CX 16960 18914 5984; CX 18976 18913 3770; CX 3770 16960 18788; CX 3769 16961 18789; CX 3704 16637 19044; CX 3705 16637 19043;
  CX 3707 16637 19041; CX 19041 18914 5985; CA 5985 5984 5983; CX 5983 18914 18915; CX 18978 18915 3768; CX 16961 18915 5981; CX 3768 16962 18790; CX 3706 16637 19042;
  CX 19042 18915 5982; CA 5982 5981 5980; CX 5980 18915 18916; CX 19043 18916 5979; CX 18979 18916 3767; CX 16962 18916 5978; CA 5979 5978 5977; CX 5977 18916 18917;
  CX 18980 18917 3766; CX 19044 18917 5976; CX 16963 18917 5975; CA 5976 5975 5974; CX 5974 18917 18918; CX 18981 18918 3765; CX 16964 18918 5972; CX 3767 16963 18791;
  CX 3766 16964 18792; CX 3765 16965 18793; CX 3703 16637 19045; CX 19045 18918 5973; CA 5973 5972 5971; CX 5971 18918 18919; CX 16965 18919 5969; CX 19046 18919 5970;
  CA 5970 5969 5968; CX 5968 18919 18920; CX 18983 18920 3763; CX 16966 18920 5966; CX 18982 18919 3764; CX 3764 16966 18794; CX 3763 16967 18795; CX 3698 16637 19050;
  CX 3699 16637 19049; CX 3701 16637 19047; CX 19047 18920 5967; CA 5967 5966 5965; CX 5965 18920 18921; CX 18984 18921 3762; CX 16967 18921 5963; CX 3762 16968 18796;
  CX 3700 16637 19048; CX 19048 18921 5964; CA 5964 5963 5962; CX 5962 18921 18922; CX 18985 18922 3761; CX 16968 18922 5960; CX 19049 18922 5961; CA 5961 5960 5959;
  CX 5959 18922 18923; CX 18986 18923 3760; CX 19050 18923 5958; CX 3761 16969 18797; CX 3760 16970 18798; CX 3697 16637 19051; CX 3692 16637 19056; CX 3693 16637 19055;
  CX 3695 16637 19053; CX 3694 16637 19054; CX 3691 16637 19057; CX 3686 16637 19062; CX 3687 16637 19061; CX 3689 16637 19059; CX 3688 16637 19060; CX 3685 16637 19063;
  CX 3680 16637 19068; CX 3681 16637 19067; CX 3683 16637 19065; CX 3682 16637 19066; CX 3679 16637 19069; CX 3674 16637 19074; CX 3675 16637 19073; CX 3677 16637 19071;
  CX 3676 16637 19072; CX 3673 16637 19075; CX 3668 16637 19080; CX 3669 16637 19079; CX 3671 16637 19077; CX 3670 16637 19078; CX 3667 16637 19081; CX 3662 16637 19086;
  CX 3663 16637 19085; CX 3665 16637 19083; CX 3664 16637 19084; CX 3661 16637 19087; CX 3660 16637 19088; CX 16969 18923 5957; CA 5958 5957 5956; CX 5956 18923 18924;
  CX 19051 18924 5955; CX 18987 18924 3759; CX 3759 16971 18799; CX 16970 18924 5954; CA 5955 5954 5953; CX 5953 18924 18925; CX 18988 18925 3758; CX 3758 16972 18800;
  CX 16971 18925 5951; CX 19052 18925 5952; CA 5952 5951 5950; CX 5950 18925 18926; CX 18989 18926 3757; CX 3757 16973 18801; CX 16972 18926 5948; CX 19053 18926 5949;
  CA 5949 5948 5947; CX 5947 18926 18927; CX 18990 18927 3756; CX 3756 16974 18802; CX 19054 18927 5946; CX 16973 18927 5945; CA 5946 5945 5944; CX 5944 18927 18928;
  CX 19055 18928 5943; CX 18991 18928 3755; CX 3755 16975 18803; CX 16974 18928 5942; CA 5943 5942 5941; CX 5941 18928 18929; CX 16975 18929 5939; CX 18992 18929 3754;
  CX 3754 16976 18804; CX 19056 18929 5940; CA 5940 5939 5938; CX 5938 18929 18930; CX 16976 18930 5936; CX 19057 18930 5937; CA 5937 5936 5935; CX 18993 18930 3753;
  CX 3753 16977 18805; CX 5935 18930 18931; CX 18994 18931 3752; CX 3752 16978 18806; CX 19058 18931 5934; CX 16977 18931 5933; CA 5934 5933 5932; CX 5932 18931 18932;
  CX 18995 18932 3751; CX 3751 16979 18807; CX 16978 18932 5930; CX 19059 18932 5931; CA 5931 5930 5929; CX 5929 18932 18933; CX 18996 18933 3750; CX 3750 16980 18808].
(** Lines 26405-26804 of the file. *)
Definition divide64_66 : list cg := [
  CX 16979 18933 5927; CX 19060 18933 5928; CA 5928 5927 5926; CX 5926 18933 18934; CX 19061 18934 5925; CX 18997 18934 3749; CX 3749 16981 18809; CX 16980 18934 5924;
  CA 5925 5924 5923; CX 5923 18934 18935; CX 19062 18935 5922; CX 18998 18935 3748; CX 3748 16982 18810; CA 16637 4535 17521; CX 16981 18935 5921; CA 5922 5921 5920;
  CX 5920 18935 18936; CX 19063 18936 5919; CX 18999 18936 3747; CX 3747 16983 18811; CX 16982 18936 5918; CA 5919 5918 5917; CX 5917 18936 18937; CX 19000 18937 3746;
  CX 3746 16984 18812; CX 19064 18937 5916; CX 16983 18937 5915; CA 5916 5915 5914; CX 5914 18937 18938; CX 19065 18938 5913; CX 19001 18938 3745; CX 3745 16985 18813;
  CX 16984 18938 5912; CA 5913 5912 5911; CX 5911 18938 18939; CX 19066 18939 5910; CX 16985 18939 5909; CA 5910 5909 5908; CX 5908 18939 18940; CX 19003 18940 3743;
  CX 3743 16987 18815; CX 16986 18940 5906; CX 19067 18940 5907; CA 5907 5906 5905; CX 5905 18940 18941; CX 16987 18941 5903; CX 19004 18941 3742; CX 3742 16988 18816;
  CX 19068 18941 5904; CA 5904 5903 5902; CX 5902 18941 18942; CX 19069 18942 5901; CX 19005 18942 3741; CX 3741 16989 18817; CX 16988 18942 5900; CA 5901 5900 5899;
  CX 5899 18942 18943; CX 16989 18943 5897; CX 19070 18943 5898; CA 5898 5897 5896; CX 5896 18943 18944; CX 16990 18944 5894; CX 19071 18944 5895; CA 5895 5894 5893;
  CX 5893 18944 18945; CX 16991 18945 5891; CX 19072 18945 5892; CA 5892 5891 5890; CX 5890 18945 18946; CX 19073 18946 5889; CX 19008 18945 3738; CX 3738 16992 18820;
  CX 19009 18946 3737; CX 3737 16993 18821; CX 19007 18944 3739; CX 3739 16991 18819; CX 19002 18939 3744; CX 3744 16986 18814; CX 16992 18946 5888; CA 5889 5888 5887;
  CX 5887 18946 18947; CX 16993 18947 5885; CX 19074 18947 5886; CA 5886 5885 5884; CX 19010 18947 3736; CX 3736 16994 18822; CX 5884 18947 18948; CX 16994 18948 5882;
  CX 19011 18948 3735; CX 3735 16995 18823; CX 19075 18948 5883; CA 5883 5882 5881; CX 5881 18948 18949; CX 19012 18949 3734; CX 19076 18949 5880; CX 16995 18949 5879;
  CX 3734 16996 18824; CA 5880 5879 5878; CX 5878 18949 18950; CX 19077 18950 5877; CX 19013 18950 3733; CX 3733 16997 18825; CX 16996 18950 5876; CA 5877 5876 5875;
  CX 5875 18950 18951; CX 19078 18951 5874; CX 16997 18951 5873; CX 19014 18951 3732; CX 3732 16998 18826; CX 19006 18943 3740; CX 3740 16990 18818; CA 5874 5873 5872;
  CX 5872 18951 18952; CX 16998 18952 5870; CX 19079 18952 5871; CA 5871 5870 5869; CX 5869 18952 18953; CX 16999 18953 5867; CX 19016 18953 3730; CX 3730 17000 18828;
  CX 19080 18953 5868; CA 5868 5867 5866; CX 5866 18953 18954; CX 17000 18954 5864; CX 19017 18954 3729; CX 3729 17001 18829; CX 19015 18952 3731; CX 3731 16999 18827;
  CX 19081 18954 5865; CA 5865 5864 5863; CX 5863 18954 18955; CX 17001 18955 5861; CX 19018 18955 3728; CX 3728 17002 18830; CX 19082 18955 5862; CA 5862 5861 5860;
  CX 5860 18955 18956; CX 19019 18956 3727; CX 19083 18956 5859; CX 17002 18956 5858; CX 3727 17003 18831; CA 5859 5858 5857; CX 5857 18956 18957; CX 17003 18957 5855;
  CX 19020 18957 3726; CX 3726 17004 18832; CX 19084 18957 5856; CA 5856 5855 5854; CX 5854 18957 18958; CX 19085 18958 5853; CX 17004 18958 5852; CX 19021 18958 3725;
  CX 3725 17005 18833; CA 5853 5852 5851; CX 5851 18958 18959; CX 19086 18959 5850; CX 17005 18959 5849; CA 5850 5849 5848; CX 5848 18959 18960; CX 17006 18960 5846;
  CX 19022 18959 3724; CX 3724 17006 18834; CX 19023 18960 3723; CX 3723 17007 18835; CX 19087 18960 5847; CA 5847 5846 5845; CX 5845 18960 18961; CX 19024 18961 3722;
  CX 19088 18961 5844; CX 3722 17008 18836; CX 17007 18961 5843; CA 5844 5843 5842; CX 5842 18961 18962; CX 19025 18962 3721; CX 3721 17009 18837; CX 17008 18962 5840;
  CX 3659 16637 19089; CX 19089 18962 5841; CA 5841 5840 5839; CX 5839 18962 18963; CX 19026 18963 186; CI 186 16636; CX 3782 16636 18840; CX 3776 16636 18846;
  CX 3770 16636 18852; CX 3764 16636 18858; CX 3758 16636 18864; CX 3752 16636 18870; CX 3746 16636 18876; CX 3740 16636 18882; CX 3734 16636 18888; CX 3728 16636 18894;
  CX 16825 16636 18838; CA 18838 16946 18712; CX 18775 18712 3845; CX 16947 18712 5837; CX 3845 16948 18587; CX 3783 16636 18839; CX 18839 18712 5838; CA 5838 5837 5836;
  CX 5836 18712 18713; CX 18776 18713 3844; CX 16948 18713 5834; CX 18840 18713 5835; CA 5835 5834 5833; CX 5833 18713 18714; CX 18777 18714 3843; CX 16949 18714 5831;
  CX 3844 16949 18588; CX 3843 16950 18589; CX 3778 16636 18844; CX 3779 16636 18843; CX 3781 16636 18841; CX 18841 18714 5832; CA 5832 5831 5830; CX 5830 18714 18715;
  CX 18778 18715 3842; CX 16950 18715 5828; CX 3842 16951 18590; CX 3780 16636 18842; CX 18842 18715 5829; CA 5829 5828 5827; CX 5827 18715 18716; CX 18779 18716 3841;
  CX 18843 18716 5826; CX 3841 16952 18591; CX 3777 16636 18845; CX 3772 16636 18850; CX 3773 16636 18849; CX 3775 16636 18847; CX 3774 16636 18848; CX 3771 16636 18851;
  CX 3766 16636 18856; CX 3767 16636 18855; CX 3769 16636 18853; CX 3768 16636 18854; CX 3765 16636 18857; CX 3760 16636 18862; CX 3761 16636 18861; CX 3763 16636 18859;
  CX 3762 16636 18860; CX 3759 16636 18863; CX 3754 16636 18868; CX 3755 16636 18867; CX 3757 16636 18865; CX 3756 16636 18866; CX 3753 16636 18869; CX 3748 16636 18874;
  CX 3749 16636 18873; CX 3751 16636 18871; CX 3750 16636 18872; CX 3747 16636 18875; CX 3742 16636 18880; CX 3743 16636 18879; CX 3745 16636 18877; CX 3744 16636 18878;
  CX 3741 16636 18881; CX 3736 16636 18886; CX 3737 16636 18885; CX 3739 16636 18883; CX 3738 16636 18884; CX 3735 16636 18887; CX 3730 16636 18892; CX 3731 16636 18891;
  CX 3733 16636 18889; CX 3732 16636 18890; CX 3729 16636 18893; CX 3724 16636 18898; CX 3725 16636 18897; CX 3727 16636 18895; CX 3726 16636 18896; CX 3723 16636 18899;
  CA 16636 4535 17520; CX 16951 18716 5825; CA 5826 5825 5824; CX 5824 18716 18717; CX 18844 18717 5823; CX 18780 18717 3840; CX 16952 18717 5822; CA 5823 5822 5821;
  CX 5821 18717 18718; CX 16953 18718 5819; CX 18845 18718 5820; CA 5820 5819 5818; CX 5818 18718 18719; CX 18782 18719 3838; CX 16954 18719 5816; CX 18846 18719 5817;
  CA 5817 5816 5815; CX 18781 18718 3839; CX 5815 18719 18720; CX 18783 18720 3837; CX 18847 18720 5814; CX 16955 18720 5813; CA 5814 5813 5812; CX 5812 18720 18721;
  CX 18784 18721 3836; CX 16956 18721 5810; CX 18848 18721 5811; CA 5811 5810 5809; CX 5809 18721 18722; CX 18785 18722 3835; CX 18849 18722 5808; CX 3840 16953 18592;
  CX 3839 16954 18593; CX 3838 16955 18594; CX 3837 16956 18595; CX 3836 16957 18596; CX 3835 16958 18597; CX 16957 18722 5807; CA 5808 5807 5806; CX 5806 18722 18723;
  CX 16958 18723 5804; CX 18850 18723 5805; CA 5805 5804 5803; CX 18786 18723 3834; CX 3834 16959 18598; CX 5803 18723 18724; CX 18787 18724 3833; CX 18851 18724 5802;
  CX 16959 18724 5801; CA 5802 5801 5800; CX 5800 18724 18725; CX 18852 18725 5799; CX 18788 18725 3832; CX 3833 16960 18599; CX 3832 16961 18600; CX 16960 18725 5798;
  CA 5799 5798 5797; CX 5797 18725 18726; CX 18853 18726 5796; CX 16961 18726 5795; CA 5796 5795 5794; CX 5794 18726 18727; CX 16962 18727 5792; CX 18854 18727 5793;
  CX 18790 18727 3830; CX 18789 18726 3831; CA 5793 5792 5791; CX 5791 18727 18728; CX 16963 18728 5789; CX 18791 18728 3829; CX 18855 18728 5790; CA 5790 5789 5788;
  CX 3831 16962 18601; CX 3830 16963 18602; CX 3829 16964 18603; CX 5788 18728 18729; CX 16964 18729 5786; CX 18792 18729 3828; CX 18856 18729 5787; CA 5787 5786 5785;
  CX 5785 18729 18730; CX 18793 18730 3827; CX 16965 18730 5783; CX 18857 18730 5784; CA 5784 5783 5782; CX 5782 18730 18731; CX 18794 18731 3826; CX 16966 18731 5780;
  CX 18858 18731 5781; CA 5781 5780 5779; CX 5779 18731 18732; CX 18795 18732 3825; CX 18859 18732 5778; CX 16967 18732 5777; CX 3828 16965 18604; CX 3827 16966 18605;
  CX 3826 16967 18606; CX 3825 16968 18607; CA 5778 5777 5776; CX 5776 18732 18733; CX 16968 18733 5774; CX 18796 18733 3824; CX 3824 16969 18608; CX 18860 18733 5775;
  CA 5775 5774 5773; CX 5773 18733 18734; CX 16969 18734 5771; CX 18797 18734 3823; CX 18861 18734 5772; CA 5772 5771 5770; CX 5770 18734 18735; CX 18798 18735 3822;
  CX 18862 18735 5769; CX 16970 18735 5768; CA 5769 5768 5767; CX 5767 18735 18736; CX 18863 18736 5766; CX 16971 18736 5765; CA 5766 5765 5764; CX 5764 18736 18737;
  CX 18800 18737 3820; CX 16972 18737 5762; CX 18864 18737 5763; CA 5763 5762 5761; CX 5761 18737 18738; CX 18801 18738 3819; CX 16973 18738 5759; CX 3823 16970 18609].
(** Lines 26805-27204 of the file. *)
Definition divide64_67 : list cg := [
  CX 3822 16971 18610; CX 3820 16973 18612; CX 3819 16974 18613; CX 18865 18738 5760; CA 5760 5759 5758; CX 18799 18736 3821; CX 3821 16972 18611; CX 5758 18738 18739;
  CX 16974 18739 5756; CX 18866 18739 5757; CX 18802 18739 3818; CX 3818 16975 18614; CA 5757 5756 5755; CX 5755 18739 18740; CX 18803 18740 3817; CX 18867 18740 5754;
  CX 3817 16976 18615; CX 16975 18740 5753; CA 5754 5753 5752; CX 5752 18740 18741; CX 18804 18741 3816; CX 18868 18741 5751; CX 16976 18741 5750; CA 5751 5750 5749;
  CX 5749 18741 18742; CX 18869 18742 5748; CX 16977 18742 5747; CA 5748 5747 5746; CX 5746 18742 18743; CX 18806 18743 3814; CX 16978 18743 5744; CX 18870 18743 5745;
  CA 5745 5744 5743; CX 5743 18743 18744; CX 18807 18744 3813; CX 18871 18744 5742; CX 16979 18744 5741; CX 3816 16977 18616; CX 3814 16979 18618; CX 3813 16980 18619;
  CA 5742 5741 5740; CX 5740 18744 18745; CX 18808 18745 3812; CX 3812 16981 18620; CX 16980 18745 5738; CX 18805 18742 3815; CX 3815 16978 18617; CX 18872 18745 5739;
  CA 5739 5738 5737; CX 5737 18745 18746; CX 16981 18746 5735; CX 18809 18746 3811; CX 3811 16982 18621; CX 18873 18746 5736; CA 5736 5735 5734; CX 5734 18746 18747;
  CX 18810 18747 3810; CX 16982 18747 5732; CX 18874 18747 5733; CX 3810 16983 18622; CA 5733 5732 5731; CX 5731 18747 18748; CX 18811 18748 3809; CX 16983 18748 5729;
  CX 3809 16984 18623; CX 18875 18748 5730; CA 5730 5729 5728; CX 5728 18748 18749; CX 18812 18749 3808; CX 18876 18749 5727; CX 3808 16985 18624; CX 16984 18749 5726;
  CA 5727 5726 5725; CX 5725 18749 18750; CX 18877 18750 5724; CX 16985 18750 5723; CX 18813 18750 3807; CX 3807 16986 18625; CA 5724 5723 5722; CX 5722 18750 18751;
  CX 18878 18751 5721; CX 16986 18751 5720; CA 5721 5720 5719; CX 5719 18751 18752; CX 16987 18752 5717; CX 18815 18752 3805; CX 18879 18752 5718; CA 5718 5717 5716;
  CX 5716 18752 18753; CX 18816 18753 3804; CX 18814 18751 3806; CX 18880 18753 5715; CX 16988 18753 5714; CA 5715 5714 5713; CX 5713 18753 18754; CX 18817 18754 3803;
  CX 16989 18754 5711; CX 18881 18754 5712; CA 5712 5711 5710; CX 5710 18754 18755; CX 16990 18755 5708; CX 3806 16987 18626; CX 3805 16988 18627; CX 3804 16989 18628;
  CX 3803 16990 18629; CX 18818 18755 3802; CX 3802 16991 18630; CX 18882 18755 5709; CA 5709 5708 5707; CX 5707 18755 18756; CX 16991 18756 5705; CX 18819 18756 3801;
  CX 18883 18756 5706; CA 5706 5705 5704; CX 3801 16992 18631; CX 5704 18756 18757; CX 18884 18757 5703; CX 16992 18757 5702; CA 5703 5702 5701; CX 5701 18757 18758;
  CX 16993 18758 5699; CX 18821 18758 3799; CX 18885 18758 5700; CA 5700 5699 5698; CX 5698 18758 18759; CX 18886 18759 5697; CX 18822 18759 3798; CX 3799 16994 18633;
  CX 3798 16995 18634; CX 16994 18759 5696; CA 5697 5696 5695; CX 5695 18759 18760; CX 16995 18760 5693; CX 18823 18760 3797; CX 18887 18760 5694; CA 5694 5693 5692;
  CX 5692 18760 18761; CX 16996 18761 5690; CX 18888 18761 5691; CA 5691 5690 5689; CX 5689 18761 18762; CX 16997 18762 5687; CX 18825 18762 3795; CX 3797 16996 18635;
  CX 3795 16998 18637; CX 18820 18757 3800; CX 3800 16993 18632; CX 18824 18761 3796; CX 3796 16997 18636; CX 18889 18762 5688; CA 5688 5687 5686; CX 5686 18762 18763;
  CX 18826 18763 3794; CX 18890 18763 5685; CX 3794 16999 18638; CX 16998 18763 5684; CA 5685 5684 5683; CX 5683 18763 18764; CX 16999 18764 5681; CX 18891 18764 5682;
  CA 5682 5681 5680; CX 18827 18764 3793; CX 5680 18764 18765; CX 18892 18765 5679; CX 18828 18765 3792; CX 17000 18765 5678; CA 5679 5678 5677; CX 3793 17000 18639;
  CX 3792 17001 18640; CX 5677 18765 18766; CX 17001 18766 5675; CX 18893 18766 5676; CA 5676 5675 5674; CX 5674 18766 18767; CX 18830 18767 3790; CX 17002 18767 5672;
  CX 3790 17003 18642; CX 18894 18767 5673; CA 5673 5672 5671; CX 5671 18767 18768; CX 18831 18768 3789; CX 17003 18768 5669; CX 18895 18768 5670; CA 5670 5669 5668;
  CX 5668 18768 18769; CX 18832 18769 3788; CX 17004 18769 5666; CX 18896 18769 5667; CA 5667 5666 5665; CX 5665 18769 18770; CX 17005 18770 5663; CX 18833 18770 3787;
  CX 3789 17004 18643; CX 3788 17005 18644; CX 3787 17006 18645; CX 18897 18770 5664; CA 5664 5663 5662; CX 5662 18770 18771; CX 18834 18771 3786; CX 18898 18771 5661;
  CX 17006 18771 5660; CX 3786 17007 18646; CA 5661 5660 5659; CX 5659 18771 18772; CX 18899 18772 5658; CX 17007 18772 5657; CA 5658 5657 5656; CX 5656 18772 18773;
  CX 18835 18772 3785; CX 3785 17008 18647; CX 17008 18773 5654; CX 18836 18773 3784; CX 3784 17009 18648; CX 18829 18766 3791; CX 3791 17002 18641; CX 3722 16636 18900;
  CX 18900 18773 5655; CA 5655 5654 5653; CX 5653 18773 18774; CX 18837 18774 187; CI 187 16635; CX 3845 16635 18651; CX 3839 16635 18657; CX 3833 16635 18663;
  CX 3827 16635 18669; CX 3821 16635 18675; CX 3815 16635 18681; CX 3809 16635 18687; CX 3803 16635 18693; CX 3797 16635 18699; CX 3791 16635 18705; CX 16824 16635 18649;
  CX 3846 16635 18650; CX 3841 16635 18655; CX 3842 16635 18654; CX 3844 16635 18652; CX 3843 16635 18653; CX 3840 16635 18656; CX 3835 16635 18661; CX 3836 16635 18660;
  CX 3838 16635 18658; CX 3837 16635 18659; CX 3834 16635 18662; CX 3829 16635 18667; CX 3830 16635 18666; CX 3832 16635 18664; CX 3831 16635 18665; CX 3828 16635 18668;
  CX 3823 16635 18673; CX 3824 16635 18672; CX 3826 16635 18670; CX 3825 16635 18671; CX 3822 16635 18674; CX 3817 16635 18679; CX 3818 16635 18678; CX 3820 16635 18676;
  CX 3819 16635 18677; CX 3816 16635 18680; CX 3811 16635 18685; CX 3812 16635 18684; CX 3814 16635 18682; CX 3813 16635 18683; CX 3810 16635 18686; CX 3805 16635 18691;
  CX 3806 16635 18690; CX 3808 16635 18688; CX 3807 16635 18689; CX 3804 16635 18692; CX 3799 16635 18697; CX 3800 16635 18696; CX 3802 16635 18694; CX 3801 16635 18695;
  CX 3798 16635 18698; CX 3793 16635 18703; CX 3794 16635 18702; CX 3796 16635 18700; CX 3795 16635 18701; CX 3792 16635 18704; CX 3787 16635 18709; CX 3788 16635 18708;
  CX 3790 16635 18706; CX 3789 16635 18707; CX 3786 16635 18710; CX 3785 16635 18711; CA 16635 4535 17519; CA 18649 16946 18523; CX 18586 18523 3908; CX 16947 18523 5651;
  CX 18650 18523 5652; CA 5652 5651 5650; CX 5650 18523 18524; CX 18587 18524 3907; CX 18651 18524 5649; CX 16948 18524 5648; CA 5649 5648 5647; CX 5647 18524 18525;
  CX 18588 18525 3906; CX 16949 18525 5645; CX 18652 18525 5646; CA 5646 5645 5644; CX 5644 18525 18526; CX 18589 18526 3905; CX 18653 18526 5643; CX 16950 18526 5642;
  CA 5643 5642 5641; CX 5641 18526 18527; CX 18654 18527 5640; CX 18590 18527 3904; CX 16951 18527 5639; CA 5640 5639 5638; CX 5638 18527 18528; CX 16952 18528 5636;
  CX 18655 18528 5637; CA 5637 5636 5635; CX 5635 18528 18529; CX 18592 18529 3902; CX 16953 18529 5633; CX 18656 18529 5634; CA 5634 5633 5632; CX 18591 18528 3903;
  CX 5632 18529 18530; CX 18593 18530 3901; CX 18657 18530 5631; CX 16954 18530 5630; CA 5631 5630 5629; CX 5629 18530 18531; CX 18594 18531 3900; CX 16955 18531 5627;
  CX 18658 18531 5628; CA 5628 5627 5626; CX 5626 18531 18532; CX 18595 18532 3899; CX 18659 18532 5625; CX 16956 18532 5624; CA 5625 5624 5623; CX 5623 18532 18533;
  CX 18660 18533 5622; CX 18596 18533 3898; CX 16957 18533 5621; CA 5622 5621 5620; CX 5620 18533 18534; CX 16958 18534 5618; CX 18661 18534 5619; CA 5619 5618 5617;
  CX 5617 18534 18535; CX 18598 18535 3896; CX 16959 18535 5615; CX 18662 18535 5616; CA 5616 5615 5614; CX 18597 18534 3897; CX 3908 16948 18398; CX 3907 16949 18399;
  CX 3906 16950 18400; CX 3905 16951 18401; CX 3904 16952 18402; CX 3903 16953 18403; CX 3902 16954 18404; CX 3901 16955 18405; CX 3900 16956 18406; CX 3899 16957 18407;
  CX 3898 16958 18408; CX 3897 16959 18409; CX 3896 16960 18410; CX 5614 18535 18536; CX 18599 18536 3895; CX 18663 18536 5613; CX 16960 18536 5612; CX 3895 16961 18411;
  CA 5613 5612 5611; CX 5611 18536 18537; CX 18664 18537 5610; CX 18600 18537 3894; CX 16961 18537 5609; CA 5610 5609 5608; CX 5608 18537 18538; CX 16962 18538 5606;
  CX 18665 18538 5607; CA 5607 5606 5605; CX 5605 18538 18539; CX 16963 18539 5603; CX 18666 18539 5604; CA 5604 5603 5602; CX 18602 18539 3892; CX 3894 16962 18412;
  CX 3892 16964 18414; CX 5602 18539 18540; CX 16964 18540 5600; CX 18603 18540 3891; CX 18667 18540 5601; CA 5601 5600 5599; CX 5599 18540 18541; CX 16965 18541 5597;
  CX 18604 18541 3890; CX 18668 18541 5598; CA 5598 5597 5596; CX 3891 16965 18415; CX 3890 16966 18416; CX 5596 18541 18542; CX 18605 18542 3889; CX 18669 18542 5595].
(** Lines 27205-27604 of the file. *)
Definition divide64_68 : list cg := [
  CX 16966 18542 5594; CX 3889 16967 18417; CA 5595 5594 5593; CX 5593 18542 18543; CX 16967 18543 5591; CX 18670 18543 5592; CX 18606 18543 3888; CA 5592 5591 5590;
  CX 5590 18543 18544; CX 18607 18544 3887; CX 18671 18544 5589; CX 3888 16968 18418; CX 3887 16969 18419; CX 16968 18544 5588; CA 5589 5588 5587; CX 5587 18544 18545;
  CX 18608 18545 3886; CX 16969 18545 5585; CX 18672 18545 5586; CA 5586 5585 5584; CX 5584 18545 18546; CX 18609 18546 3885; CX 16970 18546 5582; CX 18673 18546 5583;
  CA 5583 5582 5581; CX 3886 16970 18420; CX 3885 16971 18421; CX 5581 18546 18547; CX 18674 18547 5580; CX 18610 18547 3884; CX 16971 18547 5579; CX 3884 16972 18422;
  CA 5580 5579 5578; CX 5578 18547 18548; CX 16972 18548 5576; CX 18611 18548 3883; CX 18675 18548 5577; CA 5577 5576 5575; CX 5575 18548 18549; CX 18612 18549 3882;
  CX 16973 18549 5573; CX 3883 16973 18423; CX 3882 16974 18424; CX 18601 18538 3893; CX 3893 16963 18413; CX 18676 18549 5574; CA 5574 5573 5572; CX 5572 18549 18550;
  CX 16974 18550 5570; CX 18677 18550 5571; CA 5571 5570 5569; CX 5569 18550 18551; CX 18678 18551 5568; CX 16975 18551 5567; CA 5568 5567 5566; CX 18614 18551 3880;
  CX 5566 18551 18552; CX 18679 18552 5565; CX 18615 18552 3879; CX 16976 18552 5564; CA 5565 5564 5563; CX 5563 18552 18553; CX 18616 18553 3878; CX 18680 18553 5562;
  CX 16977 18553 5561; CX 3880 16976 18426; CX 3879 16977 18427; CX 3878 16978 18428; CX 18613 18550 3881; CX 3881 16975 18425; CA 5562 5561 5560; CX 5560 18553 18554;
  CX 16978 18554 5558; CX 18617 18554 3877; CX 3877 16979 18429; CX 18681 18554 5559; CA 5559 5558 5557; CX 5557 18554 18555; CX 16979 18555 5555; CX 18618 18555 3876;
  CX 3876 16980 18430; CX 18682 18555 5556; CA 5556 5555 5554; CX 5554 18555 18556; CX 18619 18556 3875; CX 16980 18556 5552; CX 18683 18556 5553; CA 5553 5552 5551;
  CX 5551 18556 18557; CX 16981 18557 5549; CX 18684 18557 5550; CA 5550 5549 5548; CX 18620 18557 3874; CX 3875 16981 18431; CX 3874 16982 18432; CX 5548 18557 18558;
  CX 18621 18558 3873; CX 18685 18558 5547; CX 3873 16983 18433; CX 16982 18558 5546; CA 5547 5546 5545; CX 5545 18558 18559; CX 18686 18559 5544; CX 16983 18559 5543;
  CA 5544 5543 5542; CX 5542 18559 18560; CX 18687 18560 5541; CX 16984 18560 5540; CA 5541 5540 5539; CX 5539 18560 18561; CX 16985 18561 5537; CX 18688 18561 5538;
  CX 18623 18560 3871; CA 5538 5537 5536; CX 5536 18561 18562; CX 16986 18562 5534; CX 18625 18562 3869; CX 18624 18561 3870; CX 18689 18562 5535; CA 5535 5534 5533;
  CX 5533 18562 18563; CX 16987 18563 5531; CX 18690 18563 5532; CA 5532 5531 5530; CX 18626 18563 3868; CX 3871 16985 18435; CX 3870 16986 18436; CX 3869 16987 18437;
  CX 3868 16988 18438; CX 18622 18559 3872; CX 3872 16984 18434; CX 5530 18563 18564; CX 18627 18564 3867; CX 3867 16989 18439; CX 18691 18564 5529; CX 16988 18564 5528;
  CA 5529 5528 5527; CX 5527 18564 18565; CX 18692 18565 5526; CX 18628 18565 3866; CX 3866 16990 18440; CX 16989 18565 5525; CA 5526 5525 5524; CX 5524 18565 18566;
  CX 18693 18566 5523; CX 16990 18566 5522; CA 5523 5522 5521; CX 5521 18566 18567; CX 18694 18567 5520; CX 16991 18567 5519; CA 5520 5519 5518; CX 5518 18567 18568;
  CX 16992 18568 5516; CX 18695 18568 5517; CA 5517 5516 5515; CX 5515 18568 18569; CX 18631 18568 3863; CX 18696 18569 5514; CX 18632 18569 3862; CX 16993 18569 5513;
  CA 5514 5513 5512; CX 5512 18569 18570; CX 18697 18570 5511; CX 18633 18570 3861; CX 3863 16993 18443; CX 3862 16994 18444; CX 3861 16995 18445; CX 18630 18567 3864;
  CX 3864 16992 18442; CX 18629 18566 3865; CX 3865 16991 18441; CX 16994 18570 5510; CA 5511 5510 5509; CX 5509 18570 18571; CX 16995 18571 5507; CX 18698 18571 5508;
  CA 5508 5507 5506; CX 5506 18571 18572; CX 18699 18572 5505; CX 18635 18572 3859; CX 3859 16997 18447; CX 16996 18572 5504; CA 5505 5504 5503; CX 5503 18572 18573;
  CX 18636 18573 3858; CX 18700 18573 5502; CX 16997 18573 5501; CA 5502 5501 5500; CX 5500 18573 18574; CX 16998 18574 5498; CX 18701 18574 5499; CX 18637 18574 3857;
  CA 5499 5498 5497; CX 5497 18574 18575; CX 18638 18575 3856; CX 16999 18575 5495; CX 3858 16998 18448; CX 3857 16999 18449; CX 3856 17000 18450; CX 18702 18575 5496;
  CA 5496 5495 5494; CX 5494 18575 18576; CX 17000 18576 5492; CX 18703 18576 5493; CA 5493 5492 5491; CX 5491 18576 18577; CX 18640 18577 3854; CX 17001 18577 5489;
  CX 18704 18577 5490; CA 5490 5489 5488; CX 18639 18576 3855; CX 3855 17001 18451; CX 3854 17002 18452; CX 5488 18577 18578; CX 18641 18578 3853; CX 17002 18578 5486;
  CX 18705 18578 5487; CA 5487 5486 5485; CX 3853 17003 18453; CX 5485 18578 18579; CX 18706 18579 5484; CX 17003 18579 5483; CA 5484 5483 5482; CX 5482 18579 18580;
  CX 18643 18580 3851; CX 18707 18580 5481; CX 17004 18580 5480; CX 3851 17005 18455; CX 18642 18579 3852; CX 3852 17004 18454; CA 5481 5480 5479; CX 5479 18580 18581;
  CX 18644 18581 3850; CX 18708 18581 5478; CX 3850 17006 18456; CX 17005 18581 5477; CX 18634 18571 3860; CX 3860 16996 18446; CA 5478 5477 5476; CX 5476 18581 18582;
  CX 18709 18582 5475; CX 18645 18582 3849; CX 17006 18582 5474; CA 5475 5474 5473; CX 3849 17007 18457; CX 5473 18582 18583; CX 18646 18583 3848; CX 18710 18583 5472;
  CX 17007 18583 5471; CA 5472 5471 5470; CX 5470 18583 18584; CX 18711 18584 5469; CX 18647 18584 3847; CX 3848 17008 18458; CX 3847 17009 18459; CX 17008 18584 5468;
  CA 5469 5468 5467; CX 5467 18584 18585; CX 18648 18585 188; CI 188 16634; CX 3907 16634 18463; CX 3901 16634 18469; CX 3895 16634 18475; CX 3889 16634 18481;
  CX 3883 16634 18487; CX 3877 16634 18493; CX 3871 16634 18499; CX 3865 16634 18505; CX 3859 16634 18511; CX 3853 16634 18517; CX 3909 16634 18461; CX 16823 16634 18460;
  CX 3908 16634 18462; CX 3903 16634 18467; CX 3904 16634 18466; CX 3906 16634 18464; CX 3905 16634 18465; CX 3902 16634 18468; CX 3897 16634 18473; CX 3898 16634 18472;
  CX 3900 16634 18470; CX 3899 16634 18471; CX 3896 16634 18474; CX 3891 16634 18479; CX 3892 16634 18478; CX 3894 16634 18476; CX 3893 16634 18477; CX 3890 16634 18480;
  CX 3885 16634 18485; CX 3886 16634 18484; CX 3888 16634 18482; CX 3887 16634 18483; CX 3884 16634 18486; CX 3879 16634 18491; CX 3880 16634 18490; CX 3882 16634 18488;
  CX 3881 16634 18489; CX 3878 16634 18492; CX 3873 16634 18497; CX 3874 16634 18496; CX 3876 16634 18494; CX 3875 16634 18495; CX 3872 16634 18498; CX 3867 16634 18503;
  CX 3868 16634 18502; CX 3870 16634 18500; CX 3869 16634 18501; CX 3866 16634 18504; CX 3861 16634 18509; CX 3862 16634 18508; CX 3864 16634 18506; CX 3863 16634 18507;
  CX 3860 16634 18510; CX 3855 16634 18515; CX 3856 16634 18514; CX 3858 16634 18512; CX 3857 16634 18513; CX 3854 16634 18516; CX 3849 16634 18521; CX 3850 16634 18520;
  CX 3852 16634 18518; CX 3851 16634 18519; CX 3848 16634 18522; CA 16634 4535 17518; CA 18460 16946 18334; CX 18397 18334 3971; CX 16947 18334 5465; CX 18461 18334 5466;
  CA 5466 5465 5464; CX 5464 18334 18335; CX 18398 18335 3970; CX 18462 18335 5463; CX 16948 18335 5462; CA 5463 5462 5461; CX 5461 18335 18336; CX 18399 18336 3969;
  CX 16949 18336 5459; CX 18463 18336 5460; CA 5460 5459 5458; CX 5458 18336 18337; CX 18400 18337 3968; CX 18464 18337 5457; CX 16950 18337 5456; CA 5457 5456 5455;
  CX 5455 18337 18338; CX 18465 18338 5454; CX 18401 18338 3967; CX 16951 18338 5453; CA 5454 5453 5452; CX 5452 18338 18339; CX 16952 18339 5450; CX 18466 18339 5451;
  CA 5451 5450 5449; CX 5449 18339 18340; CX 18403 18340 3965; CX 16953 18340 5447; CX 18467 18340 5448; CA 5448 5447 5446; CX 18402 18339 3966; CX 5446 18340 18341;
  CX 18404 18341 3964; CX 18468 18341 5445; CX 16954 18341 5444; CA 5445 5444 5443; CX 5443 18341 18342; CX 18405 18342 3963; CX 16955 18342 5441; CX 18469 18342 5442;
  CA 5442 5441 5440; CX 5440 18342 18343; CX 18406 18343 3962; CX 18470 18343 5439; CX 16956 18343 5438; CA 5439 5438 5437; CX 5437 18343 18344; CX 18471 18344 5436;
  CX 18407 18344 3961; CX 16957 18344 5435; CA 5436 5435 5434; CX 5434 18344 18345; CX 16958 18345 5432; CX 18472 18345 5433; CA 5433 5432 5431; CX 5431 18345 18346;
  CX 18409 18346 3959; CX 16959 18346 5429; CX 18473 18346 5430; CA 5430 5429 5428; CX 18408 18345 3960; CX 5428 18346 18347; CX 18474 18347 5427; CX 16960 18347 5426;
  CX 18410 18347 3958; CA 5427 5426 5425; CX 5425 18347 18348; CX 18411 18348 3957; CX 16961 18348 5423; CX 18475 18348 5424; CA 5424 5423 5422; CX 5422 18348 18349].
(** Lines 27605-28004 of the file. *)
Definition divide64_69 : list cg := [
  CX 18412 18349 3956; CX 18476 18349 5421; CX 16962 18349 5420; CA 5421 5420 5419; CX 5419 18349 18350; CX 18413 18350 3955; CX 16963 18350 5417; CX 18477 18350 5418;
  CA 5418 5417 5416; CX 5416 18350 18351; CX 18478 18351 5415; CX 16964 18351 5414; CA 5415 5414 5413; CX 5413 18351 18352; CX 16965 18352 5411; CX 18479 18352 5412;
  CA 5412 5411 5410; CX 18415 18352 3953; CX 18414 18351 3954; CX 5410 18352 18353; CX 18480 18353 5409; CX 16966 18353 5408; CX 18416 18353 3952; CA 5409 5408 5407;
  CX 5407 18353 18354; CX 16967 18354 5405; CX 18417 18354 3951; CX 18481 18354 5406; CA 5406 5405 5404; CX 5404 18354 18355; CX 18482 18355 5403; CX 18418 18355 3950;
  CX 16968 18355 5402; CA 5403 5402 5401; CX 5401 18355 18356; CX 16969 18356 5399; CX 18483 18356 5400; CA 5400 5399 5398; CX 18419 18356 3949; CX 5398 18356 18357;
  CX 16970 18357 5396; CX 18484 18357 5397; CA 5397 5396 5395; CX 5395 18357 18358; CX 16971 18358 5393; CX 18485 18358 5394; CA 5394 5393 5392; CX 18421 18358 3947;
  CX 18420 18357 3948; CX 5392 18358 18359; CX 18486 18359 5391; CX 16972 18359 5390; CX 18422 18359 3946; CA 5391 5390 5389; CX 5389 18359 18360; CX 18423 18360 3945;
  CX 16973 18360 5387; CX 18487 18360 5388; CA 5388 5387 5386; CX 5386 18360 18361; CX 18424 18361 3944; CX 18488 18361 5385; CX 16974 18361 5384; CA 5385 5384 5383;
  CX 5383 18361 18362; CX 18489 18362 5382; CX 18425 18362 3943; CX 16975 18362 5381; CA 5382 5381 5380; CX 5380 18362 18363; CX 16976 18363 5378; CX 18490 18363 5379;
  CA 5379 5378 5377; CX 5377 18363 18364; CX 16977 18364 5375; CX 18491 18364 5376; CA 5376 5375 5374; CX 18427 18364 3941; CX 18426 18363 3942; CX 5374 18364 18365;
  CX 18428 18365 3940; CX 18492 18365 5373; CX 16978 18365 5372; CA 5373 5372 5371; CX 5371 18365 18366; CX 18429 18366 3939; CX 16979 18366 5369; CX 18493 18366 5370;
  CA 5370 5369 5368; CX 5368 18366 18367; CX 18430 18367 3938; CX 18494 18367 5367; CX 16980 18367 5366; CA 5367 5366 5365; CX 5365 18367 18368; CX 18431 18368 3937;
  CX 18495 18368 5364; CX 16981 18368 5363; CA 5364 5363 5362; CX 5362 18368 18369; CX 18496 18369 5361; CX 16982 18369 5360; CA 5361 5360 5359; CX 5359 18369 18370;
  CX 16983 18370 5357; CX 18433 18370 3935; CX 18497 18370 5358; CA 5358 5357 5356; CX 18432 18369 3936; CX 5356 18370 18371; CX 18434 18371 3934; CX 18498 18371 5355;
  CX 16984 18371 5354; CA 5355 5354 5353; CX 5353 18371 18372; CX 16985 18372 5351; CX 18435 18372 3933; CX 18499 18372 5352; CA 5352 5351 5350; CX 5350 18372 18373;
  CX 18500 18373 5349; CX 18436 18373 3932; CX 16986 18373 5348; CA 5349 5348 5347; CX 5347 18373 18374; CX 18501 18374 5346; CX 18437 18374 3931; CX 16987 18374 5345;
  CA 5346 5345 5344; CX 5344 18374 18375; CX 18502 18375 5343; CX 16988 18375 5342; CA 5343 5342 5341; CX 5341 18375 18376; CX 16989 18376 5339; CX 18439 18376 3929;
  CX 18503 18376 5340; CA 5340 5339 5338; CX 18438 18375 3930; CX 5338 18376 18377; CX 18440 18377 3928; CX 18504 18377 5337; CX 16990 18377 5336; CA 5337 5336 5335;
  CX 5335 18377 18378; CX 18441 18378 3927; CX 16991 18378 5333; CX 18505 18378 5334; CA 5334 5333 5332; CX 5332 18378 18379; CX 18506 18379 5331; CX 18442 18379 3926;
  CX 16992 18379 5330; CA 5331 5330 5329; CX 5329 18379 18380; CX 18507 18380 5328; CX 16993 18380 5327; CA 5328 5327 5326; CX 5326 18380 18381; CX 16994 18381 5324;
  CX 18443 18380 3925; CX 18508 18381 5325; CA 5325 5324 5323; CX 5323 18381 18382; CX 16995 18382 5321; CX 18509 18382 5322; CA 5322 5321 5320; CX 18445 18382 3923;
  CX 18444 18381 3924; CX 5320 18382 18383; CX 18510 18383 5319; CX 18446 18383 3922; CX 16996 18383 5318; CA 5319 5318 5317; CX 5317 18383 18384; CX 18447 18384 3921;
  CX 16997 18384 5315; CX 18511 18384 5316; CA 5316 5315 5314; CX 5314 18384 18385; CX 18512 18385 5313; CX 18448 18385 3920; CX 16998 18385 5312; CA 5313 5312 5311;
  CX 5311 18385 18386; CX 18513 18386 5310; CX 18449 18386 3919; CX 16999 18386 5309; CA 5310 5309 5308; CX 5308 18386 18387; CX 17000 18387 5306; CX 18514 18387 5307;
  CA 5307 5306 5305; CX 5305 18387 18388; CX 18451 18388 3917; CX 17001 18388 5303; CX 18515 18388 5304; CA 5304 5303 5302; CX 18450 18387 3918; CX 5302 18388 18389;
  CX 18452 18389 3916; CX 18516 18389 5301; CX 17002 18389 5300; CX 3971 16948 18209; CX 3970 16949 18210; CX 3969 16950 18211; CX 3968 16951 18212; CX 3967 16952 18213;
  CX 3966 16953 18214; CX 3965 16954 18215; CX 3964 16955 18216; CX 3963 16956 18217; CX 3962 16957 18218; CX 3961 16958 18219; CX 3960 16959 18220; CX 3959 16960 18221;
  CX 3958 16961 18222; CX 3957 16962 18223; CX 3956 16963 18224; CX 3955 16964 18225; CX 3954 16965 18226; CX 3953 16966 18227; CX 3952 16967 18228; CX 3951 16968 18229;
  CX 3950 16969 18230; CX 3949 16970 18231; CX 3948 16971 18232; CX 3947 16972 18233; CX 3946 16973 18234; CX 3945 16974 18235; CX 3944 16975 18236; CX 3943 16976 18237;
  CX 3942 16977 18238; CX 3941 16978 18239; CX 3940 16979 18240; CX 3939 16980 18241; CX 3938 16981 18242; CX 3937 16982 18243; CX 3936 16983 18244; CX 3935 16984 18245;
  CX 3934 16985 18246; CX 3933 16986 18247; CX 3932 16987 18248; CX 3931 16988 18249; CX 3930 16989 18250; CX 3929 16990 18251; CX 3928 16991 18252; CX 3927 16992 18253;
  CX 3926 16993 18254; CX 3925 16994 18255; CX 3924 16995 18256; CX 3923 16996 18257; CX 3922 16997 18258; CX 3921 16998 18259; CX 3920 16999 18260; CX 3919 17000 18261;
  CX 3918 17001 18262; CX 3917 17002 18263; CX 3916 17003 18264; CA 5301 5300 5299; CX 5299 18389 18390; CX 18453 18390 3915; CX 17003 18390 5297; CX 3915 17004 18265;
  CX 18517 18390 5298; CA 5298 5297 5296; CX 5296 18390 18391; CX 18518 18391 5295; CX 18454 18391 3914; CX 3914 17005 18266; CX 17004 18391 5294; CA 5295 5294 5293;
  CX 5293 18391 18392; CX 18455 18392 3913; CX 17005 18392 5291; CX 3913 17006 18267; CX 18519 18392 5292; CA 5292 5291 5290; CX 5290 18392 18393; CX 17006 18393 5288;
  CX 18456 18393 3912; CX 3912 17007 18268; CX 18520 18393 5289; CA 5289 5288 5287; CX 5287 18393 18394; CX 17007 18394 5285; CX 18521 18394 5286; CX 18457 18394 3911;
  CX 3911 17008 18269; CA 5286 5285 5284; CX 5284 18394 18395; CX 17008 18395 5282; CX 18522 18395 5283; CX 18458 18395 3910; CX 3910 17009 18270; CA 5283 5282 5281;
  CX 5281 18395 18396; CX 18459 18396 189; CI 189 16633; CX 3970 16633 18274; CX 3964 16633 18280; CX 3958 16633 18286; CX 3952 16633 18292; CX 3946 16633 18298;
  CX 3940 16633 18304; CX 3934 16633 18310; CX 3928 16633 18316; CX 3922 16633 18322; CX 3916 16633 18328; CX 3972 16633 18272; CX 16822 16633 18271; CX 3971 16633 18273;
  CX 3966 16633 18278; CX 3967 16633 18277; CX 3969 16633 18275; CX 3968 16633 18276; CX 3965 16633 18279; CX 3960 16633 18284; CX 3961 16633 18283; CX 3963 16633 18281;
  CX 3962 16633 18282; CX 3959 16633 18285; CX 3954 16633 18290; CX 3955 16633 18289; CX 3957 16633 18287; CX 3956 16633 18288; CX 3953 16633 18291; CX 3948 16633 18296;
  CX 3949 16633 18295; CX 3951 16633 18293; CX 3950 16633 18294; CX 3947 16633 18297; CX 3942 16633 18302; CX 3943 16633 18301; CX 3945 16633 18299; CX 3944 16633 18300;
  CX 3941 16633 18303; CX 3936 16633 18308; CX 3937 16633 18307; CX 3939 16633 18305; CX 3938 16633 18306; CX 3935 16633 18309; CX 3930 16633 18314; CX 3931 16633 18313;
  CX 3933 16633 18311; CX 3932 16633 18312; CX 3929 16633 18315; CX 3924 16633 18320; CX 3925 16633 18319; CX 3927 16633 18317; CX 3926 16633 18318; CX 3923 16633 18321;
  CX 3918 16633 18326; CX 3919 16633 18325; CX 3921 16633 18323; CX 3920 16633 18324; CX 3917 16633 18327; CX 3912 16633 18332; CX 3913 16633 18331; CX 3915 16633 18329;
  CX 3914 16633 18330; CX 3911 16633 18333; CA 18271 16946 18145; CX 18272 18145 5280; CX 16947 18145 5279; CA 5280 5279 5278; CX 5278 18145 18146; CX 18209 18146 4033;
  CX 16948 18146 5276; CX 18273 18146 5277; CA 5277 5276 5275; CX 5275 18146 18147; CX 18210 18147 4032; CX 18274 18147 5274; CX 16949 18147 5273; CA 5274 5273 5272;
  CX 5272 18147 18148; CX 18275 18148 5271; CX 18211 18148 4031; CX 16950 18148 5270; CA 5271 5270 5269; CX 5269 18148 18149; CX 16951 18149 5267; CX 18276 18149 5268;
  CA 5268 5267 5266; CX 5266 18149 18150; CX 18213 18150 4029; CX 16952 18150 5264; CX 18277 18150 5265; CA 5265 5264 5263; CX 18212 18149 4030; CX 5263 18150 18151;
  CX 18214 18151 4028; CX 18278 18151 5262; CX 16953 18151 5261; CA 5262 5261 5260; CX 5260 18151 18152; CX 18215 18152 4027; CX 16954 18152 5258; CX 18279 18152 5259].
(** Lines 28005-28404 of the file. *)
Definition divide64_70 : list cg := [
  CA 5259 5258 5257; CX 5257 18152 18153; CX 18216 18153 4026; CX 18280 18153 5256; CX 16955 18153 5255; CA 5256 5255 5254; CX 5254 18153 18154; CX 18281 18154 5253;
  CX 18217 18154 4025; CX 16956 18154 5252; CA 5253 5252 5251; CX 5251 18154 18155; CX 16957 18155 5249; CX 18282 18155 5250; CA 5250 5249 5248; CX 5248 18155 18156;
  CX 18219 18156 4023; CX 16958 18156 5246; CX 18283 18156 5247; CA 5247 5246 5245; CX 18218 18155 4024; CX 5245 18156 18157; CX 18220 18157 4022; CX 18284 18157 5244;
  CX 16959 18157 5243; CA 5244 5243 5242; CX 5242 18157 18158; CX 18221 18158 4021; CX 16960 18158 5240; CX 18285 18158 5241; CA 5241 5240 5239; CX 5239 18158 18159;
  CX 18222 18159 4020; CX 18286 18159 5238; CX 16961 18159 5237; CA 5238 5237 5236; CX 5236 18159 18160; CX 18287 18160 5235; CX 18223 18160 4019; CX 16962 18160 5234;
  CA 5235 5234 5233; CX 5233 18160 18161; CX 16963 18161 5231; CX 18288 18161 5232; CA 5232 5231 5230; CX 5230 18161 18162; CX 18225 18162 4017; CX 16964 18162 5228;
  CX 18289 18162 5229; CA 5229 5228 5227; CX 18224 18161 4018; CX 5227 18162 18163; CX 18290 18163 5226; CX 16965 18163 5225; CX 18226 18163 4016; CA 5226 5225 5224;
  CX 5224 18163 18164; CX 16966 18164 5222; CX 18227 18164 4015; CX 18291 18164 5223; CA 5223 5222 5221; CX 5221 18164 18165; CX 18292 18165 5220; CX 18228 18165 4014;
  CX 16967 18165 5219; CA 5220 5219 5218; CX 5218 18165 18166; CX 16968 18166 5216; CX 18229 18166 4013; CX 18293 18166 5217; CA 5217 5216 5215; CX 5215 18166 18167;
  CX 16969 18167 5213; CX 18294 18167 5214; CA 5214 5213 5212; CX 5212 18167 18168; CX 18295 18168 5211; CX 18231 18168 4011; CX 16970 18168 5210; CA 5211 5210 5209;
  CX 18230 18167 4012; CX 5209 18168 18169; CX 18232 18169 4010; CX 18296 18169 5208; CX 16971 18169 5207; CA 5208 5207 5206; CX 5206 18169 18170; CX 18233 18170 4009;
  CX 16972 18170 5204; CX 18297 18170 5205; CA 5205 5204 5203; CX 5203 18170 18171; CX 18234 18171 4008; CX 18298 18171 5202; CX 16973 18171 5201; CA 5202 5201 5200;
  CX 5200 18171 18172; CX 16974 18172 5198; CX 18235 18172 4007; CX 18299 18172 5199; CA 5199 5198 5197; CX 5197 18172 18173; CX 16975 18173 5195; CX 18300 18173 5196;
  CA 5196 5195 5194; CX 5194 18173 18174; CX 18237 18174 4005; CX 18301 18174 5193; CX 16976 18174 5192; CA 5193 5192 5191; CX 18236 18173 4006; CX 5191 18174 18175;
  CX 16977 18175 5189; CX 18238 18175 4004; CX 18302 18175 5190; CA 5190 5189 5188; CX 5188 18175 18176; CX 18239 18176 4003; CX 16978 18176 5186; CX 18303 18176 5187;
  CA 5187 5186 5185; CX 5185 18176 18177; CX 18304 18177 5184; CX 18240 18177 4002; CX 16979 18177 5183; CA 5184 5183 5182; CX 5182 18177 18178; CX 18305 18178 5181;
  CX 16980 18178 5180; CA 5181 5180 5179; CX 5179 18178 18179; CX 16981 18179 5177; CX 18241 18178 4001; CX 18306 18179 5178; CA 5178 5177 5176; CX 5176 18179 18180;
  CX 18243 18180 3999; CX 18307 18180 5175; CX 16982 18180 5174; CA 5175 5174 5173; CX 18242 18179 4000; CX 5173 18180 18181; CX 18308 18181 5172; CX 16983 18181 5171;
  CX 18244 18181 3998; CA 5172 5171 5170; CX 5170 18181 18182; CX 16984 18182 5168; CX 18245 18182 3997; CX 18309 18182 5169; CA 5169 5168 5167; CX 5167 18182 18183;
  CX 18246 18183 3996; CX 18310 18183 5166; CX 16985 18183 5165; CA 5166 5165 5164; CX 5164 18183 18184; CX 16986 18184 5162; CX 18311 18184 5163; CA 5163 5162 5161;
  CX 18247 18184 3995; CX 5161 18184 18185; CX 16987 18185 5159; CX 18312 18185 5160; CA 5160 5159 5158; CX 5158 18185 18186; CX 18249 18186 3993; CX 18313 18186 5157;
  CX 16988 18186 5156; CA 5157 5156 5155; CX 18248 18185 3994; CX 5155 18186 18187; CX 18250 18187 3992; CX 16989 18187 5153; CX 18314 18187 5154; CA 5154 5153 5152;
  CX 5152 18187 18188; CX 16990 18188 5150; CX 18251 18188 3991; CX 18315 18188 5151; CA 5151 5150 5149; CX 5149 18188 18189; CX 18316 18189 5148; CX 18252 18189 3990;
  CX 16991 18189 5147; CA 5148 5147 5146; CX 5146 18189 18190; CX 16992 18190 5144; CX 18317 18190 5145; CA 5145 5144 5143; CX 5143 18190 18191; CX 18318 18191 5142;
  CX 18253 18190 3989; CX 16993 18191 5141; CA 5142 5141 5140; CX 5140 18191 18192; CX 18319 18192 5139; CX 18255 18192 3987; CX 16994 18192 5138; CA 5139 5138 5137;
  CX 18254 18191 3988; CX 5137 18192 18193; CX 18320 18193 5136; CX 16995 18193 5135; CX 18256 18193 3986; CA 5136 5135 5134; CX 5134 18193 18194; CX 16996 18194 5132;
  CX 18257 18194 3985; CX 18321 18194 5133; CA 5133 5132 5131; CX 5131 18194 18195; CX 18322 18195 5130; CX 18258 18195 3984; CX 16997 18195 5129; CA 5130 5129 5128;
  CX 5128 18195 18196; CX 18259 18196 3983; CX 18323 18196 5127; CX 16998 18196 5126; CA 5127 5126 5125; CX 5125 18196 18197; CX 16999 18197 5123; CX 18324 18197 5124;
  CA 5124 5123 5122; CX 5122 18197 18198; CX 18261 18198 3981; CX 17000 18198 5120; CX 18325 18198 5121; CA 5121 5120 5119; CX 18260 18197 3982; CX 5119 18198 18199;
  CX 18262 18199 3980; CX 17001 18199 5117; CX 18326 18199 5118; CA 5118 5117 5116; CX 5116 18199 18200; CX 18263 18200 3979; CX 17002 18200 5114; CX 18327 18200 5115;
  CA 5115 5114 5113; CX 5113 18200 18201; CX 18328 18201 5112; CX 18264 18201 3978; CX 4033 16949 18021; CX 4032 16950 18022; CX 4031 16951 18023; CX 4030 16952 18024;
  CX 4029 16953 18025; CX 4028 16954 18026; CX 4027 16955 18027; CX 4026 16956 18028; CX 4025 16957 18029; CX 4024 16958 18030; CX 4023 16959 18031; CX 4022 16960 18032;
  CX 4021 16961 18033; CX 4020 16962 18034; CX 4019 16963 18035; CX 4018 16964 18036; CX 4017 16965 18037; CX 4016 16966 18038; CX 4015 16967 18039; CX 4014 16968 18040;
  CX 4013 16969 18041; CX 4012 16970 18042; CX 4011 16971 18043; CX 4010 16972 18044; CX 4009 16973 18045; CX 4008 16974 18046; CX 4007 16975 18047; CX 4006 16976 18048;
  CX 4005 16977 18049; CX 4004 16978 18050; CX 4003 16979 18051; CX 4002 16980 18052; CX 4001 16981 18053; CX 4000 16982 18054; CX 3999 16983 18055; CX 3998 16984 18056;
  CX 3997 16985 18057; CX 3996 16986 18058; CX 3995 16987 18059; CX 3994 16988 18060; CX 3993 16989 18061; CX 3992 16990 18062; CX 3991 16991 18063; CX 3990 16992 18064;
  CX 3989 16993 18065; CX 3988 16994 18066; CX 3987 16995 18067; CX 3986 16996 18068; CX 3985 16997 18069; CX 3984 16998 18070; CX 3983 16999 18071; CX 3982 17000 18072;
  CX 3981 17001 18073; CX 3980 17002 18074; CX 3979 17003 18075; CX 3978 17004 18076; CX 18208 18145 4034; CX 4034 16948 18020; CX 17003 18201 5111; CA 5112 5111 5110;
  CX 5110 18201 18202; CX 18329 18202 5109; CX 18265 18202 3977; CX 17004 18202 5108; CA 5109 5108 5107; CX 5107 18202 18203; CX 17005 18203 5105; CX 18330 18203 5106;
  CA 5106 5105 5104; CX 3977 17005 18077; CX 5104 18203 18204; CX 18267 18204 3975; CX 18331 18204 5103; CX 17006 18204 5102; CA 5103 5102 5101; CX 5101 18204 18205;
  CX 18268 18205 3974; CX 18332 18205 5100; CX 17007 18205 5099; CA 5100 5099 5098; CX 5098 18205 18206; CX 18269 18206 3973; CX 17008 18206 5096; CX 18333 18206 5097;
  CA 5097 5096 5095; CX 5095 18206 18207; CX 18270 18207 190; CX 3975 17007 18079; CX 3974 17008 18080; CX 3973 17009 18081; CA 16633 4535 17517; CI 190 16632;
  CX 4032 16632 18086; CX 4026 16632 18092; CX 4020 16632 18098; CX 4014 16632 18104; CX 4008 16632 18110; CX 4002 16632 18116; CX 3996 16632 18122; CX 3990 16632 18128;
  CX 3984 16632 18134; CX 3978 16632 18140; CA 16632 4535 17516; CX 4034 16632 18084; CX 4035 16632 18083; CX 16821 16632 18082; CX 4033 16632 18085; CX 4028 16632 18090;
  CX 4029 16632 18089; CX 4031 16632 18087; CX 4030 16632 18088; CX 4027 16632 18091; CX 4022 16632 18096; CX 4023 16632 18095; CX 4025 16632 18093; CX 4024 16632 18094;
  CX 4021 16632 18097; CX 4016 16632 18102; CX 4017 16632 18101; CX 4019 16632 18099; CX 4018 16632 18100; CX 4015 16632 18103; CX 4010 16632 18108; CX 4011 16632 18107;
  CX 4013 16632 18105; CX 4012 16632 18106; CX 4009 16632 18109; CX 4004 16632 18114; CX 4005 16632 18113; CX 4007 16632 18111; CX 4006 16632 18112; CX 4003 16632 18115;
  CX 3998 16632 18120; CX 3999 16632 18119; CX 4001 16632 18117; CX 4000 16632 18118; CX 3997 16632 18121; CX 3992 16632 18126; CX 3993 16632 18125; CX 3995 16632 18123;
  CX 3994 16632 18124; CX 3991 16632 18127; CX 3986 16632 18132; CX 3987 16632 18131; CX 3989 16632 18129; CX 3988 16632 18130; CX 3985 16632 18133; CX 3980 16632 18138;
  CX 3981 16632 18137; CX 3983 16632 18135; CX 3982 16632 18136; CX 3979 16632 18139; CX 3974 16632 18144; CX 3975 16632 18143; CX 3977 16632 18141; CA 18082 16946 17956].
(** Lines 28405-28804 of the file. *)
Definition divide64_71 : list cg := [
  CX 18083 17956 5094; CX 16947 17956 5093; CA 5094 5093 5092; CX 5092 17956 17957; CX 18020 17957 4096; CX 16948 17957 5090; CX 18084 17957 5091; CA 5091 5090 5089;
  CX 5089 17957 17958; CX 18021 17958 4095; CX 18085 17958 5088; CX 16949 17958 5087; CA 5088 5087 5086; CX 5086 17958 17959; CX 18086 17959 5085; CX 18022 17959 4094;
  CX 16950 17959 5084; CA 5085 5084 5083; CX 5083 17959 17960; CX 16951 17960 5081; CX 18087 17960 5082; CA 5082 5081 5080; CX 5080 17960 17961; CX 18024 17961 4092;
  CX 16952 17961 5078; CX 18088 17961 5079; CA 5079 5078 5077; CX 18023 17960 4093; CX 5077 17961 17962; CX 18025 17962 4091; CX 18089 17962 5076; CX 16953 17962 5075;
  CA 5076 5075 5074; CX 5074 17962 17963; CX 18026 17963 4090; CX 16954 17963 5072; CX 18090 17963 5073; CA 5073 5072 5071; CX 5071 17963 17964; CX 18027 17964 4089;
  CX 18091 17964 5070; CX 16955 17964 5069; CA 5070 5069 5068; CX 5068 17964 17965; CX 18092 17965 5067; CX 18028 17965 4088; CX 16956 17965 5066; CA 5067 5066 5065;
  CX 5065 17965 17966; CX 16957 17966 5063; CX 18093 17966 5064; CA 5064 5063 5062; CX 5062 17966 17967; CX 18030 17967 4086; CX 16958 17967 5060; CX 18094 17967 5061;
  CA 5061 5060 5059; CX 18029 17966 4087; CX 5059 17967 17968; CX 18031 17968 4085; CX 18095 17968 5058; CX 16959 17968 5057; CA 5058 5057 5056; CX 5056 17968 17969;
  CX 18032 17969 4084; CX 16960 17969 5054; CX 18096 17969 5055; CA 5055 5054 5053; CX 5053 17969 17970; CX 18033 17970 4083; CX 18097 17970 5052; CX 16961 17970 5051;
  CA 5052 5051 5050; CX 5050 17970 17971; CX 18098 17971 5049; CX 18034 17971 4082; CX 16962 17971 5048; CA 5049 5048 5047; CX 5047 17971 17972; CX 16963 17972 5045;
  CX 18099 17972 5046; CA 5046 5045 5044; CX 5044 17972 17973; CX 18036 17973 4080; CX 16964 17973 5042; CX 18100 17973 5043; CA 5043 5042 5041; CX 18035 17972 4081;
  CX 5041 17973 17974; CX 18101 17974 5040; CX 16965 17974 5039; CX 18037 17974 4079; CA 5040 5039 5038; CX 5038 17974 17975; CX 16966 17975 5036; CX 18038 17975 4078;
  CX 18102 17975 5037; CA 5037 5036 5035; CX 5035 17975 17976; CX 18039 17976 4077; CX 18103 17976 5034; CX 16967 17976 5033; CA 5034 5033 5032; CX 5032 17976 17977;
  CX 18040 17977 4076; CX 16968 17977 5030; CX 18104 17977 5031; CA 5031 5030 5029; CX 5029 17977 17978; CX 16969 17978 5027; CX 18105 17978 5028; CA 5028 5027 5026;
  CX 5026 17978 17979; CX 16970 17979 5024; CX 18106 17979 5025; CA 5025 5024 5023; CX 18042 17979 4074; CX 18041 17978 4075; CX 5023 17979 17980; CX 18107 17980 5022;
  CX 16971 17980 5021; CX 18043 17980 4073; CA 5022 5021 5020; CX 5020 17980 17981; CX 16972 17981 5018; CX 18044 17981 4072; CX 18108 17981 5019; CA 5019 5018 5017;
  CX 5017 17981 17982; CX 18045 17982 4071; CX 18109 17982 5016; CX 16973 17982 5015; CA 5016 5015 5014; CX 5014 17982 17983; CX 18110 17983 5013; CX 18046 17983 4070;
  CX 16974 17983 5012; CA 5013 5012 5011; CX 5011 17983 17984; CX 18111 17984 5010; CX 16975 17984 5009; CA 5010 5009 5008; CX 5008 17984 17985; CX 18112 17985 5007;
  CX 16976 17985 5006; CA 5007 5006 5005; CX 18048 17985 4068; CX 18047 17984 4069; CX 5005 17985 17986; CX 16977 17986 5003; CX 18049 17986 4067; CX 18113 17986 5004;
  CA 5004 5003 5002; CX 5002 17986 17987; CX 16978 17987 5000; CX 18050 17987 4066; CX 18114 17987 5001; CA 5001 5000 4999; CX 4999 17987 17988; CX 18051 17988 4065;
  CX 18115 17988 4998; CX 16979 17988 4997; CA 4998 4997 4996; CX 4996 17988 17989; CX 18052 17989 4064; CX 18116 17989 4995; CX 16980 17989 4994; CA 4995 4994 4993;
  CX 4993 17989 17990; CX 18117 17990 4992; CX 16981 17990 4991; CA 4992 4991 4990; CX 4990 17990 17991; CX 16982 17991 4988; CX 18118 17991 4989; CA 4989 4988 4987;
  CX 18054 17991 4062; CX 18053 17990 4063; CX 4987 17991 17992; CX 18119 17992 4986; CX 16983 17992 4985; CX 18055 17992 4061; CA 4986 4985 4984; CX 4984 17992 17993;
  CX 18056 17993 4060; CX 16984 17993 4982; CX 18120 17993 4983; CA 4983 4982 4981; CX 4981 17993 17994; CX 18057 17994 4059; CX 18121 17994 4980; CX 16985 17994 4979;
  CA 4980 4979 4978; CX 4978 17994 17995; CX 18058 17995 4058; CX 16986 17995 4976; CX 18122 17995 4977; CA 4977 4976 4975; CX 4975 17995 17996; CX 18123 17996 4974;
  CX 16987 17996 4973; CA 4974 4973 4972; CX 4972 17996 17997; CX 16988 17997 4970; CX 18124 17997 4971; CA 4971 4970 4969; CX 18060 17997 4056; CX 18059 17996 4057;
  CX 4969 17997 17998; CX 18125 17998 4968; CX 18061 17998 4055; CX 16989 17998 4967; CA 4968 4967 4966; CX 4966 17998 17999; CX 18062 17999 4054; CX 16990 17999 4964;
  CX 18126 17999 4965; CA 4965 4964 4963; CX 4963 17999 18000; CX 18127 18000 4962; CX 18063 18000 4053; CX 16991 18000 4961; CA 4962 4961 4960; CX 4960 18000 18001;
  CX 18128 18001 4959; CX 18064 18001 4052; CX 16992 18001 4958; CA 4959 4958 4957; CX 4957 18001 18002; CX 16993 18002 4955; CX 18129 18002 4956; CA 4956 4955 4954;
  CX 4954 18002 18003; CX 18066 18003 4050; CX 18130 18003 4953; CX 16994 18003 4952; CA 4953 4952 4951; CX 18065 18002 4051; CX 4951 18003 18004; CX 18131 18004 4950;
  CX 16995 18004 4949; CX 18067 18004 4049; CA 4950 4949 4948; CX 4948 18004 18005; CX 18068 18005 4048; CX 16996 18005 4946; CX 18132 18005 4947; CA 4947 4946 4945;
  CX 4945 18005 18006; CX 18069 18006 4047; CX 18133 18006 4944; CX 16997 18006 4943; CA 4944 4943 4942; CX 4942 18006 18007; CX 18134 18007 4941; CX 16998 18007 4940;
  CA 4941 4940 4939; CX 18070 18007 4046; CX 4939 18007 18008; CX 16999 18008 4937; CX 18135 18008 4938; CA 4938 4937 4936; CX 4936 18008 18009; CX 18072 18009 4044;
  CX 18136 18009 4935; CX 17000 18009 4934; CA 4935 4934 4933; CX 18071 18008 4045; CX 4933 18009 18010; CX 18137 18010 4932; CX 17001 18010 4931; CX 18073 18010 4043;
  CA 4932 4931 4930; CX 4930 18010 18011; CX 17002 18011 4928; CX 18074 18011 4042; CX 18138 18011 4929; CA 4929 4928 4927; CX 4927 18011 18012; CX 18075 18012 4041;
  CX 18139 18012 4926; CX 17003 18012 4925; CA 4926 4925 4924; CX 4924 18012 18013; CX 17004 18013 4922; CX 18076 18013 4040; CX 18140 18013 4923; CA 4923 4922 4921;
  CX 4921 18013 18014; CX 18077 18014 4039; CX 17005 18014 4919; CX 18141 18014 4920; CA 4920 4919 4918; CX 4918 18014 18015; CX 17006 18015 4916; CX 4096 16949 17832;
  CX 4095 16950 17833; CX 4094 16951 17834; CX 4093 16952 17835; CX 4092 16953 17836; CX 4091 16954 17837; CX 4090 16955 17838; CX 4089 16956 17839; CX 4088 16957 17840;
  CX 4087 16958 17841; CX 4086 16959 17842; CX 4085 16960 17843; CX 4084 16961 17844; CX 4083 16962 17845; CX 4082 16963 17846; CX 4081 16964 17847; CX 4080 16965 17848;
  CX 4079 16966 17849; CX 4078 16967 17850; CX 4077 16968 17851; CX 4076 16969 17852; CX 4075 16970 17853; CX 4074 16971 17854; CX 4073 16972 17855; CX 4072 16973 17856;
  CX 4071 16974 17857; CX 4070 16975 17858; CX 4069 16976 17859; CX 4068 16977 17860; CX 4067 16978 17861; CX 4066 16979 17862; CX 4065 16980 17863; CX 4064 16981 17864;
  CX 4063 16982 17865; CX 4062 16983 17866; CX 4061 16984 17867; CX 4060 16985 17868; CX 4059 16986 17869; CX 4058 16987 17870; CX 4057 16988 17871; CX 4056 16989 17872;
  CX 4055 16990 17873; CX 4054 16991 17874; CX 4053 16992 17875; CX 4052 16993 17876; CX 4051 16994 17877; CX 4050 16995 17878; CX 4049 16996 17879; CX 4048 16997 17880;
  CX 4047 16998 17881; CX 4046 16999 17882; CX 4045 17000 17883; CX 4044 17001 17884; CX 4043 17002 17885; CX 4042 17003 17886; CX 4041 17004 17887; CX 4040 17005 17888;
  CX 4039 17006 17889; CX 18019 17956 4097; CX 4097 16948 17831; CX 18266 18203 3976; CX 3976 17006 18078; CX 18078 18015 4038; CX 4038 17007 17890; CX 3976 16632 18142;
  CX 18142 18015 4917; CA 4917 4916 4915; CX 4915 18015 18016; CX 18143 18016 4914; CX 17007 18016 4913; CX 18079 18016 4037; CX 4037 17008 17891; CA 4914 4913 4912;
  CX 4912 18016 18017; CX 17008 18017 4910; CX 18144 18017 4911; CA 4911 4910 4909; CX 4909 18017 18018; CX 18081 18018 191; CX 18080 18017 4036; CX 4036 17009 17892;
  CI 191 16631; CX 16820 16631 17893; CX 4098 16631 17894; CA 16631 4535 17515; CX 4097 16631 17895; CX 4096 16631 17896; CX 4095 16631 17897; CX 4094 16631 17898;
  CX 4093 16631 17899; CX 4092 16631 17900; CX 4091 16631 17901; CX 4090 16631 17902; CX 4089 16631 17903; CX 4088 16631 17904; CX 4087 16631 17905; CX 4086 16631 17906;
  CX 4085 16631 17907; CX 4084 16631 17908; CX 4083 16631 17909; CX 4082 16631 17910; CX 4081 16631 17911; CX 4080 16631 17912; CX 4079 16631 17913; CX 4078 16631 17914].
(** Lines 28805-29204 of the file. *)
Definition divide64_72 : list cg := [
  CX 4077 16631 17915; CX 4076 16631 17916; CX 4075 16631 17917; CX 4074 16631 17918; CX 4073 16631 17919; CX 4072 16631 17920; CX 4071 16631 17921; CX 4070 16631 17922;
  CX 4069 16631 17923; CX 4068 16631 17924; CX 4067 16631 17925; CX 4066 16631 17926; CX 4065 16631 17927; CX 4064 16631 17928; CX 4063 16631 17929; CX 4062 16631 17930;
  CX 4061 16631 17931; CX 4060 16631 17932; CX 4059 16631 17933; CX 4058 16631 17934; CX 4057 16631 17935; CX 4056 16631 17936; CX 4055 16631 17937; CX 4054 16631 17938;
  CX 4053 16631 17939; CX 4052 16631 17940; CX 4051 16631 17941; CX 4050 16631 17942; CX 4049 16631 17943; CX 4048 16631 17944; CX 4047 16631 17945; CX 4046 16631 17946;
  CX 4045 16631 17947; CX 4044 16631 17948; CX 4043 16631 17949; CX 4042 16631 17950; CX 4041 16631 17951; CX 4040 16631 17952; CX 4039 16631 17953; CX 4038 16631 17954;
  CX 4037 16631 17955; CA 17893 16946 17767; CX 17830 17767 4160; CX 16947 17767 4907; CX 17894 17767 4908; CA 4908 4907 4906; CX 4906 17767 17768; CX 17831 17768 4159;
  CX 17895 17768 4905; CX 16948 17768 4904; CA 4905 4904 4903; CX 4903 17768 17769; CX 17896 17769 4902; CX 17832 17769 4158; CX 16949 17769 4901; CA 4902 4901 4900;
  CX 4900 17769 17770; CX 16950 17770 4898; CX 17897 17770 4899; CA 4899 4898 4897; CX 4897 17770 17771; CX 17834 17771 4156; CX 16951 17771 4895; CX 17898 17771 4896;
  CA 4896 4895 4894; CX 17833 17770 4157; CX 4894 17771 17772; CX 17835 17772 4155; CX 17899 17772 4893; CX 16952 17772 4892; CA 4893 4892 4891; CX 4891 17772 17773;
  CX 17836 17773 4154; CX 16953 17773 4889; CX 17900 17773 4890; CA 4890 4889 4888; CX 4888 17773 17774; CX 17837 17774 4153; CX 17901 17774 4887; CX 16954 17774 4886;
  CA 4887 4886 4885; CX 4885 17774 17775; CX 17902 17775 4884; CX 17838 17775 4152; CX 16955 17775 4883; CA 4884 4883 4882; CX 4882 17775 17776; CX 16956 17776 4880;
  CX 17903 17776 4881; CA 4881 4880 4879; CX 4879 17776 17777; CX 17840 17777 4150; CX 16957 17777 4877; CX 17904 17777 4878; CA 4878 4877 4876; CX 17839 17776 4151;
  CX 4876 17777 17778; CX 17841 17778 4149; CX 17905 17778 4875; CX 16958 17778 4874; CA 4875 4874 4873; CX 4873 17778 17779; CX 17842 17779 4148; CX 16959 17779 4871;
  CX 17906 17779 4872; CA 4872 4871 4870; CX 4870 17779 17780; CX 17843 17780 4147; CX 17907 17780 4869; CX 16960 17780 4868; CA 4869 4868 4867; CX 4867 17780 17781;
  CX 17908 17781 4866; CX 17844 17781 4146; CX 16961 17781 4865; CA 4866 4865 4864; CX 4864 17781 17782; CX 16962 17782 4862; CX 17909 17782 4863; CA 4863 4862 4861;
  CX 4861 17782 17783; CX 17846 17783 4144; CX 16963 17783 4859; CX 17910 17783 4860; CA 4860 4859 4858; CX 17845 17782 4145; CX 4858 17783 17784; CX 17847 17784 4143;
  CX 17911 17784 4857; CX 16964 17784 4856; CA 4857 4856 4855; CX 4855 17784 17785; CX 17848 17785 4142; CX 16965 17785 4853; CX 17912 17785 4854; CA 4854 4853 4852;
  CX 4852 17785 17786; CX 17849 17786 4141; CX 17913 17786 4851; CX 16966 17786 4850; CA 4851 4850 4849; CX 4849 17786 17787; CX 17914 17787 4848; CX 17850 17787 4140;
  CX 16967 17787 4847; CA 4848 4847 4846; CX 4846 17787 17788; CX 16968 17788 4844; CX 17915 17788 4845; CA 4845 4844 4843; CX 4843 17788 17789; CX 17852 17789 4138;
  CX 16969 17789 4841; CX 17916 17789 4842; CA 4842 4841 4840; CX 17851 17788 4139; CX 4840 17789 17790; CX 17853 17790 4137; CX 17917 17790 4839; CX 16970 17790 4838;
  CA 4839 4838 4837; CX 4837 17790 17791; CX 17854 17791 4136; CX 16971 17791 4835; CX 17918 17791 4836; CA 4836 4835 4834; CX 4834 17791 17792; CX 17855 17792 4135;
  CX 17919 17792 4833; CX 16972 17792 4832; CA 4833 4832 4831; CX 4831 17792 17793; CX 17920 17793 4830; CX 17856 17793 4134; CX 16973 17793 4829; CA 4830 4829 4828;
  CX 4828 17793 17794; CX 16974 17794 4826; CX 17921 17794 4827; CA 4827 4826 4825; CX 4825 17794 17795; CX 17858 17795 4132; CX 16975 17795 4823; CX 17922 17795 4824;
  CA 4824 4823 4822; CX 17857 17794 4133; CX 4822 17795 17796; CX 17859 17796 4131; CX 17923 17796 4821; CX 16976 17796 4820; CA 4821 4820 4819; CX 4819 17796 17797;
  CX 17860 17797 4130; CX 16977 17797 4817; CX 17924 17797 4818; CA 4818 4817 4816; CX 4816 17797 17798; CX 17861 17798 4129; CX 17925 17798 4815; CX 16978 17798 4814;
  CA 4815 4814 4813; CX 4813 17798 17799; CX 17926 17799 4812; CX 17862 17799 4128; CX 16979 17799 4811; CA 4812 4811 4810; CX 4810 17799 17800; CX 16980 17800 4808;
  CX 17927 17800 4809; CA 4809 4808 4807; CX 4807 17800 17801; CX 17864 17801 4126; CX 16981 17801 4805; CX 17928 17801 4806; CA 4806 4805 4804; CX 17863 17800 4127;
  CX 4804 17801 17802; CX 17865 17802 4125; CX 17929 17802 4803; CX 16982 17802 4802; CA 4803 4802 4801; CX 4801 17802 17803; CX 17866 17803 4124; CX 16983 17803 4799;
  CX 17930 17803 4800; CA 4800 4799 4798; CX 4798 17803 17804; CX 17867 17804 4123; CX 17931 17804 4797; CX 16984 17804 4796; CA 4797 4796 4795; CX 4795 17804 17805;
  CX 17932 17805 4794; CX 17868 17805 4122; CX 16985 17805 4793; CA 4794 4793 4792; CX 4792 17805 17806; CX 16986 17806 4790; CX 17933 17806 4791; CA 4791 4790 4789;
  CX 4789 17806 17807; CX 17870 17807 4120; CX 16987 17807 4787; CX 17934 17807 4788; CA 4788 4787 4786; CX 17869 17806 4121; CX 4786 17807 17808; CX 17871 17808 4119;
  CX 17935 17808 4785; CX 16988 17808 4784; CA 4785 4784 4783; CX 4783 17808 17809; CX 17872 17809 4118; CX 16989 17809 4781; CX 17936 17809 4782; CA 4782 4781 4780;
  CX 4780 17809 17810; CX 17873 17810 4117; CX 17937 17810 4779; CX 16990 17810 4778; CA 4779 4778 4777; CX 4777 17810 17811; CX 17938 17811 4776; CX 17874 17811 4116;
  CX 16991 17811 4775; CA 4776 4775 4774; CX 4774 17811 17812; CX 16992 17812 4772; CX 17939 17812 4773; CA 4773 4772 4771; CX 4771 17812 17813; CX 17876 17813 4114;
  CX 16993 17813 4769; CX 17940 17813 4770; CA 4770 4769 4768; CX 17875 17812 4115; CX 4768 17813 17814; CX 17877 17814 4113; CX 17941 17814 4767; CX 16994 17814 4766;
  CA 4767 4766 4765; CX 4765 17814 17815; CX 17878 17815 4112; CX 16995 17815 4763; CX 17942 17815 4764; CA 4764 4763 4762; CX 4762 17815 17816; CX 17879 17816 4111;
  CX 17943 17816 4761; CX 16996 17816 4760; CA 4761 4760 4759; CX 4759 17816 17817; CX 17944 17817 4758; CX 17880 17817 4110; CX 16997 17817 4757; CA 4758 4757 4756;
  CX 4756 17817 17818; CX 16998 17818 4754; CX 17945 17818 4755; CA 4755 4754 4753; CX 4753 17818 17819; CX 17882 17819 4108; CX 16999 17819 4751; CX 17946 17819 4752;
  CA 4752 4751 4750; CX 17881 17818 4109; CX 4750 17819 17820; CX 17883 17820 4107; CX 17947 17820 4749; CX 17000 17820 4748; CA 4749 4748 4747; CX 4747 17820 17821;
  CX 17884 17821 4106; CX 17001 17821 4745; CX 17948 17821 4746; CA 4746 4745 4744; CX 4744 17821 17822; CX 17002 17822 4742; CX 17885 17822 4105; CX 17949 17822 4743;
  CA 4743 4742 4741; CX 4741 17822 17823; CX 17950 17823 4740; CX 17886 17823 4104; CX 17003 17823 4739; CA 4740 4739 4738; CX 4738 17823 17824; CX 17887 17824 4103;
  CX 17004 17824 4736; CX 17951 17824 4737; CA 4737 4736 4735; CX 4735 17824 17825; CX 17888 17825 4102; CX 17005 17825 4733; CX 17952 17825 4734; CA 4734 4733 4732;
  CX 4732 17825 17826; CX 17889 17826 4101; CX 17953 17826 4731; CX 17006 17826 4730; CA 4731 4730 4729; CX 4729 17826 17827; CX 17954 17827 4728; CX 17890 17827 4100;
  CX 17007 17827 4727; CA 4728 4727 4726; CX 4726 17827 17828; CX 17008 17828 4724; CX 17891 17828 4099; CX 4099 17009 4722; CX 17955 17828 4725; CA 4725 4724 4723;
  CX 4723 17828 17829; CX 17892 17829 192; CI 192 16630; CA 16630 4535 17514; CX 4160 16630 17706; CX 4159 16630 17707; CX 16819 16630 17704; CX 4155 16630 17711;
  CX 4156 16630 17710; CX 4158 16630 17708; CX 4151 16630 17715; CX 4139 16630 17727; CX 4143 16630 17723; CX 4147 16630 17719; CX 4148 16630 17718; CX 4135 16630 17731;
  CX 4136 16630 17730; CX 4144 16630 17722; CX 4140 16630 17726; CX 4142 16630 17724; CX 4138 16630 17728; CX 4132 16630 17734; CX 4134 16630 17732; CX 4131 16630 17735;
  CX 4127 16630 17739; CX 4130 16630 17736; CX 4128 16630 17738; CX 4120 16630 17746; CX 4123 16630 17743; CX 4126 16630 17740; CX 4124 16630 17742; CX 4116 16630 17750;
  CX 4114 16630 17752; CX 4118 16630 17748; CX 4122 16630 17744; CX 4112 16630 17754; CX 4110 16630 17756; CX 4107 16630 17759; CX 4103 16630 17763; CX 4104 16630 17762;
  CA 17704 16946 17641; CX 16947 17641 4720; CX 4106 16630 17760; CX 4100 16630 17766; CX 4102 16630 17764; CX 4152 16630 17714; CX 4154 16630 17712; CX 4150 16630 17716].
(** Lines 29205-29604 of the file. *)
Definition divide64_73 : list cg := [
  CX 4146 16630 17720; CX 4119 16630 17747; CX 4115 16630 17751; CX 4111 16630 17755; CX 4108 16630 17758; CX 4101 16630 17765; CX 4105 16630 17761; CX 4109 16630 17757;
  CX 4113 16630 17753; CX 4117 16630 17749; CX 4121 16630 17745; CX 4125 16630 17741; CX 4129 16630 17737; CX 4133 16630 17733; CX 4137 16630 17729; CX 4141 16630 17725;
  CX 4145 16630 17721; CX 4149 16630 17717; CX 4153 16630 17713; CX 4157 16630 17709; CX 4161 16630 17705; CX 17705 17641 4721; CA 4721 4720 4719; CX 4719 17641 17642;
  CX 17706 17642 4718; CX 16948 17642 4717; CA 4718 4717 4716; CX 4716 17642 17643; CX 17707 17643 4715; CX 16949 17643 4714; CA 4715 4714 4713; CX 4713 17643 17644;
  CX 16950 17644 4711; CX 17708 17644 4712; CA 4712 4711 4710; CX 4710 17644 17645; CX 16951 17645 4708; CX 17709 17645 4709; CA 4709 4708 4707; CX 4707 17645 17646;
  CX 17710 17646 4706; CX 16952 17646 4705; CA 4706 4705 4704; CX 4704 17646 17647; CX 16953 17647 4702; CX 17711 17647 4703; CA 4703 4702 4701; CX 4701 17647 17648;
  CX 16954 17648 4699; CX 17712 17648 4700; CA 4700 4699 4698; CX 4698 17648 17649; CX 16955 17649 4696; CX 17713 17649 4697; CA 4697 4696 4695; CX 4695 17649 17650;
  CX 17714 17650 4694; CX 16956 17650 4693; CA 4694 4693 4692; CX 4692 17650 17651; CX 16957 17651 4690; CX 17715 17651 4691; CA 4691 4690 4689; CX 4689 17651 17652;
  CX 16958 17652 4687; CX 17716 17652 4688; CA 4688 4687 4686; CX 4686 17652 17653; CX 17717 17653 4685; CX 16959 17653 4684; CA 4685 4684 4683; CX 4683 17653 17654;
  CX 17718 17654 4682; CX 16960 17654 4681; CA 4682 4681 4680; CX 4680 17654 17655; CX 16961 17655 4678; CX 17719 17655 4679; CA 4679 4678 4677; CX 4677 17655 17656;
  CX 17720 17656 4676; CX 16962 17656 4675; CA 4676 4675 4674; CX 4674 17656 17657; CX 17721 17657 4673; CX 16963 17657 4672; CA 4673 4672 4671; CX 4671 17657 17658;
  CX 16964 17658 4669; CX 17722 17658 4670; CA 4670 4669 4668; CX 4668 17658 17659; CX 16965 17659 4666; CX 17723 17659 4667; CA 4667 4666 4665; CX 4665 17659 17660;
  CX 16966 17660 4663; CX 17724 17660 4664; CA 4664 4663 4662; CX 4662 17660 17661; CX 17725 17661 4661; CX 16967 17661 4660; CA 4661 4660 4659; CX 4659 17661 17662;
  CX 17726 17662 4658; CX 16968 17662 4657; CA 4658 4657 4656; CX 4656 17662 17663; CX 17727 17663 4655; CX 16969 17663 4654; CA 4655 4654 4653; CX 4653 17663 17664;
  CX 16970 17664 4651; CX 17728 17664 4652; CA 4652 4651 4650; CX 4650 17664 17665; CX 17729 17665 4649; CX 16971 17665 4648; CA 4649 4648 4647; CX 4647 17665 17666;
  CX 17730 17666 4646; CX 16972 17666 4645; CA 4646 4645 4644; CX 4644 17666 17667; CX 16973 17667 4642; CX 17731 17667 4643; CA 4643 4642 4641; CX 4641 17667 17668;
  CX 17732 17668 4640; CX 16974 17668 4639; CA 4640 4639 4638; CX 4638 17668 17669; CX 16975 17669 4636; CX 17733 17669 4637; CA 4637 4636 4635; CX 4635 17669 17670;
  CX 17734 17670 4634; CX 16976 17670 4633; CA 4634 4633 4632; CX 4632 17670 17671; CX 17735 17671 4631; CA 16691 4535 17575; CA 16689 4535 17573; CA 16687 4535 17571;
  CA 16685 4535 17569; CA 16683 4535 17567; CA 16681 4535 17565; CA 16679 4535 17563; CA 16677 4535 17561; CA 16675 4535 17559; CA 16673 4535 17557; CA 16671 4535 17555;
  CA 16669 4535 17553; CA 16667 4535 17551; CA 16665 4535 17549; CA 16663 4535 17547; CX 16977 17671 4630; CA 4631 4630 4629; CX 4629 17671 17672; CX 16978 17672 4627;
  CX 17736 17672 4628; CA 4628 4627 4626; CX 4626 17672 17673; CX 16979 17673 4624; CX 17737 17673 4625; CA 4625 4624 4623; CX 4623 17673 17674; CX 17738 17674 4622;
  CX 16980 17674 4621; CA 4622 4621 4620; CX 4620 17674 17675; CX 16981 17675 4618; CX 17739 17675 4619; CA 4619 4618 4617; CX 4617 17675 17676; CX 17740 17676 4616;
  CX 16982 17676 4615; CA 4616 4615 4614; CX 4614 17676 17677; CX 17741 17677 4613; CX 16983 17677 4612; CA 4613 4612 4611; CX 4611 17677 17678; CX 17742 17678 4610;
  CX 16984 17678 4609; CA 4610 4609 4608; CX 4608 17678 17679; CX 17743 17679 4607; CX 16985 17679 4606; CA 4607 4606 4605; CX 4605 17679 17680; CX 17744 17680 4604;
  CX 16986 17680 4603; CA 4604 4603 4602; CX 4602 17680 17681; CX 17745 17681 4601; CX 16987 17681 4600; CA 4601 4600 4599; CX 4599 17681 17682; CX 16988 17682 4597;
  CX 17746 17682 4598; CA 4598 4597 4596; CX 4596 17682 17683; CX 16989 17683 4594; CX 17747 17683 4595; CA 4595 4594 4593; CX 4593 17683 17684; CX 17748 17684 4592;
  CX 16990 17684 4591; CA 4592 4591 4590; CX 4590 17684 17685; CX 17749 17685 4589; CX 16991 17685 4588; CA 4589 4588 4587; CX 4587 17685 17686; CX 16992 17686 4585;
  CX 17750 17686 4586; CA 4586 4585 4584; CX 4584 17686 17687; CX 16993 17687 4582; CX 17751 17687 4583; CA 4583 4582 4581; CX 4581 17687 17688; CX 17752 17688 4580;
  CX 16994 17688 4579; CA 4580 4579 4578; CX 4578 17688 17689; CX 16995 17689 4576; CX 17753 17689 4577; CA 4577 4576 4575; CX 4575 17689 17690; CX 16996 17690 4573;
  CX 17754 17690 4574; CA 4574 4573 4572; CX 4572 17690 17691; CX 16997 17691 4570; CX 17755 17691 4571; CA 4571 4570 4569; CX 4569 17691 17692; CX 17756 17692 4568;
  CX 16998 17692 4567; CA 4568 4567 4566; CX 4566 17692 17693; CX 16999 17693 4564; CX 17757 17693 4565; CA 4565 4564 4563; CX 4563 17693 17694; CX 17000 17694 4561;
  CX 17758 17694 4562; CA 4562 4561 4560; CX 4560 17694 17695; CX 17759 17695 4559; CX 17001 17695 4558; CA 4559 4558 4557; CX 4557 17695 17696; CX 17002 17696 4555;
  CX 17760 17696 4556; CA 4556 4555 4554; CX 4554 17696 17697; CX 17761 17697 4553; CX 17003 17697 4552; CA 4553 4552 4551; CX 4551 17697 17698; CX 17762 17698 4550;
  CX 17004 17698 4549; CA 4550 4549 4548; CX 4548 17698 17699; CX 17763 17699 4547; CX 17005 17699 4546; CA 4547 4546 4545; CX 4545 17699 17700; CX 17764 17700 4544;
  CX 17006 17700 4543; CA 4544 4543 4542; CX 4542 17700 17701; CX 17007 17701 4540; CX 17765 17701 4541; CA 4541 4540 4539; CX 4539 17701 17702; CX 17766 17702 4538;
  CX 17008 17702 4537; CA 4538 4537 4536; CX 4536 17702 17703; CX 4722 17703 4162; CX 192 4162 4534; CA 4534 4162 4533; CX 4533 4162 17388; CX 16631 17388 17451;
  CI 4162 16566; CA 16566 128 17577; CI 17451 16567; CA 16566 4535 17513; CX 17577 17513 29990; CX 16630 4162 17450; CI 17450 16629; CA 16629 128 17578;
  CX 17578 17514 29991; CX 191 17388 4532; CA 4532 17388 4531; CX 4531 17388 17389; CX 190 17389 4530; CX 16632 17389 17452; CA 4530 17389 4529; CX 4529 17389 17390;
  CX 16633 17390 17453; CX 189 17390 4528; CI 17452 16568; CA 16568 128 17580; CI 17453 16569; CA 16569 128 17581; CX 17581 17517 29994; CX 17580 17516 29993;
  CA 4528 17390 4527; CX 4527 17390 17391; CX 188 17391 4526; CA 4526 17391 4525; CX 4525 17391 17392; CX 16634 17391 17454; CX 187 17392 4524; CA 4524 17392 4523;
  CI 17454 16570; CA 16570 128 17582; CX 16635 17392 17455; CI 17455 16571; CX 4523 17392 17393; CX 16636 17393 17456; CI 17456 16572; CA 16572 128 17584;
  CX 17584 17520 29997; CX 186 17393 4522; CA 4522 17393 4521; CX 4521 17393 17394; CX 185 17394 4520; CA 4520 17394 4519; CX 4519 17394 17395; CX 184 17395 4518;
  CX 16638 17395 17458; CX 16637 17394 17457; CI 17457 16573; CI 17458 16574; CA 16573 128 17585; CA 4518 17395 4517; CX 4517 17395 17396; CX 16639 17396 17459;
  CX 183 17396 4516; CA 4516 17396 4515; CX 4515 17396 17397; CX 16640 17397 17460; CX 182 17397 4514; CI 17459 16575; CA 16575 128 17587; CX 17587 17523 30000;
  CI 17460 16576; CA 4514 17397 4513; CX 4513 17397 17398; CX 181 17398 4512; CX 16641 17398 17461; CA 4512 17398 4511; CX 4511 17398 17399; CX 180 17399 4510;
  CA 4510 17399 4509; CI 17461 16577; CX 16642 17399 17462; CI 17462 16578; CX 17585 17521 29998; CA 16578 128 17590; CX 17590 17526 30003; CX 17582 17518 29995;
  CA 16576 128 17588; CX 17588 17524 30001; CA 16577 128 17589; CX 17589 17525 30002; CA 16571 128 17583; CX 17583 17519 29996; CA 16574 128 17586; CA 16567 128 17579;
  CX 17579 17515 29992; CX 17586 17522 29999; CX 4509 17399 17400; CX 16643 17400 17463; CI 17463 16579; CA 16579 128 17591; CX 17591 17527 30004; CX 179 17400 4508;
  CA 4508 17400 4507; CX 4507 17400 17401; CX 16644 17401 17464; CX 178 17401 4506; CA 4506 17401 4505; CX 4505 17401 17402; CX 16645 17402 17465; CI 17464 16580;
  CI 17465 16581; CA 16580 128 17592; CX 177 17402 4504; CX 17592 17528 30005; CA 4504 17402 4503; CA 16581 128 17593; CX 17593 17529 30006; CX 4503 17402 17403].
(** Lines 29605-29930 of the file. *)
Definition divide64_74 : list cg := [
  CX 176 17403 4502; CA 4502 17403 4501; CX 4501 17403 17404; CX 175 17404 4500; CX 16646 17403 17466; CI 17466 16582; CA 16582 128 17594; CX 17594 17530 30007;
  CA 4500 17404 4499; CX 4499 17404 17405; CX 16648 17405 17468; CI 17468 16584; CA 16584 128 17596; CX 174 17405 4498; CA 4498 17405 4497; CX 4497 17405 17406;
  CX 173 17406 4496; CA 4496 17406 4495; CX 16649 17406 17469; CI 17469 16585; CA 16585 128 17597; CX 17597 17533 30010; CX 4495 17406 17407; CX 16650 17407 17470;
  CX 172 17407 4494; CA 4494 17407 4493; CX 4493 17407 17408; CX 16651 17408 17471; CI 17470 16586; CI 17471 16587; CA 16587 128 17599; CX 171 17408 4492;
  CA 4492 17408 4491; CX 4491 17408 17409; CX 16652 17409 17472; CI 17472 16588; CX 170 17409 4490; CA 4490 17409 4489; CX 4489 17409 17410; CX 16653 17410 17473;
  CX 169 17410 4488; CA 4488 17410 4487; CX 4487 17410 17411; CX 168 17411 4486; CI 17473 16589; CA 16589 128 17601; CX 17601 17537 30014; CA 16588 128 17600;
  CX 17599 17535 30012; CX 16654 17411 17474; CI 17474 16590; CA 16590 128 17602; CX 17602 17538 30015; CX 16647 17404 17467; CI 17467 16583; CA 16583 128 17595;
  CX 17595 17531 30008; CA 4486 17411 4485; CX 4485 17411 17412; CX 167 17412 4484; CA 4484 17412 4483; CX 4483 17412 17413; CX 16656 17413 17476; CI 17476 16592;
  CX 16655 17412 17475; CI 17475 16591; CA 16591 128 17603; CX 166 17413 4482; CA 4482 17413 4481; CX 4481 17413 17414; CX 16657 17414 17477; CI 17477 16593;
  CA 16593 128 17605; CX 165 17414 4480; CA 4480 17414 4479; CX 4479 17414 17415; CX 164 17415 4478; CA 4478 17415 4477; CX 4477 17415 17416; CX 16659 17416 17479;
  CI 17479 16595; CX 17605 17541 30018; CX 163 17416 4476; CA 4476 17416 4475; CX 4475 17416 17417; CX 16660 17417 17480; CI 17480 16596; CA 16596 128 17608;
  CX 17608 17544 30021; CX 162 17417 4474; CA 16595 128 17607; CA 16592 128 17604; CX 17604 17540 30017; CA 4474 17417 4473; CX 4473 17417 17418; CX 161 17418 4472;
  CA 4472 17418 4471; CX 4471 17418 17419; CX 160 17419 4470; CX 16662 17419 17482; CI 17482 16598; CA 16598 128 17610; CA 4470 17419 4469; CX 4469 17419 17420;
  CX 159 17420 4468; CA 4468 17420 4467; CX 16663 17420 17483; CI 17483 16599; CA 16599 128 17611; CX 17611 17547 30024; CX 4467 17420 17421; CX 16664 17421 17484;
  CI 17484 16600; CX 158 17421 4466; CA 4466 17421 4465; CA 16600 128 17612; CX 17612 17548 30025; CX 4465 17421 17422; CX 157 17422 4464; CA 4464 17422 4463;
  CX 4463 17422 17423; CX 16666 17423 17486; CI 17486 16602; CA 16602 128 17614; CX 16665 17422 17485; CI 17485 16601; CA 16601 128 17613; CX 17613 17549 30026;
  CX 156 17423 4462; CA 4462 17423 4461; CX 4461 17423 17424; CX 16667 17424 17487; CI 17487 16603; CA 16603 128 17615; CX 17615 17551 30028; CX 155 17424 4460;
  CA 4460 17424 4459; CX 4459 17424 17425; CX 154 17425 4458; CA 4458 17425 4457; CX 4457 17425 17426; CX 16669 17426 17489; CI 17489 16605; CA 16605 128 17617;
  CX 16668 17425 17488; CI 17488 16604; CA 16604 128 17616; CX 17616 17552 30029; CX 153 17426 4456; CX 16661 17418 17481; CI 17481 16597; CA 16597 128 17609;
  CX 17609 17545 30022; CA 4456 17426 4455; CX 4455 17426 17427; CX 16670 17427 17490; CI 17490 16606; CA 16606 128 17618; CX 17618 17554 30031; CX 152 17427 4454;
  CA 4454 17427 4453; CX 4453 17427 17428; CX 151 17428 4452; CX 16671 17428 17491; CI 17491 16607; CA 16607 128 17619; CX 17619 17555 30032; CA 4452 17428 4451;
  CX 4451 17428 17429; CX 150 17429 4450; CA 4450 17429 4449; CX 4449 17429 17430; CX 149 17430 4448; CA 4448 17430 4447; CX 4447 17430 17431; CX 16674 17431 17494;
  CI 17494 16610; CA 16610 128 17622; CX 16673 17430 17493; CI 17493 16609; CA 16609 128 17621; CX 17622 17558 30035; CX 148 17431 4446; CA 4446 17431 4445;
  CX 4445 17431 17432; CX 16675 17432 17495; CI 17495 16611; CX 147 17432 4444; CA 4444 17432 4443; CX 4443 17432 17433; CX 146 17433 4442; CA 4442 17433 4441;
  CX 4441 17433 17434; CX 145 17434 4440; CA 4440 17434 4439; CX 16677 17434 17497; CX 4439 17434 17435; CX 16678 17435 17498; CI 17498 16614; CA 16614 128 17626;
  CX 17626 17562 30039; CI 17497 16613; CA 16613 128 17625; CX 17625 17561 30038; CX 16676 17433 17496; CI 17496 16612; CA 16612 128 17624; CX 144 17435 4438;
  CA 4438 17435 4437; CX 4437 17435 17436; CX 143 17436 4436; CA 4436 17436 4435; CX 4435 17436 17437; CX 142 17437 4434; CA 4434 17437 4433; CX 16680 17437 17500;
  CI 17500 16616; CA 16616 128 17628; CX 16679 17436 17499; CX 4433 17437 17438; CX 16681 17438 17501; CI 17501 16617; CA 16617 128 17629; CX 141 17438 4432;
  CA 4432 17438 4431; CX 17629 17565 30042; CA 16611 128 17623; CX 17623 17559 30036; CX 4431 17438 17439; CX 16682 17439 17502; CI 17502 16618; CA 16618 128 17630;
  CX 140 17439 4430; CX 17630 17566 30043; CI 17499 16615; CA 16615 128 17627; CX 17627 17563 30040; CX 17600 17536 30013; CX 17607 17543 30020; CX 17614 17550 30027;
  CX 17621 17557 30034; CX 17628 17564 30041; CX 17596 17532 30009; CX 17603 17539 30016; CX 17610 17546 30023; CX 17617 17553 30030; CX 17624 17560 30037; CA 4430 17439 4429;
  CX 4429 17439 17440; CX 139 17440 4428; CX 16683 17440 17503; CI 17503 16619; CA 16619 128 17631; CA 4428 17440 4427; CX 4427 17440 17441; CX 138 17441 4426;
  CA 4426 17441 4425; CX 16684 17441 17504; CI 17504 16620; CA 16620 128 17632; CX 17632 17568 30045; CX 17631 17567 30044; CX 4425 17441 17442; CX 137 17442 4424;
  CX 16685 17442 17505; CA 4424 17442 4423; CI 17505 16621; CA 16621 128 17633; CX 17633 17569 30046; CX 4423 17442 17443; CX 136 17443 4422; CA 4422 17443 4421;
  CX 4421 17443 17444; CX 16687 17444 17507; CI 17507 16623; CA 16623 128 17635; CX 17635 17571 30048; CX 135 17444 4420; CA 4420 17444 4419; CX 4419 17444 17445;
  CX 16688 17445 17508; CI 17508 16624; CX 134 17445 4418; CA 4418 17445 4417; CX 4417 17445 17446; CX 133 17446 4416; CA 16624 128 17636; CX 16689 17446 17509;
  CI 17509 16625; CA 16625 128 17637; CX 17637 17573 30050; CX 17636 17572 30049; CA 4416 17446 4415; CX 4415 17446 17447; CX 16690 17447 17510; CI 17510 16626;
  CA 16626 128 17638; CX 17638 17574 30051; CX 132 17447 4414; CA 4414 17447 4413; CX 4413 17447 17448; CX 131 17448 4412; CA 4412 17448 4411; CX 4411 17448 17449;
  CX 16692 17449 17512; CI 17512 16628; CA 16628 128 17640; CX 17640 17576 30053; CX 16691 17448 17511; CI 17511 16627; CA 16627 128 17639; CX 17639 17575 30052;
  CX 16686 17443 17506; CI 17506 16622; CA 16622 128 17634; CX 17634 17570 30047; CX 16672 17429 17492; CI 17492 16608; CA 16608 128 17620; CX 17620 17556 30033;
  CX 16658 17415 17478; CI 17478 16594; CA 16594 128 17606; CX 17606 17542 30019; CA 16586 128 17598; CX 17598 17534 30011].
(** /repo/src/circuits/arithmetic/divide64.txt; lines 1-4 are the header. *)
Definition divide64_gates : list cg := concat [divide64_0; divide64_1; divide64_2; divide64_3; divide64_4; divide64_5; divide64_6; divide64_7; divide64_8; divide64_9; divide64_10; divide64_11; divide64_12; divide64_13; divide64_14; divide64_15; divide64_16; divide64_17; divide64_18; divide64_19; divide64_20; divide64_21; divide64_22; divide64_23; divide64_24; divide64_25; divide64_26; divide64_27; divide64_28; divide64_29; divide64_30; divide64_31; divide64_32; divide64_33; divide64_34; divide64_35; divide64_36; divide64_37; divide64_38; divide64_39; divide64_40; divide64_41; divide64_42; divide64_43; divide64_44; divide64_45; divide64_46; divide64_47; divide64_48; divide64_49; divide64_50; divide64_51; divide64_52; divide64_53; divide64_54; divide64_55; divide64_56; divide64_57; divide64_58; divide64_59; divide64_60; divide64_61; divide64_62; divide64_63; divide64_64; divide64_65; divide64_66; divide64_67; divide64_68; divide64_69; divide64_70; divide64_71; divide64_72; divide64_73; divide64_74].
Definition divide64 : netlist := NL ("29926 30054"%string, "2 64 64 "%string, "1 64 "%string, ""%string) (29926, 30054, [64; 64], [64]) divide64_gates (Blank 2).
