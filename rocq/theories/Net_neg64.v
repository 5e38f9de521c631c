(** Generated by /verif/tools/gen_netlists.py from /repo/src/circuits/arithmetic/neg64.txt. *)
From Verif Require Import Netlist.
Open Scope N_scope.
Open Scope list_scope.

(** Lines 5-194 of the file. *)
Definition neg64_0 : list cg := [
  CW 0 190; CI 1 83; CI 0 82; CA 83 82 105; CI 2 104; CA 105 104 127; CI 3 126; CA 127 126 149;
  CI 4 148; CA 149 148 171; CI 5 170; CA 171 170 183; CI 6 182; CA 183 182 185; CI 7 184; CA 185 184 187;
  CI 8 186; CA 187 186 189; CI 9 188; CA 189 188 65; CI 10 64; CX 65 64 200; CA 65 64 67; CI 11 66;
  CX 67 66 201; CA 67 66 69; CI 12 68; CX 69 68 202; CA 69 68 71; CI 13 70; CX 71 70 203; CA 71 70 73;
  CI 14 72; CX 73 72 204; CA 73 72 75; CI 15 74; CX 75 74 205; CA 75 74 77; CI 16 76; CX 77 76 206;
  CA 77 76 79; CI 17 78; CX 79 78 207; CA 79 78 81; CI 18 80; CX 81 80 208; CA 81 80 85; CI 19 84;
  CX 85 84 209; CX 83 82 191; CA 85 84 87; CI 20 86; CX 87 86 210; CA 87 86 89; CI 21 88; CX 89 88 211;
  CA 89 88 91; CI 22 90; CX 91 90 212; CA 91 90 93; CI 23 92; CX 93 92 213; CA 93 92 95; CI 24 94;
  CX 95 94 214; CA 95 94 97; CI 25 96; CX 97 96 215; CA 97 96 99; CI 26 98; CX 99 98 216; CA 99 98 101;
  CI 27 100; CX 101 100 217; CA 101 100 103; CI 28 102; CX 103 102 218; CA 103 102 107; CI 29 106; CX 107 106 219;
  CX 105 104 192; CA 107 106 109; CI 30 108; CX 109 108 220; CA 109 108 111; CI 31 110; CX 111 110 221; CA 111 110 113;
  CI 32 112; CX 113 112 222; CA 113 112 115; CI 33 114; CX 115 114 223; CA 115 114 117; CI 34 116; CX 117 116 224;
  CA 117 116 119; CI 35 118; CX 119 118 225; CA 119 118 121; CI 36 120; CX 121 120 226; CA 121 120 123; CI 37 122;
  CX 123 122 227; CA 123 122 125; CI 38 124; CX 125 124 228; CA 125 124 129; CI 39 128; CX 129 128 229; CX 127 126 193;
  CA 129 128 131; CI 40 130; CX 131 130 230; CA 131 130 133; CI 41 132; CX 133 132 231; CA 133 132 135; CI 42 134;
  CX 135 134 232; CA 135 134 137; CI 43 136; CX 137 136 233; CA 137 136 139; CI 44 138; CX 139 138 234; CA 139 138 141;
  CI 45 140; CX 141 140 235; CA 141 140 143; CI 46 142; CX 143 142 236; CA 143 142 145; CI 47 144; CX 145 144 237;
  CA 145 144 147; CI 48 146; CX 147 146 238; CA 147 146 151; CI 49 150; CX 151 150 239; CX 149 148 194; CA 151 150 153;
  CI 50 152; CX 153 152 240; CA 153 152 155; CI 51 154; CX 155 154 241; CA 155 154 157; CI 52 156; CX 157 156 242;
  CA 157 156 159; CI 53 158; CX 159 158 243; CA 159 158 161; CI 54 160; CX 161 160 244; CA 161 160 163; CI 55 162;
  CX 163 162 245; CA 163 162 165; CI 56 164; CX 165 164 246; CA 165 164 167; CI 57 166; CX 167 166 247; CA 167 166 169;
  CI 58 168; CX 169 168 248; CA 169 168 173; CI 59 172; CX 173 172 249; CX 171 170 195; CA 173 172 175; CI 60 174;
  CX 175 174 250; CA 175 174 177; CI 61 176; CX 177 176 251; CA 177 176 178; CI 62 179; CX 178 179 252; CA 179 178 180;
  CX 63 180 181; CI 181 253; CX 183 182 196; CX 185 184 197; CX 187 186 198; CX 189 188 199].
(** /repo/src/circuits/arithmetic/neg64.txt; lines 1-4 are the header. *)
Definition neg64_gates : list cg := concat [neg64_0].
Definition neg64 : netlist := NL ("190 254"%string, "1 64 "%string, "1 64 "%string, ""%string) (190, 254, [64], [64]) neg64_gates (Blank 2).
