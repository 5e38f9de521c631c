(** Generated by /verif/tools/gen_netlists.py: a certificate for the netlist neg64, checked in Coq. *)
From Verif Require Import Cuts.
Open Scope N_scope.
Open Scope list_scope.

Definition neg64_facts_0 : list lin_fact := [
  Lin [0] [190; 82] 2%Z [((-1)%Z, 0); ((-1)%Z, 190); ((-2)%Z, 82)] 18446744073709551616%Z 1%Z;
  Lin [1; 82] [83; 191; 105] 1%Z [((-1)%Z, 1); (1%Z, 82); ((-1)%Z, 191); ((-2)%Z, 105)] 9223372036854775808%Z 2%Z;
  Lin [2; 105] [104; 192; 127] 1%Z [((-1)%Z, 2); (1%Z, 105); ((-1)%Z, 192); ((-2)%Z, 127)] 4611686018427387904%Z 4%Z;
  Lin [3; 127] [126; 193; 149] 1%Z [((-1)%Z, 3); (1%Z, 127); ((-1)%Z, 193); ((-2)%Z, 149)] 2305843009213693952%Z 8%Z;
  Lin [4; 149] [148; 194; 171] 1%Z [((-1)%Z, 4); (1%Z, 149); ((-1)%Z, 194); ((-2)%Z, 171)] 1152921504606846976%Z 16%Z;
  Lin [5; 171] [170; 195; 183] 1%Z [((-1)%Z, 5); (1%Z, 171); ((-1)%Z, 195); ((-2)%Z, 183)] 576460752303423488%Z 32%Z;
  Lin [6; 183] [182; 196; 185] 1%Z [((-1)%Z, 6); (1%Z, 183); ((-1)%Z, 196); ((-2)%Z, 185)] 288230376151711744%Z 64%Z;
  Lin [7; 185] [184; 197; 187] 1%Z [((-1)%Z, 7); (1%Z, 185); ((-1)%Z, 197); ((-2)%Z, 187)] 144115188075855872%Z 128%Z;
  Lin [8; 187] [186; 198; 189] 1%Z [((-1)%Z, 8); (1%Z, 187); ((-1)%Z, 198); ((-2)%Z, 189)] 72057594037927936%Z 256%Z;
  Lin [9; 189] [188; 199; 65] 1%Z [((-1)%Z, 9); (1%Z, 189); ((-1)%Z, 199); ((-2)%Z, 65)] 36028797018963968%Z 512%Z;
  Lin [10; 65] [64; 200; 67] 1%Z [((-1)%Z, 10); (1%Z, 65); ((-1)%Z, 200); ((-2)%Z, 67)] 18014398509481984%Z 1024%Z;
  Lin [11; 67] [66; 201; 69] 1%Z [((-1)%Z, 11); (1%Z, 67); ((-1)%Z, 201); ((-2)%Z, 69)] 9007199254740992%Z 2048%Z;
  Lin [12; 69] [68; 202; 71] 1%Z [((-1)%Z, 12); (1%Z, 69); ((-1)%Z, 202); ((-2)%Z, 71)] 4503599627370496%Z 4096%Z;
  Lin [13; 71] [70; 203; 73] 1%Z [((-1)%Z, 13); (1%Z, 71); ((-1)%Z, 203); ((-2)%Z, 73)] 2251799813685248%Z 8192%Z;
  Lin [14; 73] [72; 204; 75] 1%Z [((-1)%Z, 14); (1%Z, 73); ((-1)%Z, 204); ((-2)%Z, 75)] 1125899906842624%Z 16384%Z;
  Lin [15; 75] [74; 205; 77] 1%Z [((-1)%Z, 15); (1%Z, 75); ((-1)%Z, 205); ((-2)%Z, 77)] 562949953421312%Z 32768%Z;
  Lin [16; 77] [76; 206; 79] 1%Z [((-1)%Z, 16); (1%Z, 77); ((-1)%Z, 206); ((-2)%Z, 79)] 281474976710656%Z 65536%Z;
  Lin [17; 79] [78; 207; 81] 1%Z [((-1)%Z, 17); (1%Z, 79); ((-1)%Z, 207); ((-2)%Z, 81)] 140737488355328%Z 131072%Z;
  Lin [18; 81] [80; 208; 85] 1%Z [((-1)%Z, 18); (1%Z, 81); ((-1)%Z, 208); ((-2)%Z, 85)] 70368744177664%Z 262144%Z;
  Lin [19; 85] [84; 209; 87] 1%Z [((-1)%Z, 19); (1%Z, 85); ((-1)%Z, 209); ((-2)%Z, 87)] 35184372088832%Z 524288%Z;
  Lin [20; 87] [86; 210; 89] 1%Z [((-1)%Z, 20); (1%Z, 87); ((-1)%Z, 210); ((-2)%Z, 89)] 17592186044416%Z 1048576%Z;
  Lin [21; 89] [88; 211; 91] 1%Z [((-1)%Z, 21); (1%Z, 89); ((-1)%Z, 211); ((-2)%Z, 91)] 8796093022208%Z 2097152%Z;
  Lin [22; 91] [90; 212; 93] 1%Z [((-1)%Z, 22); (1%Z, 91); ((-1)%Z, 212); ((-2)%Z, 93)] 4398046511104%Z 4194304%Z;
  Lin [23; 93] [92; 213; 95] 1%Z [((-1)%Z, 23); (1%Z, 93); ((-1)%Z, 213); ((-2)%Z, 95)] 2199023255552%Z 8388608%Z;
  Lin [24; 95] [94; 214; 97] 1%Z [((-1)%Z, 24); (1%Z, 95); ((-1)%Z, 214); ((-2)%Z, 97)] 1099511627776%Z 16777216%Z;
  Lin [25; 97] [96; 215; 99] 1%Z [((-1)%Z, 25); (1%Z, 97); ((-1)%Z, 215); ((-2)%Z, 99)] 549755813888%Z 33554432%Z;
  Lin [26; 99] [98; 216; 101] 1%Z [((-1)%Z, 26); (1%Z, 99); ((-1)%Z, 216); ((-2)%Z, 101)] 274877906944%Z 67108864%Z;
  Lin [27; 101] [100; 217; 103] 1%Z [((-1)%Z, 27); (1%Z, 101); ((-1)%Z, 217); ((-2)%Z, 103)] 137438953472%Z 134217728%Z;
  Lin [28; 103] [102; 218; 107] 1%Z [((-1)%Z, 28); (1%Z, 103); ((-1)%Z, 218); ((-2)%Z, 107)] 68719476736%Z 268435456%Z;
  Lin [29; 107] [106; 219; 109] 1%Z [((-1)%Z, 29); (1%Z, 107); ((-1)%Z, 219); ((-2)%Z, 109)] 34359738368%Z 536870912%Z;
  Lin [30; 109] [108; 220; 111] 1%Z [((-1)%Z, 30); (1%Z, 109); ((-1)%Z, 220); ((-2)%Z, 111)] 17179869184%Z 1073741824%Z;
  Lin [31; 111] [110; 221; 113] 1%Z [((-1)%Z, 31); (1%Z, 111); ((-1)%Z, 221); ((-2)%Z, 113)] 8589934592%Z 2147483648%Z;
  Lin [32; 113] [112; 222; 115] 1%Z [((-1)%Z, 32); (1%Z, 113); ((-1)%Z, 222); ((-2)%Z, 115)] 4294967296%Z 4294967296%Z;
  Lin [33; 115] [114; 223; 117] 1%Z [((-1)%Z, 33); (1%Z, 115); ((-1)%Z, 223); ((-2)%Z, 117)] 2147483648%Z 8589934592%Z;
  Lin [34; 117] [116; 224; 119] 1%Z [((-1)%Z, 34); (1%Z, 117); ((-1)%Z, 224); ((-2)%Z, 119)] 1073741824%Z 17179869184%Z;
  Lin [35; 119] [118; 225; 121] 1%Z [((-1)%Z, 35); (1%Z, 119); ((-1)%Z, 225); ((-2)%Z, 121)] 536870912%Z 34359738368%Z;
  Lin [36; 121] [120; 226; 123] 1%Z [((-1)%Z, 36); (1%Z, 121); ((-1)%Z, 226); ((-2)%Z, 123)] 268435456%Z 68719476736%Z;
  Lin [37; 123] [122; 227; 125] 1%Z [((-1)%Z, 37); (1%Z, 123); ((-1)%Z, 227); ((-2)%Z, 125)] 134217728%Z 137438953472%Z;
  Lin [38; 125] [124; 228; 129] 1%Z [((-1)%Z, 38); (1%Z, 125); ((-1)%Z, 228); ((-2)%Z, 129)] 67108864%Z 274877906944%Z;
  Lin [39; 129] [128; 229; 131] 1%Z [((-1)%Z, 39); (1%Z, 129); ((-1)%Z, 229); ((-2)%Z, 131)] 33554432%Z 549755813888%Z;
  Lin [40; 131] [130; 230; 133] 1%Z [((-1)%Z, 40); (1%Z, 131); ((-1)%Z, 230); ((-2)%Z, 133)] 16777216%Z 1099511627776%Z;
  Lin [41; 133] [132; 231; 135] 1%Z [((-1)%Z, 41); (1%Z, 133); ((-1)%Z, 231); ((-2)%Z, 135)] 8388608%Z 2199023255552%Z;
  Lin [42; 135] [134; 232; 137] 1%Z [((-1)%Z, 42); (1%Z, 135); ((-1)%Z, 232); ((-2)%Z, 137)] 4194304%Z 4398046511104%Z;
  Lin [43; 137] [136; 233; 139] 1%Z [((-1)%Z, 43); (1%Z, 137); ((-1)%Z, 233); ((-2)%Z, 139)] 2097152%Z 8796093022208%Z;
  Lin [44; 139] [138; 234; 141] 1%Z [((-1)%Z, 44); (1%Z, 139); ((-1)%Z, 234); ((-2)%Z, 141)] 1048576%Z 17592186044416%Z;
  Lin [45; 141] [140; 235; 143] 1%Z [((-1)%Z, 45); (1%Z, 141); ((-1)%Z, 235); ((-2)%Z, 143)] 524288%Z 35184372088832%Z;
  Lin [46; 143] [142; 236; 145] 1%Z [((-1)%Z, 46); (1%Z, 143); ((-1)%Z, 236); ((-2)%Z, 145)] 262144%Z 70368744177664%Z;
  Lin [47; 145] [144; 237; 147] 1%Z [((-1)%Z, 47); (1%Z, 145); ((-1)%Z, 237); ((-2)%Z, 147)] 131072%Z 140737488355328%Z;
  Lin [48; 147] [146; 238; 151] 1%Z [((-1)%Z, 48); (1%Z, 147); ((-1)%Z, 238); ((-2)%Z, 151)] 65536%Z 281474976710656%Z;
  Lin [49; 151] [150; 239; 153] 1%Z [((-1)%Z, 49); (1%Z, 151); ((-1)%Z, 239); ((-2)%Z, 153)] 32768%Z 562949953421312%Z;
  Lin [50; 153] [152; 240; 155] 1%Z [((-1)%Z, 50); (1%Z, 153); ((-1)%Z, 240); ((-2)%Z, 155)] 16384%Z 1125899906842624%Z;
  Lin [51; 155] [154; 241; 157] 1%Z [((-1)%Z, 51); (1%Z, 155); ((-1)%Z, 241); ((-2)%Z, 157)] 8192%Z 2251799813685248%Z;
  Lin [52; 157] [156; 242; 159] 1%Z [((-1)%Z, 52); (1%Z, 157); ((-1)%Z, 242); ((-2)%Z, 159)] 4096%Z 4503599627370496%Z;
  Lin [53; 159] [158; 243; 161] 1%Z [((-1)%Z, 53); (1%Z, 159); ((-1)%Z, 243); ((-2)%Z, 161)] 2048%Z 9007199254740992%Z;
  Lin [54; 161] [160; 244; 163] 1%Z [((-1)%Z, 54); (1%Z, 161); ((-1)%Z, 244); ((-2)%Z, 163)] 1024%Z 18014398509481984%Z;
  Lin [55; 163] [162; 245; 165] 1%Z [((-1)%Z, 55); (1%Z, 163); ((-1)%Z, 245); ((-2)%Z, 165)] 512%Z 36028797018963968%Z;
  Lin [56; 165] [164; 246; 167] 1%Z [((-1)%Z, 56); (1%Z, 165); ((-1)%Z, 246); ((-2)%Z, 167)] 256%Z 72057594037927936%Z;
  Lin [57; 167] [166; 247; 169] 1%Z [((-1)%Z, 57); (1%Z, 167); ((-1)%Z, 247); ((-2)%Z, 169)] 128%Z 144115188075855872%Z;
  Lin [58; 169] [168; 248; 173] 1%Z [((-1)%Z, 58); (1%Z, 169); ((-1)%Z, 248); ((-2)%Z, 173)] 64%Z 288230376151711744%Z;
  Lin [59; 173] [172; 249; 175] 1%Z [((-1)%Z, 59); (1%Z, 173); ((-1)%Z, 249); ((-2)%Z, 175)] 32%Z 576460752303423488%Z;
  Lin [60; 175] [174; 250; 177] 1%Z [((-1)%Z, 60); (1%Z, 175); ((-1)%Z, 250); ((-2)%Z, 177)] 16%Z 1152921504606846976%Z;
  Lin [61; 177] [176; 251; 178] 1%Z [((-1)%Z, 61); (1%Z, 177); ((-1)%Z, 251); ((-2)%Z, 178)] 8%Z 2305843009213693952%Z;
  Lin [62; 178] [179; 252; 180] 1%Z [((-1)%Z, 62); (1%Z, 178); ((-1)%Z, 252); ((-2)%Z, 180)] 4%Z 4611686018427387904%Z;
  Lin [63; 180] [181; 253] 1%Z [((-1)%Z, 63); (1%Z, 180); ((-1)%Z, 253)] 2%Z 9223372036854775808%Z].
Definition neg64_facts : list lin_fact := concat [neg64_facts_0].
