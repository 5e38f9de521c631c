(** Generated by /verif/tools/gen_netlists.py: a certificate for the netlist divide64, checked in Coq. *)
From Verif Require Import Rows.
Open Scope N_scope.
Open Scope list_scope.

Definition divide64_neg_a : list lin_fact := [
  Lin [0] [17135] 2%Z [((-1)%Z, 0); ((-1)%Z, 0); ((-2)%Z, 17135)] 18446744073709551616%Z 1%Z;
  Lin [1; 17135] [17072; 16756; 17136; 4286; 4285; 17010] 1%Z [((-1)%Z, 1); ((-1)%Z, 16756); (1%Z, 17135); ((-2)%Z, 17010)] 9223372036854775808%Z 2%Z;
  Lin [2; 17010] [17073; 16757; 17137; 4284; 4283; 17011] 1%Z [((-1)%Z, 2); ((-1)%Z, 16757); (1%Z, 17010); ((-2)%Z, 17011)] 4611686018427387904%Z 4%Z;
  Lin [3; 17011] [17074; 16758; 17138; 4282; 4281; 17012] 1%Z [((-1)%Z, 3); ((-1)%Z, 16758); (1%Z, 17011); ((-2)%Z, 17012)] 2305843009213693952%Z 8%Z;
  Lin [4; 17012] [17075; 16759; 17139; 4280; 4279; 17013] 1%Z [((-1)%Z, 4); ((-1)%Z, 16759); (1%Z, 17012); ((-2)%Z, 17013)] 1152921504606846976%Z 16%Z;
  Lin [5; 17013] [17076; 16760; 17140; 4278; 4277; 17014] 1%Z [((-1)%Z, 5); ((-1)%Z, 16760); (1%Z, 17013); ((-2)%Z, 17014)] 576460752303423488%Z 32%Z;
  Lin [6; 17014] [17077; 16761; 17141; 4276; 4275; 17015] 1%Z [((-1)%Z, 6); ((-1)%Z, 16761); (1%Z, 17014); ((-2)%Z, 17015)] 288230376151711744%Z 64%Z;
  Lin [7; 17015] [17078; 16762; 17142; 4274; 4273; 17016] 1%Z [((-1)%Z, 7); ((-1)%Z, 16762); (1%Z, 17015); ((-2)%Z, 17016)] 144115188075855872%Z 128%Z;
  Lin [8; 17016] [17079; 16763; 17143; 4272; 4271; 17017] 1%Z [((-1)%Z, 8); ((-1)%Z, 16763); (1%Z, 17016); ((-2)%Z, 17017)] 72057594037927936%Z 256%Z;
  Lin [9; 17017] [17080; 16764; 17144; 4270; 4269; 17018] 1%Z [((-1)%Z, 9); ((-1)%Z, 16764); (1%Z, 17017); ((-2)%Z, 17018)] 36028797018963968%Z 512%Z;
  Lin [10; 17018] [17081; 16765; 17145; 4268; 4267; 17019] 1%Z [((-1)%Z, 10); ((-1)%Z, 16765); (1%Z, 17018); ((-2)%Z, 17019)] 18014398509481984%Z 1024%Z;
  Lin [11; 17019] [17082; 16766; 17146; 4266; 4265; 17020] 1%Z [((-1)%Z, 11); ((-1)%Z, 16766); (1%Z, 17019); ((-2)%Z, 17020)] 9007199254740992%Z 2048%Z;
  Lin [12; 17020] [17083; 16767; 17147; 4264; 4263; 17021] 1%Z [((-1)%Z, 12); ((-1)%Z, 16767); (1%Z, 17020); ((-2)%Z, 17021)] 4503599627370496%Z 4096%Z;
  Lin [13; 17021] [17084; 16768; 17148; 4262; 4261; 17022] 1%Z [((-1)%Z, 13); ((-1)%Z, 16768); (1%Z, 17021); ((-2)%Z, 17022)] 2251799813685248%Z 8192%Z;
  Lin [14; 17022] [17085; 16769; 17149; 4260; 4259; 17023] 1%Z [((-1)%Z, 14); ((-1)%Z, 16769); (1%Z, 17022); ((-2)%Z, 17023)] 1125899906842624%Z 16384%Z;
  Lin [15; 17023] [17086; 16770; 17150; 4258; 4257; 17024] 1%Z [((-1)%Z, 15); ((-1)%Z, 16770); (1%Z, 17023); ((-2)%Z, 17024)] 562949953421312%Z 32768%Z;
  Lin [16; 17024] [17087; 16771; 17151; 4256; 4255; 17025] 1%Z [((-1)%Z, 16); ((-1)%Z, 16771); (1%Z, 17024); ((-2)%Z, 17025)] 281474976710656%Z 65536%Z;
  Lin [17; 17025] [17088; 16772; 17152; 4254; 4253; 17026] 1%Z [((-1)%Z, 17); ((-1)%Z, 16772); (1%Z, 17025); ((-2)%Z, 17026)] 140737488355328%Z 131072%Z;
  Lin [18; 17026] [17089; 16773; 17153; 4252; 4251; 17027] 1%Z [((-1)%Z, 18); ((-1)%Z, 16773); (1%Z, 17026); ((-2)%Z, 17027)] 70368744177664%Z 262144%Z;
  Lin [19; 17027] [17090; 16774; 17154; 4250; 4249; 17028] 1%Z [((-1)%Z, 19); ((-1)%Z, 16774); (1%Z, 17027); ((-2)%Z, 17028)] 35184372088832%Z 524288%Z;
  Lin [20; 17028] [17091; 16775; 17155; 4248; 4247; 17029] 1%Z [((-1)%Z, 20); ((-1)%Z, 16775); (1%Z, 17028); ((-2)%Z, 17029)] 17592186044416%Z 1048576%Z;
  Lin [21; 17029] [17092; 16776; 17156; 4246; 4245; 17030] 1%Z [((-1)%Z, 21); ((-1)%Z, 16776); (1%Z, 17029); ((-2)%Z, 17030)] 8796093022208%Z 2097152%Z;
  Lin [22; 17030] [17093; 16777; 17157; 4244; 4243; 17031] 1%Z [((-1)%Z, 22); ((-1)%Z, 16777); (1%Z, 17030); ((-2)%Z, 17031)] 4398046511104%Z 4194304%Z;
  Lin [23; 17031] [17094; 16778; 17158; 4242; 4241; 17032] 1%Z [((-1)%Z, 23); ((-1)%Z, 16778); (1%Z, 17031); ((-2)%Z, 17032)] 2199023255552%Z 8388608%Z;
  Lin [24; 17032] [17095; 16779; 17159; 4240; 4239; 17033] 1%Z [((-1)%Z, 24); ((-1)%Z, 16779); (1%Z, 17032); ((-2)%Z, 17033)] 1099511627776%Z 16777216%Z;
  Lin [25; 17033] [17096; 16780; 17160; 4238; 4237; 17034] 1%Z [((-1)%Z, 25); ((-1)%Z, 16780); (1%Z, 17033); ((-2)%Z, 17034)] 549755813888%Z 33554432%Z;
  Lin [26; 17034] [17097; 16781; 17161; 4236; 4235; 17035] 1%Z [((-1)%Z, 26); ((-1)%Z, 16781); (1%Z, 17034); ((-2)%Z, 17035)] 274877906944%Z 67108864%Z;
  Lin [27; 17035] [17098; 16782; 17162; 4234; 4233; 17036] 1%Z [((-1)%Z, 27); ((-1)%Z, 16782); (1%Z, 17035); ((-2)%Z, 17036)] 137438953472%Z 134217728%Z;
  Lin [28; 17036] [17099; 16783; 17163; 4232; 4231; 17037] 1%Z [((-1)%Z, 28); ((-1)%Z, 16783); (1%Z, 17036); ((-2)%Z, 17037)] 68719476736%Z 268435456%Z;
  Lin [29; 17037] [17100; 16784; 17164; 4230; 4229; 17038] 1%Z [((-1)%Z, 29); ((-1)%Z, 16784); (1%Z, 17037); ((-2)%Z, 17038)] 34359738368%Z 536870912%Z;
  Lin [30; 17038] [17101; 16785; 17165; 4228; 4227; 17039] 1%Z [((-1)%Z, 30); ((-1)%Z, 16785); (1%Z, 17038); ((-2)%Z, 17039)] 17179869184%Z 1073741824%Z;
  Lin [31; 17039] [17102; 16786; 17166; 4226; 4225; 17040] 1%Z [((-1)%Z, 31); ((-1)%Z, 16786); (1%Z, 17039); ((-2)%Z, 17040)] 8589934592%Z 2147483648%Z;
  Lin [32; 17040] [17103; 16787; 17167; 4224; 4223; 17041] 1%Z [((-1)%Z, 32); ((-1)%Z, 16787); (1%Z, 17040); ((-2)%Z, 17041)] 4294967296%Z 4294967296%Z;
  Lin [33; 17041] [17104; 16788; 17168; 4222; 4221; 17042] 1%Z [((-1)%Z, 33); ((-1)%Z, 16788); (1%Z, 17041); ((-2)%Z, 17042)] 2147483648%Z 8589934592%Z;
  Lin [34; 17042] [17105; 16789; 17169; 4220; 4219; 17043] 1%Z [((-1)%Z, 34); ((-1)%Z, 16789); (1%Z, 17042); ((-2)%Z, 17043)] 1073741824%Z 17179869184%Z;
  Lin [35; 17043] [17106; 16790; 17170; 4218; 4217; 17044] 1%Z [((-1)%Z, 35); ((-1)%Z, 16790); (1%Z, 17043); ((-2)%Z, 17044)] 536870912%Z 34359738368%Z;
  Lin [36; 17044] [17107; 16791; 17171; 4216; 4215; 17045] 1%Z [((-1)%Z, 36); ((-1)%Z, 16791); (1%Z, 17044); ((-2)%Z, 17045)] 268435456%Z 68719476736%Z;
  Lin [37; 17045] [17108; 16792; 17172; 4214; 4213; 17046] 1%Z [((-1)%Z, 37); ((-1)%Z, 16792); (1%Z, 17045); ((-2)%Z, 17046)] 134217728%Z 137438953472%Z;
  Lin [38; 17046] [17109; 16793; 17173; 4212; 4211; 17047] 1%Z [((-1)%Z, 38); ((-1)%Z, 16793); (1%Z, 17046); ((-2)%Z, 17047)] 67108864%Z 274877906944%Z;
  Lin [39; 17047] [17110; 16794; 17174; 4210; 4209; 17048] 1%Z [((-1)%Z, 39); ((-1)%Z, 16794); (1%Z, 17047); ((-2)%Z, 17048)] 33554432%Z 549755813888%Z;
  Lin [40; 17048] [17111; 16795; 17175; 4208; 4207; 17049] 1%Z [((-1)%Z, 40); ((-1)%Z, 16795); (1%Z, 17048); ((-2)%Z, 17049)] 16777216%Z 1099511627776%Z;
  Lin [41; 17049] [17112; 16796; 17176; 4206; 4205; 17050] 1%Z [((-1)%Z, 41); ((-1)%Z, 16796); (1%Z, 17049); ((-2)%Z, 17050)] 8388608%Z 2199023255552%Z;
  Lin [42; 17050] [17113; 16797; 17177; 4204; 4203; 17051] 1%Z [((-1)%Z, 42); ((-1)%Z, 16797); (1%Z, 17050); ((-2)%Z, 17051)] 4194304%Z 4398046511104%Z;
  Lin [43; 17051] [17114; 16798; 17178; 4202; 4201; 17052] 1%Z [((-1)%Z, 43); ((-1)%Z, 16798); (1%Z, 17051); ((-2)%Z, 17052)] 2097152%Z 8796093022208%Z;
  Lin [44; 17052] [17115; 16799; 17179; 4200; 4199; 17053] 1%Z [((-1)%Z, 44); ((-1)%Z, 16799); (1%Z, 17052); ((-2)%Z, 17053)] 1048576%Z 17592186044416%Z;
  Lin [45; 17053] [17116; 16800; 17180; 4198; 4197; 17054] 1%Z [((-1)%Z, 45); ((-1)%Z, 16800); (1%Z, 17053); ((-2)%Z, 17054)] 524288%Z 35184372088832%Z;
  Lin [46; 17054] [17117; 16801; 17181; 4196; 4195; 17055] 1%Z [((-1)%Z, 46); ((-1)%Z, 16801); (1%Z, 17054); ((-2)%Z, 17055)] 262144%Z 70368744177664%Z;
  Lin [47; 17055] [17118; 16802; 17182; 4194; 4193; 17056] 1%Z [((-1)%Z, 47); ((-1)%Z, 16802); (1%Z, 17055); ((-2)%Z, 17056)] 131072%Z 140737488355328%Z;
  Lin [48; 17056] [17119; 16803; 17183; 4192; 4191; 17057] 1%Z [((-1)%Z, 48); ((-1)%Z, 16803); (1%Z, 17056); ((-2)%Z, 17057)] 65536%Z 281474976710656%Z;
  Lin [49; 17057] [17120; 16804; 17184; 4190; 4189; 17058] 1%Z [((-1)%Z, 49); ((-1)%Z, 16804); (1%Z, 17057); ((-2)%Z, 17058)] 32768%Z 562949953421312%Z;
  Lin [50; 17058] [17121; 16805; 17185; 4188; 4187; 17059] 1%Z [((-1)%Z, 50); ((-1)%Z, 16805); (1%Z, 17058); ((-2)%Z, 17059)] 16384%Z 1125899906842624%Z;
  Lin [51; 17059] [17122; 16806; 17186; 4186; 4185; 17060] 1%Z [((-1)%Z, 51); ((-1)%Z, 16806); (1%Z, 17059); ((-2)%Z, 17060)] 8192%Z 2251799813685248%Z;
  Lin [52; 17060] [17123; 16807; 17187; 4184; 4183; 17061] 1%Z [((-1)%Z, 52); ((-1)%Z, 16807); (1%Z, 17060); ((-2)%Z, 17061)] 4096%Z 4503599627370496%Z;
  Lin [53; 17061] [17124; 16808; 17188; 4182; 4181; 17062] 1%Z [((-1)%Z, 53); ((-1)%Z, 16808); (1%Z, 17061); ((-2)%Z, 17062)] 2048%Z 9007199254740992%Z;
  Lin [54; 17062] [17125; 16809; 17189; 4180; 4179; 17063] 1%Z [((-1)%Z, 54); ((-1)%Z, 16809); (1%Z, 17062); ((-2)%Z, 17063)] 1024%Z 18014398509481984%Z;
  Lin [55; 17063] [17126; 16810; 17190; 4178; 4177; 17064] 1%Z [((-1)%Z, 55); ((-1)%Z, 16810); (1%Z, 17063); ((-2)%Z, 17064)] 512%Z 36028797018963968%Z;
  Lin [56; 17064] [17127; 16811; 17191; 4176; 4175; 17065] 1%Z [((-1)%Z, 56); ((-1)%Z, 16811); (1%Z, 17064); ((-2)%Z, 17065)] 256%Z 72057594037927936%Z;
  Lin [57; 17065] [17128; 16812; 17192; 4174; 4173; 17066] 1%Z [((-1)%Z, 57); ((-1)%Z, 16812); (1%Z, 17065); ((-2)%Z, 17066)] 128%Z 144115188075855872%Z;
  Lin [58; 17066] [17129; 16813; 17193; 4172; 4171; 17067] 1%Z [((-1)%Z, 58); ((-1)%Z, 16813); (1%Z, 17066); ((-2)%Z, 17067)] 64%Z 288230376151711744%Z;
  Lin [59; 17067] [17130; 16814; 17194; 4170; 4169; 17068] 1%Z [((-1)%Z, 59); ((-1)%Z, 16814); (1%Z, 17067); ((-2)%Z, 17068)] 32%Z 576460752303423488%Z;
  Lin [60; 17068] [17131; 16815; 17195; 4168; 4167; 17069] 1%Z [((-1)%Z, 60); ((-1)%Z, 16815); (1%Z, 17068); ((-2)%Z, 17069)] 16%Z 1152921504606846976%Z;
  Lin [61; 17069] [17132; 16816; 17196; 4166; 4165; 17070] 1%Z [((-1)%Z, 61); ((-1)%Z, 16816); (1%Z, 17069); ((-2)%Z, 17070)] 8%Z 2305843009213693952%Z;
  Lin [62; 17070] [17133; 16817; 17197; 4164; 4163; 17071] 1%Z [((-1)%Z, 62); ((-1)%Z, 16817); (1%Z, 17070); ((-2)%Z, 17071)] 4%Z 4611686018427387904%Z;
  Lin [63; 17071] [17134; 16818] 1%Z [((-1)%Z, 63); ((-1)%Z, 16818); (1%Z, 17071)] 2%Z 9223372036854775808%Z].
Definition divide64_na : list N := [0; 16756; 16757; 16758; 16759; 16760; 16761; 16762; 16763; 16764; 16765; 16766; 16767; 16768; 16769; 16770; 16771; 16772; 16773; 16774; 16775; 16776; 16777; 16778; 16779; 16780; 16781; 16782; 16783; 16784; 16785; 16786; 16787; 16788; 16789; 16790; 16791; 16792; 16793; 16794; 16795; 16796; 16797; 16798; 16799; 16800; 16801; 16802; 16803; 16804; 16805; 16806; 16807; 16808; 16809; 16810; 16811; 16812; 16813; 16814; 16815; 16816; 16817; 16818].
Definition divide64_neg_b : list lin_fact := [
  Lin [64] [29738] 2%Z [((-1)%Z, 64); ((-1)%Z, 64); ((-2)%Z, 29738)] 18446744073709551616%Z 1%Z;
  Lin [65; 29738] [29675; 16883; 29739; 16379; 16378; 29613] 1%Z [((-1)%Z, 65); ((-1)%Z, 16883); (1%Z, 29738); ((-2)%Z, 29613)] 9223372036854775808%Z 2%Z;
  Lin [66; 29613] [29676; 16884; 29740; 16377; 16376; 29614] 1%Z [((-1)%Z, 66); ((-1)%Z, 16884); (1%Z, 29613); ((-2)%Z, 29614)] 4611686018427387904%Z 4%Z;
  Lin [67; 29614] [29677; 16885; 29741; 16375; 16374; 29615] 1%Z [((-1)%Z, 67); ((-1)%Z, 16885); (1%Z, 29614); ((-2)%Z, 29615)] 2305843009213693952%Z 8%Z;
  Lin [68; 29615] [29678; 16886; 29742; 16373; 16372; 29616] 1%Z [((-1)%Z, 68); ((-1)%Z, 16886); (1%Z, 29615); ((-2)%Z, 29616)] 1152921504606846976%Z 16%Z;
  Lin [69; 29616] [29679; 16887; 29743; 16371; 16370; 29617] 1%Z [((-1)%Z, 69); ((-1)%Z, 16887); (1%Z, 29616); ((-2)%Z, 29617)] 576460752303423488%Z 32%Z;
  Lin [70; 29617] [29680; 16888; 29744; 16369; 16368; 29618] 1%Z [((-1)%Z, 70); ((-1)%Z, 16888); (1%Z, 29617); ((-2)%Z, 29618)] 288230376151711744%Z 64%Z;
  Lin [71; 29618] [29681; 16889; 29745; 16367; 16366; 29619] 1%Z [((-1)%Z, 71); ((-1)%Z, 16889); (1%Z, 29618); ((-2)%Z, 29619)] 144115188075855872%Z 128%Z;
  Lin [72; 29619] [29682; 16890; 29746; 16365; 16364; 29620] 1%Z [((-1)%Z, 72); ((-1)%Z, 16890); (1%Z, 29619); ((-2)%Z, 29620)] 72057594037927936%Z 256%Z;
  Lin [73; 29620] [29683; 16891; 29747; 16363; 16362; 29621] 1%Z [((-1)%Z, 73); ((-1)%Z, 16891); (1%Z, 29620); ((-2)%Z, 29621)] 36028797018963968%Z 512%Z;
  Lin [74; 29621] [29684; 16892; 29748; 16361; 16360; 29622] 1%Z [((-1)%Z, 74); ((-1)%Z, 16892); (1%Z, 29621); ((-2)%Z, 29622)] 18014398509481984%Z 1024%Z;
  Lin [75; 29622] [29685; 16893; 29749; 16359; 16358; 29623] 1%Z [((-1)%Z, 75); ((-1)%Z, 16893); (1%Z, 29622); ((-2)%Z, 29623)] 9007199254740992%Z 2048%Z;
  Lin [76; 29623] [29686; 16894; 29750; 16357; 16356; 29624] 1%Z [((-1)%Z, 76); ((-1)%Z, 16894); (1%Z, 29623); ((-2)%Z, 29624)] 4503599627370496%Z 4096%Z;
  Lin [77; 29624] [29687; 16895; 29751; 16355; 16354; 29625] 1%Z [((-1)%Z, 77); ((-1)%Z, 16895); (1%Z, 29624); ((-2)%Z, 29625)] 2251799813685248%Z 8192%Z;
  Lin [78; 29625] [29688; 16896; 29752; 16353; 16352; 29626] 1%Z [((-1)%Z, 78); ((-1)%Z, 16896); (1%Z, 29625); ((-2)%Z, 29626)] 1125899906842624%Z 16384%Z;
  Lin [79; 29626] [29689; 16897; 29753; 16351; 16350; 29627] 1%Z [((-1)%Z, 79); ((-1)%Z, 16897); (1%Z, 29626); ((-2)%Z, 29627)] 562949953421312%Z 32768%Z;
  Lin [80; 29627] [29690; 16898; 29754; 16349; 16348; 29628] 1%Z [((-1)%Z, 80); ((-1)%Z, 16898); (1%Z, 29627); ((-2)%Z, 29628)] 281474976710656%Z 65536%Z;
  Lin [81; 29628] [29691; 16899; 29755; 16347; 16346; 29629] 1%Z [((-1)%Z, 81); ((-1)%Z, 16899); (1%Z, 29628); ((-2)%Z, 29629)] 140737488355328%Z 131072%Z;
  Lin [82; 29629] [29692; 16900; 29756; 16345; 16344; 29630] 1%Z [((-1)%Z, 82); ((-1)%Z, 16900); (1%Z, 29629); ((-2)%Z, 29630)] 70368744177664%Z 262144%Z;
  Lin [83; 29630] [29693; 16901; 29757; 16343; 16342; 29631] 1%Z [((-1)%Z, 83); ((-1)%Z, 16901); (1%Z, 29630); ((-2)%Z, 29631)] 35184372088832%Z 524288%Z;
  Lin [84; 29631] [29694; 16902; 29758; 16341; 16340; 29632] 1%Z [((-1)%Z, 84); ((-1)%Z, 16902); (1%Z, 29631); ((-2)%Z, 29632)] 17592186044416%Z 1048576%Z;
  Lin [85; 29632] [29695; 16903; 29759; 16339; 16338; 29633] 1%Z [((-1)%Z, 85); ((-1)%Z, 16903); (1%Z, 29632); ((-2)%Z, 29633)] 8796093022208%Z 2097152%Z;
  Lin [86; 29633] [29696; 16904; 29760; 16337; 16336; 29634] 1%Z [((-1)%Z, 86); ((-1)%Z, 16904); (1%Z, 29633); ((-2)%Z, 29634)] 4398046511104%Z 4194304%Z;
  Lin [87; 29634] [29697; 16905; 29761; 16335; 16334; 29635] 1%Z [((-1)%Z, 87); ((-1)%Z, 16905); (1%Z, 29634); ((-2)%Z, 29635)] 2199023255552%Z 8388608%Z;
  Lin [88; 29635] [29698; 16906; 29762; 16333; 16332; 29636] 1%Z [((-1)%Z, 88); ((-1)%Z, 16906); (1%Z, 29635); ((-2)%Z, 29636)] 1099511627776%Z 16777216%Z;
  Lin [89; 29636] [29699; 16907; 29763; 16331; 16330; 29637] 1%Z [((-1)%Z, 89); ((-1)%Z, 16907); (1%Z, 29636); ((-2)%Z, 29637)] 549755813888%Z 33554432%Z;
  Lin [90; 29637] [29700; 16908; 29764; 16329; 16328; 29638] 1%Z [((-1)%Z, 90); ((-1)%Z, 16908); (1%Z, 29637); ((-2)%Z, 29638)] 274877906944%Z 67108864%Z;
  Lin [91; 29638] [29701; 16909; 29765; 16327; 16326; 29639] 1%Z [((-1)%Z, 91); ((-1)%Z, 16909); (1%Z, 29638); ((-2)%Z, 29639)] 137438953472%Z 134217728%Z;
  Lin [92; 29639] [29702; 16910; 29766; 16325; 16324; 29640] 1%Z [((-1)%Z, 92); ((-1)%Z, 16910); (1%Z, 29639); ((-2)%Z, 29640)] 68719476736%Z 268435456%Z;
  Lin [93; 29640] [29703; 16911; 29767; 16323; 16322; 29641] 1%Z [((-1)%Z, 93); ((-1)%Z, 16911); (1%Z, 29640); ((-2)%Z, 29641)] 34359738368%Z 536870912%Z;
  Lin [94; 29641] [29704; 16912; 29768; 16321; 16320; 29642] 1%Z [((-1)%Z, 94); ((-1)%Z, 16912); (1%Z, 29641); ((-2)%Z, 29642)] 17179869184%Z 1073741824%Z;
  Lin [95; 29642] [29705; 16913; 29769; 16319; 16318; 29643] 1%Z [((-1)%Z, 95); ((-1)%Z, 16913); (1%Z, 29642); ((-2)%Z, 29643)] 8589934592%Z 2147483648%Z;
  Lin [96; 29643] [29706; 16914; 29770; 16317; 16316; 29644] 1%Z [((-1)%Z, 96); ((-1)%Z, 16914); (1%Z, 29643); ((-2)%Z, 29644)] 4294967296%Z 4294967296%Z;
  Lin [97; 29644] [29707; 16915; 29771; 16315; 16314; 29645] 1%Z [((-1)%Z, 97); ((-1)%Z, 16915); (1%Z, 29644); ((-2)%Z, 29645)] 2147483648%Z 8589934592%Z;
  Lin [98; 29645] [29708; 16916; 29772; 16313; 16312; 29646] 1%Z [((-1)%Z, 98); ((-1)%Z, 16916); (1%Z, 29645); ((-2)%Z, 29646)] 1073741824%Z 17179869184%Z;
  Lin [99; 29646] [29709; 16917; 29773; 16311; 16310; 29647] 1%Z [((-1)%Z, 99); ((-1)%Z, 16917); (1%Z, 29646); ((-2)%Z, 29647)] 536870912%Z 34359738368%Z;
  Lin [100; 29647] [29710; 16918; 29774; 16309; 16308; 29648] 1%Z [((-1)%Z, 100); ((-1)%Z, 16918); (1%Z, 29647); ((-2)%Z, 29648)] 268435456%Z 68719476736%Z;
  Lin [101; 29648] [29711; 16919; 29775; 16307; 16306; 29649] 1%Z [((-1)%Z, 101); ((-1)%Z, 16919); (1%Z, 29648); ((-2)%Z, 29649)] 134217728%Z 137438953472%Z;
  Lin [102; 29649] [29712; 16920; 29776; 16305; 16304; 29650] 1%Z [((-1)%Z, 102); ((-1)%Z, 16920); (1%Z, 29649); ((-2)%Z, 29650)] 67108864%Z 274877906944%Z;
  Lin [103; 29650] [29713; 16921; 29777; 16303; 16302; 29651] 1%Z [((-1)%Z, 103); ((-1)%Z, 16921); (1%Z, 29650); ((-2)%Z, 29651)] 33554432%Z 549755813888%Z;
  Lin [104; 29651] [29714; 16922; 29778; 16301; 16300; 29652] 1%Z [((-1)%Z, 104); ((-1)%Z, 16922); (1%Z, 29651); ((-2)%Z, 29652)] 16777216%Z 1099511627776%Z;
  Lin [105; 29652] [29715; 16923; 29779; 16299; 16298; 29653] 1%Z [((-1)%Z, 105); ((-1)%Z, 16923); (1%Z, 29652); ((-2)%Z, 29653)] 8388608%Z 2199023255552%Z;
  Lin [106; 29653] [29716; 16924; 29780; 16297; 16296; 29654] 1%Z [((-1)%Z, 106); ((-1)%Z, 16924); (1%Z, 29653); ((-2)%Z, 29654)] 4194304%Z 4398046511104%Z;
  Lin [107; 29654] [29717; 16925; 29781; 16295; 16294; 29655] 1%Z [((-1)%Z, 107); ((-1)%Z, 16925); (1%Z, 29654); ((-2)%Z, 29655)] 2097152%Z 8796093022208%Z;
  Lin [108; 29655] [29718; 16926; 29782; 16293; 16292; 29656] 1%Z [((-1)%Z, 108); ((-1)%Z, 16926); (1%Z, 29655); ((-2)%Z, 29656)] 1048576%Z 17592186044416%Z;
  Lin [109; 29656] [29719; 16927; 29783; 16291; 16290; 29657] 1%Z [((-1)%Z, 109); ((-1)%Z, 16927); (1%Z, 29656); ((-2)%Z, 29657)] 524288%Z 35184372088832%Z;
  Lin [110; 29657] [29720; 16928; 29784; 16289; 16288; 29658] 1%Z [((-1)%Z, 110); ((-1)%Z, 16928); (1%Z, 29657); ((-2)%Z, 29658)] 262144%Z 70368744177664%Z;
  Lin [111; 29658] [29721; 16929; 29785; 16287; 16286; 29659] 1%Z [((-1)%Z, 111); ((-1)%Z, 16929); (1%Z, 29658); ((-2)%Z, 29659)] 131072%Z 140737488355328%Z;
  Lin [112; 29659] [29722; 16930; 29786; 16285; 16284; 29660] 1%Z [((-1)%Z, 112); ((-1)%Z, 16930); (1%Z, 29659); ((-2)%Z, 29660)] 65536%Z 281474976710656%Z;
  Lin [113; 29660] [29723; 16931; 29787; 16283; 16282; 29661] 1%Z [((-1)%Z, 113); ((-1)%Z, 16931); (1%Z, 29660); ((-2)%Z, 29661)] 32768%Z 562949953421312%Z;
  Lin [114; 29661] [29724; 16932; 29788; 16281; 16280; 29662] 1%Z [((-1)%Z, 114); ((-1)%Z, 16932); (1%Z, 29661); ((-2)%Z, 29662)] 16384%Z 1125899906842624%Z;
  Lin [115; 29662] [29725; 16933; 29789; 16279; 16278; 29663] 1%Z [((-1)%Z, 115); ((-1)%Z, 16933); (1%Z, 29662); ((-2)%Z, 29663)] 8192%Z 2251799813685248%Z;
  Lin [116; 29663] [29726; 16934; 29790; 16277; 16276; 29664] 1%Z [((-1)%Z, 116); ((-1)%Z, 16934); (1%Z, 29663); ((-2)%Z, 29664)] 4096%Z 4503599627370496%Z;
  Lin [117; 29664] [29727; 16935; 29791; 16275; 16274; 29665] 1%Z [((-1)%Z, 117); ((-1)%Z, 16935); (1%Z, 29664); ((-2)%Z, 29665)] 2048%Z 9007199254740992%Z;
  Lin [118; 29665] [29728; 16936; 29792; 16273; 16272; 29666] 1%Z [((-1)%Z, 118); ((-1)%Z, 16936); (1%Z, 29665); ((-2)%Z, 29666)] 1024%Z 18014398509481984%Z;
  Lin [119; 29666] [29729; 16937; 29793; 16271; 16270; 29667] 1%Z [((-1)%Z, 119); ((-1)%Z, 16937); (1%Z, 29666); ((-2)%Z, 29667)] 512%Z 36028797018963968%Z;
  Lin [120; 29667] [29730; 16938; 29794; 16269; 16268; 29668] 1%Z [((-1)%Z, 120); ((-1)%Z, 16938); (1%Z, 29667); ((-2)%Z, 29668)] 256%Z 72057594037927936%Z;
  Lin [121; 29668] [29731; 16939; 29795; 16267; 16266; 29669] 1%Z [((-1)%Z, 121); ((-1)%Z, 16939); (1%Z, 29668); ((-2)%Z, 29669)] 128%Z 144115188075855872%Z;
  Lin [122; 29669] [29732; 16940; 29796; 16265; 16264; 29670] 1%Z [((-1)%Z, 122); ((-1)%Z, 16940); (1%Z, 29669); ((-2)%Z, 29670)] 64%Z 288230376151711744%Z;
  Lin [123; 29670] [29733; 16941; 29797; 16263; 16262; 29671] 1%Z [((-1)%Z, 123); ((-1)%Z, 16941); (1%Z, 29670); ((-2)%Z, 29671)] 32%Z 576460752303423488%Z;
  Lin [124; 29671] [29734; 16942; 29798; 16261; 16260; 29672] 1%Z [((-1)%Z, 124); ((-1)%Z, 16942); (1%Z, 29671); ((-2)%Z, 29672)] 16%Z 1152921504606846976%Z;
  Lin [125; 29672] [29735; 16943; 29799; 16259; 16258; 29673] 1%Z [((-1)%Z, 125); ((-1)%Z, 16943); (1%Z, 29672); ((-2)%Z, 29673)] 8%Z 2305843009213693952%Z;
  Lin [126; 29673] [29736; 16944; 29800; 16257; 16256; 29674] 1%Z [((-1)%Z, 126); ((-1)%Z, 16944); (1%Z, 29673); ((-2)%Z, 29674)] 4%Z 4611686018427387904%Z;
  Lin [127; 29674] [29737; 16945] 1%Z [((-1)%Z, 127); ((-1)%Z, 16945); (1%Z, 29674)] 2%Z 9223372036854775808%Z].
Definition divide64_nb : list N := [64; 16883; 16884; 16885; 16886; 16887; 16888; 16889; 16890; 16891; 16892; 16893; 16894; 16895; 16896; 16897; 16898; 16899; 16900; 16901; 16902; 16903; 16904; 16905; 16906; 16907; 16908; 16909; 16910; 16911; 16912; 16913; 16914; 16915; 16916; 16917; 16918; 16919; 16920; 16921; 16922; 16923; 16924; 16925; 16926; 16927; 16928; 16929; 16930; 16931; 16932; 16933; 16934; 16935; 16936; 16937; 16938; 16939; 16940; 16941; 16942; 16943; 16944; 16945].
Definition divide64_A : list N := [16819; 16820; 16821; 16822; 16823; 16824; 16825; 16826; 16827; 16828; 16829; 16830; 16831; 16832; 16833; 16834; 16835; 16836; 16837; 16838; 16839; 16840; 16841; 16842; 16843; 16844; 16845; 16846; 16847; 16848; 16849; 16850; 16851; 16852; 16853; 16854; 16855; 16856; 16857; 16858; 16859; 16860; 16861; 16862; 16863; 16864; 16865; 16866; 16867; 16868; 16869; 16870; 16871; 16872; 16873; 16874; 16875; 16876; 16877; 16878; 16879; 16880; 16881; 16882].
Definition divide64_abs_a : list cut := [([63; 0], [17262; 4287; 17198; 16819]); ([63; 16756; 1], [17263; 4287; 17199; 16820]); ([63; 16757; 2], [17264; 4287; 17200; 16821]); ([63; 16758; 3], [17265; 4287; 17201; 16822]); ([63; 16759; 4], [17266; 4287; 17202; 16823]); ([63; 16760; 5], [17267; 4287; 17203; 16824]); ([63; 16761; 6], [17268; 4287; 17204; 16825]); ([63; 16762; 7], [17269; 4287; 17205; 16826]); ([63; 16763; 8], [17270; 4287; 17206; 16827]); ([63; 16764; 9], [17271; 4287; 17207; 16828]); ([63; 16765; 10], [17272; 4287; 17208; 16829]); ([63; 16766; 11], [17273; 4287; 17209; 16830]); ([63; 16767; 12], [17274; 4287; 17210; 16831]); ([63; 16768; 13], [17275; 4287; 17211; 16832]); ([63; 16769; 14], [17276; 4287; 17212; 16833]); ([63; 16770; 15], [17277; 4287; 17213; 16834]); ([63; 16771; 16], [17278; 4287; 17214; 16835]); ([63; 16772; 17], [17279; 4287; 17215; 16836]); ([63; 16773; 18], [17280; 4287; 17216; 16837]); ([63; 16774; 19], [17281; 4287; 17217; 16838]); ([63; 16775; 20], [17282; 4287; 17218; 16839]); ([63; 16776; 21], [17283; 4287; 17219; 16840]); ([63; 16777; 22], [17284; 4287; 17220; 16841]); ([63; 16778; 23], [17285; 4287; 17221; 16842]); ([63; 16779; 24], [17286; 4287; 17222; 16843]); ([63; 16780; 25], [17287; 4287; 17223; 16844]); ([63; 16781; 26], [17288; 4287; 17224; 16845]); ([63; 16782; 27], [17289; 4287; 17225; 16846]); ([63; 16783; 28], [17290; 4287; 17226; 16847]); ([63; 16784; 29], [17291; 4287; 17227; 16848]); ([63; 16785; 30], [17292; 4287; 17228; 16849]); ([63; 16786; 31], [17293; 4287; 17229; 16850]); ([63; 16787; 32], [17294; 4287; 17230; 16851]); ([63; 16788; 33], [17295; 4287; 17231; 16852]); ([63; 16789; 34], [17296; 4287; 17232; 16853]); ([63; 16790; 35], [17297; 4287; 17233; 16854]); ([63; 16791; 36], [17298; 4287; 17234; 16855]); ([63; 16792; 37], [17299; 4287; 17235; 16856]); ([63; 16793; 38], [17300; 4287; 17236; 16857]); ([63; 16794; 39], [17301; 4287; 17237; 16858]); ([63; 16795; 40], [17302; 4287; 17238; 16859]); ([63; 16796; 41], [17303; 4287; 17239; 16860]); ([63; 16797; 42], [17304; 4287; 17240; 16861]); ([63; 16798; 43], [17305; 4287; 17241; 16862]); ([63; 16799; 44], [17306; 4287; 17242; 16863]); ([63; 16800; 45], [17307; 4287; 17243; 16864]); ([63; 16801; 46], [17308; 4287; 17244; 16865]); ([63; 16802; 47], [17309; 4287; 17245; 16866]); ([63; 16803; 48], [17310; 4287; 17246; 16867]); ([63; 16804; 49], [17311; 4287; 17247; 16868]); ([63; 16805; 50], [17312; 4287; 17248; 16869]); ([63; 16806; 51], [17313; 4287; 17249; 16870]); ([63; 16807; 52], [17314; 4287; 17250; 16871]); ([63; 16808; 53], [17315; 4287; 17251; 16872]); ([63; 16809; 54], [17316; 4287; 17252; 16873]); ([63; 16810; 55], [17317; 4287; 17253; 16874]); ([63; 16811; 56], [17318; 4287; 17254; 16875]); ([63; 16812; 57], [17319; 4287; 17255; 16876]); ([63; 16813; 58], [17320; 4287; 17256; 16877]); ([63; 16814; 59], [17321; 4287; 17257; 16878]); ([63; 16815; 60], [17322; 4287; 17258; 16879]); ([63; 16816; 61], [17323; 4287; 17259; 16880]); ([63; 16817; 62], [17324; 4287; 17260; 16881]); ([63; 16818], [17325; 4287; 17261; 16882])].
Definition divide64_D : list N := [16946; 16947; 16948; 16949; 16950; 16951; 16952; 16953; 16954; 16955; 16956; 16957; 16958; 16959; 16960; 16961; 16962; 16963; 16964; 16965; 16966; 16967; 16968; 16969; 16970; 16971; 16972; 16973; 16974; 16975; 16976; 16977; 16978; 16979; 16980; 16981; 16982; 16983; 16984; 16985; 16986; 16987; 16988; 16989; 16990; 16991; 16992; 16993; 16994; 16995; 16996; 16997; 16998; 16999; 17000; 17001; 17002; 17003; 17004; 17005; 17006; 17007; 17008; 17009].
Definition divide64_abs_b : list cut := [([127; 64], [29549; 16255; 29485; 16946]); ([127; 16883; 65], [29550; 16255; 29486; 16947]); ([127; 16884; 66], [29551; 16255; 29487; 16948]); ([127; 16885; 67], [29552; 16255; 29488; 16949]); ([127; 16886; 68], [29553; 16255; 29489; 16950]); ([127; 16887; 69], [29554; 16255; 29490; 16951]); ([127; 16888; 70], [29555; 16255; 29491; 16952]); ([127; 16889; 71], [29556; 16255; 29492; 16953]); ([127; 16890; 72], [29557; 16255; 29493; 16954]); ([127; 16891; 73], [29558; 16255; 29494; 16955]); ([127; 16892; 74], [29559; 16255; 29495; 16956]); ([127; 16893; 75], [29560; 16255; 29496; 16957]); ([127; 16894; 76], [29561; 16255; 29497; 16958]); ([127; 16895; 77], [29562; 16255; 29498; 16959]); ([127; 16896; 78], [29563; 16255; 29499; 16960]); ([127; 16897; 79], [29564; 16255; 29500; 16961]); ([127; 16898; 80], [29565; 16255; 29501; 16962]); ([127; 16899; 81], [29566; 16255; 29502; 16963]); ([127; 16900; 82], [29567; 16255; 29503; 16964]); ([127; 16901; 83], [29568; 16255; 29504; 16965]); ([127; 16902; 84], [29569; 16255; 29505; 16966]); ([127; 16903; 85], [29570; 16255; 29506; 16967]); ([127; 16904; 86], [29571; 16255; 29507; 16968]); ([127; 16905; 87], [29572; 16255; 29508; 16969]); ([127; 16906; 88], [29573; 16255; 29509; 16970]); ([127; 16907; 89], [29574; 16255; 29510; 16971]); ([127; 16908; 90], [29575; 16255; 29511; 16972]); ([127; 16909; 91], [29576; 16255; 29512; 16973]); ([127; 16910; 92], [29577; 16255; 29513; 16974]); ([127; 16911; 93], [29578; 16255; 29514; 16975]); ([127; 16912; 94], [29579; 16255; 29515; 16976]); ([127; 16913; 95], [29580; 16255; 29516; 16977]); ([127; 16914; 96], [29581; 16255; 29517; 16978]); ([127; 16915; 97], [29582; 16255; 29518; 16979]); ([127; 16916; 98], [29583; 16255; 29519; 16980]); ([127; 16917; 99], [29584; 16255; 29520; 16981]); ([127; 16918; 100], [29585; 16255; 29521; 16982]); ([127; 16919; 101], [29586; 16255; 29522; 16983]); ([127; 16920; 102], [29587; 16255; 29523; 16984]); ([127; 16921; 103], [29588; 16255; 29524; 16985]); ([127; 16922; 104], [29589; 16255; 29525; 16986]); ([127; 16923; 105], [29590; 16255; 29526; 16987]); ([127; 16924; 106], [29591; 16255; 29527; 16988]); ([127; 16925; 107], [29592; 16255; 29528; 16989]); ([127; 16926; 108], [29593; 16255; 29529; 16990]); ([127; 16927; 109], [29594; 16255; 29530; 16991]); ([127; 16928; 110], [29595; 16255; 29531; 16992]); ([127; 16929; 111], [29596; 16255; 29532; 16993]); ([127; 16930; 112], [29597; 16255; 29533; 16994]); ([127; 16931; 113], [29598; 16255; 29534; 16995]); ([127; 16932; 114], [29599; 16255; 29535; 16996]); ([127; 16933; 115], [29600; 16255; 29536; 16997]); ([127; 16934; 116], [29601; 16255; 29537; 16998]); ([127; 16935; 117], [29602; 16255; 29538; 16999]); ([127; 16936; 118], [29603; 16255; 29539; 17000]); ([127; 16937; 119], [29604; 16255; 29540; 17001]); ([127; 16938; 120], [29605; 16255; 29541; 17002]); ([127; 16939; 121], [29606; 16255; 29542; 17003]); ([127; 16940; 122], [29607; 16255; 29543; 17004]); ([127; 16941; 123], [29608; 16255; 29544; 17005]); ([127; 16942; 124], [29609; 16255; 29545; 17006]); ([127; 16943; 125], [29610; 16255; 29546; 17007]); ([127; 16944; 126], [29611; 16255; 29547; 17008]); ([127; 16945], [29612; 16255; 29548; 17009])].
Definition divide64_neg_d : list lin_fact := [
  Lin [16946] [] 0%Z [((-1)%Z, 16946); ((-1)%Z, 16946); (2%Z, 16946)] 18446744073709551616%Z 1%Z;
  Lin [16947; 16946] [29864; 16755; 4410; 17326] 0%Z [((-1)%Z, 16947); ((-1)%Z, 29864); ((-1)%Z, 16946); (2%Z, 17326)] 9223372036854775808%Z 2%Z;
  Lin [16948; 17326] [4409; 16754; 4408; 17327] 0%Z [((-1)%Z, 16948); ((-1)%Z, 4409); ((-1)%Z, 17326); (2%Z, 17327)] 4611686018427387904%Z 4%Z;
  Lin [16949; 17327] [4407; 16753; 4406; 17328] 0%Z [((-1)%Z, 16949); ((-1)%Z, 4407); ((-1)%Z, 17327); (2%Z, 17328)] 2305843009213693952%Z 8%Z;
  Lin [16950; 17328] [4405; 16752; 4404; 17329] 0%Z [((-1)%Z, 16950); ((-1)%Z, 4405); ((-1)%Z, 17328); (2%Z, 17329)] 1152921504606846976%Z 16%Z;
  Lin [16951; 17329] [4403; 16751; 4402; 17330] 0%Z [((-1)%Z, 16951); ((-1)%Z, 4403); ((-1)%Z, 17329); (2%Z, 17330)] 576460752303423488%Z 32%Z;
  Lin [16952; 17330] [4401; 16750; 4400; 17331] 0%Z [((-1)%Z, 16952); ((-1)%Z, 4401); ((-1)%Z, 17330); (2%Z, 17331)] 288230376151711744%Z 64%Z;
  Lin [16953; 17331] [4399; 16749; 4398; 17332] 0%Z [((-1)%Z, 16953); ((-1)%Z, 4399); ((-1)%Z, 17331); (2%Z, 17332)] 144115188075855872%Z 128%Z;
  Lin [16954; 17332] [4397; 16748; 4396; 17333] 0%Z [((-1)%Z, 16954); ((-1)%Z, 4397); ((-1)%Z, 17332); (2%Z, 17333)] 72057594037927936%Z 256%Z;
  Lin [16955; 17333] [4395; 16747; 4394; 17334] 0%Z [((-1)%Z, 16955); ((-1)%Z, 4395); ((-1)%Z, 17333); (2%Z, 17334)] 36028797018963968%Z 512%Z;
  Lin [16956; 17334] [4393; 16746; 4392; 17335] 0%Z [((-1)%Z, 16956); ((-1)%Z, 4393); ((-1)%Z, 17334); (2%Z, 17335)] 18014398509481984%Z 1024%Z;
  Lin [16957; 17335] [4391; 16745; 4390; 17336] 0%Z [((-1)%Z, 16957); ((-1)%Z, 4391); ((-1)%Z, 17335); (2%Z, 17336)] 9007199254740992%Z 2048%Z;
  Lin [16958; 17336] [4389; 16744; 4388; 17337] 0%Z [((-1)%Z, 16958); ((-1)%Z, 4389); ((-1)%Z, 17336); (2%Z, 17337)] 4503599627370496%Z 4096%Z;
  Lin [16959; 17337] [4387; 16743; 4386; 17338] 0%Z [((-1)%Z, 16959); ((-1)%Z, 4387); ((-1)%Z, 17337); (2%Z, 17338)] 2251799813685248%Z 8192%Z;
  Lin [16960; 17338] [4385; 16742; 4384; 17339] 0%Z [((-1)%Z, 16960); ((-1)%Z, 4385); ((-1)%Z, 17338); (2%Z, 17339)] 1125899906842624%Z 16384%Z;
  Lin [16961; 17339] [4383; 16741; 4382; 17340] 0%Z [((-1)%Z, 16961); ((-1)%Z, 4383); ((-1)%Z, 17339); (2%Z, 17340)] 562949953421312%Z 32768%Z;
  Lin [16962; 17340] [4381; 16740; 4380; 17341] 0%Z [((-1)%Z, 16962); ((-1)%Z, 4381); ((-1)%Z, 17340); (2%Z, 17341)] 281474976710656%Z 65536%Z;
  Lin [16963; 17341] [4379; 16739; 4378; 17342] 0%Z [((-1)%Z, 16963); ((-1)%Z, 4379); ((-1)%Z, 17341); (2%Z, 17342)] 140737488355328%Z 131072%Z;
  Lin [16964; 17342] [4377; 16738; 4376; 17343] 0%Z [((-1)%Z, 16964); ((-1)%Z, 4377); ((-1)%Z, 17342); (2%Z, 17343)] 70368744177664%Z 262144%Z;
  Lin [16965; 17343] [4375; 16737; 4374; 17344] 0%Z [((-1)%Z, 16965); ((-1)%Z, 4375); ((-1)%Z, 17343); (2%Z, 17344)] 35184372088832%Z 524288%Z;
  Lin [16966; 17344] [4373; 16736; 4372; 17345] 0%Z [((-1)%Z, 16966); ((-1)%Z, 4373); ((-1)%Z, 17344); (2%Z, 17345)] 17592186044416%Z 1048576%Z;
  Lin [16967; 17345] [4371; 16735; 4370; 17346] 0%Z [((-1)%Z, 16967); ((-1)%Z, 4371); ((-1)%Z, 17345); (2%Z, 17346)] 8796093022208%Z 2097152%Z;
  Lin [16968; 17346] [4369; 16734; 4368; 17347] 0%Z [((-1)%Z, 16968); ((-1)%Z, 4369); ((-1)%Z, 17346); (2%Z, 17347)] 4398046511104%Z 4194304%Z;
  Lin [16969; 17347] [4367; 16733; 4366; 17348] 0%Z [((-1)%Z, 16969); ((-1)%Z, 4367); ((-1)%Z, 17347); (2%Z, 17348)] 2199023255552%Z 8388608%Z;
  Lin [16970; 17348] [4365; 16732; 4364; 17349] 0%Z [((-1)%Z, 16970); ((-1)%Z, 4365); ((-1)%Z, 17348); (2%Z, 17349)] 1099511627776%Z 16777216%Z;
  Lin [16971; 17349] [4363; 16731; 4362; 17350] 0%Z [((-1)%Z, 16971); ((-1)%Z, 4363); ((-1)%Z, 17349); (2%Z, 17350)] 549755813888%Z 33554432%Z;
  Lin [16972; 17350] [4361; 16730; 4360; 17351] 0%Z [((-1)%Z, 16972); ((-1)%Z, 4361); ((-1)%Z, 17350); (2%Z, 17351)] 274877906944%Z 67108864%Z;
  Lin [16973; 17351] [4359; 16729; 4358; 17352] 0%Z [((-1)%Z, 16973); ((-1)%Z, 4359); ((-1)%Z, 17351); (2%Z, 17352)] 137438953472%Z 134217728%Z;
  Lin [16974; 17352] [4357; 16728; 4356; 17353] 0%Z [((-1)%Z, 16974); ((-1)%Z, 4357); ((-1)%Z, 17352); (2%Z, 17353)] 68719476736%Z 268435456%Z;
  Lin [16975; 17353] [4355; 16727; 4354; 17354] 0%Z [((-1)%Z, 16975); ((-1)%Z, 4355); ((-1)%Z, 17353); (2%Z, 17354)] 34359738368%Z 536870912%Z;
  Lin [16976; 17354] [4353; 16726; 4352; 17355] 0%Z [((-1)%Z, 16976); ((-1)%Z, 4353); ((-1)%Z, 17354); (2%Z, 17355)] 17179869184%Z 1073741824%Z;
  Lin [16977; 17355] [4351; 16725; 4350; 17356] 0%Z [((-1)%Z, 16977); ((-1)%Z, 4351); ((-1)%Z, 17355); (2%Z, 17356)] 8589934592%Z 2147483648%Z;
  Lin [16978; 17356] [4349; 16724; 4348; 17357] 0%Z [((-1)%Z, 16978); ((-1)%Z, 4349); ((-1)%Z, 17356); (2%Z, 17357)] 4294967296%Z 4294967296%Z;
  Lin [16979; 17357] [4347; 16723; 4346; 17358] 0%Z [((-1)%Z, 16979); ((-1)%Z, 4347); ((-1)%Z, 17357); (2%Z, 17358)] 2147483648%Z 8589934592%Z;
  Lin [16980; 17358] [4345; 16722; 4344; 17359] 0%Z [((-1)%Z, 16980); ((-1)%Z, 4345); ((-1)%Z, 17358); (2%Z, 17359)] 1073741824%Z 17179869184%Z;
  Lin [16981; 17359] [4343; 16721; 4342; 17360] 0%Z [((-1)%Z, 16981); ((-1)%Z, 4343); ((-1)%Z, 17359); (2%Z, 17360)] 536870912%Z 34359738368%Z;
  Lin [16982; 17360] [4341; 16720; 4340; 17361] 0%Z [((-1)%Z, 16982); ((-1)%Z, 4341); ((-1)%Z, 17360); (2%Z, 17361)] 268435456%Z 68719476736%Z;
  Lin [16983; 17361] [4339; 16719; 4338; 17362] 0%Z [((-1)%Z, 16983); ((-1)%Z, 4339); ((-1)%Z, 17361); (2%Z, 17362)] 134217728%Z 137438953472%Z;
  Lin [16984; 17362] [4337; 16718; 4336; 17363] 0%Z [((-1)%Z, 16984); ((-1)%Z, 4337); ((-1)%Z, 17362); (2%Z, 17363)] 67108864%Z 274877906944%Z;
  Lin [16985; 17363] [4335; 16717; 4334; 17364] 0%Z [((-1)%Z, 16985); ((-1)%Z, 4335); ((-1)%Z, 17363); (2%Z, 17364)] 33554432%Z 549755813888%Z;
  Lin [16986; 17364] [4333; 16716; 4332; 17365] 0%Z [((-1)%Z, 16986); ((-1)%Z, 4333); ((-1)%Z, 17364); (2%Z, 17365)] 16777216%Z 1099511627776%Z;
  Lin [16987; 17365] [4331; 16715; 4330; 17366] 0%Z [((-1)%Z, 16987); ((-1)%Z, 4331); ((-1)%Z, 17365); (2%Z, 17366)] 8388608%Z 2199023255552%Z;
  Lin [16988; 17366] [4329; 16714; 4328; 17367] 0%Z [((-1)%Z, 16988); ((-1)%Z, 4329); ((-1)%Z, 17366); (2%Z, 17367)] 4194304%Z 4398046511104%Z;
  Lin [16989; 17367] [4327; 16713; 4326; 17368] 0%Z [((-1)%Z, 16989); ((-1)%Z, 4327); ((-1)%Z, 17367); (2%Z, 17368)] 2097152%Z 8796093022208%Z;
  Lin [16990; 17368] [4325; 16712; 4324; 17369] 0%Z [((-1)%Z, 16990); ((-1)%Z, 4325); ((-1)%Z, 17368); (2%Z, 17369)] 1048576%Z 17592186044416%Z;
  Lin [16991; 17369] [4323; 16711; 4322; 17370] 0%Z [((-1)%Z, 16991); ((-1)%Z, 4323); ((-1)%Z, 17369); (2%Z, 17370)] 524288%Z 35184372088832%Z;
  Lin [16992; 17370] [4321; 16710; 4320; 17371] 0%Z [((-1)%Z, 16992); ((-1)%Z, 4321); ((-1)%Z, 17370); (2%Z, 17371)] 262144%Z 70368744177664%Z;
  Lin [16993; 17371] [4319; 16709; 4318; 17372] 0%Z [((-1)%Z, 16993); ((-1)%Z, 4319); ((-1)%Z, 17371); (2%Z, 17372)] 131072%Z 140737488355328%Z;
  Lin [16994; 17372] [4317; 16708; 4316; 17373] 0%Z [((-1)%Z, 16994); ((-1)%Z, 4317); ((-1)%Z, 17372); (2%Z, 17373)] 65536%Z 281474976710656%Z;
  Lin [16995; 17373] [4315; 16707; 4314; 17374] 0%Z [((-1)%Z, 16995); ((-1)%Z, 4315); ((-1)%Z, 17373); (2%Z, 17374)] 32768%Z 562949953421312%Z;
  Lin [16996; 17374] [4313; 16706; 4312; 17375] 0%Z [((-1)%Z, 16996); ((-1)%Z, 4313); ((-1)%Z, 17374); (2%Z, 17375)] 16384%Z 1125899906842624%Z;
  Lin [16997; 17375] [4311; 16705; 4310; 17376] 0%Z [((-1)%Z, 16997); ((-1)%Z, 4311); ((-1)%Z, 17375); (2%Z, 17376)] 8192%Z 2251799813685248%Z;
  Lin [16998; 17376] [4309; 16704; 4308; 17377] 0%Z [((-1)%Z, 16998); ((-1)%Z, 4309); ((-1)%Z, 17376); (2%Z, 17377)] 4096%Z 4503599627370496%Z;
  Lin [16999; 17377] [4307; 16703; 4306; 17378] 0%Z [((-1)%Z, 16999); ((-1)%Z, 4307); ((-1)%Z, 17377); (2%Z, 17378)] 2048%Z 9007199254740992%Z;
  Lin [17000; 17378] [4305; 16702; 4304; 17379] 0%Z [((-1)%Z, 17000); ((-1)%Z, 4305); ((-1)%Z, 17378); (2%Z, 17379)] 1024%Z 18014398509481984%Z;
  Lin [17001; 17379] [4303; 16701; 4302; 17380] 0%Z [((-1)%Z, 17001); ((-1)%Z, 4303); ((-1)%Z, 17379); (2%Z, 17380)] 512%Z 36028797018963968%Z;
  Lin [17002; 17380] [4301; 16700; 4300; 17381] 0%Z [((-1)%Z, 17002); ((-1)%Z, 4301); ((-1)%Z, 17380); (2%Z, 17381)] 256%Z 72057594037927936%Z;
  Lin [17003; 17381] [4299; 16699; 4298; 17382] 0%Z [((-1)%Z, 17003); ((-1)%Z, 4299); ((-1)%Z, 17381); (2%Z, 17382)] 128%Z 144115188075855872%Z;
  Lin [17004; 17382] [4297; 16698; 4296; 17383] 0%Z [((-1)%Z, 17004); ((-1)%Z, 4297); ((-1)%Z, 17382); (2%Z, 17383)] 64%Z 288230376151711744%Z;
  Lin [17005; 17383] [4295; 16697; 4294; 17384] 0%Z [((-1)%Z, 17005); ((-1)%Z, 4295); ((-1)%Z, 17383); (2%Z, 17384)] 32%Z 576460752303423488%Z;
  Lin [17006; 17384] [4293; 16696; 4292; 17385] 0%Z [((-1)%Z, 17006); ((-1)%Z, 4293); ((-1)%Z, 17384); (2%Z, 17385)] 16%Z 1152921504606846976%Z;
  Lin [17007; 17385] [4291; 16695; 4290; 17386] 0%Z [((-1)%Z, 17007); ((-1)%Z, 4291); ((-1)%Z, 17385); (2%Z, 17386)] 8%Z 2305843009213693952%Z;
  Lin [17008; 17386] [4289; 16694; 4288; 17387] 0%Z [((-1)%Z, 17008); ((-1)%Z, 4289); ((-1)%Z, 17386); (2%Z, 17387)] 4%Z 4611686018427387904%Z;
  Lin [17009; 17387] [129] 2%Z [((-1)%Z, 17009); ((-1)%Z, 129); ((-1)%Z, 17387)] 2%Z 9223372036854775808%Z].
Definition divide64_nd : list N := [16946; 29864; 4409; 4407; 4405; 4403; 4401; 4399; 4397; 4395; 4393; 4391; 4389; 4387; 4385; 4383; 4381; 4379; 4377; 4375; 4373; 4371; 4369; 4367; 4365; 4363; 4361; 4359; 4357; 4355; 4353; 4351; 4349; 4347; 4345; 4343; 4341; 4339; 4337; 4335; 4333; 4331; 4329; 4327; 4325; 4323; 4321; 4319; 4317; 4315; 4313; 4311; 4309; 4307; 4305; 4303; 4301; 4299; 4297; 4295; 4293; 4291; 4289; 129].
Definition divide64_q : N := 16693.
Definition divide64_row_0 : srow := SRow
   [Cell ([16882; 16946; 16693], [255; 29927; 29801]) (Some (LW 255)) (Some (LW 29801));
    Cell ([16946; 16947; 29801; 16693], [29864; 254; 29928; 16565; 16564; 16563; 29802]) (Some (LW 254)) (Some (LW 29802));
    Cell ([29864; 16948; 29802; 16693], [29865; 253; 29929; 16562; 16561; 16560; 29803]) (Some (LW 253)) (Some (LW 29803));
    Cell ([4409; 16949; 29803; 16693], [29866; 252; 29930; 16559; 16558; 16557; 29804]) (Some (LW 252)) (Some (LW 29804));
    Cell ([4407; 16950; 29804; 16693], [29867; 251; 29931; 16556; 16555; 16554; 29805]) (Some (LW 251)) (Some (LW 29805));
    Cell ([4405; 16951; 29805; 16693], [29868; 250; 29932; 16553; 16552; 16551; 29806]) (Some (LW 250)) (Some (LW 29806));
    Cell ([4403; 16952; 29806; 16693], [29869; 249; 29933; 16550; 16549; 16548; 29807]) (Some (LW 249)) (Some (LW 29807));
    Cell ([4401; 16953; 29807; 16693], [29870; 248; 29934; 16547; 16546; 16545; 29808]) (Some (LW 248)) (Some (LW 29808));
    Cell ([4399; 16954; 29808; 16693], [29871; 247; 29935; 16544; 16543; 16542; 29809]) (Some (LW 247)) (Some (LW 29809));
    Cell ([4397; 16955; 29809; 16693], [29872; 246; 29936; 16541; 16540; 16539; 29810]) (Some (LW 246)) (Some (LW 29810));
    Cell ([4395; 16956; 29810; 16693], [29873; 245; 29937; 16538; 16537; 16536; 29811]) (Some (LW 245)) (Some (LW 29811));
    Cell ([4393; 16957; 29811; 16693], [29874; 244; 29938; 16535; 16534; 16533; 29812]) (Some (LW 244)) (Some (LW 29812));
    Cell ([4391; 16958; 29812; 16693], [29875; 243; 29939; 16532; 16531; 16530; 29813]) (Some (LW 243)) (Some (LW 29813));
    Cell ([4389; 16959; 29813; 16693], [29876; 242; 29940; 16529; 16528; 16527; 29814]) (Some (LW 242)) (Some (LW 29814));
    Cell ([4387; 16960; 29814; 16693], [29877; 241; 29941; 16526; 16525; 16524; 29815]) (Some (LW 241)) (Some (LW 29815));
    Cell ([4385; 16961; 29815; 16693], [29878; 240; 29942; 16523; 16522; 16521; 29816]) (Some (LW 240)) (Some (LW 29816));
    Cell ([4383; 16962; 29816; 16693], [29879; 239; 29943; 16520; 16519; 16518; 29817]) (Some (LW 239)) (Some (LW 29817));
    Cell ([4381; 16963; 29817; 16693], [29880; 238; 29944; 16517; 16516; 16515; 29818]) (Some (LW 238)) (Some (LW 29818));
    Cell ([4379; 16964; 29818; 16693], [29881; 237; 29945; 16514; 16513; 16512; 29819]) (Some (LW 237)) (Some (LW 29819));
    Cell ([4377; 16965; 29819; 16693], [29882; 236; 29946; 16511; 16510; 16509; 29820]) (Some (LW 236)) (Some (LW 29820));
    Cell ([4375; 16966; 29820; 16693], [29883; 235; 29947; 16508; 16507; 16506; 29821]) (Some (LW 235)) (Some (LW 29821));
    Cell ([4373; 16967; 29821; 16693], [29884; 234; 29948; 16505; 16504; 16503; 29822]) (Some (LW 234)) (Some (LW 29822));
    Cell ([4371; 16968; 29822; 16693], [29885; 233; 29949; 16502; 16501; 16500; 29823]) (Some (LW 233)) (Some (LW 29823));
    Cell ([4369; 16969; 29823; 16693], [29886; 232; 29950; 16499; 16498; 16497; 29824]) (Some (LW 232)) (Some (LW 29824));
    Cell ([4367; 16970; 29824; 16693], [29887; 231; 29951; 16496; 16495; 16494; 29825]) (Some (LW 231)) (Some (LW 29825));
    Cell ([4365; 16971; 29825; 16693], [29888; 230; 29952; 16493; 16492; 16491; 29826]) (Some (LW 230)) (Some (LW 29826));
    Cell ([4363; 16972; 29826; 16693], [29889; 229; 29953; 16490; 16489; 16488; 29827]) (Some (LW 229)) (Some (LW 29827));
    Cell ([4361; 16973; 29827; 16693], [29890; 228; 29954; 16487; 16486; 16485; 29828]) (Some (LW 228)) (Some (LW 29828));
    Cell ([4359; 16974; 29828; 16693], [29891; 227; 29955; 16484; 16483; 16482; 29829]) (Some (LW 227)) (Some (LW 29829));
    Cell ([4357; 16975; 29829; 16693], [29892; 226; 29956; 16481; 16480; 16479; 29830]) (Some (LW 226)) (Some (LW 29830));
    Cell ([4355; 16976; 29830; 16693], [29893; 225; 29957; 16478; 16477; 16476; 29831]) (Some (LW 225)) (Some (LW 29831));
    Cell ([4353; 16977; 29831; 16693], [29894; 224; 29958; 16475; 16474; 16473; 29832]) (Some (LW 224)) (Some (LW 29832));
    Cell ([4351; 16978; 29832; 16693], [29895; 223; 29959; 16472; 16471; 16470; 29833]) (Some (LW 223)) (Some (LW 29833));
    Cell ([4349; 16979; 29833; 16693], [29896; 222; 29960; 16469; 16468; 16467; 29834]) (Some (LW 222)) (Some (LW 29834));
    Cell ([4347; 16980; 29834; 16693], [29897; 221; 29961; 16466; 16465; 16464; 29835]) (Some (LW 221)) (Some (LW 29835));
    Cell ([4345; 16981; 29835; 16693], [29898; 220; 29962; 16463; 16462; 16461; 29836]) (Some (LW 220)) (Some (LW 29836));
    Cell ([4343; 16982; 29836; 16693], [29899; 219; 29963; 16460; 16459; 16458; 29837]) (Some (LW 219)) (Some (LW 29837));
    Cell ([4341; 16983; 29837; 16693], [29900; 218; 29964; 16457; 16456; 16455; 29838]) (Some (LW 218)) (Some (LW 29838));
    Cell ([4339; 16984; 29838; 16693], [29901; 217; 29965; 16454; 16453; 16452; 29839]) (Some (LW 217)) (Some (LW 29839));
    Cell ([4337; 16985; 29839; 16693], [29902; 216; 29966; 16451; 16450; 16449; 29840]) (Some (LW 216)) (Some (LW 29840));
    Cell ([4335; 16986; 29840; 16693], [29903; 215; 29967; 16448; 16447; 16446; 29841]) (Some (LW 215)) (Some (LW 29841));
    Cell ([4333; 16987; 29841; 16693], [29904; 214; 29968; 16445; 16444; 16443; 29842]) (Some (LW 214)) (Some (LW 29842));
    Cell ([4331; 16988; 29842; 16693], [29905; 213; 29969; 16442; 16441; 16440; 29843]) (Some (LW 213)) (Some (LW 29843));
    Cell ([4329; 16989; 29843; 16693], [29906; 212; 29970; 16439; 16438; 16437; 29844]) (Some (LW 212)) (Some (LW 29844));
    Cell ([4327; 16990; 29844; 16693], [29907; 211; 29971; 16436; 16435; 16434; 29845]) (Some (LW 211)) (Some (LW 29845));
    Cell ([4325; 16991; 29845; 16693], [29908; 210; 29972; 16433; 16432; 16431; 29846]) (Some (LW 210)) (Some (LW 29846));
    Cell ([4323; 16992; 29846; 16693], [29909; 209; 29973; 16430; 16429; 16428; 29847]) (Some (LW 209)) (Some (LW 29847));
    Cell ([4321; 16993; 29847; 16693], [29910; 208; 29974; 16427; 16426; 16425; 29848]) (Some (LW 208)) (Some (LW 29848));
    Cell ([4319; 16994; 29848; 16693], [29911; 207; 29975; 16424; 16423; 16422; 29849]) (Some (LW 207)) (Some (LW 29849));
    Cell ([4317; 16995; 29849; 16693], [29912; 206; 29976; 16421; 16420; 16419; 29850]) (Some (LW 206)) (Some (LW 29850));
    Cell ([4315; 16996; 29850; 16693], [29913; 205; 29977; 16418; 16417; 16416; 29851]) (Some (LW 205)) (Some (LW 29851));
    Cell ([4313; 16997; 29851; 16693], [29914; 204; 29978; 16415; 16414; 16413; 29852]) (Some (LW 204)) (Some (LW 29852));
    Cell ([4311; 16998; 29852; 16693], [29915; 203; 29979; 16412; 16411; 16410; 29853]) (Some (LW 203)) (Some (LW 29853));
    Cell ([4309; 16999; 29853; 16693], [29916; 202; 29980; 16409; 16408; 16407; 29854]) (Some (LW 202)) (Some (LW 29854));
    Cell ([4307; 17000; 29854; 16693], [29917; 201; 29981; 16406; 16405; 16404; 29855]) (Some (LW 201)) (Some (LW 29855));
    Cell ([4305; 17001; 29855; 16693], [29918; 200; 29982; 16403; 16402; 16401; 29856]) (Some (LW 200)) (Some (LW 29856));
    Cell ([4303; 17002; 29856; 16693], [29919; 199; 29983; 16400; 16399; 16398; 29857]) (Some (LW 199)) (Some (LW 29857));
    Cell ([4301; 17003; 29857; 16693], [29920; 198; 29984; 16397; 16396; 16395; 29858]) (Some (LW 198)) (Some (LW 29858));
    Cell ([4299; 17004; 29858; 16693], [29921; 197; 29985; 16394; 16393; 16392; 29859]) (Some (LW 197)) (Some (LW 29859));
    Cell ([4297; 17005; 29859; 16693], [29922; 196; 29986; 16391; 16390; 16389; 29860]) (Some (LW 196)) (Some (LW 29860));
    Cell ([4295; 17006; 29860; 16693], [29923; 195; 29987; 16388; 16387; 16386; 29861]) (Some (LW 195)) (Some (LW 29861));
    Cell ([4293; 17007; 29861; 16693], [29924; 194; 29988; 16385; 16384; 16383; 29862]) (Some (LW 194)) (Some (LW 29862));
    Cell ([4291; 17008; 29862; 16693], [29925; 193; 29989; 16382; 16381; 16380; 29863]) (Some (LW 193)) (Some (LW 29863));
    Cell ([4289; 17009; 29863; 16693], [29926; 130]) (Some (LW 130)) (None)]
   130 16692.
Definition divide64_row_1 : srow := SRow
   [Cell ([16881; 16946; 16692], [318; 29422; 29296]) (Some (LW 318)) (Some (LW 29296));
    Cell ([255; 16947; 29296; 16692], [29359; 317; 29423; 16254; 16253; 16252; 29297]) (Some (LW 317)) (Some (LW 29297));
    Cell ([254; 16948; 29297; 16692], [29360; 316; 29424; 16251; 16250; 16249; 29298]) (Some (LW 316)) (Some (LW 29298));
    Cell ([253; 16949; 29298; 16692], [29361; 315; 29425; 16248; 16247; 16246; 29299]) (Some (LW 315)) (Some (LW 29299));
    Cell ([252; 16950; 29299; 16692], [29362; 314; 29426; 16245; 16244; 16243; 29300]) (Some (LW 314)) (Some (LW 29300));
    Cell ([251; 16951; 29300; 16692], [29363; 313; 29427; 16242; 16241; 16240; 29301]) (Some (LW 313)) (Some (LW 29301));
    Cell ([250; 16952; 29301; 16692], [29364; 312; 29428; 16239; 16238; 16237; 29302]) (Some (LW 312)) (Some (LW 29302));
    Cell ([249; 16953; 29302; 16692], [29365; 311; 29429; 16236; 16235; 16234; 29303]) (Some (LW 311)) (Some (LW 29303));
    Cell ([248; 16954; 29303; 16692], [29366; 310; 29430; 16233; 16232; 16231; 29304]) (Some (LW 310)) (Some (LW 29304));
    Cell ([247; 16955; 29304; 16692], [29367; 309; 29431; 16230; 16229; 16228; 29305]) (Some (LW 309)) (Some (LW 29305));
    Cell ([246; 16956; 29305; 16692], [29368; 308; 29432; 16227; 16226; 16225; 29306]) (Some (LW 308)) (Some (LW 29306));
    Cell ([245; 16957; 29306; 16692], [29369; 307; 29433; 16224; 16223; 16222; 29307]) (Some (LW 307)) (Some (LW 29307));
    Cell ([244; 16958; 29307; 16692], [29370; 306; 29434; 16221; 16220; 16219; 29308]) (Some (LW 306)) (Some (LW 29308));
    Cell ([243; 16959; 29308; 16692], [29371; 305; 29435; 16218; 16217; 16216; 29309]) (Some (LW 305)) (Some (LW 29309));
    Cell ([242; 16960; 29309; 16692], [29372; 304; 29436; 16215; 16214; 16213; 29310]) (Some (LW 304)) (Some (LW 29310));
    Cell ([241; 16961; 29310; 16692], [29373; 303; 29437; 16212; 16211; 16210; 29311]) (Some (LW 303)) (Some (LW 29311));
    Cell ([240; 16962; 29311; 16692], [29374; 302; 29438; 16209; 16208; 16207; 29312]) (Some (LW 302)) (Some (LW 29312));
    Cell ([239; 16963; 29312; 16692], [29375; 301; 29439; 16206; 16205; 16204; 29313]) (Some (LW 301)) (Some (LW 29313));
    Cell ([238; 16964; 29313; 16692], [29376; 300; 29440; 16203; 16202; 16201; 29314]) (Some (LW 300)) (Some (LW 29314));
    Cell ([237; 16965; 29314; 16692], [29377; 299; 29441; 16200; 16199; 16198; 29315]) (Some (LW 299)) (Some (LW 29315));
    Cell ([236; 16966; 29315; 16692], [29378; 298; 29442; 16197; 16196; 16195; 29316]) (Some (LW 298)) (Some (LW 29316));
    Cell ([235; 16967; 29316; 16692], [29379; 297; 29443; 16194; 16193; 16192; 29317]) (Some (LW 297)) (Some (LW 29317));
    Cell ([234; 16968; 29317; 16692], [29380; 296; 29444; 16191; 16190; 16189; 29318]) (Some (LW 296)) (Some (LW 29318));
    Cell ([233; 16969; 29318; 16692], [29381; 295; 29445; 16188; 16187; 16186; 29319]) (Some (LW 295)) (Some (LW 29319));
    Cell ([232; 16970; 29319; 16692], [29382; 294; 29446; 16185; 16184; 16183; 29320]) (Some (LW 294)) (Some (LW 29320));
    Cell ([231; 16971; 29320; 16692], [29383; 293; 29447; 16182; 16181; 16180; 29321]) (Some (LW 293)) (Some (LW 29321));
    Cell ([230; 16972; 29321; 16692], [29384; 292; 29448; 16179; 16178; 16177; 29322]) (Some (LW 292)) (Some (LW 29322));
    Cell ([229; 16973; 29322; 16692], [29385; 291; 29449; 16176; 16175; 16174; 29323]) (Some (LW 291)) (Some (LW 29323));
    Cell ([228; 16974; 29323; 16692], [29386; 290; 29450; 16173; 16172; 16171; 29324]) (Some (LW 290)) (Some (LW 29324));
    Cell ([227; 16975; 29324; 16692], [29387; 289; 29451; 16170; 16169; 16168; 29325]) (Some (LW 289)) (Some (LW 29325));
    Cell ([226; 16976; 29325; 16692], [29388; 288; 29452; 16167; 16166; 16165; 29326]) (Some (LW 288)) (Some (LW 29326));
    Cell ([225; 16977; 29326; 16692], [29389; 287; 29453; 16164; 16163; 16162; 29327]) (Some (LW 287)) (Some (LW 29327));
    Cell ([224; 16978; 29327; 16692], [29390; 286; 29454; 16161; 16160; 16159; 29328]) (Some (LW 286)) (Some (LW 29328));
    Cell ([223; 16979; 29328; 16692], [29391; 285; 29455; 16158; 16157; 16156; 29329]) (Some (LW 285)) (Some (LW 29329));
    Cell ([222; 16980; 29329; 16692], [29392; 284; 29456; 16155; 16154; 16153; 29330]) (Some (LW 284)) (Some (LW 29330));
    Cell ([221; 16981; 29330; 16692], [29393; 283; 29457; 16152; 16151; 16150; 29331]) (Some (LW 283)) (Some (LW 29331));
    Cell ([220; 16982; 29331; 16692], [29394; 282; 29458; 16149; 16148; 16147; 29332]) (Some (LW 282)) (Some (LW 29332));
    Cell ([219; 16983; 29332; 16692], [29395; 281; 29459; 16146; 16145; 16144; 29333]) (Some (LW 281)) (Some (LW 29333));
    Cell ([218; 16984; 29333; 16692], [29396; 280; 29460; 16143; 16142; 16141; 29334]) (Some (LW 280)) (Some (LW 29334));
    Cell ([217; 16985; 29334; 16692], [29397; 279; 29461; 16140; 16139; 16138; 29335]) (Some (LW 279)) (Some (LW 29335));
    Cell ([216; 16986; 29335; 16692], [29398; 278; 29462; 16137; 16136; 16135; 29336]) (Some (LW 278)) (Some (LW 29336));
    Cell ([215; 16987; 29336; 16692], [29399; 277; 29463; 16134; 16133; 16132; 29337]) (Some (LW 277)) (Some (LW 29337));
    Cell ([214; 16988; 29337; 16692], [29400; 276; 29464; 16131; 16130; 16129; 29338]) (Some (LW 276)) (Some (LW 29338));
    Cell ([213; 16989; 29338; 16692], [29401; 275; 29465; 16128; 16127; 16126; 29339]) (Some (LW 275)) (Some (LW 29339));
    Cell ([212; 16990; 29339; 16692], [29402; 274; 29466; 16125; 16124; 16123; 29340]) (Some (LW 274)) (Some (LW 29340));
    Cell ([211; 16991; 29340; 16692], [29403; 273; 29467; 16122; 16121; 16120; 29341]) (Some (LW 273)) (Some (LW 29341));
    Cell ([210; 16992; 29341; 16692], [29404; 272; 29468; 16119; 16118; 16117; 29342]) (Some (LW 272)) (Some (LW 29342));
    Cell ([209; 16993; 29342; 16692], [29405; 271; 29469; 16116; 16115; 16114; 29343]) (Some (LW 271)) (Some (LW 29343));
    Cell ([208; 16994; 29343; 16692], [29406; 270; 29470; 16113; 16112; 16111; 29344]) (Some (LW 270)) (Some (LW 29344));
    Cell ([207; 16995; 29344; 16692], [29407; 269; 29471; 16110; 16109; 16108; 29345]) (Some (LW 269)) (Some (LW 29345));
    Cell ([206; 16996; 29345; 16692], [29408; 268; 29472; 16107; 16106; 16105; 29346]) (Some (LW 268)) (Some (LW 29346));
    Cell ([205; 16997; 29346; 16692], [29409; 267; 29473; 16104; 16103; 16102; 29347]) (Some (LW 267)) (Some (LW 29347));
    Cell ([204; 16998; 29347; 16692], [29410; 266; 29474; 16101; 16100; 16099; 29348]) (Some (LW 266)) (Some (LW 29348));
    Cell ([203; 16999; 29348; 16692], [29411; 265; 29475; 16098; 16097; 16096; 29349]) (Some (LW 265)) (Some (LW 29349));
    Cell ([202; 17000; 29349; 16692], [29412; 264; 29476; 16095; 16094; 16093; 29350]) (Some (LW 264)) (Some (LW 29350));
    Cell ([201; 17001; 29350; 16692], [29413; 263; 29477; 16092; 16091; 16090; 29351]) (Some (LW 263)) (Some (LW 29351));
    Cell ([200; 17002; 29351; 16692], [29414; 262; 29478; 16089; 16088; 16087; 29352]) (Some (LW 262)) (Some (LW 29352));
    Cell ([199; 17003; 29352; 16692], [29415; 261; 29479; 16086; 16085; 16084; 29353]) (Some (LW 261)) (Some (LW 29353));
    Cell ([198; 17004; 29353; 16692], [29416; 260; 29480; 16083; 16082; 16081; 29354]) (Some (LW 260)) (Some (LW 29354));
    Cell ([197; 17005; 29354; 16692], [29417; 259; 29481; 16080; 16079; 16078; 29355]) (Some (LW 259)) (Some (LW 29355));
    Cell ([196; 17006; 29355; 16692], [29418; 258; 29482; 16077; 16076; 16075; 29356]) (Some (LW 258)) (Some (LW 29356));
    Cell ([195; 17007; 29356; 16692], [29419; 257; 29483; 16074; 16073; 16072; 29357]) (Some (LW 257)) (Some (LW 29357));
    Cell ([194; 17008; 29357; 16692], [29420; 256; 29484; 16071; 16070; 16069; 29358]) (Some (LW 256)) (Some (LW 29358));
    Cell ([193; 17009; 29358; 16692], [29421; 131]) (Some (LW 131)) (None)]
   131 16691.
Definition divide64_row_2 : srow := SRow
   [Cell ([16880; 16946; 16691], [381; 29233; 29107]) (Some (LW 381)) (Some (LW 29107));
    Cell ([318; 16947; 29107; 16691], [29170; 380; 29234; 16068; 16067; 16066; 29108]) (Some (LW 380)) (Some (LW 29108));
    Cell ([317; 16948; 29108; 16691], [29171; 379; 29235; 16065; 16064; 16063; 29109]) (Some (LW 379)) (Some (LW 29109));
    Cell ([316; 16949; 29109; 16691], [29172; 378; 29236; 16062; 16061; 16060; 29110]) (Some (LW 378)) (Some (LW 29110));
    Cell ([315; 16950; 29110; 16691], [29173; 377; 29237; 16059; 16058; 16057; 29111]) (Some (LW 377)) (Some (LW 29111));
    Cell ([314; 16951; 29111; 16691], [29174; 376; 29238; 16056; 16055; 16054; 29112]) (Some (LW 376)) (Some (LW 29112));
    Cell ([313; 16952; 29112; 16691], [29175; 375; 29239; 16053; 16052; 16051; 29113]) (Some (LW 375)) (Some (LW 29113));
    Cell ([312; 16953; 29113; 16691], [29176; 374; 29240; 16050; 16049; 16048; 29114]) (Some (LW 374)) (Some (LW 29114));
    Cell ([311; 16954; 29114; 16691], [29177; 373; 29241; 16047; 16046; 16045; 29115]) (Some (LW 373)) (Some (LW 29115));
    Cell ([310; 16955; 29115; 16691], [29178; 372; 29242; 16044; 16043; 16042; 29116]) (Some (LW 372)) (Some (LW 29116));
    Cell ([309; 16956; 29116; 16691], [29179; 371; 29243; 16041; 16040; 16039; 29117]) (Some (LW 371)) (Some (LW 29117));
    Cell ([308; 16957; 29117; 16691], [29180; 370; 29244; 16038; 16037; 16036; 29118]) (Some (LW 370)) (Some (LW 29118));
    Cell ([307; 16958; 29118; 16691], [29181; 369; 29245; 16035; 16034; 16033; 29119]) (Some (LW 369)) (Some (LW 29119));
    Cell ([306; 16959; 29119; 16691], [29182; 368; 29246; 16032; 16031; 16030; 29120]) (Some (LW 368)) (Some (LW 29120));
    Cell ([305; 16960; 29120; 16691], [29183; 367; 29247; 16029; 16028; 16027; 29121]) (Some (LW 367)) (Some (LW 29121));
    Cell ([304; 16961; 29121; 16691], [29184; 366; 29248; 16026; 16025; 16024; 29122]) (Some (LW 366)) (Some (LW 29122));
    Cell ([303; 16962; 29122; 16691], [29185; 365; 29249; 16023; 16022; 16021; 29123]) (Some (LW 365)) (Some (LW 29123));
    Cell ([302; 16963; 29123; 16691], [29186; 364; 29250; 16020; 16019; 16018; 29124]) (Some (LW 364)) (Some (LW 29124));
    Cell ([301; 16964; 29124; 16691], [29187; 363; 29251; 16017; 16016; 16015; 29125]) (Some (LW 363)) (Some (LW 29125));
    Cell ([300; 16965; 29125; 16691], [29188; 362; 29252; 16014; 16013; 16012; 29126]) (Some (LW 362)) (Some (LW 29126));
    Cell ([299; 16966; 29126; 16691], [29189; 361; 29253; 16011; 16010; 16009; 29127]) (Some (LW 361)) (Some (LW 29127));
    Cell ([298; 16967; 29127; 16691], [29190; 360; 29254; 16008; 16007; 16006; 29128]) (Some (LW 360)) (Some (LW 29128));
    Cell ([297; 16968; 29128; 16691], [29191; 359; 29255; 16005; 16004; 16003; 29129]) (Some (LW 359)) (Some (LW 29129));
    Cell ([296; 16969; 29129; 16691], [29192; 358; 29256; 16002; 16001; 16000; 29130]) (Some (LW 358)) (Some (LW 29130));
    Cell ([295; 16970; 29130; 16691], [29193; 357; 29257; 15999; 15998; 15997; 29131]) (Some (LW 357)) (Some (LW 29131));
    Cell ([294; 16971; 29131; 16691], [29194; 356; 29258; 15996; 15995; 15994; 29132]) (Some (LW 356)) (Some (LW 29132));
    Cell ([293; 16972; 29132; 16691], [29195; 355; 29259; 15993; 15992; 15991; 29133]) (Some (LW 355)) (Some (LW 29133));
    Cell ([292; 16973; 29133; 16691], [29196; 354; 29260; 15990; 15989; 15988; 29134]) (Some (LW 354)) (Some (LW 29134));
    Cell ([291; 16974; 29134; 16691], [29197; 353; 29261; 15987; 15986; 15985; 29135]) (Some (LW 353)) (Some (LW 29135));
    Cell ([290; 16975; 29135; 16691], [29198; 352; 29262; 15984; 15983; 15982; 29136]) (Some (LW 352)) (Some (LW 29136));
    Cell ([289; 16976; 29136; 16691], [29199; 351; 29263; 15981; 15980; 15979; 29137]) (Some (LW 351)) (Some (LW 29137));
    Cell ([288; 16977; 29137; 16691], [29200; 350; 29264; 15978; 15977; 15976; 29138]) (Some (LW 350)) (Some (LW 29138));
    Cell ([287; 16978; 29138; 16691], [29201; 349; 29265; 15975; 15974; 15973; 29139]) (Some (LW 349)) (Some (LW 29139));
    Cell ([286; 16979; 29139; 16691], [29202; 348; 29266; 15972; 15971; 15970; 29140]) (Some (LW 348)) (Some (LW 29140));
    Cell ([285; 16980; 29140; 16691], [29203; 347; 29267; 15969; 15968; 15967; 29141]) (Some (LW 347)) (Some (LW 29141));
    Cell ([284; 16981; 29141; 16691], [29204; 346; 29268; 15966; 15965; 15964; 29142]) (Some (LW 346)) (Some (LW 29142));
    Cell ([283; 16982; 29142; 16691], [29205; 345; 29269; 15963; 15962; 15961; 29143]) (Some (LW 345)) (Some (LW 29143));
    Cell ([282; 16983; 29143; 16691], [29206; 344; 29270; 15960; 15959; 15958; 29144]) (Some (LW 344)) (Some (LW 29144));
    Cell ([281; 16984; 29144; 16691], [29207; 343; 29271; 15957; 15956; 15955; 29145]) (Some (LW 343)) (Some (LW 29145));
    Cell ([280; 16985; 29145; 16691], [29208; 342; 29272; 15954; 15953; 15952; 29146]) (Some (LW 342)) (Some (LW 29146));
    Cell ([279; 16986; 29146; 16691], [29209; 341; 29273; 15951; 15950; 15949; 29147]) (Some (LW 341)) (Some (LW 29147));
    Cell ([278; 16987; 29147; 16691], [29210; 340; 29274; 15948; 15947; 15946; 29148]) (Some (LW 340)) (Some (LW 29148));
    Cell ([277; 16988; 29148; 16691], [29211; 339; 29275; 15945; 15944; 15943; 29149]) (Some (LW 339)) (Some (LW 29149));
    Cell ([276; 16989; 29149; 16691], [29212; 338; 29276; 15942; 15941; 15940; 29150]) (Some (LW 338)) (Some (LW 29150));
    Cell ([275; 16990; 29150; 16691], [29213; 337; 29277; 15939; 15938; 15937; 29151]) (Some (LW 337)) (Some (LW 29151));
    Cell ([274; 16991; 29151; 16691], [29214; 336; 29278; 15936; 15935; 15934; 29152]) (Some (LW 336)) (Some (LW 29152));
    Cell ([273; 16992; 29152; 16691], [29215; 335; 29279; 15933; 15932; 15931; 29153]) (Some (LW 335)) (Some (LW 29153));
    Cell ([272; 16993; 29153; 16691], [29216; 334; 29280; 15930; 15929; 15928; 29154]) (Some (LW 334)) (Some (LW 29154));
    Cell ([271; 16994; 29154; 16691], [29217; 333; 29281; 15927; 15926; 15925; 29155]) (Some (LW 333)) (Some (LW 29155));
    Cell ([270; 16995; 29155; 16691], [29218; 332; 29282; 15924; 15923; 15922; 29156]) (Some (LW 332)) (Some (LW 29156));
    Cell ([269; 16996; 29156; 16691], [29219; 331; 29283; 15921; 15920; 15919; 29157]) (Some (LW 331)) (Some (LW 29157));
    Cell ([268; 16997; 29157; 16691], [29220; 330; 29284; 15918; 15917; 15916; 29158]) (Some (LW 330)) (Some (LW 29158));
    Cell ([267; 16998; 29158; 16691], [29221; 329; 29285; 15915; 15914; 15913; 29159]) (Some (LW 329)) (Some (LW 29159));
    Cell ([266; 16999; 29159; 16691], [29222; 328; 29286; 15912; 15911; 15910; 29160]) (Some (LW 328)) (Some (LW 29160));
    Cell ([265; 17000; 29160; 16691], [29223; 327; 29287; 15909; 15908; 15907; 29161]) (Some (LW 327)) (Some (LW 29161));
    Cell ([264; 17001; 29161; 16691], [29224; 326; 29288; 15906; 15905; 15904; 29162]) (Some (LW 326)) (Some (LW 29162));
    Cell ([263; 17002; 29162; 16691], [29225; 325; 29289; 15903; 15902; 15901; 29163]) (Some (LW 325)) (Some (LW 29163));
    Cell ([262; 17003; 29163; 16691], [29226; 324; 29290; 15900; 15899; 15898; 29164]) (Some (LW 324)) (Some (LW 29164));
    Cell ([261; 17004; 29164; 16691], [29227; 323; 29291; 15897; 15896; 15895; 29165]) (Some (LW 323)) (Some (LW 29165));
    Cell ([260; 17005; 29165; 16691], [29228; 322; 29292; 15894; 15893; 15892; 29166]) (Some (LW 322)) (Some (LW 29166));
    Cell ([259; 17006; 29166; 16691], [29229; 321; 29293; 15891; 15890; 15889; 29167]) (Some (LW 321)) (Some (LW 29167));
    Cell ([258; 17007; 29167; 16691], [29230; 320; 29294; 15888; 15887; 15886; 29168]) (Some (LW 320)) (Some (LW 29168));
    Cell ([257; 17008; 29168; 16691], [29231; 319; 29295; 15885; 15884; 15883; 29169]) (Some (LW 319)) (Some (LW 29169));
    Cell ([256; 17009; 29169; 16691], [29232; 132]) (Some (LW 132)) (None)]
   132 16690.
Definition divide64_row_3 : srow := SRow
   [Cell ([16879; 16946; 16690], [444; 29044; 28918]) (Some (LW 444)) (Some (LW 28918));
    Cell ([381; 16947; 28918; 16690], [28981; 443; 29045; 15882; 15881; 15880; 28919]) (Some (LW 443)) (Some (LW 28919));
    Cell ([380; 16948; 28919; 16690], [28982; 442; 29046; 15879; 15878; 15877; 28920]) (Some (LW 442)) (Some (LW 28920));
    Cell ([379; 16949; 28920; 16690], [28983; 441; 29047; 15876; 15875; 15874; 28921]) (Some (LW 441)) (Some (LW 28921));
    Cell ([378; 16950; 28921; 16690], [28984; 440; 29048; 15873; 15872; 15871; 28922]) (Some (LW 440)) (Some (LW 28922));
    Cell ([377; 16951; 28922; 16690], [28985; 439; 29049; 15870; 15869; 15868; 28923]) (Some (LW 439)) (Some (LW 28923));
    Cell ([376; 16952; 28923; 16690], [28986; 438; 29050; 15867; 15866; 15865; 28924]) (Some (LW 438)) (Some (LW 28924));
    Cell ([375; 16953; 28924; 16690], [28987; 437; 29051; 15864; 15863; 15862; 28925]) (Some (LW 437)) (Some (LW 28925));
    Cell ([374; 16954; 28925; 16690], [28988; 436; 29052; 15861; 15860; 15859; 28926]) (Some (LW 436)) (Some (LW 28926));
    Cell ([373; 16955; 28926; 16690], [28989; 435; 29053; 15858; 15857; 15856; 28927]) (Some (LW 435)) (Some (LW 28927));
    Cell ([372; 16956; 28927; 16690], [28990; 434; 29054; 15855; 15854; 15853; 28928]) (Some (LW 434)) (Some (LW 28928));
    Cell ([371; 16957; 28928; 16690], [28991; 433; 29055; 15852; 15851; 15850; 28929]) (Some (LW 433)) (Some (LW 28929));
    Cell ([370; 16958; 28929; 16690], [28992; 432; 29056; 15849; 15848; 15847; 28930]) (Some (LW 432)) (Some (LW 28930));
    Cell ([369; 16959; 28930; 16690], [28993; 431; 29057; 15846; 15845; 15844; 28931]) (Some (LW 431)) (Some (LW 28931));
    Cell ([368; 16960; 28931; 16690], [28994; 430; 29058; 15843; 15842; 15841; 28932]) (Some (LW 430)) (Some (LW 28932));
    Cell ([367; 16961; 28932; 16690], [28995; 429; 29059; 15840; 15839; 15838; 28933]) (Some (LW 429)) (Some (LW 28933));
    Cell ([366; 16962; 28933; 16690], [28996; 428; 29060; 15837; 15836; 15835; 28934]) (Some (LW 428)) (Some (LW 28934));
    Cell ([365; 16963; 28934; 16690], [28997; 427; 29061; 15834; 15833; 15832; 28935]) (Some (LW 427)) (Some (LW 28935));
    Cell ([364; 16964; 28935; 16690], [28998; 426; 29062; 15831; 15830; 15829; 28936]) (Some (LW 426)) (Some (LW 28936));
    Cell ([363; 16965; 28936; 16690], [28999; 425; 29063; 15828; 15827; 15826; 28937]) (Some (LW 425)) (Some (LW 28937));
    Cell ([362; 16966; 28937; 16690], [29000; 424; 29064; 15825; 15824; 15823; 28938]) (Some (LW 424)) (Some (LW 28938));
    Cell ([361; 16967; 28938; 16690], [29001; 423; 29065; 15822; 15821; 15820; 28939]) (Some (LW 423)) (Some (LW 28939));
    Cell ([360; 16968; 28939; 16690], [29002; 422; 29066; 15819; 15818; 15817; 28940]) (Some (LW 422)) (Some (LW 28940));
    Cell ([359; 16969; 28940; 16690], [29003; 421; 29067; 15816; 15815; 15814; 28941]) (Some (LW 421)) (Some (LW 28941));
    Cell ([358; 16970; 28941; 16690], [29004; 420; 29068; 15813; 15812; 15811; 28942]) (Some (LW 420)) (Some (LW 28942));
    Cell ([357; 16971; 28942; 16690], [29005; 419; 29069; 15810; 15809; 15808; 28943]) (Some (LW 419)) (Some (LW 28943));
    Cell ([356; 16972; 28943; 16690], [29006; 418; 29070; 15807; 15806; 15805; 28944]) (Some (LW 418)) (Some (LW 28944));
    Cell ([355; 16973; 28944; 16690], [29007; 417; 29071; 15804; 15803; 15802; 28945]) (Some (LW 417)) (Some (LW 28945));
    Cell ([354; 16974; 28945; 16690], [29008; 416; 29072; 15801; 15800; 15799; 28946]) (Some (LW 416)) (Some (LW 28946));
    Cell ([353; 16975; 28946; 16690], [29009; 415; 29073; 15798; 15797; 15796; 28947]) (Some (LW 415)) (Some (LW 28947));
    Cell ([352; 16976; 28947; 16690], [29010; 414; 29074; 15795; 15794; 15793; 28948]) (Some (LW 414)) (Some (LW 28948));
    Cell ([351; 16977; 28948; 16690], [29011; 413; 29075; 15792; 15791; 15790; 28949]) (Some (LW 413)) (Some (LW 28949));
    Cell ([350; 16978; 28949; 16690], [29012; 412; 29076; 15789; 15788; 15787; 28950]) (Some (LW 412)) (Some (LW 28950));
    Cell ([349; 16979; 28950; 16690], [29013; 411; 29077; 15786; 15785; 15784; 28951]) (Some (LW 411)) (Some (LW 28951));
    Cell ([348; 16980; 28951; 16690], [29014; 410; 29078; 15783; 15782; 15781; 28952]) (Some (LW 410)) (Some (LW 28952));
    Cell ([347; 16981; 28952; 16690], [29015; 409; 29079; 15780; 15779; 15778; 28953]) (Some (LW 409)) (Some (LW 28953));
    Cell ([346; 16982; 28953; 16690], [29016; 408; 29080; 15777; 15776; 15775; 28954]) (Some (LW 408)) (Some (LW 28954));
    Cell ([345; 16983; 28954; 16690], [29017; 407; 29081; 15774; 15773; 15772; 28955]) (Some (LW 407)) (Some (LW 28955));
    Cell ([344; 16984; 28955; 16690], [29018; 406; 29082; 15771; 15770; 15769; 28956]) (Some (LW 406)) (Some (LW 28956));
    Cell ([343; 16985; 28956; 16690], [29019; 405; 29083; 15768; 15767; 15766; 28957]) (Some (LW 405)) (Some (LW 28957));
    Cell ([342; 16986; 28957; 16690], [29020; 404; 29084; 15765; 15764; 15763; 28958]) (Some (LW 404)) (Some (LW 28958));
    Cell ([341; 16987; 28958; 16690], [29021; 403; 29085; 15762; 15761; 15760; 28959]) (Some (LW 403)) (Some (LW 28959));
    Cell ([340; 16988; 28959; 16690], [29022; 402; 29086; 15759; 15758; 15757; 28960]) (Some (LW 402)) (Some (LW 28960));
    Cell ([339; 16989; 28960; 16690], [29023; 401; 29087; 15756; 15755; 15754; 28961]) (Some (LW 401)) (Some (LW 28961));
    Cell ([338; 16990; 28961; 16690], [29024; 400; 29088; 15753; 15752; 15751; 28962]) (Some (LW 400)) (Some (LW 28962));
    Cell ([337; 16991; 28962; 16690], [29025; 399; 29089; 15750; 15749; 15748; 28963]) (Some (LW 399)) (Some (LW 28963));
    Cell ([336; 16992; 28963; 16690], [29026; 398; 29090; 15747; 15746; 15745; 28964]) (Some (LW 398)) (Some (LW 28964));
    Cell ([335; 16993; 28964; 16690], [29027; 397; 29091; 15744; 15743; 15742; 28965]) (Some (LW 397)) (Some (LW 28965));
    Cell ([334; 16994; 28965; 16690], [29028; 396; 29092; 15741; 15740; 15739; 28966]) (Some (LW 396)) (Some (LW 28966));
    Cell ([333; 16995; 28966; 16690], [29029; 395; 29093; 15738; 15737; 15736; 28967]) (Some (LW 395)) (Some (LW 28967));
    Cell ([332; 16996; 28967; 16690], [29030; 394; 29094; 15735; 15734; 15733; 28968]) (Some (LW 394)) (Some (LW 28968));
    Cell ([331; 16997; 28968; 16690], [29031; 393; 29095; 15732; 15731; 15730; 28969]) (Some (LW 393)) (Some (LW 28969));
    Cell ([330; 16998; 28969; 16690], [29032; 392; 29096; 15729; 15728; 15727; 28970]) (Some (LW 392)) (Some (LW 28970));
    Cell ([329; 16999; 28970; 16690], [29033; 391; 29097; 15726; 15725; 15724; 28971]) (Some (LW 391)) (Some (LW 28971));
    Cell ([328; 17000; 28971; 16690], [29034; 390; 29098; 15723; 15722; 15721; 28972]) (Some (LW 390)) (Some (LW 28972));
    Cell ([327; 17001; 28972; 16690], [29035; 389; 29099; 15720; 15719; 15718; 28973]) (Some (LW 389)) (Some (LW 28973));
    Cell ([326; 17002; 28973; 16690], [29036; 388; 29100; 15717; 15716; 15715; 28974]) (Some (LW 388)) (Some (LW 28974));
    Cell ([325; 17003; 28974; 16690], [29037; 387; 29101; 15714; 15713; 15712; 28975]) (Some (LW 387)) (Some (LW 28975));
    Cell ([324; 17004; 28975; 16690], [29038; 386; 29102; 15711; 15710; 15709; 28976]) (Some (LW 386)) (Some (LW 28976));
    Cell ([323; 17005; 28976; 16690], [29039; 385; 29103; 15708; 15707; 15706; 28977]) (Some (LW 385)) (Some (LW 28977));
    Cell ([322; 17006; 28977; 16690], [29040; 384; 29104; 15705; 15704; 15703; 28978]) (Some (LW 384)) (Some (LW 28978));
    Cell ([321; 17007; 28978; 16690], [29041; 383; 29105; 15702; 15701; 15700; 28979]) (Some (LW 383)) (Some (LW 28979));
    Cell ([320; 17008; 28979; 16690], [29042; 382; 29106; 15699; 15698; 15697; 28980]) (Some (LW 382)) (Some (LW 28980));
    Cell ([319; 17009; 28980; 16690], [29043; 133]) (Some (LW 133)) (None)]
   133 16689.
Definition divide64_row_4 : srow := SRow
   [Cell ([16878; 16946; 16689], [507; 28855; 28729]) (Some (LW 507)) (Some (LW 28729));
    Cell ([444; 16947; 28729; 16689], [28792; 506; 28856; 15696; 15695; 15694; 28730]) (Some (LW 506)) (Some (LW 28730));
    Cell ([443; 16948; 28730; 16689], [28793; 505; 28857; 15693; 15692; 15691; 28731]) (Some (LW 505)) (Some (LW 28731));
    Cell ([442; 16949; 28731; 16689], [28794; 504; 28858; 15690; 15689; 15688; 28732]) (Some (LW 504)) (Some (LW 28732));
    Cell ([441; 16950; 28732; 16689], [28795; 503; 28859; 15687; 15686; 15685; 28733]) (Some (LW 503)) (Some (LW 28733));
    Cell ([440; 16951; 28733; 16689], [28796; 502; 28860; 15684; 15683; 15682; 28734]) (Some (LW 502)) (Some (LW 28734));
    Cell ([439; 16952; 28734; 16689], [28797; 501; 28861; 15681; 15680; 15679; 28735]) (Some (LW 501)) (Some (LW 28735));
    Cell ([438; 16953; 28735; 16689], [28798; 500; 28862; 15678; 15677; 15676; 28736]) (Some (LW 500)) (Some (LW 28736));
    Cell ([437; 16954; 28736; 16689], [28799; 499; 28863; 15675; 15674; 15673; 28737]) (Some (LW 499)) (Some (LW 28737));
    Cell ([436; 16955; 28737; 16689], [28800; 498; 28864; 15672; 15671; 15670; 28738]) (Some (LW 498)) (Some (LW 28738));
    Cell ([435; 16956; 28738; 16689], [28801; 497; 28865; 15669; 15668; 15667; 28739]) (Some (LW 497)) (Some (LW 28739));
    Cell ([434; 16957; 28739; 16689], [28802; 496; 28866; 15666; 15665; 15664; 28740]) (Some (LW 496)) (Some (LW 28740));
    Cell ([433; 16958; 28740; 16689], [28803; 495; 28867; 15663; 15662; 15661; 28741]) (Some (LW 495)) (Some (LW 28741));
    Cell ([432; 16959; 28741; 16689], [28804; 494; 28868; 15660; 15659; 15658; 28742]) (Some (LW 494)) (Some (LW 28742));
    Cell ([431; 16960; 28742; 16689], [28805; 493; 28869; 15657; 15656; 15655; 28743]) (Some (LW 493)) (Some (LW 28743));
    Cell ([430; 16961; 28743; 16689], [28806; 492; 28870; 15654; 15653; 15652; 28744]) (Some (LW 492)) (Some (LW 28744));
    Cell ([429; 16962; 28744; 16689], [28807; 491; 28871; 15651; 15650; 15649; 28745]) (Some (LW 491)) (Some (LW 28745));
    Cell ([428; 16963; 28745; 16689], [28808; 490; 28872; 15648; 15647; 15646; 28746]) (Some (LW 490)) (Some (LW 28746));
    Cell ([427; 16964; 28746; 16689], [28809; 489; 28873; 15645; 15644; 15643; 28747]) (Some (LW 489)) (Some (LW 28747));
    Cell ([426; 16965; 28747; 16689], [28810; 488; 28874; 15642; 15641; 15640; 28748]) (Some (LW 488)) (Some (LW 28748));
    Cell ([425; 16966; 28748; 16689], [28811; 487; 28875; 15639; 15638; 15637; 28749]) (Some (LW 487)) (Some (LW 28749));
    Cell ([424; 16967; 28749; 16689], [28812; 486; 28876; 15636; 15635; 15634; 28750]) (Some (LW 486)) (Some (LW 28750));
    Cell ([423; 16968; 28750; 16689], [28813; 485; 28877; 15633; 15632; 15631; 28751]) (Some (LW 485)) (Some (LW 28751));
    Cell ([422; 16969; 28751; 16689], [28814; 484; 28878; 15630; 15629; 15628; 28752]) (Some (LW 484)) (Some (LW 28752));
    Cell ([421; 16970; 28752; 16689], [28815; 483; 28879; 15627; 15626; 15625; 28753]) (Some (LW 483)) (Some (LW 28753));
    Cell ([420; 16971; 28753; 16689], [28816; 482; 28880; 15624; 15623; 15622; 28754]) (Some (LW 482)) (Some (LW 28754));
    Cell ([419; 16972; 28754; 16689], [28817; 481; 28881; 15621; 15620; 15619; 28755]) (Some (LW 481)) (Some (LW 28755));
    Cell ([418; 16973; 28755; 16689], [28818; 480; 28882; 15618; 15617; 15616; 28756]) (Some (LW 480)) (Some (LW 28756));
    Cell ([417; 16974; 28756; 16689], [28819; 479; 28883; 15615; 15614; 15613; 28757]) (Some (LW 479)) (Some (LW 28757));
    Cell ([416; 16975; 28757; 16689], [28820; 478; 28884; 15612; 15611; 15610; 28758]) (Some (LW 478)) (Some (LW 28758));
    Cell ([415; 16976; 28758; 16689], [28821; 477; 28885; 15609; 15608; 15607; 28759]) (Some (LW 477)) (Some (LW 28759));
    Cell ([414; 16977; 28759; 16689], [28822; 476; 28886; 15606; 15605; 15604; 28760]) (Some (LW 476)) (Some (LW 28760));
    Cell ([413; 16978; 28760; 16689], [28823; 475; 28887; 15603; 15602; 15601; 28761]) (Some (LW 475)) (Some (LW 28761));
    Cell ([412; 16979; 28761; 16689], [28824; 474; 28888; 15600; 15599; 15598; 28762]) (Some (LW 474)) (Some (LW 28762));
    Cell ([411; 16980; 28762; 16689], [28825; 473; 28889; 15597; 15596; 15595; 28763]) (Some (LW 473)) (Some (LW 28763));
    Cell ([410; 16981; 28763; 16689], [28826; 472; 28890; 15594; 15593; 15592; 28764]) (Some (LW 472)) (Some (LW 28764));
    Cell ([409; 16982; 28764; 16689], [28827; 471; 28891; 15591; 15590; 15589; 28765]) (Some (LW 471)) (Some (LW 28765));
    Cell ([408; 16983; 28765; 16689], [28828; 470; 28892; 15588; 15587; 15586; 28766]) (Some (LW 470)) (Some (LW 28766));
    Cell ([407; 16984; 28766; 16689], [28829; 469; 28893; 15585; 15584; 15583; 28767]) (Some (LW 469)) (Some (LW 28767));
    Cell ([406; 16985; 28767; 16689], [28830; 468; 28894; 15582; 15581; 15580; 28768]) (Some (LW 468)) (Some (LW 28768));
    Cell ([405; 16986; 28768; 16689], [28831; 467; 28895; 15579; 15578; 15577; 28769]) (Some (LW 467)) (Some (LW 28769));
    Cell ([404; 16987; 28769; 16689], [28832; 466; 28896; 15576; 15575; 15574; 28770]) (Some (LW 466)) (Some (LW 28770));
    Cell ([403; 16988; 28770; 16689], [28833; 465; 28897; 15573; 15572; 15571; 28771]) (Some (LW 465)) (Some (LW 28771));
    Cell ([402; 16989; 28771; 16689], [28834; 464; 28898; 15570; 15569; 15568; 28772]) (Some (LW 464)) (Some (LW 28772));
    Cell ([401; 16990; 28772; 16689], [28835; 463; 28899; 15567; 15566; 15565; 28773]) (Some (LW 463)) (Some (LW 28773));
    Cell ([400; 16991; 28773; 16689], [28836; 462; 28900; 15564; 15563; 15562; 28774]) (Some (LW 462)) (Some (LW 28774));
    Cell ([399; 16992; 28774; 16689], [28837; 461; 28901; 15561; 15560; 15559; 28775]) (Some (LW 461)) (Some (LW 28775));
    Cell ([398; 16993; 28775; 16689], [28838; 460; 28902; 15558; 15557; 15556; 28776]) (Some (LW 460)) (Some (LW 28776));
    Cell ([397; 16994; 28776; 16689], [28839; 459; 28903; 15555; 15554; 15553; 28777]) (Some (LW 459)) (Some (LW 28777));
    Cell ([396; 16995; 28777; 16689], [28840; 458; 28904; 15552; 15551; 15550; 28778]) (Some (LW 458)) (Some (LW 28778));
    Cell ([395; 16996; 28778; 16689], [28841; 457; 28905; 15549; 15548; 15547; 28779]) (Some (LW 457)) (Some (LW 28779));
    Cell ([394; 16997; 28779; 16689], [28842; 456; 28906; 15546; 15545; 15544; 28780]) (Some (LW 456)) (Some (LW 28780));
    Cell ([393; 16998; 28780; 16689], [28843; 455; 28907; 15543; 15542; 15541; 28781]) (Some (LW 455)) (Some (LW 28781));
    Cell ([392; 16999; 28781; 16689], [28844; 454; 28908; 15540; 15539; 15538; 28782]) (Some (LW 454)) (Some (LW 28782));
    Cell ([391; 17000; 28782; 16689], [28845; 453; 28909; 15537; 15536; 15535; 28783]) (Some (LW 453)) (Some (LW 28783));
    Cell ([390; 17001; 28783; 16689], [28846; 452; 28910; 15534; 15533; 15532; 28784]) (Some (LW 452)) (Some (LW 28784));
    Cell ([389; 17002; 28784; 16689], [28847; 451; 28911; 15531; 15530; 15529; 28785]) (Some (LW 451)) (Some (LW 28785));
    Cell ([388; 17003; 28785; 16689], [28848; 450; 28912; 15528; 15527; 15526; 28786]) (Some (LW 450)) (Some (LW 28786));
    Cell ([387; 17004; 28786; 16689], [28849; 449; 28913; 15525; 15524; 15523; 28787]) (Some (LW 449)) (Some (LW 28787));
    Cell ([386; 17005; 28787; 16689], [28850; 448; 28914; 15522; 15521; 15520; 28788]) (Some (LW 448)) (Some (LW 28788));
    Cell ([385; 17006; 28788; 16689], [28851; 447; 28915; 15519; 15518; 15517; 28789]) (Some (LW 447)) (Some (LW 28789));
    Cell ([384; 17007; 28789; 16689], [28852; 446; 28916; 15516; 15515; 15514; 28790]) (Some (LW 446)) (Some (LW 28790));
    Cell ([383; 17008; 28790; 16689], [28853; 445; 28917; 15513; 15512; 15511; 28791]) (Some (LW 445)) (Some (LW 28791));
    Cell ([382; 17009; 28791; 16689], [28854; 134]) (Some (LW 134)) (None)]
   134 16688.
Definition divide64_row_5 : srow := SRow
   [Cell ([16877; 16946; 16688], [570; 28666; 28540]) (Some (LW 570)) (Some (LW 28540));
    Cell ([507; 16947; 28540; 16688], [28603; 569; 28667; 15510; 15509; 15508; 28541]) (Some (LW 569)) (Some (LW 28541));
    Cell ([506; 16948; 28541; 16688], [28604; 568; 28668; 15507; 15506; 15505; 28542]) (Some (LW 568)) (Some (LW 28542));
    Cell ([505; 16949; 28542; 16688], [28605; 567; 28669; 15504; 15503; 15502; 28543]) (Some (LW 567)) (Some (LW 28543));
    Cell ([504; 16950; 28543; 16688], [28606; 566; 28670; 15501; 15500; 15499; 28544]) (Some (LW 566)) (Some (LW 28544));
    Cell ([503; 16951; 28544; 16688], [28607; 565; 28671; 15498; 15497; 15496; 28545]) (Some (LW 565)) (Some (LW 28545));
    Cell ([502; 16952; 28545; 16688], [28608; 564; 28672; 15495; 15494; 15493; 28546]) (Some (LW 564)) (Some (LW 28546));
    Cell ([501; 16953; 28546; 16688], [28609; 563; 28673; 15492; 15491; 15490; 28547]) (Some (LW 563)) (Some (LW 28547));
    Cell ([500; 16954; 28547; 16688], [28610; 562; 28674; 15489; 15488; 15487; 28548]) (Some (LW 562)) (Some (LW 28548));
    Cell ([499; 16955; 28548; 16688], [28611; 561; 28675; 15486; 15485; 15484; 28549]) (Some (LW 561)) (Some (LW 28549));
    Cell ([498; 16956; 28549; 16688], [28612; 560; 28676; 15483; 15482; 15481; 28550]) (Some (LW 560)) (Some (LW 28550));
    Cell ([497; 16957; 28550; 16688], [28613; 559; 28677; 15480; 15479; 15478; 28551]) (Some (LW 559)) (Some (LW 28551));
    Cell ([496; 16958; 28551; 16688], [28614; 558; 28678; 15477; 15476; 15475; 28552]) (Some (LW 558)) (Some (LW 28552));
    Cell ([495; 16959; 28552; 16688], [28615; 557; 28679; 15474; 15473; 15472; 28553]) (Some (LW 557)) (Some (LW 28553));
    Cell ([494; 16960; 28553; 16688], [28616; 556; 28680; 15471; 15470; 15469; 28554]) (Some (LW 556)) (Some (LW 28554));
    Cell ([493; 16961; 28554; 16688], [28617; 555; 28681; 15468; 15467; 15466; 28555]) (Some (LW 555)) (Some (LW 28555));
    Cell ([492; 16962; 28555; 16688], [28618; 554; 28682; 15465; 15464; 15463; 28556]) (Some (LW 554)) (Some (LW 28556));
    Cell ([491; 16963; 28556; 16688], [28619; 553; 28683; 15462; 15461; 15460; 28557]) (Some (LW 553)) (Some (LW 28557));
    Cell ([490; 16964; 28557; 16688], [28620; 552; 28684; 15459; 15458; 15457; 28558]) (Some (LW 552)) (Some (LW 28558));
    Cell ([489; 16965; 28558; 16688], [28621; 551; 28685; 15456; 15455; 15454; 28559]) (Some (LW 551)) (Some (LW 28559));
    Cell ([488; 16966; 28559; 16688], [28622; 550; 28686; 15453; 15452; 15451; 28560]) (Some (LW 550)) (Some (LW 28560));
    Cell ([487; 16967; 28560; 16688], [28623; 549; 28687; 15450; 15449; 15448; 28561]) (Some (LW 549)) (Some (LW 28561));
    Cell ([486; 16968; 28561; 16688], [28624; 548; 28688; 15447; 15446; 15445; 28562]) (Some (LW 548)) (Some (LW 28562));
    Cell ([485; 16969; 28562; 16688], [28625; 547; 28689; 15444; 15443; 15442; 28563]) (Some (LW 547)) (Some (LW 28563));
    Cell ([484; 16970; 28563; 16688], [28626; 546; 28690; 15441; 15440; 15439; 28564]) (Some (LW 546)) (Some (LW 28564));
    Cell ([483; 16971; 28564; 16688], [28627; 545; 28691; 15438; 15437; 15436; 28565]) (Some (LW 545)) (Some (LW 28565));
    Cell ([482; 16972; 28565; 16688], [28628; 544; 28692; 15435; 15434; 15433; 28566]) (Some (LW 544)) (Some (LW 28566));
    Cell ([481; 16973; 28566; 16688], [28629; 543; 28693; 15432; 15431; 15430; 28567]) (Some (LW 543)) (Some (LW 28567));
    Cell ([480; 16974; 28567; 16688], [28630; 542; 28694; 15429; 15428; 15427; 28568]) (Some (LW 542)) (Some (LW 28568));
    Cell ([479; 16975; 28568; 16688], [28631; 541; 28695; 15426; 15425; 15424; 28569]) (Some (LW 541)) (Some (LW 28569));
    Cell ([478; 16976; 28569; 16688], [28632; 540; 28696; 15423; 15422; 15421; 28570]) (Some (LW 540)) (Some (LW 28570));
    Cell ([477; 16977; 28570; 16688], [28633; 539; 28697; 15420; 15419; 15418; 28571]) (Some (LW 539)) (Some (LW 28571));
    Cell ([476; 16978; 28571; 16688], [28634; 538; 28698; 15417; 15416; 15415; 28572]) (Some (LW 538)) (Some (LW 28572));
    Cell ([475; 16979; 28572; 16688], [28635; 537; 28699; 15414; 15413; 15412; 28573]) (Some (LW 537)) (Some (LW 28573));
    Cell ([474; 16980; 28573; 16688], [28636; 536; 28700; 15411; 15410; 15409; 28574]) (Some (LW 536)) (Some (LW 28574));
    Cell ([473; 16981; 28574; 16688], [28637; 535; 28701; 15408; 15407; 15406; 28575]) (Some (LW 535)) (Some (LW 28575));
    Cell ([472; 16982; 28575; 16688], [28638; 534; 28702; 15405; 15404; 15403; 28576]) (Some (LW 534)) (Some (LW 28576));
    Cell ([471; 16983; 28576; 16688], [28639; 533; 28703; 15402; 15401; 15400; 28577]) (Some (LW 533)) (Some (LW 28577));
    Cell ([470; 16984; 28577; 16688], [28640; 532; 28704; 15399; 15398; 15397; 28578]) (Some (LW 532)) (Some (LW 28578));
    Cell ([469; 16985; 28578; 16688], [28641; 531; 28705; 15396; 15395; 15394; 28579]) (Some (LW 531)) (Some (LW 28579));
    Cell ([468; 16986; 28579; 16688], [28642; 530; 28706; 15393; 15392; 15391; 28580]) (Some (LW 530)) (Some (LW 28580));
    Cell ([467; 16987; 28580; 16688], [28643; 529; 28707; 15390; 15389; 15388; 28581]) (Some (LW 529)) (Some (LW 28581));
    Cell ([466; 16988; 28581; 16688], [28644; 528; 28708; 15387; 15386; 15385; 28582]) (Some (LW 528)) (Some (LW 28582));
    Cell ([465; 16989; 28582; 16688], [28645; 527; 28709; 15384; 15383; 15382; 28583]) (Some (LW 527)) (Some (LW 28583));
    Cell ([464; 16990; 28583; 16688], [28646; 526; 28710; 15381; 15380; 15379; 28584]) (Some (LW 526)) (Some (LW 28584));
    Cell ([463; 16991; 28584; 16688], [28647; 525; 28711; 15378; 15377; 15376; 28585]) (Some (LW 525)) (Some (LW 28585));
    Cell ([462; 16992; 28585; 16688], [28648; 524; 28712; 15375; 15374; 15373; 28586]) (Some (LW 524)) (Some (LW 28586));
    Cell ([461; 16993; 28586; 16688], [28649; 523; 28713; 15372; 15371; 15370; 28587]) (Some (LW 523)) (Some (LW 28587));
    Cell ([460; 16994; 28587; 16688], [28650; 522; 28714; 15369; 15368; 15367; 28588]) (Some (LW 522)) (Some (LW 28588));
    Cell ([459; 16995; 28588; 16688], [28651; 521; 28715; 15366; 15365; 15364; 28589]) (Some (LW 521)) (Some (LW 28589));
    Cell ([458; 16996; 28589; 16688], [28652; 520; 28716; 15363; 15362; 15361; 28590]) (Some (LW 520)) (Some (LW 28590));
    Cell ([457; 16997; 28590; 16688], [28653; 519; 28717; 15360; 15359; 15358; 28591]) (Some (LW 519)) (Some (LW 28591));
    Cell ([456; 16998; 28591; 16688], [28654; 518; 28718; 15357; 15356; 15355; 28592]) (Some (LW 518)) (Some (LW 28592));
    Cell ([455; 16999; 28592; 16688], [28655; 517; 28719; 15354; 15353; 15352; 28593]) (Some (LW 517)) (Some (LW 28593));
    Cell ([454; 17000; 28593; 16688], [28656; 516; 28720; 15351; 15350; 15349; 28594]) (Some (LW 516)) (Some (LW 28594));
    Cell ([453; 17001; 28594; 16688], [28657; 515; 28721; 15348; 15347; 15346; 28595]) (Some (LW 515)) (Some (LW 28595));
    Cell ([452; 17002; 28595; 16688], [28658; 514; 28722; 15345; 15344; 15343; 28596]) (Some (LW 514)) (Some (LW 28596));
    Cell ([451; 17003; 28596; 16688], [28659; 513; 28723; 15342; 15341; 15340; 28597]) (Some (LW 513)) (Some (LW 28597));
    Cell ([450; 17004; 28597; 16688], [28660; 512; 28724; 15339; 15338; 15337; 28598]) (Some (LW 512)) (Some (LW 28598));
    Cell ([449; 17005; 28598; 16688], [28661; 511; 28725; 15336; 15335; 15334; 28599]) (Some (LW 511)) (Some (LW 28599));
    Cell ([448; 17006; 28599; 16688], [28662; 510; 28726; 15333; 15332; 15331; 28600]) (Some (LW 510)) (Some (LW 28600));
    Cell ([447; 17007; 28600; 16688], [28663; 509; 28727; 15330; 15329; 15328; 28601]) (Some (LW 509)) (Some (LW 28601));
    Cell ([446; 17008; 28601; 16688], [28664; 508; 28728; 15327; 15326; 15325; 28602]) (Some (LW 508)) (Some (LW 28602));
    Cell ([445; 17009; 28602; 16688], [28665; 135]) (Some (LW 135)) (None)]
   135 16687.
Definition divide64_row_6 : srow := SRow
   [Cell ([16876; 16946; 16687], [633; 28477; 28351]) (Some (LW 633)) (Some (LW 28351));
    Cell ([570; 16947; 28351; 16687], [28414; 632; 28478; 15324; 15323; 15322; 28352]) (Some (LW 632)) (Some (LW 28352));
    Cell ([569; 16948; 28352; 16687], [28415; 631; 28479; 15321; 15320; 15319; 28353]) (Some (LW 631)) (Some (LW 28353));
    Cell ([568; 16949; 28353; 16687], [28416; 630; 28480; 15318; 15317; 15316; 28354]) (Some (LW 630)) (Some (LW 28354));
    Cell ([567; 16950; 28354; 16687], [28417; 629; 28481; 15315; 15314; 15313; 28355]) (Some (LW 629)) (Some (LW 28355));
    Cell ([566; 16951; 28355; 16687], [28418; 628; 28482; 15312; 15311; 15310; 28356]) (Some (LW 628)) (Some (LW 28356));
    Cell ([565; 16952; 28356; 16687], [28419; 627; 28483; 15309; 15308; 15307; 28357]) (Some (LW 627)) (Some (LW 28357));
    Cell ([564; 16953; 28357; 16687], [28420; 626; 28484; 15306; 15305; 15304; 28358]) (Some (LW 626)) (Some (LW 28358));
    Cell ([563; 16954; 28358; 16687], [28421; 625; 28485; 15303; 15302; 15301; 28359]) (Some (LW 625)) (Some (LW 28359));
    Cell ([562; 16955; 28359; 16687], [28422; 624; 28486; 15300; 15299; 15298; 28360]) (Some (LW 624)) (Some (LW 28360));
    Cell ([561; 16956; 28360; 16687], [28423; 623; 28487; 15297; 15296; 15295; 28361]) (Some (LW 623)) (Some (LW 28361));
    Cell ([560; 16957; 28361; 16687], [28424; 622; 28488; 15294; 15293; 15292; 28362]) (Some (LW 622)) (Some (LW 28362));
    Cell ([559; 16958; 28362; 16687], [28425; 621; 28489; 15291; 15290; 15289; 28363]) (Some (LW 621)) (Some (LW 28363));
    Cell ([558; 16959; 28363; 16687], [28426; 620; 28490; 15288; 15287; 15286; 28364]) (Some (LW 620)) (Some (LW 28364));
    Cell ([557; 16960; 28364; 16687], [28427; 619; 28491; 15285; 15284; 15283; 28365]) (Some (LW 619)) (Some (LW 28365));
    Cell ([556; 16961; 28365; 16687], [28428; 618; 28492; 15282; 15281; 15280; 28366]) (Some (LW 618)) (Some (LW 28366));
    Cell ([555; 16962; 28366; 16687], [28429; 617; 28493; 15279; 15278; 15277; 28367]) (Some (LW 617)) (Some (LW 28367));
    Cell ([554; 16963; 28367; 16687], [28430; 616; 28494; 15276; 15275; 15274; 28368]) (Some (LW 616)) (Some (LW 28368));
    Cell ([553; 16964; 28368; 16687], [28431; 615; 28495; 15273; 15272; 15271; 28369]) (Some (LW 615)) (Some (LW 28369));
    Cell ([552; 16965; 28369; 16687], [28432; 614; 28496; 15270; 15269; 15268; 28370]) (Some (LW 614)) (Some (LW 28370));
    Cell ([551; 16966; 28370; 16687], [28433; 613; 28497; 15267; 15266; 15265; 28371]) (Some (LW 613)) (Some (LW 28371));
    Cell ([550; 16967; 28371; 16687], [28434; 612; 28498; 15264; 15263; 15262; 28372]) (Some (LW 612)) (Some (LW 28372));
    Cell ([549; 16968; 28372; 16687], [28435; 611; 28499; 15261; 15260; 15259; 28373]) (Some (LW 611)) (Some (LW 28373));
    Cell ([548; 16969; 28373; 16687], [28436; 610; 28500; 15258; 15257; 15256; 28374]) (Some (LW 610)) (Some (LW 28374));
    Cell ([547; 16970; 28374; 16687], [28437; 609; 28501; 15255; 15254; 15253; 28375]) (Some (LW 609)) (Some (LW 28375));
    Cell ([546; 16971; 28375; 16687], [28438; 608; 28502; 15252; 15251; 15250; 28376]) (Some (LW 608)) (Some (LW 28376));
    Cell ([545; 16972; 28376; 16687], [28439; 607; 28503; 15249; 15248; 15247; 28377]) (Some (LW 607)) (Some (LW 28377));
    Cell ([544; 16973; 28377; 16687], [28440; 606; 28504; 15246; 15245; 15244; 28378]) (Some (LW 606)) (Some (LW 28378));
    Cell ([543; 16974; 28378; 16687], [28441; 605; 28505; 15243; 15242; 15241; 28379]) (Some (LW 605)) (Some (LW 28379));
    Cell ([542; 16975; 28379; 16687], [28442; 604; 28506; 15240; 15239; 15238; 28380]) (Some (LW 604)) (Some (LW 28380));
    Cell ([541; 16976; 28380; 16687], [28443; 603; 28507; 15237; 15236; 15235; 28381]) (Some (LW 603)) (Some (LW 28381));
    Cell ([540; 16977; 28381; 16687], [28444; 602; 28508; 15234; 15233; 15232; 28382]) (Some (LW 602)) (Some (LW 28382));
    Cell ([539; 16978; 28382; 16687], [28445; 601; 28509; 15231; 15230; 15229; 28383]) (Some (LW 601)) (Some (LW 28383));
    Cell ([538; 16979; 28383; 16687], [28446; 600; 28510; 15228; 15227; 15226; 28384]) (Some (LW 600)) (Some (LW 28384));
    Cell ([537; 16980; 28384; 16687], [28447; 599; 28511; 15225; 15224; 15223; 28385]) (Some (LW 599)) (Some (LW 28385));
    Cell ([536; 16981; 28385; 16687], [28448; 598; 28512; 15222; 15221; 15220; 28386]) (Some (LW 598)) (Some (LW 28386));
    Cell ([535; 16982; 28386; 16687], [28449; 597; 28513; 15219; 15218; 15217; 28387]) (Some (LW 597)) (Some (LW 28387));
    Cell ([534; 16983; 28387; 16687], [28450; 596; 28514; 15216; 15215; 15214; 28388]) (Some (LW 596)) (Some (LW 28388));
    Cell ([533; 16984; 28388; 16687], [28451; 595; 28515; 15213; 15212; 15211; 28389]) (Some (LW 595)) (Some (LW 28389));
    Cell ([532; 16985; 28389; 16687], [28452; 594; 28516; 15210; 15209; 15208; 28390]) (Some (LW 594)) (Some (LW 28390));
    Cell ([531; 16986; 28390; 16687], [28453; 593; 28517; 15207; 15206; 15205; 28391]) (Some (LW 593)) (Some (LW 28391));
    Cell ([530; 16987; 28391; 16687], [28454; 592; 28518; 15204; 15203; 15202; 28392]) (Some (LW 592)) (Some (LW 28392));
    Cell ([529; 16988; 28392; 16687], [28455; 591; 28519; 15201; 15200; 15199; 28393]) (Some (LW 591)) (Some (LW 28393));
    Cell ([528; 16989; 28393; 16687], [28456; 590; 28520; 15198; 15197; 15196; 28394]) (Some (LW 590)) (Some (LW 28394));
    Cell ([527; 16990; 28394; 16687], [28457; 589; 28521; 15195; 15194; 15193; 28395]) (Some (LW 589)) (Some (LW 28395));
    Cell ([526; 16991; 28395; 16687], [28458; 588; 28522; 15192; 15191; 15190; 28396]) (Some (LW 588)) (Some (LW 28396));
    Cell ([525; 16992; 28396; 16687], [28459; 587; 28523; 15189; 15188; 15187; 28397]) (Some (LW 587)) (Some (LW 28397));
    Cell ([524; 16993; 28397; 16687], [28460; 586; 28524; 15186; 15185; 15184; 28398]) (Some (LW 586)) (Some (LW 28398));
    Cell ([523; 16994; 28398; 16687], [28461; 585; 28525; 15183; 15182; 15181; 28399]) (Some (LW 585)) (Some (LW 28399));
    Cell ([522; 16995; 28399; 16687], [28462; 584; 28526; 15180; 15179; 15178; 28400]) (Some (LW 584)) (Some (LW 28400));
    Cell ([521; 16996; 28400; 16687], [28463; 583; 28527; 15177; 15176; 15175; 28401]) (Some (LW 583)) (Some (LW 28401));
    Cell ([520; 16997; 28401; 16687], [28464; 582; 28528; 15174; 15173; 15172; 28402]) (Some (LW 582)) (Some (LW 28402));
    Cell ([519; 16998; 28402; 16687], [28465; 581; 28529; 15171; 15170; 15169; 28403]) (Some (LW 581)) (Some (LW 28403));
    Cell ([518; 16999; 28403; 16687], [28466; 580; 28530; 15168; 15167; 15166; 28404]) (Some (LW 580)) (Some (LW 28404));
    Cell ([517; 17000; 28404; 16687], [28467; 579; 28531; 15165; 15164; 15163; 28405]) (Some (LW 579)) (Some (LW 28405));
    Cell ([516; 17001; 28405; 16687], [28468; 578; 28532; 15162; 15161; 15160; 28406]) (Some (LW 578)) (Some (LW 28406));
    Cell ([515; 17002; 28406; 16687], [28469; 577; 28533; 15159; 15158; 15157; 28407]) (Some (LW 577)) (Some (LW 28407));
    Cell ([514; 17003; 28407; 16687], [28470; 576; 28534; 15156; 15155; 15154; 28408]) (Some (LW 576)) (Some (LW 28408));
    Cell ([513; 17004; 28408; 16687], [28471; 575; 28535; 15153; 15152; 15151; 28409]) (Some (LW 575)) (Some (LW 28409));
    Cell ([512; 17005; 28409; 16687], [28472; 574; 28536; 15150; 15149; 15148; 28410]) (Some (LW 574)) (Some (LW 28410));
    Cell ([511; 17006; 28410; 16687], [28473; 573; 28537; 15147; 15146; 15145; 28411]) (Some (LW 573)) (Some (LW 28411));
    Cell ([510; 17007; 28411; 16687], [28474; 572; 28538; 15144; 15143; 15142; 28412]) (Some (LW 572)) (Some (LW 28412));
    Cell ([509; 17008; 28412; 16687], [28475; 571; 28539; 15141; 15140; 15139; 28413]) (Some (LW 571)) (Some (LW 28413));
    Cell ([508; 17009; 28413; 16687], [28476; 136]) (Some (LW 136)) (None)]
   136 16686.
Definition divide64_row_7 : srow := SRow
   [Cell ([16875; 16946; 16686], [696; 28288; 28162]) (Some (LW 696)) (Some (LW 28162));
    Cell ([633; 16947; 28162; 16686], [28225; 695; 28289; 15138; 15137; 15136; 28163]) (Some (LW 695)) (Some (LW 28163));
    Cell ([632; 16948; 28163; 16686], [28226; 694; 28290; 15135; 15134; 15133; 28164]) (Some (LW 694)) (Some (LW 28164));
    Cell ([631; 16949; 28164; 16686], [28227; 693; 28291; 15132; 15131; 15130; 28165]) (Some (LW 693)) (Some (LW 28165));
    Cell ([630; 16950; 28165; 16686], [28228; 692; 28292; 15129; 15128; 15127; 28166]) (Some (LW 692)) (Some (LW 28166));
    Cell ([629; 16951; 28166; 16686], [28229; 691; 28293; 15126; 15125; 15124; 28167]) (Some (LW 691)) (Some (LW 28167));
    Cell ([628; 16952; 28167; 16686], [28230; 690; 28294; 15123; 15122; 15121; 28168]) (Some (LW 690)) (Some (LW 28168));
    Cell ([627; 16953; 28168; 16686], [28231; 689; 28295; 15120; 15119; 15118; 28169]) (Some (LW 689)) (Some (LW 28169));
    Cell ([626; 16954; 28169; 16686], [28232; 688; 28296; 15117; 15116; 15115; 28170]) (Some (LW 688)) (Some (LW 28170));
    Cell ([625; 16955; 28170; 16686], [28233; 687; 28297; 15114; 15113; 15112; 28171]) (Some (LW 687)) (Some (LW 28171));
    Cell ([624; 16956; 28171; 16686], [28234; 686; 28298; 15111; 15110; 15109; 28172]) (Some (LW 686)) (Some (LW 28172));
    Cell ([623; 16957; 28172; 16686], [28235; 685; 28299; 15108; 15107; 15106; 28173]) (Some (LW 685)) (Some (LW 28173));
    Cell ([622; 16958; 28173; 16686], [28236; 684; 28300; 15105; 15104; 15103; 28174]) (Some (LW 684)) (Some (LW 28174));
    Cell ([621; 16959; 28174; 16686], [28237; 683; 28301; 15102; 15101; 15100; 28175]) (Some (LW 683)) (Some (LW 28175));
    Cell ([620; 16960; 28175; 16686], [28238; 682; 28302; 15099; 15098; 15097; 28176]) (Some (LW 682)) (Some (LW 28176));
    Cell ([619; 16961; 28176; 16686], [28239; 681; 28303; 15096; 15095; 15094; 28177]) (Some (LW 681)) (Some (LW 28177));
    Cell ([618; 16962; 28177; 16686], [28240; 680; 28304; 15093; 15092; 15091; 28178]) (Some (LW 680)) (Some (LW 28178));
    Cell ([617; 16963; 28178; 16686], [28241; 679; 28305; 15090; 15089; 15088; 28179]) (Some (LW 679)) (Some (LW 28179));
    Cell ([616; 16964; 28179; 16686], [28242; 678; 28306; 15087; 15086; 15085; 28180]) (Some (LW 678)) (Some (LW 28180));
    Cell ([615; 16965; 28180; 16686], [28243; 677; 28307; 15084; 15083; 15082; 28181]) (Some (LW 677)) (Some (LW 28181));
    Cell ([614; 16966; 28181; 16686], [28244; 676; 28308; 15081; 15080; 15079; 28182]) (Some (LW 676)) (Some (LW 28182));
    Cell ([613; 16967; 28182; 16686], [28245; 675; 28309; 15078; 15077; 15076; 28183]) (Some (LW 675)) (Some (LW 28183));
    Cell ([612; 16968; 28183; 16686], [28246; 674; 28310; 15075; 15074; 15073; 28184]) (Some (LW 674)) (Some (LW 28184));
    Cell ([611; 16969; 28184; 16686], [28247; 673; 28311; 15072; 15071; 15070; 28185]) (Some (LW 673)) (Some (LW 28185));
    Cell ([610; 16970; 28185; 16686], [28248; 672; 28312; 15069; 15068; 15067; 28186]) (Some (LW 672)) (Some (LW 28186));
    Cell ([609; 16971; 28186; 16686], [28249; 671; 28313; 15066; 15065; 15064; 28187]) (Some (LW 671)) (Some (LW 28187));
    Cell ([608; 16972; 28187; 16686], [28250; 670; 28314; 15063; 15062; 15061; 28188]) (Some (LW 670)) (Some (LW 28188));
    Cell ([607; 16973; 28188; 16686], [28251; 669; 28315; 15060; 15059; 15058; 28189]) (Some (LW 669)) (Some (LW 28189));
    Cell ([606; 16974; 28189; 16686], [28252; 668; 28316; 15057; 15056; 15055; 28190]) (Some (LW 668)) (Some (LW 28190));
    Cell ([605; 16975; 28190; 16686], [28253; 667; 28317; 15054; 15053; 15052; 28191]) (Some (LW 667)) (Some (LW 28191));
    Cell ([604; 16976; 28191; 16686], [28254; 666; 28318; 15051; 15050; 15049; 28192]) (Some (LW 666)) (Some (LW 28192));
    Cell ([603; 16977; 28192; 16686], [28255; 665; 28319; 15048; 15047; 15046; 28193]) (Some (LW 665)) (Some (LW 28193));
    Cell ([602; 16978; 28193; 16686], [28256; 664; 28320; 15045; 15044; 15043; 28194]) (Some (LW 664)) (Some (LW 28194));
    Cell ([601; 16979; 28194; 16686], [28257; 663; 28321; 15042; 15041; 15040; 28195]) (Some (LW 663)) (Some (LW 28195));
    Cell ([600; 16980; 28195; 16686], [28258; 662; 28322; 15039; 15038; 15037; 28196]) (Some (LW 662)) (Some (LW 28196));
    Cell ([599; 16981; 28196; 16686], [28259; 661; 28323; 15036; 15035; 15034; 28197]) (Some (LW 661)) (Some (LW 28197));
    Cell ([598; 16982; 28197; 16686], [28260; 660; 28324; 15033; 15032; 15031; 28198]) (Some (LW 660)) (Some (LW 28198));
    Cell ([597; 16983; 28198; 16686], [28261; 659; 28325; 15030; 15029; 15028; 28199]) (Some (LW 659)) (Some (LW 28199));
    Cell ([596; 16984; 28199; 16686], [28262; 658; 28326; 15027; 15026; 15025; 28200]) (Some (LW 658)) (Some (LW 28200));
    Cell ([595; 16985; 28200; 16686], [28263; 657; 28327; 15024; 15023; 15022; 28201]) (Some (LW 657)) (Some (LW 28201));
    Cell ([594; 16986; 28201; 16686], [28264; 656; 28328; 15021; 15020; 15019; 28202]) (Some (LW 656)) (Some (LW 28202));
    Cell ([593; 16987; 28202; 16686], [28265; 655; 28329; 15018; 15017; 15016; 28203]) (Some (LW 655)) (Some (LW 28203));
    Cell ([592; 16988; 28203; 16686], [28266; 654; 28330; 15015; 15014; 15013; 28204]) (Some (LW 654)) (Some (LW 28204));
    Cell ([591; 16989; 28204; 16686], [28267; 653; 28331; 15012; 15011; 15010; 28205]) (Some (LW 653)) (Some (LW 28205));
    Cell ([590; 16990; 28205; 16686], [28268; 652; 28332; 15009; 15008; 15007; 28206]) (Some (LW 652)) (Some (LW 28206));
    Cell ([589; 16991; 28206; 16686], [28269; 651; 28333; 15006; 15005; 15004; 28207]) (Some (LW 651)) (Some (LW 28207));
    Cell ([588; 16992; 28207; 16686], [28270; 650; 28334; 15003; 15002; 15001; 28208]) (Some (LW 650)) (Some (LW 28208));
    Cell ([587; 16993; 28208; 16686], [28271; 649; 28335; 15000; 14999; 14998; 28209]) (Some (LW 649)) (Some (LW 28209));
    Cell ([586; 16994; 28209; 16686], [28272; 648; 28336; 14997; 14996; 14995; 28210]) (Some (LW 648)) (Some (LW 28210));
    Cell ([585; 16995; 28210; 16686], [28273; 647; 28337; 14994; 14993; 14992; 28211]) (Some (LW 647)) (Some (LW 28211));
    Cell ([584; 16996; 28211; 16686], [28274; 646; 28338; 14991; 14990; 14989; 28212]) (Some (LW 646)) (Some (LW 28212));
    Cell ([583; 16997; 28212; 16686], [28275; 645; 28339; 14988; 14987; 14986; 28213]) (Some (LW 645)) (Some (LW 28213));
    Cell ([582; 16998; 28213; 16686], [28276; 644; 28340; 14985; 14984; 14983; 28214]) (Some (LW 644)) (Some (LW 28214));
    Cell ([581; 16999; 28214; 16686], [28277; 643; 28341; 14982; 14981; 14980; 28215]) (Some (LW 643)) (Some (LW 28215));
    Cell ([580; 17000; 28215; 16686], [28278; 642; 28342; 14979; 14978; 14977; 28216]) (Some (LW 642)) (Some (LW 28216));
    Cell ([579; 17001; 28216; 16686], [28279; 641; 28343; 14976; 14975; 14974; 28217]) (Some (LW 641)) (Some (LW 28217));
    Cell ([578; 17002; 28217; 16686], [28280; 640; 28344; 14973; 14972; 14971; 28218]) (Some (LW 640)) (Some (LW 28218));
    Cell ([577; 17003; 28218; 16686], [28281; 639; 28345; 14970; 14969; 14968; 28219]) (Some (LW 639)) (Some (LW 28219));
    Cell ([576; 17004; 28219; 16686], [28282; 638; 28346; 14967; 14966; 14965; 28220]) (Some (LW 638)) (Some (LW 28220));
    Cell ([575; 17005; 28220; 16686], [28283; 637; 28347; 14964; 14963; 14962; 28221]) (Some (LW 637)) (Some (LW 28221));
    Cell ([574; 17006; 28221; 16686], [28284; 636; 28348; 14961; 14960; 14959; 28222]) (Some (LW 636)) (Some (LW 28222));
    Cell ([573; 17007; 28222; 16686], [28285; 635; 28349; 14958; 14957; 14956; 28223]) (Some (LW 635)) (Some (LW 28223));
    Cell ([572; 17008; 28223; 16686], [28286; 634; 28350; 14955; 14954; 14953; 28224]) (Some (LW 634)) (Some (LW 28224));
    Cell ([571; 17009; 28224; 16686], [28287; 137]) (Some (LW 137)) (None)]
   137 16685.
Definition divide64_row_8 : srow := SRow
   [Cell ([16874; 16946; 16685], [759; 28099; 27973]) (Some (LW 759)) (Some (LW 27973));
    Cell ([696; 16947; 27973; 16685], [28036; 758; 28100; 14952; 14951; 14950; 27974]) (Some (LW 758)) (Some (LW 27974));
    Cell ([695; 16948; 27974; 16685], [28037; 757; 28101; 14949; 14948; 14947; 27975]) (Some (LW 757)) (Some (LW 27975));
    Cell ([694; 16949; 27975; 16685], [28038; 756; 28102; 14946; 14945; 14944; 27976]) (Some (LW 756)) (Some (LW 27976));
    Cell ([693; 16950; 27976; 16685], [28039; 755; 28103; 14943; 14942; 14941; 27977]) (Some (LW 755)) (Some (LW 27977));
    Cell ([692; 16951; 27977; 16685], [28040; 754; 28104; 14940; 14939; 14938; 27978]) (Some (LW 754)) (Some (LW 27978));
    Cell ([691; 16952; 27978; 16685], [28041; 753; 28105; 14937; 14936; 14935; 27979]) (Some (LW 753)) (Some (LW 27979));
    Cell ([690; 16953; 27979; 16685], [28042; 752; 28106; 14934; 14933; 14932; 27980]) (Some (LW 752)) (Some (LW 27980));
    Cell ([689; 16954; 27980; 16685], [28043; 751; 28107; 14931; 14930; 14929; 27981]) (Some (LW 751)) (Some (LW 27981));
    Cell ([688; 16955; 27981; 16685], [28044; 750; 28108; 14928; 14927; 14926; 27982]) (Some (LW 750)) (Some (LW 27982));
    Cell ([687; 16956; 27982; 16685], [28045; 749; 28109; 14925; 14924; 14923; 27983]) (Some (LW 749)) (Some (LW 27983));
    Cell ([686; 16957; 27983; 16685], [28046; 748; 28110; 14922; 14921; 14920; 27984]) (Some (LW 748)) (Some (LW 27984));
    Cell ([685; 16958; 27984; 16685], [28047; 747; 28111; 14919; 14918; 14917; 27985]) (Some (LW 747)) (Some (LW 27985));
    Cell ([684; 16959; 27985; 16685], [28048; 746; 28112; 14916; 14915; 14914; 27986]) (Some (LW 746)) (Some (LW 27986));
    Cell ([683; 16960; 27986; 16685], [28049; 745; 28113; 14913; 14912; 14911; 27987]) (Some (LW 745)) (Some (LW 27987));
    Cell ([682; 16961; 27987; 16685], [28050; 744; 28114; 14910; 14909; 14908; 27988]) (Some (LW 744)) (Some (LW 27988));
    Cell ([681; 16962; 27988; 16685], [28051; 743; 28115; 14907; 14906; 14905; 27989]) (Some (LW 743)) (Some (LW 27989));
    Cell ([680; 16963; 27989; 16685], [28052; 742; 28116; 14904; 14903; 14902; 27990]) (Some (LW 742)) (Some (LW 27990));
    Cell ([679; 16964; 27990; 16685], [28053; 741; 28117; 14901; 14900; 14899; 27991]) (Some (LW 741)) (Some (LW 27991));
    Cell ([678; 16965; 27991; 16685], [28054; 740; 28118; 14898; 14897; 14896; 27992]) (Some (LW 740)) (Some (LW 27992));
    Cell ([677; 16966; 27992; 16685], [28055; 739; 28119; 14895; 14894; 14893; 27993]) (Some (LW 739)) (Some (LW 27993));
    Cell ([676; 16967; 27993; 16685], [28056; 738; 28120; 14892; 14891; 14890; 27994]) (Some (LW 738)) (Some (LW 27994));
    Cell ([675; 16968; 27994; 16685], [28057; 737; 28121; 14889; 14888; 14887; 27995]) (Some (LW 737)) (Some (LW 27995));
    Cell ([674; 16969; 27995; 16685], [28058; 736; 28122; 14886; 14885; 14884; 27996]) (Some (LW 736)) (Some (LW 27996));
    Cell ([673; 16970; 27996; 16685], [28059; 735; 28123; 14883; 14882; 14881; 27997]) (Some (LW 735)) (Some (LW 27997));
    Cell ([672; 16971; 27997; 16685], [28060; 734; 28124; 14880; 14879; 14878; 27998]) (Some (LW 734)) (Some (LW 27998));
    Cell ([671; 16972; 27998; 16685], [28061; 733; 28125; 14877; 14876; 14875; 27999]) (Some (LW 733)) (Some (LW 27999));
    Cell ([670; 16973; 27999; 16685], [28062; 732; 28126; 14874; 14873; 14872; 28000]) (Some (LW 732)) (Some (LW 28000));
    Cell ([669; 16974; 28000; 16685], [28063; 731; 28127; 14871; 14870; 14869; 28001]) (Some (LW 731)) (Some (LW 28001));
    Cell ([668; 16975; 28001; 16685], [28064; 730; 28128; 14868; 14867; 14866; 28002]) (Some (LW 730)) (Some (LW 28002));
    Cell ([667; 16976; 28002; 16685], [28065; 729; 28129; 14865; 14864; 14863; 28003]) (Some (LW 729)) (Some (LW 28003));
    Cell ([666; 16977; 28003; 16685], [28066; 728; 28130; 14862; 14861; 14860; 28004]) (Some (LW 728)) (Some (LW 28004));
    Cell ([665; 16978; 28004; 16685], [28067; 727; 28131; 14859; 14858; 14857; 28005]) (Some (LW 727)) (Some (LW 28005));
    Cell ([664; 16979; 28005; 16685], [28068; 726; 28132; 14856; 14855; 14854; 28006]) (Some (LW 726)) (Some (LW 28006));
    Cell ([663; 16980; 28006; 16685], [28069; 725; 28133; 14853; 14852; 14851; 28007]) (Some (LW 725)) (Some (LW 28007));
    Cell ([662; 16981; 28007; 16685], [28070; 724; 28134; 14850; 14849; 14848; 28008]) (Some (LW 724)) (Some (LW 28008));
    Cell ([661; 16982; 28008; 16685], [28071; 723; 28135; 14847; 14846; 14845; 28009]) (Some (LW 723)) (Some (LW 28009));
    Cell ([660; 16983; 28009; 16685], [28072; 722; 28136; 14844; 14843; 14842; 28010]) (Some (LW 722)) (Some (LW 28010));
    Cell ([659; 16984; 28010; 16685], [28073; 721; 28137; 14841; 14840; 14839; 28011]) (Some (LW 721)) (Some (LW 28011));
    Cell ([658; 16985; 28011; 16685], [28074; 720; 28138; 14838; 14837; 14836; 28012]) (Some (LW 720)) (Some (LW 28012));
    Cell ([657; 16986; 28012; 16685], [28075; 719; 28139; 14835; 14834; 14833; 28013]) (Some (LW 719)) (Some (LW 28013));
    Cell ([656; 16987; 28013; 16685], [28076; 718; 28140; 14832; 14831; 14830; 28014]) (Some (LW 718)) (Some (LW 28014));
    Cell ([655; 16988; 28014; 16685], [28077; 717; 28141; 14829; 14828; 14827; 28015]) (Some (LW 717)) (Some (LW 28015));
    Cell ([654; 16989; 28015; 16685], [28078; 716; 28142; 14826; 14825; 14824; 28016]) (Some (LW 716)) (Some (LW 28016));
    Cell ([653; 16990; 28016; 16685], [28079; 715; 28143; 14823; 14822; 14821; 28017]) (Some (LW 715)) (Some (LW 28017));
    Cell ([652; 16991; 28017; 16685], [28080; 714; 28144; 14820; 14819; 14818; 28018]) (Some (LW 714)) (Some (LW 28018));
    Cell ([651; 16992; 28018; 16685], [28081; 713; 28145; 14817; 14816; 14815; 28019]) (Some (LW 713)) (Some (LW 28019));
    Cell ([650; 16993; 28019; 16685], [28082; 712; 28146; 14814; 14813; 14812; 28020]) (Some (LW 712)) (Some (LW 28020));
    Cell ([649; 16994; 28020; 16685], [28083; 711; 28147; 14811; 14810; 14809; 28021]) (Some (LW 711)) (Some (LW 28021));
    Cell ([648; 16995; 28021; 16685], [28084; 710; 28148; 14808; 14807; 14806; 28022]) (Some (LW 710)) (Some (LW 28022));
    Cell ([647; 16996; 28022; 16685], [28085; 709; 28149; 14805; 14804; 14803; 28023]) (Some (LW 709)) (Some (LW 28023));
    Cell ([646; 16997; 28023; 16685], [28086; 708; 28150; 14802; 14801; 14800; 28024]) (Some (LW 708)) (Some (LW 28024));
    Cell ([645; 16998; 28024; 16685], [28087; 707; 28151; 14799; 14798; 14797; 28025]) (Some (LW 707)) (Some (LW 28025));
    Cell ([644; 16999; 28025; 16685], [28088; 706; 28152; 14796; 14795; 14794; 28026]) (Some (LW 706)) (Some (LW 28026));
    Cell ([643; 17000; 28026; 16685], [28089; 705; 28153; 14793; 14792; 14791; 28027]) (Some (LW 705)) (Some (LW 28027));
    Cell ([642; 17001; 28027; 16685], [28090; 704; 28154; 14790; 14789; 14788; 28028]) (Some (LW 704)) (Some (LW 28028));
    Cell ([641; 17002; 28028; 16685], [28091; 703; 28155; 14787; 14786; 14785; 28029]) (Some (LW 703)) (Some (LW 28029));
    Cell ([640; 17003; 28029; 16685], [28092; 702; 28156; 14784; 14783; 14782; 28030]) (Some (LW 702)) (Some (LW 28030));
    Cell ([639; 17004; 28030; 16685], [28093; 701; 28157; 14781; 14780; 14779; 28031]) (Some (LW 701)) (Some (LW 28031));
    Cell ([638; 17005; 28031; 16685], [28094; 700; 28158; 14778; 14777; 14776; 28032]) (Some (LW 700)) (Some (LW 28032));
    Cell ([637; 17006; 28032; 16685], [28095; 699; 28159; 14775; 14774; 14773; 28033]) (Some (LW 699)) (Some (LW 28033));
    Cell ([636; 17007; 28033; 16685], [28096; 698; 28160; 14772; 14771; 14770; 28034]) (Some (LW 698)) (Some (LW 28034));
    Cell ([635; 17008; 28034; 16685], [28097; 697; 28161; 14769; 14768; 14767; 28035]) (Some (LW 697)) (Some (LW 28035));
    Cell ([634; 17009; 28035; 16685], [28098; 138]) (Some (LW 138)) (None)]
   138 16684.
Definition divide64_row_9 : srow := SRow
   [Cell ([16873; 16946; 16684], [822; 27910; 27784]) (Some (LW 822)) (Some (LW 27784));
    Cell ([759; 16947; 27784; 16684], [27847; 821; 27911; 14766; 14765; 14764; 27785]) (Some (LW 821)) (Some (LW 27785));
    Cell ([758; 16948; 27785; 16684], [27848; 820; 27912; 14763; 14762; 14761; 27786]) (Some (LW 820)) (Some (LW 27786));
    Cell ([757; 16949; 27786; 16684], [27849; 819; 27913; 14760; 14759; 14758; 27787]) (Some (LW 819)) (Some (LW 27787));
    Cell ([756; 16950; 27787; 16684], [27850; 818; 27914; 14757; 14756; 14755; 27788]) (Some (LW 818)) (Some (LW 27788));
    Cell ([755; 16951; 27788; 16684], [27851; 817; 27915; 14754; 14753; 14752; 27789]) (Some (LW 817)) (Some (LW 27789));
    Cell ([754; 16952; 27789; 16684], [27852; 816; 27916; 14751; 14750; 14749; 27790]) (Some (LW 816)) (Some (LW 27790));
    Cell ([753; 16953; 27790; 16684], [27853; 815; 27917; 14748; 14747; 14746; 27791]) (Some (LW 815)) (Some (LW 27791));
    Cell ([752; 16954; 27791; 16684], [27854; 814; 27918; 14745; 14744; 14743; 27792]) (Some (LW 814)) (Some (LW 27792));
    Cell ([751; 16955; 27792; 16684], [27855; 813; 27919; 14742; 14741; 14740; 27793]) (Some (LW 813)) (Some (LW 27793));
    Cell ([750; 16956; 27793; 16684], [27856; 812; 27920; 14739; 14738; 14737; 27794]) (Some (LW 812)) (Some (LW 27794));
    Cell ([749; 16957; 27794; 16684], [27857; 811; 27921; 14736; 14735; 14734; 27795]) (Some (LW 811)) (Some (LW 27795));
    Cell ([748; 16958; 27795; 16684], [27858; 810; 27922; 14733; 14732; 14731; 27796]) (Some (LW 810)) (Some (LW 27796));
    Cell ([747; 16959; 27796; 16684], [27859; 809; 27923; 14730; 14729; 14728; 27797]) (Some (LW 809)) (Some (LW 27797));
    Cell ([746; 16960; 27797; 16684], [27860; 808; 27924; 14727; 14726; 14725; 27798]) (Some (LW 808)) (Some (LW 27798));
    Cell ([745; 16961; 27798; 16684], [27861; 807; 27925; 14724; 14723; 14722; 27799]) (Some (LW 807)) (Some (LW 27799));
    Cell ([744; 16962; 27799; 16684], [27862; 806; 27926; 14721; 14720; 14719; 27800]) (Some (LW 806)) (Some (LW 27800));
    Cell ([743; 16963; 27800; 16684], [27863; 805; 27927; 14718; 14717; 14716; 27801]) (Some (LW 805)) (Some (LW 27801));
    Cell ([742; 16964; 27801; 16684], [27864; 804; 27928; 14715; 14714; 14713; 27802]) (Some (LW 804)) (Some (LW 27802));
    Cell ([741; 16965; 27802; 16684], [27865; 803; 27929; 14712; 14711; 14710; 27803]) (Some (LW 803)) (Some (LW 27803));
    Cell ([740; 16966; 27803; 16684], [27866; 802; 27930; 14709; 14708; 14707; 27804]) (Some (LW 802)) (Some (LW 27804));
    Cell ([739; 16967; 27804; 16684], [27867; 801; 27931; 14706; 14705; 14704; 27805]) (Some (LW 801)) (Some (LW 27805));
    Cell ([738; 16968; 27805; 16684], [27868; 800; 27932; 14703; 14702; 14701; 27806]) (Some (LW 800)) (Some (LW 27806));
    Cell ([737; 16969; 27806; 16684], [27869; 799; 27933; 14700; 14699; 14698; 27807]) (Some (LW 799)) (Some (LW 27807));
    Cell ([736; 16970; 27807; 16684], [27870; 798; 27934; 14697; 14696; 14695; 27808]) (Some (LW 798)) (Some (LW 27808));
    Cell ([735; 16971; 27808; 16684], [27871; 797; 27935; 14694; 14693; 14692; 27809]) (Some (LW 797)) (Some (LW 27809));
    Cell ([734; 16972; 27809; 16684], [27872; 796; 27936; 14691; 14690; 14689; 27810]) (Some (LW 796)) (Some (LW 27810));
    Cell ([733; 16973; 27810; 16684], [27873; 795; 27937; 14688; 14687; 14686; 27811]) (Some (LW 795)) (Some (LW 27811));
    Cell ([732; 16974; 27811; 16684], [27874; 794; 27938; 14685; 14684; 14683; 27812]) (Some (LW 794)) (Some (LW 27812));
    Cell ([731; 16975; 27812; 16684], [27875; 793; 27939; 14682; 14681; 14680; 27813]) (Some (LW 793)) (Some (LW 27813));
    Cell ([730; 16976; 27813; 16684], [27876; 792; 27940; 14679; 14678; 14677; 27814]) (Some (LW 792)) (Some (LW 27814));
    Cell ([729; 16977; 27814; 16684], [27877; 791; 27941; 14676; 14675; 14674; 27815]) (Some (LW 791)) (Some (LW 27815));
    Cell ([728; 16978; 27815; 16684], [27878; 790; 27942; 14673; 14672; 14671; 27816]) (Some (LW 790)) (Some (LW 27816));
    Cell ([727; 16979; 27816; 16684], [27879; 789; 27943; 14670; 14669; 14668; 27817]) (Some (LW 789)) (Some (LW 27817));
    Cell ([726; 16980; 27817; 16684], [27880; 788; 27944; 14667; 14666; 14665; 27818]) (Some (LW 788)) (Some (LW 27818));
    Cell ([725; 16981; 27818; 16684], [27881; 787; 27945; 14664; 14663; 14662; 27819]) (Some (LW 787)) (Some (LW 27819));
    Cell ([724; 16982; 27819; 16684], [27882; 786; 27946; 14661; 14660; 14659; 27820]) (Some (LW 786)) (Some (LW 27820));
    Cell ([723; 16983; 27820; 16684], [27883; 785; 27947; 14658; 14657; 14656; 27821]) (Some (LW 785)) (Some (LW 27821));
    Cell ([722; 16984; 27821; 16684], [27884; 784; 27948; 14655; 14654; 14653; 27822]) (Some (LW 784)) (Some (LW 27822));
    Cell ([721; 16985; 27822; 16684], [27885; 783; 27949; 14652; 14651; 14650; 27823]) (Some (LW 783)) (Some (LW 27823));
    Cell ([720; 16986; 27823; 16684], [27886; 782; 27950; 14649; 14648; 14647; 27824]) (Some (LW 782)) (Some (LW 27824));
    Cell ([719; 16987; 27824; 16684], [27887; 781; 27951; 14646; 14645; 14644; 27825]) (Some (LW 781)) (Some (LW 27825));
    Cell ([718; 16988; 27825; 16684], [27888; 780; 27952; 14643; 14642; 14641; 27826]) (Some (LW 780)) (Some (LW 27826));
    Cell ([717; 16989; 27826; 16684], [27889; 779; 27953; 14640; 14639; 14638; 27827]) (Some (LW 779)) (Some (LW 27827));
    Cell ([716; 16990; 27827; 16684], [27890; 778; 27954; 14637; 14636; 14635; 27828]) (Some (LW 778)) (Some (LW 27828));
    Cell ([715; 16991; 27828; 16684], [27891; 777; 27955; 14634; 14633; 14632; 27829]) (Some (LW 777)) (Some (LW 27829));
    Cell ([714; 16992; 27829; 16684], [27892; 776; 27956; 14631; 14630; 14629; 27830]) (Some (LW 776)) (Some (LW 27830));
    Cell ([713; 16993; 27830; 16684], [27893; 775; 27957; 14628; 14627; 14626; 27831]) (Some (LW 775)) (Some (LW 27831));
    Cell ([712; 16994; 27831; 16684], [27894; 774; 27958; 14625; 14624; 14623; 27832]) (Some (LW 774)) (Some (LW 27832));
    Cell ([711; 16995; 27832; 16684], [27895; 773; 27959; 14622; 14621; 14620; 27833]) (Some (LW 773)) (Some (LW 27833));
    Cell ([710; 16996; 27833; 16684], [27896; 772; 27960; 14619; 14618; 14617; 27834]) (Some (LW 772)) (Some (LW 27834));
    Cell ([709; 16997; 27834; 16684], [27897; 771; 27961; 14616; 14615; 14614; 27835]) (Some (LW 771)) (Some (LW 27835));
    Cell ([708; 16998; 27835; 16684], [27898; 770; 27962; 14613; 14612; 14611; 27836]) (Some (LW 770)) (Some (LW 27836));
    Cell ([707; 16999; 27836; 16684], [27899; 769; 27963; 14610; 14609; 14608; 27837]) (Some (LW 769)) (Some (LW 27837));
    Cell ([706; 17000; 27837; 16684], [27900; 768; 27964; 14607; 14606; 14605; 27838]) (Some (LW 768)) (Some (LW 27838));
    Cell ([705; 17001; 27838; 16684], [27901; 767; 27965; 14604; 14603; 14602; 27839]) (Some (LW 767)) (Some (LW 27839));
    Cell ([704; 17002; 27839; 16684], [27902; 766; 27966; 14601; 14600; 14599; 27840]) (Some (LW 766)) (Some (LW 27840));
    Cell ([703; 17003; 27840; 16684], [27903; 765; 27967; 14598; 14597; 14596; 27841]) (Some (LW 765)) (Some (LW 27841));
    Cell ([702; 17004; 27841; 16684], [27904; 764; 27968; 14595; 14594; 14593; 27842]) (Some (LW 764)) (Some (LW 27842));
    Cell ([701; 17005; 27842; 16684], [27905; 763; 27969; 14592; 14591; 14590; 27843]) (Some (LW 763)) (Some (LW 27843));
    Cell ([700; 17006; 27843; 16684], [27906; 762; 27970; 14589; 14588; 14587; 27844]) (Some (LW 762)) (Some (LW 27844));
    Cell ([699; 17007; 27844; 16684], [27907; 761; 27971; 14586; 14585; 14584; 27845]) (Some (LW 761)) (Some (LW 27845));
    Cell ([698; 17008; 27845; 16684], [27908; 760; 27972; 14583; 14582; 14581; 27846]) (Some (LW 760)) (Some (LW 27846));
    Cell ([697; 17009; 27846; 16684], [27909; 139]) (Some (LW 139)) (None)]
   139 16683.
Definition divide64_row_10 : srow := SRow
   [Cell ([16872; 16946; 16683], [885; 27721; 27595]) (Some (LW 885)) (Some (LW 27595));
    Cell ([822; 16947; 27595; 16683], [27658; 884; 27722; 14580; 14579; 14578; 27596]) (Some (LW 884)) (Some (LW 27596));
    Cell ([821; 16948; 27596; 16683], [27659; 883; 27723; 14577; 14576; 14575; 27597]) (Some (LW 883)) (Some (LW 27597));
    Cell ([820; 16949; 27597; 16683], [27660; 882; 27724; 14574; 14573; 14572; 27598]) (Some (LW 882)) (Some (LW 27598));
    Cell ([819; 16950; 27598; 16683], [27661; 881; 27725; 14571; 14570; 14569; 27599]) (Some (LW 881)) (Some (LW 27599));
    Cell ([818; 16951; 27599; 16683], [27662; 880; 27726; 14568; 14567; 14566; 27600]) (Some (LW 880)) (Some (LW 27600));
    Cell ([817; 16952; 27600; 16683], [27663; 879; 27727; 14565; 14564; 14563; 27601]) (Some (LW 879)) (Some (LW 27601));
    Cell ([816; 16953; 27601; 16683], [27664; 878; 27728; 14562; 14561; 14560; 27602]) (Some (LW 878)) (Some (LW 27602));
    Cell ([815; 16954; 27602; 16683], [27665; 877; 27729; 14559; 14558; 14557; 27603]) (Some (LW 877)) (Some (LW 27603));
    Cell ([814; 16955; 27603; 16683], [27666; 876; 27730; 14556; 14555; 14554; 27604]) (Some (LW 876)) (Some (LW 27604));
    Cell ([813; 16956; 27604; 16683], [27667; 875; 27731; 14553; 14552; 14551; 27605]) (Some (LW 875)) (Some (LW 27605));
    Cell ([812; 16957; 27605; 16683], [27668; 874; 27732; 14550; 14549; 14548; 27606]) (Some (LW 874)) (Some (LW 27606));
    Cell ([811; 16958; 27606; 16683], [27669; 873; 27733; 14547; 14546; 14545; 27607]) (Some (LW 873)) (Some (LW 27607));
    Cell ([810; 16959; 27607; 16683], [27670; 872; 27734; 14544; 14543; 14542; 27608]) (Some (LW 872)) (Some (LW 27608));
    Cell ([809; 16960; 27608; 16683], [27671; 871; 27735; 14541; 14540; 14539; 27609]) (Some (LW 871)) (Some (LW 27609));
    Cell ([808; 16961; 27609; 16683], [27672; 870; 27736; 14538; 14537; 14536; 27610]) (Some (LW 870)) (Some (LW 27610));
    Cell ([807; 16962; 27610; 16683], [27673; 869; 27737; 14535; 14534; 14533; 27611]) (Some (LW 869)) (Some (LW 27611));
    Cell ([806; 16963; 27611; 16683], [27674; 868; 27738; 14532; 14531; 14530; 27612]) (Some (LW 868)) (Some (LW 27612));
    Cell ([805; 16964; 27612; 16683], [27675; 867; 27739; 14529; 14528; 14527; 27613]) (Some (LW 867)) (Some (LW 27613));
    Cell ([804; 16965; 27613; 16683], [27676; 866; 27740; 14526; 14525; 14524; 27614]) (Some (LW 866)) (Some (LW 27614));
    Cell ([803; 16966; 27614; 16683], [27677; 865; 27741; 14523; 14522; 14521; 27615]) (Some (LW 865)) (Some (LW 27615));
    Cell ([802; 16967; 27615; 16683], [27678; 864; 27742; 14520; 14519; 14518; 27616]) (Some (LW 864)) (Some (LW 27616));
    Cell ([801; 16968; 27616; 16683], [27679; 863; 27743; 14517; 14516; 14515; 27617]) (Some (LW 863)) (Some (LW 27617));
    Cell ([800; 16969; 27617; 16683], [27680; 862; 27744; 14514; 14513; 14512; 27618]) (Some (LW 862)) (Some (LW 27618));
    Cell ([799; 16970; 27618; 16683], [27681; 861; 27745; 14511; 14510; 14509; 27619]) (Some (LW 861)) (Some (LW 27619));
    Cell ([798; 16971; 27619; 16683], [27682; 860; 27746; 14508; 14507; 14506; 27620]) (Some (LW 860)) (Some (LW 27620));
    Cell ([797; 16972; 27620; 16683], [27683; 859; 27747; 14505; 14504; 14503; 27621]) (Some (LW 859)) (Some (LW 27621));
    Cell ([796; 16973; 27621; 16683], [27684; 858; 27748; 14502; 14501; 14500; 27622]) (Some (LW 858)) (Some (LW 27622));
    Cell ([795; 16974; 27622; 16683], [27685; 857; 27749; 14499; 14498; 14497; 27623]) (Some (LW 857)) (Some (LW 27623));
    Cell ([794; 16975; 27623; 16683], [27686; 856; 27750; 14496; 14495; 14494; 27624]) (Some (LW 856)) (Some (LW 27624));
    Cell ([793; 16976; 27624; 16683], [27687; 855; 27751; 14493; 14492; 14491; 27625]) (Some (LW 855)) (Some (LW 27625));
    Cell ([792; 16977; 27625; 16683], [27688; 854; 27752; 14490; 14489; 14488; 27626]) (Some (LW 854)) (Some (LW 27626));
    Cell ([791; 16978; 27626; 16683], [27689; 853; 27753; 14487; 14486; 14485; 27627]) (Some (LW 853)) (Some (LW 27627));
    Cell ([790; 16979; 27627; 16683], [27690; 852; 27754; 14484; 14483; 14482; 27628]) (Some (LW 852)) (Some (LW 27628));
    Cell ([789; 16980; 27628; 16683], [27691; 851; 27755; 14481; 14480; 14479; 27629]) (Some (LW 851)) (Some (LW 27629));
    Cell ([788; 16981; 27629; 16683], [27692; 850; 27756; 14478; 14477; 14476; 27630]) (Some (LW 850)) (Some (LW 27630));
    Cell ([787; 16982; 27630; 16683], [27693; 849; 27757; 14475; 14474; 14473; 27631]) (Some (LW 849)) (Some (LW 27631));
    Cell ([786; 16983; 27631; 16683], [27694; 848; 27758; 14472; 14471; 14470; 27632]) (Some (LW 848)) (Some (LW 27632));
    Cell ([785; 16984; 27632; 16683], [27695; 847; 27759; 14469; 14468; 14467; 27633]) (Some (LW 847)) (Some (LW 27633));
    Cell ([784; 16985; 27633; 16683], [27696; 846; 27760; 14466; 14465; 14464; 27634]) (Some (LW 846)) (Some (LW 27634));
    Cell ([783; 16986; 27634; 16683], [27697; 845; 27761; 14463; 14462; 14461; 27635]) (Some (LW 845)) (Some (LW 27635));
    Cell ([782; 16987; 27635; 16683], [27698; 844; 27762; 14460; 14459; 14458; 27636]) (Some (LW 844)) (Some (LW 27636));
    Cell ([781; 16988; 27636; 16683], [27699; 843; 27763; 14457; 14456; 14455; 27637]) (Some (LW 843)) (Some (LW 27637));
    Cell ([780; 16989; 27637; 16683], [27700; 842; 27764; 14454; 14453; 14452; 27638]) (Some (LW 842)) (Some (LW 27638));
    Cell ([779; 16990; 27638; 16683], [27701; 841; 27765; 14451; 14450; 14449; 27639]) (Some (LW 841)) (Some (LW 27639));
    Cell ([778; 16991; 27639; 16683], [27702; 840; 27766; 14448; 14447; 14446; 27640]) (Some (LW 840)) (Some (LW 27640));
    Cell ([777; 16992; 27640; 16683], [27703; 839; 27767; 14445; 14444; 14443; 27641]) (Some (LW 839)) (Some (LW 27641));
    Cell ([776; 16993; 27641; 16683], [27704; 838; 27768; 14442; 14441; 14440; 27642]) (Some (LW 838)) (Some (LW 27642));
    Cell ([775; 16994; 27642; 16683], [27705; 837; 27769; 14439; 14438; 14437; 27643]) (Some (LW 837)) (Some (LW 27643));
    Cell ([774; 16995; 27643; 16683], [27706; 836; 27770; 14436; 14435; 14434; 27644]) (Some (LW 836)) (Some (LW 27644));
    Cell ([773; 16996; 27644; 16683], [27707; 835; 27771; 14433; 14432; 14431; 27645]) (Some (LW 835)) (Some (LW 27645));
    Cell ([772; 16997; 27645; 16683], [27708; 834; 27772; 14430; 14429; 14428; 27646]) (Some (LW 834)) (Some (LW 27646));
    Cell ([771; 16998; 27646; 16683], [27709; 833; 27773; 14427; 14426; 14425; 27647]) (Some (LW 833)) (Some (LW 27647));
    Cell ([770; 16999; 27647; 16683], [27710; 832; 27774; 14424; 14423; 14422; 27648]) (Some (LW 832)) (Some (LW 27648));
    Cell ([769; 17000; 27648; 16683], [27711; 831; 27775; 14421; 14420; 14419; 27649]) (Some (LW 831)) (Some (LW 27649));
    Cell ([768; 17001; 27649; 16683], [27712; 830; 27776; 14418; 14417; 14416; 27650]) (Some (LW 830)) (Some (LW 27650));
    Cell ([767; 17002; 27650; 16683], [27713; 829; 27777; 14415; 14414; 14413; 27651]) (Some (LW 829)) (Some (LW 27651));
    Cell ([766; 17003; 27651; 16683], [27714; 828; 27778; 14412; 14411; 14410; 27652]) (Some (LW 828)) (Some (LW 27652));
    Cell ([765; 17004; 27652; 16683], [27715; 827; 27779; 14409; 14408; 14407; 27653]) (Some (LW 827)) (Some (LW 27653));
    Cell ([764; 17005; 27653; 16683], [27716; 826; 27780; 14406; 14405; 14404; 27654]) (Some (LW 826)) (Some (LW 27654));
    Cell ([763; 17006; 27654; 16683], [27717; 825; 27781; 14403; 14402; 14401; 27655]) (Some (LW 825)) (Some (LW 27655));
    Cell ([762; 17007; 27655; 16683], [27718; 824; 27782; 14400; 14399; 14398; 27656]) (Some (LW 824)) (Some (LW 27656));
    Cell ([761; 17008; 27656; 16683], [27719; 823; 27783; 14397; 14396; 14395; 27657]) (Some (LW 823)) (Some (LW 27657));
    Cell ([760; 17009; 27657; 16683], [27720; 140]) (Some (LW 140)) (None)]
   140 16682.
Definition divide64_row_11 : srow := SRow
   [Cell ([16871; 16946; 16682], [948; 27532; 27406]) (Some (LW 948)) (Some (LW 27406));
    Cell ([885; 16947; 27406; 16682], [27469; 947; 27533; 14394; 14393; 14392; 27407]) (Some (LW 947)) (Some (LW 27407));
    Cell ([884; 16948; 27407; 16682], [27470; 946; 27534; 14391; 14390; 14389; 27408]) (Some (LW 946)) (Some (LW 27408));
    Cell ([883; 16949; 27408; 16682], [27471; 945; 27535; 14388; 14387; 14386; 27409]) (Some (LW 945)) (Some (LW 27409));
    Cell ([882; 16950; 27409; 16682], [27472; 944; 27536; 14385; 14384; 14383; 27410]) (Some (LW 944)) (Some (LW 27410));
    Cell ([881; 16951; 27410; 16682], [27473; 943; 27537; 14382; 14381; 14380; 27411]) (Some (LW 943)) (Some (LW 27411));
    Cell ([880; 16952; 27411; 16682], [27474; 942; 27538; 14379; 14378; 14377; 27412]) (Some (LW 942)) (Some (LW 27412));
    Cell ([879; 16953; 27412; 16682], [27475; 941; 27539; 14376; 14375; 14374; 27413]) (Some (LW 941)) (Some (LW 27413));
    Cell ([878; 16954; 27413; 16682], [27476; 940; 27540; 14373; 14372; 14371; 27414]) (Some (LW 940)) (Some (LW 27414));
    Cell ([877; 16955; 27414; 16682], [27477; 939; 27541; 14370; 14369; 14368; 27415]) (Some (LW 939)) (Some (LW 27415));
    Cell ([876; 16956; 27415; 16682], [27478; 938; 27542; 14367; 14366; 14365; 27416]) (Some (LW 938)) (Some (LW 27416));
    Cell ([875; 16957; 27416; 16682], [27479; 937; 27543; 14364; 14363; 14362; 27417]) (Some (LW 937)) (Some (LW 27417));
    Cell ([874; 16958; 27417; 16682], [27480; 936; 27544; 14361; 14360; 14359; 27418]) (Some (LW 936)) (Some (LW 27418));
    Cell ([873; 16959; 27418; 16682], [27481; 935; 27545; 14358; 14357; 14356; 27419]) (Some (LW 935)) (Some (LW 27419));
    Cell ([872; 16960; 27419; 16682], [27482; 934; 27546; 14355; 14354; 14353; 27420]) (Some (LW 934)) (Some (LW 27420));
    Cell ([871; 16961; 27420; 16682], [27483; 933; 27547; 14352; 14351; 14350; 27421]) (Some (LW 933)) (Some (LW 27421));
    Cell ([870; 16962; 27421; 16682], [27484; 932; 27548; 14349; 14348; 14347; 27422]) (Some (LW 932)) (Some (LW 27422));
    Cell ([869; 16963; 27422; 16682], [27485; 931; 27549; 14346; 14345; 14344; 27423]) (Some (LW 931)) (Some (LW 27423));
    Cell ([868; 16964; 27423; 16682], [27486; 930; 27550; 14343; 14342; 14341; 27424]) (Some (LW 930)) (Some (LW 27424));
    Cell ([867; 16965; 27424; 16682], [27487; 929; 27551; 14340; 14339; 14338; 27425]) (Some (LW 929)) (Some (LW 27425));
    Cell ([866; 16966; 27425; 16682], [27488; 928; 27552; 14337; 14336; 14335; 27426]) (Some (LW 928)) (Some (LW 27426));
    Cell ([865; 16967; 27426; 16682], [27489; 927; 27553; 14334; 14333; 14332; 27427]) (Some (LW 927)) (Some (LW 27427));
    Cell ([864; 16968; 27427; 16682], [27490; 926; 27554; 14331; 14330; 14329; 27428]) (Some (LW 926)) (Some (LW 27428));
    Cell ([863; 16969; 27428; 16682], [27491; 925; 27555; 14328; 14327; 14326; 27429]) (Some (LW 925)) (Some (LW 27429));
    Cell ([862; 16970; 27429; 16682], [27492; 924; 27556; 14325; 14324; 14323; 27430]) (Some (LW 924)) (Some (LW 27430));
    Cell ([861; 16971; 27430; 16682], [27493; 923; 27557; 14322; 14321; 14320; 27431]) (Some (LW 923)) (Some (LW 27431));
    Cell ([860; 16972; 27431; 16682], [27494; 922; 27558; 14319; 14318; 14317; 27432]) (Some (LW 922)) (Some (LW 27432));
    Cell ([859; 16973; 27432; 16682], [27495; 921; 27559; 14316; 14315; 14314; 27433]) (Some (LW 921)) (Some (LW 27433));
    Cell ([858; 16974; 27433; 16682], [27496; 920; 27560; 14313; 14312; 14311; 27434]) (Some (LW 920)) (Some (LW 27434));
    Cell ([857; 16975; 27434; 16682], [27497; 919; 27561; 14310; 14309; 14308; 27435]) (Some (LW 919)) (Some (LW 27435));
    Cell ([856; 16976; 27435; 16682], [27498; 918; 27562; 14307; 14306; 14305; 27436]) (Some (LW 918)) (Some (LW 27436));
    Cell ([855; 16977; 27436; 16682], [27499; 917; 27563; 14304; 14303; 14302; 27437]) (Some (LW 917)) (Some (LW 27437));
    Cell ([854; 16978; 27437; 16682], [27500; 916; 27564; 14301; 14300; 14299; 27438]) (Some (LW 916)) (Some (LW 27438));
    Cell ([853; 16979; 27438; 16682], [27501; 915; 27565; 14298; 14297; 14296; 27439]) (Some (LW 915)) (Some (LW 27439));
    Cell ([852; 16980; 27439; 16682], [27502; 914; 27566; 14295; 14294; 14293; 27440]) (Some (LW 914)) (Some (LW 27440));
    Cell ([851; 16981; 27440; 16682], [27503; 913; 27567; 14292; 14291; 14290; 27441]) (Some (LW 913)) (Some (LW 27441));
    Cell ([850; 16982; 27441; 16682], [27504; 912; 27568; 14289; 14288; 14287; 27442]) (Some (LW 912)) (Some (LW 27442));
    Cell ([849; 16983; 27442; 16682], [27505; 911; 27569; 14286; 14285; 14284; 27443]) (Some (LW 911)) (Some (LW 27443));
    Cell ([848; 16984; 27443; 16682], [27506; 910; 27570; 14283; 14282; 14281; 27444]) (Some (LW 910)) (Some (LW 27444));
    Cell ([847; 16985; 27444; 16682], [27507; 909; 27571; 14280; 14279; 14278; 27445]) (Some (LW 909)) (Some (LW 27445));
    Cell ([846; 16986; 27445; 16682], [27508; 908; 27572; 14277; 14276; 14275; 27446]) (Some (LW 908)) (Some (LW 27446));
    Cell ([845; 16987; 27446; 16682], [27509; 907; 27573; 14274; 14273; 14272; 27447]) (Some (LW 907)) (Some (LW 27447));
    Cell ([844; 16988; 27447; 16682], [27510; 906; 27574; 14271; 14270; 14269; 27448]) (Some (LW 906)) (Some (LW 27448));
    Cell ([843; 16989; 27448; 16682], [27511; 905; 27575; 14268; 14267; 14266; 27449]) (Some (LW 905)) (Some (LW 27449));
    Cell ([842; 16990; 27449; 16682], [27512; 904; 27576; 14265; 14264; 14263; 27450]) (Some (LW 904)) (Some (LW 27450));
    Cell ([841; 16991; 27450; 16682], [27513; 903; 27577; 14262; 14261; 14260; 27451]) (Some (LW 903)) (Some (LW 27451));
    Cell ([840; 16992; 27451; 16682], [27514; 902; 27578; 14259; 14258; 14257; 27452]) (Some (LW 902)) (Some (LW 27452));
    Cell ([839; 16993; 27452; 16682], [27515; 901; 27579; 14256; 14255; 14254; 27453]) (Some (LW 901)) (Some (LW 27453));
    Cell ([838; 16994; 27453; 16682], [27516; 900; 27580; 14253; 14252; 14251; 27454]) (Some (LW 900)) (Some (LW 27454));
    Cell ([837; 16995; 27454; 16682], [27517; 899; 27581; 14250; 14249; 14248; 27455]) (Some (LW 899)) (Some (LW 27455));
    Cell ([836; 16996; 27455; 16682], [27518; 898; 27582; 14247; 14246; 14245; 27456]) (Some (LW 898)) (Some (LW 27456));
    Cell ([835; 16997; 27456; 16682], [27519; 897; 27583; 14244; 14243; 14242; 27457]) (Some (LW 897)) (Some (LW 27457));
    Cell ([834; 16998; 27457; 16682], [27520; 896; 27584; 14241; 14240; 14239; 27458]) (Some (LW 896)) (Some (LW 27458));
    Cell ([833; 16999; 27458; 16682], [27521; 895; 27585; 14238; 14237; 14236; 27459]) (Some (LW 895)) (Some (LW 27459));
    Cell ([832; 17000; 27459; 16682], [27522; 894; 27586; 14235; 14234; 14233; 27460]) (Some (LW 894)) (Some (LW 27460));
    Cell ([831; 17001; 27460; 16682], [27523; 893; 27587; 14232; 14231; 14230; 27461]) (Some (LW 893)) (Some (LW 27461));
    Cell ([830; 17002; 27461; 16682], [27524; 892; 27588; 14229; 14228; 14227; 27462]) (Some (LW 892)) (Some (LW 27462));
    Cell ([829; 17003; 27462; 16682], [27525; 891; 27589; 14226; 14225; 14224; 27463]) (Some (LW 891)) (Some (LW 27463));
    Cell ([828; 17004; 27463; 16682], [27526; 890; 27590; 14223; 14222; 14221; 27464]) (Some (LW 890)) (Some (LW 27464));
    Cell ([827; 17005; 27464; 16682], [27527; 889; 27591; 14220; 14219; 14218; 27465]) (Some (LW 889)) (Some (LW 27465));
    Cell ([826; 17006; 27465; 16682], [27528; 888; 27592; 14217; 14216; 14215; 27466]) (Some (LW 888)) (Some (LW 27466));
    Cell ([825; 17007; 27466; 16682], [27529; 887; 27593; 14214; 14213; 14212; 27467]) (Some (LW 887)) (Some (LW 27467));
    Cell ([824; 17008; 27467; 16682], [27530; 886; 27594; 14211; 14210; 14209; 27468]) (Some (LW 886)) (Some (LW 27468));
    Cell ([823; 17009; 27468; 16682], [27531; 141]) (Some (LW 141)) (None)]
   141 16681.
Definition divide64_row_12 : srow := SRow
   [Cell ([16870; 16946; 16681], [1011; 27343; 27217]) (Some (LW 1011)) (Some (LW 27217));
    Cell ([948; 16947; 27217; 16681], [27280; 1010; 27344; 14208; 14207; 14206; 27218]) (Some (LW 1010)) (Some (LW 27218));
    Cell ([947; 16948; 27218; 16681], [27281; 1009; 27345; 14205; 14204; 14203; 27219]) (Some (LW 1009)) (Some (LW 27219));
    Cell ([946; 16949; 27219; 16681], [27282; 1008; 27346; 14202; 14201; 14200; 27220]) (Some (LW 1008)) (Some (LW 27220));
    Cell ([945; 16950; 27220; 16681], [27283; 1007; 27347; 14199; 14198; 14197; 27221]) (Some (LW 1007)) (Some (LW 27221));
    Cell ([944; 16951; 27221; 16681], [27284; 1006; 27348; 14196; 14195; 14194; 27222]) (Some (LW 1006)) (Some (LW 27222));
    Cell ([943; 16952; 27222; 16681], [27285; 1005; 27349; 14193; 14192; 14191; 27223]) (Some (LW 1005)) (Some (LW 27223));
    Cell ([942; 16953; 27223; 16681], [27286; 1004; 27350; 14190; 14189; 14188; 27224]) (Some (LW 1004)) (Some (LW 27224));
    Cell ([941; 16954; 27224; 16681], [27287; 1003; 27351; 14187; 14186; 14185; 27225]) (Some (LW 1003)) (Some (LW 27225));
    Cell ([940; 16955; 27225; 16681], [27288; 1002; 27352; 14184; 14183; 14182; 27226]) (Some (LW 1002)) (Some (LW 27226));
    Cell ([939; 16956; 27226; 16681], [27289; 1001; 27353; 14181; 14180; 14179; 27227]) (Some (LW 1001)) (Some (LW 27227));
    Cell ([938; 16957; 27227; 16681], [27290; 1000; 27354; 14178; 14177; 14176; 27228]) (Some (LW 1000)) (Some (LW 27228));
    Cell ([937; 16958; 27228; 16681], [27291; 999; 27355; 14175; 14174; 14173; 27229]) (Some (LW 999)) (Some (LW 27229));
    Cell ([936; 16959; 27229; 16681], [27292; 998; 27356; 14172; 14171; 14170; 27230]) (Some (LW 998)) (Some (LW 27230));
    Cell ([935; 16960; 27230; 16681], [27293; 997; 27357; 14169; 14168; 14167; 27231]) (Some (LW 997)) (Some (LW 27231));
    Cell ([934; 16961; 27231; 16681], [27294; 996; 27358; 14166; 14165; 14164; 27232]) (Some (LW 996)) (Some (LW 27232));
    Cell ([933; 16962; 27232; 16681], [27295; 995; 27359; 14163; 14162; 14161; 27233]) (Some (LW 995)) (Some (LW 27233));
    Cell ([932; 16963; 27233; 16681], [27296; 994; 27360; 14160; 14159; 14158; 27234]) (Some (LW 994)) (Some (LW 27234));
    Cell ([931; 16964; 27234; 16681], [27297; 993; 27361; 14157; 14156; 14155; 27235]) (Some (LW 993)) (Some (LW 27235));
    Cell ([930; 16965; 27235; 16681], [27298; 992; 27362; 14154; 14153; 14152; 27236]) (Some (LW 992)) (Some (LW 27236));
    Cell ([929; 16966; 27236; 16681], [27299; 991; 27363; 14151; 14150; 14149; 27237]) (Some (LW 991)) (Some (LW 27237));
    Cell ([928; 16967; 27237; 16681], [27300; 990; 27364; 14148; 14147; 14146; 27238]) (Some (LW 990)) (Some (LW 27238));
    Cell ([927; 16968; 27238; 16681], [27301; 989; 27365; 14145; 14144; 14143; 27239]) (Some (LW 989)) (Some (LW 27239));
    Cell ([926; 16969; 27239; 16681], [27302; 988; 27366; 14142; 14141; 14140; 27240]) (Some (LW 988)) (Some (LW 27240));
    Cell ([925; 16970; 27240; 16681], [27303; 987; 27367; 14139; 14138; 14137; 27241]) (Some (LW 987)) (Some (LW 27241));
    Cell ([924; 16971; 27241; 16681], [27304; 986; 27368; 14136; 14135; 14134; 27242]) (Some (LW 986)) (Some (LW 27242));
    Cell ([923; 16972; 27242; 16681], [27305; 985; 27369; 14133; 14132; 14131; 27243]) (Some (LW 985)) (Some (LW 27243));
    Cell ([922; 16973; 27243; 16681], [27306; 984; 27370; 14130; 14129; 14128; 27244]) (Some (LW 984)) (Some (LW 27244));
    Cell ([921; 16974; 27244; 16681], [27307; 983; 27371; 14127; 14126; 14125; 27245]) (Some (LW 983)) (Some (LW 27245));
    Cell ([920; 16975; 27245; 16681], [27308; 982; 27372; 14124; 14123; 14122; 27246]) (Some (LW 982)) (Some (LW 27246));
    Cell ([919; 16976; 27246; 16681], [27309; 981; 27373; 14121; 14120; 14119; 27247]) (Some (LW 981)) (Some (LW 27247));
    Cell ([918; 16977; 27247; 16681], [27310; 980; 27374; 14118; 14117; 14116; 27248]) (Some (LW 980)) (Some (LW 27248));
    Cell ([917; 16978; 27248; 16681], [27311; 979; 27375; 14115; 14114; 14113; 27249]) (Some (LW 979)) (Some (LW 27249));
    Cell ([916; 16979; 27249; 16681], [27312; 978; 27376; 14112; 14111; 14110; 27250]) (Some (LW 978)) (Some (LW 27250));
    Cell ([915; 16980; 27250; 16681], [27313; 977; 27377; 14109; 14108; 14107; 27251]) (Some (LW 977)) (Some (LW 27251));
    Cell ([914; 16981; 27251; 16681], [27314; 976; 27378; 14106; 14105; 14104; 27252]) (Some (LW 976)) (Some (LW 27252));
    Cell ([913; 16982; 27252; 16681], [27315; 975; 27379; 14103; 14102; 14101; 27253]) (Some (LW 975)) (Some (LW 27253));
    Cell ([912; 16983; 27253; 16681], [27316; 974; 27380; 14100; 14099; 14098; 27254]) (Some (LW 974)) (Some (LW 27254));
    Cell ([911; 16984; 27254; 16681], [27317; 973; 27381; 14097; 14096; 14095; 27255]) (Some (LW 973)) (Some (LW 27255));
    Cell ([910; 16985; 27255; 16681], [27318; 972; 27382; 14094; 14093; 14092; 27256]) (Some (LW 972)) (Some (LW 27256));
    Cell ([909; 16986; 27256; 16681], [27319; 971; 27383; 14091; 14090; 14089; 27257]) (Some (LW 971)) (Some (LW 27257));
    Cell ([908; 16987; 27257; 16681], [27320; 970; 27384; 14088; 14087; 14086; 27258]) (Some (LW 970)) (Some (LW 27258));
    Cell ([907; 16988; 27258; 16681], [27321; 969; 27385; 14085; 14084; 14083; 27259]) (Some (LW 969)) (Some (LW 27259));
    Cell ([906; 16989; 27259; 16681], [27322; 968; 27386; 14082; 14081; 14080; 27260]) (Some (LW 968)) (Some (LW 27260));
    Cell ([905; 16990; 27260; 16681], [27323; 967; 27387; 14079; 14078; 14077; 27261]) (Some (LW 967)) (Some (LW 27261));
    Cell ([904; 16991; 27261; 16681], [27324; 966; 27388; 14076; 14075; 14074; 27262]) (Some (LW 966)) (Some (LW 27262));
    Cell ([903; 16992; 27262; 16681], [27325; 965; 27389; 14073; 14072; 14071; 27263]) (Some (LW 965)) (Some (LW 27263));
    Cell ([902; 16993; 27263; 16681], [27326; 964; 27390; 14070; 14069; 14068; 27264]) (Some (LW 964)) (Some (LW 27264));
    Cell ([901; 16994; 27264; 16681], [27327; 963; 27391; 14067; 14066; 14065; 27265]) (Some (LW 963)) (Some (LW 27265));
    Cell ([900; 16995; 27265; 16681], [27328; 962; 27392; 14064; 14063; 14062; 27266]) (Some (LW 962)) (Some (LW 27266));
    Cell ([899; 16996; 27266; 16681], [27329; 961; 27393; 14061; 14060; 14059; 27267]) (Some (LW 961)) (Some (LW 27267));
    Cell ([898; 16997; 27267; 16681], [27330; 960; 27394; 14058; 14057; 14056; 27268]) (Some (LW 960)) (Some (LW 27268));
    Cell ([897; 16998; 27268; 16681], [27331; 959; 27395; 14055; 14054; 14053; 27269]) (Some (LW 959)) (Some (LW 27269));
    Cell ([896; 16999; 27269; 16681], [27332; 958; 27396; 14052; 14051; 14050; 27270]) (Some (LW 958)) (Some (LW 27270));
    Cell ([895; 17000; 27270; 16681], [27333; 957; 27397; 14049; 14048; 14047; 27271]) (Some (LW 957)) (Some (LW 27271));
    Cell ([894; 17001; 27271; 16681], [27334; 956; 27398; 14046; 14045; 14044; 27272]) (Some (LW 956)) (Some (LW 27272));
    Cell ([893; 17002; 27272; 16681], [27335; 955; 27399; 14043; 14042; 14041; 27273]) (Some (LW 955)) (Some (LW 27273));
    Cell ([892; 17003; 27273; 16681], [27336; 954; 27400; 14040; 14039; 14038; 27274]) (Some (LW 954)) (Some (LW 27274));
    Cell ([891; 17004; 27274; 16681], [27337; 953; 27401; 14037; 14036; 14035; 27275]) (Some (LW 953)) (Some (LW 27275));
    Cell ([890; 17005; 27275; 16681], [27338; 952; 27402; 14034; 14033; 14032; 27276]) (Some (LW 952)) (Some (LW 27276));
    Cell ([889; 17006; 27276; 16681], [27339; 951; 27403; 14031; 14030; 14029; 27277]) (Some (LW 951)) (Some (LW 27277));
    Cell ([888; 17007; 27277; 16681], [27340; 950; 27404; 14028; 14027; 14026; 27278]) (Some (LW 950)) (Some (LW 27278));
    Cell ([887; 17008; 27278; 16681], [27341; 949; 27405; 14025; 14024; 14023; 27279]) (Some (LW 949)) (Some (LW 27279));
    Cell ([886; 17009; 27279; 16681], [27342; 142]) (Some (LW 142)) (None)]
   142 16680.
Definition divide64_row_13 : srow := SRow
   [Cell ([16869; 16946; 16680], [1074; 27154; 27028]) (Some (LW 1074)) (Some (LW 27028));
    Cell ([1011; 16947; 27028; 16680], [27091; 1073; 27155; 14022; 14021; 14020; 27029]) (Some (LW 1073)) (Some (LW 27029));
    Cell ([1010; 16948; 27029; 16680], [27092; 1072; 27156; 14019; 14018; 14017; 27030]) (Some (LW 1072)) (Some (LW 27030));
    Cell ([1009; 16949; 27030; 16680], [27093; 1071; 27157; 14016; 14015; 14014; 27031]) (Some (LW 1071)) (Some (LW 27031));
    Cell ([1008; 16950; 27031; 16680], [27094; 1070; 27158; 14013; 14012; 14011; 27032]) (Some (LW 1070)) (Some (LW 27032));
    Cell ([1007; 16951; 27032; 16680], [27095; 1069; 27159; 14010; 14009; 14008; 27033]) (Some (LW 1069)) (Some (LW 27033));
    Cell ([1006; 16952; 27033; 16680], [27096; 1068; 27160; 14007; 14006; 14005; 27034]) (Some (LW 1068)) (Some (LW 27034));
    Cell ([1005; 16953; 27034; 16680], [27097; 1067; 27161; 14004; 14003; 14002; 27035]) (Some (LW 1067)) (Some (LW 27035));
    Cell ([1004; 16954; 27035; 16680], [27098; 1066; 27162; 14001; 14000; 13999; 27036]) (Some (LW 1066)) (Some (LW 27036));
    Cell ([1003; 16955; 27036; 16680], [27099; 1065; 27163; 13998; 13997; 13996; 27037]) (Some (LW 1065)) (Some (LW 27037));
    Cell ([1002; 16956; 27037; 16680], [27100; 1064; 27164; 13995; 13994; 13993; 27038]) (Some (LW 1064)) (Some (LW 27038));
    Cell ([1001; 16957; 27038; 16680], [27101; 1063; 27165; 13992; 13991; 13990; 27039]) (Some (LW 1063)) (Some (LW 27039));
    Cell ([1000; 16958; 27039; 16680], [27102; 1062; 27166; 13989; 13988; 13987; 27040]) (Some (LW 1062)) (Some (LW 27040));
    Cell ([999; 16959; 27040; 16680], [27103; 1061; 27167; 13986; 13985; 13984; 27041]) (Some (LW 1061)) (Some (LW 27041));
    Cell ([998; 16960; 27041; 16680], [27104; 1060; 27168; 13983; 13982; 13981; 27042]) (Some (LW 1060)) (Some (LW 27042));
    Cell ([997; 16961; 27042; 16680], [27105; 1059; 27169; 13980; 13979; 13978; 27043]) (Some (LW 1059)) (Some (LW 27043));
    Cell ([996; 16962; 27043; 16680], [27106; 1058; 27170; 13977; 13976; 13975; 27044]) (Some (LW 1058)) (Some (LW 27044));
    Cell ([995; 16963; 27044; 16680], [27107; 1057; 27171; 13974; 13973; 13972; 27045]) (Some (LW 1057)) (Some (LW 27045));
    Cell ([994; 16964; 27045; 16680], [27108; 1056; 27172; 13971; 13970; 13969; 27046]) (Some (LW 1056)) (Some (LW 27046));
    Cell ([993; 16965; 27046; 16680], [27109; 1055; 27173; 13968; 13967; 13966; 27047]) (Some (LW 1055)) (Some (LW 27047));
    Cell ([992; 16966; 27047; 16680], [27110; 1054; 27174; 13965; 13964; 13963; 27048]) (Some (LW 1054)) (Some (LW 27048));
    Cell ([991; 16967; 27048; 16680], [27111; 1053; 27175; 13962; 13961; 13960; 27049]) (Some (LW 1053)) (Some (LW 27049));
    Cell ([990; 16968; 27049; 16680], [27112; 1052; 27176; 13959; 13958; 13957; 27050]) (Some (LW 1052)) (Some (LW 27050));
    Cell ([989; 16969; 27050; 16680], [27113; 1051; 27177; 13956; 13955; 13954; 27051]) (Some (LW 1051)) (Some (LW 27051));
    Cell ([988; 16970; 27051; 16680], [27114; 1050; 27178; 13953; 13952; 13951; 27052]) (Some (LW 1050)) (Some (LW 27052));
    Cell ([987; 16971; 27052; 16680], [27115; 1049; 27179; 13950; 13949; 13948; 27053]) (Some (LW 1049)) (Some (LW 27053));
    Cell ([986; 16972; 27053; 16680], [27116; 1048; 27180; 13947; 13946; 13945; 27054]) (Some (LW 1048)) (Some (LW 27054));
    Cell ([985; 16973; 27054; 16680], [27117; 1047; 27181; 13944; 13943; 13942; 27055]) (Some (LW 1047)) (Some (LW 27055));
    Cell ([984; 16974; 27055; 16680], [27118; 1046; 27182; 13941; 13940; 13939; 27056]) (Some (LW 1046)) (Some (LW 27056));
    Cell ([983; 16975; 27056; 16680], [27119; 1045; 27183; 13938; 13937; 13936; 27057]) (Some (LW 1045)) (Some (LW 27057));
    Cell ([982; 16976; 27057; 16680], [27120; 1044; 27184; 13935; 13934; 13933; 27058]) (Some (LW 1044)) (Some (LW 27058));
    Cell ([981; 16977; 27058; 16680], [27121; 1043; 27185; 13932; 13931; 13930; 27059]) (Some (LW 1043)) (Some (LW 27059));
    Cell ([980; 16978; 27059; 16680], [27122; 1042; 27186; 13929; 13928; 13927; 27060]) (Some (LW 1042)) (Some (LW 27060));
    Cell ([979; 16979; 27060; 16680], [27123; 1041; 27187; 13926; 13925; 13924; 27061]) (Some (LW 1041)) (Some (LW 27061));
    Cell ([978; 16980; 27061; 16680], [27124; 1040; 27188; 13923; 13922; 13921; 27062]) (Some (LW 1040)) (Some (LW 27062));
    Cell ([977; 16981; 27062; 16680], [27125; 1039; 27189; 13920; 13919; 13918; 27063]) (Some (LW 1039)) (Some (LW 27063));
    Cell ([976; 16982; 27063; 16680], [27126; 1038; 27190; 13917; 13916; 13915; 27064]) (Some (LW 1038)) (Some (LW 27064));
    Cell ([975; 16983; 27064; 16680], [27127; 1037; 27191; 13914; 13913; 13912; 27065]) (Some (LW 1037)) (Some (LW 27065));
    Cell ([974; 16984; 27065; 16680], [27128; 1036; 27192; 13911; 13910; 13909; 27066]) (Some (LW 1036)) (Some (LW 27066));
    Cell ([973; 16985; 27066; 16680], [27129; 1035; 27193; 13908; 13907; 13906; 27067]) (Some (LW 1035)) (Some (LW 27067));
    Cell ([972; 16986; 27067; 16680], [27130; 1034; 27194; 13905; 13904; 13903; 27068]) (Some (LW 1034)) (Some (LW 27068));
    Cell ([971; 16987; 27068; 16680], [27131; 1033; 27195; 13902; 13901; 13900; 27069]) (Some (LW 1033)) (Some (LW 27069));
    Cell ([970; 16988; 27069; 16680], [27132; 1032; 27196; 13899; 13898; 13897; 27070]) (Some (LW 1032)) (Some (LW 27070));
    Cell ([969; 16989; 27070; 16680], [27133; 1031; 27197; 13896; 13895; 13894; 27071]) (Some (LW 1031)) (Some (LW 27071));
    Cell ([968; 16990; 27071; 16680], [27134; 1030; 27198; 13893; 13892; 13891; 27072]) (Some (LW 1030)) (Some (LW 27072));
    Cell ([967; 16991; 27072; 16680], [27135; 1029; 27199; 13890; 13889; 13888; 27073]) (Some (LW 1029)) (Some (LW 27073));
    Cell ([966; 16992; 27073; 16680], [27136; 1028; 27200; 13887; 13886; 13885; 27074]) (Some (LW 1028)) (Some (LW 27074));
    Cell ([965; 16993; 27074; 16680], [27137; 1027; 27201; 13884; 13883; 13882; 27075]) (Some (LW 1027)) (Some (LW 27075));
    Cell ([964; 16994; 27075; 16680], [27138; 1026; 27202; 13881; 13880; 13879; 27076]) (Some (LW 1026)) (Some (LW 27076));
    Cell ([963; 16995; 27076; 16680], [27139; 1025; 27203; 13878; 13877; 13876; 27077]) (Some (LW 1025)) (Some (LW 27077));
    Cell ([962; 16996; 27077; 16680], [27140; 1024; 27204; 13875; 13874; 13873; 27078]) (Some (LW 1024)) (Some (LW 27078));
    Cell ([961; 16997; 27078; 16680], [27141; 1023; 27205; 13872; 13871; 13870; 27079]) (Some (LW 1023)) (Some (LW 27079));
    Cell ([960; 16998; 27079; 16680], [27142; 1022; 27206; 13869; 13868; 13867; 27080]) (Some (LW 1022)) (Some (LW 27080));
    Cell ([959; 16999; 27080; 16680], [27143; 1021; 27207; 13866; 13865; 13864; 27081]) (Some (LW 1021)) (Some (LW 27081));
    Cell ([958; 17000; 27081; 16680], [27144; 1020; 27208; 13863; 13862; 13861; 27082]) (Some (LW 1020)) (Some (LW 27082));
    Cell ([957; 17001; 27082; 16680], [27145; 1019; 27209; 13860; 13859; 13858; 27083]) (Some (LW 1019)) (Some (LW 27083));
    Cell ([956; 17002; 27083; 16680], [27146; 1018; 27210; 13857; 13856; 13855; 27084]) (Some (LW 1018)) (Some (LW 27084));
    Cell ([955; 17003; 27084; 16680], [27147; 1017; 27211; 13854; 13853; 13852; 27085]) (Some (LW 1017)) (Some (LW 27085));
    Cell ([954; 17004; 27085; 16680], [27148; 1016; 27212; 13851; 13850; 13849; 27086]) (Some (LW 1016)) (Some (LW 27086));
    Cell ([953; 17005; 27086; 16680], [27149; 1015; 27213; 13848; 13847; 13846; 27087]) (Some (LW 1015)) (Some (LW 27087));
    Cell ([952; 17006; 27087; 16680], [27150; 1014; 27214; 13845; 13844; 13843; 27088]) (Some (LW 1014)) (Some (LW 27088));
    Cell ([951; 17007; 27088; 16680], [27151; 1013; 27215; 13842; 13841; 13840; 27089]) (Some (LW 1013)) (Some (LW 27089));
    Cell ([950; 17008; 27089; 16680], [27152; 1012; 27216; 13839; 13838; 13837; 27090]) (Some (LW 1012)) (Some (LW 27090));
    Cell ([949; 17009; 27090; 16680], [27153; 143]) (Some (LW 143)) (None)]
   143 16679.
Definition divide64_row_14 : srow := SRow
   [Cell ([16868; 16946; 16679], [1137; 26965; 26839]) (Some (LW 1137)) (Some (LW 26839));
    Cell ([1074; 16947; 26839; 16679], [26902; 1136; 26966; 13836; 13835; 13834; 26840]) (Some (LW 1136)) (Some (LW 26840));
    Cell ([1073; 16948; 26840; 16679], [26903; 1135; 26967; 13833; 13832; 13831; 26841]) (Some (LW 1135)) (Some (LW 26841));
    Cell ([1072; 16949; 26841; 16679], [26904; 1134; 26968; 13830; 13829; 13828; 26842]) (Some (LW 1134)) (Some (LW 26842));
    Cell ([1071; 16950; 26842; 16679], [26905; 1133; 26969; 13827; 13826; 13825; 26843]) (Some (LW 1133)) (Some (LW 26843));
    Cell ([1070; 16951; 26843; 16679], [26906; 1132; 26970; 13824; 13823; 13822; 26844]) (Some (LW 1132)) (Some (LW 26844));
    Cell ([1069; 16952; 26844; 16679], [26907; 1131; 26971; 13821; 13820; 13819; 26845]) (Some (LW 1131)) (Some (LW 26845));
    Cell ([1068; 16953; 26845; 16679], [26908; 1130; 26972; 13818; 13817; 13816; 26846]) (Some (LW 1130)) (Some (LW 26846));
    Cell ([1067; 16954; 26846; 16679], [26909; 1129; 26973; 13815; 13814; 13813; 26847]) (Some (LW 1129)) (Some (LW 26847));
    Cell ([1066; 16955; 26847; 16679], [26910; 1128; 26974; 13812; 13811; 13810; 26848]) (Some (LW 1128)) (Some (LW 26848));
    Cell ([1065; 16956; 26848; 16679], [26911; 1127; 26975; 13809; 13808; 13807; 26849]) (Some (LW 1127)) (Some (LW 26849));
    Cell ([1064; 16957; 26849; 16679], [26912; 1126; 26976; 13806; 13805; 13804; 26850]) (Some (LW 1126)) (Some (LW 26850));
    Cell ([1063; 16958; 26850; 16679], [26913; 1125; 26977; 13803; 13802; 13801; 26851]) (Some (LW 1125)) (Some (LW 26851));
    Cell ([1062; 16959; 26851; 16679], [26914; 1124; 26978; 13800; 13799; 13798; 26852]) (Some (LW 1124)) (Some (LW 26852));
    Cell ([1061; 16960; 26852; 16679], [26915; 1123; 26979; 13797; 13796; 13795; 26853]) (Some (LW 1123)) (Some (LW 26853));
    Cell ([1060; 16961; 26853; 16679], [26916; 1122; 26980; 13794; 13793; 13792; 26854]) (Some (LW 1122)) (Some (LW 26854));
    Cell ([1059; 16962; 26854; 16679], [26917; 1121; 26981; 13791; 13790; 13789; 26855]) (Some (LW 1121)) (Some (LW 26855));
    Cell ([1058; 16963; 26855; 16679], [26918; 1120; 26982; 13788; 13787; 13786; 26856]) (Some (LW 1120)) (Some (LW 26856));
    Cell ([1057; 16964; 26856; 16679], [26919; 1119; 26983; 13785; 13784; 13783; 26857]) (Some (LW 1119)) (Some (LW 26857));
    Cell ([1056; 16965; 26857; 16679], [26920; 1118; 26984; 13782; 13781; 13780; 26858]) (Some (LW 1118)) (Some (LW 26858));
    Cell ([1055; 16966; 26858; 16679], [26921; 1117; 26985; 13779; 13778; 13777; 26859]) (Some (LW 1117)) (Some (LW 26859));
    Cell ([1054; 16967; 26859; 16679], [26922; 1116; 26986; 13776; 13775; 13774; 26860]) (Some (LW 1116)) (Some (LW 26860));
    Cell ([1053; 16968; 26860; 16679], [26923; 1115; 26987; 13773; 13772; 13771; 26861]) (Some (LW 1115)) (Some (LW 26861));
    Cell ([1052; 16969; 26861; 16679], [26924; 1114; 26988; 13770; 13769; 13768; 26862]) (Some (LW 1114)) (Some (LW 26862));
    Cell ([1051; 16970; 26862; 16679], [26925; 1113; 26989; 13767; 13766; 13765; 26863]) (Some (LW 1113)) (Some (LW 26863));
    Cell ([1050; 16971; 26863; 16679], [26926; 1112; 26990; 13764; 13763; 13762; 26864]) (Some (LW 1112)) (Some (LW 26864));
    Cell ([1049; 16972; 26864; 16679], [26927; 1111; 26991; 13761; 13760; 13759; 26865]) (Some (LW 1111)) (Some (LW 26865));
    Cell ([1048; 16973; 26865; 16679], [26928; 1110; 26992; 13758; 13757; 13756; 26866]) (Some (LW 1110)) (Some (LW 26866));
    Cell ([1047; 16974; 26866; 16679], [26929; 1109; 26993; 13755; 13754; 13753; 26867]) (Some (LW 1109)) (Some (LW 26867));
    Cell ([1046; 16975; 26867; 16679], [26930; 1108; 26994; 13752; 13751; 13750; 26868]) (Some (LW 1108)) (Some (LW 26868));
    Cell ([1045; 16976; 26868; 16679], [26931; 1107; 26995; 13749; 13748; 13747; 26869]) (Some (LW 1107)) (Some (LW 26869));
    Cell ([1044; 16977; 26869; 16679], [26932; 1106; 26996; 13746; 13745; 13744; 26870]) (Some (LW 1106)) (Some (LW 26870));
    Cell ([1043; 16978; 26870; 16679], [26933; 1105; 26997; 13743; 13742; 13741; 26871]) (Some (LW 1105)) (Some (LW 26871));
    Cell ([1042; 16979; 26871; 16679], [26934; 1104; 26998; 13740; 13739; 13738; 26872]) (Some (LW 1104)) (Some (LW 26872));
    Cell ([1041; 16980; 26872; 16679], [26935; 1103; 26999; 13737; 13736; 13735; 26873]) (Some (LW 1103)) (Some (LW 26873));
    Cell ([1040; 16981; 26873; 16679], [26936; 1102; 27000; 13734; 13733; 13732; 26874]) (Some (LW 1102)) (Some (LW 26874));
    Cell ([1039; 16982; 26874; 16679], [26937; 1101; 27001; 13731; 13730; 13729; 26875]) (Some (LW 1101)) (Some (LW 26875));
    Cell ([1038; 16983; 26875; 16679], [26938; 1100; 27002; 13728; 13727; 13726; 26876]) (Some (LW 1100)) (Some (LW 26876));
    Cell ([1037; 16984; 26876; 16679], [26939; 1099; 27003; 13725; 13724; 13723; 26877]) (Some (LW 1099)) (Some (LW 26877));
    Cell ([1036; 16985; 26877; 16679], [26940; 1098; 27004; 13722; 13721; 13720; 26878]) (Some (LW 1098)) (Some (LW 26878));
    Cell ([1035; 16986; 26878; 16679], [26941; 1097; 27005; 13719; 13718; 13717; 26879]) (Some (LW 1097)) (Some (LW 26879));
    Cell ([1034; 16987; 26879; 16679], [26942; 1096; 27006; 13716; 13715; 13714; 26880]) (Some (LW 1096)) (Some (LW 26880));
    Cell ([1033; 16988; 26880; 16679], [26943; 1095; 27007; 13713; 13712; 13711; 26881]) (Some (LW 1095)) (Some (LW 26881));
    Cell ([1032; 16989; 26881; 16679], [26944; 1094; 27008; 13710; 13709; 13708; 26882]) (Some (LW 1094)) (Some (LW 26882));
    Cell ([1031; 16990; 26882; 16679], [26945; 1093; 27009; 13707; 13706; 13705; 26883]) (Some (LW 1093)) (Some (LW 26883));
    Cell ([1030; 16991; 26883; 16679], [26946; 1092; 27010; 13704; 13703; 13702; 26884]) (Some (LW 1092)) (Some (LW 26884));
    Cell ([1029; 16992; 26884; 16679], [26947; 1091; 27011; 13701; 13700; 13699; 26885]) (Some (LW 1091)) (Some (LW 26885));
    Cell ([1028; 16993; 26885; 16679], [26948; 1090; 27012; 13698; 13697; 13696; 26886]) (Some (LW 1090)) (Some (LW 26886));
    Cell ([1027; 16994; 26886; 16679], [26949; 1089; 27013; 13695; 13694; 13693; 26887]) (Some (LW 1089)) (Some (LW 26887));
    Cell ([1026; 16995; 26887; 16679], [26950; 1088; 27014; 13692; 13691; 13690; 26888]) (Some (LW 1088)) (Some (LW 26888));
    Cell ([1025; 16996; 26888; 16679], [26951; 1087; 27015; 13689; 13688; 13687; 26889]) (Some (LW 1087)) (Some (LW 26889));
    Cell ([1024; 16997; 26889; 16679], [26952; 1086; 27016; 13686; 13685; 13684; 26890]) (Some (LW 1086)) (Some (LW 26890));
    Cell ([1023; 16998; 26890; 16679], [26953; 1085; 27017; 13683; 13682; 13681; 26891]) (Some (LW 1085)) (Some (LW 26891));
    Cell ([1022; 16999; 26891; 16679], [26954; 1084; 27018; 13680; 13679; 13678; 26892]) (Some (LW 1084)) (Some (LW 26892));
    Cell ([1021; 17000; 26892; 16679], [26955; 1083; 27019; 13677; 13676; 13675; 26893]) (Some (LW 1083)) (Some (LW 26893));
    Cell ([1020; 17001; 26893; 16679], [26956; 1082; 27020; 13674; 13673; 13672; 26894]) (Some (LW 1082)) (Some (LW 26894));
    Cell ([1019; 17002; 26894; 16679], [26957; 1081; 27021; 13671; 13670; 13669; 26895]) (Some (LW 1081)) (Some (LW 26895));
    Cell ([1018; 17003; 26895; 16679], [26958; 1080; 27022; 13668; 13667; 13666; 26896]) (Some (LW 1080)) (Some (LW 26896));
    Cell ([1017; 17004; 26896; 16679], [26959; 1079; 27023; 13665; 13664; 13663; 26897]) (Some (LW 1079)) (Some (LW 26897));
    Cell ([1016; 17005; 26897; 16679], [26960; 1078; 27024; 13662; 13661; 13660; 26898]) (Some (LW 1078)) (Some (LW 26898));
    Cell ([1015; 17006; 26898; 16679], [26961; 1077; 27025; 13659; 13658; 13657; 26899]) (Some (LW 1077)) (Some (LW 26899));
    Cell ([1014; 17007; 26899; 16679], [26962; 1076; 27026; 13656; 13655; 13654; 26900]) (Some (LW 1076)) (Some (LW 26900));
    Cell ([1013; 17008; 26900; 16679], [26963; 1075; 27027; 13653; 13652; 13651; 26901]) (Some (LW 1075)) (Some (LW 26901));
    Cell ([1012; 17009; 26901; 16679], [26964; 144]) (Some (LW 144)) (None)]
   144 16678.
Definition divide64_row_15 : srow := SRow
   [Cell ([16867; 16946; 16678], [1200; 26776; 26650]) (Some (LW 1200)) (Some (LW 26650));
    Cell ([1137; 16947; 26650; 16678], [26713; 1199; 26777; 13650; 13649; 13648; 26651]) (Some (LW 1199)) (Some (LW 26651));
    Cell ([1136; 16948; 26651; 16678], [26714; 1198; 26778; 13647; 13646; 13645; 26652]) (Some (LW 1198)) (Some (LW 26652));
    Cell ([1135; 16949; 26652; 16678], [26715; 1197; 26779; 13644; 13643; 13642; 26653]) (Some (LW 1197)) (Some (LW 26653));
    Cell ([1134; 16950; 26653; 16678], [26716; 1196; 26780; 13641; 13640; 13639; 26654]) (Some (LW 1196)) (Some (LW 26654));
    Cell ([1133; 16951; 26654; 16678], [26717; 1195; 26781; 13638; 13637; 13636; 26655]) (Some (LW 1195)) (Some (LW 26655));
    Cell ([1132; 16952; 26655; 16678], [26718; 1194; 26782; 13635; 13634; 13633; 26656]) (Some (LW 1194)) (Some (LW 26656));
    Cell ([1131; 16953; 26656; 16678], [26719; 1193; 26783; 13632; 13631; 13630; 26657]) (Some (LW 1193)) (Some (LW 26657));
    Cell ([1130; 16954; 26657; 16678], [26720; 1192; 26784; 13629; 13628; 13627; 26658]) (Some (LW 1192)) (Some (LW 26658));
    Cell ([1129; 16955; 26658; 16678], [26721; 1191; 26785; 13626; 13625; 13624; 26659]) (Some (LW 1191)) (Some (LW 26659));
    Cell ([1128; 16956; 26659; 16678], [26722; 1190; 26786; 13623; 13622; 13621; 26660]) (Some (LW 1190)) (Some (LW 26660));
    Cell ([1127; 16957; 26660; 16678], [26723; 1189; 26787; 13620; 13619; 13618; 26661]) (Some (LW 1189)) (Some (LW 26661));
    Cell ([1126; 16958; 26661; 16678], [26724; 1188; 26788; 13617; 13616; 13615; 26662]) (Some (LW 1188)) (Some (LW 26662));
    Cell ([1125; 16959; 26662; 16678], [26725; 1187; 26789; 13614; 13613; 13612; 26663]) (Some (LW 1187)) (Some (LW 26663));
    Cell ([1124; 16960; 26663; 16678], [26726; 1186; 26790; 13611; 13610; 13609; 26664]) (Some (LW 1186)) (Some (LW 26664));
    Cell ([1123; 16961; 26664; 16678], [26727; 1185; 26791; 13608; 13607; 13606; 26665]) (Some (LW 1185)) (Some (LW 26665));
    Cell ([1122; 16962; 26665; 16678], [26728; 1184; 26792; 13605; 13604; 13603; 26666]) (Some (LW 1184)) (Some (LW 26666));
    Cell ([1121; 16963; 26666; 16678], [26729; 1183; 26793; 13602; 13601; 13600; 26667]) (Some (LW 1183)) (Some (LW 26667));
    Cell ([1120; 16964; 26667; 16678], [26730; 1182; 26794; 13599; 13598; 13597; 26668]) (Some (LW 1182)) (Some (LW 26668));
    Cell ([1119; 16965; 26668; 16678], [26731; 1181; 26795; 13596; 13595; 13594; 26669]) (Some (LW 1181)) (Some (LW 26669));
    Cell ([1118; 16966; 26669; 16678], [26732; 1180; 26796; 13593; 13592; 13591; 26670]) (Some (LW 1180)) (Some (LW 26670));
    Cell ([1117; 16967; 26670; 16678], [26733; 1179; 26797; 13590; 13589; 13588; 26671]) (Some (LW 1179)) (Some (LW 26671));
    Cell ([1116; 16968; 26671; 16678], [26734; 1178; 26798; 13587; 13586; 13585; 26672]) (Some (LW 1178)) (Some (LW 26672));
    Cell ([1115; 16969; 26672; 16678], [26735; 1177; 26799; 13584; 13583; 13582; 26673]) (Some (LW 1177)) (Some (LW 26673));
    Cell ([1114; 16970; 26673; 16678], [26736; 1176; 26800; 13581; 13580; 13579; 26674]) (Some (LW 1176)) (Some (LW 26674));
    Cell ([1113; 16971; 26674; 16678], [26737; 1175; 26801; 13578; 13577; 13576; 26675]) (Some (LW 1175)) (Some (LW 26675));
    Cell ([1112; 16972; 26675; 16678], [26738; 1174; 26802; 13575; 13574; 13573; 26676]) (Some (LW 1174)) (Some (LW 26676));
    Cell ([1111; 16973; 26676; 16678], [26739; 1173; 26803; 13572; 13571; 13570; 26677]) (Some (LW 1173)) (Some (LW 26677));
    Cell ([1110; 16974; 26677; 16678], [26740; 1172; 26804; 13569; 13568; 13567; 26678]) (Some (LW 1172)) (Some (LW 26678));
    Cell ([1109; 16975; 26678; 16678], [26741; 1171; 26805; 13566; 13565; 13564; 26679]) (Some (LW 1171)) (Some (LW 26679));
    Cell ([1108; 16976; 26679; 16678], [26742; 1170; 26806; 13563; 13562; 13561; 26680]) (Some (LW 1170)) (Some (LW 26680));
    Cell ([1107; 16977; 26680; 16678], [26743; 1169; 26807; 13560; 13559; 13558; 26681]) (Some (LW 1169)) (Some (LW 26681));
    Cell ([1106; 16978; 26681; 16678], [26744; 1168; 26808; 13557; 13556; 13555; 26682]) (Some (LW 1168)) (Some (LW 26682));
    Cell ([1105; 16979; 26682; 16678], [26745; 1167; 26809; 13554; 13553; 13552; 26683]) (Some (LW 1167)) (Some (LW 26683));
    Cell ([1104; 16980; 26683; 16678], [26746; 1166; 26810; 13551; 13550; 13549; 26684]) (Some (LW 1166)) (Some (LW 26684));
    Cell ([1103; 16981; 26684; 16678], [26747; 1165; 26811; 13548; 13547; 13546; 26685]) (Some (LW 1165)) (Some (LW 26685));
    Cell ([1102; 16982; 26685; 16678], [26748; 1164; 26812; 13545; 13544; 13543; 26686]) (Some (LW 1164)) (Some (LW 26686));
    Cell ([1101; 16983; 26686; 16678], [26749; 1163; 26813; 13542; 13541; 13540; 26687]) (Some (LW 1163)) (Some (LW 26687));
    Cell ([1100; 16984; 26687; 16678], [26750; 1162; 26814; 13539; 13538; 13537; 26688]) (Some (LW 1162)) (Some (LW 26688));
    Cell ([1099; 16985; 26688; 16678], [26751; 1161; 26815; 13536; 13535; 13534; 26689]) (Some (LW 1161)) (Some (LW 26689));
    Cell ([1098; 16986; 26689; 16678], [26752; 1160; 26816; 13533; 13532; 13531; 26690]) (Some (LW 1160)) (Some (LW 26690));
    Cell ([1097; 16987; 26690; 16678], [26753; 1159; 26817; 13530; 13529; 13528; 26691]) (Some (LW 1159)) (Some (LW 26691));
    Cell ([1096; 16988; 26691; 16678], [26754; 1158; 26818; 13527; 13526; 13525; 26692]) (Some (LW 1158)) (Some (LW 26692));
    Cell ([1095; 16989; 26692; 16678], [26755; 1157; 26819; 13524; 13523; 13522; 26693]) (Some (LW 1157)) (Some (LW 26693));
    Cell ([1094; 16990; 26693; 16678], [26756; 1156; 26820; 13521; 13520; 13519; 26694]) (Some (LW 1156)) (Some (LW 26694));
    Cell ([1093; 16991; 26694; 16678], [26757; 1155; 26821; 13518; 13517; 13516; 26695]) (Some (LW 1155)) (Some (LW 26695));
    Cell ([1092; 16992; 26695; 16678], [26758; 1154; 26822; 13515; 13514; 13513; 26696]) (Some (LW 1154)) (Some (LW 26696));
    Cell ([1091; 16993; 26696; 16678], [26759; 1153; 26823; 13512; 13511; 13510; 26697]) (Some (LW 1153)) (Some (LW 26697));
    Cell ([1090; 16994; 26697; 16678], [26760; 1152; 26824; 13509; 13508; 13507; 26698]) (Some (LW 1152)) (Some (LW 26698));
    Cell ([1089; 16995; 26698; 16678], [26761; 1151; 26825; 13506; 13505; 13504; 26699]) (Some (LW 1151)) (Some (LW 26699));
    Cell ([1088; 16996; 26699; 16678], [26762; 1150; 26826; 13503; 13502; 13501; 26700]) (Some (LW 1150)) (Some (LW 26700));
    Cell ([1087; 16997; 26700; 16678], [26763; 1149; 26827; 13500; 13499; 13498; 26701]) (Some (LW 1149)) (Some (LW 26701));
    Cell ([1086; 16998; 26701; 16678], [26764; 1148; 26828; 13497; 13496; 13495; 26702]) (Some (LW 1148)) (Some (LW 26702));
    Cell ([1085; 16999; 26702; 16678], [26765; 1147; 26829; 13494; 13493; 13492; 26703]) (Some (LW 1147)) (Some (LW 26703));
    Cell ([1084; 17000; 26703; 16678], [26766; 1146; 26830; 13491; 13490; 13489; 26704]) (Some (LW 1146)) (Some (LW 26704));
    Cell ([1083; 17001; 26704; 16678], [26767; 1145; 26831; 13488; 13487; 13486; 26705]) (Some (LW 1145)) (Some (LW 26705));
    Cell ([1082; 17002; 26705; 16678], [26768; 1144; 26832; 13485; 13484; 13483; 26706]) (Some (LW 1144)) (Some (LW 26706));
    Cell ([1081; 17003; 26706; 16678], [26769; 1143; 26833; 13482; 13481; 13480; 26707]) (Some (LW 1143)) (Some (LW 26707));
    Cell ([1080; 17004; 26707; 16678], [26770; 1142; 26834; 13479; 13478; 13477; 26708]) (Some (LW 1142)) (Some (LW 26708));
    Cell ([1079; 17005; 26708; 16678], [26771; 1141; 26835; 13476; 13475; 13474; 26709]) (Some (LW 1141)) (Some (LW 26709));
    Cell ([1078; 17006; 26709; 16678], [26772; 1140; 26836; 13473; 13472; 13471; 26710]) (Some (LW 1140)) (Some (LW 26710));
    Cell ([1077; 17007; 26710; 16678], [26773; 1139; 26837; 13470; 13469; 13468; 26711]) (Some (LW 1139)) (Some (LW 26711));
    Cell ([1076; 17008; 26711; 16678], [26774; 1138; 26838; 13467; 13466; 13465; 26712]) (Some (LW 1138)) (Some (LW 26712));
    Cell ([1075; 17009; 26712; 16678], [26775; 145]) (Some (LW 145)) (None)]
   145 16677.
Definition divide64_row_16 : srow := SRow
   [Cell ([16866; 16946; 16677], [1263; 26587; 26461]) (Some (LW 1263)) (Some (LW 26461));
    Cell ([1200; 16947; 26461; 16677], [26524; 1262; 26588; 13464; 13463; 13462; 26462]) (Some (LW 1262)) (Some (LW 26462));
    Cell ([1199; 16948; 26462; 16677], [26525; 1261; 26589; 13461; 13460; 13459; 26463]) (Some (LW 1261)) (Some (LW 26463));
    Cell ([1198; 16949; 26463; 16677], [26526; 1260; 26590; 13458; 13457; 13456; 26464]) (Some (LW 1260)) (Some (LW 26464));
    Cell ([1197; 16950; 26464; 16677], [26527; 1259; 26591; 13455; 13454; 13453; 26465]) (Some (LW 1259)) (Some (LW 26465));
    Cell ([1196; 16951; 26465; 16677], [26528; 1258; 26592; 13452; 13451; 13450; 26466]) (Some (LW 1258)) (Some (LW 26466));
    Cell ([1195; 16952; 26466; 16677], [26529; 1257; 26593; 13449; 13448; 13447; 26467]) (Some (LW 1257)) (Some (LW 26467));
    Cell ([1194; 16953; 26467; 16677], [26530; 1256; 26594; 13446; 13445; 13444; 26468]) (Some (LW 1256)) (Some (LW 26468));
    Cell ([1193; 16954; 26468; 16677], [26531; 1255; 26595; 13443; 13442; 13441; 26469]) (Some (LW 1255)) (Some (LW 26469));
    Cell ([1192; 16955; 26469; 16677], [26532; 1254; 26596; 13440; 13439; 13438; 26470]) (Some (LW 1254)) (Some (LW 26470));
    Cell ([1191; 16956; 26470; 16677], [26533; 1253; 26597; 13437; 13436; 13435; 26471]) (Some (LW 1253)) (Some (LW 26471));
    Cell ([1190; 16957; 26471; 16677], [26534; 1252; 26598; 13434; 13433; 13432; 26472]) (Some (LW 1252)) (Some (LW 26472));
    Cell ([1189; 16958; 26472; 16677], [26535; 1251; 26599; 13431; 13430; 13429; 26473]) (Some (LW 1251)) (Some (LW 26473));
    Cell ([1188; 16959; 26473; 16677], [26536; 1250; 26600; 13428; 13427; 13426; 26474]) (Some (LW 1250)) (Some (LW 26474));
    Cell ([1187; 16960; 26474; 16677], [26537; 1249; 26601; 13425; 13424; 13423; 26475]) (Some (LW 1249)) (Some (LW 26475));
    Cell ([1186; 16961; 26475; 16677], [26538; 1248; 26602; 13422; 13421; 13420; 26476]) (Some (LW 1248)) (Some (LW 26476));
    Cell ([1185; 16962; 26476; 16677], [26539; 1247; 26603; 13419; 13418; 13417; 26477]) (Some (LW 1247)) (Some (LW 26477));
    Cell ([1184; 16963; 26477; 16677], [26540; 1246; 26604; 13416; 13415; 13414; 26478]) (Some (LW 1246)) (Some (LW 26478));
    Cell ([1183; 16964; 26478; 16677], [26541; 1245; 26605; 13413; 13412; 13411; 26479]) (Some (LW 1245)) (Some (LW 26479));
    Cell ([1182; 16965; 26479; 16677], [26542; 1244; 26606; 13410; 13409; 13408; 26480]) (Some (LW 1244)) (Some (LW 26480));
    Cell ([1181; 16966; 26480; 16677], [26543; 1243; 26607; 13407; 13406; 13405; 26481]) (Some (LW 1243)) (Some (LW 26481));
    Cell ([1180; 16967; 26481; 16677], [26544; 1242; 26608; 13404; 13403; 13402; 26482]) (Some (LW 1242)) (Some (LW 26482));
    Cell ([1179; 16968; 26482; 16677], [26545; 1241; 26609; 13401; 13400; 13399; 26483]) (Some (LW 1241)) (Some (LW 26483));
    Cell ([1178; 16969; 26483; 16677], [26546; 1240; 26610; 13398; 13397; 13396; 26484]) (Some (LW 1240)) (Some (LW 26484));
    Cell ([1177; 16970; 26484; 16677], [26547; 1239; 26611; 13395; 13394; 13393; 26485]) (Some (LW 1239)) (Some (LW 26485));
    Cell ([1176; 16971; 26485; 16677], [26548; 1238; 26612; 13392; 13391; 13390; 26486]) (Some (LW 1238)) (Some (LW 26486));
    Cell ([1175; 16972; 26486; 16677], [26549; 1237; 26613; 13389; 13388; 13387; 26487]) (Some (LW 1237)) (Some (LW 26487));
    Cell ([1174; 16973; 26487; 16677], [26550; 1236; 26614; 13386; 13385; 13384; 26488]) (Some (LW 1236)) (Some (LW 26488));
    Cell ([1173; 16974; 26488; 16677], [26551; 1235; 26615; 13383; 13382; 13381; 26489]) (Some (LW 1235)) (Some (LW 26489));
    Cell ([1172; 16975; 26489; 16677], [26552; 1234; 26616; 13380; 13379; 13378; 26490]) (Some (LW 1234)) (Some (LW 26490));
    Cell ([1171; 16976; 26490; 16677], [26553; 1233; 26617; 13377; 13376; 13375; 26491]) (Some (LW 1233)) (Some (LW 26491));
    Cell ([1170; 16977; 26491; 16677], [26554; 1232; 26618; 13374; 13373; 13372; 26492]) (Some (LW 1232)) (Some (LW 26492));
    Cell ([1169; 16978; 26492; 16677], [26555; 1231; 26619; 13371; 13370; 13369; 26493]) (Some (LW 1231)) (Some (LW 26493));
    Cell ([1168; 16979; 26493; 16677], [26556; 1230; 26620; 13368; 13367; 13366; 26494]) (Some (LW 1230)) (Some (LW 26494));
    Cell ([1167; 16980; 26494; 16677], [26557; 1229; 26621; 13365; 13364; 13363; 26495]) (Some (LW 1229)) (Some (LW 26495));
    Cell ([1166; 16981; 26495; 16677], [26558; 1228; 26622; 13362; 13361; 13360; 26496]) (Some (LW 1228)) (Some (LW 26496));
    Cell ([1165; 16982; 26496; 16677], [26559; 1227; 26623; 13359; 13358; 13357; 26497]) (Some (LW 1227)) (Some (LW 26497));
    Cell ([1164; 16983; 26497; 16677], [26560; 1226; 26624; 13356; 13355; 13354; 26498]) (Some (LW 1226)) (Some (LW 26498));
    Cell ([1163; 16984; 26498; 16677], [26561; 1225; 26625; 13353; 13352; 13351; 26499]) (Some (LW 1225)) (Some (LW 26499));
    Cell ([1162; 16985; 26499; 16677], [26562; 1224; 26626; 13350; 13349; 13348; 26500]) (Some (LW 1224)) (Some (LW 26500));
    Cell ([1161; 16986; 26500; 16677], [26563; 1223; 26627; 13347; 13346; 13345; 26501]) (Some (LW 1223)) (Some (LW 26501));
    Cell ([1160; 16987; 26501; 16677], [26564; 1222; 26628; 13344; 13343; 13342; 26502]) (Some (LW 1222)) (Some (LW 26502));
    Cell ([1159; 16988; 26502; 16677], [26565; 1221; 26629; 13341; 13340; 13339; 26503]) (Some (LW 1221)) (Some (LW 26503));
    Cell ([1158; 16989; 26503; 16677], [26566; 1220; 26630; 13338; 13337; 13336; 26504]) (Some (LW 1220)) (Some (LW 26504));
    Cell ([1157; 16990; 26504; 16677], [26567; 1219; 26631; 13335; 13334; 13333; 26505]) (Some (LW 1219)) (Some (LW 26505));
    Cell ([1156; 16991; 26505; 16677], [26568; 1218; 26632; 13332; 13331; 13330; 26506]) (Some (LW 1218)) (Some (LW 26506));
    Cell ([1155; 16992; 26506; 16677], [26569; 1217; 26633; 13329; 13328; 13327; 26507]) (Some (LW 1217)) (Some (LW 26507));
    Cell ([1154; 16993; 26507; 16677], [26570; 1216; 26634; 13326; 13325; 13324; 26508]) (Some (LW 1216)) (Some (LW 26508));
    Cell ([1153; 16994; 26508; 16677], [26571; 1215; 26635; 13323; 13322; 13321; 26509]) (Some (LW 1215)) (Some (LW 26509));
    Cell ([1152; 16995; 26509; 16677], [26572; 1214; 26636; 13320; 13319; 13318; 26510]) (Some (LW 1214)) (Some (LW 26510));
    Cell ([1151; 16996; 26510; 16677], [26573; 1213; 26637; 13317; 13316; 13315; 26511]) (Some (LW 1213)) (Some (LW 26511));
    Cell ([1150; 16997; 26511; 16677], [26574; 1212; 26638; 13314; 13313; 13312; 26512]) (Some (LW 1212)) (Some (LW 26512));
    Cell ([1149; 16998; 26512; 16677], [26575; 1211; 26639; 13311; 13310; 13309; 26513]) (Some (LW 1211)) (Some (LW 26513));
    Cell ([1148; 16999; 26513; 16677], [26576; 1210; 26640; 13308; 13307; 13306; 26514]) (Some (LW 1210)) (Some (LW 26514));
    Cell ([1147; 17000; 26514; 16677], [26577; 1209; 26641; 13305; 13304; 13303; 26515]) (Some (LW 1209)) (Some (LW 26515));
    Cell ([1146; 17001; 26515; 16677], [26578; 1208; 26642; 13302; 13301; 13300; 26516]) (Some (LW 1208)) (Some (LW 26516));
    Cell ([1145; 17002; 26516; 16677], [26579; 1207; 26643; 13299; 13298; 13297; 26517]) (Some (LW 1207)) (Some (LW 26517));
    Cell ([1144; 17003; 26517; 16677], [26580; 1206; 26644; 13296; 13295; 13294; 26518]) (Some (LW 1206)) (Some (LW 26518));
    Cell ([1143; 17004; 26518; 16677], [26581; 1205; 26645; 13293; 13292; 13291; 26519]) (Some (LW 1205)) (Some (LW 26519));
    Cell ([1142; 17005; 26519; 16677], [26582; 1204; 26646; 13290; 13289; 13288; 26520]) (Some (LW 1204)) (Some (LW 26520));
    Cell ([1141; 17006; 26520; 16677], [26583; 1203; 26647; 13287; 13286; 13285; 26521]) (Some (LW 1203)) (Some (LW 26521));
    Cell ([1140; 17007; 26521; 16677], [26584; 1202; 26648; 13284; 13283; 13282; 26522]) (Some (LW 1202)) (Some (LW 26522));
    Cell ([1139; 17008; 26522; 16677], [26585; 1201; 26649; 13281; 13280; 13279; 26523]) (Some (LW 1201)) (Some (LW 26523));
    Cell ([1138; 17009; 26523; 16677], [26586; 146]) (Some (LW 146)) (None)]
   146 16676.
Definition divide64_row_17 : srow := SRow
   [Cell ([16865; 16946; 16676], [1326; 26398; 26272]) (Some (LW 1326)) (Some (LW 26272));
    Cell ([1263; 16947; 26272; 16676], [26335; 1325; 26399; 13278; 13277; 13276; 26273]) (Some (LW 1325)) (Some (LW 26273));
    Cell ([1262; 16948; 26273; 16676], [26336; 1324; 26400; 13275; 13274; 13273; 26274]) (Some (LW 1324)) (Some (LW 26274));
    Cell ([1261; 16949; 26274; 16676], [26337; 1323; 26401; 13272; 13271; 13270; 26275]) (Some (LW 1323)) (Some (LW 26275));
    Cell ([1260; 16950; 26275; 16676], [26338; 1322; 26402; 13269; 13268; 13267; 26276]) (Some (LW 1322)) (Some (LW 26276));
    Cell ([1259; 16951; 26276; 16676], [26339; 1321; 26403; 13266; 13265; 13264; 26277]) (Some (LW 1321)) (Some (LW 26277));
    Cell ([1258; 16952; 26277; 16676], [26340; 1320; 26404; 13263; 13262; 13261; 26278]) (Some (LW 1320)) (Some (LW 26278));
    Cell ([1257; 16953; 26278; 16676], [26341; 1319; 26405; 13260; 13259; 13258; 26279]) (Some (LW 1319)) (Some (LW 26279));
    Cell ([1256; 16954; 26279; 16676], [26342; 1318; 26406; 13257; 13256; 13255; 26280]) (Some (LW 1318)) (Some (LW 26280));
    Cell ([1255; 16955; 26280; 16676], [26343; 1317; 26407; 13254; 13253; 13252; 26281]) (Some (LW 1317)) (Some (LW 26281));
    Cell ([1254; 16956; 26281; 16676], [26344; 1316; 26408; 13251; 13250; 13249; 26282]) (Some (LW 1316)) (Some (LW 26282));
    Cell ([1253; 16957; 26282; 16676], [26345; 1315; 26409; 13248; 13247; 13246; 26283]) (Some (LW 1315)) (Some (LW 26283));
    Cell ([1252; 16958; 26283; 16676], [26346; 1314; 26410; 13245; 13244; 13243; 26284]) (Some (LW 1314)) (Some (LW 26284));
    Cell ([1251; 16959; 26284; 16676], [26347; 1313; 26411; 13242; 13241; 13240; 26285]) (Some (LW 1313)) (Some (LW 26285));
    Cell ([1250; 16960; 26285; 16676], [26348; 1312; 26412; 13239; 13238; 13237; 26286]) (Some (LW 1312)) (Some (LW 26286));
    Cell ([1249; 16961; 26286; 16676], [26349; 1311; 26413; 13236; 13235; 13234; 26287]) (Some (LW 1311)) (Some (LW 26287));
    Cell ([1248; 16962; 26287; 16676], [26350; 1310; 26414; 13233; 13232; 13231; 26288]) (Some (LW 1310)) (Some (LW 26288));
    Cell ([1247; 16963; 26288; 16676], [26351; 1309; 26415; 13230; 13229; 13228; 26289]) (Some (LW 1309)) (Some (LW 26289));
    Cell ([1246; 16964; 26289; 16676], [26352; 1308; 26416; 13227; 13226; 13225; 26290]) (Some (LW 1308)) (Some (LW 26290));
    Cell ([1245; 16965; 26290; 16676], [26353; 1307; 26417; 13224; 13223; 13222; 26291]) (Some (LW 1307)) (Some (LW 26291));
    Cell ([1244; 16966; 26291; 16676], [26354; 1306; 26418; 13221; 13220; 13219; 26292]) (Some (LW 1306)) (Some (LW 26292));
    Cell ([1243; 16967; 26292; 16676], [26355; 1305; 26419; 13218; 13217; 13216; 26293]) (Some (LW 1305)) (Some (LW 26293));
    Cell ([1242; 16968; 26293; 16676], [26356; 1304; 26420; 13215; 13214; 13213; 26294]) (Some (LW 1304)) (Some (LW 26294));
    Cell ([1241; 16969; 26294; 16676], [26357; 1303; 26421; 13212; 13211; 13210; 26295]) (Some (LW 1303)) (Some (LW 26295));
    Cell ([1240; 16970; 26295; 16676], [26358; 1302; 26422; 13209; 13208; 13207; 26296]) (Some (LW 1302)) (Some (LW 26296));
    Cell ([1239; 16971; 26296; 16676], [26359; 1301; 26423; 13206; 13205; 13204; 26297]) (Some (LW 1301)) (Some (LW 26297));
    Cell ([1238; 16972; 26297; 16676], [26360; 1300; 26424; 13203; 13202; 13201; 26298]) (Some (LW 1300)) (Some (LW 26298));
    Cell ([1237; 16973; 26298; 16676], [26361; 1299; 26425; 13200; 13199; 13198; 26299]) (Some (LW 1299)) (Some (LW 26299));
    Cell ([1236; 16974; 26299; 16676], [26362; 1298; 26426; 13197; 13196; 13195; 26300]) (Some (LW 1298)) (Some (LW 26300));
    Cell ([1235; 16975; 26300; 16676], [26363; 1297; 26427; 13194; 13193; 13192; 26301]) (Some (LW 1297)) (Some (LW 26301));
    Cell ([1234; 16976; 26301; 16676], [26364; 1296; 26428; 13191; 13190; 13189; 26302]) (Some (LW 1296)) (Some (LW 26302));
    Cell ([1233; 16977; 26302; 16676], [26365; 1295; 26429; 13188; 13187; 13186; 26303]) (Some (LW 1295)) (Some (LW 26303));
    Cell ([1232; 16978; 26303; 16676], [26366; 1294; 26430; 13185; 13184; 13183; 26304]) (Some (LW 1294)) (Some (LW 26304));
    Cell ([1231; 16979; 26304; 16676], [26367; 1293; 26431; 13182; 13181; 13180; 26305]) (Some (LW 1293)) (Some (LW 26305));
    Cell ([1230; 16980; 26305; 16676], [26368; 1292; 26432; 13179; 13178; 13177; 26306]) (Some (LW 1292)) (Some (LW 26306));
    Cell ([1229; 16981; 26306; 16676], [26369; 1291; 26433; 13176; 13175; 13174; 26307]) (Some (LW 1291)) (Some (LW 26307));
    Cell ([1228; 16982; 26307; 16676], [26370; 1290; 26434; 13173; 13172; 13171; 26308]) (Some (LW 1290)) (Some (LW 26308));
    Cell ([1227; 16983; 26308; 16676], [26371; 1289; 26435; 13170; 13169; 13168; 26309]) (Some (LW 1289)) (Some (LW 26309));
    Cell ([1226; 16984; 26309; 16676], [26372; 1288; 26436; 13167; 13166; 13165; 26310]) (Some (LW 1288)) (Some (LW 26310));
    Cell ([1225; 16985; 26310; 16676], [26373; 1287; 26437; 13164; 13163; 13162; 26311]) (Some (LW 1287)) (Some (LW 26311));
    Cell ([1224; 16986; 26311; 16676], [26374; 1286; 26438; 13161; 13160; 13159; 26312]) (Some (LW 1286)) (Some (LW 26312));
    Cell ([1223; 16987; 26312; 16676], [26375; 1285; 26439; 13158; 13157; 13156; 26313]) (Some (LW 1285)) (Some (LW 26313));
    Cell ([1222; 16988; 26313; 16676], [26376; 1284; 26440; 13155; 13154; 13153; 26314]) (Some (LW 1284)) (Some (LW 26314));
    Cell ([1221; 16989; 26314; 16676], [26377; 1283; 26441; 13152; 13151; 13150; 26315]) (Some (LW 1283)) (Some (LW 26315));
    Cell ([1220; 16990; 26315; 16676], [26378; 1282; 26442; 13149; 13148; 13147; 26316]) (Some (LW 1282)) (Some (LW 26316));
    Cell ([1219; 16991; 26316; 16676], [26379; 1281; 26443; 13146; 13145; 13144; 26317]) (Some (LW 1281)) (Some (LW 26317));
    Cell ([1218; 16992; 26317; 16676], [26380; 1280; 26444; 13143; 13142; 13141; 26318]) (Some (LW 1280)) (Some (LW 26318));
    Cell ([1217; 16993; 26318; 16676], [26381; 1279; 26445; 13140; 13139; 13138; 26319]) (Some (LW 1279)) (Some (LW 26319));
    Cell ([1216; 16994; 26319; 16676], [26382; 1278; 26446; 13137; 13136; 13135; 26320]) (Some (LW 1278)) (Some (LW 26320));
    Cell ([1215; 16995; 26320; 16676], [26383; 1277; 26447; 13134; 13133; 13132; 26321]) (Some (LW 1277)) (Some (LW 26321));
    Cell ([1214; 16996; 26321; 16676], [26384; 1276; 26448; 13131; 13130; 13129; 26322]) (Some (LW 1276)) (Some (LW 26322));
    Cell ([1213; 16997; 26322; 16676], [26385; 1275; 26449; 13128; 13127; 13126; 26323]) (Some (LW 1275)) (Some (LW 26323));
    Cell ([1212; 16998; 26323; 16676], [26386; 1274; 26450; 13125; 13124; 13123; 26324]) (Some (LW 1274)) (Some (LW 26324));
    Cell ([1211; 16999; 26324; 16676], [26387; 1273; 26451; 13122; 13121; 13120; 26325]) (Some (LW 1273)) (Some (LW 26325));
    Cell ([1210; 17000; 26325; 16676], [26388; 1272; 26452; 13119; 13118; 13117; 26326]) (Some (LW 1272)) (Some (LW 26326));
    Cell ([1209; 17001; 26326; 16676], [26389; 1271; 26453; 13116; 13115; 13114; 26327]) (Some (LW 1271)) (Some (LW 26327));
    Cell ([1208; 17002; 26327; 16676], [26390; 1270; 26454; 13113; 13112; 13111; 26328]) (Some (LW 1270)) (Some (LW 26328));
    Cell ([1207; 17003; 26328; 16676], [26391; 1269; 26455; 13110; 13109; 13108; 26329]) (Some (LW 1269)) (Some (LW 26329));
    Cell ([1206; 17004; 26329; 16676], [26392; 1268; 26456; 13107; 13106; 13105; 26330]) (Some (LW 1268)) (Some (LW 26330));
    Cell ([1205; 17005; 26330; 16676], [26393; 1267; 26457; 13104; 13103; 13102; 26331]) (Some (LW 1267)) (Some (LW 26331));
    Cell ([1204; 17006; 26331; 16676], [26394; 1266; 26458; 13101; 13100; 13099; 26332]) (Some (LW 1266)) (Some (LW 26332));
    Cell ([1203; 17007; 26332; 16676], [26395; 1265; 26459; 13098; 13097; 13096; 26333]) (Some (LW 1265)) (Some (LW 26333));
    Cell ([1202; 17008; 26333; 16676], [26396; 1264; 26460; 13095; 13094; 13093; 26334]) (Some (LW 1264)) (Some (LW 26334));
    Cell ([1201; 17009; 26334; 16676], [26397; 147]) (Some (LW 147)) (None)]
   147 16675.
Definition divide64_row_18 : srow := SRow
   [Cell ([16864; 16946; 16675], [1389; 26209; 26083]) (Some (LW 1389)) (Some (LW 26083));
    Cell ([1326; 16947; 26083; 16675], [26146; 1388; 26210; 13092; 13091; 13090; 26084]) (Some (LW 1388)) (Some (LW 26084));
    Cell ([1325; 16948; 26084; 16675], [26147; 1387; 26211; 13089; 13088; 13087; 26085]) (Some (LW 1387)) (Some (LW 26085));
    Cell ([1324; 16949; 26085; 16675], [26148; 1386; 26212; 13086; 13085; 13084; 26086]) (Some (LW 1386)) (Some (LW 26086));
    Cell ([1323; 16950; 26086; 16675], [26149; 1385; 26213; 13083; 13082; 13081; 26087]) (Some (LW 1385)) (Some (LW 26087));
    Cell ([1322; 16951; 26087; 16675], [26150; 1384; 26214; 13080; 13079; 13078; 26088]) (Some (LW 1384)) (Some (LW 26088));
    Cell ([1321; 16952; 26088; 16675], [26151; 1383; 26215; 13077; 13076; 13075; 26089]) (Some (LW 1383)) (Some (LW 26089));
    Cell ([1320; 16953; 26089; 16675], [26152; 1382; 26216; 13074; 13073; 13072; 26090]) (Some (LW 1382)) (Some (LW 26090));
    Cell ([1319; 16954; 26090; 16675], [26153; 1381; 26217; 13071; 13070; 13069; 26091]) (Some (LW 1381)) (Some (LW 26091));
    Cell ([1318; 16955; 26091; 16675], [26154; 1380; 26218; 13068; 13067; 13066; 26092]) (Some (LW 1380)) (Some (LW 26092));
    Cell ([1317; 16956; 26092; 16675], [26155; 1379; 26219; 13065; 13064; 13063; 26093]) (Some (LW 1379)) (Some (LW 26093));
    Cell ([1316; 16957; 26093; 16675], [26156; 1378; 26220; 13062; 13061; 13060; 26094]) (Some (LW 1378)) (Some (LW 26094));
    Cell ([1315; 16958; 26094; 16675], [26157; 1377; 26221; 13059; 13058; 13057; 26095]) (Some (LW 1377)) (Some (LW 26095));
    Cell ([1314; 16959; 26095; 16675], [26158; 1376; 26222; 13056; 13055; 13054; 26096]) (Some (LW 1376)) (Some (LW 26096));
    Cell ([1313; 16960; 26096; 16675], [26159; 1375; 26223; 13053; 13052; 13051; 26097]) (Some (LW 1375)) (Some (LW 26097));
    Cell ([1312; 16961; 26097; 16675], [26160; 1374; 26224; 13050; 13049; 13048; 26098]) (Some (LW 1374)) (Some (LW 26098));
    Cell ([1311; 16962; 26098; 16675], [26161; 1373; 26225; 13047; 13046; 13045; 26099]) (Some (LW 1373)) (Some (LW 26099));
    Cell ([1310; 16963; 26099; 16675], [26162; 1372; 26226; 13044; 13043; 13042; 26100]) (Some (LW 1372)) (Some (LW 26100));
    Cell ([1309; 16964; 26100; 16675], [26163; 1371; 26227; 13041; 13040; 13039; 26101]) (Some (LW 1371)) (Some (LW 26101));
    Cell ([1308; 16965; 26101; 16675], [26164; 1370; 26228; 13038; 13037; 13036; 26102]) (Some (LW 1370)) (Some (LW 26102));
    Cell ([1307; 16966; 26102; 16675], [26165; 1369; 26229; 13035; 13034; 13033; 26103]) (Some (LW 1369)) (Some (LW 26103));
    Cell ([1306; 16967; 26103; 16675], [26166; 1368; 26230; 13032; 13031; 13030; 26104]) (Some (LW 1368)) (Some (LW 26104));
    Cell ([1305; 16968; 26104; 16675], [26167; 1367; 26231; 13029; 13028; 13027; 26105]) (Some (LW 1367)) (Some (LW 26105));
    Cell ([1304; 16969; 26105; 16675], [26168; 1366; 26232; 13026; 13025; 13024; 26106]) (Some (LW 1366)) (Some (LW 26106));
    Cell ([1303; 16970; 26106; 16675], [26169; 1365; 26233; 13023; 13022; 13021; 26107]) (Some (LW 1365)) (Some (LW 26107));
    Cell ([1302; 16971; 26107; 16675], [26170; 1364; 26234; 13020; 13019; 13018; 26108]) (Some (LW 1364)) (Some (LW 26108));
    Cell ([1301; 16972; 26108; 16675], [26171; 1363; 26235; 13017; 13016; 13015; 26109]) (Some (LW 1363)) (Some (LW 26109));
    Cell ([1300; 16973; 26109; 16675], [26172; 1362; 26236; 13014; 13013; 13012; 26110]) (Some (LW 1362)) (Some (LW 26110));
    Cell ([1299; 16974; 26110; 16675], [26173; 1361; 26237; 13011; 13010; 13009; 26111]) (Some (LW 1361)) (Some (LW 26111));
    Cell ([1298; 16975; 26111; 16675], [26174; 1360; 26238; 13008; 13007; 13006; 26112]) (Some (LW 1360)) (Some (LW 26112));
    Cell ([1297; 16976; 26112; 16675], [26175; 1359; 26239; 13005; 13004; 13003; 26113]) (Some (LW 1359)) (Some (LW 26113));
    Cell ([1296; 16977; 26113; 16675], [26176; 1358; 26240; 13002; 13001; 13000; 26114]) (Some (LW 1358)) (Some (LW 26114));
    Cell ([1295; 16978; 26114; 16675], [26177; 1357; 26241; 12999; 12998; 12997; 26115]) (Some (LW 1357)) (Some (LW 26115));
    Cell ([1294; 16979; 26115; 16675], [26178; 1356; 26242; 12996; 12995; 12994; 26116]) (Some (LW 1356)) (Some (LW 26116));
    Cell ([1293; 16980; 26116; 16675], [26179; 1355; 26243; 12993; 12992; 12991; 26117]) (Some (LW 1355)) (Some (LW 26117));
    Cell ([1292; 16981; 26117; 16675], [26180; 1354; 26244; 12990; 12989; 12988; 26118]) (Some (LW 1354)) (Some (LW 26118));
    Cell ([1291; 16982; 26118; 16675], [26181; 1353; 26245; 12987; 12986; 12985; 26119]) (Some (LW 1353)) (Some (LW 26119));
    Cell ([1290; 16983; 26119; 16675], [26182; 1352; 26246; 12984; 12983; 12982; 26120]) (Some (LW 1352)) (Some (LW 26120));
    Cell ([1289; 16984; 26120; 16675], [26183; 1351; 26247; 12981; 12980; 12979; 26121]) (Some (LW 1351)) (Some (LW 26121));
    Cell ([1288; 16985; 26121; 16675], [26184; 1350; 26248; 12978; 12977; 12976; 26122]) (Some (LW 1350)) (Some (LW 26122));
    Cell ([1287; 16986; 26122; 16675], [26185; 1349; 26249; 12975; 12974; 12973; 26123]) (Some (LW 1349)) (Some (LW 26123));
    Cell ([1286; 16987; 26123; 16675], [26186; 1348; 26250; 12972; 12971; 12970; 26124]) (Some (LW 1348)) (Some (LW 26124));
    Cell ([1285; 16988; 26124; 16675], [26187; 1347; 26251; 12969; 12968; 12967; 26125]) (Some (LW 1347)) (Some (LW 26125));
    Cell ([1284; 16989; 26125; 16675], [26188; 1346; 26252; 12966; 12965; 12964; 26126]) (Some (LW 1346)) (Some (LW 26126));
    Cell ([1283; 16990; 26126; 16675], [26189; 1345; 26253; 12963; 12962; 12961; 26127]) (Some (LW 1345)) (Some (LW 26127));
    Cell ([1282; 16991; 26127; 16675], [26190; 1344; 26254; 12960; 12959; 12958; 26128]) (Some (LW 1344)) (Some (LW 26128));
    Cell ([1281; 16992; 26128; 16675], [26191; 1343; 26255; 12957; 12956; 12955; 26129]) (Some (LW 1343)) (Some (LW 26129));
    Cell ([1280; 16993; 26129; 16675], [26192; 1342; 26256; 12954; 12953; 12952; 26130]) (Some (LW 1342)) (Some (LW 26130));
    Cell ([1279; 16994; 26130; 16675], [26193; 1341; 26257; 12951; 12950; 12949; 26131]) (Some (LW 1341)) (Some (LW 26131));
    Cell ([1278; 16995; 26131; 16675], [26194; 1340; 26258; 12948; 12947; 12946; 26132]) (Some (LW 1340)) (Some (LW 26132));
    Cell ([1277; 16996; 26132; 16675], [26195; 1339; 26259; 12945; 12944; 12943; 26133]) (Some (LW 1339)) (Some (LW 26133));
    Cell ([1276; 16997; 26133; 16675], [26196; 1338; 26260; 12942; 12941; 12940; 26134]) (Some (LW 1338)) (Some (LW 26134));
    Cell ([1275; 16998; 26134; 16675], [26197; 1337; 26261; 12939; 12938; 12937; 26135]) (Some (LW 1337)) (Some (LW 26135));
    Cell ([1274; 16999; 26135; 16675], [26198; 1336; 26262; 12936; 12935; 12934; 26136]) (Some (LW 1336)) (Some (LW 26136));
    Cell ([1273; 17000; 26136; 16675], [26199; 1335; 26263; 12933; 12932; 12931; 26137]) (Some (LW 1335)) (Some (LW 26137));
    Cell ([1272; 17001; 26137; 16675], [26200; 1334; 26264; 12930; 12929; 12928; 26138]) (Some (LW 1334)) (Some (LW 26138));
    Cell ([1271; 17002; 26138; 16675], [26201; 1333; 26265; 12927; 12926; 12925; 26139]) (Some (LW 1333)) (Some (LW 26139));
    Cell ([1270; 17003; 26139; 16675], [26202; 1332; 26266; 12924; 12923; 12922; 26140]) (Some (LW 1332)) (Some (LW 26140));
    Cell ([1269; 17004; 26140; 16675], [26203; 1331; 26267; 12921; 12920; 12919; 26141]) (Some (LW 1331)) (Some (LW 26141));
    Cell ([1268; 17005; 26141; 16675], [26204; 1330; 26268; 12918; 12917; 12916; 26142]) (Some (LW 1330)) (Some (LW 26142));
    Cell ([1267; 17006; 26142; 16675], [26205; 1329; 26269; 12915; 12914; 12913; 26143]) (Some (LW 1329)) (Some (LW 26143));
    Cell ([1266; 17007; 26143; 16675], [26206; 1328; 26270; 12912; 12911; 12910; 26144]) (Some (LW 1328)) (Some (LW 26144));
    Cell ([1265; 17008; 26144; 16675], [26207; 1327; 26271; 12909; 12908; 12907; 26145]) (Some (LW 1327)) (Some (LW 26145));
    Cell ([1264; 17009; 26145; 16675], [26208; 148]) (Some (LW 148)) (None)]
   148 16674.
Definition divide64_row_19 : srow := SRow
   [Cell ([16863; 16946; 16674], [1452; 26020; 25894]) (Some (LW 1452)) (Some (LW 25894));
    Cell ([1389; 16947; 25894; 16674], [25957; 1451; 26021; 12906; 12905; 12904; 25895]) (Some (LW 1451)) (Some (LW 25895));
    Cell ([1388; 16948; 25895; 16674], [25958; 1450; 26022; 12903; 12902; 12901; 25896]) (Some (LW 1450)) (Some (LW 25896));
    Cell ([1387; 16949; 25896; 16674], [25959; 1449; 26023; 12900; 12899; 12898; 25897]) (Some (LW 1449)) (Some (LW 25897));
    Cell ([1386; 16950; 25897; 16674], [25960; 1448; 26024; 12897; 12896; 12895; 25898]) (Some (LW 1448)) (Some (LW 25898));
    Cell ([1385; 16951; 25898; 16674], [25961; 1447; 26025; 12894; 12893; 12892; 25899]) (Some (LW 1447)) (Some (LW 25899));
    Cell ([1384; 16952; 25899; 16674], [25962; 1446; 26026; 12891; 12890; 12889; 25900]) (Some (LW 1446)) (Some (LW 25900));
    Cell ([1383; 16953; 25900; 16674], [25963; 1445; 26027; 12888; 12887; 12886; 25901]) (Some (LW 1445)) (Some (LW 25901));
    Cell ([1382; 16954; 25901; 16674], [25964; 1444; 26028; 12885; 12884; 12883; 25902]) (Some (LW 1444)) (Some (LW 25902));
    Cell ([1381; 16955; 25902; 16674], [25965; 1443; 26029; 12882; 12881; 12880; 25903]) (Some (LW 1443)) (Some (LW 25903));
    Cell ([1380; 16956; 25903; 16674], [25966; 1442; 26030; 12879; 12878; 12877; 25904]) (Some (LW 1442)) (Some (LW 25904));
    Cell ([1379; 16957; 25904; 16674], [25967; 1441; 26031; 12876; 12875; 12874; 25905]) (Some (LW 1441)) (Some (LW 25905));
    Cell ([1378; 16958; 25905; 16674], [25968; 1440; 26032; 12873; 12872; 12871; 25906]) (Some (LW 1440)) (Some (LW 25906));
    Cell ([1377; 16959; 25906; 16674], [25969; 1439; 26033; 12870; 12869; 12868; 25907]) (Some (LW 1439)) (Some (LW 25907));
    Cell ([1376; 16960; 25907; 16674], [25970; 1438; 26034; 12867; 12866; 12865; 25908]) (Some (LW 1438)) (Some (LW 25908));
    Cell ([1375; 16961; 25908; 16674], [25971; 1437; 26035; 12864; 12863; 12862; 25909]) (Some (LW 1437)) (Some (LW 25909));
    Cell ([1374; 16962; 25909; 16674], [25972; 1436; 26036; 12861; 12860; 12859; 25910]) (Some (LW 1436)) (Some (LW 25910));
    Cell ([1373; 16963; 25910; 16674], [25973; 1435; 26037; 12858; 12857; 12856; 25911]) (Some (LW 1435)) (Some (LW 25911));
    Cell ([1372; 16964; 25911; 16674], [25974; 1434; 26038; 12855; 12854; 12853; 25912]) (Some (LW 1434)) (Some (LW 25912));
    Cell ([1371; 16965; 25912; 16674], [25975; 1433; 26039; 12852; 12851; 12850; 25913]) (Some (LW 1433)) (Some (LW 25913));
    Cell ([1370; 16966; 25913; 16674], [25976; 1432; 26040; 12849; 12848; 12847; 25914]) (Some (LW 1432)) (Some (LW 25914));
    Cell ([1369; 16967; 25914; 16674], [25977; 1431; 26041; 12846; 12845; 12844; 25915]) (Some (LW 1431)) (Some (LW 25915));
    Cell ([1368; 16968; 25915; 16674], [25978; 1430; 26042; 12843; 12842; 12841; 25916]) (Some (LW 1430)) (Some (LW 25916));
    Cell ([1367; 16969; 25916; 16674], [25979; 1429; 26043; 12840; 12839; 12838; 25917]) (Some (LW 1429)) (Some (LW 25917));
    Cell ([1366; 16970; 25917; 16674], [25980; 1428; 26044; 12837; 12836; 12835; 25918]) (Some (LW 1428)) (Some (LW 25918));
    Cell ([1365; 16971; 25918; 16674], [25981; 1427; 26045; 12834; 12833; 12832; 25919]) (Some (LW 1427)) (Some (LW 25919));
    Cell ([1364; 16972; 25919; 16674], [25982; 1426; 26046; 12831; 12830; 12829; 25920]) (Some (LW 1426)) (Some (LW 25920));
    Cell ([1363; 16973; 25920; 16674], [25983; 1425; 26047; 12828; 12827; 12826; 25921]) (Some (LW 1425)) (Some (LW 25921));
    Cell ([1362; 16974; 25921; 16674], [25984; 1424; 26048; 12825; 12824; 12823; 25922]) (Some (LW 1424)) (Some (LW 25922));
    Cell ([1361; 16975; 25922; 16674], [25985; 1423; 26049; 12822; 12821; 12820; 25923]) (Some (LW 1423)) (Some (LW 25923));
    Cell ([1360; 16976; 25923; 16674], [25986; 1422; 26050; 12819; 12818; 12817; 25924]) (Some (LW 1422)) (Some (LW 25924));
    Cell ([1359; 16977; 25924; 16674], [25987; 1421; 26051; 12816; 12815; 12814; 25925]) (Some (LW 1421)) (Some (LW 25925));
    Cell ([1358; 16978; 25925; 16674], [25988; 1420; 26052; 12813; 12812; 12811; 25926]) (Some (LW 1420)) (Some (LW 25926));
    Cell ([1357; 16979; 25926; 16674], [25989; 1419; 26053; 12810; 12809; 12808; 25927]) (Some (LW 1419)) (Some (LW 25927));
    Cell ([1356; 16980; 25927; 16674], [25990; 1418; 26054; 12807; 12806; 12805; 25928]) (Some (LW 1418)) (Some (LW 25928));
    Cell ([1355; 16981; 25928; 16674], [25991; 1417; 26055; 12804; 12803; 12802; 25929]) (Some (LW 1417)) (Some (LW 25929));
    Cell ([1354; 16982; 25929; 16674], [25992; 1416; 26056; 12801; 12800; 12799; 25930]) (Some (LW 1416)) (Some (LW 25930));
    Cell ([1353; 16983; 25930; 16674], [25993; 1415; 26057; 12798; 12797; 12796; 25931]) (Some (LW 1415)) (Some (LW 25931));
    Cell ([1352; 16984; 25931; 16674], [25994; 1414; 26058; 12795; 12794; 12793; 25932]) (Some (LW 1414)) (Some (LW 25932));
    Cell ([1351; 16985; 25932; 16674], [25995; 1413; 26059; 12792; 12791; 12790; 25933]) (Some (LW 1413)) (Some (LW 25933));
    Cell ([1350; 16986; 25933; 16674], [25996; 1412; 26060; 12789; 12788; 12787; 25934]) (Some (LW 1412)) (Some (LW 25934));
    Cell ([1349; 16987; 25934; 16674], [25997; 1411; 26061; 12786; 12785; 12784; 25935]) (Some (LW 1411)) (Some (LW 25935));
    Cell ([1348; 16988; 25935; 16674], [25998; 1410; 26062; 12783; 12782; 12781; 25936]) (Some (LW 1410)) (Some (LW 25936));
    Cell ([1347; 16989; 25936; 16674], [25999; 1409; 26063; 12780; 12779; 12778; 25937]) (Some (LW 1409)) (Some (LW 25937));
    Cell ([1346; 16990; 25937; 16674], [26000; 1408; 26064; 12777; 12776; 12775; 25938]) (Some (LW 1408)) (Some (LW 25938));
    Cell ([1345; 16991; 25938; 16674], [26001; 1407; 26065; 12774; 12773; 12772; 25939]) (Some (LW 1407)) (Some (LW 25939));
    Cell ([1344; 16992; 25939; 16674], [26002; 1406; 26066; 12771; 12770; 12769; 25940]) (Some (LW 1406)) (Some (LW 25940));
    Cell ([1343; 16993; 25940; 16674], [26003; 1405; 26067; 12768; 12767; 12766; 25941]) (Some (LW 1405)) (Some (LW 25941));
    Cell ([1342; 16994; 25941; 16674], [26004; 1404; 26068; 12765; 12764; 12763; 25942]) (Some (LW 1404)) (Some (LW 25942));
    Cell ([1341; 16995; 25942; 16674], [26005; 1403; 26069; 12762; 12761; 12760; 25943]) (Some (LW 1403)) (Some (LW 25943));
    Cell ([1340; 16996; 25943; 16674], [26006; 1402; 26070; 12759; 12758; 12757; 25944]) (Some (LW 1402)) (Some (LW 25944));
    Cell ([1339; 16997; 25944; 16674], [26007; 1401; 26071; 12756; 12755; 12754; 25945]) (Some (LW 1401)) (Some (LW 25945));
    Cell ([1338; 16998; 25945; 16674], [26008; 1400; 26072; 12753; 12752; 12751; 25946]) (Some (LW 1400)) (Some (LW 25946));
    Cell ([1337; 16999; 25946; 16674], [26009; 1399; 26073; 12750; 12749; 12748; 25947]) (Some (LW 1399)) (Some (LW 25947));
    Cell ([1336; 17000; 25947; 16674], [26010; 1398; 26074; 12747; 12746; 12745; 25948]) (Some (LW 1398)) (Some (LW 25948));
    Cell ([1335; 17001; 25948; 16674], [26011; 1397; 26075; 12744; 12743; 12742; 25949]) (Some (LW 1397)) (Some (LW 25949));
    Cell ([1334; 17002; 25949; 16674], [26012; 1396; 26076; 12741; 12740; 12739; 25950]) (Some (LW 1396)) (Some (LW 25950));
    Cell ([1333; 17003; 25950; 16674], [26013; 1395; 26077; 12738; 12737; 12736; 25951]) (Some (LW 1395)) (Some (LW 25951));
    Cell ([1332; 17004; 25951; 16674], [26014; 1394; 26078; 12735; 12734; 12733; 25952]) (Some (LW 1394)) (Some (LW 25952));
    Cell ([1331; 17005; 25952; 16674], [26015; 1393; 26079; 12732; 12731; 12730; 25953]) (Some (LW 1393)) (Some (LW 25953));
    Cell ([1330; 17006; 25953; 16674], [26016; 1392; 26080; 12729; 12728; 12727; 25954]) (Some (LW 1392)) (Some (LW 25954));
    Cell ([1329; 17007; 25954; 16674], [26017; 1391; 26081; 12726; 12725; 12724; 25955]) (Some (LW 1391)) (Some (LW 25955));
    Cell ([1328; 17008; 25955; 16674], [26018; 1390; 26082; 12723; 12722; 12721; 25956]) (Some (LW 1390)) (Some (LW 25956));
    Cell ([1327; 17009; 25956; 16674], [26019; 149]) (Some (LW 149)) (None)]
   149 16673.
Definition divide64_row_20 : srow := SRow
   [Cell ([16862; 16946; 16673], [1515; 25831; 25705]) (Some (LW 1515)) (Some (LW 25705));
    Cell ([1452; 16947; 25705; 16673], [25768; 1514; 25832; 12720; 12719; 12718; 25706]) (Some (LW 1514)) (Some (LW 25706));
    Cell ([1451; 16948; 25706; 16673], [25769; 1513; 25833; 12717; 12716; 12715; 25707]) (Some (LW 1513)) (Some (LW 25707));
    Cell ([1450; 16949; 25707; 16673], [25770; 1512; 25834; 12714; 12713; 12712; 25708]) (Some (LW 1512)) (Some (LW 25708));
    Cell ([1449; 16950; 25708; 16673], [25771; 1511; 25835; 12711; 12710; 12709; 25709]) (Some (LW 1511)) (Some (LW 25709));
    Cell ([1448; 16951; 25709; 16673], [25772; 1510; 25836; 12708; 12707; 12706; 25710]) (Some (LW 1510)) (Some (LW 25710));
    Cell ([1447; 16952; 25710; 16673], [25773; 1509; 25837; 12705; 12704; 12703; 25711]) (Some (LW 1509)) (Some (LW 25711));
    Cell ([1446; 16953; 25711; 16673], [25774; 1508; 25838; 12702; 12701; 12700; 25712]) (Some (LW 1508)) (Some (LW 25712));
    Cell ([1445; 16954; 25712; 16673], [25775; 1507; 25839; 12699; 12698; 12697; 25713]) (Some (LW 1507)) (Some (LW 25713));
    Cell ([1444; 16955; 25713; 16673], [25776; 1506; 25840; 12696; 12695; 12694; 25714]) (Some (LW 1506)) (Some (LW 25714));
    Cell ([1443; 16956; 25714; 16673], [25777; 1505; 25841; 12693; 12692; 12691; 25715]) (Some (LW 1505)) (Some (LW 25715));
    Cell ([1442; 16957; 25715; 16673], [25778; 1504; 25842; 12690; 12689; 12688; 25716]) (Some (LW 1504)) (Some (LW 25716));
    Cell ([1441; 16958; 25716; 16673], [25779; 1503; 25843; 12687; 12686; 12685; 25717]) (Some (LW 1503)) (Some (LW 25717));
    Cell ([1440; 16959; 25717; 16673], [25780; 1502; 25844; 12684; 12683; 12682; 25718]) (Some (LW 1502)) (Some (LW 25718));
    Cell ([1439; 16960; 25718; 16673], [25781; 1501; 25845; 12681; 12680; 12679; 25719]) (Some (LW 1501)) (Some (LW 25719));
    Cell ([1438; 16961; 25719; 16673], [25782; 1500; 25846; 12678; 12677; 12676; 25720]) (Some (LW 1500)) (Some (LW 25720));
    Cell ([1437; 16962; 25720; 16673], [25783; 1499; 25847; 12675; 12674; 12673; 25721]) (Some (LW 1499)) (Some (LW 25721));
    Cell ([1436; 16963; 25721; 16673], [25784; 1498; 25848; 12672; 12671; 12670; 25722]) (Some (LW 1498)) (Some (LW 25722));
    Cell ([1435; 16964; 25722; 16673], [25785; 1497; 25849; 12669; 12668; 12667; 25723]) (Some (LW 1497)) (Some (LW 25723));
    Cell ([1434; 16965; 25723; 16673], [25786; 1496; 25850; 12666; 12665; 12664; 25724]) (Some (LW 1496)) (Some (LW 25724));
    Cell ([1433; 16966; 25724; 16673], [25787; 1495; 25851; 12663; 12662; 12661; 25725]) (Some (LW 1495)) (Some (LW 25725));
    Cell ([1432; 16967; 25725; 16673], [25788; 1494; 25852; 12660; 12659; 12658; 25726]) (Some (LW 1494)) (Some (LW 25726));
    Cell ([1431; 16968; 25726; 16673], [25789; 1493; 25853; 12657; 12656; 12655; 25727]) (Some (LW 1493)) (Some (LW 25727));
    Cell ([1430; 16969; 25727; 16673], [25790; 1492; 25854; 12654; 12653; 12652; 25728]) (Some (LW 1492)) (Some (LW 25728));
    Cell ([1429; 16970; 25728; 16673], [25791; 1491; 25855; 12651; 12650; 12649; 25729]) (Some (LW 1491)) (Some (LW 25729));
    Cell ([1428; 16971; 25729; 16673], [25792; 1490; 25856; 12648; 12647; 12646; 25730]) (Some (LW 1490)) (Some (LW 25730));
    Cell ([1427; 16972; 25730; 16673], [25793; 1489; 25857; 12645; 12644; 12643; 25731]) (Some (LW 1489)) (Some (LW 25731));
    Cell ([1426; 16973; 25731; 16673], [25794; 1488; 25858; 12642; 12641; 12640; 25732]) (Some (LW 1488)) (Some (LW 25732));
    Cell ([1425; 16974; 25732; 16673], [25795; 1487; 25859; 12639; 12638; 12637; 25733]) (Some (LW 1487)) (Some (LW 25733));
    Cell ([1424; 16975; 25733; 16673], [25796; 1486; 25860; 12636; 12635; 12634; 25734]) (Some (LW 1486)) (Some (LW 25734));
    Cell ([1423; 16976; 25734; 16673], [25797; 1485; 25861; 12633; 12632; 12631; 25735]) (Some (LW 1485)) (Some (LW 25735));
    Cell ([1422; 16977; 25735; 16673], [25798; 1484; 25862; 12630; 12629; 12628; 25736]) (Some (LW 1484)) (Some (LW 25736));
    Cell ([1421; 16978; 25736; 16673], [25799; 1483; 25863; 12627; 12626; 12625; 25737]) (Some (LW 1483)) (Some (LW 25737));
    Cell ([1420; 16979; 25737; 16673], [25800; 1482; 25864; 12624; 12623; 12622; 25738]) (Some (LW 1482)) (Some (LW 25738));
    Cell ([1419; 16980; 25738; 16673], [25801; 1481; 25865; 12621; 12620; 12619; 25739]) (Some (LW 1481)) (Some (LW 25739));
    Cell ([1418; 16981; 25739; 16673], [25802; 1480; 25866; 12618; 12617; 12616; 25740]) (Some (LW 1480)) (Some (LW 25740));
    Cell ([1417; 16982; 25740; 16673], [25803; 1479; 25867; 12615; 12614; 12613; 25741]) (Some (LW 1479)) (Some (LW 25741));
    Cell ([1416; 16983; 25741; 16673], [25804; 1478; 25868; 12612; 12611; 12610; 25742]) (Some (LW 1478)) (Some (LW 25742));
    Cell ([1415; 16984; 25742; 16673], [25805; 1477; 25869; 12609; 12608; 12607; 25743]) (Some (LW 1477)) (Some (LW 25743));
    Cell ([1414; 16985; 25743; 16673], [25806; 1476; 25870; 12606; 12605; 12604; 25744]) (Some (LW 1476)) (Some (LW 25744));
    Cell ([1413; 16986; 25744; 16673], [25807; 1475; 25871; 12603; 12602; 12601; 25745]) (Some (LW 1475)) (Some (LW 25745));
    Cell ([1412; 16987; 25745; 16673], [25808; 1474; 25872; 12600; 12599; 12598; 25746]) (Some (LW 1474)) (Some (LW 25746));
    Cell ([1411; 16988; 25746; 16673], [25809; 1473; 25873; 12597; 12596; 12595; 25747]) (Some (LW 1473)) (Some (LW 25747));
    Cell ([1410; 16989; 25747; 16673], [25810; 1472; 25874; 12594; 12593; 12592; 25748]) (Some (LW 1472)) (Some (LW 25748));
    Cell ([1409; 16990; 25748; 16673], [25811; 1471; 25875; 12591; 12590; 12589; 25749]) (Some (LW 1471)) (Some (LW 25749));
    Cell ([1408; 16991; 25749; 16673], [25812; 1470; 25876; 12588; 12587; 12586; 25750]) (Some (LW 1470)) (Some (LW 25750));
    Cell ([1407; 16992; 25750; 16673], [25813; 1469; 25877; 12585; 12584; 12583; 25751]) (Some (LW 1469)) (Some (LW 25751));
    Cell ([1406; 16993; 25751; 16673], [25814; 1468; 25878; 12582; 12581; 12580; 25752]) (Some (LW 1468)) (Some (LW 25752));
    Cell ([1405; 16994; 25752; 16673], [25815; 1467; 25879; 12579; 12578; 12577; 25753]) (Some (LW 1467)) (Some (LW 25753));
    Cell ([1404; 16995; 25753; 16673], [25816; 1466; 25880; 12576; 12575; 12574; 25754]) (Some (LW 1466)) (Some (LW 25754));
    Cell ([1403; 16996; 25754; 16673], [25817; 1465; 25881; 12573; 12572; 12571; 25755]) (Some (LW 1465)) (Some (LW 25755));
    Cell ([1402; 16997; 25755; 16673], [25818; 1464; 25882; 12570; 12569; 12568; 25756]) (Some (LW 1464)) (Some (LW 25756));
    Cell ([1401; 16998; 25756; 16673], [25819; 1463; 25883; 12567; 12566; 12565; 25757]) (Some (LW 1463)) (Some (LW 25757));
    Cell ([1400; 16999; 25757; 16673], [25820; 1462; 25884; 12564; 12563; 12562; 25758]) (Some (LW 1462)) (Some (LW 25758));
    Cell ([1399; 17000; 25758; 16673], [25821; 1461; 25885; 12561; 12560; 12559; 25759]) (Some (LW 1461)) (Some (LW 25759));
    Cell ([1398; 17001; 25759; 16673], [25822; 1460; 25886; 12558; 12557; 12556; 25760]) (Some (LW 1460)) (Some (LW 25760));
    Cell ([1397; 17002; 25760; 16673], [25823; 1459; 25887; 12555; 12554; 12553; 25761]) (Some (LW 1459)) (Some (LW 25761));
    Cell ([1396; 17003; 25761; 16673], [25824; 1458; 25888; 12552; 12551; 12550; 25762]) (Some (LW 1458)) (Some (LW 25762));
    Cell ([1395; 17004; 25762; 16673], [25825; 1457; 25889; 12549; 12548; 12547; 25763]) (Some (LW 1457)) (Some (LW 25763));
    Cell ([1394; 17005; 25763; 16673], [25826; 1456; 25890; 12546; 12545; 12544; 25764]) (Some (LW 1456)) (Some (LW 25764));
    Cell ([1393; 17006; 25764; 16673], [25827; 1455; 25891; 12543; 12542; 12541; 25765]) (Some (LW 1455)) (Some (LW 25765));
    Cell ([1392; 17007; 25765; 16673], [25828; 1454; 25892; 12540; 12539; 12538; 25766]) (Some (LW 1454)) (Some (LW 25766));
    Cell ([1391; 17008; 25766; 16673], [25829; 1453; 25893; 12537; 12536; 12535; 25767]) (Some (LW 1453)) (Some (LW 25767));
    Cell ([1390; 17009; 25767; 16673], [25830; 150]) (Some (LW 150)) (None)]
   150 16672.
Definition divide64_row_21 : srow := SRow
   [Cell ([16861; 16946; 16672], [1578; 25642; 25516]) (Some (LW 1578)) (Some (LW 25516));
    Cell ([1515; 16947; 25516; 16672], [25579; 1577; 25643; 12534; 12533; 12532; 25517]) (Some (LW 1577)) (Some (LW 25517));
    Cell ([1514; 16948; 25517; 16672], [25580; 1576; 25644; 12531; 12530; 12529; 25518]) (Some (LW 1576)) (Some (LW 25518));
    Cell ([1513; 16949; 25518; 16672], [25581; 1575; 25645; 12528; 12527; 12526; 25519]) (Some (LW 1575)) (Some (LW 25519));
    Cell ([1512; 16950; 25519; 16672], [25582; 1574; 25646; 12525; 12524; 12523; 25520]) (Some (LW 1574)) (Some (LW 25520));
    Cell ([1511; 16951; 25520; 16672], [25583; 1573; 25647; 12522; 12521; 12520; 25521]) (Some (LW 1573)) (Some (LW 25521));
    Cell ([1510; 16952; 25521; 16672], [25584; 1572; 25648; 12519; 12518; 12517; 25522]) (Some (LW 1572)) (Some (LW 25522));
    Cell ([1509; 16953; 25522; 16672], [25585; 1571; 25649; 12516; 12515; 12514; 25523]) (Some (LW 1571)) (Some (LW 25523));
    Cell ([1508; 16954; 25523; 16672], [25586; 1570; 25650; 12513; 12512; 12511; 25524]) (Some (LW 1570)) (Some (LW 25524));
    Cell ([1507; 16955; 25524; 16672], [25587; 1569; 25651; 12510; 12509; 12508; 25525]) (Some (LW 1569)) (Some (LW 25525));
    Cell ([1506; 16956; 25525; 16672], [25588; 1568; 25652; 12507; 12506; 12505; 25526]) (Some (LW 1568)) (Some (LW 25526));
    Cell ([1505; 16957; 25526; 16672], [25589; 1567; 25653; 12504; 12503; 12502; 25527]) (Some (LW 1567)) (Some (LW 25527));
    Cell ([1504; 16958; 25527; 16672], [25590; 1566; 25654; 12501; 12500; 12499; 25528]) (Some (LW 1566)) (Some (LW 25528));
    Cell ([1503; 16959; 25528; 16672], [25591; 1565; 25655; 12498; 12497; 12496; 25529]) (Some (LW 1565)) (Some (LW 25529));
    Cell ([1502; 16960; 25529; 16672], [25592; 1564; 25656; 12495; 12494; 12493; 25530]) (Some (LW 1564)) (Some (LW 25530));
    Cell ([1501; 16961; 25530; 16672], [25593; 1563; 25657; 12492; 12491; 12490; 25531]) (Some (LW 1563)) (Some (LW 25531));
    Cell ([1500; 16962; 25531; 16672], [25594; 1562; 25658; 12489; 12488; 12487; 25532]) (Some (LW 1562)) (Some (LW 25532));
    Cell ([1499; 16963; 25532; 16672], [25595; 1561; 25659; 12486; 12485; 12484; 25533]) (Some (LW 1561)) (Some (LW 25533));
    Cell ([1498; 16964; 25533; 16672], [25596; 1560; 25660; 12483; 12482; 12481; 25534]) (Some (LW 1560)) (Some (LW 25534));
    Cell ([1497; 16965; 25534; 16672], [25597; 1559; 25661; 12480; 12479; 12478; 25535]) (Some (LW 1559)) (Some (LW 25535));
    Cell ([1496; 16966; 25535; 16672], [25598; 1558; 25662; 12477; 12476; 12475; 25536]) (Some (LW 1558)) (Some (LW 25536));
    Cell ([1495; 16967; 25536; 16672], [25599; 1557; 25663; 12474; 12473; 12472; 25537]) (Some (LW 1557)) (Some (LW 25537));
    Cell ([1494; 16968; 25537; 16672], [25600; 1556; 25664; 12471; 12470; 12469; 25538]) (Some (LW 1556)) (Some (LW 25538));
    Cell ([1493; 16969; 25538; 16672], [25601; 1555; 25665; 12468; 12467; 12466; 25539]) (Some (LW 1555)) (Some (LW 25539));
    Cell ([1492; 16970; 25539; 16672], [25602; 1554; 25666; 12465; 12464; 12463; 25540]) (Some (LW 1554)) (Some (LW 25540));
    Cell ([1491; 16971; 25540; 16672], [25603; 1553; 25667; 12462; 12461; 12460; 25541]) (Some (LW 1553)) (Some (LW 25541));
    Cell ([1490; 16972; 25541; 16672], [25604; 1552; 25668; 12459; 12458; 12457; 25542]) (Some (LW 1552)) (Some (LW 25542));
    Cell ([1489; 16973; 25542; 16672], [25605; 1551; 25669; 12456; 12455; 12454; 25543]) (Some (LW 1551)) (Some (LW 25543));
    Cell ([1488; 16974; 25543; 16672], [25606; 1550; 25670; 12453; 12452; 12451; 25544]) (Some (LW 1550)) (Some (LW 25544));
    Cell ([1487; 16975; 25544; 16672], [25607; 1549; 25671; 12450; 12449; 12448; 25545]) (Some (LW 1549)) (Some (LW 25545));
    Cell ([1486; 16976; 25545; 16672], [25608; 1548; 25672; 12447; 12446; 12445; 25546]) (Some (LW 1548)) (Some (LW 25546));
    Cell ([1485; 16977; 25546; 16672], [25609; 1547; 25673; 12444; 12443; 12442; 25547]) (Some (LW 1547)) (Some (LW 25547));
    Cell ([1484; 16978; 25547; 16672], [25610; 1546; 25674; 12441; 12440; 12439; 25548]) (Some (LW 1546)) (Some (LW 25548));
    Cell ([1483; 16979; 25548; 16672], [25611; 1545; 25675; 12438; 12437; 12436; 25549]) (Some (LW 1545)) (Some (LW 25549));
    Cell ([1482; 16980; 25549; 16672], [25612; 1544; 25676; 12435; 12434; 12433; 25550]) (Some (LW 1544)) (Some (LW 25550));
    Cell ([1481; 16981; 25550; 16672], [25613; 1543; 25677; 12432; 12431; 12430; 25551]) (Some (LW 1543)) (Some (LW 25551));
    Cell ([1480; 16982; 25551; 16672], [25614; 1542; 25678; 12429; 12428; 12427; 25552]) (Some (LW 1542)) (Some (LW 25552));
    Cell ([1479; 16983; 25552; 16672], [25615; 1541; 25679; 12426; 12425; 12424; 25553]) (Some (LW 1541)) (Some (LW 25553));
    Cell ([1478; 16984; 25553; 16672], [25616; 1540; 25680; 12423; 12422; 12421; 25554]) (Some (LW 1540)) (Some (LW 25554));
    Cell ([1477; 16985; 25554; 16672], [25617; 1539; 25681; 12420; 12419; 12418; 25555]) (Some (LW 1539)) (Some (LW 25555));
    Cell ([1476; 16986; 25555; 16672], [25618; 1538; 25682; 12417; 12416; 12415; 25556]) (Some (LW 1538)) (Some (LW 25556));
    Cell ([1475; 16987; 25556; 16672], [25619; 1537; 25683; 12414; 12413; 12412; 25557]) (Some (LW 1537)) (Some (LW 25557));
    Cell ([1474; 16988; 25557; 16672], [25620; 1536; 25684; 12411; 12410; 12409; 25558]) (Some (LW 1536)) (Some (LW 25558));
    Cell ([1473; 16989; 25558; 16672], [25621; 1535; 25685; 12408; 12407; 12406; 25559]) (Some (LW 1535)) (Some (LW 25559));
    Cell ([1472; 16990; 25559; 16672], [25622; 1534; 25686; 12405; 12404; 12403; 25560]) (Some (LW 1534)) (Some (LW 25560));
    Cell ([1471; 16991; 25560; 16672], [25623; 1533; 25687; 12402; 12401; 12400; 25561]) (Some (LW 1533)) (Some (LW 25561));
    Cell ([1470; 16992; 25561; 16672], [25624; 1532; 25688; 12399; 12398; 12397; 25562]) (Some (LW 1532)) (Some (LW 25562));
    Cell ([1469; 16993; 25562; 16672], [25625; 1531; 25689; 12396; 12395; 12394; 25563]) (Some (LW 1531)) (Some (LW 25563));
    Cell ([1468; 16994; 25563; 16672], [25626; 1530; 25690; 12393; 12392; 12391; 25564]) (Some (LW 1530)) (Some (LW 25564));
    Cell ([1467; 16995; 25564; 16672], [25627; 1529; 25691; 12390; 12389; 12388; 25565]) (Some (LW 1529)) (Some (LW 25565));
    Cell ([1466; 16996; 25565; 16672], [25628; 1528; 25692; 12387; 12386; 12385; 25566]) (Some (LW 1528)) (Some (LW 25566));
    Cell ([1465; 16997; 25566; 16672], [25629; 1527; 25693; 12384; 12383; 12382; 25567]) (Some (LW 1527)) (Some (LW 25567));
    Cell ([1464; 16998; 25567; 16672], [25630; 1526; 25694; 12381; 12380; 12379; 25568]) (Some (LW 1526)) (Some (LW 25568));
    Cell ([1463; 16999; 25568; 16672], [25631; 1525; 25695; 12378; 12377; 12376; 25569]) (Some (LW 1525)) (Some (LW 25569));
    Cell ([1462; 17000; 25569; 16672], [25632; 1524; 25696; 12375; 12374; 12373; 25570]) (Some (LW 1524)) (Some (LW 25570));
    Cell ([1461; 17001; 25570; 16672], [25633; 1523; 25697; 12372; 12371; 12370; 25571]) (Some (LW 1523)) (Some (LW 25571));
    Cell ([1460; 17002; 25571; 16672], [25634; 1522; 25698; 12369; 12368; 12367; 25572]) (Some (LW 1522)) (Some (LW 25572));
    Cell ([1459; 17003; 25572; 16672], [25635; 1521; 25699; 12366; 12365; 12364; 25573]) (Some (LW 1521)) (Some (LW 25573));
    Cell ([1458; 17004; 25573; 16672], [25636; 1520; 25700; 12363; 12362; 12361; 25574]) (Some (LW 1520)) (Some (LW 25574));
    Cell ([1457; 17005; 25574; 16672], [25637; 1519; 25701; 12360; 12359; 12358; 25575]) (Some (LW 1519)) (Some (LW 25575));
    Cell ([1456; 17006; 25575; 16672], [25638; 1518; 25702; 12357; 12356; 12355; 25576]) (Some (LW 1518)) (Some (LW 25576));
    Cell ([1455; 17007; 25576; 16672], [25639; 1517; 25703; 12354; 12353; 12352; 25577]) (Some (LW 1517)) (Some (LW 25577));
    Cell ([1454; 17008; 25577; 16672], [25640; 1516; 25704; 12351; 12350; 12349; 25578]) (Some (LW 1516)) (Some (LW 25578));
    Cell ([1453; 17009; 25578; 16672], [25641; 151]) (Some (LW 151)) (None)]
   151 16671.
Definition divide64_row_22 : srow := SRow
   [Cell ([16860; 16946; 16671], [1641; 25453; 25327]) (Some (LW 1641)) (Some (LW 25327));
    Cell ([1578; 16947; 25327; 16671], [25390; 1640; 25454; 12348; 12347; 12346; 25328]) (Some (LW 1640)) (Some (LW 25328));
    Cell ([1577; 16948; 25328; 16671], [25391; 1639; 25455; 12345; 12344; 12343; 25329]) (Some (LW 1639)) (Some (LW 25329));
    Cell ([1576; 16949; 25329; 16671], [25392; 1638; 25456; 12342; 12341; 12340; 25330]) (Some (LW 1638)) (Some (LW 25330));
    Cell ([1575; 16950; 25330; 16671], [25393; 1637; 25457; 12339; 12338; 12337; 25331]) (Some (LW 1637)) (Some (LW 25331));
    Cell ([1574; 16951; 25331; 16671], [25394; 1636; 25458; 12336; 12335; 12334; 25332]) (Some (LW 1636)) (Some (LW 25332));
    Cell ([1573; 16952; 25332; 16671], [25395; 1635; 25459; 12333; 12332; 12331; 25333]) (Some (LW 1635)) (Some (LW 25333));
    Cell ([1572; 16953; 25333; 16671], [25396; 1634; 25460; 12330; 12329; 12328; 25334]) (Some (LW 1634)) (Some (LW 25334));
    Cell ([1571; 16954; 25334; 16671], [25397; 1633; 25461; 12327; 12326; 12325; 25335]) (Some (LW 1633)) (Some (LW 25335));
    Cell ([1570; 16955; 25335; 16671], [25398; 1632; 25462; 12324; 12323; 12322; 25336]) (Some (LW 1632)) (Some (LW 25336));
    Cell ([1569; 16956; 25336; 16671], [25399; 1631; 25463; 12321; 12320; 12319; 25337]) (Some (LW 1631)) (Some (LW 25337));
    Cell ([1568; 16957; 25337; 16671], [25400; 1630; 25464; 12318; 12317; 12316; 25338]) (Some (LW 1630)) (Some (LW 25338));
    Cell ([1567; 16958; 25338; 16671], [25401; 1629; 25465; 12315; 12314; 12313; 25339]) (Some (LW 1629)) (Some (LW 25339));
    Cell ([1566; 16959; 25339; 16671], [25402; 1628; 25466; 12312; 12311; 12310; 25340]) (Some (LW 1628)) (Some (LW 25340));
    Cell ([1565; 16960; 25340; 16671], [25403; 1627; 25467; 12309; 12308; 12307; 25341]) (Some (LW 1627)) (Some (LW 25341));
    Cell ([1564; 16961; 25341; 16671], [25404; 1626; 25468; 12306; 12305; 12304; 25342]) (Some (LW 1626)) (Some (LW 25342));
    Cell ([1563; 16962; 25342; 16671], [25405; 1625; 25469; 12303; 12302; 12301; 25343]) (Some (LW 1625)) (Some (LW 25343));
    Cell ([1562; 16963; 25343; 16671], [25406; 1624; 25470; 12300; 12299; 12298; 25344]) (Some (LW 1624)) (Some (LW 25344));
    Cell ([1561; 16964; 25344; 16671], [25407; 1623; 25471; 12297; 12296; 12295; 25345]) (Some (LW 1623)) (Some (LW 25345));
    Cell ([1560; 16965; 25345; 16671], [25408; 1622; 25472; 12294; 12293; 12292; 25346]) (Some (LW 1622)) (Some (LW 25346));
    Cell ([1559; 16966; 25346; 16671], [25409; 1621; 25473; 12291; 12290; 12289; 25347]) (Some (LW 1621)) (Some (LW 25347));
    Cell ([1558; 16967; 25347; 16671], [25410; 1620; 25474; 12288; 12287; 12286; 25348]) (Some (LW 1620)) (Some (LW 25348));
    Cell ([1557; 16968; 25348; 16671], [25411; 1619; 25475; 12285; 12284; 12283; 25349]) (Some (LW 1619)) (Some (LW 25349));
    Cell ([1556; 16969; 25349; 16671], [25412; 1618; 25476; 12282; 12281; 12280; 25350]) (Some (LW 1618)) (Some (LW 25350));
    Cell ([1555; 16970; 25350; 16671], [25413; 1617; 25477; 12279; 12278; 12277; 25351]) (Some (LW 1617)) (Some (LW 25351));
    Cell ([1554; 16971; 25351; 16671], [25414; 1616; 25478; 12276; 12275; 12274; 25352]) (Some (LW 1616)) (Some (LW 25352));
    Cell ([1553; 16972; 25352; 16671], [25415; 1615; 25479; 12273; 12272; 12271; 25353]) (Some (LW 1615)) (Some (LW 25353));
    Cell ([1552; 16973; 25353; 16671], [25416; 1614; 25480; 12270; 12269; 12268; 25354]) (Some (LW 1614)) (Some (LW 25354));
    Cell ([1551; 16974; 25354; 16671], [25417; 1613; 25481; 12267; 12266; 12265; 25355]) (Some (LW 1613)) (Some (LW 25355));
    Cell ([1550; 16975; 25355; 16671], [25418; 1612; 25482; 12264; 12263; 12262; 25356]) (Some (LW 1612)) (Some (LW 25356));
    Cell ([1549; 16976; 25356; 16671], [25419; 1611; 25483; 12261; 12260; 12259; 25357]) (Some (LW 1611)) (Some (LW 25357));
    Cell ([1548; 16977; 25357; 16671], [25420; 1610; 25484; 12258; 12257; 12256; 25358]) (Some (LW 1610)) (Some (LW 25358));
    Cell ([1547; 16978; 25358; 16671], [25421; 1609; 25485; 12255; 12254; 12253; 25359]) (Some (LW 1609)) (Some (LW 25359));
    Cell ([1546; 16979; 25359; 16671], [25422; 1608; 25486; 12252; 12251; 12250; 25360]) (Some (LW 1608)) (Some (LW 25360));
    Cell ([1545; 16980; 25360; 16671], [25423; 1607; 25487; 12249; 12248; 12247; 25361]) (Some (LW 1607)) (Some (LW 25361));
    Cell ([1544; 16981; 25361; 16671], [25424; 1606; 25488; 12246; 12245; 12244; 25362]) (Some (LW 1606)) (Some (LW 25362));
    Cell ([1543; 16982; 25362; 16671], [25425; 1605; 25489; 12243; 12242; 12241; 25363]) (Some (LW 1605)) (Some (LW 25363));
    Cell ([1542; 16983; 25363; 16671], [25426; 1604; 25490; 12240; 12239; 12238; 25364]) (Some (LW 1604)) (Some (LW 25364));
    Cell ([1541; 16984; 25364; 16671], [25427; 1603; 25491; 12237; 12236; 12235; 25365]) (Some (LW 1603)) (Some (LW 25365));
    Cell ([1540; 16985; 25365; 16671], [25428; 1602; 25492; 12234; 12233; 12232; 25366]) (Some (LW 1602)) (Some (LW 25366));
    Cell ([1539; 16986; 25366; 16671], [25429; 1601; 25493; 12231; 12230; 12229; 25367]) (Some (LW 1601)) (Some (LW 25367));
    Cell ([1538; 16987; 25367; 16671], [25430; 1600; 25494; 12228; 12227; 12226; 25368]) (Some (LW 1600)) (Some (LW 25368));
    Cell ([1537; 16988; 25368; 16671], [25431; 1599; 25495; 12225; 12224; 12223; 25369]) (Some (LW 1599)) (Some (LW 25369));
    Cell ([1536; 16989; 25369; 16671], [25432; 1598; 25496; 12222; 12221; 12220; 25370]) (Some (LW 1598)) (Some (LW 25370));
    Cell ([1535; 16990; 25370; 16671], [25433; 1597; 25497; 12219; 12218; 12217; 25371]) (Some (LW 1597)) (Some (LW 25371));
    Cell ([1534; 16991; 25371; 16671], [25434; 1596; 25498; 12216; 12215; 12214; 25372]) (Some (LW 1596)) (Some (LW 25372));
    Cell ([1533; 16992; 25372; 16671], [25435; 1595; 25499; 12213; 12212; 12211; 25373]) (Some (LW 1595)) (Some (LW 25373));
    Cell ([1532; 16993; 25373; 16671], [25436; 1594; 25500; 12210; 12209; 12208; 25374]) (Some (LW 1594)) (Some (LW 25374));
    Cell ([1531; 16994; 25374; 16671], [25437; 1593; 25501; 12207; 12206; 12205; 25375]) (Some (LW 1593)) (Some (LW 25375));
    Cell ([1530; 16995; 25375; 16671], [25438; 1592; 25502; 12204; 12203; 12202; 25376]) (Some (LW 1592)) (Some (LW 25376));
    Cell ([1529; 16996; 25376; 16671], [25439; 1591; 25503; 12201; 12200; 12199; 25377]) (Some (LW 1591)) (Some (LW 25377));
    Cell ([1528; 16997; 25377; 16671], [25440; 1590; 25504; 12198; 12197; 12196; 25378]) (Some (LW 1590)) (Some (LW 25378));
    Cell ([1527; 16998; 25378; 16671], [25441; 1589; 25505; 12195; 12194; 12193; 25379]) (Some (LW 1589)) (Some (LW 25379));
    Cell ([1526; 16999; 25379; 16671], [25442; 1588; 25506; 12192; 12191; 12190; 25380]) (Some (LW 1588)) (Some (LW 25380));
    Cell ([1525; 17000; 25380; 16671], [25443; 1587; 25507; 12189; 12188; 12187; 25381]) (Some (LW 1587)) (Some (LW 25381));
    Cell ([1524; 17001; 25381; 16671], [25444; 1586; 25508; 12186; 12185; 12184; 25382]) (Some (LW 1586)) (Some (LW 25382));
    Cell ([1523; 17002; 25382; 16671], [25445; 1585; 25509; 12183; 12182; 12181; 25383]) (Some (LW 1585)) (Some (LW 25383));
    Cell ([1522; 17003; 25383; 16671], [25446; 1584; 25510; 12180; 12179; 12178; 25384]) (Some (LW 1584)) (Some (LW 25384));
    Cell ([1521; 17004; 25384; 16671], [25447; 1583; 25511; 12177; 12176; 12175; 25385]) (Some (LW 1583)) (Some (LW 25385));
    Cell ([1520; 17005; 25385; 16671], [25448; 1582; 25512; 12174; 12173; 12172; 25386]) (Some (LW 1582)) (Some (LW 25386));
    Cell ([1519; 17006; 25386; 16671], [25449; 1581; 25513; 12171; 12170; 12169; 25387]) (Some (LW 1581)) (Some (LW 25387));
    Cell ([1518; 17007; 25387; 16671], [25450; 1580; 25514; 12168; 12167; 12166; 25388]) (Some (LW 1580)) (Some (LW 25388));
    Cell ([1517; 17008; 25388; 16671], [25451; 1579; 25515; 12165; 12164; 12163; 25389]) (Some (LW 1579)) (Some (LW 25389));
    Cell ([1516; 17009; 25389; 16671], [25452; 152]) (Some (LW 152)) (None)]
   152 16670.
Definition divide64_row_23 : srow := SRow
   [Cell ([16859; 16946; 16670], [1704; 25264; 25138]) (Some (LW 1704)) (Some (LW 25138));
    Cell ([1641; 16947; 25138; 16670], [25201; 1703; 25265; 12162; 12161; 12160; 25139]) (Some (LW 1703)) (Some (LW 25139));
    Cell ([1640; 16948; 25139; 16670], [25202; 1702; 25266; 12159; 12158; 12157; 25140]) (Some (LW 1702)) (Some (LW 25140));
    Cell ([1639; 16949; 25140; 16670], [25203; 1701; 25267; 12156; 12155; 12154; 25141]) (Some (LW 1701)) (Some (LW 25141));
    Cell ([1638; 16950; 25141; 16670], [25204; 1700; 25268; 12153; 12152; 12151; 25142]) (Some (LW 1700)) (Some (LW 25142));
    Cell ([1637; 16951; 25142; 16670], [25205; 1699; 25269; 12150; 12149; 12148; 25143]) (Some (LW 1699)) (Some (LW 25143));
    Cell ([1636; 16952; 25143; 16670], [25206; 1698; 25270; 12147; 12146; 12145; 25144]) (Some (LW 1698)) (Some (LW 25144));
    Cell ([1635; 16953; 25144; 16670], [25207; 1697; 25271; 12144; 12143; 12142; 25145]) (Some (LW 1697)) (Some (LW 25145));
    Cell ([1634; 16954; 25145; 16670], [25208; 1696; 25272; 12141; 12140; 12139; 25146]) (Some (LW 1696)) (Some (LW 25146));
    Cell ([1633; 16955; 25146; 16670], [25209; 1695; 25273; 12138; 12137; 12136; 25147]) (Some (LW 1695)) (Some (LW 25147));
    Cell ([1632; 16956; 25147; 16670], [25210; 1694; 25274; 12135; 12134; 12133; 25148]) (Some (LW 1694)) (Some (LW 25148));
    Cell ([1631; 16957; 25148; 16670], [25211; 1693; 25275; 12132; 12131; 12130; 25149]) (Some (LW 1693)) (Some (LW 25149));
    Cell ([1630; 16958; 25149; 16670], [25212; 1692; 25276; 12129; 12128; 12127; 25150]) (Some (LW 1692)) (Some (LW 25150));
    Cell ([1629; 16959; 25150; 16670], [25213; 1691; 25277; 12126; 12125; 12124; 25151]) (Some (LW 1691)) (Some (LW 25151));
    Cell ([1628; 16960; 25151; 16670], [25214; 1690; 25278; 12123; 12122; 12121; 25152]) (Some (LW 1690)) (Some (LW 25152));
    Cell ([1627; 16961; 25152; 16670], [25215; 1689; 25279; 12120; 12119; 12118; 25153]) (Some (LW 1689)) (Some (LW 25153));
    Cell ([1626; 16962; 25153; 16670], [25216; 1688; 25280; 12117; 12116; 12115; 25154]) (Some (LW 1688)) (Some (LW 25154));
    Cell ([1625; 16963; 25154; 16670], [25217; 1687; 25281; 12114; 12113; 12112; 25155]) (Some (LW 1687)) (Some (LW 25155));
    Cell ([1624; 16964; 25155; 16670], [25218; 1686; 25282; 12111; 12110; 12109; 25156]) (Some (LW 1686)) (Some (LW 25156));
    Cell ([1623; 16965; 25156; 16670], [25219; 1685; 25283; 12108; 12107; 12106; 25157]) (Some (LW 1685)) (Some (LW 25157));
    Cell ([1622; 16966; 25157; 16670], [25220; 1684; 25284; 12105; 12104; 12103; 25158]) (Some (LW 1684)) (Some (LW 25158));
    Cell ([1621; 16967; 25158; 16670], [25221; 1683; 25285; 12102; 12101; 12100; 25159]) (Some (LW 1683)) (Some (LW 25159));
    Cell ([1620; 16968; 25159; 16670], [25222; 1682; 25286; 12099; 12098; 12097; 25160]) (Some (LW 1682)) (Some (LW 25160));
    Cell ([1619; 16969; 25160; 16670], [25223; 1681; 25287; 12096; 12095; 12094; 25161]) (Some (LW 1681)) (Some (LW 25161));
    Cell ([1618; 16970; 25161; 16670], [25224; 1680; 25288; 12093; 12092; 12091; 25162]) (Some (LW 1680)) (Some (LW 25162));
    Cell ([1617; 16971; 25162; 16670], [25225; 1679; 25289; 12090; 12089; 12088; 25163]) (Some (LW 1679)) (Some (LW 25163));
    Cell ([1616; 16972; 25163; 16670], [25226; 1678; 25290; 12087; 12086; 12085; 25164]) (Some (LW 1678)) (Some (LW 25164));
    Cell ([1615; 16973; 25164; 16670], [25227; 1677; 25291; 12084; 12083; 12082; 25165]) (Some (LW 1677)) (Some (LW 25165));
    Cell ([1614; 16974; 25165; 16670], [25228; 1676; 25292; 12081; 12080; 12079; 25166]) (Some (LW 1676)) (Some (LW 25166));
    Cell ([1613; 16975; 25166; 16670], [25229; 1675; 25293; 12078; 12077; 12076; 25167]) (Some (LW 1675)) (Some (LW 25167));
    Cell ([1612; 16976; 25167; 16670], [25230; 1674; 25294; 12075; 12074; 12073; 25168]) (Some (LW 1674)) (Some (LW 25168));
    Cell ([1611; 16977; 25168; 16670], [25231; 1673; 25295; 12072; 12071; 12070; 25169]) (Some (LW 1673)) (Some (LW 25169));
    Cell ([1610; 16978; 25169; 16670], [25232; 1672; 25296; 12069; 12068; 12067; 25170]) (Some (LW 1672)) (Some (LW 25170));
    Cell ([1609; 16979; 25170; 16670], [25233; 1671; 25297; 12066; 12065; 12064; 25171]) (Some (LW 1671)) (Some (LW 25171));
    Cell ([1608; 16980; 25171; 16670], [25234; 1670; 25298; 12063; 12062; 12061; 25172]) (Some (LW 1670)) (Some (LW 25172));
    Cell ([1607; 16981; 25172; 16670], [25235; 1669; 25299; 12060; 12059; 12058; 25173]) (Some (LW 1669)) (Some (LW 25173));
    Cell ([1606; 16982; 25173; 16670], [25236; 1668; 25300; 12057; 12056; 12055; 25174]) (Some (LW 1668)) (Some (LW 25174));
    Cell ([1605; 16983; 25174; 16670], [25237; 1667; 25301; 12054; 12053; 12052; 25175]) (Some (LW 1667)) (Some (LW 25175));
    Cell ([1604; 16984; 25175; 16670], [25238; 1666; 25302; 12051; 12050; 12049; 25176]) (Some (LW 1666)) (Some (LW 25176));
    Cell ([1603; 16985; 25176; 16670], [25239; 1665; 25303; 12048; 12047; 12046; 25177]) (Some (LW 1665)) (Some (LW 25177));
    Cell ([1602; 16986; 25177; 16670], [25240; 1664; 25304; 12045; 12044; 12043; 25178]) (Some (LW 1664)) (Some (LW 25178));
    Cell ([1601; 16987; 25178; 16670], [25241; 1663; 25305; 12042; 12041; 12040; 25179]) (Some (LW 1663)) (Some (LW 25179));
    Cell ([1600; 16988; 25179; 16670], [25242; 1662; 25306; 12039; 12038; 12037; 25180]) (Some (LW 1662)) (Some (LW 25180));
    Cell ([1599; 16989; 25180; 16670], [25243; 1661; 25307; 12036; 12035; 12034; 25181]) (Some (LW 1661)) (Some (LW 25181));
    Cell ([1598; 16990; 25181; 16670], [25244; 1660; 25308; 12033; 12032; 12031; 25182]) (Some (LW 1660)) (Some (LW 25182));
    Cell ([1597; 16991; 25182; 16670], [25245; 1659; 25309; 12030; 12029; 12028; 25183]) (Some (LW 1659)) (Some (LW 25183));
    Cell ([1596; 16992; 25183; 16670], [25246; 1658; 25310; 12027; 12026; 12025; 25184]) (Some (LW 1658)) (Some (LW 25184));
    Cell ([1595; 16993; 25184; 16670], [25247; 1657; 25311; 12024; 12023; 12022; 25185]) (Some (LW 1657)) (Some (LW 25185));
    Cell ([1594; 16994; 25185; 16670], [25248; 1656; 25312; 12021; 12020; 12019; 25186]) (Some (LW 1656)) (Some (LW 25186));
    Cell ([1593; 16995; 25186; 16670], [25249; 1655; 25313; 12018; 12017; 12016; 25187]) (Some (LW 1655)) (Some (LW 25187));
    Cell ([1592; 16996; 25187; 16670], [25250; 1654; 25314; 12015; 12014; 12013; 25188]) (Some (LW 1654)) (Some (LW 25188));
    Cell ([1591; 16997; 25188; 16670], [25251; 1653; 25315; 12012; 12011; 12010; 25189]) (Some (LW 1653)) (Some (LW 25189));
    Cell ([1590; 16998; 25189; 16670], [25252; 1652; 25316; 12009; 12008; 12007; 25190]) (Some (LW 1652)) (Some (LW 25190));
    Cell ([1589; 16999; 25190; 16670], [25253; 1651; 25317; 12006; 12005; 12004; 25191]) (Some (LW 1651)) (Some (LW 25191));
    Cell ([1588; 17000; 25191; 16670], [25254; 1650; 25318; 12003; 12002; 12001; 25192]) (Some (LW 1650)) (Some (LW 25192));
    Cell ([1587; 17001; 25192; 16670], [25255; 1649; 25319; 12000; 11999; 11998; 25193]) (Some (LW 1649)) (Some (LW 25193));
    Cell ([1586; 17002; 25193; 16670], [25256; 1648; 25320; 11997; 11996; 11995; 25194]) (Some (LW 1648)) (Some (LW 25194));
    Cell ([1585; 17003; 25194; 16670], [25257; 1647; 25321; 11994; 11993; 11992; 25195]) (Some (LW 1647)) (Some (LW 25195));
    Cell ([1584; 17004; 25195; 16670], [25258; 1646; 25322; 11991; 11990; 11989; 25196]) (Some (LW 1646)) (Some (LW 25196));
    Cell ([1583; 17005; 25196; 16670], [25259; 1645; 25323; 11988; 11987; 11986; 25197]) (Some (LW 1645)) (Some (LW 25197));
    Cell ([1582; 17006; 25197; 16670], [25260; 1644; 25324; 11985; 11984; 11983; 25198]) (Some (LW 1644)) (Some (LW 25198));
    Cell ([1581; 17007; 25198; 16670], [25261; 1643; 25325; 11982; 11981; 11980; 25199]) (Some (LW 1643)) (Some (LW 25199));
    Cell ([1580; 17008; 25199; 16670], [25262; 1642; 25326; 11979; 11978; 11977; 25200]) (Some (LW 1642)) (Some (LW 25200));
    Cell ([1579; 17009; 25200; 16670], [25263; 153]) (Some (LW 153)) (None)]
   153 16669.
Definition divide64_row_24 : srow := SRow
   [Cell ([16858; 16946; 16669], [1767; 25075; 24949]) (Some (LW 1767)) (Some (LW 24949));
    Cell ([1704; 16947; 24949; 16669], [25012; 1766; 25076; 11976; 11975; 11974; 24950]) (Some (LW 1766)) (Some (LW 24950));
    Cell ([1703; 16948; 24950; 16669], [25013; 1765; 25077; 11973; 11972; 11971; 24951]) (Some (LW 1765)) (Some (LW 24951));
    Cell ([1702; 16949; 24951; 16669], [25014; 1764; 25078; 11970; 11969; 11968; 24952]) (Some (LW 1764)) (Some (LW 24952));
    Cell ([1701; 16950; 24952; 16669], [25015; 1763; 25079; 11967; 11966; 11965; 24953]) (Some (LW 1763)) (Some (LW 24953));
    Cell ([1700; 16951; 24953; 16669], [25016; 1762; 25080; 11964; 11963; 11962; 24954]) (Some (LW 1762)) (Some (LW 24954));
    Cell ([1699; 16952; 24954; 16669], [25017; 1761; 25081; 11961; 11960; 11959; 24955]) (Some (LW 1761)) (Some (LW 24955));
    Cell ([1698; 16953; 24955; 16669], [25018; 1760; 25082; 11958; 11957; 11956; 24956]) (Some (LW 1760)) (Some (LW 24956));
    Cell ([1697; 16954; 24956; 16669], [25019; 1759; 25083; 11955; 11954; 11953; 24957]) (Some (LW 1759)) (Some (LW 24957));
    Cell ([1696; 16955; 24957; 16669], [25020; 1758; 25084; 11952; 11951; 11950; 24958]) (Some (LW 1758)) (Some (LW 24958));
    Cell ([1695; 16956; 24958; 16669], [25021; 1757; 25085; 11949; 11948; 11947; 24959]) (Some (LW 1757)) (Some (LW 24959));
    Cell ([1694; 16957; 24959; 16669], [25022; 1756; 25086; 11946; 11945; 11944; 24960]) (Some (LW 1756)) (Some (LW 24960));
    Cell ([1693; 16958; 24960; 16669], [25023; 1755; 25087; 11943; 11942; 11941; 24961]) (Some (LW 1755)) (Some (LW 24961));
    Cell ([1692; 16959; 24961; 16669], [25024; 1754; 25088; 11940; 11939; 11938; 24962]) (Some (LW 1754)) (Some (LW 24962));
    Cell ([1691; 16960; 24962; 16669], [25025; 1753; 25089; 11937; 11936; 11935; 24963]) (Some (LW 1753)) (Some (LW 24963));
    Cell ([1690; 16961; 24963; 16669], [25026; 1752; 25090; 11934; 11933; 11932; 24964]) (Some (LW 1752)) (Some (LW 24964));
    Cell ([1689; 16962; 24964; 16669], [25027; 1751; 25091; 11931; 11930; 11929; 24965]) (Some (LW 1751)) (Some (LW 24965));
    Cell ([1688; 16963; 24965; 16669], [25028; 1750; 25092; 11928; 11927; 11926; 24966]) (Some (LW 1750)) (Some (LW 24966));
    Cell ([1687; 16964; 24966; 16669], [25029; 1749; 25093; 11925; 11924; 11923; 24967]) (Some (LW 1749)) (Some (LW 24967));
    Cell ([1686; 16965; 24967; 16669], [25030; 1748; 25094; 11922; 11921; 11920; 24968]) (Some (LW 1748)) (Some (LW 24968));
    Cell ([1685; 16966; 24968; 16669], [25031; 1747; 25095; 11919; 11918; 11917; 24969]) (Some (LW 1747)) (Some (LW 24969));
    Cell ([1684; 16967; 24969; 16669], [25032; 1746; 25096; 11916; 11915; 11914; 24970]) (Some (LW 1746)) (Some (LW 24970));
    Cell ([1683; 16968; 24970; 16669], [25033; 1745; 25097; 11913; 11912; 11911; 24971]) (Some (LW 1745)) (Some (LW 24971));
    Cell ([1682; 16969; 24971; 16669], [25034; 1744; 25098; 11910; 11909; 11908; 24972]) (Some (LW 1744)) (Some (LW 24972));
    Cell ([1681; 16970; 24972; 16669], [25035; 1743; 25099; 11907; 11906; 11905; 24973]) (Some (LW 1743)) (Some (LW 24973));
    Cell ([1680; 16971; 24973; 16669], [25036; 1742; 25100; 11904; 11903; 11902; 24974]) (Some (LW 1742)) (Some (LW 24974));
    Cell ([1679; 16972; 24974; 16669], [25037; 1741; 25101; 11901; 11900; 11899; 24975]) (Some (LW 1741)) (Some (LW 24975));
    Cell ([1678; 16973; 24975; 16669], [25038; 1740; 25102; 11898; 11897; 11896; 24976]) (Some (LW 1740)) (Some (LW 24976));
    Cell ([1677; 16974; 24976; 16669], [25039; 1739; 25103; 11895; 11894; 11893; 24977]) (Some (LW 1739)) (Some (LW 24977));
    Cell ([1676; 16975; 24977; 16669], [25040; 1738; 25104; 11892; 11891; 11890; 24978]) (Some (LW 1738)) (Some (LW 24978));
    Cell ([1675; 16976; 24978; 16669], [25041; 1737; 25105; 11889; 11888; 11887; 24979]) (Some (LW 1737)) (Some (LW 24979));
    Cell ([1674; 16977; 24979; 16669], [25042; 1736; 25106; 11886; 11885; 11884; 24980]) (Some (LW 1736)) (Some (LW 24980));
    Cell ([1673; 16978; 24980; 16669], [25043; 1735; 25107; 11883; 11882; 11881; 24981]) (Some (LW 1735)) (Some (LW 24981));
    Cell ([1672; 16979; 24981; 16669], [25044; 1734; 25108; 11880; 11879; 11878; 24982]) (Some (LW 1734)) (Some (LW 24982));
    Cell ([1671; 16980; 24982; 16669], [25045; 1733; 25109; 11877; 11876; 11875; 24983]) (Some (LW 1733)) (Some (LW 24983));
    Cell ([1670; 16981; 24983; 16669], [25046; 1732; 25110; 11874; 11873; 11872; 24984]) (Some (LW 1732)) (Some (LW 24984));
    Cell ([1669; 16982; 24984; 16669], [25047; 1731; 25111; 11871; 11870; 11869; 24985]) (Some (LW 1731)) (Some (LW 24985));
    Cell ([1668; 16983; 24985; 16669], [25048; 1730; 25112; 11868; 11867; 11866; 24986]) (Some (LW 1730)) (Some (LW 24986));
    Cell ([1667; 16984; 24986; 16669], [25049; 1729; 25113; 11865; 11864; 11863; 24987]) (Some (LW 1729)) (Some (LW 24987));
    Cell ([1666; 16985; 24987; 16669], [25050; 1728; 25114; 11862; 11861; 11860; 24988]) (Some (LW 1728)) (Some (LW 24988));
    Cell ([1665; 16986; 24988; 16669], [25051; 1727; 25115; 11859; 11858; 11857; 24989]) (Some (LW 1727)) (Some (LW 24989));
    Cell ([1664; 16987; 24989; 16669], [25052; 1726; 25116; 11856; 11855; 11854; 24990]) (Some (LW 1726)) (Some (LW 24990));
    Cell ([1663; 16988; 24990; 16669], [25053; 1725; 25117; 11853; 11852; 11851; 24991]) (Some (LW 1725)) (Some (LW 24991));
    Cell ([1662; 16989; 24991; 16669], [25054; 1724; 25118; 11850; 11849; 11848; 24992]) (Some (LW 1724)) (Some (LW 24992));
    Cell ([1661; 16990; 24992; 16669], [25055; 1723; 25119; 11847; 11846; 11845; 24993]) (Some (LW 1723)) (Some (LW 24993));
    Cell ([1660; 16991; 24993; 16669], [25056; 1722; 25120; 11844; 11843; 11842; 24994]) (Some (LW 1722)) (Some (LW 24994));
    Cell ([1659; 16992; 24994; 16669], [25057; 1721; 25121; 11841; 11840; 11839; 24995]) (Some (LW 1721)) (Some (LW 24995));
    Cell ([1658; 16993; 24995; 16669], [25058; 1720; 25122; 11838; 11837; 11836; 24996]) (Some (LW 1720)) (Some (LW 24996));
    Cell ([1657; 16994; 24996; 16669], [25059; 1719; 25123; 11835; 11834; 11833; 24997]) (Some (LW 1719)) (Some (LW 24997));
    Cell ([1656; 16995; 24997; 16669], [25060; 1718; 25124; 11832; 11831; 11830; 24998]) (Some (LW 1718)) (Some (LW 24998));
    Cell ([1655; 16996; 24998; 16669], [25061; 1717; 25125; 11829; 11828; 11827; 24999]) (Some (LW 1717)) (Some (LW 24999));
    Cell ([1654; 16997; 24999; 16669], [25062; 1716; 25126; 11826; 11825; 11824; 25000]) (Some (LW 1716)) (Some (LW 25000));
    Cell ([1653; 16998; 25000; 16669], [25063; 1715; 25127; 11823; 11822; 11821; 25001]) (Some (LW 1715)) (Some (LW 25001));
    Cell ([1652; 16999; 25001; 16669], [25064; 1714; 25128; 11820; 11819; 11818; 25002]) (Some (LW 1714)) (Some (LW 25002));
    Cell ([1651; 17000; 25002; 16669], [25065; 1713; 25129; 11817; 11816; 11815; 25003]) (Some (LW 1713)) (Some (LW 25003));
    Cell ([1650; 17001; 25003; 16669], [25066; 1712; 25130; 11814; 11813; 11812; 25004]) (Some (LW 1712)) (Some (LW 25004));
    Cell ([1649; 17002; 25004; 16669], [25067; 1711; 25131; 11811; 11810; 11809; 25005]) (Some (LW 1711)) (Some (LW 25005));
    Cell ([1648; 17003; 25005; 16669], [25068; 1710; 25132; 11808; 11807; 11806; 25006]) (Some (LW 1710)) (Some (LW 25006));
    Cell ([1647; 17004; 25006; 16669], [25069; 1709; 25133; 11805; 11804; 11803; 25007]) (Some (LW 1709)) (Some (LW 25007));
    Cell ([1646; 17005; 25007; 16669], [25070; 1708; 25134; 11802; 11801; 11800; 25008]) (Some (LW 1708)) (Some (LW 25008));
    Cell ([1645; 17006; 25008; 16669], [25071; 1707; 25135; 11799; 11798; 11797; 25009]) (Some (LW 1707)) (Some (LW 25009));
    Cell ([1644; 17007; 25009; 16669], [25072; 1706; 25136; 11796; 11795; 11794; 25010]) (Some (LW 1706)) (Some (LW 25010));
    Cell ([1643; 17008; 25010; 16669], [25073; 1705; 25137; 11793; 11792; 11791; 25011]) (Some (LW 1705)) (Some (LW 25011));
    Cell ([1642; 17009; 25011; 16669], [25074; 154]) (Some (LW 154)) (None)]
   154 16668.
Definition divide64_row_25 : srow := SRow
   [Cell ([16857; 16946; 16668], [1830; 24886; 24760]) (Some (LW 1830)) (Some (LW 24760));
    Cell ([1767; 16947; 24760; 16668], [24823; 1829; 24887; 11790; 11789; 11788; 24761]) (Some (LW 1829)) (Some (LW 24761));
    Cell ([1766; 16948; 24761; 16668], [24824; 1828; 24888; 11787; 11786; 11785; 24762]) (Some (LW 1828)) (Some (LW 24762));
    Cell ([1765; 16949; 24762; 16668], [24825; 1827; 24889; 11784; 11783; 11782; 24763]) (Some (LW 1827)) (Some (LW 24763));
    Cell ([1764; 16950; 24763; 16668], [24826; 1826; 24890; 11781; 11780; 11779; 24764]) (Some (LW 1826)) (Some (LW 24764));
    Cell ([1763; 16951; 24764; 16668], [24827; 1825; 24891; 11778; 11777; 11776; 24765]) (Some (LW 1825)) (Some (LW 24765));
    Cell ([1762; 16952; 24765; 16668], [24828; 1824; 24892; 11775; 11774; 11773; 24766]) (Some (LW 1824)) (Some (LW 24766));
    Cell ([1761; 16953; 24766; 16668], [24829; 1823; 24893; 11772; 11771; 11770; 24767]) (Some (LW 1823)) (Some (LW 24767));
    Cell ([1760; 16954; 24767; 16668], [24830; 1822; 24894; 11769; 11768; 11767; 24768]) (Some (LW 1822)) (Some (LW 24768));
    Cell ([1759; 16955; 24768; 16668], [24831; 1821; 24895; 11766; 11765; 11764; 24769]) (Some (LW 1821)) (Some (LW 24769));
    Cell ([1758; 16956; 24769; 16668], [24832; 1820; 24896; 11763; 11762; 11761; 24770]) (Some (LW 1820)) (Some (LW 24770));
    Cell ([1757; 16957; 24770; 16668], [24833; 1819; 24897; 11760; 11759; 11758; 24771]) (Some (LW 1819)) (Some (LW 24771));
    Cell ([1756; 16958; 24771; 16668], [24834; 1818; 24898; 11757; 11756; 11755; 24772]) (Some (LW 1818)) (Some (LW 24772));
    Cell ([1755; 16959; 24772; 16668], [24835; 1817; 24899; 11754; 11753; 11752; 24773]) (Some (LW 1817)) (Some (LW 24773));
    Cell ([1754; 16960; 24773; 16668], [24836; 1816; 24900; 11751; 11750; 11749; 24774]) (Some (LW 1816)) (Some (LW 24774));
    Cell ([1753; 16961; 24774; 16668], [24837; 1815; 24901; 11748; 11747; 11746; 24775]) (Some (LW 1815)) (Some (LW 24775));
    Cell ([1752; 16962; 24775; 16668], [24838; 1814; 24902; 11745; 11744; 11743; 24776]) (Some (LW 1814)) (Some (LW 24776));
    Cell ([1751; 16963; 24776; 16668], [24839; 1813; 24903; 11742; 11741; 11740; 24777]) (Some (LW 1813)) (Some (LW 24777));
    Cell ([1750; 16964; 24777; 16668], [24840; 1812; 24904; 11739; 11738; 11737; 24778]) (Some (LW 1812)) (Some (LW 24778));
    Cell ([1749; 16965; 24778; 16668], [24841; 1811; 24905; 11736; 11735; 11734; 24779]) (Some (LW 1811)) (Some (LW 24779));
    Cell ([1748; 16966; 24779; 16668], [24842; 1810; 24906; 11733; 11732; 11731; 24780]) (Some (LW 1810)) (Some (LW 24780));
    Cell ([1747; 16967; 24780; 16668], [24843; 1809; 24907; 11730; 11729; 11728; 24781]) (Some (LW 1809)) (Some (LW 24781));
    Cell ([1746; 16968; 24781; 16668], [24844; 1808; 24908; 11727; 11726; 11725; 24782]) (Some (LW 1808)) (Some (LW 24782));
    Cell ([1745; 16969; 24782; 16668], [24845; 1807; 24909; 11724; 11723; 11722; 24783]) (Some (LW 1807)) (Some (LW 24783));
    Cell ([1744; 16970; 24783; 16668], [24846; 1806; 24910; 11721; 11720; 11719; 24784]) (Some (LW 1806)) (Some (LW 24784));
    Cell ([1743; 16971; 24784; 16668], [24847; 1805; 24911; 11718; 11717; 11716; 24785]) (Some (LW 1805)) (Some (LW 24785));
    Cell ([1742; 16972; 24785; 16668], [24848; 1804; 24912; 11715; 11714; 11713; 24786]) (Some (LW 1804)) (Some (LW 24786));
    Cell ([1741; 16973; 24786; 16668], [24849; 1803; 24913; 11712; 11711; 11710; 24787]) (Some (LW 1803)) (Some (LW 24787));
    Cell ([1740; 16974; 24787; 16668], [24850; 1802; 24914; 11709; 11708; 11707; 24788]) (Some (LW 1802)) (Some (LW 24788));
    Cell ([1739; 16975; 24788; 16668], [24851; 1801; 24915; 11706; 11705; 11704; 24789]) (Some (LW 1801)) (Some (LW 24789));
    Cell ([1738; 16976; 24789; 16668], [24852; 1800; 24916; 11703; 11702; 11701; 24790]) (Some (LW 1800)) (Some (LW 24790));
    Cell ([1737; 16977; 24790; 16668], [24853; 1799; 24917; 11700; 11699; 11698; 24791]) (Some (LW 1799)) (Some (LW 24791));
    Cell ([1736; 16978; 24791; 16668], [24854; 1798; 24918; 11697; 11696; 11695; 24792]) (Some (LW 1798)) (Some (LW 24792));
    Cell ([1735; 16979; 24792; 16668], [24855; 1797; 24919; 11694; 11693; 11692; 24793]) (Some (LW 1797)) (Some (LW 24793));
    Cell ([1734; 16980; 24793; 16668], [24856; 1796; 24920; 11691; 11690; 11689; 24794]) (Some (LW 1796)) (Some (LW 24794));
    Cell ([1733; 16981; 24794; 16668], [24857; 1795; 24921; 11688; 11687; 11686; 24795]) (Some (LW 1795)) (Some (LW 24795));
    Cell ([1732; 16982; 24795; 16668], [24858; 1794; 24922; 11685; 11684; 11683; 24796]) (Some (LW 1794)) (Some (LW 24796));
    Cell ([1731; 16983; 24796; 16668], [24859; 1793; 24923; 11682; 11681; 11680; 24797]) (Some (LW 1793)) (Some (LW 24797));
    Cell ([1730; 16984; 24797; 16668], [24860; 1792; 24924; 11679; 11678; 11677; 24798]) (Some (LW 1792)) (Some (LW 24798));
    Cell ([1729; 16985; 24798; 16668], [24861; 1791; 24925; 11676; 11675; 11674; 24799]) (Some (LW 1791)) (Some (LW 24799));
    Cell ([1728; 16986; 24799; 16668], [24862; 1790; 24926; 11673; 11672; 11671; 24800]) (Some (LW 1790)) (Some (LW 24800));
    Cell ([1727; 16987; 24800; 16668], [24863; 1789; 24927; 11670; 11669; 11668; 24801]) (Some (LW 1789)) (Some (LW 24801));
    Cell ([1726; 16988; 24801; 16668], [24864; 1788; 24928; 11667; 11666; 11665; 24802]) (Some (LW 1788)) (Some (LW 24802));
    Cell ([1725; 16989; 24802; 16668], [24865; 1787; 24929; 11664; 11663; 11662; 24803]) (Some (LW 1787)) (Some (LW 24803));
    Cell ([1724; 16990; 24803; 16668], [24866; 1786; 24930; 11661; 11660; 11659; 24804]) (Some (LW 1786)) (Some (LW 24804));
    Cell ([1723; 16991; 24804; 16668], [24867; 1785; 24931; 11658; 11657; 11656; 24805]) (Some (LW 1785)) (Some (LW 24805));
    Cell ([1722; 16992; 24805; 16668], [24868; 1784; 24932; 11655; 11654; 11653; 24806]) (Some (LW 1784)) (Some (LW 24806));
    Cell ([1721; 16993; 24806; 16668], [24869; 1783; 24933; 11652; 11651; 11650; 24807]) (Some (LW 1783)) (Some (LW 24807));
    Cell ([1720; 16994; 24807; 16668], [24870; 1782; 24934; 11649; 11648; 11647; 24808]) (Some (LW 1782)) (Some (LW 24808));
    Cell ([1719; 16995; 24808; 16668], [24871; 1781; 24935; 11646; 11645; 11644; 24809]) (Some (LW 1781)) (Some (LW 24809));
    Cell ([1718; 16996; 24809; 16668], [24872; 1780; 24936; 11643; 11642; 11641; 24810]) (Some (LW 1780)) (Some (LW 24810));
    Cell ([1717; 16997; 24810; 16668], [24873; 1779; 24937; 11640; 11639; 11638; 24811]) (Some (LW 1779)) (Some (LW 24811));
    Cell ([1716; 16998; 24811; 16668], [24874; 1778; 24938; 11637; 11636; 11635; 24812]) (Some (LW 1778)) (Some (LW 24812));
    Cell ([1715; 16999; 24812; 16668], [24875; 1777; 24939; 11634; 11633; 11632; 24813]) (Some (LW 1777)) (Some (LW 24813));
    Cell ([1714; 17000; 24813; 16668], [24876; 1776; 24940; 11631; 11630; 11629; 24814]) (Some (LW 1776)) (Some (LW 24814));
    Cell ([1713; 17001; 24814; 16668], [24877; 1775; 24941; 11628; 11627; 11626; 24815]) (Some (LW 1775)) (Some (LW 24815));
    Cell ([1712; 17002; 24815; 16668], [24878; 1774; 24942; 11625; 11624; 11623; 24816]) (Some (LW 1774)) (Some (LW 24816));
    Cell ([1711; 17003; 24816; 16668], [24879; 1773; 24943; 11622; 11621; 11620; 24817]) (Some (LW 1773)) (Some (LW 24817));
    Cell ([1710; 17004; 24817; 16668], [24880; 1772; 24944; 11619; 11618; 11617; 24818]) (Some (LW 1772)) (Some (LW 24818));
    Cell ([1709; 17005; 24818; 16668], [24881; 1771; 24945; 11616; 11615; 11614; 24819]) (Some (LW 1771)) (Some (LW 24819));
    Cell ([1708; 17006; 24819; 16668], [24882; 1770; 24946; 11613; 11612; 11611; 24820]) (Some (LW 1770)) (Some (LW 24820));
    Cell ([1707; 17007; 24820; 16668], [24883; 1769; 24947; 11610; 11609; 11608; 24821]) (Some (LW 1769)) (Some (LW 24821));
    Cell ([1706; 17008; 24821; 16668], [24884; 1768; 24948; 11607; 11606; 11605; 24822]) (Some (LW 1768)) (Some (LW 24822));
    Cell ([1705; 17009; 24822; 16668], [24885; 155]) (Some (LW 155)) (None)]
   155 16667.
Definition divide64_row_26 : srow := SRow
   [Cell ([16856; 16946; 16667], [1893; 24697; 24571]) (Some (LW 1893)) (Some (LW 24571));
    Cell ([1830; 16947; 24571; 16667], [24634; 1892; 24698; 11604; 11603; 11602; 24572]) (Some (LW 1892)) (Some (LW 24572));
    Cell ([1829; 16948; 24572; 16667], [24635; 1891; 24699; 11601; 11600; 11599; 24573]) (Some (LW 1891)) (Some (LW 24573));
    Cell ([1828; 16949; 24573; 16667], [24636; 1890; 24700; 11598; 11597; 11596; 24574]) (Some (LW 1890)) (Some (LW 24574));
    Cell ([1827; 16950; 24574; 16667], [24637; 1889; 24701; 11595; 11594; 11593; 24575]) (Some (LW 1889)) (Some (LW 24575));
    Cell ([1826; 16951; 24575; 16667], [24638; 1888; 24702; 11592; 11591; 11590; 24576]) (Some (LW 1888)) (Some (LW 24576));
    Cell ([1825; 16952; 24576; 16667], [24639; 1887; 24703; 11589; 11588; 11587; 24577]) (Some (LW 1887)) (Some (LW 24577));
    Cell ([1824; 16953; 24577; 16667], [24640; 1886; 24704; 11586; 11585; 11584; 24578]) (Some (LW 1886)) (Some (LW 24578));
    Cell ([1823; 16954; 24578; 16667], [24641; 1885; 24705; 11583; 11582; 11581; 24579]) (Some (LW 1885)) (Some (LW 24579));
    Cell ([1822; 16955; 24579; 16667], [24642; 1884; 24706; 11580; 11579; 11578; 24580]) (Some (LW 1884)) (Some (LW 24580));
    Cell ([1821; 16956; 24580; 16667], [24643; 1883; 24707; 11577; 11576; 11575; 24581]) (Some (LW 1883)) (Some (LW 24581));
    Cell ([1820; 16957; 24581; 16667], [24644; 1882; 24708; 11574; 11573; 11572; 24582]) (Some (LW 1882)) (Some (LW 24582));
    Cell ([1819; 16958; 24582; 16667], [24645; 1881; 24709; 11571; 11570; 11569; 24583]) (Some (LW 1881)) (Some (LW 24583));
    Cell ([1818; 16959; 24583; 16667], [24646; 1880; 24710; 11568; 11567; 11566; 24584]) (Some (LW 1880)) (Some (LW 24584));
    Cell ([1817; 16960; 24584; 16667], [24647; 1879; 24711; 11565; 11564; 11563; 24585]) (Some (LW 1879)) (Some (LW 24585));
    Cell ([1816; 16961; 24585; 16667], [24648; 1878; 24712; 11562; 11561; 11560; 24586]) (Some (LW 1878)) (Some (LW 24586));
    Cell ([1815; 16962; 24586; 16667], [24649; 1877; 24713; 11559; 11558; 11557; 24587]) (Some (LW 1877)) (Some (LW 24587));
    Cell ([1814; 16963; 24587; 16667], [24650; 1876; 24714; 11556; 11555; 11554; 24588]) (Some (LW 1876)) (Some (LW 24588));
    Cell ([1813; 16964; 24588; 16667], [24651; 1875; 24715; 11553; 11552; 11551; 24589]) (Some (LW 1875)) (Some (LW 24589));
    Cell ([1812; 16965; 24589; 16667], [24652; 1874; 24716; 11550; 11549; 11548; 24590]) (Some (LW 1874)) (Some (LW 24590));
    Cell ([1811; 16966; 24590; 16667], [24653; 1873; 24717; 11547; 11546; 11545; 24591]) (Some (LW 1873)) (Some (LW 24591));
    Cell ([1810; 16967; 24591; 16667], [24654; 1872; 24718; 11544; 11543; 11542; 24592]) (Some (LW 1872)) (Some (LW 24592));
    Cell ([1809; 16968; 24592; 16667], [24655; 1871; 24719; 11541; 11540; 11539; 24593]) (Some (LW 1871)) (Some (LW 24593));
    Cell ([1808; 16969; 24593; 16667], [24656; 1870; 24720; 11538; 11537; 11536; 24594]) (Some (LW 1870)) (Some (LW 24594));
    Cell ([1807; 16970; 24594; 16667], [24657; 1869; 24721; 11535; 11534; 11533; 24595]) (Some (LW 1869)) (Some (LW 24595));
    Cell ([1806; 16971; 24595; 16667], [24658; 1868; 24722; 11532; 11531; 11530; 24596]) (Some (LW 1868)) (Some (LW 24596));
    Cell ([1805; 16972; 24596; 16667], [24659; 1867; 24723; 11529; 11528; 11527; 24597]) (Some (LW 1867)) (Some (LW 24597));
    Cell ([1804; 16973; 24597; 16667], [24660; 1866; 24724; 11526; 11525; 11524; 24598]) (Some (LW 1866)) (Some (LW 24598));
    Cell ([1803; 16974; 24598; 16667], [24661; 1865; 24725; 11523; 11522; 11521; 24599]) (Some (LW 1865)) (Some (LW 24599));
    Cell ([1802; 16975; 24599; 16667], [24662; 1864; 24726; 11520; 11519; 11518; 24600]) (Some (LW 1864)) (Some (LW 24600));
    Cell ([1801; 16976; 24600; 16667], [24663; 1863; 24727; 11517; 11516; 11515; 24601]) (Some (LW 1863)) (Some (LW 24601));
    Cell ([1800; 16977; 24601; 16667], [24664; 1862; 24728; 11514; 11513; 11512; 24602]) (Some (LW 1862)) (Some (LW 24602));
    Cell ([1799; 16978; 24602; 16667], [24665; 1861; 24729; 11511; 11510; 11509; 24603]) (Some (LW 1861)) (Some (LW 24603));
    Cell ([1798; 16979; 24603; 16667], [24666; 1860; 24730; 11508; 11507; 11506; 24604]) (Some (LW 1860)) (Some (LW 24604));
    Cell ([1797; 16980; 24604; 16667], [24667; 1859; 24731; 11505; 11504; 11503; 24605]) (Some (LW 1859)) (Some (LW 24605));
    Cell ([1796; 16981; 24605; 16667], [24668; 1858; 24732; 11502; 11501; 11500; 24606]) (Some (LW 1858)) (Some (LW 24606));
    Cell ([1795; 16982; 24606; 16667], [24669; 1857; 24733; 11499; 11498; 11497; 24607]) (Some (LW 1857)) (Some (LW 24607));
    Cell ([1794; 16983; 24607; 16667], [24670; 1856; 24734; 11496; 11495; 11494; 24608]) (Some (LW 1856)) (Some (LW 24608));
    Cell ([1793; 16984; 24608; 16667], [24671; 1855; 24735; 11493; 11492; 11491; 24609]) (Some (LW 1855)) (Some (LW 24609));
    Cell ([1792; 16985; 24609; 16667], [24672; 1854; 24736; 11490; 11489; 11488; 24610]) (Some (LW 1854)) (Some (LW 24610));
    Cell ([1791; 16986; 24610; 16667], [24673; 1853; 24737; 11487; 11486; 11485; 24611]) (Some (LW 1853)) (Some (LW 24611));
    Cell ([1790; 16987; 24611; 16667], [24674; 1852; 24738; 11484; 11483; 11482; 24612]) (Some (LW 1852)) (Some (LW 24612));
    Cell ([1789; 16988; 24612; 16667], [24675; 1851; 24739; 11481; 11480; 11479; 24613]) (Some (LW 1851)) (Some (LW 24613));
    Cell ([1788; 16989; 24613; 16667], [24676; 1850; 24740; 11478; 11477; 11476; 24614]) (Some (LW 1850)) (Some (LW 24614));
    Cell ([1787; 16990; 24614; 16667], [24677; 1849; 24741; 11475; 11474; 11473; 24615]) (Some (LW 1849)) (Some (LW 24615));
    Cell ([1786; 16991; 24615; 16667], [24678; 1848; 24742; 11472; 11471; 11470; 24616]) (Some (LW 1848)) (Some (LW 24616));
    Cell ([1785; 16992; 24616; 16667], [24679; 1847; 24743; 11469; 11468; 11467; 24617]) (Some (LW 1847)) (Some (LW 24617));
    Cell ([1784; 16993; 24617; 16667], [24680; 1846; 24744; 11466; 11465; 11464; 24618]) (Some (LW 1846)) (Some (LW 24618));
    Cell ([1783; 16994; 24618; 16667], [24681; 1845; 24745; 11463; 11462; 11461; 24619]) (Some (LW 1845)) (Some (LW 24619));
    Cell ([1782; 16995; 24619; 16667], [24682; 1844; 24746; 11460; 11459; 11458; 24620]) (Some (LW 1844)) (Some (LW 24620));
    Cell ([1781; 16996; 24620; 16667], [24683; 1843; 24747; 11457; 11456; 11455; 24621]) (Some (LW 1843)) (Some (LW 24621));
    Cell ([1780; 16997; 24621; 16667], [24684; 1842; 24748; 11454; 11453; 11452; 24622]) (Some (LW 1842)) (Some (LW 24622));
    Cell ([1779; 16998; 24622; 16667], [24685; 1841; 24749; 11451; 11450; 11449; 24623]) (Some (LW 1841)) (Some (LW 24623));
    Cell ([1778; 16999; 24623; 16667], [24686; 1840; 24750; 11448; 11447; 11446; 24624]) (Some (LW 1840)) (Some (LW 24624));
    Cell ([1777; 17000; 24624; 16667], [24687; 1839; 24751; 11445; 11444; 11443; 24625]) (Some (LW 1839)) (Some (LW 24625));
    Cell ([1776; 17001; 24625; 16667], [24688; 1838; 24752; 11442; 11441; 11440; 24626]) (Some (LW 1838)) (Some (LW 24626));
    Cell ([1775; 17002; 24626; 16667], [24689; 1837; 24753; 11439; 11438; 11437; 24627]) (Some (LW 1837)) (Some (LW 24627));
    Cell ([1774; 17003; 24627; 16667], [24690; 1836; 24754; 11436; 11435; 11434; 24628]) (Some (LW 1836)) (Some (LW 24628));
    Cell ([1773; 17004; 24628; 16667], [24691; 1835; 24755; 11433; 11432; 11431; 24629]) (Some (LW 1835)) (Some (LW 24629));
    Cell ([1772; 17005; 24629; 16667], [24692; 1834; 24756; 11430; 11429; 11428; 24630]) (Some (LW 1834)) (Some (LW 24630));
    Cell ([1771; 17006; 24630; 16667], [24693; 1833; 24757; 11427; 11426; 11425; 24631]) (Some (LW 1833)) (Some (LW 24631));
    Cell ([1770; 17007; 24631; 16667], [24694; 1832; 24758; 11424; 11423; 11422; 24632]) (Some (LW 1832)) (Some (LW 24632));
    Cell ([1769; 17008; 24632; 16667], [24695; 1831; 24759; 11421; 11420; 11419; 24633]) (Some (LW 1831)) (Some (LW 24633));
    Cell ([1768; 17009; 24633; 16667], [24696; 156]) (Some (LW 156)) (None)]
   156 16666.
Definition divide64_row_27 : srow := SRow
   [Cell ([16855; 16946; 16666], [1956; 24508; 24382]) (Some (LW 1956)) (Some (LW 24382));
    Cell ([1893; 16947; 24382; 16666], [24445; 1955; 24509; 11418; 11417; 11416; 24383]) (Some (LW 1955)) (Some (LW 24383));
    Cell ([1892; 16948; 24383; 16666], [24446; 1954; 24510; 11415; 11414; 11413; 24384]) (Some (LW 1954)) (Some (LW 24384));
    Cell ([1891; 16949; 24384; 16666], [24447; 1953; 24511; 11412; 11411; 11410; 24385]) (Some (LW 1953)) (Some (LW 24385));
    Cell ([1890; 16950; 24385; 16666], [24448; 1952; 24512; 11409; 11408; 11407; 24386]) (Some (LW 1952)) (Some (LW 24386));
    Cell ([1889; 16951; 24386; 16666], [24449; 1951; 24513; 11406; 11405; 11404; 24387]) (Some (LW 1951)) (Some (LW 24387));
    Cell ([1888; 16952; 24387; 16666], [24450; 1950; 24514; 11403; 11402; 11401; 24388]) (Some (LW 1950)) (Some (LW 24388));
    Cell ([1887; 16953; 24388; 16666], [24451; 1949; 24515; 11400; 11399; 11398; 24389]) (Some (LW 1949)) (Some (LW 24389));
    Cell ([1886; 16954; 24389; 16666], [24452; 1948; 24516; 11397; 11396; 11395; 24390]) (Some (LW 1948)) (Some (LW 24390));
    Cell ([1885; 16955; 24390; 16666], [24453; 1947; 24517; 11394; 11393; 11392; 24391]) (Some (LW 1947)) (Some (LW 24391));
    Cell ([1884; 16956; 24391; 16666], [24454; 1946; 24518; 11391; 11390; 11389; 24392]) (Some (LW 1946)) (Some (LW 24392));
    Cell ([1883; 16957; 24392; 16666], [24455; 1945; 24519; 11388; 11387; 11386; 24393]) (Some (LW 1945)) (Some (LW 24393));
    Cell ([1882; 16958; 24393; 16666], [24456; 1944; 24520; 11385; 11384; 11383; 24394]) (Some (LW 1944)) (Some (LW 24394));
    Cell ([1881; 16959; 24394; 16666], [24457; 1943; 24521; 11382; 11381; 11380; 24395]) (Some (LW 1943)) (Some (LW 24395));
    Cell ([1880; 16960; 24395; 16666], [24458; 1942; 24522; 11379; 11378; 11377; 24396]) (Some (LW 1942)) (Some (LW 24396));
    Cell ([1879; 16961; 24396; 16666], [24459; 1941; 24523; 11376; 11375; 11374; 24397]) (Some (LW 1941)) (Some (LW 24397));
    Cell ([1878; 16962; 24397; 16666], [24460; 1940; 24524; 11373; 11372; 11371; 24398]) (Some (LW 1940)) (Some (LW 24398));
    Cell ([1877; 16963; 24398; 16666], [24461; 1939; 24525; 11370; 11369; 11368; 24399]) (Some (LW 1939)) (Some (LW 24399));
    Cell ([1876; 16964; 24399; 16666], [24462; 1938; 24526; 11367; 11366; 11365; 24400]) (Some (LW 1938)) (Some (LW 24400));
    Cell ([1875; 16965; 24400; 16666], [24463; 1937; 24527; 11364; 11363; 11362; 24401]) (Some (LW 1937)) (Some (LW 24401));
    Cell ([1874; 16966; 24401; 16666], [24464; 1936; 24528; 11361; 11360; 11359; 24402]) (Some (LW 1936)) (Some (LW 24402));
    Cell ([1873; 16967; 24402; 16666], [24465; 1935; 24529; 11358; 11357; 11356; 24403]) (Some (LW 1935)) (Some (LW 24403));
    Cell ([1872; 16968; 24403; 16666], [24466; 1934; 24530; 11355; 11354; 11353; 24404]) (Some (LW 1934)) (Some (LW 24404));
    Cell ([1871; 16969; 24404; 16666], [24467; 1933; 24531; 11352; 11351; 11350; 24405]) (Some (LW 1933)) (Some (LW 24405));
    Cell ([1870; 16970; 24405; 16666], [24468; 1932; 24532; 11349; 11348; 11347; 24406]) (Some (LW 1932)) (Some (LW 24406));
    Cell ([1869; 16971; 24406; 16666], [24469; 1931; 24533; 11346; 11345; 11344; 24407]) (Some (LW 1931)) (Some (LW 24407));
    Cell ([1868; 16972; 24407; 16666], [24470; 1930; 24534; 11343; 11342; 11341; 24408]) (Some (LW 1930)) (Some (LW 24408));
    Cell ([1867; 16973; 24408; 16666], [24471; 1929; 24535; 11340; 11339; 11338; 24409]) (Some (LW 1929)) (Some (LW 24409));
    Cell ([1866; 16974; 24409; 16666], [24472; 1928; 24536; 11337; 11336; 11335; 24410]) (Some (LW 1928)) (Some (LW 24410));
    Cell ([1865; 16975; 24410; 16666], [24473; 1927; 24537; 11334; 11333; 11332; 24411]) (Some (LW 1927)) (Some (LW 24411));
    Cell ([1864; 16976; 24411; 16666], [24474; 1926; 24538; 11331; 11330; 11329; 24412]) (Some (LW 1926)) (Some (LW 24412));
    Cell ([1863; 16977; 24412; 16666], [24475; 1925; 24539; 11328; 11327; 11326; 24413]) (Some (LW 1925)) (Some (LW 24413));
    Cell ([1862; 16978; 24413; 16666], [24476; 1924; 24540; 11325; 11324; 11323; 24414]) (Some (LW 1924)) (Some (LW 24414));
    Cell ([1861; 16979; 24414; 16666], [24477; 1923; 24541; 11322; 11321; 11320; 24415]) (Some (LW 1923)) (Some (LW 24415));
    Cell ([1860; 16980; 24415; 16666], [24478; 1922; 24542; 11319; 11318; 11317; 24416]) (Some (LW 1922)) (Some (LW 24416));
    Cell ([1859; 16981; 24416; 16666], [24479; 1921; 24543; 11316; 11315; 11314; 24417]) (Some (LW 1921)) (Some (LW 24417));
    Cell ([1858; 16982; 24417; 16666], [24480; 1920; 24544; 11313; 11312; 11311; 24418]) (Some (LW 1920)) (Some (LW 24418));
    Cell ([1857; 16983; 24418; 16666], [24481; 1919; 24545; 11310; 11309; 11308; 24419]) (Some (LW 1919)) (Some (LW 24419));
    Cell ([1856; 16984; 24419; 16666], [24482; 1918; 24546; 11307; 11306; 11305; 24420]) (Some (LW 1918)) (Some (LW 24420));
    Cell ([1855; 16985; 24420; 16666], [24483; 1917; 24547; 11304; 11303; 11302; 24421]) (Some (LW 1917)) (Some (LW 24421));
    Cell ([1854; 16986; 24421; 16666], [24484; 1916; 24548; 11301; 11300; 11299; 24422]) (Some (LW 1916)) (Some (LW 24422));
    Cell ([1853; 16987; 24422; 16666], [24485; 1915; 24549; 11298; 11297; 11296; 24423]) (Some (LW 1915)) (Some (LW 24423));
    Cell ([1852; 16988; 24423; 16666], [24486; 1914; 24550; 11295; 11294; 11293; 24424]) (Some (LW 1914)) (Some (LW 24424));
    Cell ([1851; 16989; 24424; 16666], [24487; 1913; 24551; 11292; 11291; 11290; 24425]) (Some (LW 1913)) (Some (LW 24425));
    Cell ([1850; 16990; 24425; 16666], [24488; 1912; 24552; 11289; 11288; 11287; 24426]) (Some (LW 1912)) (Some (LW 24426));
    Cell ([1849; 16991; 24426; 16666], [24489; 1911; 24553; 11286; 11285; 11284; 24427]) (Some (LW 1911)) (Some (LW 24427));
    Cell ([1848; 16992; 24427; 16666], [24490; 1910; 24554; 11283; 11282; 11281; 24428]) (Some (LW 1910)) (Some (LW 24428));
    Cell ([1847; 16993; 24428; 16666], [24491; 1909; 24555; 11280; 11279; 11278; 24429]) (Some (LW 1909)) (Some (LW 24429));
    Cell ([1846; 16994; 24429; 16666], [24492; 1908; 24556; 11277; 11276; 11275; 24430]) (Some (LW 1908)) (Some (LW 24430));
    Cell ([1845; 16995; 24430; 16666], [24493; 1907; 24557; 11274; 11273; 11272; 24431]) (Some (LW 1907)) (Some (LW 24431));
    Cell ([1844; 16996; 24431; 16666], [24494; 1906; 24558; 11271; 11270; 11269; 24432]) (Some (LW 1906)) (Some (LW 24432));
    Cell ([1843; 16997; 24432; 16666], [24495; 1905; 24559; 11268; 11267; 11266; 24433]) (Some (LW 1905)) (Some (LW 24433));
    Cell ([1842; 16998; 24433; 16666], [24496; 1904; 24560; 11265; 11264; 11263; 24434]) (Some (LW 1904)) (Some (LW 24434));
    Cell ([1841; 16999; 24434; 16666], [24497; 1903; 24561; 11262; 11261; 11260; 24435]) (Some (LW 1903)) (Some (LW 24435));
    Cell ([1840; 17000; 24435; 16666], [24498; 1902; 24562; 11259; 11258; 11257; 24436]) (Some (LW 1902)) (Some (LW 24436));
    Cell ([1839; 17001; 24436; 16666], [24499; 1901; 24563; 11256; 11255; 11254; 24437]) (Some (LW 1901)) (Some (LW 24437));
    Cell ([1838; 17002; 24437; 16666], [24500; 1900; 24564; 11253; 11252; 11251; 24438]) (Some (LW 1900)) (Some (LW 24438));
    Cell ([1837; 17003; 24438; 16666], [24501; 1899; 24565; 11250; 11249; 11248; 24439]) (Some (LW 1899)) (Some (LW 24439));
    Cell ([1836; 17004; 24439; 16666], [24502; 1898; 24566; 11247; 11246; 11245; 24440]) (Some (LW 1898)) (Some (LW 24440));
    Cell ([1835; 17005; 24440; 16666], [24503; 1897; 24567; 11244; 11243; 11242; 24441]) (Some (LW 1897)) (Some (LW 24441));
    Cell ([1834; 17006; 24441; 16666], [24504; 1896; 24568; 11241; 11240; 11239; 24442]) (Some (LW 1896)) (Some (LW 24442));
    Cell ([1833; 17007; 24442; 16666], [24505; 1895; 24569; 11238; 11237; 11236; 24443]) (Some (LW 1895)) (Some (LW 24443));
    Cell ([1832; 17008; 24443; 16666], [24506; 1894; 24570; 11235; 11234; 11233; 24444]) (Some (LW 1894)) (Some (LW 24444));
    Cell ([1831; 17009; 24444; 16666], [24507; 157]) (Some (LW 157)) (None)]
   157 16665.
Definition divide64_row_28 : srow := SRow
   [Cell ([16854; 16946; 16665], [2019; 24319; 24193]) (Some (LW 2019)) (Some (LW 24193));
    Cell ([1956; 16947; 24193; 16665], [24256; 2018; 24320; 11232; 11231; 11230; 24194]) (Some (LW 2018)) (Some (LW 24194));
    Cell ([1955; 16948; 24194; 16665], [24257; 2017; 24321; 11229; 11228; 11227; 24195]) (Some (LW 2017)) (Some (LW 24195));
    Cell ([1954; 16949; 24195; 16665], [24258; 2016; 24322; 11226; 11225; 11224; 24196]) (Some (LW 2016)) (Some (LW 24196));
    Cell ([1953; 16950; 24196; 16665], [24259; 2015; 24323; 11223; 11222; 11221; 24197]) (Some (LW 2015)) (Some (LW 24197));
    Cell ([1952; 16951; 24197; 16665], [24260; 2014; 24324; 11220; 11219; 11218; 24198]) (Some (LW 2014)) (Some (LW 24198));
    Cell ([1951; 16952; 24198; 16665], [24261; 2013; 24325; 11217; 11216; 11215; 24199]) (Some (LW 2013)) (Some (LW 24199));
    Cell ([1950; 16953; 24199; 16665], [24262; 2012; 24326; 11214; 11213; 11212; 24200]) (Some (LW 2012)) (Some (LW 24200));
    Cell ([1949; 16954; 24200; 16665], [24263; 2011; 24327; 11211; 11210; 11209; 24201]) (Some (LW 2011)) (Some (LW 24201));
    Cell ([1948; 16955; 24201; 16665], [24264; 2010; 24328; 11208; 11207; 11206; 24202]) (Some (LW 2010)) (Some (LW 24202));
    Cell ([1947; 16956; 24202; 16665], [24265; 2009; 24329; 11205; 11204; 11203; 24203]) (Some (LW 2009)) (Some (LW 24203));
    Cell ([1946; 16957; 24203; 16665], [24266; 2008; 24330; 11202; 11201; 11200; 24204]) (Some (LW 2008)) (Some (LW 24204));
    Cell ([1945; 16958; 24204; 16665], [24267; 2007; 24331; 11199; 11198; 11197; 24205]) (Some (LW 2007)) (Some (LW 24205));
    Cell ([1944; 16959; 24205; 16665], [24268; 2006; 24332; 11196; 11195; 11194; 24206]) (Some (LW 2006)) (Some (LW 24206));
    Cell ([1943; 16960; 24206; 16665], [24269; 2005; 24333; 11193; 11192; 11191; 24207]) (Some (LW 2005)) (Some (LW 24207));
    Cell ([1942; 16961; 24207; 16665], [24270; 2004; 24334; 11190; 11189; 11188; 24208]) (Some (LW 2004)) (Some (LW 24208));
    Cell ([1941; 16962; 24208; 16665], [24271; 2003; 24335; 11187; 11186; 11185; 24209]) (Some (LW 2003)) (Some (LW 24209));
    Cell ([1940; 16963; 24209; 16665], [24272; 2002; 24336; 11184; 11183; 11182; 24210]) (Some (LW 2002)) (Some (LW 24210));
    Cell ([1939; 16964; 24210; 16665], [24273; 2001; 24337; 11181; 11180; 11179; 24211]) (Some (LW 2001)) (Some (LW 24211));
    Cell ([1938; 16965; 24211; 16665], [24274; 2000; 24338; 11178; 11177; 11176; 24212]) (Some (LW 2000)) (Some (LW 24212));
    Cell ([1937; 16966; 24212; 16665], [24275; 1999; 24339; 11175; 11174; 11173; 24213]) (Some (LW 1999)) (Some (LW 24213));
    Cell ([1936; 16967; 24213; 16665], [24276; 1998; 24340; 11172; 11171; 11170; 24214]) (Some (LW 1998)) (Some (LW 24214));
    Cell ([1935; 16968; 24214; 16665], [24277; 1997; 24341; 11169; 11168; 11167; 24215]) (Some (LW 1997)) (Some (LW 24215));
    Cell ([1934; 16969; 24215; 16665], [24278; 1996; 24342; 11166; 11165; 11164; 24216]) (Some (LW 1996)) (Some (LW 24216));
    Cell ([1933; 16970; 24216; 16665], [24279; 1995; 24343; 11163; 11162; 11161; 24217]) (Some (LW 1995)) (Some (LW 24217));
    Cell ([1932; 16971; 24217; 16665], [24280; 1994; 24344; 11160; 11159; 11158; 24218]) (Some (LW 1994)) (Some (LW 24218));
    Cell ([1931; 16972; 24218; 16665], [24281; 1993; 24345; 11157; 11156; 11155; 24219]) (Some (LW 1993)) (Some (LW 24219));
    Cell ([1930; 16973; 24219; 16665], [24282; 1992; 24346; 11154; 11153; 11152; 24220]) (Some (LW 1992)) (Some (LW 24220));
    Cell ([1929; 16974; 24220; 16665], [24283; 1991; 24347; 11151; 11150; 11149; 24221]) (Some (LW 1991)) (Some (LW 24221));
    Cell ([1928; 16975; 24221; 16665], [24284; 1990; 24348; 11148; 11147; 11146; 24222]) (Some (LW 1990)) (Some (LW 24222));
    Cell ([1927; 16976; 24222; 16665], [24285; 1989; 24349; 11145; 11144; 11143; 24223]) (Some (LW 1989)) (Some (LW 24223));
    Cell ([1926; 16977; 24223; 16665], [24286; 1988; 24350; 11142; 11141; 11140; 24224]) (Some (LW 1988)) (Some (LW 24224));
    Cell ([1925; 16978; 24224; 16665], [24287; 1987; 24351; 11139; 11138; 11137; 24225]) (Some (LW 1987)) (Some (LW 24225));
    Cell ([1924; 16979; 24225; 16665], [24288; 1986; 24352; 11136; 11135; 11134; 24226]) (Some (LW 1986)) (Some (LW 24226));
    Cell ([1923; 16980; 24226; 16665], [24289; 1985; 24353; 11133; 11132; 11131; 24227]) (Some (LW 1985)) (Some (LW 24227));
    Cell ([1922; 16981; 24227; 16665], [24290; 1984; 24354; 11130; 11129; 11128; 24228]) (Some (LW 1984)) (Some (LW 24228));
    Cell ([1921; 16982; 24228; 16665], [24291; 1983; 24355; 11127; 11126; 11125; 24229]) (Some (LW 1983)) (Some (LW 24229));
    Cell ([1920; 16983; 24229; 16665], [24292; 1982; 24356; 11124; 11123; 11122; 24230]) (Some (LW 1982)) (Some (LW 24230));
    Cell ([1919; 16984; 24230; 16665], [24293; 1981; 24357; 11121; 11120; 11119; 24231]) (Some (LW 1981)) (Some (LW 24231));
    Cell ([1918; 16985; 24231; 16665], [24294; 1980; 24358; 11118; 11117; 11116; 24232]) (Some (LW 1980)) (Some (LW 24232));
    Cell ([1917; 16986; 24232; 16665], [24295; 1979; 24359; 11115; 11114; 11113; 24233]) (Some (LW 1979)) (Some (LW 24233));
    Cell ([1916; 16987; 24233; 16665], [24296; 1978; 24360; 11112; 11111; 11110; 24234]) (Some (LW 1978)) (Some (LW 24234));
    Cell ([1915; 16988; 24234; 16665], [24297; 1977; 24361; 11109; 11108; 11107; 24235]) (Some (LW 1977)) (Some (LW 24235));
    Cell ([1914; 16989; 24235; 16665], [24298; 1976; 24362; 11106; 11105; 11104; 24236]) (Some (LW 1976)) (Some (LW 24236));
    Cell ([1913; 16990; 24236; 16665], [24299; 1975; 24363; 11103; 11102; 11101; 24237]) (Some (LW 1975)) (Some (LW 24237));
    Cell ([1912; 16991; 24237; 16665], [24300; 1974; 24364; 11100; 11099; 11098; 24238]) (Some (LW 1974)) (Some (LW 24238));
    Cell ([1911; 16992; 24238; 16665], [24301; 1973; 24365; 11097; 11096; 11095; 24239]) (Some (LW 1973)) (Some (LW 24239));
    Cell ([1910; 16993; 24239; 16665], [24302; 1972; 24366; 11094; 11093; 11092; 24240]) (Some (LW 1972)) (Some (LW 24240));
    Cell ([1909; 16994; 24240; 16665], [24303; 1971; 24367; 11091; 11090; 11089; 24241]) (Some (LW 1971)) (Some (LW 24241));
    Cell ([1908; 16995; 24241; 16665], [24304; 1970; 24368; 11088; 11087; 11086; 24242]) (Some (LW 1970)) (Some (LW 24242));
    Cell ([1907; 16996; 24242; 16665], [24305; 1969; 24369; 11085; 11084; 11083; 24243]) (Some (LW 1969)) (Some (LW 24243));
    Cell ([1906; 16997; 24243; 16665], [24306; 1968; 24370; 11082; 11081; 11080; 24244]) (Some (LW 1968)) (Some (LW 24244));
    Cell ([1905; 16998; 24244; 16665], [24307; 1967; 24371; 11079; 11078; 11077; 24245]) (Some (LW 1967)) (Some (LW 24245));
    Cell ([1904; 16999; 24245; 16665], [24308; 1966; 24372; 11076; 11075; 11074; 24246]) (Some (LW 1966)) (Some (LW 24246));
    Cell ([1903; 17000; 24246; 16665], [24309; 1965; 24373; 11073; 11072; 11071; 24247]) (Some (LW 1965)) (Some (LW 24247));
    Cell ([1902; 17001; 24247; 16665], [24310; 1964; 24374; 11070; 11069; 11068; 24248]) (Some (LW 1964)) (Some (LW 24248));
    Cell ([1901; 17002; 24248; 16665], [24311; 1963; 24375; 11067; 11066; 11065; 24249]) (Some (LW 1963)) (Some (LW 24249));
    Cell ([1900; 17003; 24249; 16665], [24312; 1962; 24376; 11064; 11063; 11062; 24250]) (Some (LW 1962)) (Some (LW 24250));
    Cell ([1899; 17004; 24250; 16665], [24313; 1961; 24377; 11061; 11060; 11059; 24251]) (Some (LW 1961)) (Some (LW 24251));
    Cell ([1898; 17005; 24251; 16665], [24314; 1960; 24378; 11058; 11057; 11056; 24252]) (Some (LW 1960)) (Some (LW 24252));
    Cell ([1897; 17006; 24252; 16665], [24315; 1959; 24379; 11055; 11054; 11053; 24253]) (Some (LW 1959)) (Some (LW 24253));
    Cell ([1896; 17007; 24253; 16665], [24316; 1958; 24380; 11052; 11051; 11050; 24254]) (Some (LW 1958)) (Some (LW 24254));
    Cell ([1895; 17008; 24254; 16665], [24317; 1957; 24381; 11049; 11048; 11047; 24255]) (Some (LW 1957)) (Some (LW 24255));
    Cell ([1894; 17009; 24255; 16665], [24318; 158]) (Some (LW 158)) (None)]
   158 16664.
Definition divide64_row_29 : srow := SRow
   [Cell ([16853; 16946; 16664], [2082; 24130; 24004]) (Some (LW 2082)) (Some (LW 24004));
    Cell ([2019; 16947; 24004; 16664], [24067; 2081; 24131; 11046; 11045; 11044; 24005]) (Some (LW 2081)) (Some (LW 24005));
    Cell ([2018; 16948; 24005; 16664], [24068; 2080; 24132; 11043; 11042; 11041; 24006]) (Some (LW 2080)) (Some (LW 24006));
    Cell ([2017; 16949; 24006; 16664], [24069; 2079; 24133; 11040; 11039; 11038; 24007]) (Some (LW 2079)) (Some (LW 24007));
    Cell ([2016; 16950; 24007; 16664], [24070; 2078; 24134; 11037; 11036; 11035; 24008]) (Some (LW 2078)) (Some (LW 24008));
    Cell ([2015; 16951; 24008; 16664], [24071; 2077; 24135; 11034; 11033; 11032; 24009]) (Some (LW 2077)) (Some (LW 24009));
    Cell ([2014; 16952; 24009; 16664], [24072; 2076; 24136; 11031; 11030; 11029; 24010]) (Some (LW 2076)) (Some (LW 24010));
    Cell ([2013; 16953; 24010; 16664], [24073; 2075; 24137; 11028; 11027; 11026; 24011]) (Some (LW 2075)) (Some (LW 24011));
    Cell ([2012; 16954; 24011; 16664], [24074; 2074; 24138; 11025; 11024; 11023; 24012]) (Some (LW 2074)) (Some (LW 24012));
    Cell ([2011; 16955; 24012; 16664], [24075; 2073; 24139; 11022; 11021; 11020; 24013]) (Some (LW 2073)) (Some (LW 24013));
    Cell ([2010; 16956; 24013; 16664], [24076; 2072; 24140; 11019; 11018; 11017; 24014]) (Some (LW 2072)) (Some (LW 24014));
    Cell ([2009; 16957; 24014; 16664], [24077; 2071; 24141; 11016; 11015; 11014; 24015]) (Some (LW 2071)) (Some (LW 24015));
    Cell ([2008; 16958; 24015; 16664], [24078; 2070; 24142; 11013; 11012; 11011; 24016]) (Some (LW 2070)) (Some (LW 24016));
    Cell ([2007; 16959; 24016; 16664], [24079; 2069; 24143; 11010; 11009; 11008; 24017]) (Some (LW 2069)) (Some (LW 24017));
    Cell ([2006; 16960; 24017; 16664], [24080; 2068; 24144; 11007; 11006; 11005; 24018]) (Some (LW 2068)) (Some (LW 24018));
    Cell ([2005; 16961; 24018; 16664], [24081; 2067; 24145; 11004; 11003; 11002; 24019]) (Some (LW 2067)) (Some (LW 24019));
    Cell ([2004; 16962; 24019; 16664], [24082; 2066; 24146; 11001; 11000; 10999; 24020]) (Some (LW 2066)) (Some (LW 24020));
    Cell ([2003; 16963; 24020; 16664], [24083; 2065; 24147; 10998; 10997; 10996; 24021]) (Some (LW 2065)) (Some (LW 24021));
    Cell ([2002; 16964; 24021; 16664], [24084; 2064; 24148; 10995; 10994; 10993; 24022]) (Some (LW 2064)) (Some (LW 24022));
    Cell ([2001; 16965; 24022; 16664], [24085; 2063; 24149; 10992; 10991; 10990; 24023]) (Some (LW 2063)) (Some (LW 24023));
    Cell ([2000; 16966; 24023; 16664], [24086; 2062; 24150; 10989; 10988; 10987; 24024]) (Some (LW 2062)) (Some (LW 24024));
    Cell ([1999; 16967; 24024; 16664], [24087; 2061; 24151; 10986; 10985; 10984; 24025]) (Some (LW 2061)) (Some (LW 24025));
    Cell ([1998; 16968; 24025; 16664], [24088; 2060; 24152; 10983; 10982; 10981; 24026]) (Some (LW 2060)) (Some (LW 24026));
    Cell ([1997; 16969; 24026; 16664], [24089; 2059; 24153; 10980; 10979; 10978; 24027]) (Some (LW 2059)) (Some (LW 24027));
    Cell ([1996; 16970; 24027; 16664], [24090; 2058; 24154; 10977; 10976; 10975; 24028]) (Some (LW 2058)) (Some (LW 24028));
    Cell ([1995; 16971; 24028; 16664], [24091; 2057; 24155; 10974; 10973; 10972; 24029]) (Some (LW 2057)) (Some (LW 24029));
    Cell ([1994; 16972; 24029; 16664], [24092; 2056; 24156; 10971; 10970; 10969; 24030]) (Some (LW 2056)) (Some (LW 24030));
    Cell ([1993; 16973; 24030; 16664], [24093; 2055; 24157; 10968; 10967; 10966; 24031]) (Some (LW 2055)) (Some (LW 24031));
    Cell ([1992; 16974; 24031; 16664], [24094; 2054; 24158; 10965; 10964; 10963; 24032]) (Some (LW 2054)) (Some (LW 24032));
    Cell ([1991; 16975; 24032; 16664], [24095; 2053; 24159; 10962; 10961; 10960; 24033]) (Some (LW 2053)) (Some (LW 24033));
    Cell ([1990; 16976; 24033; 16664], [24096; 2052; 24160; 10959; 10958; 10957; 24034]) (Some (LW 2052)) (Some (LW 24034));
    Cell ([1989; 16977; 24034; 16664], [24097; 2051; 24161; 10956; 10955; 10954; 24035]) (Some (LW 2051)) (Some (LW 24035));
    Cell ([1988; 16978; 24035; 16664], [24098; 2050; 24162; 10953; 10952; 10951; 24036]) (Some (LW 2050)) (Some (LW 24036));
    Cell ([1987; 16979; 24036; 16664], [24099; 2049; 24163; 10950; 10949; 10948; 24037]) (Some (LW 2049)) (Some (LW 24037));
    Cell ([1986; 16980; 24037; 16664], [24100; 2048; 24164; 10947; 10946; 10945; 24038]) (Some (LW 2048)) (Some (LW 24038));
    Cell ([1985; 16981; 24038; 16664], [24101; 2047; 24165; 10944; 10943; 10942; 24039]) (Some (LW 2047)) (Some (LW 24039));
    Cell ([1984; 16982; 24039; 16664], [24102; 2046; 24166; 10941; 10940; 10939; 24040]) (Some (LW 2046)) (Some (LW 24040));
    Cell ([1983; 16983; 24040; 16664], [24103; 2045; 24167; 10938; 10937; 10936; 24041]) (Some (LW 2045)) (Some (LW 24041));
    Cell ([1982; 16984; 24041; 16664], [24104; 2044; 24168; 10935; 10934; 10933; 24042]) (Some (LW 2044)) (Some (LW 24042));
    Cell ([1981; 16985; 24042; 16664], [24105; 2043; 24169; 10932; 10931; 10930; 24043]) (Some (LW 2043)) (Some (LW 24043));
    Cell ([1980; 16986; 24043; 16664], [24106; 2042; 24170; 10929; 10928; 10927; 24044]) (Some (LW 2042)) (Some (LW 24044));
    Cell ([1979; 16987; 24044; 16664], [24107; 2041; 24171; 10926; 10925; 10924; 24045]) (Some (LW 2041)) (Some (LW 24045));
    Cell ([1978; 16988; 24045; 16664], [24108; 2040; 24172; 10923; 10922; 10921; 24046]) (Some (LW 2040)) (Some (LW 24046));
    Cell ([1977; 16989; 24046; 16664], [24109; 2039; 24173; 10920; 10919; 10918; 24047]) (Some (LW 2039)) (Some (LW 24047));
    Cell ([1976; 16990; 24047; 16664], [24110; 2038; 24174; 10917; 10916; 10915; 24048]) (Some (LW 2038)) (Some (LW 24048));
    Cell ([1975; 16991; 24048; 16664], [24111; 2037; 24175; 10914; 10913; 10912; 24049]) (Some (LW 2037)) (Some (LW 24049));
    Cell ([1974; 16992; 24049; 16664], [24112; 2036; 24176; 10911; 10910; 10909; 24050]) (Some (LW 2036)) (Some (LW 24050));
    Cell ([1973; 16993; 24050; 16664], [24113; 2035; 24177; 10908; 10907; 10906; 24051]) (Some (LW 2035)) (Some (LW 24051));
    Cell ([1972; 16994; 24051; 16664], [24114; 2034; 24178; 10905; 10904; 10903; 24052]) (Some (LW 2034)) (Some (LW 24052));
    Cell ([1971; 16995; 24052; 16664], [24115; 2033; 24179; 10902; 10901; 10900; 24053]) (Some (LW 2033)) (Some (LW 24053));
    Cell ([1970; 16996; 24053; 16664], [24116; 2032; 24180; 10899; 10898; 10897; 24054]) (Some (LW 2032)) (Some (LW 24054));
    Cell ([1969; 16997; 24054; 16664], [24117; 2031; 24181; 10896; 10895; 10894; 24055]) (Some (LW 2031)) (Some (LW 24055));
    Cell ([1968; 16998; 24055; 16664], [24118; 2030; 24182; 10893; 10892; 10891; 24056]) (Some (LW 2030)) (Some (LW 24056));
    Cell ([1967; 16999; 24056; 16664], [24119; 2029; 24183; 10890; 10889; 10888; 24057]) (Some (LW 2029)) (Some (LW 24057));
    Cell ([1966; 17000; 24057; 16664], [24120; 2028; 24184; 10887; 10886; 10885; 24058]) (Some (LW 2028)) (Some (LW 24058));
    Cell ([1965; 17001; 24058; 16664], [24121; 2027; 24185; 10884; 10883; 10882; 24059]) (Some (LW 2027)) (Some (LW 24059));
    Cell ([1964; 17002; 24059; 16664], [24122; 2026; 24186; 10881; 10880; 10879; 24060]) (Some (LW 2026)) (Some (LW 24060));
    Cell ([1963; 17003; 24060; 16664], [24123; 2025; 24187; 10878; 10877; 10876; 24061]) (Some (LW 2025)) (Some (LW 24061));
    Cell ([1962; 17004; 24061; 16664], [24124; 2024; 24188; 10875; 10874; 10873; 24062]) (Some (LW 2024)) (Some (LW 24062));
    Cell ([1961; 17005; 24062; 16664], [24125; 2023; 24189; 10872; 10871; 10870; 24063]) (Some (LW 2023)) (Some (LW 24063));
    Cell ([1960; 17006; 24063; 16664], [24126; 2022; 24190; 10869; 10868; 10867; 24064]) (Some (LW 2022)) (Some (LW 24064));
    Cell ([1959; 17007; 24064; 16664], [24127; 2021; 24191; 10866; 10865; 10864; 24065]) (Some (LW 2021)) (Some (LW 24065));
    Cell ([1958; 17008; 24065; 16664], [24128; 2020; 24192; 10863; 10862; 10861; 24066]) (Some (LW 2020)) (Some (LW 24066));
    Cell ([1957; 17009; 24066; 16664], [24129; 159]) (Some (LW 159)) (None)]
   159 16663.
Definition divide64_row_30 : srow := SRow
   [Cell ([16852; 16946; 16663], [2145; 23941; 23815]) (Some (LW 2145)) (Some (LW 23815));
    Cell ([2082; 16947; 23815; 16663], [23878; 2144; 23942; 10860; 10859; 10858; 23816]) (Some (LW 2144)) (Some (LW 23816));
    Cell ([2081; 16948; 23816; 16663], [23879; 2143; 23943; 10857; 10856; 10855; 23817]) (Some (LW 2143)) (Some (LW 23817));
    Cell ([2080; 16949; 23817; 16663], [23880; 2142; 23944; 10854; 10853; 10852; 23818]) (Some (LW 2142)) (Some (LW 23818));
    Cell ([2079; 16950; 23818; 16663], [23881; 2141; 23945; 10851; 10850; 10849; 23819]) (Some (LW 2141)) (Some (LW 23819));
    Cell ([2078; 16951; 23819; 16663], [23882; 2140; 23946; 10848; 10847; 10846; 23820]) (Some (LW 2140)) (Some (LW 23820));
    Cell ([2077; 16952; 23820; 16663], [23883; 2139; 23947; 10845; 10844; 10843; 23821]) (Some (LW 2139)) (Some (LW 23821));
    Cell ([2076; 16953; 23821; 16663], [23884; 2138; 23948; 10842; 10841; 10840; 23822]) (Some (LW 2138)) (Some (LW 23822));
    Cell ([2075; 16954; 23822; 16663], [23885; 2137; 23949; 10839; 10838; 10837; 23823]) (Some (LW 2137)) (Some (LW 23823));
    Cell ([2074; 16955; 23823; 16663], [23886; 2136; 23950; 10836; 10835; 10834; 23824]) (Some (LW 2136)) (Some (LW 23824));
    Cell ([2073; 16956; 23824; 16663], [23887; 2135; 23951; 10833; 10832; 10831; 23825]) (Some (LW 2135)) (Some (LW 23825));
    Cell ([2072; 16957; 23825; 16663], [23888; 2134; 23952; 10830; 10829; 10828; 23826]) (Some (LW 2134)) (Some (LW 23826));
    Cell ([2071; 16958; 23826; 16663], [23889; 2133; 23953; 10827; 10826; 10825; 23827]) (Some (LW 2133)) (Some (LW 23827));
    Cell ([2070; 16959; 23827; 16663], [23890; 2132; 23954; 10824; 10823; 10822; 23828]) (Some (LW 2132)) (Some (LW 23828));
    Cell ([2069; 16960; 23828; 16663], [23891; 2131; 23955; 10821; 10820; 10819; 23829]) (Some (LW 2131)) (Some (LW 23829));
    Cell ([2068; 16961; 23829; 16663], [23892; 2130; 23956; 10818; 10817; 10816; 23830]) (Some (LW 2130)) (Some (LW 23830));
    Cell ([2067; 16962; 23830; 16663], [23893; 2129; 23957; 10815; 10814; 10813; 23831]) (Some (LW 2129)) (Some (LW 23831));
    Cell ([2066; 16963; 23831; 16663], [23894; 2128; 23958; 10812; 10811; 10810; 23832]) (Some (LW 2128)) (Some (LW 23832));
    Cell ([2065; 16964; 23832; 16663], [23895; 2127; 23959; 10809; 10808; 10807; 23833]) (Some (LW 2127)) (Some (LW 23833));
    Cell ([2064; 16965; 23833; 16663], [23896; 2126; 23960; 10806; 10805; 10804; 23834]) (Some (LW 2126)) (Some (LW 23834));
    Cell ([2063; 16966; 23834; 16663], [23897; 2125; 23961; 10803; 10802; 10801; 23835]) (Some (LW 2125)) (Some (LW 23835));
    Cell ([2062; 16967; 23835; 16663], [23898; 2124; 23962; 10800; 10799; 10798; 23836]) (Some (LW 2124)) (Some (LW 23836));
    Cell ([2061; 16968; 23836; 16663], [23899; 2123; 23963; 10797; 10796; 10795; 23837]) (Some (LW 2123)) (Some (LW 23837));
    Cell ([2060; 16969; 23837; 16663], [23900; 2122; 23964; 10794; 10793; 10792; 23838]) (Some (LW 2122)) (Some (LW 23838));
    Cell ([2059; 16970; 23838; 16663], [23901; 2121; 23965; 10791; 10790; 10789; 23839]) (Some (LW 2121)) (Some (LW 23839));
    Cell ([2058; 16971; 23839; 16663], [23902; 2120; 23966; 10788; 10787; 10786; 23840]) (Some (LW 2120)) (Some (LW 23840));
    Cell ([2057; 16972; 23840; 16663], [23903; 2119; 23967; 10785; 10784; 10783; 23841]) (Some (LW 2119)) (Some (LW 23841));
    Cell ([2056; 16973; 23841; 16663], [23904; 2118; 23968; 10782; 10781; 10780; 23842]) (Some (LW 2118)) (Some (LW 23842));
    Cell ([2055; 16974; 23842; 16663], [23905; 2117; 23969; 10779; 10778; 10777; 23843]) (Some (LW 2117)) (Some (LW 23843));
    Cell ([2054; 16975; 23843; 16663], [23906; 2116; 23970; 10776; 10775; 10774; 23844]) (Some (LW 2116)) (Some (LW 23844));
    Cell ([2053; 16976; 23844; 16663], [23907; 2115; 23971; 10773; 10772; 10771; 23845]) (Some (LW 2115)) (Some (LW 23845));
    Cell ([2052; 16977; 23845; 16663], [23908; 2114; 23972; 10770; 10769; 10768; 23846]) (Some (LW 2114)) (Some (LW 23846));
    Cell ([2051; 16978; 23846; 16663], [23909; 2113; 23973; 10767; 10766; 10765; 23847]) (Some (LW 2113)) (Some (LW 23847));
    Cell ([2050; 16979; 23847; 16663], [23910; 2112; 23974; 10764; 10763; 10762; 23848]) (Some (LW 2112)) (Some (LW 23848));
    Cell ([2049; 16980; 23848; 16663], [23911; 2111; 23975; 10761; 10760; 10759; 23849]) (Some (LW 2111)) (Some (LW 23849));
    Cell ([2048; 16981; 23849; 16663], [23912; 2110; 23976; 10758; 10757; 10756; 23850]) (Some (LW 2110)) (Some (LW 23850));
    Cell ([2047; 16982; 23850; 16663], [23913; 2109; 23977; 10755; 10754; 10753; 23851]) (Some (LW 2109)) (Some (LW 23851));
    Cell ([2046; 16983; 23851; 16663], [23914; 2108; 23978; 10752; 10751; 10750; 23852]) (Some (LW 2108)) (Some (LW 23852));
    Cell ([2045; 16984; 23852; 16663], [23915; 2107; 23979; 10749; 10748; 10747; 23853]) (Some (LW 2107)) (Some (LW 23853));
    Cell ([2044; 16985; 23853; 16663], [23916; 2106; 23980; 10746; 10745; 10744; 23854]) (Some (LW 2106)) (Some (LW 23854));
    Cell ([2043; 16986; 23854; 16663], [23917; 2105; 23981; 10743; 10742; 10741; 23855]) (Some (LW 2105)) (Some (LW 23855));
    Cell ([2042; 16987; 23855; 16663], [23918; 2104; 23982; 10740; 10739; 10738; 23856]) (Some (LW 2104)) (Some (LW 23856));
    Cell ([2041; 16988; 23856; 16663], [23919; 2103; 23983; 10737; 10736; 10735; 23857]) (Some (LW 2103)) (Some (LW 23857));
    Cell ([2040; 16989; 23857; 16663], [23920; 2102; 23984; 10734; 10733; 10732; 23858]) (Some (LW 2102)) (Some (LW 23858));
    Cell ([2039; 16990; 23858; 16663], [23921; 2101; 23985; 10731; 10730; 10729; 23859]) (Some (LW 2101)) (Some (LW 23859));
    Cell ([2038; 16991; 23859; 16663], [23922; 2100; 23986; 10728; 10727; 10726; 23860]) (Some (LW 2100)) (Some (LW 23860));
    Cell ([2037; 16992; 23860; 16663], [23923; 2099; 23987; 10725; 10724; 10723; 23861]) (Some (LW 2099)) (Some (LW 23861));
    Cell ([2036; 16993; 23861; 16663], [23924; 2098; 23988; 10722; 10721; 10720; 23862]) (Some (LW 2098)) (Some (LW 23862));
    Cell ([2035; 16994; 23862; 16663], [23925; 2097; 23989; 10719; 10718; 10717; 23863]) (Some (LW 2097)) (Some (LW 23863));
    Cell ([2034; 16995; 23863; 16663], [23926; 2096; 23990; 10716; 10715; 10714; 23864]) (Some (LW 2096)) (Some (LW 23864));
    Cell ([2033; 16996; 23864; 16663], [23927; 2095; 23991; 10713; 10712; 10711; 23865]) (Some (LW 2095)) (Some (LW 23865));
    Cell ([2032; 16997; 23865; 16663], [23928; 2094; 23992; 10710; 10709; 10708; 23866]) (Some (LW 2094)) (Some (LW 23866));
    Cell ([2031; 16998; 23866; 16663], [23929; 2093; 23993; 10707; 10706; 10705; 23867]) (Some (LW 2093)) (Some (LW 23867));
    Cell ([2030; 16999; 23867; 16663], [23930; 2092; 23994; 10704; 10703; 10702; 23868]) (Some (LW 2092)) (Some (LW 23868));
    Cell ([2029; 17000; 23868; 16663], [23931; 2091; 23995; 10701; 10700; 10699; 23869]) (Some (LW 2091)) (Some (LW 23869));
    Cell ([2028; 17001; 23869; 16663], [23932; 2090; 23996; 10698; 10697; 10696; 23870]) (Some (LW 2090)) (Some (LW 23870));
    Cell ([2027; 17002; 23870; 16663], [23933; 2089; 23997; 10695; 10694; 10693; 23871]) (Some (LW 2089)) (Some (LW 23871));
    Cell ([2026; 17003; 23871; 16663], [23934; 2088; 23998; 10692; 10691; 10690; 23872]) (Some (LW 2088)) (Some (LW 23872));
    Cell ([2025; 17004; 23872; 16663], [23935; 2087; 23999; 10689; 10688; 10687; 23873]) (Some (LW 2087)) (Some (LW 23873));
    Cell ([2024; 17005; 23873; 16663], [23936; 2086; 24000; 10686; 10685; 10684; 23874]) (Some (LW 2086)) (Some (LW 23874));
    Cell ([2023; 17006; 23874; 16663], [23937; 2085; 24001; 10683; 10682; 10681; 23875]) (Some (LW 2085)) (Some (LW 23875));
    Cell ([2022; 17007; 23875; 16663], [23938; 2084; 24002; 10680; 10679; 10678; 23876]) (Some (LW 2084)) (Some (LW 23876));
    Cell ([2021; 17008; 23876; 16663], [23939; 2083; 24003; 10677; 10676; 10675; 23877]) (Some (LW 2083)) (Some (LW 23877));
    Cell ([2020; 17009; 23877; 16663], [23940; 160]) (Some (LW 160)) (None)]
   160 16662.
Definition divide64_row_31 : srow := SRow
   [Cell ([16851; 16946; 16662], [2208; 23752; 23626]) (Some (LW 2208)) (Some (LW 23626));
    Cell ([2145; 16947; 23626; 16662], [23689; 2207; 23753; 10674; 10673; 10672; 23627]) (Some (LW 2207)) (Some (LW 23627));
    Cell ([2144; 16948; 23627; 16662], [23690; 2206; 23754; 10671; 10670; 10669; 23628]) (Some (LW 2206)) (Some (LW 23628));
    Cell ([2143; 16949; 23628; 16662], [23691; 2205; 23755; 10668; 10667; 10666; 23629]) (Some (LW 2205)) (Some (LW 23629));
    Cell ([2142; 16950; 23629; 16662], [23692; 2204; 23756; 10665; 10664; 10663; 23630]) (Some (LW 2204)) (Some (LW 23630));
    Cell ([2141; 16951; 23630; 16662], [23693; 2203; 23757; 10662; 10661; 10660; 23631]) (Some (LW 2203)) (Some (LW 23631));
    Cell ([2140; 16952; 23631; 16662], [23694; 2202; 23758; 10659; 10658; 10657; 23632]) (Some (LW 2202)) (Some (LW 23632));
    Cell ([2139; 16953; 23632; 16662], [23695; 2201; 23759; 10656; 10655; 10654; 23633]) (Some (LW 2201)) (Some (LW 23633));
    Cell ([2138; 16954; 23633; 16662], [23696; 2200; 23760; 10653; 10652; 10651; 23634]) (Some (LW 2200)) (Some (LW 23634));
    Cell ([2137; 16955; 23634; 16662], [23697; 2199; 23761; 10650; 10649; 10648; 23635]) (Some (LW 2199)) (Some (LW 23635));
    Cell ([2136; 16956; 23635; 16662], [23698; 2198; 23762; 10647; 10646; 10645; 23636]) (Some (LW 2198)) (Some (LW 23636));
    Cell ([2135; 16957; 23636; 16662], [23699; 2197; 23763; 10644; 10643; 10642; 23637]) (Some (LW 2197)) (Some (LW 23637));
    Cell ([2134; 16958; 23637; 16662], [23700; 2196; 23764; 10641; 10640; 10639; 23638]) (Some (LW 2196)) (Some (LW 23638));
    Cell ([2133; 16959; 23638; 16662], [23701; 2195; 23765; 10638; 10637; 10636; 23639]) (Some (LW 2195)) (Some (LW 23639));
    Cell ([2132; 16960; 23639; 16662], [23702; 2194; 23766; 10635; 10634; 10633; 23640]) (Some (LW 2194)) (Some (LW 23640));
    Cell ([2131; 16961; 23640; 16662], [23703; 2193; 23767; 10632; 10631; 10630; 23641]) (Some (LW 2193)) (Some (LW 23641));
    Cell ([2130; 16962; 23641; 16662], [23704; 2192; 23768; 10629; 10628; 10627; 23642]) (Some (LW 2192)) (Some (LW 23642));
    Cell ([2129; 16963; 23642; 16662], [23705; 2191; 23769; 10626; 10625; 10624; 23643]) (Some (LW 2191)) (Some (LW 23643));
    Cell ([2128; 16964; 23643; 16662], [23706; 2190; 23770; 10623; 10622; 10621; 23644]) (Some (LW 2190)) (Some (LW 23644));
    Cell ([2127; 16965; 23644; 16662], [23707; 2189; 23771; 10620; 10619; 10618; 23645]) (Some (LW 2189)) (Some (LW 23645));
    Cell ([2126; 16966; 23645; 16662], [23708; 2188; 23772; 10617; 10616; 10615; 23646]) (Some (LW 2188)) (Some (LW 23646));
    Cell ([2125; 16967; 23646; 16662], [23709; 2187; 23773; 10614; 10613; 10612; 23647]) (Some (LW 2187)) (Some (LW 23647));
    Cell ([2124; 16968; 23647; 16662], [23710; 2186; 23774; 10611; 10610; 10609; 23648]) (Some (LW 2186)) (Some (LW 23648));
    Cell ([2123; 16969; 23648; 16662], [23711; 2185; 23775; 10608; 10607; 10606; 23649]) (Some (LW 2185)) (Some (LW 23649));
    Cell ([2122; 16970; 23649; 16662], [23712; 2184; 23776; 10605; 10604; 10603; 23650]) (Some (LW 2184)) (Some (LW 23650));
    Cell ([2121; 16971; 23650; 16662], [23713; 2183; 23777; 10602; 10601; 10600; 23651]) (Some (LW 2183)) (Some (LW 23651));
    Cell ([2120; 16972; 23651; 16662], [23714; 2182; 23778; 10599; 10598; 10597; 23652]) (Some (LW 2182)) (Some (LW 23652));
    Cell ([2119; 16973; 23652; 16662], [23715; 2181; 23779; 10596; 10595; 10594; 23653]) (Some (LW 2181)) (Some (LW 23653));
    Cell ([2118; 16974; 23653; 16662], [23716; 2180; 23780; 10593; 10592; 10591; 23654]) (Some (LW 2180)) (Some (LW 23654));
    Cell ([2117; 16975; 23654; 16662], [23717; 2179; 23781; 10590; 10589; 10588; 23655]) (Some (LW 2179)) (Some (LW 23655));
    Cell ([2116; 16976; 23655; 16662], [23718; 2178; 23782; 10587; 10586; 10585; 23656]) (Some (LW 2178)) (Some (LW 23656));
    Cell ([2115; 16977; 23656; 16662], [23719; 2177; 23783; 10584; 10583; 10582; 23657]) (Some (LW 2177)) (Some (LW 23657));
    Cell ([2114; 16978; 23657; 16662], [23720; 2176; 23784; 10581; 10580; 10579; 23658]) (Some (LW 2176)) (Some (LW 23658));
    Cell ([2113; 16979; 23658; 16662], [23721; 2175; 23785; 10578; 10577; 10576; 23659]) (Some (LW 2175)) (Some (LW 23659));
    Cell ([2112; 16980; 23659; 16662], [23722; 2174; 23786; 10575; 10574; 10573; 23660]) (Some (LW 2174)) (Some (LW 23660));
    Cell ([2111; 16981; 23660; 16662], [23723; 2173; 23787; 10572; 10571; 10570; 23661]) (Some (LW 2173)) (Some (LW 23661));
    Cell ([2110; 16982; 23661; 16662], [23724; 2172; 23788; 10569; 10568; 10567; 23662]) (Some (LW 2172)) (Some (LW 23662));
    Cell ([2109; 16983; 23662; 16662], [23725; 2171; 23789; 10566; 10565; 10564; 23663]) (Some (LW 2171)) (Some (LW 23663));
    Cell ([2108; 16984; 23663; 16662], [23726; 2170; 23790; 10563; 10562; 10561; 23664]) (Some (LW 2170)) (Some (LW 23664));
    Cell ([2107; 16985; 23664; 16662], [23727; 2169; 23791; 10560; 10559; 10558; 23665]) (Some (LW 2169)) (Some (LW 23665));
    Cell ([2106; 16986; 23665; 16662], [23728; 2168; 23792; 10557; 10556; 10555; 23666]) (Some (LW 2168)) (Some (LW 23666));
    Cell ([2105; 16987; 23666; 16662], [23729; 2167; 23793; 10554; 10553; 10552; 23667]) (Some (LW 2167)) (Some (LW 23667));
    Cell ([2104; 16988; 23667; 16662], [23730; 2166; 23794; 10551; 10550; 10549; 23668]) (Some (LW 2166)) (Some (LW 23668));
    Cell ([2103; 16989; 23668; 16662], [23731; 2165; 23795; 10548; 10547; 10546; 23669]) (Some (LW 2165)) (Some (LW 23669));
    Cell ([2102; 16990; 23669; 16662], [23732; 2164; 23796; 10545; 10544; 10543; 23670]) (Some (LW 2164)) (Some (LW 23670));
    Cell ([2101; 16991; 23670; 16662], [23733; 2163; 23797; 10542; 10541; 10540; 23671]) (Some (LW 2163)) (Some (LW 23671));
    Cell ([2100; 16992; 23671; 16662], [23734; 2162; 23798; 10539; 10538; 10537; 23672]) (Some (LW 2162)) (Some (LW 23672));
    Cell ([2099; 16993; 23672; 16662], [23735; 2161; 23799; 10536; 10535; 10534; 23673]) (Some (LW 2161)) (Some (LW 23673));
    Cell ([2098; 16994; 23673; 16662], [23736; 2160; 23800; 10533; 10532; 10531; 23674]) (Some (LW 2160)) (Some (LW 23674));
    Cell ([2097; 16995; 23674; 16662], [23737; 2159; 23801; 10530; 10529; 10528; 23675]) (Some (LW 2159)) (Some (LW 23675));
    Cell ([2096; 16996; 23675; 16662], [23738; 2158; 23802; 10527; 10526; 10525; 23676]) (Some (LW 2158)) (Some (LW 23676));
    Cell ([2095; 16997; 23676; 16662], [23739; 2157; 23803; 10524; 10523; 10522; 23677]) (Some (LW 2157)) (Some (LW 23677));
    Cell ([2094; 16998; 23677; 16662], [23740; 2156; 23804; 10521; 10520; 10519; 23678]) (Some (LW 2156)) (Some (LW 23678));
    Cell ([2093; 16999; 23678; 16662], [23741; 2155; 23805; 10518; 10517; 10516; 23679]) (Some (LW 2155)) (Some (LW 23679));
    Cell ([2092; 17000; 23679; 16662], [23742; 2154; 23806; 10515; 10514; 10513; 23680]) (Some (LW 2154)) (Some (LW 23680));
    Cell ([2091; 17001; 23680; 16662], [23743; 2153; 23807; 10512; 10511; 10510; 23681]) (Some (LW 2153)) (Some (LW 23681));
    Cell ([2090; 17002; 23681; 16662], [23744; 2152; 23808; 10509; 10508; 10507; 23682]) (Some (LW 2152)) (Some (LW 23682));
    Cell ([2089; 17003; 23682; 16662], [23745; 2151; 23809; 10506; 10505; 10504; 23683]) (Some (LW 2151)) (Some (LW 23683));
    Cell ([2088; 17004; 23683; 16662], [23746; 2150; 23810; 10503; 10502; 10501; 23684]) (Some (LW 2150)) (Some (LW 23684));
    Cell ([2087; 17005; 23684; 16662], [23747; 2149; 23811; 10500; 10499; 10498; 23685]) (Some (LW 2149)) (Some (LW 23685));
    Cell ([2086; 17006; 23685; 16662], [23748; 2148; 23812; 10497; 10496; 10495; 23686]) (Some (LW 2148)) (Some (LW 23686));
    Cell ([2085; 17007; 23686; 16662], [23749; 2147; 23813; 10494; 10493; 10492; 23687]) (Some (LW 2147)) (Some (LW 23687));
    Cell ([2084; 17008; 23687; 16662], [23750; 2146; 23814; 10491; 10490; 10489; 23688]) (Some (LW 2146)) (Some (LW 23688));
    Cell ([2083; 17009; 23688; 16662], [23751; 161]) (Some (LW 161)) (None)]
   161 16661.
Definition divide64_row_32 : srow := SRow
   [Cell ([16850; 16946; 16661], [2271; 23563; 23437]) (Some (LW 2271)) (Some (LW 23437));
    Cell ([2208; 16947; 23437; 16661], [23500; 2270; 23564; 10488; 10487; 10486; 23438]) (Some (LW 2270)) (Some (LW 23438));
    Cell ([2207; 16948; 23438; 16661], [23501; 2269; 23565; 10485; 10484; 10483; 23439]) (Some (LW 2269)) (Some (LW 23439));
    Cell ([2206; 16949; 23439; 16661], [23502; 2268; 23566; 10482; 10481; 10480; 23440]) (Some (LW 2268)) (Some (LW 23440));
    Cell ([2205; 16950; 23440; 16661], [23503; 2267; 23567; 10479; 10478; 10477; 23441]) (Some (LW 2267)) (Some (LW 23441));
    Cell ([2204; 16951; 23441; 16661], [23504; 2266; 23568; 10476; 10475; 10474; 23442]) (Some (LW 2266)) (Some (LW 23442));
    Cell ([2203; 16952; 23442; 16661], [23505; 2265; 23569; 10473; 10472; 10471; 23443]) (Some (LW 2265)) (Some (LW 23443));
    Cell ([2202; 16953; 23443; 16661], [23506; 2264; 23570; 10470; 10469; 10468; 23444]) (Some (LW 2264)) (Some (LW 23444));
    Cell ([2201; 16954; 23444; 16661], [23507; 2263; 23571; 10467; 10466; 10465; 23445]) (Some (LW 2263)) (Some (LW 23445));
    Cell ([2200; 16955; 23445; 16661], [23508; 2262; 23572; 10464; 10463; 10462; 23446]) (Some (LW 2262)) (Some (LW 23446));
    Cell ([2199; 16956; 23446; 16661], [23509; 2261; 23573; 10461; 10460; 10459; 23447]) (Some (LW 2261)) (Some (LW 23447));
    Cell ([2198; 16957; 23447; 16661], [23510; 2260; 23574; 10458; 10457; 10456; 23448]) (Some (LW 2260)) (Some (LW 23448));
    Cell ([2197; 16958; 23448; 16661], [23511; 2259; 23575; 10455; 10454; 10453; 23449]) (Some (LW 2259)) (Some (LW 23449));
    Cell ([2196; 16959; 23449; 16661], [23512; 2258; 23576; 10452; 10451; 10450; 23450]) (Some (LW 2258)) (Some (LW 23450));
    Cell ([2195; 16960; 23450; 16661], [23513; 2257; 23577; 10449; 10448; 10447; 23451]) (Some (LW 2257)) (Some (LW 23451));
    Cell ([2194; 16961; 23451; 16661], [23514; 2256; 23578; 10446; 10445; 10444; 23452]) (Some (LW 2256)) (Some (LW 23452));
    Cell ([2193; 16962; 23452; 16661], [23515; 2255; 23579; 10443; 10442; 10441; 23453]) (Some (LW 2255)) (Some (LW 23453));
    Cell ([2192; 16963; 23453; 16661], [23516; 2254; 23580; 10440; 10439; 10438; 23454]) (Some (LW 2254)) (Some (LW 23454));
    Cell ([2191; 16964; 23454; 16661], [23517; 2253; 23581; 10437; 10436; 10435; 23455]) (Some (LW 2253)) (Some (LW 23455));
    Cell ([2190; 16965; 23455; 16661], [23518; 2252; 23582; 10434; 10433; 10432; 23456]) (Some (LW 2252)) (Some (LW 23456));
    Cell ([2189; 16966; 23456; 16661], [23519; 2251; 23583; 10431; 10430; 10429; 23457]) (Some (LW 2251)) (Some (LW 23457));
    Cell ([2188; 16967; 23457; 16661], [23520; 2250; 23584; 10428; 10427; 10426; 23458]) (Some (LW 2250)) (Some (LW 23458));
    Cell ([2187; 16968; 23458; 16661], [23521; 2249; 23585; 10425; 10424; 10423; 23459]) (Some (LW 2249)) (Some (LW 23459));
    Cell ([2186; 16969; 23459; 16661], [23522; 2248; 23586; 10422; 10421; 10420; 23460]) (Some (LW 2248)) (Some (LW 23460));
    Cell ([2185; 16970; 23460; 16661], [23523; 2247; 23587; 10419; 10418; 10417; 23461]) (Some (LW 2247)) (Some (LW 23461));
    Cell ([2184; 16971; 23461; 16661], [23524; 2246; 23588; 10416; 10415; 10414; 23462]) (Some (LW 2246)) (Some (LW 23462));
    Cell ([2183; 16972; 23462; 16661], [23525; 2245; 23589; 10413; 10412; 10411; 23463]) (Some (LW 2245)) (Some (LW 23463));
    Cell ([2182; 16973; 23463; 16661], [23526; 2244; 23590; 10410; 10409; 10408; 23464]) (Some (LW 2244)) (Some (LW 23464));
    Cell ([2181; 16974; 23464; 16661], [23527; 2243; 23591; 10407; 10406; 10405; 23465]) (Some (LW 2243)) (Some (LW 23465));
    Cell ([2180; 16975; 23465; 16661], [23528; 2242; 23592; 10404; 10403; 10402; 23466]) (Some (LW 2242)) (Some (LW 23466));
    Cell ([2179; 16976; 23466; 16661], [23529; 2241; 23593; 10401; 10400; 10399; 23467]) (Some (LW 2241)) (Some (LW 23467));
    Cell ([2178; 16977; 23467; 16661], [23530; 2240; 23594; 10398; 10397; 10396; 23468]) (Some (LW 2240)) (Some (LW 23468));
    Cell ([2177; 16978; 23468; 16661], [23531; 2239; 23595; 10395; 10394; 10393; 23469]) (Some (LW 2239)) (Some (LW 23469));
    Cell ([2176; 16979; 23469; 16661], [23532; 2238; 23596; 10392; 10391; 10390; 23470]) (Some (LW 2238)) (Some (LW 23470));
    Cell ([2175; 16980; 23470; 16661], [23533; 2237; 23597; 10389; 10388; 10387; 23471]) (Some (LW 2237)) (Some (LW 23471));
    Cell ([2174; 16981; 23471; 16661], [23534; 2236; 23598; 10386; 10385; 10384; 23472]) (Some (LW 2236)) (Some (LW 23472));
    Cell ([2173; 16982; 23472; 16661], [23535; 2235; 23599; 10383; 10382; 10381; 23473]) (Some (LW 2235)) (Some (LW 23473));
    Cell ([2172; 16983; 23473; 16661], [23536; 2234; 23600; 10380; 10379; 10378; 23474]) (Some (LW 2234)) (Some (LW 23474));
    Cell ([2171; 16984; 23474; 16661], [23537; 2233; 23601; 10377; 10376; 10375; 23475]) (Some (LW 2233)) (Some (LW 23475));
    Cell ([2170; 16985; 23475; 16661], [23538; 2232; 23602; 10374; 10373; 10372; 23476]) (Some (LW 2232)) (Some (LW 23476));
    Cell ([2169; 16986; 23476; 16661], [23539; 2231; 23603; 10371; 10370; 10369; 23477]) (Some (LW 2231)) (Some (LW 23477));
    Cell ([2168; 16987; 23477; 16661], [23540; 2230; 23604; 10368; 10367; 10366; 23478]) (Some (LW 2230)) (Some (LW 23478));
    Cell ([2167; 16988; 23478; 16661], [23541; 2229; 23605; 10365; 10364; 10363; 23479]) (Some (LW 2229)) (Some (LW 23479));
    Cell ([2166; 16989; 23479; 16661], [23542; 2228; 23606; 10362; 10361; 10360; 23480]) (Some (LW 2228)) (Some (LW 23480));
    Cell ([2165; 16990; 23480; 16661], [23543; 2227; 23607; 10359; 10358; 10357; 23481]) (Some (LW 2227)) (Some (LW 23481));
    Cell ([2164; 16991; 23481; 16661], [23544; 2226; 23608; 10356; 10355; 10354; 23482]) (Some (LW 2226)) (Some (LW 23482));
    Cell ([2163; 16992; 23482; 16661], [23545; 2225; 23609; 10353; 10352; 10351; 23483]) (Some (LW 2225)) (Some (LW 23483));
    Cell ([2162; 16993; 23483; 16661], [23546; 2224; 23610; 10350; 10349; 10348; 23484]) (Some (LW 2224)) (Some (LW 23484));
    Cell ([2161; 16994; 23484; 16661], [23547; 2223; 23611; 10347; 10346; 10345; 23485]) (Some (LW 2223)) (Some (LW 23485));
    Cell ([2160; 16995; 23485; 16661], [23548; 2222; 23612; 10344; 10343; 10342; 23486]) (Some (LW 2222)) (Some (LW 23486));
    Cell ([2159; 16996; 23486; 16661], [23549; 2221; 23613; 10341; 10340; 10339; 23487]) (Some (LW 2221)) (Some (LW 23487));
    Cell ([2158; 16997; 23487; 16661], [23550; 2220; 23614; 10338; 10337; 10336; 23488]) (Some (LW 2220)) (Some (LW 23488));
    Cell ([2157; 16998; 23488; 16661], [23551; 2219; 23615; 10335; 10334; 10333; 23489]) (Some (LW 2219)) (Some (LW 23489));
    Cell ([2156; 16999; 23489; 16661], [23552; 2218; 23616; 10332; 10331; 10330; 23490]) (Some (LW 2218)) (Some (LW 23490));
    Cell ([2155; 17000; 23490; 16661], [23553; 2217; 23617; 10329; 10328; 10327; 23491]) (Some (LW 2217)) (Some (LW 23491));
    Cell ([2154; 17001; 23491; 16661], [23554; 2216; 23618; 10326; 10325; 10324; 23492]) (Some (LW 2216)) (Some (LW 23492));
    Cell ([2153; 17002; 23492; 16661], [23555; 2215; 23619; 10323; 10322; 10321; 23493]) (Some (LW 2215)) (Some (LW 23493));
    Cell ([2152; 17003; 23493; 16661], [23556; 2214; 23620; 10320; 10319; 10318; 23494]) (Some (LW 2214)) (Some (LW 23494));
    Cell ([2151; 17004; 23494; 16661], [23557; 2213; 23621; 10317; 10316; 10315; 23495]) (Some (LW 2213)) (Some (LW 23495));
    Cell ([2150; 17005; 23495; 16661], [23558; 2212; 23622; 10314; 10313; 10312; 23496]) (Some (LW 2212)) (Some (LW 23496));
    Cell ([2149; 17006; 23496; 16661], [23559; 2211; 23623; 10311; 10310; 10309; 23497]) (Some (LW 2211)) (Some (LW 23497));
    Cell ([2148; 17007; 23497; 16661], [23560; 2210; 23624; 10308; 10307; 10306; 23498]) (Some (LW 2210)) (Some (LW 23498));
    Cell ([2147; 17008; 23498; 16661], [23561; 2209; 23625; 10305; 10304; 10303; 23499]) (Some (LW 2209)) (Some (LW 23499));
    Cell ([2146; 17009; 23499; 16661], [23562; 162]) (Some (LW 162)) (None)]
   162 16660.
Definition divide64_row_33 : srow := SRow
   [Cell ([16849; 16946; 16660], [2334; 23374; 23248]) (Some (LW 2334)) (Some (LW 23248));
    Cell ([2271; 16947; 23248; 16660], [23311; 2333; 23375; 10302; 10301; 10300; 23249]) (Some (LW 2333)) (Some (LW 23249));
    Cell ([2270; 16948; 23249; 16660], [23312; 2332; 23376; 10299; 10298; 10297; 23250]) (Some (LW 2332)) (Some (LW 23250));
    Cell ([2269; 16949; 23250; 16660], [23313; 2331; 23377; 10296; 10295; 10294; 23251]) (Some (LW 2331)) (Some (LW 23251));
    Cell ([2268; 16950; 23251; 16660], [23314; 2330; 23378; 10293; 10292; 10291; 23252]) (Some (LW 2330)) (Some (LW 23252));
    Cell ([2267; 16951; 23252; 16660], [23315; 2329; 23379; 10290; 10289; 10288; 23253]) (Some (LW 2329)) (Some (LW 23253));
    Cell ([2266; 16952; 23253; 16660], [23316; 2328; 23380; 10287; 10286; 10285; 23254]) (Some (LW 2328)) (Some (LW 23254));
    Cell ([2265; 16953; 23254; 16660], [23317; 2327; 23381; 10284; 10283; 10282; 23255]) (Some (LW 2327)) (Some (LW 23255));
    Cell ([2264; 16954; 23255; 16660], [23318; 2326; 23382; 10281; 10280; 10279; 23256]) (Some (LW 2326)) (Some (LW 23256));
    Cell ([2263; 16955; 23256; 16660], [23319; 2325; 23383; 10278; 10277; 10276; 23257]) (Some (LW 2325)) (Some (LW 23257));
    Cell ([2262; 16956; 23257; 16660], [23320; 2324; 23384; 10275; 10274; 10273; 23258]) (Some (LW 2324)) (Some (LW 23258));
    Cell ([2261; 16957; 23258; 16660], [23321; 2323; 23385; 10272; 10271; 10270; 23259]) (Some (LW 2323)) (Some (LW 23259));
    Cell ([2260; 16958; 23259; 16660], [23322; 2322; 23386; 10269; 10268; 10267; 23260]) (Some (LW 2322)) (Some (LW 23260));
    Cell ([2259; 16959; 23260; 16660], [23323; 2321; 23387; 10266; 10265; 10264; 23261]) (Some (LW 2321)) (Some (LW 23261));
    Cell ([2258; 16960; 23261; 16660], [23324; 2320; 23388; 10263; 10262; 10261; 23262]) (Some (LW 2320)) (Some (LW 23262));
    Cell ([2257; 16961; 23262; 16660], [23325; 2319; 23389; 10260; 10259; 10258; 23263]) (Some (LW 2319)) (Some (LW 23263));
    Cell ([2256; 16962; 23263; 16660], [23326; 2318; 23390; 10257; 10256; 10255; 23264]) (Some (LW 2318)) (Some (LW 23264));
    Cell ([2255; 16963; 23264; 16660], [23327; 2317; 23391; 10254; 10253; 10252; 23265]) (Some (LW 2317)) (Some (LW 23265));
    Cell ([2254; 16964; 23265; 16660], [23328; 2316; 23392; 10251; 10250; 10249; 23266]) (Some (LW 2316)) (Some (LW 23266));
    Cell ([2253; 16965; 23266; 16660], [23329; 2315; 23393; 10248; 10247; 10246; 23267]) (Some (LW 2315)) (Some (LW 23267));
    Cell ([2252; 16966; 23267; 16660], [23330; 2314; 23394; 10245; 10244; 10243; 23268]) (Some (LW 2314)) (Some (LW 23268));
    Cell ([2251; 16967; 23268; 16660], [23331; 2313; 23395; 10242; 10241; 10240; 23269]) (Some (LW 2313)) (Some (LW 23269));
    Cell ([2250; 16968; 23269; 16660], [23332; 2312; 23396; 10239; 10238; 10237; 23270]) (Some (LW 2312)) (Some (LW 23270));
    Cell ([2249; 16969; 23270; 16660], [23333; 2311; 23397; 10236; 10235; 10234; 23271]) (Some (LW 2311)) (Some (LW 23271));
    Cell ([2248; 16970; 23271; 16660], [23334; 2310; 23398; 10233; 10232; 10231; 23272]) (Some (LW 2310)) (Some (LW 23272));
    Cell ([2247; 16971; 23272; 16660], [23335; 2309; 23399; 10230; 10229; 10228; 23273]) (Some (LW 2309)) (Some (LW 23273));
    Cell ([2246; 16972; 23273; 16660], [23336; 2308; 23400; 10227; 10226; 10225; 23274]) (Some (LW 2308)) (Some (LW 23274));
    Cell ([2245; 16973; 23274; 16660], [23337; 2307; 23401; 10224; 10223; 10222; 23275]) (Some (LW 2307)) (Some (LW 23275));
    Cell ([2244; 16974; 23275; 16660], [23338; 2306; 23402; 10221; 10220; 10219; 23276]) (Some (LW 2306)) (Some (LW 23276));
    Cell ([2243; 16975; 23276; 16660], [23339; 2305; 23403; 10218; 10217; 10216; 23277]) (Some (LW 2305)) (Some (LW 23277));
    Cell ([2242; 16976; 23277; 16660], [23340; 2304; 23404; 10215; 10214; 10213; 23278]) (Some (LW 2304)) (Some (LW 23278));
    Cell ([2241; 16977; 23278; 16660], [23341; 2303; 23405; 10212; 10211; 10210; 23279]) (Some (LW 2303)) (Some (LW 23279));
    Cell ([2240; 16978; 23279; 16660], [23342; 2302; 23406; 10209; 10208; 10207; 23280]) (Some (LW 2302)) (Some (LW 23280));
    Cell ([2239; 16979; 23280; 16660], [23343; 2301; 23407; 10206; 10205; 10204; 23281]) (Some (LW 2301)) (Some (LW 23281));
    Cell ([2238; 16980; 23281; 16660], [23344; 2300; 23408; 10203; 10202; 10201; 23282]) (Some (LW 2300)) (Some (LW 23282));
    Cell ([2237; 16981; 23282; 16660], [23345; 2299; 23409; 10200; 10199; 10198; 23283]) (Some (LW 2299)) (Some (LW 23283));
    Cell ([2236; 16982; 23283; 16660], [23346; 2298; 23410; 10197; 10196; 10195; 23284]) (Some (LW 2298)) (Some (LW 23284));
    Cell ([2235; 16983; 23284; 16660], [23347; 2297; 23411; 10194; 10193; 10192; 23285]) (Some (LW 2297)) (Some (LW 23285));
    Cell ([2234; 16984; 23285; 16660], [23348; 2296; 23412; 10191; 10190; 10189; 23286]) (Some (LW 2296)) (Some (LW 23286));
    Cell ([2233; 16985; 23286; 16660], [23349; 2295; 23413; 10188; 10187; 10186; 23287]) (Some (LW 2295)) (Some (LW 23287));
    Cell ([2232; 16986; 23287; 16660], [23350; 2294; 23414; 10185; 10184; 10183; 23288]) (Some (LW 2294)) (Some (LW 23288));
    Cell ([2231; 16987; 23288; 16660], [23351; 2293; 23415; 10182; 10181; 10180; 23289]) (Some (LW 2293)) (Some (LW 23289));
    Cell ([2230; 16988; 23289; 16660], [23352; 2292; 23416; 10179; 10178; 10177; 23290]) (Some (LW 2292)) (Some (LW 23290));
    Cell ([2229; 16989; 23290; 16660], [23353; 2291; 23417; 10176; 10175; 10174; 23291]) (Some (LW 2291)) (Some (LW 23291));
    Cell ([2228; 16990; 23291; 16660], [23354; 2290; 23418; 10173; 10172; 10171; 23292]) (Some (LW 2290)) (Some (LW 23292));
    Cell ([2227; 16991; 23292; 16660], [23355; 2289; 23419; 10170; 10169; 10168; 23293]) (Some (LW 2289)) (Some (LW 23293));
    Cell ([2226; 16992; 23293; 16660], [23356; 2288; 23420; 10167; 10166; 10165; 23294]) (Some (LW 2288)) (Some (LW 23294));
    Cell ([2225; 16993; 23294; 16660], [23357; 2287; 23421; 10164; 10163; 10162; 23295]) (Some (LW 2287)) (Some (LW 23295));
    Cell ([2224; 16994; 23295; 16660], [23358; 2286; 23422; 10161; 10160; 10159; 23296]) (Some (LW 2286)) (Some (LW 23296));
    Cell ([2223; 16995; 23296; 16660], [23359; 2285; 23423; 10158; 10157; 10156; 23297]) (Some (LW 2285)) (Some (LW 23297));
    Cell ([2222; 16996; 23297; 16660], [23360; 2284; 23424; 10155; 10154; 10153; 23298]) (Some (LW 2284)) (Some (LW 23298));
    Cell ([2221; 16997; 23298; 16660], [23361; 2283; 23425; 10152; 10151; 10150; 23299]) (Some (LW 2283)) (Some (LW 23299));
    Cell ([2220; 16998; 23299; 16660], [23362; 2282; 23426; 10149; 10148; 10147; 23300]) (Some (LW 2282)) (Some (LW 23300));
    Cell ([2219; 16999; 23300; 16660], [23363; 2281; 23427; 10146; 10145; 10144; 23301]) (Some (LW 2281)) (Some (LW 23301));
    Cell ([2218; 17000; 23301; 16660], [23364; 2280; 23428; 10143; 10142; 10141; 23302]) (Some (LW 2280)) (Some (LW 23302));
    Cell ([2217; 17001; 23302; 16660], [23365; 2279; 23429; 10140; 10139; 10138; 23303]) (Some (LW 2279)) (Some (LW 23303));
    Cell ([2216; 17002; 23303; 16660], [23366; 2278; 23430; 10137; 10136; 10135; 23304]) (Some (LW 2278)) (Some (LW 23304));
    Cell ([2215; 17003; 23304; 16660], [23367; 2277; 23431; 10134; 10133; 10132; 23305]) (Some (LW 2277)) (Some (LW 23305));
    Cell ([2214; 17004; 23305; 16660], [23368; 2276; 23432; 10131; 10130; 10129; 23306]) (Some (LW 2276)) (Some (LW 23306));
    Cell ([2213; 17005; 23306; 16660], [23369; 2275; 23433; 10128; 10127; 10126; 23307]) (Some (LW 2275)) (Some (LW 23307));
    Cell ([2212; 17006; 23307; 16660], [23370; 2274; 23434; 10125; 10124; 10123; 23308]) (Some (LW 2274)) (Some (LW 23308));
    Cell ([2211; 17007; 23308; 16660], [23371; 2273; 23435; 10122; 10121; 10120; 23309]) (Some (LW 2273)) (Some (LW 23309));
    Cell ([2210; 17008; 23309; 16660], [23372; 2272; 23436; 10119; 10118; 10117; 23310]) (Some (LW 2272)) (Some (LW 23310));
    Cell ([2209; 17009; 23310; 16660], [23373; 163]) (Some (LW 163)) (None)]
   163 16659.
Definition divide64_row_34 : srow := SRow
   [Cell ([16848; 16946; 16659], [2397; 23185; 23059]) (Some (LW 2397)) (Some (LW 23059));
    Cell ([2334; 16947; 23059; 16659], [23122; 2396; 23186; 10116; 10115; 10114; 23060]) (Some (LW 2396)) (Some (LW 23060));
    Cell ([2333; 16948; 23060; 16659], [23123; 2395; 23187; 10113; 10112; 10111; 23061]) (Some (LW 2395)) (Some (LW 23061));
    Cell ([2332; 16949; 23061; 16659], [23124; 2394; 23188; 10110; 10109; 10108; 23062]) (Some (LW 2394)) (Some (LW 23062));
    Cell ([2331; 16950; 23062; 16659], [23125; 2393; 23189; 10107; 10106; 10105; 23063]) (Some (LW 2393)) (Some (LW 23063));
    Cell ([2330; 16951; 23063; 16659], [23126; 2392; 23190; 10104; 10103; 10102; 23064]) (Some (LW 2392)) (Some (LW 23064));
    Cell ([2329; 16952; 23064; 16659], [23127; 2391; 23191; 10101; 10100; 10099; 23065]) (Some (LW 2391)) (Some (LW 23065));
    Cell ([2328; 16953; 23065; 16659], [23128; 2390; 23192; 10098; 10097; 10096; 23066]) (Some (LW 2390)) (Some (LW 23066));
    Cell ([2327; 16954; 23066; 16659], [23129; 2389; 23193; 10095; 10094; 10093; 23067]) (Some (LW 2389)) (Some (LW 23067));
    Cell ([2326; 16955; 23067; 16659], [23130; 2388; 23194; 10092; 10091; 10090; 23068]) (Some (LW 2388)) (Some (LW 23068));
    Cell ([2325; 16956; 23068; 16659], [23131; 2387; 23195; 10089; 10088; 10087; 23069]) (Some (LW 2387)) (Some (LW 23069));
    Cell ([2324; 16957; 23069; 16659], [23132; 2386; 23196; 10086; 10085; 10084; 23070]) (Some (LW 2386)) (Some (LW 23070));
    Cell ([2323; 16958; 23070; 16659], [23133; 2385; 23197; 10083; 10082; 10081; 23071]) (Some (LW 2385)) (Some (LW 23071));
    Cell ([2322; 16959; 23071; 16659], [23134; 2384; 23198; 10080; 10079; 10078; 23072]) (Some (LW 2384)) (Some (LW 23072));
    Cell ([2321; 16960; 23072; 16659], [23135; 2383; 23199; 10077; 10076; 10075; 23073]) (Some (LW 2383)) (Some (LW 23073));
    Cell ([2320; 16961; 23073; 16659], [23136; 2382; 23200; 10074; 10073; 10072; 23074]) (Some (LW 2382)) (Some (LW 23074));
    Cell ([2319; 16962; 23074; 16659], [23137; 2381; 23201; 10071; 10070; 10069; 23075]) (Some (LW 2381)) (Some (LW 23075));
    Cell ([2318; 16963; 23075; 16659], [23138; 2380; 23202; 10068; 10067; 10066; 23076]) (Some (LW 2380)) (Some (LW 23076));
    Cell ([2317; 16964; 23076; 16659], [23139; 2379; 23203; 10065; 10064; 10063; 23077]) (Some (LW 2379)) (Some (LW 23077));
    Cell ([2316; 16965; 23077; 16659], [23140; 2378; 23204; 10062; 10061; 10060; 23078]) (Some (LW 2378)) (Some (LW 23078));
    Cell ([2315; 16966; 23078; 16659], [23141; 2377; 23205; 10059; 10058; 10057; 23079]) (Some (LW 2377)) (Some (LW 23079));
    Cell ([2314; 16967; 23079; 16659], [23142; 2376; 23206; 10056; 10055; 10054; 23080]) (Some (LW 2376)) (Some (LW 23080));
    Cell ([2313; 16968; 23080; 16659], [23143; 2375; 23207; 10053; 10052; 10051; 23081]) (Some (LW 2375)) (Some (LW 23081));
    Cell ([2312; 16969; 23081; 16659], [23144; 2374; 23208; 10050; 10049; 10048; 23082]) (Some (LW 2374)) (Some (LW 23082));
    Cell ([2311; 16970; 23082; 16659], [23145; 2373; 23209; 10047; 10046; 10045; 23083]) (Some (LW 2373)) (Some (LW 23083));
    Cell ([2310; 16971; 23083; 16659], [23146; 2372; 23210; 10044; 10043; 10042; 23084]) (Some (LW 2372)) (Some (LW 23084));
    Cell ([2309; 16972; 23084; 16659], [23147; 2371; 23211; 10041; 10040; 10039; 23085]) (Some (LW 2371)) (Some (LW 23085));
    Cell ([2308; 16973; 23085; 16659], [23148; 2370; 23212; 10038; 10037; 10036; 23086]) (Some (LW 2370)) (Some (LW 23086));
    Cell ([2307; 16974; 23086; 16659], [23149; 2369; 23213; 10035; 10034; 10033; 23087]) (Some (LW 2369)) (Some (LW 23087));
    Cell ([2306; 16975; 23087; 16659], [23150; 2368; 23214; 10032; 10031; 10030; 23088]) (Some (LW 2368)) (Some (LW 23088));
    Cell ([2305; 16976; 23088; 16659], [23151; 2367; 23215; 10029; 10028; 10027; 23089]) (Some (LW 2367)) (Some (LW 23089));
    Cell ([2304; 16977; 23089; 16659], [23152; 2366; 23216; 10026; 10025; 10024; 23090]) (Some (LW 2366)) (Some (LW 23090));
    Cell ([2303; 16978; 23090; 16659], [23153; 2365; 23217; 10023; 10022; 10021; 23091]) (Some (LW 2365)) (Some (LW 23091));
    Cell ([2302; 16979; 23091; 16659], [23154; 2364; 23218; 10020; 10019; 10018; 23092]) (Some (LW 2364)) (Some (LW 23092));
    Cell ([2301; 16980; 23092; 16659], [23155; 2363; 23219; 10017; 10016; 10015; 23093]) (Some (LW 2363)) (Some (LW 23093));
    Cell ([2300; 16981; 23093; 16659], [23156; 2362; 23220; 10014; 10013; 10012; 23094]) (Some (LW 2362)) (Some (LW 23094));
    Cell ([2299; 16982; 23094; 16659], [23157; 2361; 23221; 10011; 10010; 10009; 23095]) (Some (LW 2361)) (Some (LW 23095));
    Cell ([2298; 16983; 23095; 16659], [23158; 2360; 23222; 10008; 10007; 10006; 23096]) (Some (LW 2360)) (Some (LW 23096));
    Cell ([2297; 16984; 23096; 16659], [23159; 2359; 23223; 10005; 10004; 10003; 23097]) (Some (LW 2359)) (Some (LW 23097));
    Cell ([2296; 16985; 23097; 16659], [23160; 2358; 23224; 10002; 10001; 10000; 23098]) (Some (LW 2358)) (Some (LW 23098));
    Cell ([2295; 16986; 23098; 16659], [23161; 2357; 23225; 9999; 9998; 9997; 23099]) (Some (LW 2357)) (Some (LW 23099));
    Cell ([2294; 16987; 23099; 16659], [23162; 2356; 23226; 9996; 9995; 9994; 23100]) (Some (LW 2356)) (Some (LW 23100));
    Cell ([2293; 16988; 23100; 16659], [23163; 2355; 23227; 9993; 9992; 9991; 23101]) (Some (LW 2355)) (Some (LW 23101));
    Cell ([2292; 16989; 23101; 16659], [23164; 2354; 23228; 9990; 9989; 9988; 23102]) (Some (LW 2354)) (Some (LW 23102));
    Cell ([2291; 16990; 23102; 16659], [23165; 2353; 23229; 9987; 9986; 9985; 23103]) (Some (LW 2353)) (Some (LW 23103));
    Cell ([2290; 16991; 23103; 16659], [23166; 2352; 23230; 9984; 9983; 9982; 23104]) (Some (LW 2352)) (Some (LW 23104));
    Cell ([2289; 16992; 23104; 16659], [23167; 2351; 23231; 9981; 9980; 9979; 23105]) (Some (LW 2351)) (Some (LW 23105));
    Cell ([2288; 16993; 23105; 16659], [23168; 2350; 23232; 9978; 9977; 9976; 23106]) (Some (LW 2350)) (Some (LW 23106));
    Cell ([2287; 16994; 23106; 16659], [23169; 2349; 23233; 9975; 9974; 9973; 23107]) (Some (LW 2349)) (Some (LW 23107));
    Cell ([2286; 16995; 23107; 16659], [23170; 2348; 23234; 9972; 9971; 9970; 23108]) (Some (LW 2348)) (Some (LW 23108));
    Cell ([2285; 16996; 23108; 16659], [23171; 2347; 23235; 9969; 9968; 9967; 23109]) (Some (LW 2347)) (Some (LW 23109));
    Cell ([2284; 16997; 23109; 16659], [23172; 2346; 23236; 9966; 9965; 9964; 23110]) (Some (LW 2346)) (Some (LW 23110));
    Cell ([2283; 16998; 23110; 16659], [23173; 2345; 23237; 9963; 9962; 9961; 23111]) (Some (LW 2345)) (Some (LW 23111));
    Cell ([2282; 16999; 23111; 16659], [23174; 2344; 23238; 9960; 9959; 9958; 23112]) (Some (LW 2344)) (Some (LW 23112));
    Cell ([2281; 17000; 23112; 16659], [23175; 2343; 23239; 9957; 9956; 9955; 23113]) (Some (LW 2343)) (Some (LW 23113));
    Cell ([2280; 17001; 23113; 16659], [23176; 2342; 23240; 9954; 9953; 9952; 23114]) (Some (LW 2342)) (Some (LW 23114));
    Cell ([2279; 17002; 23114; 16659], [23177; 2341; 23241; 9951; 9950; 9949; 23115]) (Some (LW 2341)) (Some (LW 23115));
    Cell ([2278; 17003; 23115; 16659], [23178; 2340; 23242; 9948; 9947; 9946; 23116]) (Some (LW 2340)) (Some (LW 23116));
    Cell ([2277; 17004; 23116; 16659], [23179; 2339; 23243; 9945; 9944; 9943; 23117]) (Some (LW 2339)) (Some (LW 23117));
    Cell ([2276; 17005; 23117; 16659], [23180; 2338; 23244; 9942; 9941; 9940; 23118]) (Some (LW 2338)) (Some (LW 23118));
    Cell ([2275; 17006; 23118; 16659], [23181; 2337; 23245; 9939; 9938; 9937; 23119]) (Some (LW 2337)) (Some (LW 23119));
    Cell ([2274; 17007; 23119; 16659], [23182; 2336; 23246; 9936; 9935; 9934; 23120]) (Some (LW 2336)) (Some (LW 23120));
    Cell ([2273; 17008; 23120; 16659], [23183; 2335; 23247; 9933; 9932; 9931; 23121]) (Some (LW 2335)) (Some (LW 23121));
    Cell ([2272; 17009; 23121; 16659], [23184; 164]) (Some (LW 164)) (None)]
   164 16658.
Definition divide64_row_35 : srow := SRow
   [Cell ([16847; 16946; 16658], [2460; 22996; 22870]) (Some (LW 2460)) (Some (LW 22870));
    Cell ([2397; 16947; 22870; 16658], [22933; 2459; 22997; 9930; 9929; 9928; 22871]) (Some (LW 2459)) (Some (LW 22871));
    Cell ([2396; 16948; 22871; 16658], [22934; 2458; 22998; 9927; 9926; 9925; 22872]) (Some (LW 2458)) (Some (LW 22872));
    Cell ([2395; 16949; 22872; 16658], [22935; 2457; 22999; 9924; 9923; 9922; 22873]) (Some (LW 2457)) (Some (LW 22873));
    Cell ([2394; 16950; 22873; 16658], [22936; 2456; 23000; 9921; 9920; 9919; 22874]) (Some (LW 2456)) (Some (LW 22874));
    Cell ([2393; 16951; 22874; 16658], [22937; 2455; 23001; 9918; 9917; 9916; 22875]) (Some (LW 2455)) (Some (LW 22875));
    Cell ([2392; 16952; 22875; 16658], [22938; 2454; 23002; 9915; 9914; 9913; 22876]) (Some (LW 2454)) (Some (LW 22876));
    Cell ([2391; 16953; 22876; 16658], [22939; 2453; 23003; 9912; 9911; 9910; 22877]) (Some (LW 2453)) (Some (LW 22877));
    Cell ([2390; 16954; 22877; 16658], [22940; 2452; 23004; 9909; 9908; 9907; 22878]) (Some (LW 2452)) (Some (LW 22878));
    Cell ([2389; 16955; 22878; 16658], [22941; 2451; 23005; 9906; 9905; 9904; 22879]) (Some (LW 2451)) (Some (LW 22879));
    Cell ([2388; 16956; 22879; 16658], [22942; 2450; 23006; 9903; 9902; 9901; 22880]) (Some (LW 2450)) (Some (LW 22880));
    Cell ([2387; 16957; 22880; 16658], [22943; 2449; 23007; 9900; 9899; 9898; 22881]) (Some (LW 2449)) (Some (LW 22881));
    Cell ([2386; 16958; 22881; 16658], [22944; 2448; 23008; 9897; 9896; 9895; 22882]) (Some (LW 2448)) (Some (LW 22882));
    Cell ([2385; 16959; 22882; 16658], [22945; 2447; 23009; 9894; 9893; 9892; 22883]) (Some (LW 2447)) (Some (LW 22883));
    Cell ([2384; 16960; 22883; 16658], [22946; 2446; 23010; 9891; 9890; 9889; 22884]) (Some (LW 2446)) (Some (LW 22884));
    Cell ([2383; 16961; 22884; 16658], [22947; 2445; 23011; 9888; 9887; 9886; 22885]) (Some (LW 2445)) (Some (LW 22885));
    Cell ([2382; 16962; 22885; 16658], [22948; 2444; 23012; 9885; 9884; 9883; 22886]) (Some (LW 2444)) (Some (LW 22886));
    Cell ([2381; 16963; 22886; 16658], [22949; 2443; 23013; 9882; 9881; 9880; 22887]) (Some (LW 2443)) (Some (LW 22887));
    Cell ([2380; 16964; 22887; 16658], [22950; 2442; 23014; 9879; 9878; 9877; 22888]) (Some (LW 2442)) (Some (LW 22888));
    Cell ([2379; 16965; 22888; 16658], [22951; 2441; 23015; 9876; 9875; 9874; 22889]) (Some (LW 2441)) (Some (LW 22889));
    Cell ([2378; 16966; 22889; 16658], [22952; 2440; 23016; 9873; 9872; 9871; 22890]) (Some (LW 2440)) (Some (LW 22890));
    Cell ([2377; 16967; 22890; 16658], [22953; 2439; 23017; 9870; 9869; 9868; 22891]) (Some (LW 2439)) (Some (LW 22891));
    Cell ([2376; 16968; 22891; 16658], [22954; 2438; 23018; 9867; 9866; 9865; 22892]) (Some (LW 2438)) (Some (LW 22892));
    Cell ([2375; 16969; 22892; 16658], [22955; 2437; 23019; 9864; 9863; 9862; 22893]) (Some (LW 2437)) (Some (LW 22893));
    Cell ([2374; 16970; 22893; 16658], [22956; 2436; 23020; 9861; 9860; 9859; 22894]) (Some (LW 2436)) (Some (LW 22894));
    Cell ([2373; 16971; 22894; 16658], [22957; 2435; 23021; 9858; 9857; 9856; 22895]) (Some (LW 2435)) (Some (LW 22895));
    Cell ([2372; 16972; 22895; 16658], [22958; 2434; 23022; 9855; 9854; 9853; 22896]) (Some (LW 2434)) (Some (LW 22896));
    Cell ([2371; 16973; 22896; 16658], [22959; 2433; 23023; 9852; 9851; 9850; 22897]) (Some (LW 2433)) (Some (LW 22897));
    Cell ([2370; 16974; 22897; 16658], [22960; 2432; 23024; 9849; 9848; 9847; 22898]) (Some (LW 2432)) (Some (LW 22898));
    Cell ([2369; 16975; 22898; 16658], [22961; 2431; 23025; 9846; 9845; 9844; 22899]) (Some (LW 2431)) (Some (LW 22899));
    Cell ([2368; 16976; 22899; 16658], [22962; 2430; 23026; 9843; 9842; 9841; 22900]) (Some (LW 2430)) (Some (LW 22900));
    Cell ([2367; 16977; 22900; 16658], [22963; 2429; 23027; 9840; 9839; 9838; 22901]) (Some (LW 2429)) (Some (LW 22901));
    Cell ([2366; 16978; 22901; 16658], [22964; 2428; 23028; 9837; 9836; 9835; 22902]) (Some (LW 2428)) (Some (LW 22902));
    Cell ([2365; 16979; 22902; 16658], [22965; 2427; 23029; 9834; 9833; 9832; 22903]) (Some (LW 2427)) (Some (LW 22903));
    Cell ([2364; 16980; 22903; 16658], [22966; 2426; 23030; 9831; 9830; 9829; 22904]) (Some (LW 2426)) (Some (LW 22904));
    Cell ([2363; 16981; 22904; 16658], [22967; 2425; 23031; 9828; 9827; 9826; 22905]) (Some (LW 2425)) (Some (LW 22905));
    Cell ([2362; 16982; 22905; 16658], [22968; 2424; 23032; 9825; 9824; 9823; 22906]) (Some (LW 2424)) (Some (LW 22906));
    Cell ([2361; 16983; 22906; 16658], [22969; 2423; 23033; 9822; 9821; 9820; 22907]) (Some (LW 2423)) (Some (LW 22907));
    Cell ([2360; 16984; 22907; 16658], [22970; 2422; 23034; 9819; 9818; 9817; 22908]) (Some (LW 2422)) (Some (LW 22908));
    Cell ([2359; 16985; 22908; 16658], [22971; 2421; 23035; 9816; 9815; 9814; 22909]) (Some (LW 2421)) (Some (LW 22909));
    Cell ([2358; 16986; 22909; 16658], [22972; 2420; 23036; 9813; 9812; 9811; 22910]) (Some (LW 2420)) (Some (LW 22910));
    Cell ([2357; 16987; 22910; 16658], [22973; 2419; 23037; 9810; 9809; 9808; 22911]) (Some (LW 2419)) (Some (LW 22911));
    Cell ([2356; 16988; 22911; 16658], [22974; 2418; 23038; 9807; 9806; 9805; 22912]) (Some (LW 2418)) (Some (LW 22912));
    Cell ([2355; 16989; 22912; 16658], [22975; 2417; 23039; 9804; 9803; 9802; 22913]) (Some (LW 2417)) (Some (LW 22913));
    Cell ([2354; 16990; 22913; 16658], [22976; 2416; 23040; 9801; 9800; 9799; 22914]) (Some (LW 2416)) (Some (LW 22914));
    Cell ([2353; 16991; 22914; 16658], [22977; 2415; 23041; 9798; 9797; 9796; 22915]) (Some (LW 2415)) (Some (LW 22915));
    Cell ([2352; 16992; 22915; 16658], [22978; 2414; 23042; 9795; 9794; 9793; 22916]) (Some (LW 2414)) (Some (LW 22916));
    Cell ([2351; 16993; 22916; 16658], [22979; 2413; 23043; 9792; 9791; 9790; 22917]) (Some (LW 2413)) (Some (LW 22917));
    Cell ([2350; 16994; 22917; 16658], [22980; 2412; 23044; 9789; 9788; 9787; 22918]) (Some (LW 2412)) (Some (LW 22918));
    Cell ([2349; 16995; 22918; 16658], [22981; 2411; 23045; 9786; 9785; 9784; 22919]) (Some (LW 2411)) (Some (LW 22919));
    Cell ([2348; 16996; 22919; 16658], [22982; 2410; 23046; 9783; 9782; 9781; 22920]) (Some (LW 2410)) (Some (LW 22920));
    Cell ([2347; 16997; 22920; 16658], [22983; 2409; 23047; 9780; 9779; 9778; 22921]) (Some (LW 2409)) (Some (LW 22921));
    Cell ([2346; 16998; 22921; 16658], [22984; 2408; 23048; 9777; 9776; 9775; 22922]) (Some (LW 2408)) (Some (LW 22922));
    Cell ([2345; 16999; 22922; 16658], [22985; 2407; 23049; 9774; 9773; 9772; 22923]) (Some (LW 2407)) (Some (LW 22923));
    Cell ([2344; 17000; 22923; 16658], [22986; 2406; 23050; 9771; 9770; 9769; 22924]) (Some (LW 2406)) (Some (LW 22924));
    Cell ([2343; 17001; 22924; 16658], [22987; 2405; 23051; 9768; 9767; 9766; 22925]) (Some (LW 2405)) (Some (LW 22925));
    Cell ([2342; 17002; 22925; 16658], [22988; 2404; 23052; 9765; 9764; 9763; 22926]) (Some (LW 2404)) (Some (LW 22926));
    Cell ([2341; 17003; 22926; 16658], [22989; 2403; 23053; 9762; 9761; 9760; 22927]) (Some (LW 2403)) (Some (LW 22927));
    Cell ([2340; 17004; 22927; 16658], [22990; 2402; 23054; 9759; 9758; 9757; 22928]) (Some (LW 2402)) (Some (LW 22928));
    Cell ([2339; 17005; 22928; 16658], [22991; 2401; 23055; 9756; 9755; 9754; 22929]) (Some (LW 2401)) (Some (LW 22929));
    Cell ([2338; 17006; 22929; 16658], [22992; 2400; 23056; 9753; 9752; 9751; 22930]) (Some (LW 2400)) (Some (LW 22930));
    Cell ([2337; 17007; 22930; 16658], [22993; 2399; 23057; 9750; 9749; 9748; 22931]) (Some (LW 2399)) (Some (LW 22931));
    Cell ([2336; 17008; 22931; 16658], [22994; 2398; 23058; 9747; 9746; 9745; 22932]) (Some (LW 2398)) (Some (LW 22932));
    Cell ([2335; 17009; 22932; 16658], [22995; 165]) (Some (LW 165)) (None)]
   165 16657.
Definition divide64_row_36 : srow := SRow
   [Cell ([16846; 16946; 16657], [2523; 22807; 22681]) (Some (LW 2523)) (Some (LW 22681));
    Cell ([2460; 16947; 22681; 16657], [22744; 2522; 22808; 9744; 9743; 9742; 22682]) (Some (LW 2522)) (Some (LW 22682));
    Cell ([2459; 16948; 22682; 16657], [22745; 2521; 22809; 9741; 9740; 9739; 22683]) (Some (LW 2521)) (Some (LW 22683));
    Cell ([2458; 16949; 22683; 16657], [22746; 2520; 22810; 9738; 9737; 9736; 22684]) (Some (LW 2520)) (Some (LW 22684));
    Cell ([2457; 16950; 22684; 16657], [22747; 2519; 22811; 9735; 9734; 9733; 22685]) (Some (LW 2519)) (Some (LW 22685));
    Cell ([2456; 16951; 22685; 16657], [22748; 2518; 22812; 9732; 9731; 9730; 22686]) (Some (LW 2518)) (Some (LW 22686));
    Cell ([2455; 16952; 22686; 16657], [22749; 2517; 22813; 9729; 9728; 9727; 22687]) (Some (LW 2517)) (Some (LW 22687));
    Cell ([2454; 16953; 22687; 16657], [22750; 2516; 22814; 9726; 9725; 9724; 22688]) (Some (LW 2516)) (Some (LW 22688));
    Cell ([2453; 16954; 22688; 16657], [22751; 2515; 22815; 9723; 9722; 9721; 22689]) (Some (LW 2515)) (Some (LW 22689));
    Cell ([2452; 16955; 22689; 16657], [22752; 2514; 22816; 9720; 9719; 9718; 22690]) (Some (LW 2514)) (Some (LW 22690));
    Cell ([2451; 16956; 22690; 16657], [22753; 2513; 22817; 9717; 9716; 9715; 22691]) (Some (LW 2513)) (Some (LW 22691));
    Cell ([2450; 16957; 22691; 16657], [22754; 2512; 22818; 9714; 9713; 9712; 22692]) (Some (LW 2512)) (Some (LW 22692));
    Cell ([2449; 16958; 22692; 16657], [22755; 2511; 22819; 9711; 9710; 9709; 22693]) (Some (LW 2511)) (Some (LW 22693));
    Cell ([2448; 16959; 22693; 16657], [22756; 2510; 22820; 9708; 9707; 9706; 22694]) (Some (LW 2510)) (Some (LW 22694));
    Cell ([2447; 16960; 22694; 16657], [22757; 2509; 22821; 9705; 9704; 9703; 22695]) (Some (LW 2509)) (Some (LW 22695));
    Cell ([2446; 16961; 22695; 16657], [22758; 2508; 22822; 9702; 9701; 9700; 22696]) (Some (LW 2508)) (Some (LW 22696));
    Cell ([2445; 16962; 22696; 16657], [22759; 2507; 22823; 9699; 9698; 9697; 22697]) (Some (LW 2507)) (Some (LW 22697));
    Cell ([2444; 16963; 22697; 16657], [22760; 2506; 22824; 9696; 9695; 9694; 22698]) (Some (LW 2506)) (Some (LW 22698));
    Cell ([2443; 16964; 22698; 16657], [22761; 2505; 22825; 9693; 9692; 9691; 22699]) (Some (LW 2505)) (Some (LW 22699));
    Cell ([2442; 16965; 22699; 16657], [22762; 2504; 22826; 9690; 9689; 9688; 22700]) (Some (LW 2504)) (Some (LW 22700));
    Cell ([2441; 16966; 22700; 16657], [22763; 2503; 22827; 9687; 9686; 9685; 22701]) (Some (LW 2503)) (Some (LW 22701));
    Cell ([2440; 16967; 22701; 16657], [22764; 2502; 22828; 9684; 9683; 9682; 22702]) (Some (LW 2502)) (Some (LW 22702));
    Cell ([2439; 16968; 22702; 16657], [22765; 2501; 22829; 9681; 9680; 9679; 22703]) (Some (LW 2501)) (Some (LW 22703));
    Cell ([2438; 16969; 22703; 16657], [22766; 2500; 22830; 9678; 9677; 9676; 22704]) (Some (LW 2500)) (Some (LW 22704));
    Cell ([2437; 16970; 22704; 16657], [22767; 2499; 22831; 9675; 9674; 9673; 22705]) (Some (LW 2499)) (Some (LW 22705));
    Cell ([2436; 16971; 22705; 16657], [22768; 2498; 22832; 9672; 9671; 9670; 22706]) (Some (LW 2498)) (Some (LW 22706));
    Cell ([2435; 16972; 22706; 16657], [22769; 2497; 22833; 9669; 9668; 9667; 22707]) (Some (LW 2497)) (Some (LW 22707));
    Cell ([2434; 16973; 22707; 16657], [22770; 2496; 22834; 9666; 9665; 9664; 22708]) (Some (LW 2496)) (Some (LW 22708));
    Cell ([2433; 16974; 22708; 16657], [22771; 2495; 22835; 9663; 9662; 9661; 22709]) (Some (LW 2495)) (Some (LW 22709));
    Cell ([2432; 16975; 22709; 16657], [22772; 2494; 22836; 9660; 9659; 9658; 22710]) (Some (LW 2494)) (Some (LW 22710));
    Cell ([2431; 16976; 22710; 16657], [22773; 2493; 22837; 9657; 9656; 9655; 22711]) (Some (LW 2493)) (Some (LW 22711));
    Cell ([2430; 16977; 22711; 16657], [22774; 2492; 22838; 9654; 9653; 9652; 22712]) (Some (LW 2492)) (Some (LW 22712));
    Cell ([2429; 16978; 22712; 16657], [22775; 2491; 22839; 9651; 9650; 9649; 22713]) (Some (LW 2491)) (Some (LW 22713));
    Cell ([2428; 16979; 22713; 16657], [22776; 2490; 22840; 9648; 9647; 9646; 22714]) (Some (LW 2490)) (Some (LW 22714));
    Cell ([2427; 16980; 22714; 16657], [22777; 2489; 22841; 9645; 9644; 9643; 22715]) (Some (LW 2489)) (Some (LW 22715));
    Cell ([2426; 16981; 22715; 16657], [22778; 2488; 22842; 9642; 9641; 9640; 22716]) (Some (LW 2488)) (Some (LW 22716));
    Cell ([2425; 16982; 22716; 16657], [22779; 2487; 22843; 9639; 9638; 9637; 22717]) (Some (LW 2487)) (Some (LW 22717));
    Cell ([2424; 16983; 22717; 16657], [22780; 2486; 22844; 9636; 9635; 9634; 22718]) (Some (LW 2486)) (Some (LW 22718));
    Cell ([2423; 16984; 22718; 16657], [22781; 2485; 22845; 9633; 9632; 9631; 22719]) (Some (LW 2485)) (Some (LW 22719));
    Cell ([2422; 16985; 22719; 16657], [22782; 2484; 22846; 9630; 9629; 9628; 22720]) (Some (LW 2484)) (Some (LW 22720));
    Cell ([2421; 16986; 22720; 16657], [22783; 2483; 22847; 9627; 9626; 9625; 22721]) (Some (LW 2483)) (Some (LW 22721));
    Cell ([2420; 16987; 22721; 16657], [22784; 2482; 22848; 9624; 9623; 9622; 22722]) (Some (LW 2482)) (Some (LW 22722));
    Cell ([2419; 16988; 22722; 16657], [22785; 2481; 22849; 9621; 9620; 9619; 22723]) (Some (LW 2481)) (Some (LW 22723));
    Cell ([2418; 16989; 22723; 16657], [22786; 2480; 22850; 9618; 9617; 9616; 22724]) (Some (LW 2480)) (Some (LW 22724));
    Cell ([2417; 16990; 22724; 16657], [22787; 2479; 22851; 9615; 9614; 9613; 22725]) (Some (LW 2479)) (Some (LW 22725));
    Cell ([2416; 16991; 22725; 16657], [22788; 2478; 22852; 9612; 9611; 9610; 22726]) (Some (LW 2478)) (Some (LW 22726));
    Cell ([2415; 16992; 22726; 16657], [22789; 2477; 22853; 9609; 9608; 9607; 22727]) (Some (LW 2477)) (Some (LW 22727));
    Cell ([2414; 16993; 22727; 16657], [22790; 2476; 22854; 9606; 9605; 9604; 22728]) (Some (LW 2476)) (Some (LW 22728));
    Cell ([2413; 16994; 22728; 16657], [22791; 2475; 22855; 9603; 9602; 9601; 22729]) (Some (LW 2475)) (Some (LW 22729));
    Cell ([2412; 16995; 22729; 16657], [22792; 2474; 22856; 9600; 9599; 9598; 22730]) (Some (LW 2474)) (Some (LW 22730));
    Cell ([2411; 16996; 22730; 16657], [22793; 2473; 22857; 9597; 9596; 9595; 22731]) (Some (LW 2473)) (Some (LW 22731));
    Cell ([2410; 16997; 22731; 16657], [22794; 2472; 22858; 9594; 9593; 9592; 22732]) (Some (LW 2472)) (Some (LW 22732));
    Cell ([2409; 16998; 22732; 16657], [22795; 2471; 22859; 9591; 9590; 9589; 22733]) (Some (LW 2471)) (Some (LW 22733));
    Cell ([2408; 16999; 22733; 16657], [22796; 2470; 22860; 9588; 9587; 9586; 22734]) (Some (LW 2470)) (Some (LW 22734));
    Cell ([2407; 17000; 22734; 16657], [22797; 2469; 22861; 9585; 9584; 9583; 22735]) (Some (LW 2469)) (Some (LW 22735));
    Cell ([2406; 17001; 22735; 16657], [22798; 2468; 22862; 9582; 9581; 9580; 22736]) (Some (LW 2468)) (Some (LW 22736));
    Cell ([2405; 17002; 22736; 16657], [22799; 2467; 22863; 9579; 9578; 9577; 22737]) (Some (LW 2467)) (Some (LW 22737));
    Cell ([2404; 17003; 22737; 16657], [22800; 2466; 22864; 9576; 9575; 9574; 22738]) (Some (LW 2466)) (Some (LW 22738));
    Cell ([2403; 17004; 22738; 16657], [22801; 2465; 22865; 9573; 9572; 9571; 22739]) (Some (LW 2465)) (Some (LW 22739));
    Cell ([2402; 17005; 22739; 16657], [22802; 2464; 22866; 9570; 9569; 9568; 22740]) (Some (LW 2464)) (Some (LW 22740));
    Cell ([2401; 17006; 22740; 16657], [22803; 2463; 22867; 9567; 9566; 9565; 22741]) (Some (LW 2463)) (Some (LW 22741));
    Cell ([2400; 17007; 22741; 16657], [22804; 2462; 22868; 9564; 9563; 9562; 22742]) (Some (LW 2462)) (Some (LW 22742));
    Cell ([2399; 17008; 22742; 16657], [22805; 2461; 22869; 9561; 9560; 9559; 22743]) (Some (LW 2461)) (Some (LW 22743));
    Cell ([2398; 17009; 22743; 16657], [22806; 166]) (Some (LW 166)) (None)]
   166 16656.
Definition divide64_row_37 : srow := SRow
   [Cell ([16845; 16946; 16656], [2586; 22618; 22492]) (Some (LW 2586)) (Some (LW 22492));
    Cell ([2523; 16947; 22492; 16656], [22555; 2585; 22619; 9558; 9557; 9556; 22493]) (Some (LW 2585)) (Some (LW 22493));
    Cell ([2522; 16948; 22493; 16656], [22556; 2584; 22620; 9555; 9554; 9553; 22494]) (Some (LW 2584)) (Some (LW 22494));
    Cell ([2521; 16949; 22494; 16656], [22557; 2583; 22621; 9552; 9551; 9550; 22495]) (Some (LW 2583)) (Some (LW 22495));
    Cell ([2520; 16950; 22495; 16656], [22558; 2582; 22622; 9549; 9548; 9547; 22496]) (Some (LW 2582)) (Some (LW 22496));
    Cell ([2519; 16951; 22496; 16656], [22559; 2581; 22623; 9546; 9545; 9544; 22497]) (Some (LW 2581)) (Some (LW 22497));
    Cell ([2518; 16952; 22497; 16656], [22560; 2580; 22624; 9543; 9542; 9541; 22498]) (Some (LW 2580)) (Some (LW 22498));
    Cell ([2517; 16953; 22498; 16656], [22561; 2579; 22625; 9540; 9539; 9538; 22499]) (Some (LW 2579)) (Some (LW 22499));
    Cell ([2516; 16954; 22499; 16656], [22562; 2578; 22626; 9537; 9536; 9535; 22500]) (Some (LW 2578)) (Some (LW 22500));
    Cell ([2515; 16955; 22500; 16656], [22563; 2577; 22627; 9534; 9533; 9532; 22501]) (Some (LW 2577)) (Some (LW 22501));
    Cell ([2514; 16956; 22501; 16656], [22564; 2576; 22628; 9531; 9530; 9529; 22502]) (Some (LW 2576)) (Some (LW 22502));
    Cell ([2513; 16957; 22502; 16656], [22565; 2575; 22629; 9528; 9527; 9526; 22503]) (Some (LW 2575)) (Some (LW 22503));
    Cell ([2512; 16958; 22503; 16656], [22566; 2574; 22630; 9525; 9524; 9523; 22504]) (Some (LW 2574)) (Some (LW 22504));
    Cell ([2511; 16959; 22504; 16656], [22567; 2573; 22631; 9522; 9521; 9520; 22505]) (Some (LW 2573)) (Some (LW 22505));
    Cell ([2510; 16960; 22505; 16656], [22568; 2572; 22632; 9519; 9518; 9517; 22506]) (Some (LW 2572)) (Some (LW 22506));
    Cell ([2509; 16961; 22506; 16656], [22569; 2571; 22633; 9516; 9515; 9514; 22507]) (Some (LW 2571)) (Some (LW 22507));
    Cell ([2508; 16962; 22507; 16656], [22570; 2570; 22634; 9513; 9512; 9511; 22508]) (Some (LW 2570)) (Some (LW 22508));
    Cell ([2507; 16963; 22508; 16656], [22571; 2569; 22635; 9510; 9509; 9508; 22509]) (Some (LW 2569)) (Some (LW 22509));
    Cell ([2506; 16964; 22509; 16656], [22572; 2568; 22636; 9507; 9506; 9505; 22510]) (Some (LW 2568)) (Some (LW 22510));
    Cell ([2505; 16965; 22510; 16656], [22573; 2567; 22637; 9504; 9503; 9502; 22511]) (Some (LW 2567)) (Some (LW 22511));
    Cell ([2504; 16966; 22511; 16656], [22574; 2566; 22638; 9501; 9500; 9499; 22512]) (Some (LW 2566)) (Some (LW 22512));
    Cell ([2503; 16967; 22512; 16656], [22575; 2565; 22639; 9498; 9497; 9496; 22513]) (Some (LW 2565)) (Some (LW 22513));
    Cell ([2502; 16968; 22513; 16656], [22576; 2564; 22640; 9495; 9494; 9493; 22514]) (Some (LW 2564)) (Some (LW 22514));
    Cell ([2501; 16969; 22514; 16656], [22577; 2563; 22641; 9492; 9491; 9490; 22515]) (Some (LW 2563)) (Some (LW 22515));
    Cell ([2500; 16970; 22515; 16656], [22578; 2562; 22642; 9489; 9488; 9487; 22516]) (Some (LW 2562)) (Some (LW 22516));
    Cell ([2499; 16971; 22516; 16656], [22579; 2561; 22643; 9486; 9485; 9484; 22517]) (Some (LW 2561)) (Some (LW 22517));
    Cell ([2498; 16972; 22517; 16656], [22580; 2560; 22644; 9483; 9482; 9481; 22518]) (Some (LW 2560)) (Some (LW 22518));
    Cell ([2497; 16973; 22518; 16656], [22581; 2559; 22645; 9480; 9479; 9478; 22519]) (Some (LW 2559)) (Some (LW 22519));
    Cell ([2496; 16974; 22519; 16656], [22582; 2558; 22646; 9477; 9476; 9475; 22520]) (Some (LW 2558)) (Some (LW 22520));
    Cell ([2495; 16975; 22520; 16656], [22583; 2557; 22647; 9474; 9473; 9472; 22521]) (Some (LW 2557)) (Some (LW 22521));
    Cell ([2494; 16976; 22521; 16656], [22584; 2556; 22648; 9471; 9470; 9469; 22522]) (Some (LW 2556)) (Some (LW 22522));
    Cell ([2493; 16977; 22522; 16656], [22585; 2555; 22649; 9468; 9467; 9466; 22523]) (Some (LW 2555)) (Some (LW 22523));
    Cell ([2492; 16978; 22523; 16656], [22586; 2554; 22650; 9465; 9464; 9463; 22524]) (Some (LW 2554)) (Some (LW 22524));
    Cell ([2491; 16979; 22524; 16656], [22587; 2553; 22651; 9462; 9461; 9460; 22525]) (Some (LW 2553)) (Some (LW 22525));
    Cell ([2490; 16980; 22525; 16656], [22588; 2552; 22652; 9459; 9458; 9457; 22526]) (Some (LW 2552)) (Some (LW 22526));
    Cell ([2489; 16981; 22526; 16656], [22589; 2551; 22653; 9456; 9455; 9454; 22527]) (Some (LW 2551)) (Some (LW 22527));
    Cell ([2488; 16982; 22527; 16656], [22590; 2550; 22654; 9453; 9452; 9451; 22528]) (Some (LW 2550)) (Some (LW 22528));
    Cell ([2487; 16983; 22528; 16656], [22591; 2549; 22655; 9450; 9449; 9448; 22529]) (Some (LW 2549)) (Some (LW 22529));
    Cell ([2486; 16984; 22529; 16656], [22592; 2548; 22656; 9447; 9446; 9445; 22530]) (Some (LW 2548)) (Some (LW 22530));
    Cell ([2485; 16985; 22530; 16656], [22593; 2547; 22657; 9444; 9443; 9442; 22531]) (Some (LW 2547)) (Some (LW 22531));
    Cell ([2484; 16986; 22531; 16656], [22594; 2546; 22658; 9441; 9440; 9439; 22532]) (Some (LW 2546)) (Some (LW 22532));
    Cell ([2483; 16987; 22532; 16656], [22595; 2545; 22659; 9438; 9437; 9436; 22533]) (Some (LW 2545)) (Some (LW 22533));
    Cell ([2482; 16988; 22533; 16656], [22596; 2544; 22660; 9435; 9434; 9433; 22534]) (Some (LW 2544)) (Some (LW 22534));
    Cell ([2481; 16989; 22534; 16656], [22597; 2543; 22661; 9432; 9431; 9430; 22535]) (Some (LW 2543)) (Some (LW 22535));
    Cell ([2480; 16990; 22535; 16656], [22598; 2542; 22662; 9429; 9428; 9427; 22536]) (Some (LW 2542)) (Some (LW 22536));
    Cell ([2479; 16991; 22536; 16656], [22599; 2541; 22663; 9426; 9425; 9424; 22537]) (Some (LW 2541)) (Some (LW 22537));
    Cell ([2478; 16992; 22537; 16656], [22600; 2540; 22664; 9423; 9422; 9421; 22538]) (Some (LW 2540)) (Some (LW 22538));
    Cell ([2477; 16993; 22538; 16656], [22601; 2539; 22665; 9420; 9419; 9418; 22539]) (Some (LW 2539)) (Some (LW 22539));
    Cell ([2476; 16994; 22539; 16656], [22602; 2538; 22666; 9417; 9416; 9415; 22540]) (Some (LW 2538)) (Some (LW 22540));
    Cell ([2475; 16995; 22540; 16656], [22603; 2537; 22667; 9414; 9413; 9412; 22541]) (Some (LW 2537)) (Some (LW 22541));
    Cell ([2474; 16996; 22541; 16656], [22604; 2536; 22668; 9411; 9410; 9409; 22542]) (Some (LW 2536)) (Some (LW 22542));
    Cell ([2473; 16997; 22542; 16656], [22605; 2535; 22669; 9408; 9407; 9406; 22543]) (Some (LW 2535)) (Some (LW 22543));
    Cell ([2472; 16998; 22543; 16656], [22606; 2534; 22670; 9405; 9404; 9403; 22544]) (Some (LW 2534)) (Some (LW 22544));
    Cell ([2471; 16999; 22544; 16656], [22607; 2533; 22671; 9402; 9401; 9400; 22545]) (Some (LW 2533)) (Some (LW 22545));
    Cell ([2470; 17000; 22545; 16656], [22608; 2532; 22672; 9399; 9398; 9397; 22546]) (Some (LW 2532)) (Some (LW 22546));
    Cell ([2469; 17001; 22546; 16656], [22609; 2531; 22673; 9396; 9395; 9394; 22547]) (Some (LW 2531)) (Some (LW 22547));
    Cell ([2468; 17002; 22547; 16656], [22610; 2530; 22674; 9393; 9392; 9391; 22548]) (Some (LW 2530)) (Some (LW 22548));
    Cell ([2467; 17003; 22548; 16656], [22611; 2529; 22675; 9390; 9389; 9388; 22549]) (Some (LW 2529)) (Some (LW 22549));
    Cell ([2466; 17004; 22549; 16656], [22612; 2528; 22676; 9387; 9386; 9385; 22550]) (Some (LW 2528)) (Some (LW 22550));
    Cell ([2465; 17005; 22550; 16656], [22613; 2527; 22677; 9384; 9383; 9382; 22551]) (Some (LW 2527)) (Some (LW 22551));
    Cell ([2464; 17006; 22551; 16656], [22614; 2526; 22678; 9381; 9380; 9379; 22552]) (Some (LW 2526)) (Some (LW 22552));
    Cell ([2463; 17007; 22552; 16656], [22615; 2525; 22679; 9378; 9377; 9376; 22553]) (Some (LW 2525)) (Some (LW 22553));
    Cell ([2462; 17008; 22553; 16656], [22616; 2524; 22680; 9375; 9374; 9373; 22554]) (Some (LW 2524)) (Some (LW 22554));
    Cell ([2461; 17009; 22554; 16656], [22617; 167]) (Some (LW 167)) (None)]
   167 16655.
Definition divide64_row_38 : srow := SRow
   [Cell ([16844; 16946; 16655], [2649; 22429; 22303]) (Some (LW 2649)) (Some (LW 22303));
    Cell ([2586; 16947; 22303; 16655], [22366; 2648; 22430; 9372; 9371; 9370; 22304]) (Some (LW 2648)) (Some (LW 22304));
    Cell ([2585; 16948; 22304; 16655], [22367; 2647; 22431; 9369; 9368; 9367; 22305]) (Some (LW 2647)) (Some (LW 22305));
    Cell ([2584; 16949; 22305; 16655], [22368; 2646; 22432; 9366; 9365; 9364; 22306]) (Some (LW 2646)) (Some (LW 22306));
    Cell ([2583; 16950; 22306; 16655], [22369; 2645; 22433; 9363; 9362; 9361; 22307]) (Some (LW 2645)) (Some (LW 22307));
    Cell ([2582; 16951; 22307; 16655], [22370; 2644; 22434; 9360; 9359; 9358; 22308]) (Some (LW 2644)) (Some (LW 22308));
    Cell ([2581; 16952; 22308; 16655], [22371; 2643; 22435; 9357; 9356; 9355; 22309]) (Some (LW 2643)) (Some (LW 22309));
    Cell ([2580; 16953; 22309; 16655], [22372; 2642; 22436; 9354; 9353; 9352; 22310]) (Some (LW 2642)) (Some (LW 22310));
    Cell ([2579; 16954; 22310; 16655], [22373; 2641; 22437; 9351; 9350; 9349; 22311]) (Some (LW 2641)) (Some (LW 22311));
    Cell ([2578; 16955; 22311; 16655], [22374; 2640; 22438; 9348; 9347; 9346; 22312]) (Some (LW 2640)) (Some (LW 22312));
    Cell ([2577; 16956; 22312; 16655], [22375; 2639; 22439; 9345; 9344; 9343; 22313]) (Some (LW 2639)) (Some (LW 22313));
    Cell ([2576; 16957; 22313; 16655], [22376; 2638; 22440; 9342; 9341; 9340; 22314]) (Some (LW 2638)) (Some (LW 22314));
    Cell ([2575; 16958; 22314; 16655], [22377; 2637; 22441; 9339; 9338; 9337; 22315]) (Some (LW 2637)) (Some (LW 22315));
    Cell ([2574; 16959; 22315; 16655], [22378; 2636; 22442; 9336; 9335; 9334; 22316]) (Some (LW 2636)) (Some (LW 22316));
    Cell ([2573; 16960; 22316; 16655], [22379; 2635; 22443; 9333; 9332; 9331; 22317]) (Some (LW 2635)) (Some (LW 22317));
    Cell ([2572; 16961; 22317; 16655], [22380; 2634; 22444; 9330; 9329; 9328; 22318]) (Some (LW 2634)) (Some (LW 22318));
    Cell ([2571; 16962; 22318; 16655], [22381; 2633; 22445; 9327; 9326; 9325; 22319]) (Some (LW 2633)) (Some (LW 22319));
    Cell ([2570; 16963; 22319; 16655], [22382; 2632; 22446; 9324; 9323; 9322; 22320]) (Some (LW 2632)) (Some (LW 22320));
    Cell ([2569; 16964; 22320; 16655], [22383; 2631; 22447; 9321; 9320; 9319; 22321]) (Some (LW 2631)) (Some (LW 22321));
    Cell ([2568; 16965; 22321; 16655], [22384; 2630; 22448; 9318; 9317; 9316; 22322]) (Some (LW 2630)) (Some (LW 22322));
    Cell ([2567; 16966; 22322; 16655], [22385; 2629; 22449; 9315; 9314; 9313; 22323]) (Some (LW 2629)) (Some (LW 22323));
    Cell ([2566; 16967; 22323; 16655], [22386; 2628; 22450; 9312; 9311; 9310; 22324]) (Some (LW 2628)) (Some (LW 22324));
    Cell ([2565; 16968; 22324; 16655], [22387; 2627; 22451; 9309; 9308; 9307; 22325]) (Some (LW 2627)) (Some (LW 22325));
    Cell ([2564; 16969; 22325; 16655], [22388; 2626; 22452; 9306; 9305; 9304; 22326]) (Some (LW 2626)) (Some (LW 22326));
    Cell ([2563; 16970; 22326; 16655], [22389; 2625; 22453; 9303; 9302; 9301; 22327]) (Some (LW 2625)) (Some (LW 22327));
    Cell ([2562; 16971; 22327; 16655], [22390; 2624; 22454; 9300; 9299; 9298; 22328]) (Some (LW 2624)) (Some (LW 22328));
    Cell ([2561; 16972; 22328; 16655], [22391; 2623; 22455; 9297; 9296; 9295; 22329]) (Some (LW 2623)) (Some (LW 22329));
    Cell ([2560; 16973; 22329; 16655], [22392; 2622; 22456; 9294; 9293; 9292; 22330]) (Some (LW 2622)) (Some (LW 22330));
    Cell ([2559; 16974; 22330; 16655], [22393; 2621; 22457; 9291; 9290; 9289; 22331]) (Some (LW 2621)) (Some (LW 22331));
    Cell ([2558; 16975; 22331; 16655], [22394; 2620; 22458; 9288; 9287; 9286; 22332]) (Some (LW 2620)) (Some (LW 22332));
    Cell ([2557; 16976; 22332; 16655], [22395; 2619; 22459; 9285; 9284; 9283; 22333]) (Some (LW 2619)) (Some (LW 22333));
    Cell ([2556; 16977; 22333; 16655], [22396; 2618; 22460; 9282; 9281; 9280; 22334]) (Some (LW 2618)) (Some (LW 22334));
    Cell ([2555; 16978; 22334; 16655], [22397; 2617; 22461; 9279; 9278; 9277; 22335]) (Some (LW 2617)) (Some (LW 22335));
    Cell ([2554; 16979; 22335; 16655], [22398; 2616; 22462; 9276; 9275; 9274; 22336]) (Some (LW 2616)) (Some (LW 22336));
    Cell ([2553; 16980; 22336; 16655], [22399; 2615; 22463; 9273; 9272; 9271; 22337]) (Some (LW 2615)) (Some (LW 22337));
    Cell ([2552; 16981; 22337; 16655], [22400; 2614; 22464; 9270; 9269; 9268; 22338]) (Some (LW 2614)) (Some (LW 22338));
    Cell ([2551; 16982; 22338; 16655], [22401; 2613; 22465; 9267; 9266; 9265; 22339]) (Some (LW 2613)) (Some (LW 22339));
    Cell ([2550; 16983; 22339; 16655], [22402; 2612; 22466; 9264; 9263; 9262; 22340]) (Some (LW 2612)) (Some (LW 22340));
    Cell ([2549; 16984; 22340; 16655], [22403; 2611; 22467; 9261; 9260; 9259; 22341]) (Some (LW 2611)) (Some (LW 22341));
    Cell ([2548; 16985; 22341; 16655], [22404; 2610; 22468; 9258; 9257; 9256; 22342]) (Some (LW 2610)) (Some (LW 22342));
    Cell ([2547; 16986; 22342; 16655], [22405; 2609; 22469; 9255; 9254; 9253; 22343]) (Some (LW 2609)) (Some (LW 22343));
    Cell ([2546; 16987; 22343; 16655], [22406; 2608; 22470; 9252; 9251; 9250; 22344]) (Some (LW 2608)) (Some (LW 22344));
    Cell ([2545; 16988; 22344; 16655], [22407; 2607; 22471; 9249; 9248; 9247; 22345]) (Some (LW 2607)) (Some (LW 22345));
    Cell ([2544; 16989; 22345; 16655], [22408; 2606; 22472; 9246; 9245; 9244; 22346]) (Some (LW 2606)) (Some (LW 22346));
    Cell ([2543; 16990; 22346; 16655], [22409; 2605; 22473; 9243; 9242; 9241; 22347]) (Some (LW 2605)) (Some (LW 22347));
    Cell ([2542; 16991; 22347; 16655], [22410; 2604; 22474; 9240; 9239; 9238; 22348]) (Some (LW 2604)) (Some (LW 22348));
    Cell ([2541; 16992; 22348; 16655], [22411; 2603; 22475; 9237; 9236; 9235; 22349]) (Some (LW 2603)) (Some (LW 22349));
    Cell ([2540; 16993; 22349; 16655], [22412; 2602; 22476; 9234; 9233; 9232; 22350]) (Some (LW 2602)) (Some (LW 22350));
    Cell ([2539; 16994; 22350; 16655], [22413; 2601; 22477; 9231; 9230; 9229; 22351]) (Some (LW 2601)) (Some (LW 22351));
    Cell ([2538; 16995; 22351; 16655], [22414; 2600; 22478; 9228; 9227; 9226; 22352]) (Some (LW 2600)) (Some (LW 22352));
    Cell ([2537; 16996; 22352; 16655], [22415; 2599; 22479; 9225; 9224; 9223; 22353]) (Some (LW 2599)) (Some (LW 22353));
    Cell ([2536; 16997; 22353; 16655], [22416; 2598; 22480; 9222; 9221; 9220; 22354]) (Some (LW 2598)) (Some (LW 22354));
    Cell ([2535; 16998; 22354; 16655], [22417; 2597; 22481; 9219; 9218; 9217; 22355]) (Some (LW 2597)) (Some (LW 22355));
    Cell ([2534; 16999; 22355; 16655], [22418; 2596; 22482; 9216; 9215; 9214; 22356]) (Some (LW 2596)) (Some (LW 22356));
    Cell ([2533; 17000; 22356; 16655], [22419; 2595; 22483; 9213; 9212; 9211; 22357]) (Some (LW 2595)) (Some (LW 22357));
    Cell ([2532; 17001; 22357; 16655], [22420; 2594; 22484; 9210; 9209; 9208; 22358]) (Some (LW 2594)) (Some (LW 22358));
    Cell ([2531; 17002; 22358; 16655], [22421; 2593; 22485; 9207; 9206; 9205; 22359]) (Some (LW 2593)) (Some (LW 22359));
    Cell ([2530; 17003; 22359; 16655], [22422; 2592; 22486; 9204; 9203; 9202; 22360]) (Some (LW 2592)) (Some (LW 22360));
    Cell ([2529; 17004; 22360; 16655], [22423; 2591; 22487; 9201; 9200; 9199; 22361]) (Some (LW 2591)) (Some (LW 22361));
    Cell ([2528; 17005; 22361; 16655], [22424; 2590; 22488; 9198; 9197; 9196; 22362]) (Some (LW 2590)) (Some (LW 22362));
    Cell ([2527; 17006; 22362; 16655], [22425; 2589; 22489; 9195; 9194; 9193; 22363]) (Some (LW 2589)) (Some (LW 22363));
    Cell ([2526; 17007; 22363; 16655], [22426; 2588; 22490; 9192; 9191; 9190; 22364]) (Some (LW 2588)) (Some (LW 22364));
    Cell ([2525; 17008; 22364; 16655], [22427; 2587; 22491; 9189; 9188; 9187; 22365]) (Some (LW 2587)) (Some (LW 22365));
    Cell ([2524; 17009; 22365; 16655], [22428; 168]) (Some (LW 168)) (None)]
   168 16654.
Definition divide64_row_39 : srow := SRow
   [Cell ([16843; 16946; 16654], [2712; 22240; 22114]) (Some (LW 2712)) (Some (LW 22114));
    Cell ([2649; 16947; 22114; 16654], [22177; 2711; 22241; 9186; 9185; 9184; 22115]) (Some (LW 2711)) (Some (LW 22115));
    Cell ([2648; 16948; 22115; 16654], [22178; 2710; 22242; 9183; 9182; 9181; 22116]) (Some (LW 2710)) (Some (LW 22116));
    Cell ([2647; 16949; 22116; 16654], [22179; 2709; 22243; 9180; 9179; 9178; 22117]) (Some (LW 2709)) (Some (LW 22117));
    Cell ([2646; 16950; 22117; 16654], [22180; 2708; 22244; 9177; 9176; 9175; 22118]) (Some (LW 2708)) (Some (LW 22118));
    Cell ([2645; 16951; 22118; 16654], [22181; 2707; 22245; 9174; 9173; 9172; 22119]) (Some (LW 2707)) (Some (LW 22119));
    Cell ([2644; 16952; 22119; 16654], [22182; 2706; 22246; 9171; 9170; 9169; 22120]) (Some (LW 2706)) (Some (LW 22120));
    Cell ([2643; 16953; 22120; 16654], [22183; 2705; 22247; 9168; 9167; 9166; 22121]) (Some (LW 2705)) (Some (LW 22121));
    Cell ([2642; 16954; 22121; 16654], [22184; 2704; 22248; 9165; 9164; 9163; 22122]) (Some (LW 2704)) (Some (LW 22122));
    Cell ([2641; 16955; 22122; 16654], [22185; 2703; 22249; 9162; 9161; 9160; 22123]) (Some (LW 2703)) (Some (LW 22123));
    Cell ([2640; 16956; 22123; 16654], [22186; 2702; 22250; 9159; 9158; 9157; 22124]) (Some (LW 2702)) (Some (LW 22124));
    Cell ([2639; 16957; 22124; 16654], [22187; 2701; 22251; 9156; 9155; 9154; 22125]) (Some (LW 2701)) (Some (LW 22125));
    Cell ([2638; 16958; 22125; 16654], [22188; 2700; 22252; 9153; 9152; 9151; 22126]) (Some (LW 2700)) (Some (LW 22126));
    Cell ([2637; 16959; 22126; 16654], [22189; 2699; 22253; 9150; 9149; 9148; 22127]) (Some (LW 2699)) (Some (LW 22127));
    Cell ([2636; 16960; 22127; 16654], [22190; 2698; 22254; 9147; 9146; 9145; 22128]) (Some (LW 2698)) (Some (LW 22128));
    Cell ([2635; 16961; 22128; 16654], [22191; 2697; 22255; 9144; 9143; 9142; 22129]) (Some (LW 2697)) (Some (LW 22129));
    Cell ([2634; 16962; 22129; 16654], [22192; 2696; 22256; 9141; 9140; 9139; 22130]) (Some (LW 2696)) (Some (LW 22130));
    Cell ([2633; 16963; 22130; 16654], [22193; 2695; 22257; 9138; 9137; 9136; 22131]) (Some (LW 2695)) (Some (LW 22131));
    Cell ([2632; 16964; 22131; 16654], [22194; 2694; 22258; 9135; 9134; 9133; 22132]) (Some (LW 2694)) (Some (LW 22132));
    Cell ([2631; 16965; 22132; 16654], [22195; 2693; 22259; 9132; 9131; 9130; 22133]) (Some (LW 2693)) (Some (LW 22133));
    Cell ([2630; 16966; 22133; 16654], [22196; 2692; 22260; 9129; 9128; 9127; 22134]) (Some (LW 2692)) (Some (LW 22134));
    Cell ([2629; 16967; 22134; 16654], [22197; 2691; 22261; 9126; 9125; 9124; 22135]) (Some (LW 2691)) (Some (LW 22135));
    Cell ([2628; 16968; 22135; 16654], [22198; 2690; 22262; 9123; 9122; 9121; 22136]) (Some (LW 2690)) (Some (LW 22136));
    Cell ([2627; 16969; 22136; 16654], [22199; 2689; 22263; 9120; 9119; 9118; 22137]) (Some (LW 2689)) (Some (LW 22137));
    Cell ([2626; 16970; 22137; 16654], [22200; 2688; 22264; 9117; 9116; 9115; 22138]) (Some (LW 2688)) (Some (LW 22138));
    Cell ([2625; 16971; 22138; 16654], [22201; 2687; 22265; 9114; 9113; 9112; 22139]) (Some (LW 2687)) (Some (LW 22139));
    Cell ([2624; 16972; 22139; 16654], [22202; 2686; 22266; 9111; 9110; 9109; 22140]) (Some (LW 2686)) (Some (LW 22140));
    Cell ([2623; 16973; 22140; 16654], [22203; 2685; 22267; 9108; 9107; 9106; 22141]) (Some (LW 2685)) (Some (LW 22141));
    Cell ([2622; 16974; 22141; 16654], [22204; 2684; 22268; 9105; 9104; 9103; 22142]) (Some (LW 2684)) (Some (LW 22142));
    Cell ([2621; 16975; 22142; 16654], [22205; 2683; 22269; 9102; 9101; 9100; 22143]) (Some (LW 2683)) (Some (LW 22143));
    Cell ([2620; 16976; 22143; 16654], [22206; 2682; 22270; 9099; 9098; 9097; 22144]) (Some (LW 2682)) (Some (LW 22144));
    Cell ([2619; 16977; 22144; 16654], [22207; 2681; 22271; 9096; 9095; 9094; 22145]) (Some (LW 2681)) (Some (LW 22145));
    Cell ([2618; 16978; 22145; 16654], [22208; 2680; 22272; 9093; 9092; 9091; 22146]) (Some (LW 2680)) (Some (LW 22146));
    Cell ([2617; 16979; 22146; 16654], [22209; 2679; 22273; 9090; 9089; 9088; 22147]) (Some (LW 2679)) (Some (LW 22147));
    Cell ([2616; 16980; 22147; 16654], [22210; 2678; 22274; 9087; 9086; 9085; 22148]) (Some (LW 2678)) (Some (LW 22148));
    Cell ([2615; 16981; 22148; 16654], [22211; 2677; 22275; 9084; 9083; 9082; 22149]) (Some (LW 2677)) (Some (LW 22149));
    Cell ([2614; 16982; 22149; 16654], [22212; 2676; 22276; 9081; 9080; 9079; 22150]) (Some (LW 2676)) (Some (LW 22150));
    Cell ([2613; 16983; 22150; 16654], [22213; 2675; 22277; 9078; 9077; 9076; 22151]) (Some (LW 2675)) (Some (LW 22151));
    Cell ([2612; 16984; 22151; 16654], [22214; 2674; 22278; 9075; 9074; 9073; 22152]) (Some (LW 2674)) (Some (LW 22152));
    Cell ([2611; 16985; 22152; 16654], [22215; 2673; 22279; 9072; 9071; 9070; 22153]) (Some (LW 2673)) (Some (LW 22153));
    Cell ([2610; 16986; 22153; 16654], [22216; 2672; 22280; 9069; 9068; 9067; 22154]) (Some (LW 2672)) (Some (LW 22154));
    Cell ([2609; 16987; 22154; 16654], [22217; 2671; 22281; 9066; 9065; 9064; 22155]) (Some (LW 2671)) (Some (LW 22155));
    Cell ([2608; 16988; 22155; 16654], [22218; 2670; 22282; 9063; 9062; 9061; 22156]) (Some (LW 2670)) (Some (LW 22156));
    Cell ([2607; 16989; 22156; 16654], [22219; 2669; 22283; 9060; 9059; 9058; 22157]) (Some (LW 2669)) (Some (LW 22157));
    Cell ([2606; 16990; 22157; 16654], [22220; 2668; 22284; 9057; 9056; 9055; 22158]) (Some (LW 2668)) (Some (LW 22158));
    Cell ([2605; 16991; 22158; 16654], [22221; 2667; 22285; 9054; 9053; 9052; 22159]) (Some (LW 2667)) (Some (LW 22159));
    Cell ([2604; 16992; 22159; 16654], [22222; 2666; 22286; 9051; 9050; 9049; 22160]) (Some (LW 2666)) (Some (LW 22160));
    Cell ([2603; 16993; 22160; 16654], [22223; 2665; 22287; 9048; 9047; 9046; 22161]) (Some (LW 2665)) (Some (LW 22161));
    Cell ([2602; 16994; 22161; 16654], [22224; 2664; 22288; 9045; 9044; 9043; 22162]) (Some (LW 2664)) (Some (LW 22162));
    Cell ([2601; 16995; 22162; 16654], [22225; 2663; 22289; 9042; 9041; 9040; 22163]) (Some (LW 2663)) (Some (LW 22163));
    Cell ([2600; 16996; 22163; 16654], [22226; 2662; 22290; 9039; 9038; 9037; 22164]) (Some (LW 2662)) (Some (LW 22164));
    Cell ([2599; 16997; 22164; 16654], [22227; 2661; 22291; 9036; 9035; 9034; 22165]) (Some (LW 2661)) (Some (LW 22165));
    Cell ([2598; 16998; 22165; 16654], [22228; 2660; 22292; 9033; 9032; 9031; 22166]) (Some (LW 2660)) (Some (LW 22166));
    Cell ([2597; 16999; 22166; 16654], [22229; 2659; 22293; 9030; 9029; 9028; 22167]) (Some (LW 2659)) (Some (LW 22167));
    Cell ([2596; 17000; 22167; 16654], [22230; 2658; 22294; 9027; 9026; 9025; 22168]) (Some (LW 2658)) (Some (LW 22168));
    Cell ([2595; 17001; 22168; 16654], [22231; 2657; 22295; 9024; 9023; 9022; 22169]) (Some (LW 2657)) (Some (LW 22169));
    Cell ([2594; 17002; 22169; 16654], [22232; 2656; 22296; 9021; 9020; 9019; 22170]) (Some (LW 2656)) (Some (LW 22170));
    Cell ([2593; 17003; 22170; 16654], [22233; 2655; 22297; 9018; 9017; 9016; 22171]) (Some (LW 2655)) (Some (LW 22171));
    Cell ([2592; 17004; 22171; 16654], [22234; 2654; 22298; 9015; 9014; 9013; 22172]) (Some (LW 2654)) (Some (LW 22172));
    Cell ([2591; 17005; 22172; 16654], [22235; 2653; 22299; 9012; 9011; 9010; 22173]) (Some (LW 2653)) (Some (LW 22173));
    Cell ([2590; 17006; 22173; 16654], [22236; 2652; 22300; 9009; 9008; 9007; 22174]) (Some (LW 2652)) (Some (LW 22174));
    Cell ([2589; 17007; 22174; 16654], [22237; 2651; 22301; 9006; 9005; 9004; 22175]) (Some (LW 2651)) (Some (LW 22175));
    Cell ([2588; 17008; 22175; 16654], [22238; 2650; 22302; 9003; 9002; 9001; 22176]) (Some (LW 2650)) (Some (LW 22176));
    Cell ([2587; 17009; 22176; 16654], [22239; 169]) (Some (LW 169)) (None)]
   169 16653.
Definition divide64_row_40 : srow := SRow
   [Cell ([16842; 16946; 16653], [2775; 22051; 21925]) (Some (LW 2775)) (Some (LW 21925));
    Cell ([2712; 16947; 21925; 16653], [21988; 2774; 22052; 9000; 8999; 8998; 21926]) (Some (LW 2774)) (Some (LW 21926));
    Cell ([2711; 16948; 21926; 16653], [21989; 2773; 22053; 8997; 8996; 8995; 21927]) (Some (LW 2773)) (Some (LW 21927));
    Cell ([2710; 16949; 21927; 16653], [21990; 2772; 22054; 8994; 8993; 8992; 21928]) (Some (LW 2772)) (Some (LW 21928));
    Cell ([2709; 16950; 21928; 16653], [21991; 2771; 22055; 8991; 8990; 8989; 21929]) (Some (LW 2771)) (Some (LW 21929));
    Cell ([2708; 16951; 21929; 16653], [21992; 2770; 22056; 8988; 8987; 8986; 21930]) (Some (LW 2770)) (Some (LW 21930));
    Cell ([2707; 16952; 21930; 16653], [21993; 2769; 22057; 8985; 8984; 8983; 21931]) (Some (LW 2769)) (Some (LW 21931));
    Cell ([2706; 16953; 21931; 16653], [21994; 2768; 22058; 8982; 8981; 8980; 21932]) (Some (LW 2768)) (Some (LW 21932));
    Cell ([2705; 16954; 21932; 16653], [21995; 2767; 22059; 8979; 8978; 8977; 21933]) (Some (LW 2767)) (Some (LW 21933));
    Cell ([2704; 16955; 21933; 16653], [21996; 2766; 22060; 8976; 8975; 8974; 21934]) (Some (LW 2766)) (Some (LW 21934));
    Cell ([2703; 16956; 21934; 16653], [21997; 2765; 22061; 8973; 8972; 8971; 21935]) (Some (LW 2765)) (Some (LW 21935));
    Cell ([2702; 16957; 21935; 16653], [21998; 2764; 22062; 8970; 8969; 8968; 21936]) (Some (LW 2764)) (Some (LW 21936));
    Cell ([2701; 16958; 21936; 16653], [21999; 2763; 22063; 8967; 8966; 8965; 21937]) (Some (LW 2763)) (Some (LW 21937));
    Cell ([2700; 16959; 21937; 16653], [22000; 2762; 22064; 8964; 8963; 8962; 21938]) (Some (LW 2762)) (Some (LW 21938));
    Cell ([2699; 16960; 21938; 16653], [22001; 2761; 22065; 8961; 8960; 8959; 21939]) (Some (LW 2761)) (Some (LW 21939));
    Cell ([2698; 16961; 21939; 16653], [22002; 2760; 22066; 8958; 8957; 8956; 21940]) (Some (LW 2760)) (Some (LW 21940));
    Cell ([2697; 16962; 21940; 16653], [22003; 2759; 22067; 8955; 8954; 8953; 21941]) (Some (LW 2759)) (Some (LW 21941));
    Cell ([2696; 16963; 21941; 16653], [22004; 2758; 22068; 8952; 8951; 8950; 21942]) (Some (LW 2758)) (Some (LW 21942));
    Cell ([2695; 16964; 21942; 16653], [22005; 2757; 22069; 8949; 8948; 8947; 21943]) (Some (LW 2757)) (Some (LW 21943));
    Cell ([2694; 16965; 21943; 16653], [22006; 2756; 22070; 8946; 8945; 8944; 21944]) (Some (LW 2756)) (Some (LW 21944));
    Cell ([2693; 16966; 21944; 16653], [22007; 2755; 22071; 8943; 8942; 8941; 21945]) (Some (LW 2755)) (Some (LW 21945));
    Cell ([2692; 16967; 21945; 16653], [22008; 2754; 22072; 8940; 8939; 8938; 21946]) (Some (LW 2754)) (Some (LW 21946));
    Cell ([2691; 16968; 21946; 16653], [22009; 2753; 22073; 8937; 8936; 8935; 21947]) (Some (LW 2753)) (Some (LW 21947));
    Cell ([2690; 16969; 21947; 16653], [22010; 2752; 22074; 8934; 8933; 8932; 21948]) (Some (LW 2752)) (Some (LW 21948));
    Cell ([2689; 16970; 21948; 16653], [22011; 2751; 22075; 8931; 8930; 8929; 21949]) (Some (LW 2751)) (Some (LW 21949));
    Cell ([2688; 16971; 21949; 16653], [22012; 2750; 22076; 8928; 8927; 8926; 21950]) (Some (LW 2750)) (Some (LW 21950));
    Cell ([2687; 16972; 21950; 16653], [22013; 2749; 22077; 8925; 8924; 8923; 21951]) (Some (LW 2749)) (Some (LW 21951));
    Cell ([2686; 16973; 21951; 16653], [22014; 2748; 22078; 8922; 8921; 8920; 21952]) (Some (LW 2748)) (Some (LW 21952));
    Cell ([2685; 16974; 21952; 16653], [22015; 2747; 22079; 8919; 8918; 8917; 21953]) (Some (LW 2747)) (Some (LW 21953));
    Cell ([2684; 16975; 21953; 16653], [22016; 2746; 22080; 8916; 8915; 8914; 21954]) (Some (LW 2746)) (Some (LW 21954));
    Cell ([2683; 16976; 21954; 16653], [22017; 2745; 22081; 8913; 8912; 8911; 21955]) (Some (LW 2745)) (Some (LW 21955));
    Cell ([2682; 16977; 21955; 16653], [22018; 2744; 22082; 8910; 8909; 8908; 21956]) (Some (LW 2744)) (Some (LW 21956));
    Cell ([2681; 16978; 21956; 16653], [22019; 2743; 22083; 8907; 8906; 8905; 21957]) (Some (LW 2743)) (Some (LW 21957));
    Cell ([2680; 16979; 21957; 16653], [22020; 2742; 22084; 8904; 8903; 8902; 21958]) (Some (LW 2742)) (Some (LW 21958));
    Cell ([2679; 16980; 21958; 16653], [22021; 2741; 22085; 8901; 8900; 8899; 21959]) (Some (LW 2741)) (Some (LW 21959));
    Cell ([2678; 16981; 21959; 16653], [22022; 2740; 22086; 8898; 8897; 8896; 21960]) (Some (LW 2740)) (Some (LW 21960));
    Cell ([2677; 16982; 21960; 16653], [22023; 2739; 22087; 8895; 8894; 8893; 21961]) (Some (LW 2739)) (Some (LW 21961));
    Cell ([2676; 16983; 21961; 16653], [22024; 2738; 22088; 8892; 8891; 8890; 21962]) (Some (LW 2738)) (Some (LW 21962));
    Cell ([2675; 16984; 21962; 16653], [22025; 2737; 22089; 8889; 8888; 8887; 21963]) (Some (LW 2737)) (Some (LW 21963));
    Cell ([2674; 16985; 21963; 16653], [22026; 2736; 22090; 8886; 8885; 8884; 21964]) (Some (LW 2736)) (Some (LW 21964));
    Cell ([2673; 16986; 21964; 16653], [22027; 2735; 22091; 8883; 8882; 8881; 21965]) (Some (LW 2735)) (Some (LW 21965));
    Cell ([2672; 16987; 21965; 16653], [22028; 2734; 22092; 8880; 8879; 8878; 21966]) (Some (LW 2734)) (Some (LW 21966));
    Cell ([2671; 16988; 21966; 16653], [22029; 2733; 22093; 8877; 8876; 8875; 21967]) (Some (LW 2733)) (Some (LW 21967));
    Cell ([2670; 16989; 21967; 16653], [22030; 2732; 22094; 8874; 8873; 8872; 21968]) (Some (LW 2732)) (Some (LW 21968));
    Cell ([2669; 16990; 21968; 16653], [22031; 2731; 22095; 8871; 8870; 8869; 21969]) (Some (LW 2731)) (Some (LW 21969));
    Cell ([2668; 16991; 21969; 16653], [22032; 2730; 22096; 8868; 8867; 8866; 21970]) (Some (LW 2730)) (Some (LW 21970));
    Cell ([2667; 16992; 21970; 16653], [22033; 2729; 22097; 8865; 8864; 8863; 21971]) (Some (LW 2729)) (Some (LW 21971));
    Cell ([2666; 16993; 21971; 16653], [22034; 2728; 22098; 8862; 8861; 8860; 21972]) (Some (LW 2728)) (Some (LW 21972));
    Cell ([2665; 16994; 21972; 16653], [22035; 2727; 22099; 8859; 8858; 8857; 21973]) (Some (LW 2727)) (Some (LW 21973));
    Cell ([2664; 16995; 21973; 16653], [22036; 2726; 22100; 8856; 8855; 8854; 21974]) (Some (LW 2726)) (Some (LW 21974));
    Cell ([2663; 16996; 21974; 16653], [22037; 2725; 22101; 8853; 8852; 8851; 21975]) (Some (LW 2725)) (Some (LW 21975));
    Cell ([2662; 16997; 21975; 16653], [22038; 2724; 22102; 8850; 8849; 8848; 21976]) (Some (LW 2724)) (Some (LW 21976));
    Cell ([2661; 16998; 21976; 16653], [22039; 2723; 22103; 8847; 8846; 8845; 21977]) (Some (LW 2723)) (Some (LW 21977));
    Cell ([2660; 16999; 21977; 16653], [22040; 2722; 22104; 8844; 8843; 8842; 21978]) (Some (LW 2722)) (Some (LW 21978));
    Cell ([2659; 17000; 21978; 16653], [22041; 2721; 22105; 8841; 8840; 8839; 21979]) (Some (LW 2721)) (Some (LW 21979));
    Cell ([2658; 17001; 21979; 16653], [22042; 2720; 22106; 8838; 8837; 8836; 21980]) (Some (LW 2720)) (Some (LW 21980));
    Cell ([2657; 17002; 21980; 16653], [22043; 2719; 22107; 8835; 8834; 8833; 21981]) (Some (LW 2719)) (Some (LW 21981));
    Cell ([2656; 17003; 21981; 16653], [22044; 2718; 22108; 8832; 8831; 8830; 21982]) (Some (LW 2718)) (Some (LW 21982));
    Cell ([2655; 17004; 21982; 16653], [22045; 2717; 22109; 8829; 8828; 8827; 21983]) (Some (LW 2717)) (Some (LW 21983));
    Cell ([2654; 17005; 21983; 16653], [22046; 2716; 22110; 8826; 8825; 8824; 21984]) (Some (LW 2716)) (Some (LW 21984));
    Cell ([2653; 17006; 21984; 16653], [22047; 2715; 22111; 8823; 8822; 8821; 21985]) (Some (LW 2715)) (Some (LW 21985));
    Cell ([2652; 17007; 21985; 16653], [22048; 2714; 22112; 8820; 8819; 8818; 21986]) (Some (LW 2714)) (Some (LW 21986));
    Cell ([2651; 17008; 21986; 16653], [22049; 2713; 22113; 8817; 8816; 8815; 21987]) (Some (LW 2713)) (Some (LW 21987));
    Cell ([2650; 17009; 21987; 16653], [22050; 170]) (Some (LW 170)) (None)]
   170 16652.
Definition divide64_row_41 : srow := SRow
   [Cell ([16841; 16946; 16652], [2838; 21862; 21736]) (Some (LW 2838)) (Some (LW 21736));
    Cell ([2775; 16947; 21736; 16652], [21799; 2837; 21863; 8814; 8813; 8812; 21737]) (Some (LW 2837)) (Some (LW 21737));
    Cell ([2774; 16948; 21737; 16652], [21800; 2836; 21864; 8811; 8810; 8809; 21738]) (Some (LW 2836)) (Some (LW 21738));
    Cell ([2773; 16949; 21738; 16652], [21801; 2835; 21865; 8808; 8807; 8806; 21739]) (Some (LW 2835)) (Some (LW 21739));
    Cell ([2772; 16950; 21739; 16652], [21802; 2834; 21866; 8805; 8804; 8803; 21740]) (Some (LW 2834)) (Some (LW 21740));
    Cell ([2771; 16951; 21740; 16652], [21803; 2833; 21867; 8802; 8801; 8800; 21741]) (Some (LW 2833)) (Some (LW 21741));
    Cell ([2770; 16952; 21741; 16652], [21804; 2832; 21868; 8799; 8798; 8797; 21742]) (Some (LW 2832)) (Some (LW 21742));
    Cell ([2769; 16953; 21742; 16652], [21805; 2831; 21869; 8796; 8795; 8794; 21743]) (Some (LW 2831)) (Some (LW 21743));
    Cell ([2768; 16954; 21743; 16652], [21806; 2830; 21870; 8793; 8792; 8791; 21744]) (Some (LW 2830)) (Some (LW 21744));
    Cell ([2767; 16955; 21744; 16652], [21807; 2829; 21871; 8790; 8789; 8788; 21745]) (Some (LW 2829)) (Some (LW 21745));
    Cell ([2766; 16956; 21745; 16652], [21808; 2828; 21872; 8787; 8786; 8785; 21746]) (Some (LW 2828)) (Some (LW 21746));
    Cell ([2765; 16957; 21746; 16652], [21809; 2827; 21873; 8784; 8783; 8782; 21747]) (Some (LW 2827)) (Some (LW 21747));
    Cell ([2764; 16958; 21747; 16652], [21810; 2826; 21874; 8781; 8780; 8779; 21748]) (Some (LW 2826)) (Some (LW 21748));
    Cell ([2763; 16959; 21748; 16652], [21811; 2825; 21875; 8778; 8777; 8776; 21749]) (Some (LW 2825)) (Some (LW 21749));
    Cell ([2762; 16960; 21749; 16652], [21812; 2824; 21876; 8775; 8774; 8773; 21750]) (Some (LW 2824)) (Some (LW 21750));
    Cell ([2761; 16961; 21750; 16652], [21813; 2823; 21877; 8772; 8771; 8770; 21751]) (Some (LW 2823)) (Some (LW 21751));
    Cell ([2760; 16962; 21751; 16652], [21814; 2822; 21878; 8769; 8768; 8767; 21752]) (Some (LW 2822)) (Some (LW 21752));
    Cell ([2759; 16963; 21752; 16652], [21815; 2821; 21879; 8766; 8765; 8764; 21753]) (Some (LW 2821)) (Some (LW 21753));
    Cell ([2758; 16964; 21753; 16652], [21816; 2820; 21880; 8763; 8762; 8761; 21754]) (Some (LW 2820)) (Some (LW 21754));
    Cell ([2757; 16965; 21754; 16652], [21817; 2819; 21881; 8760; 8759; 8758; 21755]) (Some (LW 2819)) (Some (LW 21755));
    Cell ([2756; 16966; 21755; 16652], [21818; 2818; 21882; 8757; 8756; 8755; 21756]) (Some (LW 2818)) (Some (LW 21756));
    Cell ([2755; 16967; 21756; 16652], [21819; 2817; 21883; 8754; 8753; 8752; 21757]) (Some (LW 2817)) (Some (LW 21757));
    Cell ([2754; 16968; 21757; 16652], [21820; 2816; 21884; 8751; 8750; 8749; 21758]) (Some (LW 2816)) (Some (LW 21758));
    Cell ([2753; 16969; 21758; 16652], [21821; 2815; 21885; 8748; 8747; 8746; 21759]) (Some (LW 2815)) (Some (LW 21759));
    Cell ([2752; 16970; 21759; 16652], [21822; 2814; 21886; 8745; 8744; 8743; 21760]) (Some (LW 2814)) (Some (LW 21760));
    Cell ([2751; 16971; 21760; 16652], [21823; 2813; 21887; 8742; 8741; 8740; 21761]) (Some (LW 2813)) (Some (LW 21761));
    Cell ([2750; 16972; 21761; 16652], [21824; 2812; 21888; 8739; 8738; 8737; 21762]) (Some (LW 2812)) (Some (LW 21762));
    Cell ([2749; 16973; 21762; 16652], [21825; 2811; 21889; 8736; 8735; 8734; 21763]) (Some (LW 2811)) (Some (LW 21763));
    Cell ([2748; 16974; 21763; 16652], [21826; 2810; 21890; 8733; 8732; 8731; 21764]) (Some (LW 2810)) (Some (LW 21764));
    Cell ([2747; 16975; 21764; 16652], [21827; 2809; 21891; 8730; 8729; 8728; 21765]) (Some (LW 2809)) (Some (LW 21765));
    Cell ([2746; 16976; 21765; 16652], [21828; 2808; 21892; 8727; 8726; 8725; 21766]) (Some (LW 2808)) (Some (LW 21766));
    Cell ([2745; 16977; 21766; 16652], [21829; 2807; 21893; 8724; 8723; 8722; 21767]) (Some (LW 2807)) (Some (LW 21767));
    Cell ([2744; 16978; 21767; 16652], [21830; 2806; 21894; 8721; 8720; 8719; 21768]) (Some (LW 2806)) (Some (LW 21768));
    Cell ([2743; 16979; 21768; 16652], [21831; 2805; 21895; 8718; 8717; 8716; 21769]) (Some (LW 2805)) (Some (LW 21769));
    Cell ([2742; 16980; 21769; 16652], [21832; 2804; 21896; 8715; 8714; 8713; 21770]) (Some (LW 2804)) (Some (LW 21770));
    Cell ([2741; 16981; 21770; 16652], [21833; 2803; 21897; 8712; 8711; 8710; 21771]) (Some (LW 2803)) (Some (LW 21771));
    Cell ([2740; 16982; 21771; 16652], [21834; 2802; 21898; 8709; 8708; 8707; 21772]) (Some (LW 2802)) (Some (LW 21772));
    Cell ([2739; 16983; 21772; 16652], [21835; 2801; 21899; 8706; 8705; 8704; 21773]) (Some (LW 2801)) (Some (LW 21773));
    Cell ([2738; 16984; 21773; 16652], [21836; 2800; 21900; 8703; 8702; 8701; 21774]) (Some (LW 2800)) (Some (LW 21774));
    Cell ([2737; 16985; 21774; 16652], [21837; 2799; 21901; 8700; 8699; 8698; 21775]) (Some (LW 2799)) (Some (LW 21775));
    Cell ([2736; 16986; 21775; 16652], [21838; 2798; 21902; 8697; 8696; 8695; 21776]) (Some (LW 2798)) (Some (LW 21776));
    Cell ([2735; 16987; 21776; 16652], [21839; 2797; 21903; 8694; 8693; 8692; 21777]) (Some (LW 2797)) (Some (LW 21777));
    Cell ([2734; 16988; 21777; 16652], [21840; 2796; 21904; 8691; 8690; 8689; 21778]) (Some (LW 2796)) (Some (LW 21778));
    Cell ([2733; 16989; 21778; 16652], [21841; 2795; 21905; 8688; 8687; 8686; 21779]) (Some (LW 2795)) (Some (LW 21779));
    Cell ([2732; 16990; 21779; 16652], [21842; 2794; 21906; 8685; 8684; 8683; 21780]) (Some (LW 2794)) (Some (LW 21780));
    Cell ([2731; 16991; 21780; 16652], [21843; 2793; 21907; 8682; 8681; 8680; 21781]) (Some (LW 2793)) (Some (LW 21781));
    Cell ([2730; 16992; 21781; 16652], [21844; 2792; 21908; 8679; 8678; 8677; 21782]) (Some (LW 2792)) (Some (LW 21782));
    Cell ([2729; 16993; 21782; 16652], [21845; 2791; 21909; 8676; 8675; 8674; 21783]) (Some (LW 2791)) (Some (LW 21783));
    Cell ([2728; 16994; 21783; 16652], [21846; 2790; 21910; 8673; 8672; 8671; 21784]) (Some (LW 2790)) (Some (LW 21784));
    Cell ([2727; 16995; 21784; 16652], [21847; 2789; 21911; 8670; 8669; 8668; 21785]) (Some (LW 2789)) (Some (LW 21785));
    Cell ([2726; 16996; 21785; 16652], [21848; 2788; 21912; 8667; 8666; 8665; 21786]) (Some (LW 2788)) (Some (LW 21786));
    Cell ([2725; 16997; 21786; 16652], [21849; 2787; 21913; 8664; 8663; 8662; 21787]) (Some (LW 2787)) (Some (LW 21787));
    Cell ([2724; 16998; 21787; 16652], [21850; 2786; 21914; 8661; 8660; 8659; 21788]) (Some (LW 2786)) (Some (LW 21788));
    Cell ([2723; 16999; 21788; 16652], [21851; 2785; 21915; 8658; 8657; 8656; 21789]) (Some (LW 2785)) (Some (LW 21789));
    Cell ([2722; 17000; 21789; 16652], [21852; 2784; 21916; 8655; 8654; 8653; 21790]) (Some (LW 2784)) (Some (LW 21790));
    Cell ([2721; 17001; 21790; 16652], [21853; 2783; 21917; 8652; 8651; 8650; 21791]) (Some (LW 2783)) (Some (LW 21791));
    Cell ([2720; 17002; 21791; 16652], [21854; 2782; 21918; 8649; 8648; 8647; 21792]) (Some (LW 2782)) (Some (LW 21792));
    Cell ([2719; 17003; 21792; 16652], [21855; 2781; 21919; 8646; 8645; 8644; 21793]) (Some (LW 2781)) (Some (LW 21793));
    Cell ([2718; 17004; 21793; 16652], [21856; 2780; 21920; 8643; 8642; 8641; 21794]) (Some (LW 2780)) (Some (LW 21794));
    Cell ([2717; 17005; 21794; 16652], [21857; 2779; 21921; 8640; 8639; 8638; 21795]) (Some (LW 2779)) (Some (LW 21795));
    Cell ([2716; 17006; 21795; 16652], [21858; 2778; 21922; 8637; 8636; 8635; 21796]) (Some (LW 2778)) (Some (LW 21796));
    Cell ([2715; 17007; 21796; 16652], [21859; 2777; 21923; 8634; 8633; 8632; 21797]) (Some (LW 2777)) (Some (LW 21797));
    Cell ([2714; 17008; 21797; 16652], [21860; 2776; 21924; 8631; 8630; 8629; 21798]) (Some (LW 2776)) (Some (LW 21798));
    Cell ([2713; 17009; 21798; 16652], [21861; 171]) (Some (LW 171)) (None)]
   171 16651.
Definition divide64_row_42 : srow := SRow
   [Cell ([16840; 16946; 16651], [2901; 21673; 21547]) (Some (LW 2901)) (Some (LW 21547));
    Cell ([2838; 16947; 21547; 16651], [21610; 2900; 21674; 8628; 8627; 8626; 21548]) (Some (LW 2900)) (Some (LW 21548));
    Cell ([2837; 16948; 21548; 16651], [21611; 2899; 21675; 8625; 8624; 8623; 21549]) (Some (LW 2899)) (Some (LW 21549));
    Cell ([2836; 16949; 21549; 16651], [21612; 2898; 21676; 8622; 8621; 8620; 21550]) (Some (LW 2898)) (Some (LW 21550));
    Cell ([2835; 16950; 21550; 16651], [21613; 2897; 21677; 8619; 8618; 8617; 21551]) (Some (LW 2897)) (Some (LW 21551));
    Cell ([2834; 16951; 21551; 16651], [21614; 2896; 21678; 8616; 8615; 8614; 21552]) (Some (LW 2896)) (Some (LW 21552));
    Cell ([2833; 16952; 21552; 16651], [21615; 2895; 21679; 8613; 8612; 8611; 21553]) (Some (LW 2895)) (Some (LW 21553));
    Cell ([2832; 16953; 21553; 16651], [21616; 2894; 21680; 8610; 8609; 8608; 21554]) (Some (LW 2894)) (Some (LW 21554));
    Cell ([2831; 16954; 21554; 16651], [21617; 2893; 21681; 8607; 8606; 8605; 21555]) (Some (LW 2893)) (Some (LW 21555));
    Cell ([2830; 16955; 21555; 16651], [21618; 2892; 21682; 8604; 8603; 8602; 21556]) (Some (LW 2892)) (Some (LW 21556));
    Cell ([2829; 16956; 21556; 16651], [21619; 2891; 21683; 8601; 8600; 8599; 21557]) (Some (LW 2891)) (Some (LW 21557));
    Cell ([2828; 16957; 21557; 16651], [21620; 2890; 21684; 8598; 8597; 8596; 21558]) (Some (LW 2890)) (Some (LW 21558));
    Cell ([2827; 16958; 21558; 16651], [21621; 2889; 21685; 8595; 8594; 8593; 21559]) (Some (LW 2889)) (Some (LW 21559));
    Cell ([2826; 16959; 21559; 16651], [21622; 2888; 21686; 8592; 8591; 8590; 21560]) (Some (LW 2888)) (Some (LW 21560));
    Cell ([2825; 16960; 21560; 16651], [21623; 2887; 21687; 8589; 8588; 8587; 21561]) (Some (LW 2887)) (Some (LW 21561));
    Cell ([2824; 16961; 21561; 16651], [21624; 2886; 21688; 8586; 8585; 8584; 21562]) (Some (LW 2886)) (Some (LW 21562));
    Cell ([2823; 16962; 21562; 16651], [21625; 2885; 21689; 8583; 8582; 8581; 21563]) (Some (LW 2885)) (Some (LW 21563));
    Cell ([2822; 16963; 21563; 16651], [21626; 2884; 21690; 8580; 8579; 8578; 21564]) (Some (LW 2884)) (Some (LW 21564));
    Cell ([2821; 16964; 21564; 16651], [21627; 2883; 21691; 8577; 8576; 8575; 21565]) (Some (LW 2883)) (Some (LW 21565));
    Cell ([2820; 16965; 21565; 16651], [21628; 2882; 21692; 8574; 8573; 8572; 21566]) (Some (LW 2882)) (Some (LW 21566));
    Cell ([2819; 16966; 21566; 16651], [21629; 2881; 21693; 8571; 8570; 8569; 21567]) (Some (LW 2881)) (Some (LW 21567));
    Cell ([2818; 16967; 21567; 16651], [21630; 2880; 21694; 8568; 8567; 8566; 21568]) (Some (LW 2880)) (Some (LW 21568));
    Cell ([2817; 16968; 21568; 16651], [21631; 2879; 21695; 8565; 8564; 8563; 21569]) (Some (LW 2879)) (Some (LW 21569));
    Cell ([2816; 16969; 21569; 16651], [21632; 2878; 21696; 8562; 8561; 8560; 21570]) (Some (LW 2878)) (Some (LW 21570));
    Cell ([2815; 16970; 21570; 16651], [21633; 2877; 21697; 8559; 8558; 8557; 21571]) (Some (LW 2877)) (Some (LW 21571));
    Cell ([2814; 16971; 21571; 16651], [21634; 2876; 21698; 8556; 8555; 8554; 21572]) (Some (LW 2876)) (Some (LW 21572));
    Cell ([2813; 16972; 21572; 16651], [21635; 2875; 21699; 8553; 8552; 8551; 21573]) (Some (LW 2875)) (Some (LW 21573));
    Cell ([2812; 16973; 21573; 16651], [21636; 2874; 21700; 8550; 8549; 8548; 21574]) (Some (LW 2874)) (Some (LW 21574));
    Cell ([2811; 16974; 21574; 16651], [21637; 2873; 21701; 8547; 8546; 8545; 21575]) (Some (LW 2873)) (Some (LW 21575));
    Cell ([2810; 16975; 21575; 16651], [21638; 2872; 21702; 8544; 8543; 8542; 21576]) (Some (LW 2872)) (Some (LW 21576));
    Cell ([2809; 16976; 21576; 16651], [21639; 2871; 21703; 8541; 8540; 8539; 21577]) (Some (LW 2871)) (Some (LW 21577));
    Cell ([2808; 16977; 21577; 16651], [21640; 2870; 21704; 8538; 8537; 8536; 21578]) (Some (LW 2870)) (Some (LW 21578));
    Cell ([2807; 16978; 21578; 16651], [21641; 2869; 21705; 8535; 8534; 8533; 21579]) (Some (LW 2869)) (Some (LW 21579));
    Cell ([2806; 16979; 21579; 16651], [21642; 2868; 21706; 8532; 8531; 8530; 21580]) (Some (LW 2868)) (Some (LW 21580));
    Cell ([2805; 16980; 21580; 16651], [21643; 2867; 21707; 8529; 8528; 8527; 21581]) (Some (LW 2867)) (Some (LW 21581));
    Cell ([2804; 16981; 21581; 16651], [21644; 2866; 21708; 8526; 8525; 8524; 21582]) (Some (LW 2866)) (Some (LW 21582));
    Cell ([2803; 16982; 21582; 16651], [21645; 2865; 21709; 8523; 8522; 8521; 21583]) (Some (LW 2865)) (Some (LW 21583));
    Cell ([2802; 16983; 21583; 16651], [21646; 2864; 21710; 8520; 8519; 8518; 21584]) (Some (LW 2864)) (Some (LW 21584));
    Cell ([2801; 16984; 21584; 16651], [21647; 2863; 21711; 8517; 8516; 8515; 21585]) (Some (LW 2863)) (Some (LW 21585));
    Cell ([2800; 16985; 21585; 16651], [21648; 2862; 21712; 8514; 8513; 8512; 21586]) (Some (LW 2862)) (Some (LW 21586));
    Cell ([2799; 16986; 21586; 16651], [21649; 2861; 21713; 8511; 8510; 8509; 21587]) (Some (LW 2861)) (Some (LW 21587));
    Cell ([2798; 16987; 21587; 16651], [21650; 2860; 21714; 8508; 8507; 8506; 21588]) (Some (LW 2860)) (Some (LW 21588));
    Cell ([2797; 16988; 21588; 16651], [21651; 2859; 21715; 8505; 8504; 8503; 21589]) (Some (LW 2859)) (Some (LW 21589));
    Cell ([2796; 16989; 21589; 16651], [21652; 2858; 21716; 8502; 8501; 8500; 21590]) (Some (LW 2858)) (Some (LW 21590));
    Cell ([2795; 16990; 21590; 16651], [21653; 2857; 21717; 8499; 8498; 8497; 21591]) (Some (LW 2857)) (Some (LW 21591));
    Cell ([2794; 16991; 21591; 16651], [21654; 2856; 21718; 8496; 8495; 8494; 21592]) (Some (LW 2856)) (Some (LW 21592));
    Cell ([2793; 16992; 21592; 16651], [21655; 2855; 21719; 8493; 8492; 8491; 21593]) (Some (LW 2855)) (Some (LW 21593));
    Cell ([2792; 16993; 21593; 16651], [21656; 2854; 21720; 8490; 8489; 8488; 21594]) (Some (LW 2854)) (Some (LW 21594));
    Cell ([2791; 16994; 21594; 16651], [21657; 2853; 21721; 8487; 8486; 8485; 21595]) (Some (LW 2853)) (Some (LW 21595));
    Cell ([2790; 16995; 21595; 16651], [21658; 2852; 21722; 8484; 8483; 8482; 21596]) (Some (LW 2852)) (Some (LW 21596));
    Cell ([2789; 16996; 21596; 16651], [21659; 2851; 21723; 8481; 8480; 8479; 21597]) (Some (LW 2851)) (Some (LW 21597));
    Cell ([2788; 16997; 21597; 16651], [21660; 2850; 21724; 8478; 8477; 8476; 21598]) (Some (LW 2850)) (Some (LW 21598));
    Cell ([2787; 16998; 21598; 16651], [21661; 2849; 21725; 8475; 8474; 8473; 21599]) (Some (LW 2849)) (Some (LW 21599));
    Cell ([2786; 16999; 21599; 16651], [21662; 2848; 21726; 8472; 8471; 8470; 21600]) (Some (LW 2848)) (Some (LW 21600));
    Cell ([2785; 17000; 21600; 16651], [21663; 2847; 21727; 8469; 8468; 8467; 21601]) (Some (LW 2847)) (Some (LW 21601));
    Cell ([2784; 17001; 21601; 16651], [21664; 2846; 21728; 8466; 8465; 8464; 21602]) (Some (LW 2846)) (Some (LW 21602));
    Cell ([2783; 17002; 21602; 16651], [21665; 2845; 21729; 8463; 8462; 8461; 21603]) (Some (LW 2845)) (Some (LW 21603));
    Cell ([2782; 17003; 21603; 16651], [21666; 2844; 21730; 8460; 8459; 8458; 21604]) (Some (LW 2844)) (Some (LW 21604));
    Cell ([2781; 17004; 21604; 16651], [21667; 2843; 21731; 8457; 8456; 8455; 21605]) (Some (LW 2843)) (Some (LW 21605));
    Cell ([2780; 17005; 21605; 16651], [21668; 2842; 21732; 8454; 8453; 8452; 21606]) (Some (LW 2842)) (Some (LW 21606));
    Cell ([2779; 17006; 21606; 16651], [21669; 2841; 21733; 8451; 8450; 8449; 21607]) (Some (LW 2841)) (Some (LW 21607));
    Cell ([2778; 17007; 21607; 16651], [21670; 2840; 21734; 8448; 8447; 8446; 21608]) (Some (LW 2840)) (Some (LW 21608));
    Cell ([2777; 17008; 21608; 16651], [21671; 2839; 21735; 8445; 8444; 8443; 21609]) (Some (LW 2839)) (Some (LW 21609));
    Cell ([2776; 17009; 21609; 16651], [21672; 172]) (Some (LW 172)) (None)]
   172 16650.
Definition divide64_row_43 : srow := SRow
   [Cell ([16839; 16946; 16650], [2964; 21484; 21358]) (Some (LW 2964)) (Some (LW 21358));
    Cell ([2901; 16947; 21358; 16650], [21421; 2963; 21485; 8442; 8441; 8440; 21359]) (Some (LW 2963)) (Some (LW 21359));
    Cell ([2900; 16948; 21359; 16650], [21422; 2962; 21486; 8439; 8438; 8437; 21360]) (Some (LW 2962)) (Some (LW 21360));
    Cell ([2899; 16949; 21360; 16650], [21423; 2961; 21487; 8436; 8435; 8434; 21361]) (Some (LW 2961)) (Some (LW 21361));
    Cell ([2898; 16950; 21361; 16650], [21424; 2960; 21488; 8433; 8432; 8431; 21362]) (Some (LW 2960)) (Some (LW 21362));
    Cell ([2897; 16951; 21362; 16650], [21425; 2959; 21489; 8430; 8429; 8428; 21363]) (Some (LW 2959)) (Some (LW 21363));
    Cell ([2896; 16952; 21363; 16650], [21426; 2958; 21490; 8427; 8426; 8425; 21364]) (Some (LW 2958)) (Some (LW 21364));
    Cell ([2895; 16953; 21364; 16650], [21427; 2957; 21491; 8424; 8423; 8422; 21365]) (Some (LW 2957)) (Some (LW 21365));
    Cell ([2894; 16954; 21365; 16650], [21428; 2956; 21492; 8421; 8420; 8419; 21366]) (Some (LW 2956)) (Some (LW 21366));
    Cell ([2893; 16955; 21366; 16650], [21429; 2955; 21493; 8418; 8417; 8416; 21367]) (Some (LW 2955)) (Some (LW 21367));
    Cell ([2892; 16956; 21367; 16650], [21430; 2954; 21494; 8415; 8414; 8413; 21368]) (Some (LW 2954)) (Some (LW 21368));
    Cell ([2891; 16957; 21368; 16650], [21431; 2953; 21495; 8412; 8411; 8410; 21369]) (Some (LW 2953)) (Some (LW 21369));
    Cell ([2890; 16958; 21369; 16650], [21432; 2952; 21496; 8409; 8408; 8407; 21370]) (Some (LW 2952)) (Some (LW 21370));
    Cell ([2889; 16959; 21370; 16650], [21433; 2951; 21497; 8406; 8405; 8404; 21371]) (Some (LW 2951)) (Some (LW 21371));
    Cell ([2888; 16960; 21371; 16650], [21434; 2950; 21498; 8403; 8402; 8401; 21372]) (Some (LW 2950)) (Some (LW 21372));
    Cell ([2887; 16961; 21372; 16650], [21435; 2949; 21499; 8400; 8399; 8398; 21373]) (Some (LW 2949)) (Some (LW 21373));
    Cell ([2886; 16962; 21373; 16650], [21436; 2948; 21500; 8397; 8396; 8395; 21374]) (Some (LW 2948)) (Some (LW 21374));
    Cell ([2885; 16963; 21374; 16650], [21437; 2947; 21501; 8394; 8393; 8392; 21375]) (Some (LW 2947)) (Some (LW 21375));
    Cell ([2884; 16964; 21375; 16650], [21438; 2946; 21502; 8391; 8390; 8389; 21376]) (Some (LW 2946)) (Some (LW 21376));
    Cell ([2883; 16965; 21376; 16650], [21439; 2945; 21503; 8388; 8387; 8386; 21377]) (Some (LW 2945)) (Some (LW 21377));
    Cell ([2882; 16966; 21377; 16650], [21440; 2944; 21504; 8385; 8384; 8383; 21378]) (Some (LW 2944)) (Some (LW 21378));
    Cell ([2881; 16967; 21378; 16650], [21441; 2943; 21505; 8382; 8381; 8380; 21379]) (Some (LW 2943)) (Some (LW 21379));
    Cell ([2880; 16968; 21379; 16650], [21442; 2942; 21506; 8379; 8378; 8377; 21380]) (Some (LW 2942)) (Some (LW 21380));
    Cell ([2879; 16969; 21380; 16650], [21443; 2941; 21507; 8376; 8375; 8374; 21381]) (Some (LW 2941)) (Some (LW 21381));
    Cell ([2878; 16970; 21381; 16650], [21444; 2940; 21508; 8373; 8372; 8371; 21382]) (Some (LW 2940)) (Some (LW 21382));
    Cell ([2877; 16971; 21382; 16650], [21445; 2939; 21509; 8370; 8369; 8368; 21383]) (Some (LW 2939)) (Some (LW 21383));
    Cell ([2876; 16972; 21383; 16650], [21446; 2938; 21510; 8367; 8366; 8365; 21384]) (Some (LW 2938)) (Some (LW 21384));
    Cell ([2875; 16973; 21384; 16650], [21447; 2937; 21511; 8364; 8363; 8362; 21385]) (Some (LW 2937)) (Some (LW 21385));
    Cell ([2874; 16974; 21385; 16650], [21448; 2936; 21512; 8361; 8360; 8359; 21386]) (Some (LW 2936)) (Some (LW 21386));
    Cell ([2873; 16975; 21386; 16650], [21449; 2935; 21513; 8358; 8357; 8356; 21387]) (Some (LW 2935)) (Some (LW 21387));
    Cell ([2872; 16976; 21387; 16650], [21450; 2934; 21514; 8355; 8354; 8353; 21388]) (Some (LW 2934)) (Some (LW 21388));
    Cell ([2871; 16977; 21388; 16650], [21451; 2933; 21515; 8352; 8351; 8350; 21389]) (Some (LW 2933)) (Some (LW 21389));
    Cell ([2870; 16978; 21389; 16650], [21452; 2932; 21516; 8349; 8348; 8347; 21390]) (Some (LW 2932)) (Some (LW 21390));
    Cell ([2869; 16979; 21390; 16650], [21453; 2931; 21517; 8346; 8345; 8344; 21391]) (Some (LW 2931)) (Some (LW 21391));
    Cell ([2868; 16980; 21391; 16650], [21454; 2930; 21518; 8343; 8342; 8341; 21392]) (Some (LW 2930)) (Some (LW 21392));
    Cell ([2867; 16981; 21392; 16650], [21455; 2929; 21519; 8340; 8339; 8338; 21393]) (Some (LW 2929)) (Some (LW 21393));
    Cell ([2866; 16982; 21393; 16650], [21456; 2928; 21520; 8337; 8336; 8335; 21394]) (Some (LW 2928)) (Some (LW 21394));
    Cell ([2865; 16983; 21394; 16650], [21457; 2927; 21521; 8334; 8333; 8332; 21395]) (Some (LW 2927)) (Some (LW 21395));
    Cell ([2864; 16984; 21395; 16650], [21458; 2926; 21522; 8331; 8330; 8329; 21396]) (Some (LW 2926)) (Some (LW 21396));
    Cell ([2863; 16985; 21396; 16650], [21459; 2925; 21523; 8328; 8327; 8326; 21397]) (Some (LW 2925)) (Some (LW 21397));
    Cell ([2862; 16986; 21397; 16650], [21460; 2924; 21524; 8325; 8324; 8323; 21398]) (Some (LW 2924)) (Some (LW 21398));
    Cell ([2861; 16987; 21398; 16650], [21461; 2923; 21525; 8322; 8321; 8320; 21399]) (Some (LW 2923)) (Some (LW 21399));
    Cell ([2860; 16988; 21399; 16650], [21462; 2922; 21526; 8319; 8318; 8317; 21400]) (Some (LW 2922)) (Some (LW 21400));
    Cell ([2859; 16989; 21400; 16650], [21463; 2921; 21527; 8316; 8315; 8314; 21401]) (Some (LW 2921)) (Some (LW 21401));
    Cell ([2858; 16990; 21401; 16650], [21464; 2920; 21528; 8313; 8312; 8311; 21402]) (Some (LW 2920)) (Some (LW 21402));
    Cell ([2857; 16991; 21402; 16650], [21465; 2919; 21529; 8310; 8309; 8308; 21403]) (Some (LW 2919)) (Some (LW 21403));
    Cell ([2856; 16992; 21403; 16650], [21466; 2918; 21530; 8307; 8306; 8305; 21404]) (Some (LW 2918)) (Some (LW 21404));
    Cell ([2855; 16993; 21404; 16650], [21467; 2917; 21531; 8304; 8303; 8302; 21405]) (Some (LW 2917)) (Some (LW 21405));
    Cell ([2854; 16994; 21405; 16650], [21468; 2916; 21532; 8301; 8300; 8299; 21406]) (Some (LW 2916)) (Some (LW 21406));
    Cell ([2853; 16995; 21406; 16650], [21469; 2915; 21533; 8298; 8297; 8296; 21407]) (Some (LW 2915)) (Some (LW 21407));
    Cell ([2852; 16996; 21407; 16650], [21470; 2914; 21534; 8295; 8294; 8293; 21408]) (Some (LW 2914)) (Some (LW 21408));
    Cell ([2851; 16997; 21408; 16650], [21471; 2913; 21535; 8292; 8291; 8290; 21409]) (Some (LW 2913)) (Some (LW 21409));
    Cell ([2850; 16998; 21409; 16650], [21472; 2912; 21536; 8289; 8288; 8287; 21410]) (Some (LW 2912)) (Some (LW 21410));
    Cell ([2849; 16999; 21410; 16650], [21473; 2911; 21537; 8286; 8285; 8284; 21411]) (Some (LW 2911)) (Some (LW 21411));
    Cell ([2848; 17000; 21411; 16650], [21474; 2910; 21538; 8283; 8282; 8281; 21412]) (Some (LW 2910)) (Some (LW 21412));
    Cell ([2847; 17001; 21412; 16650], [21475; 2909; 21539; 8280; 8279; 8278; 21413]) (Some (LW 2909)) (Some (LW 21413));
    Cell ([2846; 17002; 21413; 16650], [21476; 2908; 21540; 8277; 8276; 8275; 21414]) (Some (LW 2908)) (Some (LW 21414));
    Cell ([2845; 17003; 21414; 16650], [21477; 2907; 21541; 8274; 8273; 8272; 21415]) (Some (LW 2907)) (Some (LW 21415));
    Cell ([2844; 17004; 21415; 16650], [21478; 2906; 21542; 8271; 8270; 8269; 21416]) (Some (LW 2906)) (Some (LW 21416));
    Cell ([2843; 17005; 21416; 16650], [21479; 2905; 21543; 8268; 8267; 8266; 21417]) (Some (LW 2905)) (Some (LW 21417));
    Cell ([2842; 17006; 21417; 16650], [21480; 2904; 21544; 8265; 8264; 8263; 21418]) (Some (LW 2904)) (Some (LW 21418));
    Cell ([2841; 17007; 21418; 16650], [21481; 2903; 21545; 8262; 8261; 8260; 21419]) (Some (LW 2903)) (Some (LW 21419));
    Cell ([2840; 17008; 21419; 16650], [21482; 2902; 21546; 8259; 8258; 8257; 21420]) (Some (LW 2902)) (Some (LW 21420));
    Cell ([2839; 17009; 21420; 16650], [21483; 173]) (Some (LW 173)) (None)]
   173 16649.
Definition divide64_row_44 : srow := SRow
   [Cell ([16838; 16946; 16649], [3027; 21295; 21169]) (Some (LW 3027)) (Some (LW 21169));
    Cell ([2964; 16947; 21169; 16649], [21232; 3026; 21296; 8256; 8255; 8254; 21170]) (Some (LW 3026)) (Some (LW 21170));
    Cell ([2963; 16948; 21170; 16649], [21233; 3025; 21297; 8253; 8252; 8251; 21171]) (Some (LW 3025)) (Some (LW 21171));
    Cell ([2962; 16949; 21171; 16649], [21234; 3024; 21298; 8250; 8249; 8248; 21172]) (Some (LW 3024)) (Some (LW 21172));
    Cell ([2961; 16950; 21172; 16649], [21235; 3023; 21299; 8247; 8246; 8245; 21173]) (Some (LW 3023)) (Some (LW 21173));
    Cell ([2960; 16951; 21173; 16649], [21236; 3022; 21300; 8244; 8243; 8242; 21174]) (Some (LW 3022)) (Some (LW 21174));
    Cell ([2959; 16952; 21174; 16649], [21237; 3021; 21301; 8241; 8240; 8239; 21175]) (Some (LW 3021)) (Some (LW 21175));
    Cell ([2958; 16953; 21175; 16649], [21238; 3020; 21302; 8238; 8237; 8236; 21176]) (Some (LW 3020)) (Some (LW 21176));
    Cell ([2957; 16954; 21176; 16649], [21239; 3019; 21303; 8235; 8234; 8233; 21177]) (Some (LW 3019)) (Some (LW 21177));
    Cell ([2956; 16955; 21177; 16649], [21240; 3018; 21304; 8232; 8231; 8230; 21178]) (Some (LW 3018)) (Some (LW 21178));
    Cell ([2955; 16956; 21178; 16649], [21241; 3017; 21305; 8229; 8228; 8227; 21179]) (Some (LW 3017)) (Some (LW 21179));
    Cell ([2954; 16957; 21179; 16649], [21242; 3016; 21306; 8226; 8225; 8224; 21180]) (Some (LW 3016)) (Some (LW 21180));
    Cell ([2953; 16958; 21180; 16649], [21243; 3015; 21307; 8223; 8222; 8221; 21181]) (Some (LW 3015)) (Some (LW 21181));
    Cell ([2952; 16959; 21181; 16649], [21244; 3014; 21308; 8220; 8219; 8218; 21182]) (Some (LW 3014)) (Some (LW 21182));
    Cell ([2951; 16960; 21182; 16649], [21245; 3013; 21309; 8217; 8216; 8215; 21183]) (Some (LW 3013)) (Some (LW 21183));
    Cell ([2950; 16961; 21183; 16649], [21246; 3012; 21310; 8214; 8213; 8212; 21184]) (Some (LW 3012)) (Some (LW 21184));
    Cell ([2949; 16962; 21184; 16649], [21247; 3011; 21311; 8211; 8210; 8209; 21185]) (Some (LW 3011)) (Some (LW 21185));
    Cell ([2948; 16963; 21185; 16649], [21248; 3010; 21312; 8208; 8207; 8206; 21186]) (Some (LW 3010)) (Some (LW 21186));
    Cell ([2947; 16964; 21186; 16649], [21249; 3009; 21313; 8205; 8204; 8203; 21187]) (Some (LW 3009)) (Some (LW 21187));
    Cell ([2946; 16965; 21187; 16649], [21250; 3008; 21314; 8202; 8201; 8200; 21188]) (Some (LW 3008)) (Some (LW 21188));
    Cell ([2945; 16966; 21188; 16649], [21251; 3007; 21315; 8199; 8198; 8197; 21189]) (Some (LW 3007)) (Some (LW 21189));
    Cell ([2944; 16967; 21189; 16649], [21252; 3006; 21316; 8196; 8195; 8194; 21190]) (Some (LW 3006)) (Some (LW 21190));
    Cell ([2943; 16968; 21190; 16649], [21253; 3005; 21317; 8193; 8192; 8191; 21191]) (Some (LW 3005)) (Some (LW 21191));
    Cell ([2942; 16969; 21191; 16649], [21254; 3004; 21318; 8190; 8189; 8188; 21192]) (Some (LW 3004)) (Some (LW 21192));
    Cell ([2941; 16970; 21192; 16649], [21255; 3003; 21319; 8187; 8186; 8185; 21193]) (Some (LW 3003)) (Some (LW 21193));
    Cell ([2940; 16971; 21193; 16649], [21256; 3002; 21320; 8184; 8183; 8182; 21194]) (Some (LW 3002)) (Some (LW 21194));
    Cell ([2939; 16972; 21194; 16649], [21257; 3001; 21321; 8181; 8180; 8179; 21195]) (Some (LW 3001)) (Some (LW 21195));
    Cell ([2938; 16973; 21195; 16649], [21258; 3000; 21322; 8178; 8177; 8176; 21196]) (Some (LW 3000)) (Some (LW 21196));
    Cell ([2937; 16974; 21196; 16649], [21259; 2999; 21323; 8175; 8174; 8173; 21197]) (Some (LW 2999)) (Some (LW 21197));
    Cell ([2936; 16975; 21197; 16649], [21260; 2998; 21324; 8172; 8171; 8170; 21198]) (Some (LW 2998)) (Some (LW 21198));
    Cell ([2935; 16976; 21198; 16649], [21261; 2997; 21325; 8169; 8168; 8167; 21199]) (Some (LW 2997)) (Some (LW 21199));
    Cell ([2934; 16977; 21199; 16649], [21262; 2996; 21326; 8166; 8165; 8164; 21200]) (Some (LW 2996)) (Some (LW 21200));
    Cell ([2933; 16978; 21200; 16649], [21263; 2995; 21327; 8163; 8162; 8161; 21201]) (Some (LW 2995)) (Some (LW 21201));
    Cell ([2932; 16979; 21201; 16649], [21264; 2994; 21328; 8160; 8159; 8158; 21202]) (Some (LW 2994)) (Some (LW 21202));
    Cell ([2931; 16980; 21202; 16649], [21265; 2993; 21329; 8157; 8156; 8155; 21203]) (Some (LW 2993)) (Some (LW 21203));
    Cell ([2930; 16981; 21203; 16649], [21266; 2992; 21330; 8154; 8153; 8152; 21204]) (Some (LW 2992)) (Some (LW 21204));
    Cell ([2929; 16982; 21204; 16649], [21267; 2991; 21331; 8151; 8150; 8149; 21205]) (Some (LW 2991)) (Some (LW 21205));
    Cell ([2928; 16983; 21205; 16649], [21268; 2990; 21332; 8148; 8147; 8146; 21206]) (Some (LW 2990)) (Some (LW 21206));
    Cell ([2927; 16984; 21206; 16649], [21269; 2989; 21333; 8145; 8144; 8143; 21207]) (Some (LW 2989)) (Some (LW 21207));
    Cell ([2926; 16985; 21207; 16649], [21270; 2988; 21334; 8142; 8141; 8140; 21208]) (Some (LW 2988)) (Some (LW 21208));
    Cell ([2925; 16986; 21208; 16649], [21271; 2987; 21335; 8139; 8138; 8137; 21209]) (Some (LW 2987)) (Some (LW 21209));
    Cell ([2924; 16987; 21209; 16649], [21272; 2986; 21336; 8136; 8135; 8134; 21210]) (Some (LW 2986)) (Some (LW 21210));
    Cell ([2923; 16988; 21210; 16649], [21273; 2985; 21337; 8133; 8132; 8131; 21211]) (Some (LW 2985)) (Some (LW 21211));
    Cell ([2922; 16989; 21211; 16649], [21274; 2984; 21338; 8130; 8129; 8128; 21212]) (Some (LW 2984)) (Some (LW 21212));
    Cell ([2921; 16990; 21212; 16649], [21275; 2983; 21339; 8127; 8126; 8125; 21213]) (Some (LW 2983)) (Some (LW 21213));
    Cell ([2920; 16991; 21213; 16649], [21276; 2982; 21340; 8124; 8123; 8122; 21214]) (Some (LW 2982)) (Some (LW 21214));
    Cell ([2919; 16992; 21214; 16649], [21277; 2981; 21341; 8121; 8120; 8119; 21215]) (Some (LW 2981)) (Some (LW 21215));
    Cell ([2918; 16993; 21215; 16649], [21278; 2980; 21342; 8118; 8117; 8116; 21216]) (Some (LW 2980)) (Some (LW 21216));
    Cell ([2917; 16994; 21216; 16649], [21279; 2979; 21343; 8115; 8114; 8113; 21217]) (Some (LW 2979)) (Some (LW 21217));
    Cell ([2916; 16995; 21217; 16649], [21280; 2978; 21344; 8112; 8111; 8110; 21218]) (Some (LW 2978)) (Some (LW 21218));
    Cell ([2915; 16996; 21218; 16649], [21281; 2977; 21345; 8109; 8108; 8107; 21219]) (Some (LW 2977)) (Some (LW 21219));
    Cell ([2914; 16997; 21219; 16649], [21282; 2976; 21346; 8106; 8105; 8104; 21220]) (Some (LW 2976)) (Some (LW 21220));
    Cell ([2913; 16998; 21220; 16649], [21283; 2975; 21347; 8103; 8102; 8101; 21221]) (Some (LW 2975)) (Some (LW 21221));
    Cell ([2912; 16999; 21221; 16649], [21284; 2974; 21348; 8100; 8099; 8098; 21222]) (Some (LW 2974)) (Some (LW 21222));
    Cell ([2911; 17000; 21222; 16649], [21285; 2973; 21349; 8097; 8096; 8095; 21223]) (Some (LW 2973)) (Some (LW 21223));
    Cell ([2910; 17001; 21223; 16649], [21286; 2972; 21350; 8094; 8093; 8092; 21224]) (Some (LW 2972)) (Some (LW 21224));
    Cell ([2909; 17002; 21224; 16649], [21287; 2971; 21351; 8091; 8090; 8089; 21225]) (Some (LW 2971)) (Some (LW 21225));
    Cell ([2908; 17003; 21225; 16649], [21288; 2970; 21352; 8088; 8087; 8086; 21226]) (Some (LW 2970)) (Some (LW 21226));
    Cell ([2907; 17004; 21226; 16649], [21289; 2969; 21353; 8085; 8084; 8083; 21227]) (Some (LW 2969)) (Some (LW 21227));
    Cell ([2906; 17005; 21227; 16649], [21290; 2968; 21354; 8082; 8081; 8080; 21228]) (Some (LW 2968)) (Some (LW 21228));
    Cell ([2905; 17006; 21228; 16649], [21291; 2967; 21355; 8079; 8078; 8077; 21229]) (Some (LW 2967)) (Some (LW 21229));
    Cell ([2904; 17007; 21229; 16649], [21292; 2966; 21356; 8076; 8075; 8074; 21230]) (Some (LW 2966)) (Some (LW 21230));
    Cell ([2903; 17008; 21230; 16649], [21293; 2965; 21357; 8073; 8072; 8071; 21231]) (Some (LW 2965)) (Some (LW 21231));
    Cell ([2902; 17009; 21231; 16649], [21294; 174]) (Some (LW 174)) (None)]
   174 16648.
Definition divide64_row_45 : srow := SRow
   [Cell ([16837; 16946; 16648], [3090; 21106; 20980]) (Some (LW 3090)) (Some (LW 20980));
    Cell ([3027; 16947; 20980; 16648], [21043; 3089; 21107; 8070; 8069; 8068; 20981]) (Some (LW 3089)) (Some (LW 20981));
    Cell ([3026; 16948; 20981; 16648], [21044; 3088; 21108; 8067; 8066; 8065; 20982]) (Some (LW 3088)) (Some (LW 20982));
    Cell ([3025; 16949; 20982; 16648], [21045; 3087; 21109; 8064; 8063; 8062; 20983]) (Some (LW 3087)) (Some (LW 20983));
    Cell ([3024; 16950; 20983; 16648], [21046; 3086; 21110; 8061; 8060; 8059; 20984]) (Some (LW 3086)) (Some (LW 20984));
    Cell ([3023; 16951; 20984; 16648], [21047; 3085; 21111; 8058; 8057; 8056; 20985]) (Some (LW 3085)) (Some (LW 20985));
    Cell ([3022; 16952; 20985; 16648], [21048; 3084; 21112; 8055; 8054; 8053; 20986]) (Some (LW 3084)) (Some (LW 20986));
    Cell ([3021; 16953; 20986; 16648], [21049; 3083; 21113; 8052; 8051; 8050; 20987]) (Some (LW 3083)) (Some (LW 20987));
    Cell ([3020; 16954; 20987; 16648], [21050; 3082; 21114; 8049; 8048; 8047; 20988]) (Some (LW 3082)) (Some (LW 20988));
    Cell ([3019; 16955; 20988; 16648], [21051; 3081; 21115; 8046; 8045; 8044; 20989]) (Some (LW 3081)) (Some (LW 20989));
    Cell ([3018; 16956; 20989; 16648], [21052; 3080; 21116; 8043; 8042; 8041; 20990]) (Some (LW 3080)) (Some (LW 20990));
    Cell ([3017; 16957; 20990; 16648], [21053; 3079; 21117; 8040; 8039; 8038; 20991]) (Some (LW 3079)) (Some (LW 20991));
    Cell ([3016; 16958; 20991; 16648], [21054; 3078; 21118; 8037; 8036; 8035; 20992]) (Some (LW 3078)) (Some (LW 20992));
    Cell ([3015; 16959; 20992; 16648], [21055; 3077; 21119; 8034; 8033; 8032; 20993]) (Some (LW 3077)) (Some (LW 20993));
    Cell ([3014; 16960; 20993; 16648], [21056; 3076; 21120; 8031; 8030; 8029; 20994]) (Some (LW 3076)) (Some (LW 20994));
    Cell ([3013; 16961; 20994; 16648], [21057; 3075; 21121; 8028; 8027; 8026; 20995]) (Some (LW 3075)) (Some (LW 20995));
    Cell ([3012; 16962; 20995; 16648], [21058; 3074; 21122; 8025; 8024; 8023; 20996]) (Some (LW 3074)) (Some (LW 20996));
    Cell ([3011; 16963; 20996; 16648], [21059; 3073; 21123; 8022; 8021; 8020; 20997]) (Some (LW 3073)) (Some (LW 20997));
    Cell ([3010; 16964; 20997; 16648], [21060; 3072; 21124; 8019; 8018; 8017; 20998]) (Some (LW 3072)) (Some (LW 20998));
    Cell ([3009; 16965; 20998; 16648], [21061; 3071; 21125; 8016; 8015; 8014; 20999]) (Some (LW 3071)) (Some (LW 20999));
    Cell ([3008; 16966; 20999; 16648], [21062; 3070; 21126; 8013; 8012; 8011; 21000]) (Some (LW 3070)) (Some (LW 21000));
    Cell ([3007; 16967; 21000; 16648], [21063; 3069; 21127; 8010; 8009; 8008; 21001]) (Some (LW 3069)) (Some (LW 21001));
    Cell ([3006; 16968; 21001; 16648], [21064; 3068; 21128; 8007; 8006; 8005; 21002]) (Some (LW 3068)) (Some (LW 21002));
    Cell ([3005; 16969; 21002; 16648], [21065; 3067; 21129; 8004; 8003; 8002; 21003]) (Some (LW 3067)) (Some (LW 21003));
    Cell ([3004; 16970; 21003; 16648], [21066; 3066; 21130; 8001; 8000; 7999; 21004]) (Some (LW 3066)) (Some (LW 21004));
    Cell ([3003; 16971; 21004; 16648], [21067; 3065; 21131; 7998; 7997; 7996; 21005]) (Some (LW 3065)) (Some (LW 21005));
    Cell ([3002; 16972; 21005; 16648], [21068; 3064; 21132; 7995; 7994; 7993; 21006]) (Some (LW 3064)) (Some (LW 21006));
    Cell ([3001; 16973; 21006; 16648], [21069; 3063; 21133; 7992; 7991; 7990; 21007]) (Some (LW 3063)) (Some (LW 21007));
    Cell ([3000; 16974; 21007; 16648], [21070; 3062; 21134; 7989; 7988; 7987; 21008]) (Some (LW 3062)) (Some (LW 21008));
    Cell ([2999; 16975; 21008; 16648], [21071; 3061; 21135; 7986; 7985; 7984; 21009]) (Some (LW 3061)) (Some (LW 21009));
    Cell ([2998; 16976; 21009; 16648], [21072; 3060; 21136; 7983; 7982; 7981; 21010]) (Some (LW 3060)) (Some (LW 21010));
    Cell ([2997; 16977; 21010; 16648], [21073; 3059; 21137; 7980; 7979; 7978; 21011]) (Some (LW 3059)) (Some (LW 21011));
    Cell ([2996; 16978; 21011; 16648], [21074; 3058; 21138; 7977; 7976; 7975; 21012]) (Some (LW 3058)) (Some (LW 21012));
    Cell ([2995; 16979; 21012; 16648], [21075; 3057; 21139; 7974; 7973; 7972; 21013]) (Some (LW 3057)) (Some (LW 21013));
    Cell ([2994; 16980; 21013; 16648], [21076; 3056; 21140; 7971; 7970; 7969; 21014]) (Some (LW 3056)) (Some (LW 21014));
    Cell ([2993; 16981; 21014; 16648], [21077; 3055; 21141; 7968; 7967; 7966; 21015]) (Some (LW 3055)) (Some (LW 21015));
    Cell ([2992; 16982; 21015; 16648], [21078; 3054; 21142; 7965; 7964; 7963; 21016]) (Some (LW 3054)) (Some (LW 21016));
    Cell ([2991; 16983; 21016; 16648], [21079; 3053; 21143; 7962; 7961; 7960; 21017]) (Some (LW 3053)) (Some (LW 21017));
    Cell ([2990; 16984; 21017; 16648], [21080; 3052; 21144; 7959; 7958; 7957; 21018]) (Some (LW 3052)) (Some (LW 21018));
    Cell ([2989; 16985; 21018; 16648], [21081; 3051; 21145; 7956; 7955; 7954; 21019]) (Some (LW 3051)) (Some (LW 21019));
    Cell ([2988; 16986; 21019; 16648], [21082; 3050; 21146; 7953; 7952; 7951; 21020]) (Some (LW 3050)) (Some (LW 21020));
    Cell ([2987; 16987; 21020; 16648], [21083; 3049; 21147; 7950; 7949; 7948; 21021]) (Some (LW 3049)) (Some (LW 21021));
    Cell ([2986; 16988; 21021; 16648], [21084; 3048; 21148; 7947; 7946; 7945; 21022]) (Some (LW 3048)) (Some (LW 21022));
    Cell ([2985; 16989; 21022; 16648], [21085; 3047; 21149; 7944; 7943; 7942; 21023]) (Some (LW 3047)) (Some (LW 21023));
    Cell ([2984; 16990; 21023; 16648], [21086; 3046; 21150; 7941; 7940; 7939; 21024]) (Some (LW 3046)) (Some (LW 21024));
    Cell ([2983; 16991; 21024; 16648], [21087; 3045; 21151; 7938; 7937; 7936; 21025]) (Some (LW 3045)) (Some (LW 21025));
    Cell ([2982; 16992; 21025; 16648], [21088; 3044; 21152; 7935; 7934; 7933; 21026]) (Some (LW 3044)) (Some (LW 21026));
    Cell ([2981; 16993; 21026; 16648], [21089; 3043; 21153; 7932; 7931; 7930; 21027]) (Some (LW 3043)) (Some (LW 21027));
    Cell ([2980; 16994; 21027; 16648], [21090; 3042; 21154; 7929; 7928; 7927; 21028]) (Some (LW 3042)) (Some (LW 21028));
    Cell ([2979; 16995; 21028; 16648], [21091; 3041; 21155; 7926; 7925; 7924; 21029]) (Some (LW 3041)) (Some (LW 21029));
    Cell ([2978; 16996; 21029; 16648], [21092; 3040; 21156; 7923; 7922; 7921; 21030]) (Some (LW 3040)) (Some (LW 21030));
    Cell ([2977; 16997; 21030; 16648], [21093; 3039; 21157; 7920; 7919; 7918; 21031]) (Some (LW 3039)) (Some (LW 21031));
    Cell ([2976; 16998; 21031; 16648], [21094; 3038; 21158; 7917; 7916; 7915; 21032]) (Some (LW 3038)) (Some (LW 21032));
    Cell ([2975; 16999; 21032; 16648], [21095; 3037; 21159; 7914; 7913; 7912; 21033]) (Some (LW 3037)) (Some (LW 21033));
    Cell ([2974; 17000; 21033; 16648], [21096; 3036; 21160; 7911; 7910; 7909; 21034]) (Some (LW 3036)) (Some (LW 21034));
    Cell ([2973; 17001; 21034; 16648], [21097; 3035; 21161; 7908; 7907; 7906; 21035]) (Some (LW 3035)) (Some (LW 21035));
    Cell ([2972; 17002; 21035; 16648], [21098; 3034; 21162; 7905; 7904; 7903; 21036]) (Some (LW 3034)) (Some (LW 21036));
    Cell ([2971; 17003; 21036; 16648], [21099; 3033; 21163; 7902; 7901; 7900; 21037]) (Some (LW 3033)) (Some (LW 21037));
    Cell ([2970; 17004; 21037; 16648], [21100; 3032; 21164; 7899; 7898; 7897; 21038]) (Some (LW 3032)) (Some (LW 21038));
    Cell ([2969; 17005; 21038; 16648], [21101; 3031; 21165; 7896; 7895; 7894; 21039]) (Some (LW 3031)) (Some (LW 21039));
    Cell ([2968; 17006; 21039; 16648], [21102; 3030; 21166; 7893; 7892; 7891; 21040]) (Some (LW 3030)) (Some (LW 21040));
    Cell ([2967; 17007; 21040; 16648], [21103; 3029; 21167; 7890; 7889; 7888; 21041]) (Some (LW 3029)) (Some (LW 21041));
    Cell ([2966; 17008; 21041; 16648], [21104; 3028; 21168; 7887; 7886; 7885; 21042]) (Some (LW 3028)) (Some (LW 21042));
    Cell ([2965; 17009; 21042; 16648], [21105; 175]) (Some (LW 175)) (None)]
   175 16647.
Definition divide64_row_46 : srow := SRow
   [Cell ([16836; 16946; 16647], [3153; 20917; 20791]) (Some (LW 3153)) (Some (LW 20791));
    Cell ([3090; 16947; 20791; 16647], [20854; 3152; 20918; 7884; 7883; 7882; 20792]) (Some (LW 3152)) (Some (LW 20792));
    Cell ([3089; 16948; 20792; 16647], [20855; 3151; 20919; 7881; 7880; 7879; 20793]) (Some (LW 3151)) (Some (LW 20793));
    Cell ([3088; 16949; 20793; 16647], [20856; 3150; 20920; 7878; 7877; 7876; 20794]) (Some (LW 3150)) (Some (LW 20794));
    Cell ([3087; 16950; 20794; 16647], [20857; 3149; 20921; 7875; 7874; 7873; 20795]) (Some (LW 3149)) (Some (LW 20795));
    Cell ([3086; 16951; 20795; 16647], [20858; 3148; 20922; 7872; 7871; 7870; 20796]) (Some (LW 3148)) (Some (LW 20796));
    Cell ([3085; 16952; 20796; 16647], [20859; 3147; 20923; 7869; 7868; 7867; 20797]) (Some (LW 3147)) (Some (LW 20797));
    Cell ([3084; 16953; 20797; 16647], [20860; 3146; 20924; 7866; 7865; 7864; 20798]) (Some (LW 3146)) (Some (LW 20798));
    Cell ([3083; 16954; 20798; 16647], [20861; 3145; 20925; 7863; 7862; 7861; 20799]) (Some (LW 3145)) (Some (LW 20799));
    Cell ([3082; 16955; 20799; 16647], [20862; 3144; 20926; 7860; 7859; 7858; 20800]) (Some (LW 3144)) (Some (LW 20800));
    Cell ([3081; 16956; 20800; 16647], [20863; 3143; 20927; 7857; 7856; 7855; 20801]) (Some (LW 3143)) (Some (LW 20801));
    Cell ([3080; 16957; 20801; 16647], [20864; 3142; 20928; 7854; 7853; 7852; 20802]) (Some (LW 3142)) (Some (LW 20802));
    Cell ([3079; 16958; 20802; 16647], [20865; 3141; 20929; 7851; 7850; 7849; 20803]) (Some (LW 3141)) (Some (LW 20803));
    Cell ([3078; 16959; 20803; 16647], [20866; 3140; 20930; 7848; 7847; 7846; 20804]) (Some (LW 3140)) (Some (LW 20804));
    Cell ([3077; 16960; 20804; 16647], [20867; 3139; 20931; 7845; 7844; 7843; 20805]) (Some (LW 3139)) (Some (LW 20805));
    Cell ([3076; 16961; 20805; 16647], [20868; 3138; 20932; 7842; 7841; 7840; 20806]) (Some (LW 3138)) (Some (LW 20806));
    Cell ([3075; 16962; 20806; 16647], [20869; 3137; 20933; 7839; 7838; 7837; 20807]) (Some (LW 3137)) (Some (LW 20807));
    Cell ([3074; 16963; 20807; 16647], [20870; 3136; 20934; 7836; 7835; 7834; 20808]) (Some (LW 3136)) (Some (LW 20808));
    Cell ([3073; 16964; 20808; 16647], [20871; 3135; 20935; 7833; 7832; 7831; 20809]) (Some (LW 3135)) (Some (LW 20809));
    Cell ([3072; 16965; 20809; 16647], [20872; 3134; 20936; 7830; 7829; 7828; 20810]) (Some (LW 3134)) (Some (LW 20810));
    Cell ([3071; 16966; 20810; 16647], [20873; 3133; 20937; 7827; 7826; 7825; 20811]) (Some (LW 3133)) (Some (LW 20811));
    Cell ([3070; 16967; 20811; 16647], [20874; 3132; 20938; 7824; 7823; 7822; 20812]) (Some (LW 3132)) (Some (LW 20812));
    Cell ([3069; 16968; 20812; 16647], [20875; 3131; 20939; 7821; 7820; 7819; 20813]) (Some (LW 3131)) (Some (LW 20813));
    Cell ([3068; 16969; 20813; 16647], [20876; 3130; 20940; 7818; 7817; 7816; 20814]) (Some (LW 3130)) (Some (LW 20814));
    Cell ([3067; 16970; 20814; 16647], [20877; 3129; 20941; 7815; 7814; 7813; 20815]) (Some (LW 3129)) (Some (LW 20815));
    Cell ([3066; 16971; 20815; 16647], [20878; 3128; 20942; 7812; 7811; 7810; 20816]) (Some (LW 3128)) (Some (LW 20816));
    Cell ([3065; 16972; 20816; 16647], [20879; 3127; 20943; 7809; 7808; 7807; 20817]) (Some (LW 3127)) (Some (LW 20817));
    Cell ([3064; 16973; 20817; 16647], [20880; 3126; 20944; 7806; 7805; 7804; 20818]) (Some (LW 3126)) (Some (LW 20818));
    Cell ([3063; 16974; 20818; 16647], [20881; 3125; 20945; 7803; 7802; 7801; 20819]) (Some (LW 3125)) (Some (LW 20819));
    Cell ([3062; 16975; 20819; 16647], [20882; 3124; 20946; 7800; 7799; 7798; 20820]) (Some (LW 3124)) (Some (LW 20820));
    Cell ([3061; 16976; 20820; 16647], [20883; 3123; 20947; 7797; 7796; 7795; 20821]) (Some (LW 3123)) (Some (LW 20821));
    Cell ([3060; 16977; 20821; 16647], [20884; 3122; 20948; 7794; 7793; 7792; 20822]) (Some (LW 3122)) (Some (LW 20822));
    Cell ([3059; 16978; 20822; 16647], [20885; 3121; 20949; 7791; 7790; 7789; 20823]) (Some (LW 3121)) (Some (LW 20823));
    Cell ([3058; 16979; 20823; 16647], [20886; 3120; 20950; 7788; 7787; 7786; 20824]) (Some (LW 3120)) (Some (LW 20824));
    Cell ([3057; 16980; 20824; 16647], [20887; 3119; 20951; 7785; 7784; 7783; 20825]) (Some (LW 3119)) (Some (LW 20825));
    Cell ([3056; 16981; 20825; 16647], [20888; 3118; 20952; 7782; 7781; 7780; 20826]) (Some (LW 3118)) (Some (LW 20826));
    Cell ([3055; 16982; 20826; 16647], [20889; 3117; 20953; 7779; 7778; 7777; 20827]) (Some (LW 3117)) (Some (LW 20827));
    Cell ([3054; 16983; 20827; 16647], [20890; 3116; 20954; 7776; 7775; 7774; 20828]) (Some (LW 3116)) (Some (LW 20828));
    Cell ([3053; 16984; 20828; 16647], [20891; 3115; 20955; 7773; 7772; 7771; 20829]) (Some (LW 3115)) (Some (LW 20829));
    Cell ([3052; 16985; 20829; 16647], [20892; 3114; 20956; 7770; 7769; 7768; 20830]) (Some (LW 3114)) (Some (LW 20830));
    Cell ([3051; 16986; 20830; 16647], [20893; 3113; 20957; 7767; 7766; 7765; 20831]) (Some (LW 3113)) (Some (LW 20831));
    Cell ([3050; 16987; 20831; 16647], [20894; 3112; 20958; 7764; 7763; 7762; 20832]) (Some (LW 3112)) (Some (LW 20832));
    Cell ([3049; 16988; 20832; 16647], [20895; 3111; 20959; 7761; 7760; 7759; 20833]) (Some (LW 3111)) (Some (LW 20833));
    Cell ([3048; 16989; 20833; 16647], [20896; 3110; 20960; 7758; 7757; 7756; 20834]) (Some (LW 3110)) (Some (LW 20834));
    Cell ([3047; 16990; 20834; 16647], [20897; 3109; 20961; 7755; 7754; 7753; 20835]) (Some (LW 3109)) (Some (LW 20835));
    Cell ([3046; 16991; 20835; 16647], [20898; 3108; 20962; 7752; 7751; 7750; 20836]) (Some (LW 3108)) (Some (LW 20836));
    Cell ([3045; 16992; 20836; 16647], [20899; 3107; 20963; 7749; 7748; 7747; 20837]) (Some (LW 3107)) (Some (LW 20837));
    Cell ([3044; 16993; 20837; 16647], [20900; 3106; 20964; 7746; 7745; 7744; 20838]) (Some (LW 3106)) (Some (LW 20838));
    Cell ([3043; 16994; 20838; 16647], [20901; 3105; 20965; 7743; 7742; 7741; 20839]) (Some (LW 3105)) (Some (LW 20839));
    Cell ([3042; 16995; 20839; 16647], [20902; 3104; 20966; 7740; 7739; 7738; 20840]) (Some (LW 3104)) (Some (LW 20840));
    Cell ([3041; 16996; 20840; 16647], [20903; 3103; 20967; 7737; 7736; 7735; 20841]) (Some (LW 3103)) (Some (LW 20841));
    Cell ([3040; 16997; 20841; 16647], [20904; 3102; 20968; 7734; 7733; 7732; 20842]) (Some (LW 3102)) (Some (LW 20842));
    Cell ([3039; 16998; 20842; 16647], [20905; 3101; 20969; 7731; 7730; 7729; 20843]) (Some (LW 3101)) (Some (LW 20843));
    Cell ([3038; 16999; 20843; 16647], [20906; 3100; 20970; 7728; 7727; 7726; 20844]) (Some (LW 3100)) (Some (LW 20844));
    Cell ([3037; 17000; 20844; 16647], [20907; 3099; 20971; 7725; 7724; 7723; 20845]) (Some (LW 3099)) (Some (LW 20845));
    Cell ([3036; 17001; 20845; 16647], [20908; 3098; 20972; 7722; 7721; 7720; 20846]) (Some (LW 3098)) (Some (LW 20846));
    Cell ([3035; 17002; 20846; 16647], [20909; 3097; 20973; 7719; 7718; 7717; 20847]) (Some (LW 3097)) (Some (LW 20847));
    Cell ([3034; 17003; 20847; 16647], [20910; 3096; 20974; 7716; 7715; 7714; 20848]) (Some (LW 3096)) (Some (LW 20848));
    Cell ([3033; 17004; 20848; 16647], [20911; 3095; 20975; 7713; 7712; 7711; 20849]) (Some (LW 3095)) (Some (LW 20849));
    Cell ([3032; 17005; 20849; 16647], [20912; 3094; 20976; 7710; 7709; 7708; 20850]) (Some (LW 3094)) (Some (LW 20850));
    Cell ([3031; 17006; 20850; 16647], [20913; 3093; 20977; 7707; 7706; 7705; 20851]) (Some (LW 3093)) (Some (LW 20851));
    Cell ([3030; 17007; 20851; 16647], [20914; 3092; 20978; 7704; 7703; 7702; 20852]) (Some (LW 3092)) (Some (LW 20852));
    Cell ([3029; 17008; 20852; 16647], [20915; 3091; 20979; 7701; 7700; 7699; 20853]) (Some (LW 3091)) (Some (LW 20853));
    Cell ([3028; 17009; 20853; 16647], [20916; 176]) (Some (LW 176)) (None)]
   176 16646.
Definition divide64_row_47 : srow := SRow
   [Cell ([16835; 16946; 16646], [3216; 20728; 20602]) (Some (LW 3216)) (Some (LW 20602));
    Cell ([3153; 16947; 20602; 16646], [20665; 3215; 20729; 7698; 7697; 7696; 20603]) (Some (LW 3215)) (Some (LW 20603));
    Cell ([3152; 16948; 20603; 16646], [20666; 3214; 20730; 7695; 7694; 7693; 20604]) (Some (LW 3214)) (Some (LW 20604));
    Cell ([3151; 16949; 20604; 16646], [20667; 3213; 20731; 7692; 7691; 7690; 20605]) (Some (LW 3213)) (Some (LW 20605));
    Cell ([3150; 16950; 20605; 16646], [20668; 3212; 20732; 7689; 7688; 7687; 20606]) (Some (LW 3212)) (Some (LW 20606));
    Cell ([3149; 16951; 20606; 16646], [20669; 3211; 20733; 7686; 7685; 7684; 20607]) (Some (LW 3211)) (Some (LW 20607));
    Cell ([3148; 16952; 20607; 16646], [20670; 3210; 20734; 7683; 7682; 7681; 20608]) (Some (LW 3210)) (Some (LW 20608));
    Cell ([3147; 16953; 20608; 16646], [20671; 3209; 20735; 7680; 7679; 7678; 20609]) (Some (LW 3209)) (Some (LW 20609));
    Cell ([3146; 16954; 20609; 16646], [20672; 3208; 20736; 7677; 7676; 7675; 20610]) (Some (LW 3208)) (Some (LW 20610));
    Cell ([3145; 16955; 20610; 16646], [20673; 3207; 20737; 7674; 7673; 7672; 20611]) (Some (LW 3207)) (Some (LW 20611));
    Cell ([3144; 16956; 20611; 16646], [20674; 3206; 20738; 7671; 7670; 7669; 20612]) (Some (LW 3206)) (Some (LW 20612));
    Cell ([3143; 16957; 20612; 16646], [20675; 3205; 20739; 7668; 7667; 7666; 20613]) (Some (LW 3205)) (Some (LW 20613));
    Cell ([3142; 16958; 20613; 16646], [20676; 3204; 20740; 7665; 7664; 7663; 20614]) (Some (LW 3204)) (Some (LW 20614));
    Cell ([3141; 16959; 20614; 16646], [20677; 3203; 20741; 7662; 7661; 7660; 20615]) (Some (LW 3203)) (Some (LW 20615));
    Cell ([3140; 16960; 20615; 16646], [20678; 3202; 20742; 7659; 7658; 7657; 20616]) (Some (LW 3202)) (Some (LW 20616));
    Cell ([3139; 16961; 20616; 16646], [20679; 3201; 20743; 7656; 7655; 7654; 20617]) (Some (LW 3201)) (Some (LW 20617));
    Cell ([3138; 16962; 20617; 16646], [20680; 3200; 20744; 7653; 7652; 7651; 20618]) (Some (LW 3200)) (Some (LW 20618));
    Cell ([3137; 16963; 20618; 16646], [20681; 3199; 20745; 7650; 7649; 7648; 20619]) (Some (LW 3199)) (Some (LW 20619));
    Cell ([3136; 16964; 20619; 16646], [20682; 3198; 20746; 7647; 7646; 7645; 20620]) (Some (LW 3198)) (Some (LW 20620));
    Cell ([3135; 16965; 20620; 16646], [20683; 3197; 20747; 7644; 7643; 7642; 20621]) (Some (LW 3197)) (Some (LW 20621));
    Cell ([3134; 16966; 20621; 16646], [20684; 3196; 20748; 7641; 7640; 7639; 20622]) (Some (LW 3196)) (Some (LW 20622));
    Cell ([3133; 16967; 20622; 16646], [20685; 3195; 20749; 7638; 7637; 7636; 20623]) (Some (LW 3195)) (Some (LW 20623));
    Cell ([3132; 16968; 20623; 16646], [20686; 3194; 20750; 7635; 7634; 7633; 20624]) (Some (LW 3194)) (Some (LW 20624));
    Cell ([3131; 16969; 20624; 16646], [20687; 3193; 20751; 7632; 7631; 7630; 20625]) (Some (LW 3193)) (Some (LW 20625));
    Cell ([3130; 16970; 20625; 16646], [20688; 3192; 20752; 7629; 7628; 7627; 20626]) (Some (LW 3192)) (Some (LW 20626));
    Cell ([3129; 16971; 20626; 16646], [20689; 3191; 20753; 7626; 7625; 7624; 20627]) (Some (LW 3191)) (Some (LW 20627));
    Cell ([3128; 16972; 20627; 16646], [20690; 3190; 20754; 7623; 7622; 7621; 20628]) (Some (LW 3190)) (Some (LW 20628));
    Cell ([3127; 16973; 20628; 16646], [20691; 3189; 20755; 7620; 7619; 7618; 20629]) (Some (LW 3189)) (Some (LW 20629));
    Cell ([3126; 16974; 20629; 16646], [20692; 3188; 20756; 7617; 7616; 7615; 20630]) (Some (LW 3188)) (Some (LW 20630));
    Cell ([3125; 16975; 20630; 16646], [20693; 3187; 20757; 7614; 7613; 7612; 20631]) (Some (LW 3187)) (Some (LW 20631));
    Cell ([3124; 16976; 20631; 16646], [20694; 3186; 20758; 7611; 7610; 7609; 20632]) (Some (LW 3186)) (Some (LW 20632));
    Cell ([3123; 16977; 20632; 16646], [20695; 3185; 20759; 7608; 7607; 7606; 20633]) (Some (LW 3185)) (Some (LW 20633));
    Cell ([3122; 16978; 20633; 16646], [20696; 3184; 20760; 7605; 7604; 7603; 20634]) (Some (LW 3184)) (Some (LW 20634));
    Cell ([3121; 16979; 20634; 16646], [20697; 3183; 20761; 7602; 7601; 7600; 20635]) (Some (LW 3183)) (Some (LW 20635));
    Cell ([3120; 16980; 20635; 16646], [20698; 3182; 20762; 7599; 7598; 7597; 20636]) (Some (LW 3182)) (Some (LW 20636));
    Cell ([3119; 16981; 20636; 16646], [20699; 3181; 20763; 7596; 7595; 7594; 20637]) (Some (LW 3181)) (Some (LW 20637));
    Cell ([3118; 16982; 20637; 16646], [20700; 3180; 20764; 7593; 7592; 7591; 20638]) (Some (LW 3180)) (Some (LW 20638));
    Cell ([3117; 16983; 20638; 16646], [20701; 3179; 20765; 7590; 7589; 7588; 20639]) (Some (LW 3179)) (Some (LW 20639));
    Cell ([3116; 16984; 20639; 16646], [20702; 3178; 20766; 7587; 7586; 7585; 20640]) (Some (LW 3178)) (Some (LW 20640));
    Cell ([3115; 16985; 20640; 16646], [20703; 3177; 20767; 7584; 7583; 7582; 20641]) (Some (LW 3177)) (Some (LW 20641));
    Cell ([3114; 16986; 20641; 16646], [20704; 3176; 20768; 7581; 7580; 7579; 20642]) (Some (LW 3176)) (Some (LW 20642));
    Cell ([3113; 16987; 20642; 16646], [20705; 3175; 20769; 7578; 7577; 7576; 20643]) (Some (LW 3175)) (Some (LW 20643));
    Cell ([3112; 16988; 20643; 16646], [20706; 3174; 20770; 7575; 7574; 7573; 20644]) (Some (LW 3174)) (Some (LW 20644));
    Cell ([3111; 16989; 20644; 16646], [20707; 3173; 20771; 7572; 7571; 7570; 20645]) (Some (LW 3173)) (Some (LW 20645));
    Cell ([3110; 16990; 20645; 16646], [20708; 3172; 20772; 7569; 7568; 7567; 20646]) (Some (LW 3172)) (Some (LW 20646));
    Cell ([3109; 16991; 20646; 16646], [20709; 3171; 20773; 7566; 7565; 7564; 20647]) (Some (LW 3171)) (Some (LW 20647));
    Cell ([3108; 16992; 20647; 16646], [20710; 3170; 20774; 7563; 7562; 7561; 20648]) (Some (LW 3170)) (Some (LW 20648));
    Cell ([3107; 16993; 20648; 16646], [20711; 3169; 20775; 7560; 7559; 7558; 20649]) (Some (LW 3169)) (Some (LW 20649));
    Cell ([3106; 16994; 20649; 16646], [20712; 3168; 20776; 7557; 7556; 7555; 20650]) (Some (LW 3168)) (Some (LW 20650));
    Cell ([3105; 16995; 20650; 16646], [20713; 3167; 20777; 7554; 7553; 7552; 20651]) (Some (LW 3167)) (Some (LW 20651));
    Cell ([3104; 16996; 20651; 16646], [20714; 3166; 20778; 7551; 7550; 7549; 20652]) (Some (LW 3166)) (Some (LW 20652));
    Cell ([3103; 16997; 20652; 16646], [20715; 3165; 20779; 7548; 7547; 7546; 20653]) (Some (LW 3165)) (Some (LW 20653));
    Cell ([3102; 16998; 20653; 16646], [20716; 3164; 20780; 7545; 7544; 7543; 20654]) (Some (LW 3164)) (Some (LW 20654));
    Cell ([3101; 16999; 20654; 16646], [20717; 3163; 20781; 7542; 7541; 7540; 20655]) (Some (LW 3163)) (Some (LW 20655));
    Cell ([3100; 17000; 20655; 16646], [20718; 3162; 20782; 7539; 7538; 7537; 20656]) (Some (LW 3162)) (Some (LW 20656));
    Cell ([3099; 17001; 20656; 16646], [20719; 3161; 20783; 7536; 7535; 7534; 20657]) (Some (LW 3161)) (Some (LW 20657));
    Cell ([3098; 17002; 20657; 16646], [20720; 3160; 20784; 7533; 7532; 7531; 20658]) (Some (LW 3160)) (Some (LW 20658));
    Cell ([3097; 17003; 20658; 16646], [20721; 3159; 20785; 7530; 7529; 7528; 20659]) (Some (LW 3159)) (Some (LW 20659));
    Cell ([3096; 17004; 20659; 16646], [20722; 3158; 20786; 7527; 7526; 7525; 20660]) (Some (LW 3158)) (Some (LW 20660));
    Cell ([3095; 17005; 20660; 16646], [20723; 3157; 20787; 7524; 7523; 7522; 20661]) (Some (LW 3157)) (Some (LW 20661));
    Cell ([3094; 17006; 20661; 16646], [20724; 3156; 20788; 7521; 7520; 7519; 20662]) (Some (LW 3156)) (Some (LW 20662));
    Cell ([3093; 17007; 20662; 16646], [20725; 3155; 20789; 7518; 7517; 7516; 20663]) (Some (LW 3155)) (Some (LW 20663));
    Cell ([3092; 17008; 20663; 16646], [20726; 3154; 20790; 7515; 7514; 7513; 20664]) (Some (LW 3154)) (Some (LW 20664));
    Cell ([3091; 17009; 20664; 16646], [20727; 177]) (Some (LW 177)) (None)]
   177 16645.
Definition divide64_row_48 : srow := SRow
   [Cell ([16834; 16946; 16645], [3279; 20539; 20413]) (Some (LW 3279)) (Some (LW 20413));
    Cell ([3216; 16947; 20413; 16645], [20476; 3278; 20540; 7512; 7511; 7510; 20414]) (Some (LW 3278)) (Some (LW 20414));
    Cell ([3215; 16948; 20414; 16645], [20477; 3277; 20541; 7509; 7508; 7507; 20415]) (Some (LW 3277)) (Some (LW 20415));
    Cell ([3214; 16949; 20415; 16645], [20478; 3276; 20542; 7506; 7505; 7504; 20416]) (Some (LW 3276)) (Some (LW 20416));
    Cell ([3213; 16950; 20416; 16645], [20479; 3275; 20543; 7503; 7502; 7501; 20417]) (Some (LW 3275)) (Some (LW 20417));
    Cell ([3212; 16951; 20417; 16645], [20480; 3274; 20544; 7500; 7499; 7498; 20418]) (Some (LW 3274)) (Some (LW 20418));
    Cell ([3211; 16952; 20418; 16645], [20481; 3273; 20545; 7497; 7496; 7495; 20419]) (Some (LW 3273)) (Some (LW 20419));
    Cell ([3210; 16953; 20419; 16645], [20482; 3272; 20546; 7494; 7493; 7492; 20420]) (Some (LW 3272)) (Some (LW 20420));
    Cell ([3209; 16954; 20420; 16645], [20483; 3271; 20547; 7491; 7490; 7489; 20421]) (Some (LW 3271)) (Some (LW 20421));
    Cell ([3208; 16955; 20421; 16645], [20484; 3270; 20548; 7488; 7487; 7486; 20422]) (Some (LW 3270)) (Some (LW 20422));
    Cell ([3207; 16956; 20422; 16645], [20485; 3269; 20549; 7485; 7484; 7483; 20423]) (Some (LW 3269)) (Some (LW 20423));
    Cell ([3206; 16957; 20423; 16645], [20486; 3268; 20550; 7482; 7481; 7480; 20424]) (Some (LW 3268)) (Some (LW 20424));
    Cell ([3205; 16958; 20424; 16645], [20487; 3267; 20551; 7479; 7478; 7477; 20425]) (Some (LW 3267)) (Some (LW 20425));
    Cell ([3204; 16959; 20425; 16645], [20488; 3266; 20552; 7476; 7475; 7474; 20426]) (Some (LW 3266)) (Some (LW 20426));
    Cell ([3203; 16960; 20426; 16645], [20489; 3265; 20553; 7473; 7472; 7471; 20427]) (Some (LW 3265)) (Some (LW 20427));
    Cell ([3202; 16961; 20427; 16645], [20490; 3264; 20554; 7470; 7469; 7468; 20428]) (Some (LW 3264)) (Some (LW 20428));
    Cell ([3201; 16962; 20428; 16645], [20491; 3263; 20555; 7467; 7466; 7465; 20429]) (Some (LW 3263)) (Some (LW 20429));
    Cell ([3200; 16963; 20429; 16645], [20492; 3262; 20556; 7464; 7463; 7462; 20430]) (Some (LW 3262)) (Some (LW 20430));
    Cell ([3199; 16964; 20430; 16645], [20493; 3261; 20557; 7461; 7460; 7459; 20431]) (Some (LW 3261)) (Some (LW 20431));
    Cell ([3198; 16965; 20431; 16645], [20494; 3260; 20558; 7458; 7457; 7456; 20432]) (Some (LW 3260)) (Some (LW 20432));
    Cell ([3197; 16966; 20432; 16645], [20495; 3259; 20559; 7455; 7454; 7453; 20433]) (Some (LW 3259)) (Some (LW 20433));
    Cell ([3196; 16967; 20433; 16645], [20496; 3258; 20560; 7452; 7451; 7450; 20434]) (Some (LW 3258)) (Some (LW 20434));
    Cell ([3195; 16968; 20434; 16645], [20497; 3257; 20561; 7449; 7448; 7447; 20435]) (Some (LW 3257)) (Some (LW 20435));
    Cell ([3194; 16969; 20435; 16645], [20498; 3256; 20562; 7446; 7445; 7444; 20436]) (Some (LW 3256)) (Some (LW 20436));
    Cell ([3193; 16970; 20436; 16645], [20499; 3255; 20563; 7443; 7442; 7441; 20437]) (Some (LW 3255)) (Some (LW 20437));
    Cell ([3192; 16971; 20437; 16645], [20500; 3254; 20564; 7440; 7439; 7438; 20438]) (Some (LW 3254)) (Some (LW 20438));
    Cell ([3191; 16972; 20438; 16645], [20501; 3253; 20565; 7437; 7436; 7435; 20439]) (Some (LW 3253)) (Some (LW 20439));
    Cell ([3190; 16973; 20439; 16645], [20502; 3252; 20566; 7434; 7433; 7432; 20440]) (Some (LW 3252)) (Some (LW 20440));
    Cell ([3189; 16974; 20440; 16645], [20503; 3251; 20567; 7431; 7430; 7429; 20441]) (Some (LW 3251)) (Some (LW 20441));
    Cell ([3188; 16975; 20441; 16645], [20504; 3250; 20568; 7428; 7427; 7426; 20442]) (Some (LW 3250)) (Some (LW 20442));
    Cell ([3187; 16976; 20442; 16645], [20505; 3249; 20569; 7425; 7424; 7423; 20443]) (Some (LW 3249)) (Some (LW 20443));
    Cell ([3186; 16977; 20443; 16645], [20506; 3248; 20570; 7422; 7421; 7420; 20444]) (Some (LW 3248)) (Some (LW 20444));
    Cell ([3185; 16978; 20444; 16645], [20507; 3247; 20571; 7419; 7418; 7417; 20445]) (Some (LW 3247)) (Some (LW 20445));
    Cell ([3184; 16979; 20445; 16645], [20508; 3246; 20572; 7416; 7415; 7414; 20446]) (Some (LW 3246)) (Some (LW 20446));
    Cell ([3183; 16980; 20446; 16645], [20509; 3245; 20573; 7413; 7412; 7411; 20447]) (Some (LW 3245)) (Some (LW 20447));
    Cell ([3182; 16981; 20447; 16645], [20510; 3244; 20574; 7410; 7409; 7408; 20448]) (Some (LW 3244)) (Some (LW 20448));
    Cell ([3181; 16982; 20448; 16645], [20511; 3243; 20575; 7407; 7406; 7405; 20449]) (Some (LW 3243)) (Some (LW 20449));
    Cell ([3180; 16983; 20449; 16645], [20512; 3242; 20576; 7404; 7403; 7402; 20450]) (Some (LW 3242)) (Some (LW 20450));
    Cell ([3179; 16984; 20450; 16645], [20513; 3241; 20577; 7401; 7400; 7399; 20451]) (Some (LW 3241)) (Some (LW 20451));
    Cell ([3178; 16985; 20451; 16645], [20514; 3240; 20578; 7398; 7397; 7396; 20452]) (Some (LW 3240)) (Some (LW 20452));
    Cell ([3177; 16986; 20452; 16645], [20515; 3239; 20579; 7395; 7394; 7393; 20453]) (Some (LW 3239)) (Some (LW 20453));
    Cell ([3176; 16987; 20453; 16645], [20516; 3238; 20580; 7392; 7391; 7390; 20454]) (Some (LW 3238)) (Some (LW 20454));
    Cell ([3175; 16988; 20454; 16645], [20517; 3237; 20581; 7389; 7388; 7387; 20455]) (Some (LW 3237)) (Some (LW 20455));
    Cell ([3174; 16989; 20455; 16645], [20518; 3236; 20582; 7386; 7385; 7384; 20456]) (Some (LW 3236)) (Some (LW 20456));
    Cell ([3173; 16990; 20456; 16645], [20519; 3235; 20583; 7383; 7382; 7381; 20457]) (Some (LW 3235)) (Some (LW 20457));
    Cell ([3172; 16991; 20457; 16645], [20520; 3234; 20584; 7380; 7379; 7378; 20458]) (Some (LW 3234)) (Some (LW 20458));
    Cell ([3171; 16992; 20458; 16645], [20521; 3233; 20585; 7377; 7376; 7375; 20459]) (Some (LW 3233)) (Some (LW 20459));
    Cell ([3170; 16993; 20459; 16645], [20522; 3232; 20586; 7374; 7373; 7372; 20460]) (Some (LW 3232)) (Some (LW 20460));
    Cell ([3169; 16994; 20460; 16645], [20523; 3231; 20587; 7371; 7370; 7369; 20461]) (Some (LW 3231)) (Some (LW 20461));
    Cell ([3168; 16995; 20461; 16645], [20524; 3230; 20588; 7368; 7367; 7366; 20462]) (Some (LW 3230)) (Some (LW 20462));
    Cell ([3167; 16996; 20462; 16645], [20525; 3229; 20589; 7365; 7364; 7363; 20463]) (Some (LW 3229)) (Some (LW 20463));
    Cell ([3166; 16997; 20463; 16645], [20526; 3228; 20590; 7362; 7361; 7360; 20464]) (Some (LW 3228)) (Some (LW 20464));
    Cell ([3165; 16998; 20464; 16645], [20527; 3227; 20591; 7359; 7358; 7357; 20465]) (Some (LW 3227)) (Some (LW 20465));
    Cell ([3164; 16999; 20465; 16645], [20528; 3226; 20592; 7356; 7355; 7354; 20466]) (Some (LW 3226)) (Some (LW 20466));
    Cell ([3163; 17000; 20466; 16645], [20529; 3225; 20593; 7353; 7352; 7351; 20467]) (Some (LW 3225)) (Some (LW 20467));
    Cell ([3162; 17001; 20467; 16645], [20530; 3224; 20594; 7350; 7349; 7348; 20468]) (Some (LW 3224)) (Some (LW 20468));
    Cell ([3161; 17002; 20468; 16645], [20531; 3223; 20595; 7347; 7346; 7345; 20469]) (Some (LW 3223)) (Some (LW 20469));
    Cell ([3160; 17003; 20469; 16645], [20532; 3222; 20596; 7344; 7343; 7342; 20470]) (Some (LW 3222)) (Some (LW 20470));
    Cell ([3159; 17004; 20470; 16645], [20533; 3221; 20597; 7341; 7340; 7339; 20471]) (Some (LW 3221)) (Some (LW 20471));
    Cell ([3158; 17005; 20471; 16645], [20534; 3220; 20598; 7338; 7337; 7336; 20472]) (Some (LW 3220)) (Some (LW 20472));
    Cell ([3157; 17006; 20472; 16645], [20535; 3219; 20599; 7335; 7334; 7333; 20473]) (Some (LW 3219)) (Some (LW 20473));
    Cell ([3156; 17007; 20473; 16645], [20536; 3218; 20600; 7332; 7331; 7330; 20474]) (Some (LW 3218)) (Some (LW 20474));
    Cell ([3155; 17008; 20474; 16645], [20537; 3217; 20601; 7329; 7328; 7327; 20475]) (Some (LW 3217)) (Some (LW 20475));
    Cell ([3154; 17009; 20475; 16645], [20538; 178]) (Some (LW 178)) (None)]
   178 16644.
Definition divide64_row_49 : srow := SRow
   [Cell ([16833; 16946; 16644], [3342; 20350; 20224]) (Some (LW 3342)) (Some (LW 20224));
    Cell ([3279; 16947; 20224; 16644], [20287; 3341; 20351; 7326; 7325; 7324; 20225]) (Some (LW 3341)) (Some (LW 20225));
    Cell ([3278; 16948; 20225; 16644], [20288; 3340; 20352; 7323; 7322; 7321; 20226]) (Some (LW 3340)) (Some (LW 20226));
    Cell ([3277; 16949; 20226; 16644], [20289; 3339; 20353; 7320; 7319; 7318; 20227]) (Some (LW 3339)) (Some (LW 20227));
    Cell ([3276; 16950; 20227; 16644], [20290; 3338; 20354; 7317; 7316; 7315; 20228]) (Some (LW 3338)) (Some (LW 20228));
    Cell ([3275; 16951; 20228; 16644], [20291; 3337; 20355; 7314; 7313; 7312; 20229]) (Some (LW 3337)) (Some (LW 20229));
    Cell ([3274; 16952; 20229; 16644], [20292; 3336; 20356; 7311; 7310; 7309; 20230]) (Some (LW 3336)) (Some (LW 20230));
    Cell ([3273; 16953; 20230; 16644], [20293; 3335; 20357; 7308; 7307; 7306; 20231]) (Some (LW 3335)) (Some (LW 20231));
    Cell ([3272; 16954; 20231; 16644], [20294; 3334; 20358; 7305; 7304; 7303; 20232]) (Some (LW 3334)) (Some (LW 20232));
    Cell ([3271; 16955; 20232; 16644], [20295; 3333; 20359; 7302; 7301; 7300; 20233]) (Some (LW 3333)) (Some (LW 20233));
    Cell ([3270; 16956; 20233; 16644], [20296; 3332; 20360; 7299; 7298; 7297; 20234]) (Some (LW 3332)) (Some (LW 20234));
    Cell ([3269; 16957; 20234; 16644], [20297; 3331; 20361; 7296; 7295; 7294; 20235]) (Some (LW 3331)) (Some (LW 20235));
    Cell ([3268; 16958; 20235; 16644], [20298; 3330; 20362; 7293; 7292; 7291; 20236]) (Some (LW 3330)) (Some (LW 20236));
    Cell ([3267; 16959; 20236; 16644], [20299; 3329; 20363; 7290; 7289; 7288; 20237]) (Some (LW 3329)) (Some (LW 20237));
    Cell ([3266; 16960; 20237; 16644], [20300; 3328; 20364; 7287; 7286; 7285; 20238]) (Some (LW 3328)) (Some (LW 20238));
    Cell ([3265; 16961; 20238; 16644], [20301; 3327; 20365; 7284; 7283; 7282; 20239]) (Some (LW 3327)) (Some (LW 20239));
    Cell ([3264; 16962; 20239; 16644], [20302; 3326; 20366; 7281; 7280; 7279; 20240]) (Some (LW 3326)) (Some (LW 20240));
    Cell ([3263; 16963; 20240; 16644], [20303; 3325; 20367; 7278; 7277; 7276; 20241]) (Some (LW 3325)) (Some (LW 20241));
    Cell ([3262; 16964; 20241; 16644], [20304; 3324; 20368; 7275; 7274; 7273; 20242]) (Some (LW 3324)) (Some (LW 20242));
    Cell ([3261; 16965; 20242; 16644], [20305; 3323; 20369; 7272; 7271; 7270; 20243]) (Some (LW 3323)) (Some (LW 20243));
    Cell ([3260; 16966; 20243; 16644], [20306; 3322; 20370; 7269; 7268; 7267; 20244]) (Some (LW 3322)) (Some (LW 20244));
    Cell ([3259; 16967; 20244; 16644], [20307; 3321; 20371; 7266; 7265; 7264; 20245]) (Some (LW 3321)) (Some (LW 20245));
    Cell ([3258; 16968; 20245; 16644], [20308; 3320; 20372; 7263; 7262; 7261; 20246]) (Some (LW 3320)) (Some (LW 20246));
    Cell ([3257; 16969; 20246; 16644], [20309; 3319; 20373; 7260; 7259; 7258; 20247]) (Some (LW 3319)) (Some (LW 20247));
    Cell ([3256; 16970; 20247; 16644], [20310; 3318; 20374; 7257; 7256; 7255; 20248]) (Some (LW 3318)) (Some (LW 20248));
    Cell ([3255; 16971; 20248; 16644], [20311; 3317; 20375; 7254; 7253; 7252; 20249]) (Some (LW 3317)) (Some (LW 20249));
    Cell ([3254; 16972; 20249; 16644], [20312; 3316; 20376; 7251; 7250; 7249; 20250]) (Some (LW 3316)) (Some (LW 20250));
    Cell ([3253; 16973; 20250; 16644], [20313; 3315; 20377; 7248; 7247; 7246; 20251]) (Some (LW 3315)) (Some (LW 20251));
    Cell ([3252; 16974; 20251; 16644], [20314; 3314; 20378; 7245; 7244; 7243; 20252]) (Some (LW 3314)) (Some (LW 20252));
    Cell ([3251; 16975; 20252; 16644], [20315; 3313; 20379; 7242; 7241; 7240; 20253]) (Some (LW 3313)) (Some (LW 20253));
    Cell ([3250; 16976; 20253; 16644], [20316; 3312; 20380; 7239; 7238; 7237; 20254]) (Some (LW 3312)) (Some (LW 20254));
    Cell ([3249; 16977; 20254; 16644], [20317; 3311; 20381; 7236; 7235; 7234; 20255]) (Some (LW 3311)) (Some (LW 20255));
    Cell ([3248; 16978; 20255; 16644], [20318; 3310; 20382; 7233; 7232; 7231; 20256]) (Some (LW 3310)) (Some (LW 20256));
    Cell ([3247; 16979; 20256; 16644], [20319; 3309; 20383; 7230; 7229; 7228; 20257]) (Some (LW 3309)) (Some (LW 20257));
    Cell ([3246; 16980; 20257; 16644], [20320; 3308; 20384; 7227; 7226; 7225; 20258]) (Some (LW 3308)) (Some (LW 20258));
    Cell ([3245; 16981; 20258; 16644], [20321; 3307; 20385; 7224; 7223; 7222; 20259]) (Some (LW 3307)) (Some (LW 20259));
    Cell ([3244; 16982; 20259; 16644], [20322; 3306; 20386; 7221; 7220; 7219; 20260]) (Some (LW 3306)) (Some (LW 20260));
    Cell ([3243; 16983; 20260; 16644], [20323; 3305; 20387; 7218; 7217; 7216; 20261]) (Some (LW 3305)) (Some (LW 20261));
    Cell ([3242; 16984; 20261; 16644], [20324; 3304; 20388; 7215; 7214; 7213; 20262]) (Some (LW 3304)) (Some (LW 20262));
    Cell ([3241; 16985; 20262; 16644], [20325; 3303; 20389; 7212; 7211; 7210; 20263]) (Some (LW 3303)) (Some (LW 20263));
    Cell ([3240; 16986; 20263; 16644], [20326; 3302; 20390; 7209; 7208; 7207; 20264]) (Some (LW 3302)) (Some (LW 20264));
    Cell ([3239; 16987; 20264; 16644], [20327; 3301; 20391; 7206; 7205; 7204; 20265]) (Some (LW 3301)) (Some (LW 20265));
    Cell ([3238; 16988; 20265; 16644], [20328; 3300; 20392; 7203; 7202; 7201; 20266]) (Some (LW 3300)) (Some (LW 20266));
    Cell ([3237; 16989; 20266; 16644], [20329; 3299; 20393; 7200; 7199; 7198; 20267]) (Some (LW 3299)) (Some (LW 20267));
    Cell ([3236; 16990; 20267; 16644], [20330; 3298; 20394; 7197; 7196; 7195; 20268]) (Some (LW 3298)) (Some (LW 20268));
    Cell ([3235; 16991; 20268; 16644], [20331; 3297; 20395; 7194; 7193; 7192; 20269]) (Some (LW 3297)) (Some (LW 20269));
    Cell ([3234; 16992; 20269; 16644], [20332; 3296; 20396; 7191; 7190; 7189; 20270]) (Some (LW 3296)) (Some (LW 20270));
    Cell ([3233; 16993; 20270; 16644], [20333; 3295; 20397; 7188; 7187; 7186; 20271]) (Some (LW 3295)) (Some (LW 20271));
    Cell ([3232; 16994; 20271; 16644], [20334; 3294; 20398; 7185; 7184; 7183; 20272]) (Some (LW 3294)) (Some (LW 20272));
    Cell ([3231; 16995; 20272; 16644], [20335; 3293; 20399; 7182; 7181; 7180; 20273]) (Some (LW 3293)) (Some (LW 20273));
    Cell ([3230; 16996; 20273; 16644], [20336; 3292; 20400; 7179; 7178; 7177; 20274]) (Some (LW 3292)) (Some (LW 20274));
    Cell ([3229; 16997; 20274; 16644], [20337; 3291; 20401; 7176; 7175; 7174; 20275]) (Some (LW 3291)) (Some (LW 20275));
    Cell ([3228; 16998; 20275; 16644], [20338; 3290; 20402; 7173; 7172; 7171; 20276]) (Some (LW 3290)) (Some (LW 20276));
    Cell ([3227; 16999; 20276; 16644], [20339; 3289; 20403; 7170; 7169; 7168; 20277]) (Some (LW 3289)) (Some (LW 20277));
    Cell ([3226; 17000; 20277; 16644], [20340; 3288; 20404; 7167; 7166; 7165; 20278]) (Some (LW 3288)) (Some (LW 20278));
    Cell ([3225; 17001; 20278; 16644], [20341; 3287; 20405; 7164; 7163; 7162; 20279]) (Some (LW 3287)) (Some (LW 20279));
    Cell ([3224; 17002; 20279; 16644], [20342; 3286; 20406; 7161; 7160; 7159; 20280]) (Some (LW 3286)) (Some (LW 20280));
    Cell ([3223; 17003; 20280; 16644], [20343; 3285; 20407; 7158; 7157; 7156; 20281]) (Some (LW 3285)) (Some (LW 20281));
    Cell ([3222; 17004; 20281; 16644], [20344; 3284; 20408; 7155; 7154; 7153; 20282]) (Some (LW 3284)) (Some (LW 20282));
    Cell ([3221; 17005; 20282; 16644], [20345; 3283; 20409; 7152; 7151; 7150; 20283]) (Some (LW 3283)) (Some (LW 20283));
    Cell ([3220; 17006; 20283; 16644], [20346; 3282; 20410; 7149; 7148; 7147; 20284]) (Some (LW 3282)) (Some (LW 20284));
    Cell ([3219; 17007; 20284; 16644], [20347; 3281; 20411; 7146; 7145; 7144; 20285]) (Some (LW 3281)) (Some (LW 20285));
    Cell ([3218; 17008; 20285; 16644], [20348; 3280; 20412; 7143; 7142; 7141; 20286]) (Some (LW 3280)) (Some (LW 20286));
    Cell ([3217; 17009; 20286; 16644], [20349; 179]) (Some (LW 179)) (None)]
   179 16643.
Definition divide64_row_50 : srow := SRow
   [Cell ([16832; 16946; 16643], [3405; 20161; 20035]) (Some (LW 3405)) (Some (LW 20035));
    Cell ([3342; 16947; 20035; 16643], [20098; 3404; 20162; 7140; 7139; 7138; 20036]) (Some (LW 3404)) (Some (LW 20036));
    Cell ([3341; 16948; 20036; 16643], [20099; 3403; 20163; 7137; 7136; 7135; 20037]) (Some (LW 3403)) (Some (LW 20037));
    Cell ([3340; 16949; 20037; 16643], [20100; 3402; 20164; 7134; 7133; 7132; 20038]) (Some (LW 3402)) (Some (LW 20038));
    Cell ([3339; 16950; 20038; 16643], [20101; 3401; 20165; 7131; 7130; 7129; 20039]) (Some (LW 3401)) (Some (LW 20039));
    Cell ([3338; 16951; 20039; 16643], [20102; 3400; 20166; 7128; 7127; 7126; 20040]) (Some (LW 3400)) (Some (LW 20040));
    Cell ([3337; 16952; 20040; 16643], [20103; 3399; 20167; 7125; 7124; 7123; 20041]) (Some (LW 3399)) (Some (LW 20041));
    Cell ([3336; 16953; 20041; 16643], [20104; 3398; 20168; 7122; 7121; 7120; 20042]) (Some (LW 3398)) (Some (LW 20042));
    Cell ([3335; 16954; 20042; 16643], [20105; 3397; 20169; 7119; 7118; 7117; 20043]) (Some (LW 3397)) (Some (LW 20043));
    Cell ([3334; 16955; 20043; 16643], [20106; 3396; 20170; 7116; 7115; 7114; 20044]) (Some (LW 3396)) (Some (LW 20044));
    Cell ([3333; 16956; 20044; 16643], [20107; 3395; 20171; 7113; 7112; 7111; 20045]) (Some (LW 3395)) (Some (LW 20045));
    Cell ([3332; 16957; 20045; 16643], [20108; 3394; 20172; 7110; 7109; 7108; 20046]) (Some (LW 3394)) (Some (LW 20046));
    Cell ([3331; 16958; 20046; 16643], [20109; 3393; 20173; 7107; 7106; 7105; 20047]) (Some (LW 3393)) (Some (LW 20047));
    Cell ([3330; 16959; 20047; 16643], [20110; 3392; 20174; 7104; 7103; 7102; 20048]) (Some (LW 3392)) (Some (LW 20048));
    Cell ([3329; 16960; 20048; 16643], [20111; 3391; 20175; 7101; 7100; 7099; 20049]) (Some (LW 3391)) (Some (LW 20049));
    Cell ([3328; 16961; 20049; 16643], [20112; 3390; 20176; 7098; 7097; 7096; 20050]) (Some (LW 3390)) (Some (LW 20050));
    Cell ([3327; 16962; 20050; 16643], [20113; 3389; 20177; 7095; 7094; 7093; 20051]) (Some (LW 3389)) (Some (LW 20051));
    Cell ([3326; 16963; 20051; 16643], [20114; 3388; 20178; 7092; 7091; 7090; 20052]) (Some (LW 3388)) (Some (LW 20052));
    Cell ([3325; 16964; 20052; 16643], [20115; 3387; 20179; 7089; 7088; 7087; 20053]) (Some (LW 3387)) (Some (LW 20053));
    Cell ([3324; 16965; 20053; 16643], [20116; 3386; 20180; 7086; 7085; 7084; 20054]) (Some (LW 3386)) (Some (LW 20054));
    Cell ([3323; 16966; 20054; 16643], [20117; 3385; 20181; 7083; 7082; 7081; 20055]) (Some (LW 3385)) (Some (LW 20055));
    Cell ([3322; 16967; 20055; 16643], [20118; 3384; 20182; 7080; 7079; 7078; 20056]) (Some (LW 3384)) (Some (LW 20056));
    Cell ([3321; 16968; 20056; 16643], [20119; 3383; 20183; 7077; 7076; 7075; 20057]) (Some (LW 3383)) (Some (LW 20057));
    Cell ([3320; 16969; 20057; 16643], [20120; 3382; 20184; 7074; 7073; 7072; 20058]) (Some (LW 3382)) (Some (LW 20058));
    Cell ([3319; 16970; 20058; 16643], [20121; 3381; 20185; 7071; 7070; 7069; 20059]) (Some (LW 3381)) (Some (LW 20059));
    Cell ([3318; 16971; 20059; 16643], [20122; 3380; 20186; 7068; 7067; 7066; 20060]) (Some (LW 3380)) (Some (LW 20060));
    Cell ([3317; 16972; 20060; 16643], [20123; 3379; 20187; 7065; 7064; 7063; 20061]) (Some (LW 3379)) (Some (LW 20061));
    Cell ([3316; 16973; 20061; 16643], [20124; 3378; 20188; 7062; 7061; 7060; 20062]) (Some (LW 3378)) (Some (LW 20062));
    Cell ([3315; 16974; 20062; 16643], [20125; 3377; 20189; 7059; 7058; 7057; 20063]) (Some (LW 3377)) (Some (LW 20063));
    Cell ([3314; 16975; 20063; 16643], [20126; 3376; 20190; 7056; 7055; 7054; 20064]) (Some (LW 3376)) (Some (LW 20064));
    Cell ([3313; 16976; 20064; 16643], [20127; 3375; 20191; 7053; 7052; 7051; 20065]) (Some (LW 3375)) (Some (LW 20065));
    Cell ([3312; 16977; 20065; 16643], [20128; 3374; 20192; 7050; 7049; 7048; 20066]) (Some (LW 3374)) (Some (LW 20066));
    Cell ([3311; 16978; 20066; 16643], [20129; 3373; 20193; 7047; 7046; 7045; 20067]) (Some (LW 3373)) (Some (LW 20067));
    Cell ([3310; 16979; 20067; 16643], [20130; 3372; 20194; 7044; 7043; 7042; 20068]) (Some (LW 3372)) (Some (LW 20068));
    Cell ([3309; 16980; 20068; 16643], [20131; 3371; 20195; 7041; 7040; 7039; 20069]) (Some (LW 3371)) (Some (LW 20069));
    Cell ([3308; 16981; 20069; 16643], [20132; 3370; 20196; 7038; 7037; 7036; 20070]) (Some (LW 3370)) (Some (LW 20070));
    Cell ([3307; 16982; 20070; 16643], [20133; 3369; 20197; 7035; 7034; 7033; 20071]) (Some (LW 3369)) (Some (LW 20071));
    Cell ([3306; 16983; 20071; 16643], [20134; 3368; 20198; 7032; 7031; 7030; 20072]) (Some (LW 3368)) (Some (LW 20072));
    Cell ([3305; 16984; 20072; 16643], [20135; 3367; 20199; 7029; 7028; 7027; 20073]) (Some (LW 3367)) (Some (LW 20073));
    Cell ([3304; 16985; 20073; 16643], [20136; 3366; 20200; 7026; 7025; 7024; 20074]) (Some (LW 3366)) (Some (LW 20074));
    Cell ([3303; 16986; 20074; 16643], [20137; 3365; 20201; 7023; 7022; 7021; 20075]) (Some (LW 3365)) (Some (LW 20075));
    Cell ([3302; 16987; 20075; 16643], [20138; 3364; 20202; 7020; 7019; 7018; 20076]) (Some (LW 3364)) (Some (LW 20076));
    Cell ([3301; 16988; 20076; 16643], [20139; 3363; 20203; 7017; 7016; 7015; 20077]) (Some (LW 3363)) (Some (LW 20077));
    Cell ([3300; 16989; 20077; 16643], [20140; 3362; 20204; 7014; 7013; 7012; 20078]) (Some (LW 3362)) (Some (LW 20078));
    Cell ([3299; 16990; 20078; 16643], [20141; 3361; 20205; 7011; 7010; 7009; 20079]) (Some (LW 3361)) (Some (LW 20079));
    Cell ([3298; 16991; 20079; 16643], [20142; 3360; 20206; 7008; 7007; 7006; 20080]) (Some (LW 3360)) (Some (LW 20080));
    Cell ([3297; 16992; 20080; 16643], [20143; 3359; 20207; 7005; 7004; 7003; 20081]) (Some (LW 3359)) (Some (LW 20081));
    Cell ([3296; 16993; 20081; 16643], [20144; 3358; 20208; 7002; 7001; 7000; 20082]) (Some (LW 3358)) (Some (LW 20082));
    Cell ([3295; 16994; 20082; 16643], [20145; 3357; 20209; 6999; 6998; 6997; 20083]) (Some (LW 3357)) (Some (LW 20083));
    Cell ([3294; 16995; 20083; 16643], [20146; 3356; 20210; 6996; 6995; 6994; 20084]) (Some (LW 3356)) (Some (LW 20084));
    Cell ([3293; 16996; 20084; 16643], [20147; 3355; 20211; 6993; 6992; 6991; 20085]) (Some (LW 3355)) (Some (LW 20085));
    Cell ([3292; 16997; 20085; 16643], [20148; 3354; 20212; 6990; 6989; 6988; 20086]) (Some (LW 3354)) (Some (LW 20086));
    Cell ([3291; 16998; 20086; 16643], [20149; 3353; 20213; 6987; 6986; 6985; 20087]) (Some (LW 3353)) (Some (LW 20087));
    Cell ([3290; 16999; 20087; 16643], [20150; 3352; 20214; 6984; 6983; 6982; 20088]) (Some (LW 3352)) (Some (LW 20088));
    Cell ([3289; 17000; 20088; 16643], [20151; 3351; 20215; 6981; 6980; 6979; 20089]) (Some (LW 3351)) (Some (LW 20089));
    Cell ([3288; 17001; 20089; 16643], [20152; 3350; 20216; 6978; 6977; 6976; 20090]) (Some (LW 3350)) (Some (LW 20090));
    Cell ([3287; 17002; 20090; 16643], [20153; 3349; 20217; 6975; 6974; 6973; 20091]) (Some (LW 3349)) (Some (LW 20091));
    Cell ([3286; 17003; 20091; 16643], [20154; 3348; 20218; 6972; 6971; 6970; 20092]) (Some (LW 3348)) (Some (LW 20092));
    Cell ([3285; 17004; 20092; 16643], [20155; 3347; 20219; 6969; 6968; 6967; 20093]) (Some (LW 3347)) (Some (LW 20093));
    Cell ([3284; 17005; 20093; 16643], [20156; 3346; 20220; 6966; 6965; 6964; 20094]) (Some (LW 3346)) (Some (LW 20094));
    Cell ([3283; 17006; 20094; 16643], [20157; 3345; 20221; 6963; 6962; 6961; 20095]) (Some (LW 3345)) (Some (LW 20095));
    Cell ([3282; 17007; 20095; 16643], [20158; 3344; 20222; 6960; 6959; 6958; 20096]) (Some (LW 3344)) (Some (LW 20096));
    Cell ([3281; 17008; 20096; 16643], [20159; 3343; 20223; 6957; 6956; 6955; 20097]) (Some (LW 3343)) (Some (LW 20097));
    Cell ([3280; 17009; 20097; 16643], [20160; 180]) (Some (LW 180)) (None)]
   180 16642.
Definition divide64_row_51 : srow := SRow
   [Cell ([16831; 16946; 16642], [3468; 19972; 19846]) (Some (LW 3468)) (Some (LW 19846));
    Cell ([3405; 16947; 19846; 16642], [19909; 3467; 19973; 6954; 6953; 6952; 19847]) (Some (LW 3467)) (Some (LW 19847));
    Cell ([3404; 16948; 19847; 16642], [19910; 3466; 19974; 6951; 6950; 6949; 19848]) (Some (LW 3466)) (Some (LW 19848));
    Cell ([3403; 16949; 19848; 16642], [19911; 3465; 19975; 6948; 6947; 6946; 19849]) (Some (LW 3465)) (Some (LW 19849));
    Cell ([3402; 16950; 19849; 16642], [19912; 3464; 19976; 6945; 6944; 6943; 19850]) (Some (LW 3464)) (Some (LW 19850));
    Cell ([3401; 16951; 19850; 16642], [19913; 3463; 19977; 6942; 6941; 6940; 19851]) (Some (LW 3463)) (Some (LW 19851));
    Cell ([3400; 16952; 19851; 16642], [19914; 3462; 19978; 6939; 6938; 6937; 19852]) (Some (LW 3462)) (Some (LW 19852));
    Cell ([3399; 16953; 19852; 16642], [19915; 3461; 19979; 6936; 6935; 6934; 19853]) (Some (LW 3461)) (Some (LW 19853));
    Cell ([3398; 16954; 19853; 16642], [19916; 3460; 19980; 6933; 6932; 6931; 19854]) (Some (LW 3460)) (Some (LW 19854));
    Cell ([3397; 16955; 19854; 16642], [19917; 3459; 19981; 6930; 6929; 6928; 19855]) (Some (LW 3459)) (Some (LW 19855));
    Cell ([3396; 16956; 19855; 16642], [19918; 3458; 19982; 6927; 6926; 6925; 19856]) (Some (LW 3458)) (Some (LW 19856));
    Cell ([3395; 16957; 19856; 16642], [19919; 3457; 19983; 6924; 6923; 6922; 19857]) (Some (LW 3457)) (Some (LW 19857));
    Cell ([3394; 16958; 19857; 16642], [19920; 3456; 19984; 6921; 6920; 6919; 19858]) (Some (LW 3456)) (Some (LW 19858));
    Cell ([3393; 16959; 19858; 16642], [19921; 3455; 19985; 6918; 6917; 6916; 19859]) (Some (LW 3455)) (Some (LW 19859));
    Cell ([3392; 16960; 19859; 16642], [19922; 3454; 19986; 6915; 6914; 6913; 19860]) (Some (LW 3454)) (Some (LW 19860));
    Cell ([3391; 16961; 19860; 16642], [19923; 3453; 19987; 6912; 6911; 6910; 19861]) (Some (LW 3453)) (Some (LW 19861));
    Cell ([3390; 16962; 19861; 16642], [19924; 3452; 19988; 6909; 6908; 6907; 19862]) (Some (LW 3452)) (Some (LW 19862));
    Cell ([3389; 16963; 19862; 16642], [19925; 3451; 19989; 6906; 6905; 6904; 19863]) (Some (LW 3451)) (Some (LW 19863));
    Cell ([3388; 16964; 19863; 16642], [19926; 3450; 19990; 6903; 6902; 6901; 19864]) (Some (LW 3450)) (Some (LW 19864));
    Cell ([3387; 16965; 19864; 16642], [19927; 3449; 19991; 6900; 6899; 6898; 19865]) (Some (LW 3449)) (Some (LW 19865));
    Cell ([3386; 16966; 19865; 16642], [19928; 3448; 19992; 6897; 6896; 6895; 19866]) (Some (LW 3448)) (Some (LW 19866));
    Cell ([3385; 16967; 19866; 16642], [19929; 3447; 19993; 6894; 6893; 6892; 19867]) (Some (LW 3447)) (Some (LW 19867));
    Cell ([3384; 16968; 19867; 16642], [19930; 3446; 19994; 6891; 6890; 6889; 19868]) (Some (LW 3446)) (Some (LW 19868));
    Cell ([3383; 16969; 19868; 16642], [19931; 3445; 19995; 6888; 6887; 6886; 19869]) (Some (LW 3445)) (Some (LW 19869));
    Cell ([3382; 16970; 19869; 16642], [19932; 3444; 19996; 6885; 6884; 6883; 19870]) (Some (LW 3444)) (Some (LW 19870));
    Cell ([3381; 16971; 19870; 16642], [19933; 3443; 19997; 6882; 6881; 6880; 19871]) (Some (LW 3443)) (Some (LW 19871));
    Cell ([3380; 16972; 19871; 16642], [19934; 3442; 19998; 6879; 6878; 6877; 19872]) (Some (LW 3442)) (Some (LW 19872));
    Cell ([3379; 16973; 19872; 16642], [19935; 3441; 19999; 6876; 6875; 6874; 19873]) (Some (LW 3441)) (Some (LW 19873));
    Cell ([3378; 16974; 19873; 16642], [19936; 3440; 20000; 6873; 6872; 6871; 19874]) (Some (LW 3440)) (Some (LW 19874));
    Cell ([3377; 16975; 19874; 16642], [19937; 3439; 20001; 6870; 6869; 6868; 19875]) (Some (LW 3439)) (Some (LW 19875));
    Cell ([3376; 16976; 19875; 16642], [19938; 3438; 20002; 6867; 6866; 6865; 19876]) (Some (LW 3438)) (Some (LW 19876));
    Cell ([3375; 16977; 19876; 16642], [19939; 3437; 20003; 6864; 6863; 6862; 19877]) (Some (LW 3437)) (Some (LW 19877));
    Cell ([3374; 16978; 19877; 16642], [19940; 3436; 20004; 6861; 6860; 6859; 19878]) (Some (LW 3436)) (Some (LW 19878));
    Cell ([3373; 16979; 19878; 16642], [19941; 3435; 20005; 6858; 6857; 6856; 19879]) (Some (LW 3435)) (Some (LW 19879));
    Cell ([3372; 16980; 19879; 16642], [19942; 3434; 20006; 6855; 6854; 6853; 19880]) (Some (LW 3434)) (Some (LW 19880));
    Cell ([3371; 16981; 19880; 16642], [19943; 3433; 20007; 6852; 6851; 6850; 19881]) (Some (LW 3433)) (Some (LW 19881));
    Cell ([3370; 16982; 19881; 16642], [19944; 3432; 20008; 6849; 6848; 6847; 19882]) (Some (LW 3432)) (Some (LW 19882));
    Cell ([3369; 16983; 19882; 16642], [19945; 3431; 20009; 6846; 6845; 6844; 19883]) (Some (LW 3431)) (Some (LW 19883));
    Cell ([3368; 16984; 19883; 16642], [19946; 3430; 20010; 6843; 6842; 6841; 19884]) (Some (LW 3430)) (Some (LW 19884));
    Cell ([3367; 16985; 19884; 16642], [19947; 3429; 20011; 6840; 6839; 6838; 19885]) (Some (LW 3429)) (Some (LW 19885));
    Cell ([3366; 16986; 19885; 16642], [19948; 3428; 20012; 6837; 6836; 6835; 19886]) (Some (LW 3428)) (Some (LW 19886));
    Cell ([3365; 16987; 19886; 16642], [19949; 3427; 20013; 6834; 6833; 6832; 19887]) (Some (LW 3427)) (Some (LW 19887));
    Cell ([3364; 16988; 19887; 16642], [19950; 3426; 20014; 6831; 6830; 6829; 19888]) (Some (LW 3426)) (Some (LW 19888));
    Cell ([3363; 16989; 19888; 16642], [19951; 3425; 20015; 6828; 6827; 6826; 19889]) (Some (LW 3425)) (Some (LW 19889));
    Cell ([3362; 16990; 19889; 16642], [19952; 3424; 20016; 6825; 6824; 6823; 19890]) (Some (LW 3424)) (Some (LW 19890));
    Cell ([3361; 16991; 19890; 16642], [19953; 3423; 20017; 6822; 6821; 6820; 19891]) (Some (LW 3423)) (Some (LW 19891));
    Cell ([3360; 16992; 19891; 16642], [19954; 3422; 20018; 6819; 6818; 6817; 19892]) (Some (LW 3422)) (Some (LW 19892));
    Cell ([3359; 16993; 19892; 16642], [19955; 3421; 20019; 6816; 6815; 6814; 19893]) (Some (LW 3421)) (Some (LW 19893));
    Cell ([3358; 16994; 19893; 16642], [19956; 3420; 20020; 6813; 6812; 6811; 19894]) (Some (LW 3420)) (Some (LW 19894));
    Cell ([3357; 16995; 19894; 16642], [19957; 3419; 20021; 6810; 6809; 6808; 19895]) (Some (LW 3419)) (Some (LW 19895));
    Cell ([3356; 16996; 19895; 16642], [19958; 3418; 20022; 6807; 6806; 6805; 19896]) (Some (LW 3418)) (Some (LW 19896));
    Cell ([3355; 16997; 19896; 16642], [19959; 3417; 20023; 6804; 6803; 6802; 19897]) (Some (LW 3417)) (Some (LW 19897));
    Cell ([3354; 16998; 19897; 16642], [19960; 3416; 20024; 6801; 6800; 6799; 19898]) (Some (LW 3416)) (Some (LW 19898));
    Cell ([3353; 16999; 19898; 16642], [19961; 3415; 20025; 6798; 6797; 6796; 19899]) (Some (LW 3415)) (Some (LW 19899));
    Cell ([3352; 17000; 19899; 16642], [19962; 3414; 20026; 6795; 6794; 6793; 19900]) (Some (LW 3414)) (Some (LW 19900));
    Cell ([3351; 17001; 19900; 16642], [19963; 3413; 20027; 6792; 6791; 6790; 19901]) (Some (LW 3413)) (Some (LW 19901));
    Cell ([3350; 17002; 19901; 16642], [19964; 3412; 20028; 6789; 6788; 6787; 19902]) (Some (LW 3412)) (Some (LW 19902));
    Cell ([3349; 17003; 19902; 16642], [19965; 3411; 20029; 6786; 6785; 6784; 19903]) (Some (LW 3411)) (Some (LW 19903));
    Cell ([3348; 17004; 19903; 16642], [19966; 3410; 20030; 6783; 6782; 6781; 19904]) (Some (LW 3410)) (Some (LW 19904));
    Cell ([3347; 17005; 19904; 16642], [19967; 3409; 20031; 6780; 6779; 6778; 19905]) (Some (LW 3409)) (Some (LW 19905));
    Cell ([3346; 17006; 19905; 16642], [19968; 3408; 20032; 6777; 6776; 6775; 19906]) (Some (LW 3408)) (Some (LW 19906));
    Cell ([3345; 17007; 19906; 16642], [19969; 3407; 20033; 6774; 6773; 6772; 19907]) (Some (LW 3407)) (Some (LW 19907));
    Cell ([3344; 17008; 19907; 16642], [19970; 3406; 20034; 6771; 6770; 6769; 19908]) (Some (LW 3406)) (Some (LW 19908));
    Cell ([3343; 17009; 19908; 16642], [19971; 181]) (Some (LW 181)) (None)]
   181 16641.
Definition divide64_row_52 : srow := SRow
   [Cell ([16830; 16946; 16641], [3531; 19783; 19657]) (Some (LW 3531)) (Some (LW 19657));
    Cell ([3468; 16947; 19657; 16641], [19720; 3530; 19784; 6768; 6767; 6766; 19658]) (Some (LW 3530)) (Some (LW 19658));
    Cell ([3467; 16948; 19658; 16641], [19721; 3529; 19785; 6765; 6764; 6763; 19659]) (Some (LW 3529)) (Some (LW 19659));
    Cell ([3466; 16949; 19659; 16641], [19722; 3528; 19786; 6762; 6761; 6760; 19660]) (Some (LW 3528)) (Some (LW 19660));
    Cell ([3465; 16950; 19660; 16641], [19723; 3527; 19787; 6759; 6758; 6757; 19661]) (Some (LW 3527)) (Some (LW 19661));
    Cell ([3464; 16951; 19661; 16641], [19724; 3526; 19788; 6756; 6755; 6754; 19662]) (Some (LW 3526)) (Some (LW 19662));
    Cell ([3463; 16952; 19662; 16641], [19725; 3525; 19789; 6753; 6752; 6751; 19663]) (Some (LW 3525)) (Some (LW 19663));
    Cell ([3462; 16953; 19663; 16641], [19726; 3524; 19790; 6750; 6749; 6748; 19664]) (Some (LW 3524)) (Some (LW 19664));
    Cell ([3461; 16954; 19664; 16641], [19727; 3523; 19791; 6747; 6746; 6745; 19665]) (Some (LW 3523)) (Some (LW 19665));
    Cell ([3460; 16955; 19665; 16641], [19728; 3522; 19792; 6744; 6743; 6742; 19666]) (Some (LW 3522)) (Some (LW 19666));
    Cell ([3459; 16956; 19666; 16641], [19729; 3521; 19793; 6741; 6740; 6739; 19667]) (Some (LW 3521)) (Some (LW 19667));
    Cell ([3458; 16957; 19667; 16641], [19730; 3520; 19794; 6738; 6737; 6736; 19668]) (Some (LW 3520)) (Some (LW 19668));
    Cell ([3457; 16958; 19668; 16641], [19731; 3519; 19795; 6735; 6734; 6733; 19669]) (Some (LW 3519)) (Some (LW 19669));
    Cell ([3456; 16959; 19669; 16641], [19732; 3518; 19796; 6732; 6731; 6730; 19670]) (Some (LW 3518)) (Some (LW 19670));
    Cell ([3455; 16960; 19670; 16641], [19733; 3517; 19797; 6729; 6728; 6727; 19671]) (Some (LW 3517)) (Some (LW 19671));
    Cell ([3454; 16961; 19671; 16641], [19734; 3516; 19798; 6726; 6725; 6724; 19672]) (Some (LW 3516)) (Some (LW 19672));
    Cell ([3453; 16962; 19672; 16641], [19735; 3515; 19799; 6723; 6722; 6721; 19673]) (Some (LW 3515)) (Some (LW 19673));
    Cell ([3452; 16963; 19673; 16641], [19736; 3514; 19800; 6720; 6719; 6718; 19674]) (Some (LW 3514)) (Some (LW 19674));
    Cell ([3451; 16964; 19674; 16641], [19737; 3513; 19801; 6717; 6716; 6715; 19675]) (Some (LW 3513)) (Some (LW 19675));
    Cell ([3450; 16965; 19675; 16641], [19738; 3512; 19802; 6714; 6713; 6712; 19676]) (Some (LW 3512)) (Some (LW 19676));
    Cell ([3449; 16966; 19676; 16641], [19739; 3511; 19803; 6711; 6710; 6709; 19677]) (Some (LW 3511)) (Some (LW 19677));
    Cell ([3448; 16967; 19677; 16641], [19740; 3510; 19804; 6708; 6707; 6706; 19678]) (Some (LW 3510)) (Some (LW 19678));
    Cell ([3447; 16968; 19678; 16641], [19741; 3509; 19805; 6705; 6704; 6703; 19679]) (Some (LW 3509)) (Some (LW 19679));
    Cell ([3446; 16969; 19679; 16641], [19742; 3508; 19806; 6702; 6701; 6700; 19680]) (Some (LW 3508)) (Some (LW 19680));
    Cell ([3445; 16970; 19680; 16641], [19743; 3507; 19807; 6699; 6698; 6697; 19681]) (Some (LW 3507)) (Some (LW 19681));
    Cell ([3444; 16971; 19681; 16641], [19744; 3506; 19808; 6696; 6695; 6694; 19682]) (Some (LW 3506)) (Some (LW 19682));
    Cell ([3443; 16972; 19682; 16641], [19745; 3505; 19809; 6693; 6692; 6691; 19683]) (Some (LW 3505)) (Some (LW 19683));
    Cell ([3442; 16973; 19683; 16641], [19746; 3504; 19810; 6690; 6689; 6688; 19684]) (Some (LW 3504)) (Some (LW 19684));
    Cell ([3441; 16974; 19684; 16641], [19747; 3503; 19811; 6687; 6686; 6685; 19685]) (Some (LW 3503)) (Some (LW 19685));
    Cell ([3440; 16975; 19685; 16641], [19748; 3502; 19812; 6684; 6683; 6682; 19686]) (Some (LW 3502)) (Some (LW 19686));
    Cell ([3439; 16976; 19686; 16641], [19749; 3501; 19813; 6681; 6680; 6679; 19687]) (Some (LW 3501)) (Some (LW 19687));
    Cell ([3438; 16977; 19687; 16641], [19750; 3500; 19814; 6678; 6677; 6676; 19688]) (Some (LW 3500)) (Some (LW 19688));
    Cell ([3437; 16978; 19688; 16641], [19751; 3499; 19815; 6675; 6674; 6673; 19689]) (Some (LW 3499)) (Some (LW 19689));
    Cell ([3436; 16979; 19689; 16641], [19752; 3498; 19816; 6672; 6671; 6670; 19690]) (Some (LW 3498)) (Some (LW 19690));
    Cell ([3435; 16980; 19690; 16641], [19753; 3497; 19817; 6669; 6668; 6667; 19691]) (Some (LW 3497)) (Some (LW 19691));
    Cell ([3434; 16981; 19691; 16641], [19754; 3496; 19818; 6666; 6665; 6664; 19692]) (Some (LW 3496)) (Some (LW 19692));
    Cell ([3433; 16982; 19692; 16641], [19755; 3495; 19819; 6663; 6662; 6661; 19693]) (Some (LW 3495)) (Some (LW 19693));
    Cell ([3432; 16983; 19693; 16641], [19756; 3494; 19820; 6660; 6659; 6658; 19694]) (Some (LW 3494)) (Some (LW 19694));
    Cell ([3431; 16984; 19694; 16641], [19757; 3493; 19821; 6657; 6656; 6655; 19695]) (Some (LW 3493)) (Some (LW 19695));
    Cell ([3430; 16985; 19695; 16641], [19758; 3492; 19822; 6654; 6653; 6652; 19696]) (Some (LW 3492)) (Some (LW 19696));
    Cell ([3429; 16986; 19696; 16641], [19759; 3491; 19823; 6651; 6650; 6649; 19697]) (Some (LW 3491)) (Some (LW 19697));
    Cell ([3428; 16987; 19697; 16641], [19760; 3490; 19824; 6648; 6647; 6646; 19698]) (Some (LW 3490)) (Some (LW 19698));
    Cell ([3427; 16988; 19698; 16641], [19761; 3489; 19825; 6645; 6644; 6643; 19699]) (Some (LW 3489)) (Some (LW 19699));
    Cell ([3426; 16989; 19699; 16641], [19762; 3488; 19826; 6642; 6641; 6640; 19700]) (Some (LW 3488)) (Some (LW 19700));
    Cell ([3425; 16990; 19700; 16641], [19763; 3487; 19827; 6639; 6638; 6637; 19701]) (Some (LW 3487)) (Some (LW 19701));
    Cell ([3424; 16991; 19701; 16641], [19764; 3486; 19828; 6636; 6635; 6634; 19702]) (Some (LW 3486)) (Some (LW 19702));
    Cell ([3423; 16992; 19702; 16641], [19765; 3485; 19829; 6633; 6632; 6631; 19703]) (Some (LW 3485)) (Some (LW 19703));
    Cell ([3422; 16993; 19703; 16641], [19766; 3484; 19830; 6630; 6629; 6628; 19704]) (Some (LW 3484)) (Some (LW 19704));
    Cell ([3421; 16994; 19704; 16641], [19767; 3483; 19831; 6627; 6626; 6625; 19705]) (Some (LW 3483)) (Some (LW 19705));
    Cell ([3420; 16995; 19705; 16641], [19768; 3482; 19832; 6624; 6623; 6622; 19706]) (Some (LW 3482)) (Some (LW 19706));
    Cell ([3419; 16996; 19706; 16641], [19769; 3481; 19833; 6621; 6620; 6619; 19707]) (Some (LW 3481)) (Some (LW 19707));
    Cell ([3418; 16997; 19707; 16641], [19770; 3480; 19834; 6618; 6617; 6616; 19708]) (Some (LW 3480)) (Some (LW 19708));
    Cell ([3417; 16998; 19708; 16641], [19771; 3479; 19835; 6615; 6614; 6613; 19709]) (Some (LW 3479)) (Some (LW 19709));
    Cell ([3416; 16999; 19709; 16641], [19772; 3478; 19836; 6612; 6611; 6610; 19710]) (Some (LW 3478)) (Some (LW 19710));
    Cell ([3415; 17000; 19710; 16641], [19773; 3477; 19837; 6609; 6608; 6607; 19711]) (Some (LW 3477)) (Some (LW 19711));
    Cell ([3414; 17001; 19711; 16641], [19774; 3476; 19838; 6606; 6605; 6604; 19712]) (Some (LW 3476)) (Some (LW 19712));
    Cell ([3413; 17002; 19712; 16641], [19775; 3475; 19839; 6603; 6602; 6601; 19713]) (Some (LW 3475)) (Some (LW 19713));
    Cell ([3412; 17003; 19713; 16641], [19776; 3474; 19840; 6600; 6599; 6598; 19714]) (Some (LW 3474)) (Some (LW 19714));
    Cell ([3411; 17004; 19714; 16641], [19777; 3473; 19841; 6597; 6596; 6595; 19715]) (Some (LW 3473)) (Some (LW 19715));
    Cell ([3410; 17005; 19715; 16641], [19778; 3472; 19842; 6594; 6593; 6592; 19716]) (Some (LW 3472)) (Some (LW 19716));
    Cell ([3409; 17006; 19716; 16641], [19779; 3471; 19843; 6591; 6590; 6589; 19717]) (Some (LW 3471)) (Some (LW 19717));
    Cell ([3408; 17007; 19717; 16641], [19780; 3470; 19844; 6588; 6587; 6586; 19718]) (Some (LW 3470)) (Some (LW 19718));
    Cell ([3407; 17008; 19718; 16641], [19781; 3469; 19845; 6585; 6584; 6583; 19719]) (Some (LW 3469)) (Some (LW 19719));
    Cell ([3406; 17009; 19719; 16641], [19782; 182]) (Some (LW 182)) (None)]
   182 16640.
Definition divide64_row_53 : srow := SRow
   [Cell ([16829; 16946; 16640], [3594; 19594; 19468]) (Some (LW 3594)) (Some (LW 19468));
    Cell ([3531; 16947; 19468; 16640], [19531; 3593; 19595; 6582; 6581; 6580; 19469]) (Some (LW 3593)) (Some (LW 19469));
    Cell ([3530; 16948; 19469; 16640], [19532; 3592; 19596; 6579; 6578; 6577; 19470]) (Some (LW 3592)) (Some (LW 19470));
    Cell ([3529; 16949; 19470; 16640], [19533; 3591; 19597; 6576; 6575; 6574; 19471]) (Some (LW 3591)) (Some (LW 19471));
    Cell ([3528; 16950; 19471; 16640], [19534; 3590; 19598; 6573; 6572; 6571; 19472]) (Some (LW 3590)) (Some (LW 19472));
    Cell ([3527; 16951; 19472; 16640], [19535; 3589; 19599; 6570; 6569; 6568; 19473]) (Some (LW 3589)) (Some (LW 19473));
    Cell ([3526; 16952; 19473; 16640], [19536; 3588; 19600; 6567; 6566; 6565; 19474]) (Some (LW 3588)) (Some (LW 19474));
    Cell ([3525; 16953; 19474; 16640], [19537; 3587; 19601; 6564; 6563; 6562; 19475]) (Some (LW 3587)) (Some (LW 19475));
    Cell ([3524; 16954; 19475; 16640], [19538; 3586; 19602; 6561; 6560; 6559; 19476]) (Some (LW 3586)) (Some (LW 19476));
    Cell ([3523; 16955; 19476; 16640], [19539; 3585; 19603; 6558; 6557; 6556; 19477]) (Some (LW 3585)) (Some (LW 19477));
    Cell ([3522; 16956; 19477; 16640], [19540; 3584; 19604; 6555; 6554; 6553; 19478]) (Some (LW 3584)) (Some (LW 19478));
    Cell ([3521; 16957; 19478; 16640], [19541; 3583; 19605; 6552; 6551; 6550; 19479]) (Some (LW 3583)) (Some (LW 19479));
    Cell ([3520; 16958; 19479; 16640], [19542; 3582; 19606; 6549; 6548; 6547; 19480]) (Some (LW 3582)) (Some (LW 19480));
    Cell ([3519; 16959; 19480; 16640], [19543; 3581; 19607; 6546; 6545; 6544; 19481]) (Some (LW 3581)) (Some (LW 19481));
    Cell ([3518; 16960; 19481; 16640], [19544; 3580; 19608; 6543; 6542; 6541; 19482]) (Some (LW 3580)) (Some (LW 19482));
    Cell ([3517; 16961; 19482; 16640], [19545; 3579; 19609; 6540; 6539; 6538; 19483]) (Some (LW 3579)) (Some (LW 19483));
    Cell ([3516; 16962; 19483; 16640], [19546; 3578; 19610; 6537; 6536; 6535; 19484]) (Some (LW 3578)) (Some (LW 19484));
    Cell ([3515; 16963; 19484; 16640], [19547; 3577; 19611; 6534; 6533; 6532; 19485]) (Some (LW 3577)) (Some (LW 19485));
    Cell ([3514; 16964; 19485; 16640], [19548; 3576; 19612; 6531; 6530; 6529; 19486]) (Some (LW 3576)) (Some (LW 19486));
    Cell ([3513; 16965; 19486; 16640], [19549; 3575; 19613; 6528; 6527; 6526; 19487]) (Some (LW 3575)) (Some (LW 19487));
    Cell ([3512; 16966; 19487; 16640], [19550; 3574; 19614; 6525; 6524; 6523; 19488]) (Some (LW 3574)) (Some (LW 19488));
    Cell ([3511; 16967; 19488; 16640], [19551; 3573; 19615; 6522; 6521; 6520; 19489]) (Some (LW 3573)) (Some (LW 19489));
    Cell ([3510; 16968; 19489; 16640], [19552; 3572; 19616; 6519; 6518; 6517; 19490]) (Some (LW 3572)) (Some (LW 19490));
    Cell ([3509; 16969; 19490; 16640], [19553; 3571; 19617; 6516; 6515; 6514; 19491]) (Some (LW 3571)) (Some (LW 19491));
    Cell ([3508; 16970; 19491; 16640], [19554; 3570; 19618; 6513; 6512; 6511; 19492]) (Some (LW 3570)) (Some (LW 19492));
    Cell ([3507; 16971; 19492; 16640], [19555; 3569; 19619; 6510; 6509; 6508; 19493]) (Some (LW 3569)) (Some (LW 19493));
    Cell ([3506; 16972; 19493; 16640], [19556; 3568; 19620; 6507; 6506; 6505; 19494]) (Some (LW 3568)) (Some (LW 19494));
    Cell ([3505; 16973; 19494; 16640], [19557; 3567; 19621; 6504; 6503; 6502; 19495]) (Some (LW 3567)) (Some (LW 19495));
    Cell ([3504; 16974; 19495; 16640], [19558; 3566; 19622; 6501; 6500; 6499; 19496]) (Some (LW 3566)) (Some (LW 19496));
    Cell ([3503; 16975; 19496; 16640], [19559; 3565; 19623; 6498; 6497; 6496; 19497]) (Some (LW 3565)) (Some (LW 19497));
    Cell ([3502; 16976; 19497; 16640], [19560; 3564; 19624; 6495; 6494; 6493; 19498]) (Some (LW 3564)) (Some (LW 19498));
    Cell ([3501; 16977; 19498; 16640], [19561; 3563; 19625; 6492; 6491; 6490; 19499]) (Some (LW 3563)) (Some (LW 19499));
    Cell ([3500; 16978; 19499; 16640], [19562; 3562; 19626; 6489; 6488; 6487; 19500]) (Some (LW 3562)) (Some (LW 19500));
    Cell ([3499; 16979; 19500; 16640], [19563; 3561; 19627; 6486; 6485; 6484; 19501]) (Some (LW 3561)) (Some (LW 19501));
    Cell ([3498; 16980; 19501; 16640], [19564; 3560; 19628; 6483; 6482; 6481; 19502]) (Some (LW 3560)) (Some (LW 19502));
    Cell ([3497; 16981; 19502; 16640], [19565; 3559; 19629; 6480; 6479; 6478; 19503]) (Some (LW 3559)) (Some (LW 19503));
    Cell ([3496; 16982; 19503; 16640], [19566; 3558; 19630; 6477; 6476; 6475; 19504]) (Some (LW 3558)) (Some (LW 19504));
    Cell ([3495; 16983; 19504; 16640], [19567; 3557; 19631; 6474; 6473; 6472; 19505]) (Some (LW 3557)) (Some (LW 19505));
    Cell ([3494; 16984; 19505; 16640], [19568; 3556; 19632; 6471; 6470; 6469; 19506]) (Some (LW 3556)) (Some (LW 19506));
    Cell ([3493; 16985; 19506; 16640], [19569; 3555; 19633; 6468; 6467; 6466; 19507]) (Some (LW 3555)) (Some (LW 19507));
    Cell ([3492; 16986; 19507; 16640], [19570; 3554; 19634; 6465; 6464; 6463; 19508]) (Some (LW 3554)) (Some (LW 19508));
    Cell ([3491; 16987; 19508; 16640], [19571; 3553; 19635; 6462; 6461; 6460; 19509]) (Some (LW 3553)) (Some (LW 19509));
    Cell ([3490; 16988; 19509; 16640], [19572; 3552; 19636; 6459; 6458; 6457; 19510]) (Some (LW 3552)) (Some (LW 19510));
    Cell ([3489; 16989; 19510; 16640], [19573; 3551; 19637; 6456; 6455; 6454; 19511]) (Some (LW 3551)) (Some (LW 19511));
    Cell ([3488; 16990; 19511; 16640], [19574; 3550; 19638; 6453; 6452; 6451; 19512]) (Some (LW 3550)) (Some (LW 19512));
    Cell ([3487; 16991; 19512; 16640], [19575; 3549; 19639; 6450; 6449; 6448; 19513]) (Some (LW 3549)) (Some (LW 19513));
    Cell ([3486; 16992; 19513; 16640], [19576; 3548; 19640; 6447; 6446; 6445; 19514]) (Some (LW 3548)) (Some (LW 19514));
    Cell ([3485; 16993; 19514; 16640], [19577; 3547; 19641; 6444; 6443; 6442; 19515]) (Some (LW 3547)) (Some (LW 19515));
    Cell ([3484; 16994; 19515; 16640], [19578; 3546; 19642; 6441; 6440; 6439; 19516]) (Some (LW 3546)) (Some (LW 19516));
    Cell ([3483; 16995; 19516; 16640], [19579; 3545; 19643; 6438; 6437; 6436; 19517]) (Some (LW 3545)) (Some (LW 19517));
    Cell ([3482; 16996; 19517; 16640], [19580; 3544; 19644; 6435; 6434; 6433; 19518]) (Some (LW 3544)) (Some (LW 19518));
    Cell ([3481; 16997; 19518; 16640], [19581; 3543; 19645; 6432; 6431; 6430; 19519]) (Some (LW 3543)) (Some (LW 19519));
    Cell ([3480; 16998; 19519; 16640], [19582; 3542; 19646; 6429; 6428; 6427; 19520]) (Some (LW 3542)) (Some (LW 19520));
    Cell ([3479; 16999; 19520; 16640], [19583; 3541; 19647; 6426; 6425; 6424; 19521]) (Some (LW 3541)) (Some (LW 19521));
    Cell ([3478; 17000; 19521; 16640], [19584; 3540; 19648; 6423; 6422; 6421; 19522]) (Some (LW 3540)) (Some (LW 19522));
    Cell ([3477; 17001; 19522; 16640], [19585; 3539; 19649; 6420; 6419; 6418; 19523]) (Some (LW 3539)) (Some (LW 19523));
    Cell ([3476; 17002; 19523; 16640], [19586; 3538; 19650; 6417; 6416; 6415; 19524]) (Some (LW 3538)) (Some (LW 19524));
    Cell ([3475; 17003; 19524; 16640], [19587; 3537; 19651; 6414; 6413; 6412; 19525]) (Some (LW 3537)) (Some (LW 19525));
    Cell ([3474; 17004; 19525; 16640], [19588; 3536; 19652; 6411; 6410; 6409; 19526]) (Some (LW 3536)) (Some (LW 19526));
    Cell ([3473; 17005; 19526; 16640], [19589; 3535; 19653; 6408; 6407; 6406; 19527]) (Some (LW 3535)) (Some (LW 19527));
    Cell ([3472; 17006; 19527; 16640], [19590; 3534; 19654; 6405; 6404; 6403; 19528]) (Some (LW 3534)) (Some (LW 19528));
    Cell ([3471; 17007; 19528; 16640], [19591; 3533; 19655; 6402; 6401; 6400; 19529]) (Some (LW 3533)) (Some (LW 19529));
    Cell ([3470; 17008; 19529; 16640], [19592; 3532; 19656; 6399; 6398; 6397; 19530]) (Some (LW 3532)) (Some (LW 19530));
    Cell ([3469; 17009; 19530; 16640], [19593; 183]) (Some (LW 183)) (None)]
   183 16639.
Definition divide64_row_54 : srow := SRow
   [Cell ([16828; 16946; 16639], [3657; 19405; 19279]) (Some (LW 3657)) (Some (LW 19279));
    Cell ([3594; 16947; 19279; 16639], [19342; 3656; 19406; 6396; 6395; 6394; 19280]) (Some (LW 3656)) (Some (LW 19280));
    Cell ([3593; 16948; 19280; 16639], [19343; 3655; 19407; 6393; 6392; 6391; 19281]) (Some (LW 3655)) (Some (LW 19281));
    Cell ([3592; 16949; 19281; 16639], [19344; 3654; 19408; 6390; 6389; 6388; 19282]) (Some (LW 3654)) (Some (LW 19282));
    Cell ([3591; 16950; 19282; 16639], [19345; 3653; 19409; 6387; 6386; 6385; 19283]) (Some (LW 3653)) (Some (LW 19283));
    Cell ([3590; 16951; 19283; 16639], [19346; 3652; 19410; 6384; 6383; 6382; 19284]) (Some (LW 3652)) (Some (LW 19284));
    Cell ([3589; 16952; 19284; 16639], [19347; 3651; 19411; 6381; 6380; 6379; 19285]) (Some (LW 3651)) (Some (LW 19285));
    Cell ([3588; 16953; 19285; 16639], [19348; 3650; 19412; 6378; 6377; 6376; 19286]) (Some (LW 3650)) (Some (LW 19286));
    Cell ([3587; 16954; 19286; 16639], [19349; 3649; 19413; 6375; 6374; 6373; 19287]) (Some (LW 3649)) (Some (LW 19287));
    Cell ([3586; 16955; 19287; 16639], [19350; 3648; 19414; 6372; 6371; 6370; 19288]) (Some (LW 3648)) (Some (LW 19288));
    Cell ([3585; 16956; 19288; 16639], [19351; 3647; 19415; 6369; 6368; 6367; 19289]) (Some (LW 3647)) (Some (LW 19289));
    Cell ([3584; 16957; 19289; 16639], [19352; 3646; 19416; 6366; 6365; 6364; 19290]) (Some (LW 3646)) (Some (LW 19290));
    Cell ([3583; 16958; 19290; 16639], [19353; 3645; 19417; 6363; 6362; 6361; 19291]) (Some (LW 3645)) (Some (LW 19291));
    Cell ([3582; 16959; 19291; 16639], [19354; 3644; 19418; 6360; 6359; 6358; 19292]) (Some (LW 3644)) (Some (LW 19292));
    Cell ([3581; 16960; 19292; 16639], [19355; 3643; 19419; 6357; 6356; 6355; 19293]) (Some (LW 3643)) (Some (LW 19293));
    Cell ([3580; 16961; 19293; 16639], [19356; 3642; 19420; 6354; 6353; 6352; 19294]) (Some (LW 3642)) (Some (LW 19294));
    Cell ([3579; 16962; 19294; 16639], [19357; 3641; 19421; 6351; 6350; 6349; 19295]) (Some (LW 3641)) (Some (LW 19295));
    Cell ([3578; 16963; 19295; 16639], [19358; 3640; 19422; 6348; 6347; 6346; 19296]) (Some (LW 3640)) (Some (LW 19296));
    Cell ([3577; 16964; 19296; 16639], [19359; 3639; 19423; 6345; 6344; 6343; 19297]) (Some (LW 3639)) (Some (LW 19297));
    Cell ([3576; 16965; 19297; 16639], [19360; 3638; 19424; 6342; 6341; 6340; 19298]) (Some (LW 3638)) (Some (LW 19298));
    Cell ([3575; 16966; 19298; 16639], [19361; 3637; 19425; 6339; 6338; 6337; 19299]) (Some (LW 3637)) (Some (LW 19299));
    Cell ([3574; 16967; 19299; 16639], [19362; 3636; 19426; 6336; 6335; 6334; 19300]) (Some (LW 3636)) (Some (LW 19300));
    Cell ([3573; 16968; 19300; 16639], [19363; 3635; 19427; 6333; 6332; 6331; 19301]) (Some (LW 3635)) (Some (LW 19301));
    Cell ([3572; 16969; 19301; 16639], [19364; 3634; 19428; 6330; 6329; 6328; 19302]) (Some (LW 3634)) (Some (LW 19302));
    Cell ([3571; 16970; 19302; 16639], [19365; 3633; 19429; 6327; 6326; 6325; 19303]) (Some (LW 3633)) (Some (LW 19303));
    Cell ([3570; 16971; 19303; 16639], [19366; 3632; 19430; 6324; 6323; 6322; 19304]) (Some (LW 3632)) (Some (LW 19304));
    Cell ([3569; 16972; 19304; 16639], [19367; 3631; 19431; 6321; 6320; 6319; 19305]) (Some (LW 3631)) (Some (LW 19305));
    Cell ([3568; 16973; 19305; 16639], [19368; 3630; 19432; 6318; 6317; 6316; 19306]) (Some (LW 3630)) (Some (LW 19306));
    Cell ([3567; 16974; 19306; 16639], [19369; 3629; 19433; 6315; 6314; 6313; 19307]) (Some (LW 3629)) (Some (LW 19307));
    Cell ([3566; 16975; 19307; 16639], [19370; 3628; 19434; 6312; 6311; 6310; 19308]) (Some (LW 3628)) (Some (LW 19308));
    Cell ([3565; 16976; 19308; 16639], [19371; 3627; 19435; 6309; 6308; 6307; 19309]) (Some (LW 3627)) (Some (LW 19309));
    Cell ([3564; 16977; 19309; 16639], [19372; 3626; 19436; 6306; 6305; 6304; 19310]) (Some (LW 3626)) (Some (LW 19310));
    Cell ([3563; 16978; 19310; 16639], [19373; 3625; 19437; 6303; 6302; 6301; 19311]) (Some (LW 3625)) (Some (LW 19311));
    Cell ([3562; 16979; 19311; 16639], [19374; 3624; 19438; 6300; 6299; 6298; 19312]) (Some (LW 3624)) (Some (LW 19312));
    Cell ([3561; 16980; 19312; 16639], [19375; 3623; 19439; 6297; 6296; 6295; 19313]) (Some (LW 3623)) (Some (LW 19313));
    Cell ([3560; 16981; 19313; 16639], [19376; 3622; 19440; 6294; 6293; 6292; 19314]) (Some (LW 3622)) (Some (LW 19314));
    Cell ([3559; 16982; 19314; 16639], [19377; 3621; 19441; 6291; 6290; 6289; 19315]) (Some (LW 3621)) (Some (LW 19315));
    Cell ([3558; 16983; 19315; 16639], [19378; 3620; 19442; 6288; 6287; 6286; 19316]) (Some (LW 3620)) (Some (LW 19316));
    Cell ([3557; 16984; 19316; 16639], [19379; 3619; 19443; 6285; 6284; 6283; 19317]) (Some (LW 3619)) (Some (LW 19317));
    Cell ([3556; 16985; 19317; 16639], [19380; 3618; 19444; 6282; 6281; 6280; 19318]) (Some (LW 3618)) (Some (LW 19318));
    Cell ([3555; 16986; 19318; 16639], [19381; 3617; 19445; 6279; 6278; 6277; 19319]) (Some (LW 3617)) (Some (LW 19319));
    Cell ([3554; 16987; 19319; 16639], [19382; 3616; 19446; 6276; 6275; 6274; 19320]) (Some (LW 3616)) (Some (LW 19320));
    Cell ([3553; 16988; 19320; 16639], [19383; 3615; 19447; 6273; 6272; 6271; 19321]) (Some (LW 3615)) (Some (LW 19321));
    Cell ([3552; 16989; 19321; 16639], [19384; 3614; 19448; 6270; 6269; 6268; 19322]) (Some (LW 3614)) (Some (LW 19322));
    Cell ([3551; 16990; 19322; 16639], [19385; 3613; 19449; 6267; 6266; 6265; 19323]) (Some (LW 3613)) (Some (LW 19323));
    Cell ([3550; 16991; 19323; 16639], [19386; 3612; 19450; 6264; 6263; 6262; 19324]) (Some (LW 3612)) (Some (LW 19324));
    Cell ([3549; 16992; 19324; 16639], [19387; 3611; 19451; 6261; 6260; 6259; 19325]) (Some (LW 3611)) (Some (LW 19325));
    Cell ([3548; 16993; 19325; 16639], [19388; 3610; 19452; 6258; 6257; 6256; 19326]) (Some (LW 3610)) (Some (LW 19326));
    Cell ([3547; 16994; 19326; 16639], [19389; 3609; 19453; 6255; 6254; 6253; 19327]) (Some (LW 3609)) (Some (LW 19327));
    Cell ([3546; 16995; 19327; 16639], [19390; 3608; 19454; 6252; 6251; 6250; 19328]) (Some (LW 3608)) (Some (LW 19328));
    Cell ([3545; 16996; 19328; 16639], [19391; 3607; 19455; 6249; 6248; 6247; 19329]) (Some (LW 3607)) (Some (LW 19329));
    Cell ([3544; 16997; 19329; 16639], [19392; 3606; 19456; 6246; 6245; 6244; 19330]) (Some (LW 3606)) (Some (LW 19330));
    Cell ([3543; 16998; 19330; 16639], [19393; 3605; 19457; 6243; 6242; 6241; 19331]) (Some (LW 3605)) (Some (LW 19331));
    Cell ([3542; 16999; 19331; 16639], [19394; 3604; 19458; 6240; 6239; 6238; 19332]) (Some (LW 3604)) (Some (LW 19332));
    Cell ([3541; 17000; 19332; 16639], [19395; 3603; 19459; 6237; 6236; 6235; 19333]) (Some (LW 3603)) (Some (LW 19333));
    Cell ([3540; 17001; 19333; 16639], [19396; 3602; 19460; 6234; 6233; 6232; 19334]) (Some (LW 3602)) (Some (LW 19334));
    Cell ([3539; 17002; 19334; 16639], [19397; 3601; 19461; 6231; 6230; 6229; 19335]) (Some (LW 3601)) (Some (LW 19335));
    Cell ([3538; 17003; 19335; 16639], [19398; 3600; 19462; 6228; 6227; 6226; 19336]) (Some (LW 3600)) (Some (LW 19336));
    Cell ([3537; 17004; 19336; 16639], [19399; 3599; 19463; 6225; 6224; 6223; 19337]) (Some (LW 3599)) (Some (LW 19337));
    Cell ([3536; 17005; 19337; 16639], [19400; 3598; 19464; 6222; 6221; 6220; 19338]) (Some (LW 3598)) (Some (LW 19338));
    Cell ([3535; 17006; 19338; 16639], [19401; 3597; 19465; 6219; 6218; 6217; 19339]) (Some (LW 3597)) (Some (LW 19339));
    Cell ([3534; 17007; 19339; 16639], [19402; 3596; 19466; 6216; 6215; 6214; 19340]) (Some (LW 3596)) (Some (LW 19340));
    Cell ([3533; 17008; 19340; 16639], [19403; 3595; 19467; 6213; 6212; 6211; 19341]) (Some (LW 3595)) (Some (LW 19341));
    Cell ([3532; 17009; 19341; 16639], [19404; 184]) (Some (LW 184)) (None)]
   184 16638.
Definition divide64_row_55 : srow := SRow
   [Cell ([16827; 16946; 16638], [3720; 19216; 19090]) (Some (LW 3720)) (Some (LW 19090));
    Cell ([3657; 16947; 19090; 16638], [19153; 3719; 19217; 6210; 6209; 6208; 19091]) (Some (LW 3719)) (Some (LW 19091));
    Cell ([3656; 16948; 19091; 16638], [19154; 3718; 19218; 6207; 6206; 6205; 19092]) (Some (LW 3718)) (Some (LW 19092));
    Cell ([3655; 16949; 19092; 16638], [19155; 3717; 19219; 6204; 6203; 6202; 19093]) (Some (LW 3717)) (Some (LW 19093));
    Cell ([3654; 16950; 19093; 16638], [19156; 3716; 19220; 6201; 6200; 6199; 19094]) (Some (LW 3716)) (Some (LW 19094));
    Cell ([3653; 16951; 19094; 16638], [19157; 3715; 19221; 6198; 6197; 6196; 19095]) (Some (LW 3715)) (Some (LW 19095));
    Cell ([3652; 16952; 19095; 16638], [19158; 3714; 19222; 6195; 6194; 6193; 19096]) (Some (LW 3714)) (Some (LW 19096));
    Cell ([3651; 16953; 19096; 16638], [19159; 3713; 19223; 6192; 6191; 6190; 19097]) (Some (LW 3713)) (Some (LW 19097));
    Cell ([3650; 16954; 19097; 16638], [19160; 3712; 19224; 6189; 6188; 6187; 19098]) (Some (LW 3712)) (Some (LW 19098));
    Cell ([3649; 16955; 19098; 16638], [19161; 3711; 19225; 6186; 6185; 6184; 19099]) (Some (LW 3711)) (Some (LW 19099));
    Cell ([3648; 16956; 19099; 16638], [19162; 3710; 19226; 6183; 6182; 6181; 19100]) (Some (LW 3710)) (Some (LW 19100));
    Cell ([3647; 16957; 19100; 16638], [19163; 3709; 19227; 6180; 6179; 6178; 19101]) (Some (LW 3709)) (Some (LW 19101));
    Cell ([3646; 16958; 19101; 16638], [19164; 3708; 19228; 6177; 6176; 6175; 19102]) (Some (LW 3708)) (Some (LW 19102));
    Cell ([3645; 16959; 19102; 16638], [19165; 3707; 19229; 6174; 6173; 6172; 19103]) (Some (LW 3707)) (Some (LW 19103));
    Cell ([3644; 16960; 19103; 16638], [19166; 3706; 19230; 6171; 6170; 6169; 19104]) (Some (LW 3706)) (Some (LW 19104));
    Cell ([3643; 16961; 19104; 16638], [19167; 3705; 19231; 6168; 6167; 6166; 19105]) (Some (LW 3705)) (Some (LW 19105));
    Cell ([3642; 16962; 19105; 16638], [19168; 3704; 19232; 6165; 6164; 6163; 19106]) (Some (LW 3704)) (Some (LW 19106));
    Cell ([3641; 16963; 19106; 16638], [19169; 3703; 19233; 6162; 6161; 6160; 19107]) (Some (LW 3703)) (Some (LW 19107));
    Cell ([3640; 16964; 19107; 16638], [19170; 3702; 19234; 6159; 6158; 6157; 19108]) (Some (LW 3702)) (Some (LW 19108));
    Cell ([3639; 16965; 19108; 16638], [19171; 3701; 19235; 6156; 6155; 6154; 19109]) (Some (LW 3701)) (Some (LW 19109));
    Cell ([3638; 16966; 19109; 16638], [19172; 3700; 19236; 6153; 6152; 6151; 19110]) (Some (LW 3700)) (Some (LW 19110));
    Cell ([3637; 16967; 19110; 16638], [19173; 3699; 19237; 6150; 6149; 6148; 19111]) (Some (LW 3699)) (Some (LW 19111));
    Cell ([3636; 16968; 19111; 16638], [19174; 3698; 19238; 6147; 6146; 6145; 19112]) (Some (LW 3698)) (Some (LW 19112));
    Cell ([3635; 16969; 19112; 16638], [19175; 3697; 19239; 6144; 6143; 6142; 19113]) (Some (LW 3697)) (Some (LW 19113));
    Cell ([3634; 16970; 19113; 16638], [19176; 3696; 19240; 6141; 6140; 6139; 19114]) (Some (LW 3696)) (Some (LW 19114));
    Cell ([3633; 16971; 19114; 16638], [19177; 3695; 19241; 6138; 6137; 6136; 19115]) (Some (LW 3695)) (Some (LW 19115));
    Cell ([3632; 16972; 19115; 16638], [19178; 3694; 19242; 6135; 6134; 6133; 19116]) (Some (LW 3694)) (Some (LW 19116));
    Cell ([3631; 16973; 19116; 16638], [19179; 3693; 19243; 6132; 6131; 6130; 19117]) (Some (LW 3693)) (Some (LW 19117));
    Cell ([3630; 16974; 19117; 16638], [19180; 3692; 19244; 6129; 6128; 6127; 19118]) (Some (LW 3692)) (Some (LW 19118));
    Cell ([3629; 16975; 19118; 16638], [19181; 3691; 19245; 6126; 6125; 6124; 19119]) (Some (LW 3691)) (Some (LW 19119));
    Cell ([3628; 16976; 19119; 16638], [19182; 3690; 19246; 6123; 6122; 6121; 19120]) (Some (LW 3690)) (Some (LW 19120));
    Cell ([3627; 16977; 19120; 16638], [19183; 3689; 19247; 6120; 6119; 6118; 19121]) (Some (LW 3689)) (Some (LW 19121));
    Cell ([3626; 16978; 19121; 16638], [19184; 3688; 19248; 6117; 6116; 6115; 19122]) (Some (LW 3688)) (Some (LW 19122));
    Cell ([3625; 16979; 19122; 16638], [19185; 3687; 19249; 6114; 6113; 6112; 19123]) (Some (LW 3687)) (Some (LW 19123));
    Cell ([3624; 16980; 19123; 16638], [19186; 3686; 19250; 6111; 6110; 6109; 19124]) (Some (LW 3686)) (Some (LW 19124));
    Cell ([3623; 16981; 19124; 16638], [19187; 3685; 19251; 6108; 6107; 6106; 19125]) (Some (LW 3685)) (Some (LW 19125));
    Cell ([3622; 16982; 19125; 16638], [19188; 3684; 19252; 6105; 6104; 6103; 19126]) (Some (LW 3684)) (Some (LW 19126));
    Cell ([3621; 16983; 19126; 16638], [19189; 3683; 19253; 6102; 6101; 6100; 19127]) (Some (LW 3683)) (Some (LW 19127));
    Cell ([3620; 16984; 19127; 16638], [19190; 3682; 19254; 6099; 6098; 6097; 19128]) (Some (LW 3682)) (Some (LW 19128));
    Cell ([3619; 16985; 19128; 16638], [19191; 3681; 19255; 6096; 6095; 6094; 19129]) (Some (LW 3681)) (Some (LW 19129));
    Cell ([3618; 16986; 19129; 16638], [19192; 3680; 19256; 6093; 6092; 6091; 19130]) (Some (LW 3680)) (Some (LW 19130));
    Cell ([3617; 16987; 19130; 16638], [19193; 3679; 19257; 6090; 6089; 6088; 19131]) (Some (LW 3679)) (Some (LW 19131));
    Cell ([3616; 16988; 19131; 16638], [19194; 3678; 19258; 6087; 6086; 6085; 19132]) (Some (LW 3678)) (Some (LW 19132));
    Cell ([3615; 16989; 19132; 16638], [19195; 3677; 19259; 6084; 6083; 6082; 19133]) (Some (LW 3677)) (Some (LW 19133));
    Cell ([3614; 16990; 19133; 16638], [19196; 3676; 19260; 6081; 6080; 6079; 19134]) (Some (LW 3676)) (Some (LW 19134));
    Cell ([3613; 16991; 19134; 16638], [19197; 3675; 19261; 6078; 6077; 6076; 19135]) (Some (LW 3675)) (Some (LW 19135));
    Cell ([3612; 16992; 19135; 16638], [19198; 3674; 19262; 6075; 6074; 6073; 19136]) (Some (LW 3674)) (Some (LW 19136));
    Cell ([3611; 16993; 19136; 16638], [19199; 3673; 19263; 6072; 6071; 6070; 19137]) (Some (LW 3673)) (Some (LW 19137));
    Cell ([3610; 16994; 19137; 16638], [19200; 3672; 19264; 6069; 6068; 6067; 19138]) (Some (LW 3672)) (Some (LW 19138));
    Cell ([3609; 16995; 19138; 16638], [19201; 3671; 19265; 6066; 6065; 6064; 19139]) (Some (LW 3671)) (Some (LW 19139));
    Cell ([3608; 16996; 19139; 16638], [19202; 3670; 19266; 6063; 6062; 6061; 19140]) (Some (LW 3670)) (Some (LW 19140));
    Cell ([3607; 16997; 19140; 16638], [19203; 3669; 19267; 6060; 6059; 6058; 19141]) (Some (LW 3669)) (Some (LW 19141));
    Cell ([3606; 16998; 19141; 16638], [19204; 3668; 19268; 6057; 6056; 6055; 19142]) (Some (LW 3668)) (Some (LW 19142));
    Cell ([3605; 16999; 19142; 16638], [19205; 3667; 19269; 6054; 6053; 6052; 19143]) (Some (LW 3667)) (Some (LW 19143));
    Cell ([3604; 17000; 19143; 16638], [19206; 3666; 19270; 6051; 6050; 6049; 19144]) (Some (LW 3666)) (Some (LW 19144));
    Cell ([3603; 17001; 19144; 16638], [19207; 3665; 19271; 6048; 6047; 6046; 19145]) (Some (LW 3665)) (Some (LW 19145));
    Cell ([3602; 17002; 19145; 16638], [19208; 3664; 19272; 6045; 6044; 6043; 19146]) (Some (LW 3664)) (Some (LW 19146));
    Cell ([3601; 17003; 19146; 16638], [19209; 3663; 19273; 6042; 6041; 6040; 19147]) (Some (LW 3663)) (Some (LW 19147));
    Cell ([3600; 17004; 19147; 16638], [19210; 3662; 19274; 6039; 6038; 6037; 19148]) (Some (LW 3662)) (Some (LW 19148));
    Cell ([3599; 17005; 19148; 16638], [19211; 3661; 19275; 6036; 6035; 6034; 19149]) (Some (LW 3661)) (Some (LW 19149));
    Cell ([3598; 17006; 19149; 16638], [19212; 3660; 19276; 6033; 6032; 6031; 19150]) (Some (LW 3660)) (Some (LW 19150));
    Cell ([3597; 17007; 19150; 16638], [19213; 3659; 19277; 6030; 6029; 6028; 19151]) (Some (LW 3659)) (Some (LW 19151));
    Cell ([3596; 17008; 19151; 16638], [19214; 3658; 19278; 6027; 6026; 6025; 19152]) (Some (LW 3658)) (Some (LW 19152));
    Cell ([3595; 17009; 19152; 16638], [19215; 185]) (Some (LW 185)) (None)]
   185 16637.
Definition divide64_row_56 : srow := SRow
   [Cell ([16826; 16946; 16637], [3783; 19027; 18901]) (Some (LW 3783)) (Some (LW 18901));
    Cell ([3720; 16947; 18901; 16637], [18964; 3782; 19028; 6024; 6023; 6022; 18902]) (Some (LW 3782)) (Some (LW 18902));
    Cell ([3719; 16948; 18902; 16637], [18965; 3781; 19029; 6021; 6020; 6019; 18903]) (Some (LW 3781)) (Some (LW 18903));
    Cell ([3718; 16949; 18903; 16637], [18966; 3780; 19030; 6018; 6017; 6016; 18904]) (Some (LW 3780)) (Some (LW 18904));
    Cell ([3717; 16950; 18904; 16637], [18967; 3779; 19031; 6015; 6014; 6013; 18905]) (Some (LW 3779)) (Some (LW 18905));
    Cell ([3716; 16951; 18905; 16637], [18968; 3778; 19032; 6012; 6011; 6010; 18906]) (Some (LW 3778)) (Some (LW 18906));
    Cell ([3715; 16952; 18906; 16637], [18969; 3777; 19033; 6009; 6008; 6007; 18907]) (Some (LW 3777)) (Some (LW 18907));
    Cell ([3714; 16953; 18907; 16637], [18970; 3776; 19034; 6006; 6005; 6004; 18908]) (Some (LW 3776)) (Some (LW 18908));
    Cell ([3713; 16954; 18908; 16637], [18971; 3775; 19035; 6003; 6002; 6001; 18909]) (Some (LW 3775)) (Some (LW 18909));
    Cell ([3712; 16955; 18909; 16637], [18972; 3774; 19036; 6000; 5999; 5998; 18910]) (Some (LW 3774)) (Some (LW 18910));
    Cell ([3711; 16956; 18910; 16637], [18973; 3773; 19037; 5997; 5996; 5995; 18911]) (Some (LW 3773)) (Some (LW 18911));
    Cell ([3710; 16957; 18911; 16637], [18974; 3772; 19038; 5994; 5993; 5992; 18912]) (Some (LW 3772)) (Some (LW 18912));
    Cell ([3709; 16958; 18912; 16637], [18975; 3771; 19039; 5991; 5990; 5989; 18913]) (Some (LW 3771)) (Some (LW 18913));
    Cell ([3708; 16959; 18913; 16637], [18976; 3770; 19040; 5988; 5987; 5986; 18914]) (Some (LW 3770)) (Some (LW 18914));
    Cell ([3707; 16960; 18914; 16637], [18977; 3769; 19041; 5985; 5984; 5983; 18915]) (Some (LW 3769)) (Some (LW 18915));
    Cell ([3706; 16961; 18915; 16637], [18978; 3768; 19042; 5982; 5981; 5980; 18916]) (Some (LW 3768)) (Some (LW 18916));
    Cell ([3705; 16962; 18916; 16637], [18979; 3767; 19043; 5979; 5978; 5977; 18917]) (Some (LW 3767)) (Some (LW 18917));
    Cell ([3704; 16963; 18917; 16637], [18980; 3766; 19044; 5976; 5975; 5974; 18918]) (Some (LW 3766)) (Some (LW 18918));
    Cell ([3703; 16964; 18918; 16637], [18981; 3765; 19045; 5973; 5972; 5971; 18919]) (Some (LW 3765)) (Some (LW 18919));
    Cell ([3702; 16965; 18919; 16637], [18982; 3764; 19046; 5970; 5969; 5968; 18920]) (Some (LW 3764)) (Some (LW 18920));
    Cell ([3701; 16966; 18920; 16637], [18983; 3763; 19047; 5967; 5966; 5965; 18921]) (Some (LW 3763)) (Some (LW 18921));
    Cell ([3700; 16967; 18921; 16637], [18984; 3762; 19048; 5964; 5963; 5962; 18922]) (Some (LW 3762)) (Some (LW 18922));
    Cell ([3699; 16968; 18922; 16637], [18985; 3761; 19049; 5961; 5960; 5959; 18923]) (Some (LW 3761)) (Some (LW 18923));
    Cell ([3698; 16969; 18923; 16637], [18986; 3760; 19050; 5958; 5957; 5956; 18924]) (Some (LW 3760)) (Some (LW 18924));
    Cell ([3697; 16970; 18924; 16637], [18987; 3759; 19051; 5955; 5954; 5953; 18925]) (Some (LW 3759)) (Some (LW 18925));
    Cell ([3696; 16971; 18925; 16637], [18988; 3758; 19052; 5952; 5951; 5950; 18926]) (Some (LW 3758)) (Some (LW 18926));
    Cell ([3695; 16972; 18926; 16637], [18989; 3757; 19053; 5949; 5948; 5947; 18927]) (Some (LW 3757)) (Some (LW 18927));
    Cell ([3694; 16973; 18927; 16637], [18990; 3756; 19054; 5946; 5945; 5944; 18928]) (Some (LW 3756)) (Some (LW 18928));
    Cell ([3693; 16974; 18928; 16637], [18991; 3755; 19055; 5943; 5942; 5941; 18929]) (Some (LW 3755)) (Some (LW 18929));
    Cell ([3692; 16975; 18929; 16637], [18992; 3754; 19056; 5940; 5939; 5938; 18930]) (Some (LW 3754)) (Some (LW 18930));
    Cell ([3691; 16976; 18930; 16637], [18993; 3753; 19057; 5937; 5936; 5935; 18931]) (Some (LW 3753)) (Some (LW 18931));
    Cell ([3690; 16977; 18931; 16637], [18994; 3752; 19058; 5934; 5933; 5932; 18932]) (Some (LW 3752)) (Some (LW 18932));
    Cell ([3689; 16978; 18932; 16637], [18995; 3751; 19059; 5931; 5930; 5929; 18933]) (Some (LW 3751)) (Some (LW 18933));
    Cell ([3688; 16979; 18933; 16637], [18996; 3750; 19060; 5928; 5927; 5926; 18934]) (Some (LW 3750)) (Some (LW 18934));
    Cell ([3687; 16980; 18934; 16637], [18997; 3749; 19061; 5925; 5924; 5923; 18935]) (Some (LW 3749)) (Some (LW 18935));
    Cell ([3686; 16981; 18935; 16637], [18998; 3748; 19062; 5922; 5921; 5920; 18936]) (Some (LW 3748)) (Some (LW 18936));
    Cell ([3685; 16982; 18936; 16637], [18999; 3747; 19063; 5919; 5918; 5917; 18937]) (Some (LW 3747)) (Some (LW 18937));
    Cell ([3684; 16983; 18937; 16637], [19000; 3746; 19064; 5916; 5915; 5914; 18938]) (Some (LW 3746)) (Some (LW 18938));
    Cell ([3683; 16984; 18938; 16637], [19001; 3745; 19065; 5913; 5912; 5911; 18939]) (Some (LW 3745)) (Some (LW 18939));
    Cell ([3682; 16985; 18939; 16637], [19002; 3744; 19066; 5910; 5909; 5908; 18940]) (Some (LW 3744)) (Some (LW 18940));
    Cell ([3681; 16986; 18940; 16637], [19003; 3743; 19067; 5907; 5906; 5905; 18941]) (Some (LW 3743)) (Some (LW 18941));
    Cell ([3680; 16987; 18941; 16637], [19004; 3742; 19068; 5904; 5903; 5902; 18942]) (Some (LW 3742)) (Some (LW 18942));
    Cell ([3679; 16988; 18942; 16637], [19005; 3741; 19069; 5901; 5900; 5899; 18943]) (Some (LW 3741)) (Some (LW 18943));
    Cell ([3678; 16989; 18943; 16637], [19006; 3740; 19070; 5898; 5897; 5896; 18944]) (Some (LW 3740)) (Some (LW 18944));
    Cell ([3677; 16990; 18944; 16637], [19007; 3739; 19071; 5895; 5894; 5893; 18945]) (Some (LW 3739)) (Some (LW 18945));
    Cell ([3676; 16991; 18945; 16637], [19008; 3738; 19072; 5892; 5891; 5890; 18946]) (Some (LW 3738)) (Some (LW 18946));
    Cell ([3675; 16992; 18946; 16637], [19009; 3737; 19073; 5889; 5888; 5887; 18947]) (Some (LW 3737)) (Some (LW 18947));
    Cell ([3674; 16993; 18947; 16637], [19010; 3736; 19074; 5886; 5885; 5884; 18948]) (Some (LW 3736)) (Some (LW 18948));
    Cell ([3673; 16994; 18948; 16637], [19011; 3735; 19075; 5883; 5882; 5881; 18949]) (Some (LW 3735)) (Some (LW 18949));
    Cell ([3672; 16995; 18949; 16637], [19012; 3734; 19076; 5880; 5879; 5878; 18950]) (Some (LW 3734)) (Some (LW 18950));
    Cell ([3671; 16996; 18950; 16637], [19013; 3733; 19077; 5877; 5876; 5875; 18951]) (Some (LW 3733)) (Some (LW 18951));
    Cell ([3670; 16997; 18951; 16637], [19014; 3732; 19078; 5874; 5873; 5872; 18952]) (Some (LW 3732)) (Some (LW 18952));
    Cell ([3669; 16998; 18952; 16637], [19015; 3731; 19079; 5871; 5870; 5869; 18953]) (Some (LW 3731)) (Some (LW 18953));
    Cell ([3668; 16999; 18953; 16637], [19016; 3730; 19080; 5868; 5867; 5866; 18954]) (Some (LW 3730)) (Some (LW 18954));
    Cell ([3667; 17000; 18954; 16637], [19017; 3729; 19081; 5865; 5864; 5863; 18955]) (Some (LW 3729)) (Some (LW 18955));
    Cell ([3666; 17001; 18955; 16637], [19018; 3728; 19082; 5862; 5861; 5860; 18956]) (Some (LW 3728)) (Some (LW 18956));
    Cell ([3665; 17002; 18956; 16637], [19019; 3727; 19083; 5859; 5858; 5857; 18957]) (Some (LW 3727)) (Some (LW 18957));
    Cell ([3664; 17003; 18957; 16637], [19020; 3726; 19084; 5856; 5855; 5854; 18958]) (Some (LW 3726)) (Some (LW 18958));
    Cell ([3663; 17004; 18958; 16637], [19021; 3725; 19085; 5853; 5852; 5851; 18959]) (Some (LW 3725)) (Some (LW 18959));
    Cell ([3662; 17005; 18959; 16637], [19022; 3724; 19086; 5850; 5849; 5848; 18960]) (Some (LW 3724)) (Some (LW 18960));
    Cell ([3661; 17006; 18960; 16637], [19023; 3723; 19087; 5847; 5846; 5845; 18961]) (Some (LW 3723)) (Some (LW 18961));
    Cell ([3660; 17007; 18961; 16637], [19024; 3722; 19088; 5844; 5843; 5842; 18962]) (Some (LW 3722)) (Some (LW 18962));
    Cell ([3659; 17008; 18962; 16637], [19025; 3721; 19089; 5841; 5840; 5839; 18963]) (Some (LW 3721)) (Some (LW 18963));
    Cell ([3658; 17009; 18963; 16637], [19026; 186]) (Some (LW 186)) (None)]
   186 16636.
Definition divide64_row_57 : srow := SRow
   [Cell ([16825; 16946; 16636], [3846; 18838; 18712]) (Some (LW 3846)) (Some (LW 18712));
    Cell ([3783; 16947; 18712; 16636], [18775; 3845; 18839; 5838; 5837; 5836; 18713]) (Some (LW 3845)) (Some (LW 18713));
    Cell ([3782; 16948; 18713; 16636], [18776; 3844; 18840; 5835; 5834; 5833; 18714]) (Some (LW 3844)) (Some (LW 18714));
    Cell ([3781; 16949; 18714; 16636], [18777; 3843; 18841; 5832; 5831; 5830; 18715]) (Some (LW 3843)) (Some (LW 18715));
    Cell ([3780; 16950; 18715; 16636], [18778; 3842; 18842; 5829; 5828; 5827; 18716]) (Some (LW 3842)) (Some (LW 18716));
    Cell ([3779; 16951; 18716; 16636], [18779; 3841; 18843; 5826; 5825; 5824; 18717]) (Some (LW 3841)) (Some (LW 18717));
    Cell ([3778; 16952; 18717; 16636], [18780; 3840; 18844; 5823; 5822; 5821; 18718]) (Some (LW 3840)) (Some (LW 18718));
    Cell ([3777; 16953; 18718; 16636], [18781; 3839; 18845; 5820; 5819; 5818; 18719]) (Some (LW 3839)) (Some (LW 18719));
    Cell ([3776; 16954; 18719; 16636], [18782; 3838; 18846; 5817; 5816; 5815; 18720]) (Some (LW 3838)) (Some (LW 18720));
    Cell ([3775; 16955; 18720; 16636], [18783; 3837; 18847; 5814; 5813; 5812; 18721]) (Some (LW 3837)) (Some (LW 18721));
    Cell ([3774; 16956; 18721; 16636], [18784; 3836; 18848; 5811; 5810; 5809; 18722]) (Some (LW 3836)) (Some (LW 18722));
    Cell ([3773; 16957; 18722; 16636], [18785; 3835; 18849; 5808; 5807; 5806; 18723]) (Some (LW 3835)) (Some (LW 18723));
    Cell ([3772; 16958; 18723; 16636], [18786; 3834; 18850; 5805; 5804; 5803; 18724]) (Some (LW 3834)) (Some (LW 18724));
    Cell ([3771; 16959; 18724; 16636], [18787; 3833; 18851; 5802; 5801; 5800; 18725]) (Some (LW 3833)) (Some (LW 18725));
    Cell ([3770; 16960; 18725; 16636], [18788; 3832; 18852; 5799; 5798; 5797; 18726]) (Some (LW 3832)) (Some (LW 18726));
    Cell ([3769; 16961; 18726; 16636], [18789; 3831; 18853; 5796; 5795; 5794; 18727]) (Some (LW 3831)) (Some (LW 18727));
    Cell ([3768; 16962; 18727; 16636], [18790; 3830; 18854; 5793; 5792; 5791; 18728]) (Some (LW 3830)) (Some (LW 18728));
    Cell ([3767; 16963; 18728; 16636], [18791; 3829; 18855; 5790; 5789; 5788; 18729]) (Some (LW 3829)) (Some (LW 18729));
    Cell ([3766; 16964; 18729; 16636], [18792; 3828; 18856; 5787; 5786; 5785; 18730]) (Some (LW 3828)) (Some (LW 18730));
    Cell ([3765; 16965; 18730; 16636], [18793; 3827; 18857; 5784; 5783; 5782; 18731]) (Some (LW 3827)) (Some (LW 18731));
    Cell ([3764; 16966; 18731; 16636], [18794; 3826; 18858; 5781; 5780; 5779; 18732]) (Some (LW 3826)) (Some (LW 18732));
    Cell ([3763; 16967; 18732; 16636], [18795; 3825; 18859; 5778; 5777; 5776; 18733]) (Some (LW 3825)) (Some (LW 18733));
    Cell ([3762; 16968; 18733; 16636], [18796; 3824; 18860; 5775; 5774; 5773; 18734]) (Some (LW 3824)) (Some (LW 18734));
    Cell ([3761; 16969; 18734; 16636], [18797; 3823; 18861; 5772; 5771; 5770; 18735]) (Some (LW 3823)) (Some (LW 18735));
    Cell ([3760; 16970; 18735; 16636], [18798; 3822; 18862; 5769; 5768; 5767; 18736]) (Some (LW 3822)) (Some (LW 18736));
    Cell ([3759; 16971; 18736; 16636], [18799; 3821; 18863; 5766; 5765; 5764; 18737]) (Some (LW 3821)) (Some (LW 18737));
    Cell ([3758; 16972; 18737; 16636], [18800; 3820; 18864; 5763; 5762; 5761; 18738]) (Some (LW 3820)) (Some (LW 18738));
    Cell ([3757; 16973; 18738; 16636], [18801; 3819; 18865; 5760; 5759; 5758; 18739]) (Some (LW 3819)) (Some (LW 18739));
    Cell ([3756; 16974; 18739; 16636], [18802; 3818; 18866; 5757; 5756; 5755; 18740]) (Some (LW 3818)) (Some (LW 18740));
    Cell ([3755; 16975; 18740; 16636], [18803; 3817; 18867; 5754; 5753; 5752; 18741]) (Some (LW 3817)) (Some (LW 18741));
    Cell ([3754; 16976; 18741; 16636], [18804; 3816; 18868; 5751; 5750; 5749; 18742]) (Some (LW 3816)) (Some (LW 18742));
    Cell ([3753; 16977; 18742; 16636], [18805; 3815; 18869; 5748; 5747; 5746; 18743]) (Some (LW 3815)) (Some (LW 18743));
    Cell ([3752; 16978; 18743; 16636], [18806; 3814; 18870; 5745; 5744; 5743; 18744]) (Some (LW 3814)) (Some (LW 18744));
    Cell ([3751; 16979; 18744; 16636], [18807; 3813; 18871; 5742; 5741; 5740; 18745]) (Some (LW 3813)) (Some (LW 18745));
    Cell ([3750; 16980; 18745; 16636], [18808; 3812; 18872; 5739; 5738; 5737; 18746]) (Some (LW 3812)) (Some (LW 18746));
    Cell ([3749; 16981; 18746; 16636], [18809; 3811; 18873; 5736; 5735; 5734; 18747]) (Some (LW 3811)) (Some (LW 18747));
    Cell ([3748; 16982; 18747; 16636], [18810; 3810; 18874; 5733; 5732; 5731; 18748]) (Some (LW 3810)) (Some (LW 18748));
    Cell ([3747; 16983; 18748; 16636], [18811; 3809; 18875; 5730; 5729; 5728; 18749]) (Some (LW 3809)) (Some (LW 18749));
    Cell ([3746; 16984; 18749; 16636], [18812; 3808; 18876; 5727; 5726; 5725; 18750]) (Some (LW 3808)) (Some (LW 18750));
    Cell ([3745; 16985; 18750; 16636], [18813; 3807; 18877; 5724; 5723; 5722; 18751]) (Some (LW 3807)) (Some (LW 18751));
    Cell ([3744; 16986; 18751; 16636], [18814; 3806; 18878; 5721; 5720; 5719; 18752]) (Some (LW 3806)) (Some (LW 18752));
    Cell ([3743; 16987; 18752; 16636], [18815; 3805; 18879; 5718; 5717; 5716; 18753]) (Some (LW 3805)) (Some (LW 18753));
    Cell ([3742; 16988; 18753; 16636], [18816; 3804; 18880; 5715; 5714; 5713; 18754]) (Some (LW 3804)) (Some (LW 18754));
    Cell ([3741; 16989; 18754; 16636], [18817; 3803; 18881; 5712; 5711; 5710; 18755]) (Some (LW 3803)) (Some (LW 18755));
    Cell ([3740; 16990; 18755; 16636], [18818; 3802; 18882; 5709; 5708; 5707; 18756]) (Some (LW 3802)) (Some (LW 18756));
    Cell ([3739; 16991; 18756; 16636], [18819; 3801; 18883; 5706; 5705; 5704; 18757]) (Some (LW 3801)) (Some (LW 18757));
    Cell ([3738; 16992; 18757; 16636], [18820; 3800; 18884; 5703; 5702; 5701; 18758]) (Some (LW 3800)) (Some (LW 18758));
    Cell ([3737; 16993; 18758; 16636], [18821; 3799; 18885; 5700; 5699; 5698; 18759]) (Some (LW 3799)) (Some (LW 18759));
    Cell ([3736; 16994; 18759; 16636], [18822; 3798; 18886; 5697; 5696; 5695; 18760]) (Some (LW 3798)) (Some (LW 18760));
    Cell ([3735; 16995; 18760; 16636], [18823; 3797; 18887; 5694; 5693; 5692; 18761]) (Some (LW 3797)) (Some (LW 18761));
    Cell ([3734; 16996; 18761; 16636], [18824; 3796; 18888; 5691; 5690; 5689; 18762]) (Some (LW 3796)) (Some (LW 18762));
    Cell ([3733; 16997; 18762; 16636], [18825; 3795; 18889; 5688; 5687; 5686; 18763]) (Some (LW 3795)) (Some (LW 18763));
    Cell ([3732; 16998; 18763; 16636], [18826; 3794; 18890; 5685; 5684; 5683; 18764]) (Some (LW 3794)) (Some (LW 18764));
    Cell ([3731; 16999; 18764; 16636], [18827; 3793; 18891; 5682; 5681; 5680; 18765]) (Some (LW 3793)) (Some (LW 18765));
    Cell ([3730; 17000; 18765; 16636], [18828; 3792; 18892; 5679; 5678; 5677; 18766]) (Some (LW 3792)) (Some (LW 18766));
    Cell ([3729; 17001; 18766; 16636], [18829; 3791; 18893; 5676; 5675; 5674; 18767]) (Some (LW 3791)) (Some (LW 18767));
    Cell ([3728; 17002; 18767; 16636], [18830; 3790; 18894; 5673; 5672; 5671; 18768]) (Some (LW 3790)) (Some (LW 18768));
    Cell ([3727; 17003; 18768; 16636], [18831; 3789; 18895; 5670; 5669; 5668; 18769]) (Some (LW 3789)) (Some (LW 18769));
    Cell ([3726; 17004; 18769; 16636], [18832; 3788; 18896; 5667; 5666; 5665; 18770]) (Some (LW 3788)) (Some (LW 18770));
    Cell ([3725; 17005; 18770; 16636], [18833; 3787; 18897; 5664; 5663; 5662; 18771]) (Some (LW 3787)) (Some (LW 18771));
    Cell ([3724; 17006; 18771; 16636], [18834; 3786; 18898; 5661; 5660; 5659; 18772]) (Some (LW 3786)) (Some (LW 18772));
    Cell ([3723; 17007; 18772; 16636], [18835; 3785; 18899; 5658; 5657; 5656; 18773]) (Some (LW 3785)) (Some (LW 18773));
    Cell ([3722; 17008; 18773; 16636], [18836; 3784; 18900; 5655; 5654; 5653; 18774]) (Some (LW 3784)) (Some (LW 18774));
    Cell ([3721; 17009; 18774; 16636], [18837; 187]) (Some (LW 187)) (None)]
   187 16635.
Definition divide64_row_58 : srow := SRow
   [Cell ([16824; 16946; 16635], [3909; 18649; 18523]) (Some (LW 3909)) (Some (LW 18523));
    Cell ([3846; 16947; 18523; 16635], [18586; 3908; 18650; 5652; 5651; 5650; 18524]) (Some (LW 3908)) (Some (LW 18524));
    Cell ([3845; 16948; 18524; 16635], [18587; 3907; 18651; 5649; 5648; 5647; 18525]) (Some (LW 3907)) (Some (LW 18525));
    Cell ([3844; 16949; 18525; 16635], [18588; 3906; 18652; 5646; 5645; 5644; 18526]) (Some (LW 3906)) (Some (LW 18526));
    Cell ([3843; 16950; 18526; 16635], [18589; 3905; 18653; 5643; 5642; 5641; 18527]) (Some (LW 3905)) (Some (LW 18527));
    Cell ([3842; 16951; 18527; 16635], [18590; 3904; 18654; 5640; 5639; 5638; 18528]) (Some (LW 3904)) (Some (LW 18528));
    Cell ([3841; 16952; 18528; 16635], [18591; 3903; 18655; 5637; 5636; 5635; 18529]) (Some (LW 3903)) (Some (LW 18529));
    Cell ([3840; 16953; 18529; 16635], [18592; 3902; 18656; 5634; 5633; 5632; 18530]) (Some (LW 3902)) (Some (LW 18530));
    Cell ([3839; 16954; 18530; 16635], [18593; 3901; 18657; 5631; 5630; 5629; 18531]) (Some (LW 3901)) (Some (LW 18531));
    Cell ([3838; 16955; 18531; 16635], [18594; 3900; 18658; 5628; 5627; 5626; 18532]) (Some (LW 3900)) (Some (LW 18532));
    Cell ([3837; 16956; 18532; 16635], [18595; 3899; 18659; 5625; 5624; 5623; 18533]) (Some (LW 3899)) (Some (LW 18533));
    Cell ([3836; 16957; 18533; 16635], [18596; 3898; 18660; 5622; 5621; 5620; 18534]) (Some (LW 3898)) (Some (LW 18534));
    Cell ([3835; 16958; 18534; 16635], [18597; 3897; 18661; 5619; 5618; 5617; 18535]) (Some (LW 3897)) (Some (LW 18535));
    Cell ([3834; 16959; 18535; 16635], [18598; 3896; 18662; 5616; 5615; 5614; 18536]) (Some (LW 3896)) (Some (LW 18536));
    Cell ([3833; 16960; 18536; 16635], [18599; 3895; 18663; 5613; 5612; 5611; 18537]) (Some (LW 3895)) (Some (LW 18537));
    Cell ([3832; 16961; 18537; 16635], [18600; 3894; 18664; 5610; 5609; 5608; 18538]) (Some (LW 3894)) (Some (LW 18538));
    Cell ([3831; 16962; 18538; 16635], [18601; 3893; 18665; 5607; 5606; 5605; 18539]) (Some (LW 3893)) (Some (LW 18539));
    Cell ([3830; 16963; 18539; 16635], [18602; 3892; 18666; 5604; 5603; 5602; 18540]) (Some (LW 3892)) (Some (LW 18540));
    Cell ([3829; 16964; 18540; 16635], [18603; 3891; 18667; 5601; 5600; 5599; 18541]) (Some (LW 3891)) (Some (LW 18541));
    Cell ([3828; 16965; 18541; 16635], [18604; 3890; 18668; 5598; 5597; 5596; 18542]) (Some (LW 3890)) (Some (LW 18542));
    Cell ([3827; 16966; 18542; 16635], [18605; 3889; 18669; 5595; 5594; 5593; 18543]) (Some (LW 3889)) (Some (LW 18543));
    Cell ([3826; 16967; 18543; 16635], [18606; 3888; 18670; 5592; 5591; 5590; 18544]) (Some (LW 3888)) (Some (LW 18544));
    Cell ([3825; 16968; 18544; 16635], [18607; 3887; 18671; 5589; 5588; 5587; 18545]) (Some (LW 3887)) (Some (LW 18545));
    Cell ([3824; 16969; 18545; 16635], [18608; 3886; 18672; 5586; 5585; 5584; 18546]) (Some (LW 3886)) (Some (LW 18546));
    Cell ([3823; 16970; 18546; 16635], [18609; 3885; 18673; 5583; 5582; 5581; 18547]) (Some (LW 3885)) (Some (LW 18547));
    Cell ([3822; 16971; 18547; 16635], [18610; 3884; 18674; 5580; 5579; 5578; 18548]) (Some (LW 3884)) (Some (LW 18548));
    Cell ([3821; 16972; 18548; 16635], [18611; 3883; 18675; 5577; 5576; 5575; 18549]) (Some (LW 3883)) (Some (LW 18549));
    Cell ([3820; 16973; 18549; 16635], [18612; 3882; 18676; 5574; 5573; 5572; 18550]) (Some (LW 3882)) (Some (LW 18550));
    Cell ([3819; 16974; 18550; 16635], [18613; 3881; 18677; 5571; 5570; 5569; 18551]) (Some (LW 3881)) (Some (LW 18551));
    Cell ([3818; 16975; 18551; 16635], [18614; 3880; 18678; 5568; 5567; 5566; 18552]) (Some (LW 3880)) (Some (LW 18552));
    Cell ([3817; 16976; 18552; 16635], [18615; 3879; 18679; 5565; 5564; 5563; 18553]) (Some (LW 3879)) (Some (LW 18553));
    Cell ([3816; 16977; 18553; 16635], [18616; 3878; 18680; 5562; 5561; 5560; 18554]) (Some (LW 3878)) (Some (LW 18554));
    Cell ([3815; 16978; 18554; 16635], [18617; 3877; 18681; 5559; 5558; 5557; 18555]) (Some (LW 3877)) (Some (LW 18555));
    Cell ([3814; 16979; 18555; 16635], [18618; 3876; 18682; 5556; 5555; 5554; 18556]) (Some (LW 3876)) (Some (LW 18556));
    Cell ([3813; 16980; 18556; 16635], [18619; 3875; 18683; 5553; 5552; 5551; 18557]) (Some (LW 3875)) (Some (LW 18557));
    Cell ([3812; 16981; 18557; 16635], [18620; 3874; 18684; 5550; 5549; 5548; 18558]) (Some (LW 3874)) (Some (LW 18558));
    Cell ([3811; 16982; 18558; 16635], [18621; 3873; 18685; 5547; 5546; 5545; 18559]) (Some (LW 3873)) (Some (LW 18559));
    Cell ([3810; 16983; 18559; 16635], [18622; 3872; 18686; 5544; 5543; 5542; 18560]) (Some (LW 3872)) (Some (LW 18560));
    Cell ([3809; 16984; 18560; 16635], [18623; 3871; 18687; 5541; 5540; 5539; 18561]) (Some (LW 3871)) (Some (LW 18561));
    Cell ([3808; 16985; 18561; 16635], [18624; 3870; 18688; 5538; 5537; 5536; 18562]) (Some (LW 3870)) (Some (LW 18562));
    Cell ([3807; 16986; 18562; 16635], [18625; 3869; 18689; 5535; 5534; 5533; 18563]) (Some (LW 3869)) (Some (LW 18563));
    Cell ([3806; 16987; 18563; 16635], [18626; 3868; 18690; 5532; 5531; 5530; 18564]) (Some (LW 3868)) (Some (LW 18564));
    Cell ([3805; 16988; 18564; 16635], [18627; 3867; 18691; 5529; 5528; 5527; 18565]) (Some (LW 3867)) (Some (LW 18565));
    Cell ([3804; 16989; 18565; 16635], [18628; 3866; 18692; 5526; 5525; 5524; 18566]) (Some (LW 3866)) (Some (LW 18566));
    Cell ([3803; 16990; 18566; 16635], [18629; 3865; 18693; 5523; 5522; 5521; 18567]) (Some (LW 3865)) (Some (LW 18567));
    Cell ([3802; 16991; 18567; 16635], [18630; 3864; 18694; 5520; 5519; 5518; 18568]) (Some (LW 3864)) (Some (LW 18568));
    Cell ([3801; 16992; 18568; 16635], [18631; 3863; 18695; 5517; 5516; 5515; 18569]) (Some (LW 3863)) (Some (LW 18569));
    Cell ([3800; 16993; 18569; 16635], [18632; 3862; 18696; 5514; 5513; 5512; 18570]) (Some (LW 3862)) (Some (LW 18570));
    Cell ([3799; 16994; 18570; 16635], [18633; 3861; 18697; 5511; 5510; 5509; 18571]) (Some (LW 3861)) (Some (LW 18571));
    Cell ([3798; 16995; 18571; 16635], [18634; 3860; 18698; 5508; 5507; 5506; 18572]) (Some (LW 3860)) (Some (LW 18572));
    Cell ([3797; 16996; 18572; 16635], [18635; 3859; 18699; 5505; 5504; 5503; 18573]) (Some (LW 3859)) (Some (LW 18573));
    Cell ([3796; 16997; 18573; 16635], [18636; 3858; 18700; 5502; 5501; 5500; 18574]) (Some (LW 3858)) (Some (LW 18574));
    Cell ([3795; 16998; 18574; 16635], [18637; 3857; 18701; 5499; 5498; 5497; 18575]) (Some (LW 3857)) (Some (LW 18575));
    Cell ([3794; 16999; 18575; 16635], [18638; 3856; 18702; 5496; 5495; 5494; 18576]) (Some (LW 3856)) (Some (LW 18576));
    Cell ([3793; 17000; 18576; 16635], [18639; 3855; 18703; 5493; 5492; 5491; 18577]) (Some (LW 3855)) (Some (LW 18577));
    Cell ([3792; 17001; 18577; 16635], [18640; 3854; 18704; 5490; 5489; 5488; 18578]) (Some (LW 3854)) (Some (LW 18578));
    Cell ([3791; 17002; 18578; 16635], [18641; 3853; 18705; 5487; 5486; 5485; 18579]) (Some (LW 3853)) (Some (LW 18579));
    Cell ([3790; 17003; 18579; 16635], [18642; 3852; 18706; 5484; 5483; 5482; 18580]) (Some (LW 3852)) (Some (LW 18580));
    Cell ([3789; 17004; 18580; 16635], [18643; 3851; 18707; 5481; 5480; 5479; 18581]) (Some (LW 3851)) (Some (LW 18581));
    Cell ([3788; 17005; 18581; 16635], [18644; 3850; 18708; 5478; 5477; 5476; 18582]) (Some (LW 3850)) (Some (LW 18582));
    Cell ([3787; 17006; 18582; 16635], [18645; 3849; 18709; 5475; 5474; 5473; 18583]) (Some (LW 3849)) (Some (LW 18583));
    Cell ([3786; 17007; 18583; 16635], [18646; 3848; 18710; 5472; 5471; 5470; 18584]) (Some (LW 3848)) (Some (LW 18584));
    Cell ([3785; 17008; 18584; 16635], [18647; 3847; 18711; 5469; 5468; 5467; 18585]) (Some (LW 3847)) (Some (LW 18585));
    Cell ([3784; 17009; 18585; 16635], [18648; 188]) (Some (LW 188)) (None)]
   188 16634.
Definition divide64_row_59 : srow := SRow
   [Cell ([16823; 16946; 16634], [3972; 18460; 18334]) (Some (LW 3972)) (Some (LW 18334));
    Cell ([3909; 16947; 18334; 16634], [18397; 3971; 18461; 5466; 5465; 5464; 18335]) (Some (LW 3971)) (Some (LW 18335));
    Cell ([3908; 16948; 18335; 16634], [18398; 3970; 18462; 5463; 5462; 5461; 18336]) (Some (LW 3970)) (Some (LW 18336));
    Cell ([3907; 16949; 18336; 16634], [18399; 3969; 18463; 5460; 5459; 5458; 18337]) (Some (LW 3969)) (Some (LW 18337));
    Cell ([3906; 16950; 18337; 16634], [18400; 3968; 18464; 5457; 5456; 5455; 18338]) (Some (LW 3968)) (Some (LW 18338));
    Cell ([3905; 16951; 18338; 16634], [18401; 3967; 18465; 5454; 5453; 5452; 18339]) (Some (LW 3967)) (Some (LW 18339));
    Cell ([3904; 16952; 18339; 16634], [18402; 3966; 18466; 5451; 5450; 5449; 18340]) (Some (LW 3966)) (Some (LW 18340));
    Cell ([3903; 16953; 18340; 16634], [18403; 3965; 18467; 5448; 5447; 5446; 18341]) (Some (LW 3965)) (Some (LW 18341));
    Cell ([3902; 16954; 18341; 16634], [18404; 3964; 18468; 5445; 5444; 5443; 18342]) (Some (LW 3964)) (Some (LW 18342));
    Cell ([3901; 16955; 18342; 16634], [18405; 3963; 18469; 5442; 5441; 5440; 18343]) (Some (LW 3963)) (Some (LW 18343));
    Cell ([3900; 16956; 18343; 16634], [18406; 3962; 18470; 5439; 5438; 5437; 18344]) (Some (LW 3962)) (Some (LW 18344));
    Cell ([3899; 16957; 18344; 16634], [18407; 3961; 18471; 5436; 5435; 5434; 18345]) (Some (LW 3961)) (Some (LW 18345));
    Cell ([3898; 16958; 18345; 16634], [18408; 3960; 18472; 5433; 5432; 5431; 18346]) (Some (LW 3960)) (Some (LW 18346));
    Cell ([3897; 16959; 18346; 16634], [18409; 3959; 18473; 5430; 5429; 5428; 18347]) (Some (LW 3959)) (Some (LW 18347));
    Cell ([3896; 16960; 18347; 16634], [18410; 3958; 18474; 5427; 5426; 5425; 18348]) (Some (LW 3958)) (Some (LW 18348));
    Cell ([3895; 16961; 18348; 16634], [18411; 3957; 18475; 5424; 5423; 5422; 18349]) (Some (LW 3957)) (Some (LW 18349));
    Cell ([3894; 16962; 18349; 16634], [18412; 3956; 18476; 5421; 5420; 5419; 18350]) (Some (LW 3956)) (Some (LW 18350));
    Cell ([3893; 16963; 18350; 16634], [18413; 3955; 18477; 5418; 5417; 5416; 18351]) (Some (LW 3955)) (Some (LW 18351));
    Cell ([3892; 16964; 18351; 16634], [18414; 3954; 18478; 5415; 5414; 5413; 18352]) (Some (LW 3954)) (Some (LW 18352));
    Cell ([3891; 16965; 18352; 16634], [18415; 3953; 18479; 5412; 5411; 5410; 18353]) (Some (LW 3953)) (Some (LW 18353));
    Cell ([3890; 16966; 18353; 16634], [18416; 3952; 18480; 5409; 5408; 5407; 18354]) (Some (LW 3952)) (Some (LW 18354));
    Cell ([3889; 16967; 18354; 16634], [18417; 3951; 18481; 5406; 5405; 5404; 18355]) (Some (LW 3951)) (Some (LW 18355));
    Cell ([3888; 16968; 18355; 16634], [18418; 3950; 18482; 5403; 5402; 5401; 18356]) (Some (LW 3950)) (Some (LW 18356));
    Cell ([3887; 16969; 18356; 16634], [18419; 3949; 18483; 5400; 5399; 5398; 18357]) (Some (LW 3949)) (Some (LW 18357));
    Cell ([3886; 16970; 18357; 16634], [18420; 3948; 18484; 5397; 5396; 5395; 18358]) (Some (LW 3948)) (Some (LW 18358));
    Cell ([3885; 16971; 18358; 16634], [18421; 3947; 18485; 5394; 5393; 5392; 18359]) (Some (LW 3947)) (Some (LW 18359));
    Cell ([3884; 16972; 18359; 16634], [18422; 3946; 18486; 5391; 5390; 5389; 18360]) (Some (LW 3946)) (Some (LW 18360));
    Cell ([3883; 16973; 18360; 16634], [18423; 3945; 18487; 5388; 5387; 5386; 18361]) (Some (LW 3945)) (Some (LW 18361));
    Cell ([3882; 16974; 18361; 16634], [18424; 3944; 18488; 5385; 5384; 5383; 18362]) (Some (LW 3944)) (Some (LW 18362));
    Cell ([3881; 16975; 18362; 16634], [18425; 3943; 18489; 5382; 5381; 5380; 18363]) (Some (LW 3943)) (Some (LW 18363));
    Cell ([3880; 16976; 18363; 16634], [18426; 3942; 18490; 5379; 5378; 5377; 18364]) (Some (LW 3942)) (Some (LW 18364));
    Cell ([3879; 16977; 18364; 16634], [18427; 3941; 18491; 5376; 5375; 5374; 18365]) (Some (LW 3941)) (Some (LW 18365));
    Cell ([3878; 16978; 18365; 16634], [18428; 3940; 18492; 5373; 5372; 5371; 18366]) (Some (LW 3940)) (Some (LW 18366));
    Cell ([3877; 16979; 18366; 16634], [18429; 3939; 18493; 5370; 5369; 5368; 18367]) (Some (LW 3939)) (Some (LW 18367));
    Cell ([3876; 16980; 18367; 16634], [18430; 3938; 18494; 5367; 5366; 5365; 18368]) (Some (LW 3938)) (Some (LW 18368));
    Cell ([3875; 16981; 18368; 16634], [18431; 3937; 18495; 5364; 5363; 5362; 18369]) (Some (LW 3937)) (Some (LW 18369));
    Cell ([3874; 16982; 18369; 16634], [18432; 3936; 18496; 5361; 5360; 5359; 18370]) (Some (LW 3936)) (Some (LW 18370));
    Cell ([3873; 16983; 18370; 16634], [18433; 3935; 18497; 5358; 5357; 5356; 18371]) (Some (LW 3935)) (Some (LW 18371));
    Cell ([3872; 16984; 18371; 16634], [18434; 3934; 18498; 5355; 5354; 5353; 18372]) (Some (LW 3934)) (Some (LW 18372));
    Cell ([3871; 16985; 18372; 16634], [18435; 3933; 18499; 5352; 5351; 5350; 18373]) (Some (LW 3933)) (Some (LW 18373));
    Cell ([3870; 16986; 18373; 16634], [18436; 3932; 18500; 5349; 5348; 5347; 18374]) (Some (LW 3932)) (Some (LW 18374));
    Cell ([3869; 16987; 18374; 16634], [18437; 3931; 18501; 5346; 5345; 5344; 18375]) (Some (LW 3931)) (Some (LW 18375));
    Cell ([3868; 16988; 18375; 16634], [18438; 3930; 18502; 5343; 5342; 5341; 18376]) (Some (LW 3930)) (Some (LW 18376));
    Cell ([3867; 16989; 18376; 16634], [18439; 3929; 18503; 5340; 5339; 5338; 18377]) (Some (LW 3929)) (Some (LW 18377));
    Cell ([3866; 16990; 18377; 16634], [18440; 3928; 18504; 5337; 5336; 5335; 18378]) (Some (LW 3928)) (Some (LW 18378));
    Cell ([3865; 16991; 18378; 16634], [18441; 3927; 18505; 5334; 5333; 5332; 18379]) (Some (LW 3927)) (Some (LW 18379));
    Cell ([3864; 16992; 18379; 16634], [18442; 3926; 18506; 5331; 5330; 5329; 18380]) (Some (LW 3926)) (Some (LW 18380));
    Cell ([3863; 16993; 18380; 16634], [18443; 3925; 18507; 5328; 5327; 5326; 18381]) (Some (LW 3925)) (Some (LW 18381));
    Cell ([3862; 16994; 18381; 16634], [18444; 3924; 18508; 5325; 5324; 5323; 18382]) (Some (LW 3924)) (Some (LW 18382));
    Cell ([3861; 16995; 18382; 16634], [18445; 3923; 18509; 5322; 5321; 5320; 18383]) (Some (LW 3923)) (Some (LW 18383));
    Cell ([3860; 16996; 18383; 16634], [18446; 3922; 18510; 5319; 5318; 5317; 18384]) (Some (LW 3922)) (Some (LW 18384));
    Cell ([3859; 16997; 18384; 16634], [18447; 3921; 18511; 5316; 5315; 5314; 18385]) (Some (LW 3921)) (Some (LW 18385));
    Cell ([3858; 16998; 18385; 16634], [18448; 3920; 18512; 5313; 5312; 5311; 18386]) (Some (LW 3920)) (Some (LW 18386));
    Cell ([3857; 16999; 18386; 16634], [18449; 3919; 18513; 5310; 5309; 5308; 18387]) (Some (LW 3919)) (Some (LW 18387));
    Cell ([3856; 17000; 18387; 16634], [18450; 3918; 18514; 5307; 5306; 5305; 18388]) (Some (LW 3918)) (Some (LW 18388));
    Cell ([3855; 17001; 18388; 16634], [18451; 3917; 18515; 5304; 5303; 5302; 18389]) (Some (LW 3917)) (Some (LW 18389));
    Cell ([3854; 17002; 18389; 16634], [18452; 3916; 18516; 5301; 5300; 5299; 18390]) (Some (LW 3916)) (Some (LW 18390));
    Cell ([3853; 17003; 18390; 16634], [18453; 3915; 18517; 5298; 5297; 5296; 18391]) (Some (LW 3915)) (Some (LW 18391));
    Cell ([3852; 17004; 18391; 16634], [18454; 3914; 18518; 5295; 5294; 5293; 18392]) (Some (LW 3914)) (Some (LW 18392));
    Cell ([3851; 17005; 18392; 16634], [18455; 3913; 18519; 5292; 5291; 5290; 18393]) (Some (LW 3913)) (Some (LW 18393));
    Cell ([3850; 17006; 18393; 16634], [18456; 3912; 18520; 5289; 5288; 5287; 18394]) (Some (LW 3912)) (Some (LW 18394));
    Cell ([3849; 17007; 18394; 16634], [18457; 3911; 18521; 5286; 5285; 5284; 18395]) (Some (LW 3911)) (Some (LW 18395));
    Cell ([3848; 17008; 18395; 16634], [18458; 3910; 18522; 5283; 5282; 5281; 18396]) (Some (LW 3910)) (Some (LW 18396));
    Cell ([3847; 17009; 18396; 16634], [18459; 189]) (Some (LW 189)) (None)]
   189 16633.
Definition divide64_row_60 : srow := SRow
   [Cell ([16822; 16946; 16633], [4035; 18271; 18145]) (Some (LW 4035)) (Some (LW 18145));
    Cell ([3972; 16947; 18145; 16633], [18208; 4034; 18272; 5280; 5279; 5278; 18146]) (Some (LW 4034)) (Some (LW 18146));
    Cell ([3971; 16948; 18146; 16633], [18209; 4033; 18273; 5277; 5276; 5275; 18147]) (Some (LW 4033)) (Some (LW 18147));
    Cell ([3970; 16949; 18147; 16633], [18210; 4032; 18274; 5274; 5273; 5272; 18148]) (Some (LW 4032)) (Some (LW 18148));
    Cell ([3969; 16950; 18148; 16633], [18211; 4031; 18275; 5271; 5270; 5269; 18149]) (Some (LW 4031)) (Some (LW 18149));
    Cell ([3968; 16951; 18149; 16633], [18212; 4030; 18276; 5268; 5267; 5266; 18150]) (Some (LW 4030)) (Some (LW 18150));
    Cell ([3967; 16952; 18150; 16633], [18213; 4029; 18277; 5265; 5264; 5263; 18151]) (Some (LW 4029)) (Some (LW 18151));
    Cell ([3966; 16953; 18151; 16633], [18214; 4028; 18278; 5262; 5261; 5260; 18152]) (Some (LW 4028)) (Some (LW 18152));
    Cell ([3965; 16954; 18152; 16633], [18215; 4027; 18279; 5259; 5258; 5257; 18153]) (Some (LW 4027)) (Some (LW 18153));
    Cell ([3964; 16955; 18153; 16633], [18216; 4026; 18280; 5256; 5255; 5254; 18154]) (Some (LW 4026)) (Some (LW 18154));
    Cell ([3963; 16956; 18154; 16633], [18217; 4025; 18281; 5253; 5252; 5251; 18155]) (Some (LW 4025)) (Some (LW 18155));
    Cell ([3962; 16957; 18155; 16633], [18218; 4024; 18282; 5250; 5249; 5248; 18156]) (Some (LW 4024)) (Some (LW 18156));
    Cell ([3961; 16958; 18156; 16633], [18219; 4023; 18283; 5247; 5246; 5245; 18157]) (Some (LW 4023)) (Some (LW 18157));
    Cell ([3960; 16959; 18157; 16633], [18220; 4022; 18284; 5244; 5243; 5242; 18158]) (Some (LW 4022)) (Some (LW 18158));
    Cell ([3959; 16960; 18158; 16633], [18221; 4021; 18285; 5241; 5240; 5239; 18159]) (Some (LW 4021)) (Some (LW 18159));
    Cell ([3958; 16961; 18159; 16633], [18222; 4020; 18286; 5238; 5237; 5236; 18160]) (Some (LW 4020)) (Some (LW 18160));
    Cell ([3957; 16962; 18160; 16633], [18223; 4019; 18287; 5235; 5234; 5233; 18161]) (Some (LW 4019)) (Some (LW 18161));
    Cell ([3956; 16963; 18161; 16633], [18224; 4018; 18288; 5232; 5231; 5230; 18162]) (Some (LW 4018)) (Some (LW 18162));
    Cell ([3955; 16964; 18162; 16633], [18225; 4017; 18289; 5229; 5228; 5227; 18163]) (Some (LW 4017)) (Some (LW 18163));
    Cell ([3954; 16965; 18163; 16633], [18226; 4016; 18290; 5226; 5225; 5224; 18164]) (Some (LW 4016)) (Some (LW 18164));
    Cell ([3953; 16966; 18164; 16633], [18227; 4015; 18291; 5223; 5222; 5221; 18165]) (Some (LW 4015)) (Some (LW 18165));
    Cell ([3952; 16967; 18165; 16633], [18228; 4014; 18292; 5220; 5219; 5218; 18166]) (Some (LW 4014)) (Some (LW 18166));
    Cell ([3951; 16968; 18166; 16633], [18229; 4013; 18293; 5217; 5216; 5215; 18167]) (Some (LW 4013)) (Some (LW 18167));
    Cell ([3950; 16969; 18167; 16633], [18230; 4012; 18294; 5214; 5213; 5212; 18168]) (Some (LW 4012)) (Some (LW 18168));
    Cell ([3949; 16970; 18168; 16633], [18231; 4011; 18295; 5211; 5210; 5209; 18169]) (Some (LW 4011)) (Some (LW 18169));
    Cell ([3948; 16971; 18169; 16633], [18232; 4010; 18296; 5208; 5207; 5206; 18170]) (Some (LW 4010)) (Some (LW 18170));
    Cell ([3947; 16972; 18170; 16633], [18233; 4009; 18297; 5205; 5204; 5203; 18171]) (Some (LW 4009)) (Some (LW 18171));
    Cell ([3946; 16973; 18171; 16633], [18234; 4008; 18298; 5202; 5201; 5200; 18172]) (Some (LW 4008)) (Some (LW 18172));
    Cell ([3945; 16974; 18172; 16633], [18235; 4007; 18299; 5199; 5198; 5197; 18173]) (Some (LW 4007)) (Some (LW 18173));
    Cell ([3944; 16975; 18173; 16633], [18236; 4006; 18300; 5196; 5195; 5194; 18174]) (Some (LW 4006)) (Some (LW 18174));
    Cell ([3943; 16976; 18174; 16633], [18237; 4005; 18301; 5193; 5192; 5191; 18175]) (Some (LW 4005)) (Some (LW 18175));
    Cell ([3942; 16977; 18175; 16633], [18238; 4004; 18302; 5190; 5189; 5188; 18176]) (Some (LW 4004)) (Some (LW 18176));
    Cell ([3941; 16978; 18176; 16633], [18239; 4003; 18303; 5187; 5186; 5185; 18177]) (Some (LW 4003)) (Some (LW 18177));
    Cell ([3940; 16979; 18177; 16633], [18240; 4002; 18304; 5184; 5183; 5182; 18178]) (Some (LW 4002)) (Some (LW 18178));
    Cell ([3939; 16980; 18178; 16633], [18241; 4001; 18305; 5181; 5180; 5179; 18179]) (Some (LW 4001)) (Some (LW 18179));
    Cell ([3938; 16981; 18179; 16633], [18242; 4000; 18306; 5178; 5177; 5176; 18180]) (Some (LW 4000)) (Some (LW 18180));
    Cell ([3937; 16982; 18180; 16633], [18243; 3999; 18307; 5175; 5174; 5173; 18181]) (Some (LW 3999)) (Some (LW 18181));
    Cell ([3936; 16983; 18181; 16633], [18244; 3998; 18308; 5172; 5171; 5170; 18182]) (Some (LW 3998)) (Some (LW 18182));
    Cell ([3935; 16984; 18182; 16633], [18245; 3997; 18309; 5169; 5168; 5167; 18183]) (Some (LW 3997)) (Some (LW 18183));
    Cell ([3934; 16985; 18183; 16633], [18246; 3996; 18310; 5166; 5165; 5164; 18184]) (Some (LW 3996)) (Some (LW 18184));
    Cell ([3933; 16986; 18184; 16633], [18247; 3995; 18311; 5163; 5162; 5161; 18185]) (Some (LW 3995)) (Some (LW 18185));
    Cell ([3932; 16987; 18185; 16633], [18248; 3994; 18312; 5160; 5159; 5158; 18186]) (Some (LW 3994)) (Some (LW 18186));
    Cell ([3931; 16988; 18186; 16633], [18249; 3993; 18313; 5157; 5156; 5155; 18187]) (Some (LW 3993)) (Some (LW 18187));
    Cell ([3930; 16989; 18187; 16633], [18250; 3992; 18314; 5154; 5153; 5152; 18188]) (Some (LW 3992)) (Some (LW 18188));
    Cell ([3929; 16990; 18188; 16633], [18251; 3991; 18315; 5151; 5150; 5149; 18189]) (Some (LW 3991)) (Some (LW 18189));
    Cell ([3928; 16991; 18189; 16633], [18252; 3990; 18316; 5148; 5147; 5146; 18190]) (Some (LW 3990)) (Some (LW 18190));
    Cell ([3927; 16992; 18190; 16633], [18253; 3989; 18317; 5145; 5144; 5143; 18191]) (Some (LW 3989)) (Some (LW 18191));
    Cell ([3926; 16993; 18191; 16633], [18254; 3988; 18318; 5142; 5141; 5140; 18192]) (Some (LW 3988)) (Some (LW 18192));
    Cell ([3925; 16994; 18192; 16633], [18255; 3987; 18319; 5139; 5138; 5137; 18193]) (Some (LW 3987)) (Some (LW 18193));
    Cell ([3924; 16995; 18193; 16633], [18256; 3986; 18320; 5136; 5135; 5134; 18194]) (Some (LW 3986)) (Some (LW 18194));
    Cell ([3923; 16996; 18194; 16633], [18257; 3985; 18321; 5133; 5132; 5131; 18195]) (Some (LW 3985)) (Some (LW 18195));
    Cell ([3922; 16997; 18195; 16633], [18258; 3984; 18322; 5130; 5129; 5128; 18196]) (Some (LW 3984)) (Some (LW 18196));
    Cell ([3921; 16998; 18196; 16633], [18259; 3983; 18323; 5127; 5126; 5125; 18197]) (Some (LW 3983)) (Some (LW 18197));
    Cell ([3920; 16999; 18197; 16633], [18260; 3982; 18324; 5124; 5123; 5122; 18198]) (Some (LW 3982)) (Some (LW 18198));
    Cell ([3919; 17000; 18198; 16633], [18261; 3981; 18325; 5121; 5120; 5119; 18199]) (Some (LW 3981)) (Some (LW 18199));
    Cell ([3918; 17001; 18199; 16633], [18262; 3980; 18326; 5118; 5117; 5116; 18200]) (Some (LW 3980)) (Some (LW 18200));
    Cell ([3917; 17002; 18200; 16633], [18263; 3979; 18327; 5115; 5114; 5113; 18201]) (Some (LW 3979)) (Some (LW 18201));
    Cell ([3916; 17003; 18201; 16633], [18264; 3978; 18328; 5112; 5111; 5110; 18202]) (Some (LW 3978)) (Some (LW 18202));
    Cell ([3915; 17004; 18202; 16633], [18265; 3977; 18329; 5109; 5108; 5107; 18203]) (Some (LW 3977)) (Some (LW 18203));
    Cell ([3914; 17005; 18203; 16633], [18266; 3976; 18330; 5106; 5105; 5104; 18204]) (Some (LW 3976)) (Some (LW 18204));
    Cell ([3913; 17006; 18204; 16633], [18267; 3975; 18331; 5103; 5102; 5101; 18205]) (Some (LW 3975)) (Some (LW 18205));
    Cell ([3912; 17007; 18205; 16633], [18268; 3974; 18332; 5100; 5099; 5098; 18206]) (Some (LW 3974)) (Some (LW 18206));
    Cell ([3911; 17008; 18206; 16633], [18269; 3973; 18333; 5097; 5096; 5095; 18207]) (Some (LW 3973)) (Some (LW 18207));
    Cell ([3910; 17009; 18207; 16633], [18270; 190]) (Some (LW 190)) (None)]
   190 16632.
Definition divide64_row_61 : srow := SRow
   [Cell ([16821; 16946; 16632], [4098; 18082; 17956]) (Some (LW 4098)) (Some (LW 17956));
    Cell ([4035; 16947; 17956; 16632], [18019; 4097; 18083; 5094; 5093; 5092; 17957]) (Some (LW 4097)) (Some (LW 17957));
    Cell ([4034; 16948; 17957; 16632], [18020; 4096; 18084; 5091; 5090; 5089; 17958]) (Some (LW 4096)) (Some (LW 17958));
    Cell ([4033; 16949; 17958; 16632], [18021; 4095; 18085; 5088; 5087; 5086; 17959]) (Some (LW 4095)) (Some (LW 17959));
    Cell ([4032; 16950; 17959; 16632], [18022; 4094; 18086; 5085; 5084; 5083; 17960]) (Some (LW 4094)) (Some (LW 17960));
    Cell ([4031; 16951; 17960; 16632], [18023; 4093; 18087; 5082; 5081; 5080; 17961]) (Some (LW 4093)) (Some (LW 17961));
    Cell ([4030; 16952; 17961; 16632], [18024; 4092; 18088; 5079; 5078; 5077; 17962]) (Some (LW 4092)) (Some (LW 17962));
    Cell ([4029; 16953; 17962; 16632], [18025; 4091; 18089; 5076; 5075; 5074; 17963]) (Some (LW 4091)) (Some (LW 17963));
    Cell ([4028; 16954; 17963; 16632], [18026; 4090; 18090; 5073; 5072; 5071; 17964]) (Some (LW 4090)) (Some (LW 17964));
    Cell ([4027; 16955; 17964; 16632], [18027; 4089; 18091; 5070; 5069; 5068; 17965]) (Some (LW 4089)) (Some (LW 17965));
    Cell ([4026; 16956; 17965; 16632], [18028; 4088; 18092; 5067; 5066; 5065; 17966]) (Some (LW 4088)) (Some (LW 17966));
    Cell ([4025; 16957; 17966; 16632], [18029; 4087; 18093; 5064; 5063; 5062; 17967]) (Some (LW 4087)) (Some (LW 17967));
    Cell ([4024; 16958; 17967; 16632], [18030; 4086; 18094; 5061; 5060; 5059; 17968]) (Some (LW 4086)) (Some (LW 17968));
    Cell ([4023; 16959; 17968; 16632], [18031; 4085; 18095; 5058; 5057; 5056; 17969]) (Some (LW 4085)) (Some (LW 17969));
    Cell ([4022; 16960; 17969; 16632], [18032; 4084; 18096; 5055; 5054; 5053; 17970]) (Some (LW 4084)) (Some (LW 17970));
    Cell ([4021; 16961; 17970; 16632], [18033; 4083; 18097; 5052; 5051; 5050; 17971]) (Some (LW 4083)) (Some (LW 17971));
    Cell ([4020; 16962; 17971; 16632], [18034; 4082; 18098; 5049; 5048; 5047; 17972]) (Some (LW 4082)) (Some (LW 17972));
    Cell ([4019; 16963; 17972; 16632], [18035; 4081; 18099; 5046; 5045; 5044; 17973]) (Some (LW 4081)) (Some (LW 17973));
    Cell ([4018; 16964; 17973; 16632], [18036; 4080; 18100; 5043; 5042; 5041; 17974]) (Some (LW 4080)) (Some (LW 17974));
    Cell ([4017; 16965; 17974; 16632], [18037; 4079; 18101; 5040; 5039; 5038; 17975]) (Some (LW 4079)) (Some (LW 17975));
    Cell ([4016; 16966; 17975; 16632], [18038; 4078; 18102; 5037; 5036; 5035; 17976]) (Some (LW 4078)) (Some (LW 17976));
    Cell ([4015; 16967; 17976; 16632], [18039; 4077; 18103; 5034; 5033; 5032; 17977]) (Some (LW 4077)) (Some (LW 17977));
    Cell ([4014; 16968; 17977; 16632], [18040; 4076; 18104; 5031; 5030; 5029; 17978]) (Some (LW 4076)) (Some (LW 17978));
    Cell ([4013; 16969; 17978; 16632], [18041; 4075; 18105; 5028; 5027; 5026; 17979]) (Some (LW 4075)) (Some (LW 17979));
    Cell ([4012; 16970; 17979; 16632], [18042; 4074; 18106; 5025; 5024; 5023; 17980]) (Some (LW 4074)) (Some (LW 17980));
    Cell ([4011; 16971; 17980; 16632], [18043; 4073; 18107; 5022; 5021; 5020; 17981]) (Some (LW 4073)) (Some (LW 17981));
    Cell ([4010; 16972; 17981; 16632], [18044; 4072; 18108; 5019; 5018; 5017; 17982]) (Some (LW 4072)) (Some (LW 17982));
    Cell ([4009; 16973; 17982; 16632], [18045; 4071; 18109; 5016; 5015; 5014; 17983]) (Some (LW 4071)) (Some (LW 17983));
    Cell ([4008; 16974; 17983; 16632], [18046; 4070; 18110; 5013; 5012; 5011; 17984]) (Some (LW 4070)) (Some (LW 17984));
    Cell ([4007; 16975; 17984; 16632], [18047; 4069; 18111; 5010; 5009; 5008; 17985]) (Some (LW 4069)) (Some (LW 17985));
    Cell ([4006; 16976; 17985; 16632], [18048; 4068; 18112; 5007; 5006; 5005; 17986]) (Some (LW 4068)) (Some (LW 17986));
    Cell ([4005; 16977; 17986; 16632], [18049; 4067; 18113; 5004; 5003; 5002; 17987]) (Some (LW 4067)) (Some (LW 17987));
    Cell ([4004; 16978; 17987; 16632], [18050; 4066; 18114; 5001; 5000; 4999; 17988]) (Some (LW 4066)) (Some (LW 17988));
    Cell ([4003; 16979; 17988; 16632], [18051; 4065; 18115; 4998; 4997; 4996; 17989]) (Some (LW 4065)) (Some (LW 17989));
    Cell ([4002; 16980; 17989; 16632], [18052; 4064; 18116; 4995; 4994; 4993; 17990]) (Some (LW 4064)) (Some (LW 17990));
    Cell ([4001; 16981; 17990; 16632], [18053; 4063; 18117; 4992; 4991; 4990; 17991]) (Some (LW 4063)) (Some (LW 17991));
    Cell ([4000; 16982; 17991; 16632], [18054; 4062; 18118; 4989; 4988; 4987; 17992]) (Some (LW 4062)) (Some (LW 17992));
    Cell ([3999; 16983; 17992; 16632], [18055; 4061; 18119; 4986; 4985; 4984; 17993]) (Some (LW 4061)) (Some (LW 17993));
    Cell ([3998; 16984; 17993; 16632], [18056; 4060; 18120; 4983; 4982; 4981; 17994]) (Some (LW 4060)) (Some (LW 17994));
    Cell ([3997; 16985; 17994; 16632], [18057; 4059; 18121; 4980; 4979; 4978; 17995]) (Some (LW 4059)) (Some (LW 17995));
    Cell ([3996; 16986; 17995; 16632], [18058; 4058; 18122; 4977; 4976; 4975; 17996]) (Some (LW 4058)) (Some (LW 17996));
    Cell ([3995; 16987; 17996; 16632], [18059; 4057; 18123; 4974; 4973; 4972; 17997]) (Some (LW 4057)) (Some (LW 17997));
    Cell ([3994; 16988; 17997; 16632], [18060; 4056; 18124; 4971; 4970; 4969; 17998]) (Some (LW 4056)) (Some (LW 17998));
    Cell ([3993; 16989; 17998; 16632], [18061; 4055; 18125; 4968; 4967; 4966; 17999]) (Some (LW 4055)) (Some (LW 17999));
    Cell ([3992; 16990; 17999; 16632], [18062; 4054; 18126; 4965; 4964; 4963; 18000]) (Some (LW 4054)) (Some (LW 18000));
    Cell ([3991; 16991; 18000; 16632], [18063; 4053; 18127; 4962; 4961; 4960; 18001]) (Some (LW 4053)) (Some (LW 18001));
    Cell ([3990; 16992; 18001; 16632], [18064; 4052; 18128; 4959; 4958; 4957; 18002]) (Some (LW 4052)) (Some (LW 18002));
    Cell ([3989; 16993; 18002; 16632], [18065; 4051; 18129; 4956; 4955; 4954; 18003]) (Some (LW 4051)) (Some (LW 18003));
    Cell ([3988; 16994; 18003; 16632], [18066; 4050; 18130; 4953; 4952; 4951; 18004]) (Some (LW 4050)) (Some (LW 18004));
    Cell ([3987; 16995; 18004; 16632], [18067; 4049; 18131; 4950; 4949; 4948; 18005]) (Some (LW 4049)) (Some (LW 18005));
    Cell ([3986; 16996; 18005; 16632], [18068; 4048; 18132; 4947; 4946; 4945; 18006]) (Some (LW 4048)) (Some (LW 18006));
    Cell ([3985; 16997; 18006; 16632], [18069; 4047; 18133; 4944; 4943; 4942; 18007]) (Some (LW 4047)) (Some (LW 18007));
    Cell ([3984; 16998; 18007; 16632], [18070; 4046; 18134; 4941; 4940; 4939; 18008]) (Some (LW 4046)) (Some (LW 18008));
    Cell ([3983; 16999; 18008; 16632], [18071; 4045; 18135; 4938; 4937; 4936; 18009]) (Some (LW 4045)) (Some (LW 18009));
    Cell ([3982; 17000; 18009; 16632], [18072; 4044; 18136; 4935; 4934; 4933; 18010]) (Some (LW 4044)) (Some (LW 18010));
    Cell ([3981; 17001; 18010; 16632], [18073; 4043; 18137; 4932; 4931; 4930; 18011]) (Some (LW 4043)) (Some (LW 18011));
    Cell ([3980; 17002; 18011; 16632], [18074; 4042; 18138; 4929; 4928; 4927; 18012]) (Some (LW 4042)) (Some (LW 18012));
    Cell ([3979; 17003; 18012; 16632], [18075; 4041; 18139; 4926; 4925; 4924; 18013]) (Some (LW 4041)) (Some (LW 18013));
    Cell ([3978; 17004; 18013; 16632], [18076; 4040; 18140; 4923; 4922; 4921; 18014]) (Some (LW 4040)) (Some (LW 18014));
    Cell ([3977; 17005; 18014; 16632], [18077; 4039; 18141; 4920; 4919; 4918; 18015]) (Some (LW 4039)) (Some (LW 18015));
    Cell ([3976; 17006; 18015; 16632], [18078; 4038; 18142; 4917; 4916; 4915; 18016]) (Some (LW 4038)) (Some (LW 18016));
    Cell ([3975; 17007; 18016; 16632], [18079; 4037; 18143; 4914; 4913; 4912; 18017]) (Some (LW 4037)) (Some (LW 18017));
    Cell ([3974; 17008; 18017; 16632], [18080; 4036; 18144; 4911; 4910; 4909; 18018]) (Some (LW 4036)) (Some (LW 18018));
    Cell ([3973; 17009; 18018; 16632], [18081; 191]) (Some (LW 191)) (None)]
   191 16631.
Definition divide64_row_62 : srow := SRow
   [Cell ([16820; 16946; 16631], [4161; 17893; 17767]) (Some (LW 4161)) (Some (LW 17767));
    Cell ([4098; 16947; 17767; 16631], [17830; 4160; 17894; 4908; 4907; 4906; 17768]) (Some (LW 4160)) (Some (LW 17768));
    Cell ([4097; 16948; 17768; 16631], [17831; 4159; 17895; 4905; 4904; 4903; 17769]) (Some (LW 4159)) (Some (LW 17769));
    Cell ([4096; 16949; 17769; 16631], [17832; 4158; 17896; 4902; 4901; 4900; 17770]) (Some (LW 4158)) (Some (LW 17770));
    Cell ([4095; 16950; 17770; 16631], [17833; 4157; 17897; 4899; 4898; 4897; 17771]) (Some (LW 4157)) (Some (LW 17771));
    Cell ([4094; 16951; 17771; 16631], [17834; 4156; 17898; 4896; 4895; 4894; 17772]) (Some (LW 4156)) (Some (LW 17772));
    Cell ([4093; 16952; 17772; 16631], [17835; 4155; 17899; 4893; 4892; 4891; 17773]) (Some (LW 4155)) (Some (LW 17773));
    Cell ([4092; 16953; 17773; 16631], [17836; 4154; 17900; 4890; 4889; 4888; 17774]) (Some (LW 4154)) (Some (LW 17774));
    Cell ([4091; 16954; 17774; 16631], [17837; 4153; 17901; 4887; 4886; 4885; 17775]) (Some (LW 4153)) (Some (LW 17775));
    Cell ([4090; 16955; 17775; 16631], [17838; 4152; 17902; 4884; 4883; 4882; 17776]) (Some (LW 4152)) (Some (LW 17776));
    Cell ([4089; 16956; 17776; 16631], [17839; 4151; 17903; 4881; 4880; 4879; 17777]) (Some (LW 4151)) (Some (LW 17777));
    Cell ([4088; 16957; 17777; 16631], [17840; 4150; 17904; 4878; 4877; 4876; 17778]) (Some (LW 4150)) (Some (LW 17778));
    Cell ([4087; 16958; 17778; 16631], [17841; 4149; 17905; 4875; 4874; 4873; 17779]) (Some (LW 4149)) (Some (LW 17779));
    Cell ([4086; 16959; 17779; 16631], [17842; 4148; 17906; 4872; 4871; 4870; 17780]) (Some (LW 4148)) (Some (LW 17780));
    Cell ([4085; 16960; 17780; 16631], [17843; 4147; 17907; 4869; 4868; 4867; 17781]) (Some (LW 4147)) (Some (LW 17781));
    Cell ([4084; 16961; 17781; 16631], [17844; 4146; 17908; 4866; 4865; 4864; 17782]) (Some (LW 4146)) (Some (LW 17782));
    Cell ([4083; 16962; 17782; 16631], [17845; 4145; 17909; 4863; 4862; 4861; 17783]) (Some (LW 4145)) (Some (LW 17783));
    Cell ([4082; 16963; 17783; 16631], [17846; 4144; 17910; 4860; 4859; 4858; 17784]) (Some (LW 4144)) (Some (LW 17784));
    Cell ([4081; 16964; 17784; 16631], [17847; 4143; 17911; 4857; 4856; 4855; 17785]) (Some (LW 4143)) (Some (LW 17785));
    Cell ([4080; 16965; 17785; 16631], [17848; 4142; 17912; 4854; 4853; 4852; 17786]) (Some (LW 4142)) (Some (LW 17786));
    Cell ([4079; 16966; 17786; 16631], [17849; 4141; 17913; 4851; 4850; 4849; 17787]) (Some (LW 4141)) (Some (LW 17787));
    Cell ([4078; 16967; 17787; 16631], [17850; 4140; 17914; 4848; 4847; 4846; 17788]) (Some (LW 4140)) (Some (LW 17788));
    Cell ([4077; 16968; 17788; 16631], [17851; 4139; 17915; 4845; 4844; 4843; 17789]) (Some (LW 4139)) (Some (LW 17789));
    Cell ([4076; 16969; 17789; 16631], [17852; 4138; 17916; 4842; 4841; 4840; 17790]) (Some (LW 4138)) (Some (LW 17790));
    Cell ([4075; 16970; 17790; 16631], [17853; 4137; 17917; 4839; 4838; 4837; 17791]) (Some (LW 4137)) (Some (LW 17791));
    Cell ([4074; 16971; 17791; 16631], [17854; 4136; 17918; 4836; 4835; 4834; 17792]) (Some (LW 4136)) (Some (LW 17792));
    Cell ([4073; 16972; 17792; 16631], [17855; 4135; 17919; 4833; 4832; 4831; 17793]) (Some (LW 4135)) (Some (LW 17793));
    Cell ([4072; 16973; 17793; 16631], [17856; 4134; 17920; 4830; 4829; 4828; 17794]) (Some (LW 4134)) (Some (LW 17794));
    Cell ([4071; 16974; 17794; 16631], [17857; 4133; 17921; 4827; 4826; 4825; 17795]) (Some (LW 4133)) (Some (LW 17795));
    Cell ([4070; 16975; 17795; 16631], [17858; 4132; 17922; 4824; 4823; 4822; 17796]) (Some (LW 4132)) (Some (LW 17796));
    Cell ([4069; 16976; 17796; 16631], [17859; 4131; 17923; 4821; 4820; 4819; 17797]) (Some (LW 4131)) (Some (LW 17797));
    Cell ([4068; 16977; 17797; 16631], [17860; 4130; 17924; 4818; 4817; 4816; 17798]) (Some (LW 4130)) (Some (LW 17798));
    Cell ([4067; 16978; 17798; 16631], [17861; 4129; 17925; 4815; 4814; 4813; 17799]) (Some (LW 4129)) (Some (LW 17799));
    Cell ([4066; 16979; 17799; 16631], [17862; 4128; 17926; 4812; 4811; 4810; 17800]) (Some (LW 4128)) (Some (LW 17800));
    Cell ([4065; 16980; 17800; 16631], [17863; 4127; 17927; 4809; 4808; 4807; 17801]) (Some (LW 4127)) (Some (LW 17801));
    Cell ([4064; 16981; 17801; 16631], [17864; 4126; 17928; 4806; 4805; 4804; 17802]) (Some (LW 4126)) (Some (LW 17802));
    Cell ([4063; 16982; 17802; 16631], [17865; 4125; 17929; 4803; 4802; 4801; 17803]) (Some (LW 4125)) (Some (LW 17803));
    Cell ([4062; 16983; 17803; 16631], [17866; 4124; 17930; 4800; 4799; 4798; 17804]) (Some (LW 4124)) (Some (LW 17804));
    Cell ([4061; 16984; 17804; 16631], [17867; 4123; 17931; 4797; 4796; 4795; 17805]) (Some (LW 4123)) (Some (LW 17805));
    Cell ([4060; 16985; 17805; 16631], [17868; 4122; 17932; 4794; 4793; 4792; 17806]) (Some (LW 4122)) (Some (LW 17806));
    Cell ([4059; 16986; 17806; 16631], [17869; 4121; 17933; 4791; 4790; 4789; 17807]) (Some (LW 4121)) (Some (LW 17807));
    Cell ([4058; 16987; 17807; 16631], [17870; 4120; 17934; 4788; 4787; 4786; 17808]) (Some (LW 4120)) (Some (LW 17808));
    Cell ([4057; 16988; 17808; 16631], [17871; 4119; 17935; 4785; 4784; 4783; 17809]) (Some (LW 4119)) (Some (LW 17809));
    Cell ([4056; 16989; 17809; 16631], [17872; 4118; 17936; 4782; 4781; 4780; 17810]) (Some (LW 4118)) (Some (LW 17810));
    Cell ([4055; 16990; 17810; 16631], [17873; 4117; 17937; 4779; 4778; 4777; 17811]) (Some (LW 4117)) (Some (LW 17811));
    Cell ([4054; 16991; 17811; 16631], [17874; 4116; 17938; 4776; 4775; 4774; 17812]) (Some (LW 4116)) (Some (LW 17812));
    Cell ([4053; 16992; 17812; 16631], [17875; 4115; 17939; 4773; 4772; 4771; 17813]) (Some (LW 4115)) (Some (LW 17813));
    Cell ([4052; 16993; 17813; 16631], [17876; 4114; 17940; 4770; 4769; 4768; 17814]) (Some (LW 4114)) (Some (LW 17814));
    Cell ([4051; 16994; 17814; 16631], [17877; 4113; 17941; 4767; 4766; 4765; 17815]) (Some (LW 4113)) (Some (LW 17815));
    Cell ([4050; 16995; 17815; 16631], [17878; 4112; 17942; 4764; 4763; 4762; 17816]) (Some (LW 4112)) (Some (LW 17816));
    Cell ([4049; 16996; 17816; 16631], [17879; 4111; 17943; 4761; 4760; 4759; 17817]) (Some (LW 4111)) (Some (LW 17817));
    Cell ([4048; 16997; 17817; 16631], [17880; 4110; 17944; 4758; 4757; 4756; 17818]) (Some (LW 4110)) (Some (LW 17818));
    Cell ([4047; 16998; 17818; 16631], [17881; 4109; 17945; 4755; 4754; 4753; 17819]) (Some (LW 4109)) (Some (LW 17819));
    Cell ([4046; 16999; 17819; 16631], [17882; 4108; 17946; 4752; 4751; 4750; 17820]) (Some (LW 4108)) (Some (LW 17820));
    Cell ([4045; 17000; 17820; 16631], [17883; 4107; 17947; 4749; 4748; 4747; 17821]) (Some (LW 4107)) (Some (LW 17821));
    Cell ([4044; 17001; 17821; 16631], [17884; 4106; 17948; 4746; 4745; 4744; 17822]) (Some (LW 4106)) (Some (LW 17822));
    Cell ([4043; 17002; 17822; 16631], [17885; 4105; 17949; 4743; 4742; 4741; 17823]) (Some (LW 4105)) (Some (LW 17823));
    Cell ([4042; 17003; 17823; 16631], [17886; 4104; 17950; 4740; 4739; 4738; 17824]) (Some (LW 4104)) (Some (LW 17824));
    Cell ([4041; 17004; 17824; 16631], [17887; 4103; 17951; 4737; 4736; 4735; 17825]) (Some (LW 4103)) (Some (LW 17825));
    Cell ([4040; 17005; 17825; 16631], [17888; 4102; 17952; 4734; 4733; 4732; 17826]) (Some (LW 4102)) (Some (LW 17826));
    Cell ([4039; 17006; 17826; 16631], [17889; 4101; 17953; 4731; 4730; 4729; 17827]) (Some (LW 4101)) (Some (LW 17827));
    Cell ([4038; 17007; 17827; 16631], [17890; 4100; 17954; 4728; 4727; 4726; 17828]) (Some (LW 4100)) (Some (LW 17828));
    Cell ([4037; 17008; 17828; 16631], [17891; 4099; 17955; 4725; 4724; 4723; 17829]) (Some (LW 4099)) (Some (LW 17829));
    Cell ([4036; 17009; 17829; 16631], [17892; 192]) (Some (LW 192)) (None)]
   192 16630.
Definition divide64_row_63 : srow := SRow
   [Cell ([16819; 16946; 16630], [17704; 17641]) (None) (Some (LW 17641));
    Cell ([4161; 16947; 17641; 16630], [17705; 4721; 4720; 4719; 17642]) (None) (Some (LW 17642));
    Cell ([4160; 16948; 17642; 16630], [17706; 4718; 4717; 4716; 17643]) (None) (Some (LW 17643));
    Cell ([4159; 16949; 17643; 16630], [17707; 4715; 4714; 4713; 17644]) (None) (Some (LW 17644));
    Cell ([4158; 16950; 17644; 16630], [17708; 4712; 4711; 4710; 17645]) (None) (Some (LW 17645));
    Cell ([4157; 16951; 17645; 16630], [17709; 4709; 4708; 4707; 17646]) (None) (Some (LW 17646));
    Cell ([4156; 16952; 17646; 16630], [17710; 4706; 4705; 4704; 17647]) (None) (Some (LW 17647));
    Cell ([4155; 16953; 17647; 16630], [17711; 4703; 4702; 4701; 17648]) (None) (Some (LW 17648));
    Cell ([4154; 16954; 17648; 16630], [17712; 4700; 4699; 4698; 17649]) (None) (Some (LW 17649));
    Cell ([4153; 16955; 17649; 16630], [17713; 4697; 4696; 4695; 17650]) (None) (Some (LW 17650));
    Cell ([4152; 16956; 17650; 16630], [17714; 4694; 4693; 4692; 17651]) (None) (Some (LW 17651));
    Cell ([4151; 16957; 17651; 16630], [17715; 4691; 4690; 4689; 17652]) (None) (Some (LW 17652));
    Cell ([4150; 16958; 17652; 16630], [17716; 4688; 4687; 4686; 17653]) (None) (Some (LW 17653));
    Cell ([4149; 16959; 17653; 16630], [17717; 4685; 4684; 4683; 17654]) (None) (Some (LW 17654));
    Cell ([4148; 16960; 17654; 16630], [17718; 4682; 4681; 4680; 17655]) (None) (Some (LW 17655));
    Cell ([4147; 16961; 17655; 16630], [17719; 4679; 4678; 4677; 17656]) (None) (Some (LW 17656));
    Cell ([4146; 16962; 17656; 16630], [17720; 4676; 4675; 4674; 17657]) (None) (Some (LW 17657));
    Cell ([4145; 16963; 17657; 16630], [17721; 4673; 4672; 4671; 17658]) (None) (Some (LW 17658));
    Cell ([4144; 16964; 17658; 16630], [17722; 4670; 4669; 4668; 17659]) (None) (Some (LW 17659));
    Cell ([4143; 16965; 17659; 16630], [17723; 4667; 4666; 4665; 17660]) (None) (Some (LW 17660));
    Cell ([4142; 16966; 17660; 16630], [17724; 4664; 4663; 4662; 17661]) (None) (Some (LW 17661));
    Cell ([4141; 16967; 17661; 16630], [17725; 4661; 4660; 4659; 17662]) (None) (Some (LW 17662));
    Cell ([4140; 16968; 17662; 16630], [17726; 4658; 4657; 4656; 17663]) (None) (Some (LW 17663));
    Cell ([4139; 16969; 17663; 16630], [17727; 4655; 4654; 4653; 17664]) (None) (Some (LW 17664));
    Cell ([4138; 16970; 17664; 16630], [17728; 4652; 4651; 4650; 17665]) (None) (Some (LW 17665));
    Cell ([4137; 16971; 17665; 16630], [17729; 4649; 4648; 4647; 17666]) (None) (Some (LW 17666));
    Cell ([4136; 16972; 17666; 16630], [17730; 4646; 4645; 4644; 17667]) (None) (Some (LW 17667));
    Cell ([4135; 16973; 17667; 16630], [17731; 4643; 4642; 4641; 17668]) (None) (Some (LW 17668));
    Cell ([4134; 16974; 17668; 16630], [17732; 4640; 4639; 4638; 17669]) (None) (Some (LW 17669));
    Cell ([4133; 16975; 17669; 16630], [17733; 4637; 4636; 4635; 17670]) (None) (Some (LW 17670));
    Cell ([4132; 16976; 17670; 16630], [17734; 4634; 4633; 4632; 17671]) (None) (Some (LW 17671));
    Cell ([4131; 16977; 17671; 16630], [17735; 4631; 4630; 4629; 17672]) (None) (Some (LW 17672));
    Cell ([4130; 16978; 17672; 16630], [17736; 4628; 4627; 4626; 17673]) (None) (Some (LW 17673));
    Cell ([4129; 16979; 17673; 16630], [17737; 4625; 4624; 4623; 17674]) (None) (Some (LW 17674));
    Cell ([4128; 16980; 17674; 16630], [17738; 4622; 4621; 4620; 17675]) (None) (Some (LW 17675));
    Cell ([4127; 16981; 17675; 16630], [17739; 4619; 4618; 4617; 17676]) (None) (Some (LW 17676));
    Cell ([4126; 16982; 17676; 16630], [17740; 4616; 4615; 4614; 17677]) (None) (Some (LW 17677));
    Cell ([4125; 16983; 17677; 16630], [17741; 4613; 4612; 4611; 17678]) (None) (Some (LW 17678));
    Cell ([4124; 16984; 17678; 16630], [17742; 4610; 4609; 4608; 17679]) (None) (Some (LW 17679));
    Cell ([4123; 16985; 17679; 16630], [17743; 4607; 4606; 4605; 17680]) (None) (Some (LW 17680));
    Cell ([4122; 16986; 17680; 16630], [17744; 4604; 4603; 4602; 17681]) (None) (Some (LW 17681));
    Cell ([4121; 16987; 17681; 16630], [17745; 4601; 4600; 4599; 17682]) (None) (Some (LW 17682));
    Cell ([4120; 16988; 17682; 16630], [17746; 4598; 4597; 4596; 17683]) (None) (Some (LW 17683));
    Cell ([4119; 16989; 17683; 16630], [17747; 4595; 4594; 4593; 17684]) (None) (Some (LW 17684));
    Cell ([4118; 16990; 17684; 16630], [17748; 4592; 4591; 4590; 17685]) (None) (Some (LW 17685));
    Cell ([4117; 16991; 17685; 16630], [17749; 4589; 4588; 4587; 17686]) (None) (Some (LW 17686));
    Cell ([4116; 16992; 17686; 16630], [17750; 4586; 4585; 4584; 17687]) (None) (Some (LW 17687));
    Cell ([4115; 16993; 17687; 16630], [17751; 4583; 4582; 4581; 17688]) (None) (Some (LW 17688));
    Cell ([4114; 16994; 17688; 16630], [17752; 4580; 4579; 4578; 17689]) (None) (Some (LW 17689));
    Cell ([4113; 16995; 17689; 16630], [17753; 4577; 4576; 4575; 17690]) (None) (Some (LW 17690));
    Cell ([4112; 16996; 17690; 16630], [17754; 4574; 4573; 4572; 17691]) (None) (Some (LW 17691));
    Cell ([4111; 16997; 17691; 16630], [17755; 4571; 4570; 4569; 17692]) (None) (Some (LW 17692));
    Cell ([4110; 16998; 17692; 16630], [17756; 4568; 4567; 4566; 17693]) (None) (Some (LW 17693));
    Cell ([4109; 16999; 17693; 16630], [17757; 4565; 4564; 4563; 17694]) (None) (Some (LW 17694));
    Cell ([4108; 17000; 17694; 16630], [17758; 4562; 4561; 4560; 17695]) (None) (Some (LW 17695));
    Cell ([4107; 17001; 17695; 16630], [17759; 4559; 4558; 4557; 17696]) (None) (Some (LW 17696));
    Cell ([4106; 17002; 17696; 16630], [17760; 4556; 4555; 4554; 17697]) (None) (Some (LW 17697));
    Cell ([4105; 17003; 17697; 16630], [17761; 4553; 4552; 4551; 17698]) (None) (Some (LW 17698));
    Cell ([4104; 17004; 17698; 16630], [17762; 4550; 4549; 4548; 17699]) (None) (Some (LW 17699));
    Cell ([4103; 17005; 17699; 16630], [17763; 4547; 4546; 4545; 17700]) (None) (Some (LW 17700));
    Cell ([4102; 17006; 17700; 16630], [17764; 4544; 4543; 4542; 17701]) (None) (Some (LW 17701));
    Cell ([4101; 17007; 17701; 16630], [17765; 4541; 4540; 4539; 17702]) (None) (Some (LW 17702));
    Cell ([4100; 17008; 17702; 16630], [17766; 4538; 4537; 4536; 17703]) (None) (Some (LW 17703));
    Cell ([4099; 17009; 17703; 16630], [4722; 4162]) (Some (LW 4162)) (None)]
   4162 16566.
Definition divide64_rows : list srow := [divide64_row_0; divide64_row_1; divide64_row_2; divide64_row_3; divide64_row_4; divide64_row_5; divide64_row_6; divide64_row_7; divide64_row_8; divide64_row_9; divide64_row_10; divide64_row_11; divide64_row_12; divide64_row_13; divide64_row_14; divide64_row_15; divide64_row_16; divide64_row_17; divide64_row_18; divide64_row_19; divide64_row_20; divide64_row_21; divide64_row_22; divide64_row_23; divide64_row_24; divide64_row_25; divide64_row_26; divide64_row_27; divide64_row_28; divide64_row_29; divide64_row_30; divide64_row_31; divide64_row_32; divide64_row_33; divide64_row_34; divide64_row_35; divide64_row_36; divide64_row_37; divide64_row_38; divide64_row_39; divide64_row_40; divide64_row_41; divide64_row_42; divide64_row_43; divide64_row_44; divide64_row_45; divide64_row_46; divide64_row_47; divide64_row_48; divide64_row_49; divide64_row_50; divide64_row_51; divide64_row_52; divide64_row_53; divide64_row_54; divide64_row_55; divide64_row_56; divide64_row_57; divide64_row_58; divide64_row_59; divide64_row_60; divide64_row_61; divide64_row_62; divide64_row_63].
Definition divide64_neg_q : list lin_fact := [
  Lin [4162] [16566] 2%Z [((-1)%Z, 16566); ((-1)%Z, 16566); ((-2)%Z, 4162)] 18446744073709551616%Z 1%Z;
  Lin [192; 4162] [16630; 17450; 16629; 4534; 4533; 17388] 1%Z [((-1)%Z, 16630); ((-1)%Z, 16629); (1%Z, 4162); ((-2)%Z, 17388)] 9223372036854775808%Z 2%Z;
  Lin [191; 17388] [16631; 17451; 16567; 4532; 4531; 17389] 1%Z [((-1)%Z, 16631); ((-1)%Z, 16567); (1%Z, 17388); ((-2)%Z, 17389)] 4611686018427387904%Z 4%Z;
  Lin [190; 17389] [16632; 17452; 16568; 4530; 4529; 17390] 1%Z [((-1)%Z, 16632); ((-1)%Z, 16568); (1%Z, 17389); ((-2)%Z, 17390)] 2305843009213693952%Z 8%Z;
  Lin [189; 17390] [16633; 17453; 16569; 4528; 4527; 17391] 1%Z [((-1)%Z, 16633); ((-1)%Z, 16569); (1%Z, 17390); ((-2)%Z, 17391)] 1152921504606846976%Z 16%Z;
  Lin [188; 17391] [16634; 17454; 16570; 4526; 4525; 17392] 1%Z [((-1)%Z, 16634); ((-1)%Z, 16570); (1%Z, 17391); ((-2)%Z, 17392)] 576460752303423488%Z 32%Z;
  Lin [187; 17392] [16635; 17455; 16571; 4524; 4523; 17393] 1%Z [((-1)%Z, 16635); ((-1)%Z, 16571); (1%Z, 17392); ((-2)%Z, 17393)] 288230376151711744%Z 64%Z;
  Lin [186; 17393] [16636; 17456; 16572; 4522; 4521; 17394] 1%Z [((-1)%Z, 16636); ((-1)%Z, 16572); (1%Z, 17393); ((-2)%Z, 17394)] 144115188075855872%Z 128%Z;
  Lin [185; 17394] [16637; 17457; 16573; 4520; 4519; 17395] 1%Z [((-1)%Z, 16637); ((-1)%Z, 16573); (1%Z, 17394); ((-2)%Z, 17395)] 72057594037927936%Z 256%Z;
  Lin [184; 17395] [16638; 17458; 16574; 4518; 4517; 17396] 1%Z [((-1)%Z, 16638); ((-1)%Z, 16574); (1%Z, 17395); ((-2)%Z, 17396)] 36028797018963968%Z 512%Z;
  Lin [183; 17396] [16639; 17459; 16575; 4516; 4515; 17397] 1%Z [((-1)%Z, 16639); ((-1)%Z, 16575); (1%Z, 17396); ((-2)%Z, 17397)] 18014398509481984%Z 1024%Z;
  Lin [182; 17397] [16640; 17460; 16576; 4514; 4513; 17398] 1%Z [((-1)%Z, 16640); ((-1)%Z, 16576); (1%Z, 17397); ((-2)%Z, 17398)] 9007199254740992%Z 2048%Z;
  Lin [181; 17398] [16641; 17461; 16577; 4512; 4511; 17399] 1%Z [((-1)%Z, 16641); ((-1)%Z, 16577); (1%Z, 17398); ((-2)%Z, 17399)] 4503599627370496%Z 4096%Z;
  Lin [180; 17399] [16642; 17462; 16578; 4510; 4509; 17400] 1%Z [((-1)%Z, 16642); ((-1)%Z, 16578); (1%Z, 17399); ((-2)%Z, 17400)] 2251799813685248%Z 8192%Z;
  Lin [179; 17400] [16643; 17463; 16579; 4508; 4507; 17401] 1%Z [((-1)%Z, 16643); ((-1)%Z, 16579); (1%Z, 17400); ((-2)%Z, 17401)] 1125899906842624%Z 16384%Z;
  Lin [178; 17401] [16644; 17464; 16580; 4506; 4505; 17402] 1%Z [((-1)%Z, 16644); ((-1)%Z, 16580); (1%Z, 17401); ((-2)%Z, 17402)] 562949953421312%Z 32768%Z;
  Lin [177; 17402] [16645; 17465; 16581; 4504; 4503; 17403] 1%Z [((-1)%Z, 16645); ((-1)%Z, 16581); (1%Z, 17402); ((-2)%Z, 17403)] 281474976710656%Z 65536%Z;
  Lin [176; 17403] [16646; 17466; 16582; 4502; 4501; 17404] 1%Z [((-1)%Z, 16646); ((-1)%Z, 16582); (1%Z, 17403); ((-2)%Z, 17404)] 140737488355328%Z 131072%Z;
  Lin [175; 17404] [16647; 17467; 16583; 4500; 4499; 17405] 1%Z [((-1)%Z, 16647); ((-1)%Z, 16583); (1%Z, 17404); ((-2)%Z, 17405)] 70368744177664%Z 262144%Z;
  Lin [174; 17405] [16648; 17468; 16584; 4498; 4497; 17406] 1%Z [((-1)%Z, 16648); ((-1)%Z, 16584); (1%Z, 17405); ((-2)%Z, 17406)] 35184372088832%Z 524288%Z;
  Lin [173; 17406] [16649; 17469; 16585; 4496; 4495; 17407] 1%Z [((-1)%Z, 16649); ((-1)%Z, 16585); (1%Z, 17406); ((-2)%Z, 17407)] 17592186044416%Z 1048576%Z;
  Lin [172; 17407] [16650; 17470; 16586; 4494; 4493; 17408] 1%Z [((-1)%Z, 16650); ((-1)%Z, 16586); (1%Z, 17407); ((-2)%Z, 17408)] 8796093022208%Z 2097152%Z;
  Lin [171; 17408] [16651; 17471; 16587; 4492; 4491; 17409] 1%Z [((-1)%Z, 16651); ((-1)%Z, 16587); (1%Z, 17408); ((-2)%Z, 17409)] 4398046511104%Z 4194304%Z;
  Lin [170; 17409] [16652; 17472; 16588; 4490; 4489; 17410] 1%Z [((-1)%Z, 16652); ((-1)%Z, 16588); (1%Z, 17409); ((-2)%Z, 17410)] 2199023255552%Z 8388608%Z;
  Lin [169; 17410] [16653; 17473; 16589; 4488; 4487; 17411] 1%Z [((-1)%Z, 16653); ((-1)%Z, 16589); (1%Z, 17410); ((-2)%Z, 17411)] 1099511627776%Z 16777216%Z;
  Lin [168; 17411] [16654; 17474; 16590; 4486; 4485; 17412] 1%Z [((-1)%Z, 16654); ((-1)%Z, 16590); (1%Z, 17411); ((-2)%Z, 17412)] 549755813888%Z 33554432%Z;
  Lin [167; 17412] [16655; 17475; 16591; 4484; 4483; 17413] 1%Z [((-1)%Z, 16655); ((-1)%Z, 16591); (1%Z, 17412); ((-2)%Z, 17413)] 274877906944%Z 67108864%Z;
  Lin [166; 17413] [16656; 17476; 16592; 4482; 4481; 17414] 1%Z [((-1)%Z, 16656); ((-1)%Z, 16592); (1%Z, 17413); ((-2)%Z, 17414)] 137438953472%Z 134217728%Z;
  Lin [165; 17414] [16657; 17477; 16593; 4480; 4479; 17415] 1%Z [((-1)%Z, 16657); ((-1)%Z, 16593); (1%Z, 17414); ((-2)%Z, 17415)] 68719476736%Z 268435456%Z;
  Lin [164; 17415] [16658; 17478; 16594; 4478; 4477; 17416] 1%Z [((-1)%Z, 16658); ((-1)%Z, 16594); (1%Z, 17415); ((-2)%Z, 17416)] 34359738368%Z 536870912%Z;
  Lin [163; 17416] [16659; 17479; 16595; 4476; 4475; 17417] 1%Z [((-1)%Z, 16659); ((-1)%Z, 16595); (1%Z, 17416); ((-2)%Z, 17417)] 17179869184%Z 1073741824%Z;
  Lin [162; 17417] [16660; 17480; 16596; 4474; 4473; 17418] 1%Z [((-1)%Z, 16660); ((-1)%Z, 16596); (1%Z, 17417); ((-2)%Z, 17418)] 8589934592%Z 2147483648%Z;
  Lin [161; 17418] [16661; 17481; 16597; 4472; 4471; 17419] 1%Z [((-1)%Z, 16661); ((-1)%Z, 16597); (1%Z, 17418); ((-2)%Z, 17419)] 4294967296%Z 4294967296%Z;
  Lin [160; 17419] [16662; 17482; 16598; 4470; 4469; 17420] 1%Z [((-1)%Z, 16662); ((-1)%Z, 16598); (1%Z, 17419); ((-2)%Z, 17420)] 2147483648%Z 8589934592%Z;
  Lin [159; 17420] [16663; 17483; 16599; 4468; 4467; 17421] 1%Z [((-1)%Z, 16663); ((-1)%Z, 16599); (1%Z, 17420); ((-2)%Z, 17421)] 1073741824%Z 17179869184%Z;
  Lin [158; 17421] [16664; 17484; 16600; 4466; 4465; 17422] 1%Z [((-1)%Z, 16664); ((-1)%Z, 16600); (1%Z, 17421); ((-2)%Z, 17422)] 536870912%Z 34359738368%Z;
  Lin [157; 17422] [16665; 17485; 16601; 4464; 4463; 17423] 1%Z [((-1)%Z, 16665); ((-1)%Z, 16601); (1%Z, 17422); ((-2)%Z, 17423)] 268435456%Z 68719476736%Z;
  Lin [156; 17423] [16666; 17486; 16602; 4462; 4461; 17424] 1%Z [((-1)%Z, 16666); ((-1)%Z, 16602); (1%Z, 17423); ((-2)%Z, 17424)] 134217728%Z 137438953472%Z;
  Lin [155; 17424] [16667; 17487; 16603; 4460; 4459; 17425] 1%Z [((-1)%Z, 16667); ((-1)%Z, 16603); (1%Z, 17424); ((-2)%Z, 17425)] 67108864%Z 274877906944%Z;
  Lin [154; 17425] [16668; 17488; 16604; 4458; 4457; 17426] 1%Z [((-1)%Z, 16668); ((-1)%Z, 16604); (1%Z, 17425); ((-2)%Z, 17426)] 33554432%Z 549755813888%Z;
  Lin [153; 17426] [16669; 17489; 16605; 4456; 4455; 17427] 1%Z [((-1)%Z, 16669); ((-1)%Z, 16605); (1%Z, 17426); ((-2)%Z, 17427)] 16777216%Z 1099511627776%Z;
  Lin [152; 17427] [16670; 17490; 16606; 4454; 4453; 17428] 1%Z [((-1)%Z, 16670); ((-1)%Z, 16606); (1%Z, 17427); ((-2)%Z, 17428)] 8388608%Z 2199023255552%Z;
  Lin [151; 17428] [16671; 17491; 16607; 4452; 4451; 17429] 1%Z [((-1)%Z, 16671); ((-1)%Z, 16607); (1%Z, 17428); ((-2)%Z, 17429)] 4194304%Z 4398046511104%Z;
  Lin [150; 17429] [16672; 17492; 16608; 4450; 4449; 17430] 1%Z [((-1)%Z, 16672); ((-1)%Z, 16608); (1%Z, 17429); ((-2)%Z, 17430)] 2097152%Z 8796093022208%Z;
  Lin [149; 17430] [16673; 17493; 16609; 4448; 4447; 17431] 1%Z [((-1)%Z, 16673); ((-1)%Z, 16609); (1%Z, 17430); ((-2)%Z, 17431)] 1048576%Z 17592186044416%Z;
  Lin [148; 17431] [16674; 17494; 16610; 4446; 4445; 17432] 1%Z [((-1)%Z, 16674); ((-1)%Z, 16610); (1%Z, 17431); ((-2)%Z, 17432)] 524288%Z 35184372088832%Z;
  Lin [147; 17432] [16675; 17495; 16611; 4444; 4443; 17433] 1%Z [((-1)%Z, 16675); ((-1)%Z, 16611); (1%Z, 17432); ((-2)%Z, 17433)] 262144%Z 70368744177664%Z;
  Lin [146; 17433] [16676; 17496; 16612; 4442; 4441; 17434] 1%Z [((-1)%Z, 16676); ((-1)%Z, 16612); (1%Z, 17433); ((-2)%Z, 17434)] 131072%Z 140737488355328%Z;
  Lin [145; 17434] [16677; 17497; 16613; 4440; 4439; 17435] 1%Z [((-1)%Z, 16677); ((-1)%Z, 16613); (1%Z, 17434); ((-2)%Z, 17435)] 65536%Z 281474976710656%Z;
  Lin [144; 17435] [16678; 17498; 16614; 4438; 4437; 17436] 1%Z [((-1)%Z, 16678); ((-1)%Z, 16614); (1%Z, 17435); ((-2)%Z, 17436)] 32768%Z 562949953421312%Z;
  Lin [143; 17436] [16679; 17499; 16615; 4436; 4435; 17437] 1%Z [((-1)%Z, 16679); ((-1)%Z, 16615); (1%Z, 17436); ((-2)%Z, 17437)] 16384%Z 1125899906842624%Z;
  Lin [142; 17437] [16680; 17500; 16616; 4434; 4433; 17438] 1%Z [((-1)%Z, 16680); ((-1)%Z, 16616); (1%Z, 17437); ((-2)%Z, 17438)] 8192%Z 2251799813685248%Z;
  Lin [141; 17438] [16681; 17501; 16617; 4432; 4431; 17439] 1%Z [((-1)%Z, 16681); ((-1)%Z, 16617); (1%Z, 17438); ((-2)%Z, 17439)] 4096%Z 4503599627370496%Z;
  Lin [140; 17439] [16682; 17502; 16618; 4430; 4429; 17440] 1%Z [((-1)%Z, 16682); ((-1)%Z, 16618); (1%Z, 17439); ((-2)%Z, 17440)] 2048%Z 9007199254740992%Z;
  Lin [139; 17440] [16683; 17503; 16619; 4428; 4427; 17441] 1%Z [((-1)%Z, 16683); ((-1)%Z, 16619); (1%Z, 17440); ((-2)%Z, 17441)] 1024%Z 18014398509481984%Z;
  Lin [138; 17441] [16684; 17504; 16620; 4426; 4425; 17442] 1%Z [((-1)%Z, 16684); ((-1)%Z, 16620); (1%Z, 17441); ((-2)%Z, 17442)] 512%Z 36028797018963968%Z;
  Lin [137; 17442] [16685; 17505; 16621; 4424; 4423; 17443] 1%Z [((-1)%Z, 16685); ((-1)%Z, 16621); (1%Z, 17442); ((-2)%Z, 17443)] 256%Z 72057594037927936%Z;
  Lin [136; 17443] [16686; 17506; 16622; 4422; 4421; 17444] 1%Z [((-1)%Z, 16686); ((-1)%Z, 16622); (1%Z, 17443); ((-2)%Z, 17444)] 128%Z 144115188075855872%Z;
  Lin [135; 17444] [16687; 17507; 16623; 4420; 4419; 17445] 1%Z [((-1)%Z, 16687); ((-1)%Z, 16623); (1%Z, 17444); ((-2)%Z, 17445)] 64%Z 288230376151711744%Z;
  Lin [134; 17445] [16688; 17508; 16624; 4418; 4417; 17446] 1%Z [((-1)%Z, 16688); ((-1)%Z, 16624); (1%Z, 17445); ((-2)%Z, 17446)] 32%Z 576460752303423488%Z;
  Lin [133; 17446] [16689; 17509; 16625; 4416; 4415; 17447] 1%Z [((-1)%Z, 16689); ((-1)%Z, 16625); (1%Z, 17446); ((-2)%Z, 17447)] 16%Z 1152921504606846976%Z;
  Lin [132; 17447] [16690; 17510; 16626; 4414; 4413; 17448] 1%Z [((-1)%Z, 16690); ((-1)%Z, 16626); (1%Z, 17447); ((-2)%Z, 17448)] 8%Z 2305843009213693952%Z;
  Lin [131; 17448] [16691; 17511; 16627; 4412; 4411; 17449] 1%Z [((-1)%Z, 16691); ((-1)%Z, 16627); (1%Z, 17448); ((-2)%Z, 17449)] 4%Z 4611686018427387904%Z;
  Lin [130; 17449] [16692; 17512; 16628] 1%Z [((-1)%Z, 16692); ((-1)%Z, 16628); (1%Z, 17449)] 2%Z 9223372036854775808%Z].
Definition divide64_nq : list N := [16566; 16629; 16567; 16568; 16569; 16570; 16571; 16572; 16573; 16574; 16575; 16576; 16577; 16578; 16579; 16580; 16581; 16582; 16583; 16584; 16585; 16586; 16587; 16588; 16589; 16590; 16591; 16592; 16593; 16594; 16595; 16596; 16597; 16598; 16599; 16600; 16601; 16602; 16603; 16604; 16605; 16606; 16607; 16608; 16609; 16610; 16611; 16612; 16613; 16614; 16615; 16616; 16617; 16618; 16619; 16620; 16621; 16622; 16623; 16624; 16625; 16626; 16627; 16628].
Definition divide64_s : N := 128.
Definition divide64_outs : list cut := [([128; 16566], [17577; 4535; 17513; 29990]); ([128; 16629; 16630], [17578; 4535; 17514; 29991]); ([128; 16567; 16631], [17579; 4535; 17515; 29992]); ([128; 16568; 16632], [17580; 4535; 17516; 29993]); ([128; 16569; 16633], [17581; 4535; 17517; 29994]); ([128; 16570; 16634], [17582; 4535; 17518; 29995]); ([128; 16571; 16635], [17583; 4535; 17519; 29996]); ([128; 16572; 16636], [17584; 4535; 17520; 29997]); ([128; 16573; 16637], [17585; 4535; 17521; 29998]); ([128; 16574; 16638], [17586; 4535; 17522; 29999]); ([128; 16575; 16639], [17587; 4535; 17523; 30000]); ([128; 16576; 16640], [17588; 4535; 17524; 30001]); ([128; 16577; 16641], [17589; 4535; 17525; 30002]); ([128; 16578; 16642], [17590; 4535; 17526; 30003]); ([128; 16579; 16643], [17591; 4535; 17527; 30004]); ([128; 16580; 16644], [17592; 4535; 17528; 30005]); ([128; 16581; 16645], [17593; 4535; 17529; 30006]); ([128; 16582; 16646], [17594; 4535; 17530; 30007]); ([128; 16583; 16647], [17595; 4535; 17531; 30008]); ([128; 16584; 16648], [17596; 4535; 17532; 30009]); ([128; 16585; 16649], [17597; 4535; 17533; 30010]); ([128; 16586; 16650], [17598; 4535; 17534; 30011]); ([128; 16587; 16651], [17599; 4535; 17535; 30012]); ([128; 16588; 16652], [17600; 4535; 17536; 30013]); ([128; 16589; 16653], [17601; 4535; 17537; 30014]); ([128; 16590; 16654], [17602; 4535; 17538; 30015]); ([128; 16591; 16655], [17603; 4535; 17539; 30016]); ([128; 16592; 16656], [17604; 4535; 17540; 30017]); ([128; 16593; 16657], [17605; 4535; 17541; 30018]); ([128; 16594; 16658], [17606; 4535; 17542; 30019]); ([128; 16595; 16659], [17607; 4535; 17543; 30020]); ([128; 16596; 16660], [17608; 4535; 17544; 30021]); ([128; 16597; 16661], [17609; 4535; 17545; 30022]); ([128; 16598; 16662], [17610; 4535; 17546; 30023]); ([128; 16599; 16663], [17611; 4535; 17547; 30024]); ([128; 16600; 16664], [17612; 4535; 17548; 30025]); ([128; 16601; 16665], [17613; 4535; 17549; 30026]); ([128; 16602; 16666], [17614; 4535; 17550; 30027]); ([128; 16603; 16667], [17615; 4535; 17551; 30028]); ([128; 16604; 16668], [17616; 4535; 17552; 30029]); ([128; 16605; 16669], [17617; 4535; 17553; 30030]); ([128; 16606; 16670], [17618; 4535; 17554; 30031]); ([128; 16607; 16671], [17619; 4535; 17555; 30032]); ([128; 16608; 16672], [17620; 4535; 17556; 30033]); ([128; 16609; 16673], [17621; 4535; 17557; 30034]); ([128; 16610; 16674], [17622; 4535; 17558; 30035]); ([128; 16611; 16675], [17623; 4535; 17559; 30036]); ([128; 16612; 16676], [17624; 4535; 17560; 30037]); ([128; 16613; 16677], [17625; 4535; 17561; 30038]); ([128; 16614; 16678], [17626; 4535; 17562; 30039]); ([128; 16615; 16679], [17627; 4535; 17563; 30040]); ([128; 16616; 16680], [17628; 4535; 17564; 30041]); ([128; 16617; 16681], [17629; 4535; 17565; 30042]); ([128; 16618; 16682], [17630; 4535; 17566; 30043]); ([128; 16619; 16683], [17631; 4535; 17567; 30044]); ([128; 16620; 16684], [17632; 4535; 17568; 30045]); ([128; 16621; 16685], [17633; 4535; 17569; 30046]); ([128; 16622; 16686], [17634; 4535; 17570; 30047]); ([128; 16623; 16687], [17635; 4535; 17571; 30048]); ([128; 16624; 16688], [17636; 4535; 17572; 30049]); ([128; 16625; 16689], [17637; 4535; 17573; 30050]); ([128; 16626; 16690], [17638; 4535; 17574; 30051]); ([128; 16627; 16691], [17639; 4535; 17575; 30052]); ([128; 16628; 16692], [17640; 4535; 17576; 30053])].
