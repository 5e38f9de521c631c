(** Generated by /verif/tools/gen_netlists.py: a certificate for the netlist mult2_64, checked in Coq. *)
From Verif Require Import Cuts.
Open Scope N_scope.
Open Scope list_scope.

Definition mult2_64_facts_0 : list lin_fact := [
  Lin [254; 190] [28097; 4286] 0%Z [(1%Z, 254); (1%Z, 190); ((-1)%Z, 28097); ((-2)%Z, 4286)] 170141183460469231731687303715884105728%Z 2%Z;
  Lin [253; 189; 4286] [12163; 4797; 12162; 12161; 12160; 4285] 0%Z [(1%Z, 253); (1%Z, 189); (1%Z, 4286); ((-1)%Z, 4797); ((-2)%Z, 4285)] 85070591730234615865843651857942052864%Z 4%Z;
  Lin [252; 188; 4285] [28031; 4796; 28030; 28029; 28028; 4284] 0%Z [(1%Z, 252); (1%Z, 188); (1%Z, 4285); ((-1)%Z, 4796); ((-2)%Z, 4284)] 42535295865117307932921825928971026432%Z 8%Z;
  Lin [251; 187; 4284] [28027; 4795; 28026; 28025; 28024; 4283] 0%Z [(1%Z, 251); (1%Z, 187); (1%Z, 4284); ((-1)%Z, 4795); ((-2)%Z, 4283)] 21267647932558653966460912964485513216%Z 16%Z;
  Lin [250; 186; 4283] [28023; 4794; 28022; 28021; 28020; 4282] 0%Z [(1%Z, 250); (1%Z, 186); (1%Z, 4283); ((-1)%Z, 4794); ((-2)%Z, 4282)] 10633823966279326983230456482242756608%Z 32%Z;
  Lin [249; 185; 4282] [28019; 4793; 28018; 28017; 28016; 4281] 0%Z [(1%Z, 249); (1%Z, 185); (1%Z, 4282); ((-1)%Z, 4793); ((-2)%Z, 4281)] 5316911983139663491615228241121378304%Z 64%Z;
  Lin [248; 184; 4281] [28015; 4792; 28014; 28013; 28012; 4280] 0%Z [(1%Z, 248); (1%Z, 184); (1%Z, 4281); ((-1)%Z, 4792); ((-2)%Z, 4280)] 2658455991569831745807614120560689152%Z 128%Z;
  Lin [247; 183; 4280] [28011; 4791; 28010; 28009; 28008; 4279] 0%Z [(1%Z, 247); (1%Z, 183); (1%Z, 4280); ((-1)%Z, 4791); ((-2)%Z, 4279)] 1329227995784915872903807060280344576%Z 256%Z;
  Lin [246; 182; 4279] [28007; 4790; 28006; 28005; 28004; 4278] 0%Z [(1%Z, 246); (1%Z, 182); (1%Z, 4279); ((-1)%Z, 4790); ((-2)%Z, 4278)] 664613997892457936451903530140172288%Z 512%Z;
  Lin [245; 181; 4278] [28003; 4789; 28002; 28001; 28000; 4277] 0%Z [(1%Z, 245); (1%Z, 181); (1%Z, 4278); ((-1)%Z, 4789); ((-2)%Z, 4277)] 332306998946228968225951765070086144%Z 1024%Z;
  Lin [244; 180; 4277] [27999; 4788; 27998; 27997; 27996; 4276] 0%Z [(1%Z, 244); (1%Z, 180); (1%Z, 4277); ((-1)%Z, 4788); ((-2)%Z, 4276)] 166153499473114484112975882535043072%Z 2048%Z;
  Lin [243; 179; 4276] [27995; 4787; 27994; 27993; 27992; 4275] 0%Z [(1%Z, 243); (1%Z, 179); (1%Z, 4276); ((-1)%Z, 4787); ((-2)%Z, 4275)] 83076749736557242056487941267521536%Z 4096%Z;
  Lin [242; 178; 4275] [27991; 4786; 27990; 27989; 27988; 4274] 0%Z [(1%Z, 242); (1%Z, 178); (1%Z, 4275); ((-1)%Z, 4786); ((-2)%Z, 4274)] 41538374868278621028243970633760768%Z 8192%Z;
  Lin [241; 177; 4274] [27987; 4785; 27986; 27985; 27984; 4273] 0%Z [(1%Z, 241); (1%Z, 177); (1%Z, 4274); ((-1)%Z, 4785); ((-2)%Z, 4273)] 20769187434139310514121985316880384%Z 16384%Z;
  Lin [240; 176; 4273] [27983; 4784; 27982; 27981; 27980; 4272] 0%Z [(1%Z, 240); (1%Z, 176); (1%Z, 4273); ((-1)%Z, 4784); ((-2)%Z, 4272)] 10384593717069655257060992658440192%Z 32768%Z;
  Lin [239; 175; 4272] [27979; 4783; 27978; 27977; 27976; 4271] 0%Z [(1%Z, 239); (1%Z, 175); (1%Z, 4272); ((-1)%Z, 4783); ((-2)%Z, 4271)] 5192296858534827628530496329220096%Z 65536%Z;
  Lin [238; 174; 4271] [27975; 4782; 27974; 27973; 27972; 4270] 0%Z [(1%Z, 238); (1%Z, 174); (1%Z, 4271); ((-1)%Z, 4782); ((-2)%Z, 4270)] 2596148429267413814265248164610048%Z 131072%Z;
  Lin [237; 173; 4270] [27971; 4781; 27970; 27969; 27968; 4269] 0%Z [(1%Z, 237); (1%Z, 173); (1%Z, 4270); ((-1)%Z, 4781); ((-2)%Z, 4269)] 1298074214633706907132624082305024%Z 262144%Z;
  Lin [236; 172; 4269] [27967; 4780; 27966; 27965; 27964; 4268] 0%Z [(1%Z, 236); (1%Z, 172); (1%Z, 4269); ((-1)%Z, 4780); ((-2)%Z, 4268)] 649037107316853453566312041152512%Z 524288%Z;
  Lin [235; 171; 4268] [27963; 4779; 27962; 27961; 27960; 4267] 0%Z [(1%Z, 235); (1%Z, 171); (1%Z, 4268); ((-1)%Z, 4779); ((-2)%Z, 4267)] 324518553658426726783156020576256%Z 1048576%Z;
  Lin [234; 170; 4267] [27959; 4778; 27958; 27957; 27956; 4266] 0%Z [(1%Z, 234); (1%Z, 170); (1%Z, 4267); ((-1)%Z, 4778); ((-2)%Z, 4266)] 162259276829213363391578010288128%Z 2097152%Z;
  Lin [233; 169; 4266] [27955; 4777; 27954; 27953; 27952; 4265] 0%Z [(1%Z, 233); (1%Z, 169); (1%Z, 4266); ((-1)%Z, 4777); ((-2)%Z, 4265)] 81129638414606681695789005144064%Z 4194304%Z;
  Lin [232; 168; 4265] [27951; 4776; 27950; 27949; 27948; 4264] 0%Z [(1%Z, 232); (1%Z, 168); (1%Z, 4265); ((-1)%Z, 4776); ((-2)%Z, 4264)] 40564819207303340847894502572032%Z 8388608%Z;
  Lin [231; 167; 4264] [27947; 4775; 27946; 27945; 27944; 4263] 0%Z [(1%Z, 231); (1%Z, 167); (1%Z, 4264); ((-1)%Z, 4775); ((-2)%Z, 4263)] 20282409603651670423947251286016%Z 16777216%Z;
  Lin [230; 166; 4263] [27943; 4774; 27942; 27941; 27940; 4262] 0%Z [(1%Z, 230); (1%Z, 166); (1%Z, 4263); ((-1)%Z, 4774); ((-2)%Z, 4262)] 10141204801825835211973625643008%Z 33554432%Z;
  Lin [229; 165; 4262] [27939; 4773; 27938; 27937; 27936; 4261] 0%Z [(1%Z, 229); (1%Z, 165); (1%Z, 4262); ((-1)%Z, 4773); ((-2)%Z, 4261)] 5070602400912917605986812821504%Z 67108864%Z;
  Lin [228; 164; 4261] [27935; 4772; 27934; 27933; 27932; 4260] 0%Z [(1%Z, 228); (1%Z, 164); (1%Z, 4261); ((-1)%Z, 4772); ((-2)%Z, 4260)] 2535301200456458802993406410752%Z 134217728%Z;
  Lin [227; 163; 4260] [27931; 4771; 27930; 27929; 27928; 4259] 0%Z [(1%Z, 227); (1%Z, 163); (1%Z, 4260); ((-1)%Z, 4771); ((-2)%Z, 4259)] 1267650600228229401496703205376%Z 268435456%Z;
  Lin [226; 162; 4259] [27927; 4770; 27926; 27925; 27924; 4258] 0%Z [(1%Z, 226); (1%Z, 162); (1%Z, 4259); ((-1)%Z, 4770); ((-2)%Z, 4258)] 633825300114114700748351602688%Z 536870912%Z;
  Lin [225; 161; 4258] [27923; 4769; 27922; 27921; 27920; 4257] 0%Z [(1%Z, 225); (1%Z, 161); (1%Z, 4258); ((-1)%Z, 4769); ((-2)%Z, 4257)] 316912650057057350374175801344%Z 1073741824%Z;
  Lin [224; 160; 4257] [27919; 4768; 27918; 27917; 27916; 4256] 0%Z [(1%Z, 224); (1%Z, 160); (1%Z, 4257); ((-1)%Z, 4768); ((-2)%Z, 4256)] 158456325028528675187087900672%Z 2147483648%Z;
  Lin [223; 159; 4256] [27915; 4767; 27914; 27913; 27912; 4255] 0%Z [(1%Z, 223); (1%Z, 159); (1%Z, 4256); ((-1)%Z, 4767); ((-2)%Z, 4255)] 79228162514264337593543950336%Z 4294967296%Z;
  Lin [222; 158; 4255] [27911; 4766; 27910; 27909; 27908; 4254] 0%Z [(1%Z, 222); (1%Z, 158); (1%Z, 4255); ((-1)%Z, 4766); ((-2)%Z, 4254)] 39614081257132168796771975168%Z 8589934592%Z;
  Lin [221; 157; 4254] [27907; 4765; 27906; 27905; 27904; 4253] 0%Z [(1%Z, 221); (1%Z, 157); (1%Z, 4254); ((-1)%Z, 4765); ((-2)%Z, 4253)] 19807040628566084398385987584%Z 17179869184%Z;
  Lin [220; 156; 4253] [27903; 4764; 27902; 27901; 27900; 4252] 0%Z [(1%Z, 220); (1%Z, 156); (1%Z, 4253); ((-1)%Z, 4764); ((-2)%Z, 4252)] 9903520314283042199192993792%Z 34359738368%Z;
  Lin [219; 155; 4252] [27899; 4763; 27898; 27897; 27896; 4251] 0%Z [(1%Z, 219); (1%Z, 155); (1%Z, 4252); ((-1)%Z, 4763); ((-2)%Z, 4251)] 4951760157141521099596496896%Z 68719476736%Z;
  Lin [218; 154; 4251] [27895; 4762; 27894; 27893; 27892; 4250] 0%Z [(1%Z, 218); (1%Z, 154); (1%Z, 4251); ((-1)%Z, 4762); ((-2)%Z, 4250)] 2475880078570760549798248448%Z 137438953472%Z;
  Lin [217; 153; 4250] [27891; 4761; 27890; 27889; 27888; 4249] 0%Z [(1%Z, 217); (1%Z, 153); (1%Z, 4250); ((-1)%Z, 4761); ((-2)%Z, 4249)] 1237940039285380274899124224%Z 274877906944%Z;
  Lin [216; 152; 4249] [27887; 4760; 27886; 27885; 27884; 4248] 0%Z [(1%Z, 216); (1%Z, 152); (1%Z, 4249); ((-1)%Z, 4760); ((-2)%Z, 4248)] 618970019642690137449562112%Z 549755813888%Z;
  Lin [215; 151; 4248] [27883; 4759; 27882; 27881; 27880; 4247] 0%Z [(1%Z, 215); (1%Z, 151); (1%Z, 4248); ((-1)%Z, 4759); ((-2)%Z, 4247)] 309485009821345068724781056%Z 1099511627776%Z;
  Lin [214; 150; 4247] [27879; 4758; 27878; 27877; 27876; 4246] 0%Z [(1%Z, 214); (1%Z, 150); (1%Z, 4247); ((-1)%Z, 4758); ((-2)%Z, 4246)] 154742504910672534362390528%Z 2199023255552%Z;
  Lin [213; 149; 4246] [27875; 4757; 27874; 27873; 27872; 4245] 0%Z [(1%Z, 213); (1%Z, 149); (1%Z, 4246); ((-1)%Z, 4757); ((-2)%Z, 4245)] 77371252455336267181195264%Z 4398046511104%Z;
  Lin [212; 148; 4245] [27871; 4756; 27870; 27869; 27868; 4244] 0%Z [(1%Z, 212); (1%Z, 148); (1%Z, 4245); ((-1)%Z, 4756); ((-2)%Z, 4244)] 38685626227668133590597632%Z 8796093022208%Z;
  Lin [211; 147; 4244] [27867; 4755; 27866; 27865; 27864; 4243] 0%Z [(1%Z, 211); (1%Z, 147); (1%Z, 4244); ((-1)%Z, 4755); ((-2)%Z, 4243)] 19342813113834066795298816%Z 17592186044416%Z;
  Lin [210; 146; 4243] [27863; 4754; 27862; 27861; 27860; 4242] 0%Z [(1%Z, 210); (1%Z, 146); (1%Z, 4243); ((-1)%Z, 4754); ((-2)%Z, 4242)] 9671406556917033397649408%Z 35184372088832%Z;
  Lin [209; 145; 4242] [27859; 4753; 27858; 27857; 27856; 4241] 0%Z [(1%Z, 209); (1%Z, 145); (1%Z, 4242); ((-1)%Z, 4753); ((-2)%Z, 4241)] 4835703278458516698824704%Z 70368744177664%Z;
  Lin [208; 144; 4241] [27855; 4752; 27854; 27853; 27852; 4240] 0%Z [(1%Z, 208); (1%Z, 144); (1%Z, 4241); ((-1)%Z, 4752); ((-2)%Z, 4240)] 2417851639229258349412352%Z 140737488355328%Z;
  Lin [207; 143; 4240] [27851; 4751; 27850; 27849; 27848; 4239] 0%Z [(1%Z, 207); (1%Z, 143); (1%Z, 4240); ((-1)%Z, 4751); ((-2)%Z, 4239)] 1208925819614629174706176%Z 281474976710656%Z;
  Lin [206; 142; 4239] [27847; 4750; 27846; 27845; 27844; 4238] 0%Z [(1%Z, 206); (1%Z, 142); (1%Z, 4239); ((-1)%Z, 4750); ((-2)%Z, 4238)] 604462909807314587353088%Z 562949953421312%Z;
  Lin [205; 141; 4238] [27843; 4749; 27842; 27841; 27840; 4237] 0%Z [(1%Z, 205); (1%Z, 141); (1%Z, 4238); ((-1)%Z, 4749); ((-2)%Z, 4237)] 302231454903657293676544%Z 1125899906842624%Z;
  Lin [204; 140; 4237] [27839; 4748; 27838; 27837; 27836; 4236] 0%Z [(1%Z, 204); (1%Z, 140); (1%Z, 4237); ((-1)%Z, 4748); ((-2)%Z, 4236)] 151115727451828646838272%Z 2251799813685248%Z;
  Lin [203; 139; 4236] [27835; 4747; 27834; 27833; 27832; 4235] 0%Z [(1%Z, 203); (1%Z, 139); (1%Z, 4236); ((-1)%Z, 4747); ((-2)%Z, 4235)] 75557863725914323419136%Z 4503599627370496%Z;
  Lin [202; 138; 4235] [27831; 4746; 27830; 27829; 27828; 4234] 0%Z [(1%Z, 202); (1%Z, 138); (1%Z, 4235); ((-1)%Z, 4746); ((-2)%Z, 4234)] 37778931862957161709568%Z 9007199254740992%Z;
  Lin [201; 137; 4234] [27827; 4745; 27826; 27825; 27824; 4233] 0%Z [(1%Z, 201); (1%Z, 137); (1%Z, 4234); ((-1)%Z, 4745); ((-2)%Z, 4233)] 18889465931478580854784%Z 18014398509481984%Z;
  Lin [200; 136; 4233] [27823; 4744; 27822; 27821; 27820; 4232] 0%Z [(1%Z, 200); (1%Z, 136); (1%Z, 4233); ((-1)%Z, 4744); ((-2)%Z, 4232)] 9444732965739290427392%Z 36028797018963968%Z;
  Lin [199; 135; 4232] [27819; 4743; 27818; 27817; 27816; 4231] 0%Z [(1%Z, 199); (1%Z, 135); (1%Z, 4232); ((-1)%Z, 4743); ((-2)%Z, 4231)] 4722366482869645213696%Z 72057594037927936%Z;
  Lin [198; 134; 4231] [27815; 4742; 27814; 27813; 27812; 4230] 0%Z [(1%Z, 198); (1%Z, 134); (1%Z, 4231); ((-1)%Z, 4742); ((-2)%Z, 4230)] 2361183241434822606848%Z 144115188075855872%Z;
  Lin [197; 133; 4230] [27811; 4741; 27810; 27809; 27808; 4229] 0%Z [(1%Z, 197); (1%Z, 133); (1%Z, 4230); ((-1)%Z, 4741); ((-2)%Z, 4229)] 1180591620717411303424%Z 288230376151711744%Z;
  Lin [196; 132; 4229] [27807; 4740; 27806; 27805; 27804; 4228] 0%Z [(1%Z, 196); (1%Z, 132); (1%Z, 4229); ((-1)%Z, 4740); ((-2)%Z, 4228)] 590295810358705651712%Z 576460752303423488%Z;
  Lin [195; 131; 4228] [27803; 4739; 27802; 27801; 27800; 4227] 0%Z [(1%Z, 195); (1%Z, 131); (1%Z, 4228); ((-1)%Z, 4739); ((-2)%Z, 4227)] 295147905179352825856%Z 1152921504606846976%Z;
  Lin [194; 130; 4227] [27799; 4738; 27798; 27797; 27796; 4226] 0%Z [(1%Z, 194); (1%Z, 130); (1%Z, 4227); ((-1)%Z, 4738); ((-2)%Z, 4226)] 147573952589676412928%Z 2305843009213693952%Z;
  Lin [193; 129; 4226] [27795; 4737; 27794; 27793; 27792; 4225] 0%Z [(1%Z, 193); (1%Z, 129); (1%Z, 4226); ((-1)%Z, 4737); ((-2)%Z, 4225)] 73786976294838206464%Z 4611686018427387904%Z;
  Lin [192; 128; 4225] [27791; 4736; 27790; 27789; 27788; 4224] 0%Z [(1%Z, 192); (1%Z, 128); (1%Z, 4225); ((-1)%Z, 4736); ((-2)%Z, 4224)] 36893488147419103232%Z 9223372036854775808%Z;
  Lin [191; 4224] [4735; 4223] 0%Z [(1%Z, 191); (1%Z, 4224); ((-1)%Z, 4735); ((-2)%Z, 4223)] 18446744073709551616%Z 18446744073709551616%Z;
  Lin [318; 4797] [28098; 4350] 0%Z [(1%Z, 318); (1%Z, 4797); ((-1)%Z, 28098); ((-2)%Z, 4350)] 85070591730234615865843651857942052864%Z 4%Z;
  Lin [317; 4796; 4350] [27787; 4860; 27786; 27785; 27784; 4349] 0%Z [(1%Z, 317); (1%Z, 4796); (1%Z, 4350); ((-1)%Z, 4860); ((-2)%Z, 4349)] 42535295865117307932921825928971026432%Z 8%Z;
  Lin [316; 4795; 4349] [27783; 4859; 27782; 27781; 27780; 4348] 0%Z [(1%Z, 316); (1%Z, 4795); (1%Z, 4349); ((-1)%Z, 4859); ((-2)%Z, 4348)] 21267647932558653966460912964485513216%Z 16%Z;
  Lin [315; 4794; 4348] [27779; 4858; 27778; 27777; 27776; 4347] 0%Z [(1%Z, 315); (1%Z, 4794); (1%Z, 4348); ((-1)%Z, 4858); ((-2)%Z, 4347)] 10633823966279326983230456482242756608%Z 32%Z;
  Lin [314; 4793; 4347] [27775; 4857; 27774; 27773; 27772; 4346] 0%Z [(1%Z, 314); (1%Z, 4793); (1%Z, 4347); ((-1)%Z, 4857); ((-2)%Z, 4346)] 5316911983139663491615228241121378304%Z 64%Z;
  Lin [313; 4792; 4346] [27771; 4856; 27770; 27769; 27768; 4345] 0%Z [(1%Z, 313); (1%Z, 4792); (1%Z, 4346); ((-1)%Z, 4856); ((-2)%Z, 4345)] 2658455991569831745807614120560689152%Z 128%Z;
  Lin [312; 4791; 4345] [27767; 4855; 27766; 27765; 27764; 4344] 0%Z [(1%Z, 312); (1%Z, 4791); (1%Z, 4345); ((-1)%Z, 4855); ((-2)%Z, 4344)] 1329227995784915872903807060280344576%Z 256%Z;
  Lin [311; 4790; 4344] [27763; 4854; 27762; 27761; 27760; 4343] 0%Z [(1%Z, 311); (1%Z, 4790); (1%Z, 4344); ((-1)%Z, 4854); ((-2)%Z, 4343)] 664613997892457936451903530140172288%Z 512%Z;
  Lin [310; 4789; 4343] [27759; 4853; 27758; 27757; 27756; 4342] 0%Z [(1%Z, 310); (1%Z, 4789); (1%Z, 4343); ((-1)%Z, 4853); ((-2)%Z, 4342)] 332306998946228968225951765070086144%Z 1024%Z;
  Lin [309; 4788; 4342] [27755; 4852; 27754; 27753; 27752; 4341] 0%Z [(1%Z, 309); (1%Z, 4788); (1%Z, 4342); ((-1)%Z, 4852); ((-2)%Z, 4341)] 166153499473114484112975882535043072%Z 2048%Z;
  Lin [308; 4787; 4341] [27751; 4851; 27750; 27749; 27748; 4340] 0%Z [(1%Z, 308); (1%Z, 4787); (1%Z, 4341); ((-1)%Z, 4851); ((-2)%Z, 4340)] 83076749736557242056487941267521536%Z 4096%Z;
  Lin [307; 4786; 4340] [27747; 4850; 27746; 27745; 27744; 4339] 0%Z [(1%Z, 307); (1%Z, 4786); (1%Z, 4340); ((-1)%Z, 4850); ((-2)%Z, 4339)] 41538374868278621028243970633760768%Z 8192%Z;
  Lin [306; 4785; 4339] [27743; 4849; 27742; 27741; 27740; 4338] 0%Z [(1%Z, 306); (1%Z, 4785); (1%Z, 4339); ((-1)%Z, 4849); ((-2)%Z, 4338)] 20769187434139310514121985316880384%Z 16384%Z;
  Lin [305; 4784; 4338] [27739; 4848; 27738; 27737; 27736; 4337] 0%Z [(1%Z, 305); (1%Z, 4784); (1%Z, 4338); ((-1)%Z, 4848); ((-2)%Z, 4337)] 10384593717069655257060992658440192%Z 32768%Z;
  Lin [304; 4783; 4337] [27735; 4847; 27734; 27733; 27732; 4336] 0%Z [(1%Z, 304); (1%Z, 4783); (1%Z, 4337); ((-1)%Z, 4847); ((-2)%Z, 4336)] 5192296858534827628530496329220096%Z 65536%Z;
  Lin [303; 4782; 4336] [27731; 4846; 27730; 27729; 27728; 4335] 0%Z [(1%Z, 303); (1%Z, 4782); (1%Z, 4336); ((-1)%Z, 4846); ((-2)%Z, 4335)] 2596148429267413814265248164610048%Z 131072%Z;
  Lin [302; 4781; 4335] [27727; 4845; 27726; 27725; 27724; 4334] 0%Z [(1%Z, 302); (1%Z, 4781); (1%Z, 4335); ((-1)%Z, 4845); ((-2)%Z, 4334)] 1298074214633706907132624082305024%Z 262144%Z;
  Lin [301; 4780; 4334] [27723; 4844; 27722; 27721; 27720; 4333] 0%Z [(1%Z, 301); (1%Z, 4780); (1%Z, 4334); ((-1)%Z, 4844); ((-2)%Z, 4333)] 649037107316853453566312041152512%Z 524288%Z;
  Lin [300; 4779; 4333] [27719; 4843; 27718; 27717; 27716; 4332] 0%Z [(1%Z, 300); (1%Z, 4779); (1%Z, 4333); ((-1)%Z, 4843); ((-2)%Z, 4332)] 324518553658426726783156020576256%Z 1048576%Z;
  Lin [299; 4778; 4332] [27715; 4842; 27714; 27713; 27712; 4331] 0%Z [(1%Z, 299); (1%Z, 4778); (1%Z, 4332); ((-1)%Z, 4842); ((-2)%Z, 4331)] 162259276829213363391578010288128%Z 2097152%Z;
  Lin [298; 4777; 4331] [27711; 4841; 27710; 27709; 27708; 4330] 0%Z [(1%Z, 298); (1%Z, 4777); (1%Z, 4331); ((-1)%Z, 4841); ((-2)%Z, 4330)] 81129638414606681695789005144064%Z 4194304%Z;
  Lin [297; 4776; 4330] [27707; 4840; 27706; 27705; 27704; 4329] 0%Z [(1%Z, 297); (1%Z, 4776); (1%Z, 4330); ((-1)%Z, 4840); ((-2)%Z, 4329)] 40564819207303340847894502572032%Z 8388608%Z;
  Lin [296; 4775; 4329] [27703; 4839; 27702; 27701; 27700; 4328] 0%Z [(1%Z, 296); (1%Z, 4775); (1%Z, 4329); ((-1)%Z, 4839); ((-2)%Z, 4328)] 20282409603651670423947251286016%Z 16777216%Z;
  Lin [295; 4774; 4328] [27699; 4838; 27698; 27697; 27696; 4327] 0%Z [(1%Z, 295); (1%Z, 4774); (1%Z, 4328); ((-1)%Z, 4838); ((-2)%Z, 4327)] 10141204801825835211973625643008%Z 33554432%Z;
  Lin [294; 4773; 4327] [27695; 4837; 27694; 27693; 27692; 4326] 0%Z [(1%Z, 294); (1%Z, 4773); (1%Z, 4327); ((-1)%Z, 4837); ((-2)%Z, 4326)] 5070602400912917605986812821504%Z 67108864%Z;
  Lin [293; 4772; 4326] [27691; 4836; 27690; 27689; 27688; 4325] 0%Z [(1%Z, 293); (1%Z, 4772); (1%Z, 4326); ((-1)%Z, 4836); ((-2)%Z, 4325)] 2535301200456458802993406410752%Z 134217728%Z;
  Lin [292; 4771; 4325] [27687; 4835; 27686; 27685; 27684; 4324] 0%Z [(1%Z, 292); (1%Z, 4771); (1%Z, 4325); ((-1)%Z, 4835); ((-2)%Z, 4324)] 1267650600228229401496703205376%Z 268435456%Z;
  Lin [291; 4770; 4324] [27683; 4834; 27682; 27681; 27680; 4323] 0%Z [(1%Z, 291); (1%Z, 4770); (1%Z, 4324); ((-1)%Z, 4834); ((-2)%Z, 4323)] 633825300114114700748351602688%Z 536870912%Z;
  Lin [290; 4769; 4323] [27679; 4833; 27678; 27677; 27676; 4322] 0%Z [(1%Z, 290); (1%Z, 4769); (1%Z, 4323); ((-1)%Z, 4833); ((-2)%Z, 4322)] 316912650057057350374175801344%Z 1073741824%Z;
  Lin [289; 4768; 4322] [27675; 4832; 27674; 27673; 27672; 4321] 0%Z [(1%Z, 289); (1%Z, 4768); (1%Z, 4322); ((-1)%Z, 4832); ((-2)%Z, 4321)] 158456325028528675187087900672%Z 2147483648%Z;
  Lin [288; 4767; 4321] [27671; 4831; 27670; 27669; 27668; 4320] 0%Z [(1%Z, 288); (1%Z, 4767); (1%Z, 4321); ((-1)%Z, 4831); ((-2)%Z, 4320)] 79228162514264337593543950336%Z 4294967296%Z;
  Lin [287; 4766; 4320] [27667; 4830; 27666; 27665; 27664; 4319] 0%Z [(1%Z, 287); (1%Z, 4766); (1%Z, 4320); ((-1)%Z, 4830); ((-2)%Z, 4319)] 39614081257132168796771975168%Z 8589934592%Z;
  Lin [286; 4765; 4319] [27663; 4829; 27662; 27661; 27660; 4318] 0%Z [(1%Z, 286); (1%Z, 4765); (1%Z, 4319); ((-1)%Z, 4829); ((-2)%Z, 4318)] 19807040628566084398385987584%Z 17179869184%Z;
  Lin [285; 4764; 4318] [27659; 4828; 27658; 27657; 27656; 4317] 0%Z [(1%Z, 285); (1%Z, 4764); (1%Z, 4318); ((-1)%Z, 4828); ((-2)%Z, 4317)] 9903520314283042199192993792%Z 34359738368%Z;
  Lin [284; 4763; 4317] [27655; 4827; 27654; 27653; 27652; 4316] 0%Z [(1%Z, 284); (1%Z, 4763); (1%Z, 4317); ((-1)%Z, 4827); ((-2)%Z, 4316)] 4951760157141521099596496896%Z 68719476736%Z;
  Lin [283; 4762; 4316] [27651; 4826; 27650; 27649; 27648; 4315] 0%Z [(1%Z, 283); (1%Z, 4762); (1%Z, 4316); ((-1)%Z, 4826); ((-2)%Z, 4315)] 2475880078570760549798248448%Z 137438953472%Z].
Definition mult2_64_facts_1 : list lin_fact := [
  Lin [282; 4761; 4315] [27647; 4825; 27646; 27645; 27644; 4314] 0%Z [(1%Z, 282); (1%Z, 4761); (1%Z, 4315); ((-1)%Z, 4825); ((-2)%Z, 4314)] 1237940039285380274899124224%Z 274877906944%Z;
  Lin [281; 4760; 4314] [27643; 4824; 27642; 27641; 27640; 4313] 0%Z [(1%Z, 281); (1%Z, 4760); (1%Z, 4314); ((-1)%Z, 4824); ((-2)%Z, 4313)] 618970019642690137449562112%Z 549755813888%Z;
  Lin [280; 4759; 4313] [27639; 4823; 27638; 27637; 27636; 4312] 0%Z [(1%Z, 280); (1%Z, 4759); (1%Z, 4313); ((-1)%Z, 4823); ((-2)%Z, 4312)] 309485009821345068724781056%Z 1099511627776%Z;
  Lin [279; 4758; 4312] [27635; 4822; 27634; 27633; 27632; 4311] 0%Z [(1%Z, 279); (1%Z, 4758); (1%Z, 4312); ((-1)%Z, 4822); ((-2)%Z, 4311)] 154742504910672534362390528%Z 2199023255552%Z;
  Lin [278; 4757; 4311] [27631; 4821; 27630; 27629; 27628; 4310] 0%Z [(1%Z, 278); (1%Z, 4757); (1%Z, 4311); ((-1)%Z, 4821); ((-2)%Z, 4310)] 77371252455336267181195264%Z 4398046511104%Z;
  Lin [277; 4756; 4310] [27627; 4820; 27626; 27625; 27624; 4309] 0%Z [(1%Z, 277); (1%Z, 4756); (1%Z, 4310); ((-1)%Z, 4820); ((-2)%Z, 4309)] 38685626227668133590597632%Z 8796093022208%Z;
  Lin [276; 4755; 4309] [27623; 4819; 27622; 27621; 27620; 4308] 0%Z [(1%Z, 276); (1%Z, 4755); (1%Z, 4309); ((-1)%Z, 4819); ((-2)%Z, 4308)] 19342813113834066795298816%Z 17592186044416%Z;
  Lin [275; 4754; 4308] [27619; 4818; 27618; 27617; 27616; 4307] 0%Z [(1%Z, 275); (1%Z, 4754); (1%Z, 4308); ((-1)%Z, 4818); ((-2)%Z, 4307)] 9671406556917033397649408%Z 35184372088832%Z;
  Lin [274; 4753; 4307] [27615; 4817; 27614; 27613; 27612; 4306] 0%Z [(1%Z, 274); (1%Z, 4753); (1%Z, 4307); ((-1)%Z, 4817); ((-2)%Z, 4306)] 4835703278458516698824704%Z 70368744177664%Z;
  Lin [273; 4752; 4306] [27611; 4816; 27610; 27609; 27608; 4305] 0%Z [(1%Z, 273); (1%Z, 4752); (1%Z, 4306); ((-1)%Z, 4816); ((-2)%Z, 4305)] 2417851639229258349412352%Z 140737488355328%Z;
  Lin [272; 4751; 4305] [27607; 4815; 27606; 27605; 27604; 4304] 0%Z [(1%Z, 272); (1%Z, 4751); (1%Z, 4305); ((-1)%Z, 4815); ((-2)%Z, 4304)] 1208925819614629174706176%Z 281474976710656%Z;
  Lin [271; 4750; 4304] [27603; 4814; 27602; 27601; 27600; 4303] 0%Z [(1%Z, 271); (1%Z, 4750); (1%Z, 4304); ((-1)%Z, 4814); ((-2)%Z, 4303)] 604462909807314587353088%Z 562949953421312%Z;
  Lin [270; 4749; 4303] [27599; 4813; 27598; 27597; 27596; 4302] 0%Z [(1%Z, 270); (1%Z, 4749); (1%Z, 4303); ((-1)%Z, 4813); ((-2)%Z, 4302)] 302231454903657293676544%Z 1125899906842624%Z;
  Lin [269; 4748; 4302] [27595; 4812; 27594; 27593; 27592; 4301] 0%Z [(1%Z, 269); (1%Z, 4748); (1%Z, 4302); ((-1)%Z, 4812); ((-2)%Z, 4301)] 151115727451828646838272%Z 2251799813685248%Z;
  Lin [268; 4747; 4301] [27591; 4811; 27590; 27589; 27588; 4300] 0%Z [(1%Z, 268); (1%Z, 4747); (1%Z, 4301); ((-1)%Z, 4811); ((-2)%Z, 4300)] 75557863725914323419136%Z 4503599627370496%Z;
  Lin [267; 4746; 4300] [27587; 4810; 27586; 27585; 27584; 4299] 0%Z [(1%Z, 267); (1%Z, 4746); (1%Z, 4300); ((-1)%Z, 4810); ((-2)%Z, 4299)] 37778931862957161709568%Z 9007199254740992%Z;
  Lin [266; 4745; 4299] [27583; 4809; 27582; 27581; 27580; 4298] 0%Z [(1%Z, 266); (1%Z, 4745); (1%Z, 4299); ((-1)%Z, 4809); ((-2)%Z, 4298)] 18889465931478580854784%Z 18014398509481984%Z;
  Lin [265; 4744; 4298] [27579; 4808; 27578; 27577; 27576; 4297] 0%Z [(1%Z, 265); (1%Z, 4744); (1%Z, 4298); ((-1)%Z, 4808); ((-2)%Z, 4297)] 9444732965739290427392%Z 36028797018963968%Z;
  Lin [264; 4743; 4297] [27575; 4807; 27574; 27573; 27572; 4296] 0%Z [(1%Z, 264); (1%Z, 4743); (1%Z, 4297); ((-1)%Z, 4807); ((-2)%Z, 4296)] 4722366482869645213696%Z 72057594037927936%Z;
  Lin [263; 4742; 4296] [27571; 4806; 27570; 27569; 27568; 4295] 0%Z [(1%Z, 263); (1%Z, 4742); (1%Z, 4296); ((-1)%Z, 4806); ((-2)%Z, 4295)] 2361183241434822606848%Z 144115188075855872%Z;
  Lin [262; 4741; 4295] [27567; 4805; 27566; 27565; 27564; 4294] 0%Z [(1%Z, 262); (1%Z, 4741); (1%Z, 4295); ((-1)%Z, 4805); ((-2)%Z, 4294)] 1180591620717411303424%Z 288230376151711744%Z;
  Lin [261; 4740; 4294] [27563; 4804; 27562; 27561; 27560; 4293] 0%Z [(1%Z, 261); (1%Z, 4740); (1%Z, 4294); ((-1)%Z, 4804); ((-2)%Z, 4293)] 590295810358705651712%Z 576460752303423488%Z;
  Lin [260; 4739; 4293] [27559; 4803; 27558; 27557; 27556; 4292] 0%Z [(1%Z, 260); (1%Z, 4739); (1%Z, 4293); ((-1)%Z, 4803); ((-2)%Z, 4292)] 295147905179352825856%Z 1152921504606846976%Z;
  Lin [259; 4738; 4292] [27555; 4802; 27554; 27553; 27552; 4291] 0%Z [(1%Z, 259); (1%Z, 4738); (1%Z, 4292); ((-1)%Z, 4802); ((-2)%Z, 4291)] 147573952589676412928%Z 2305843009213693952%Z;
  Lin [258; 4737; 4291] [27551; 4801; 27550; 27549; 27548; 4290] 0%Z [(1%Z, 258); (1%Z, 4737); (1%Z, 4291); ((-1)%Z, 4801); ((-2)%Z, 4290)] 73786976294838206464%Z 4611686018427387904%Z;
  Lin [257; 4736; 4290] [27547; 4800; 27546; 27545; 27544; 4289] 0%Z [(1%Z, 257); (1%Z, 4736); (1%Z, 4290); ((-1)%Z, 4800); ((-2)%Z, 4289)] 36893488147419103232%Z 9223372036854775808%Z;
  Lin [256; 4735; 4289] [27543; 4799; 27542; 27541; 27540; 4288] 0%Z [(1%Z, 256); (1%Z, 4735); (1%Z, 4289); ((-1)%Z, 4799); ((-2)%Z, 4288)] 18446744073709551616%Z 18446744073709551616%Z;
  Lin [255; 4223; 4288] [27539; 4798; 27538; 27537; 27536; 4287] 0%Z [(1%Z, 255); (1%Z, 4223); (1%Z, 4288); ((-1)%Z, 4798); ((-2)%Z, 4287)] 9223372036854775808%Z 36893488147419103232%Z;
  Lin [382; 4860] [28099; 4414] 0%Z [(1%Z, 382); (1%Z, 4860); ((-1)%Z, 28099); ((-2)%Z, 4414)] 42535295865117307932921825928971026432%Z 8%Z;
  Lin [381; 4859; 4414] [27535; 4923; 27534; 27533; 27532; 4413] 0%Z [(1%Z, 381); (1%Z, 4859); (1%Z, 4414); ((-1)%Z, 4923); ((-2)%Z, 4413)] 21267647932558653966460912964485513216%Z 16%Z;
  Lin [380; 4858; 4413] [27531; 4922; 27530; 27529; 27528; 4412] 0%Z [(1%Z, 380); (1%Z, 4858); (1%Z, 4413); ((-1)%Z, 4922); ((-2)%Z, 4412)] 10633823966279326983230456482242756608%Z 32%Z;
  Lin [379; 4857; 4412] [27527; 4921; 27526; 27525; 27524; 4411] 0%Z [(1%Z, 379); (1%Z, 4857); (1%Z, 4412); ((-1)%Z, 4921); ((-2)%Z, 4411)] 5316911983139663491615228241121378304%Z 64%Z;
  Lin [378; 4856; 4411] [27523; 4920; 27522; 27521; 27520; 4410] 0%Z [(1%Z, 378); (1%Z, 4856); (1%Z, 4411); ((-1)%Z, 4920); ((-2)%Z, 4410)] 2658455991569831745807614120560689152%Z 128%Z;
  Lin [377; 4855; 4410] [27519; 4919; 27518; 27517; 27516; 4409] 0%Z [(1%Z, 377); (1%Z, 4855); (1%Z, 4410); ((-1)%Z, 4919); ((-2)%Z, 4409)] 1329227995784915872903807060280344576%Z 256%Z;
  Lin [376; 4854; 4409] [27515; 4918; 27514; 27513; 27512; 4408] 0%Z [(1%Z, 376); (1%Z, 4854); (1%Z, 4409); ((-1)%Z, 4918); ((-2)%Z, 4408)] 664613997892457936451903530140172288%Z 512%Z;
  Lin [375; 4853; 4408] [27511; 4917; 27510; 27509; 27508; 4407] 0%Z [(1%Z, 375); (1%Z, 4853); (1%Z, 4408); ((-1)%Z, 4917); ((-2)%Z, 4407)] 332306998946228968225951765070086144%Z 1024%Z;
  Lin [374; 4852; 4407] [27507; 4916; 27506; 27505; 27504; 4406] 0%Z [(1%Z, 374); (1%Z, 4852); (1%Z, 4407); ((-1)%Z, 4916); ((-2)%Z, 4406)] 166153499473114484112975882535043072%Z 2048%Z;
  Lin [373; 4851; 4406] [27503; 4915; 27502; 27501; 27500; 4405] 0%Z [(1%Z, 373); (1%Z, 4851); (1%Z, 4406); ((-1)%Z, 4915); ((-2)%Z, 4405)] 83076749736557242056487941267521536%Z 4096%Z;
  Lin [372; 4850; 4405] [27499; 4914; 27498; 27497; 27496; 4404] 0%Z [(1%Z, 372); (1%Z, 4850); (1%Z, 4405); ((-1)%Z, 4914); ((-2)%Z, 4404)] 41538374868278621028243970633760768%Z 8192%Z;
  Lin [371; 4849; 4404] [27495; 4913; 27494; 27493; 27492; 4403] 0%Z [(1%Z, 371); (1%Z, 4849); (1%Z, 4404); ((-1)%Z, 4913); ((-2)%Z, 4403)] 20769187434139310514121985316880384%Z 16384%Z;
  Lin [370; 4848; 4403] [27491; 4912; 27490; 27489; 27488; 4402] 0%Z [(1%Z, 370); (1%Z, 4848); (1%Z, 4403); ((-1)%Z, 4912); ((-2)%Z, 4402)] 10384593717069655257060992658440192%Z 32768%Z;
  Lin [369; 4847; 4402] [27487; 4911; 27486; 27485; 27484; 4401] 0%Z [(1%Z, 369); (1%Z, 4847); (1%Z, 4402); ((-1)%Z, 4911); ((-2)%Z, 4401)] 5192296858534827628530496329220096%Z 65536%Z;
  Lin [368; 4846; 4401] [27483; 4910; 27482; 27481; 27480; 4400] 0%Z [(1%Z, 368); (1%Z, 4846); (1%Z, 4401); ((-1)%Z, 4910); ((-2)%Z, 4400)] 2596148429267413814265248164610048%Z 131072%Z;
  Lin [367; 4845; 4400] [27479; 4909; 27478; 27477; 27476; 4399] 0%Z [(1%Z, 367); (1%Z, 4845); (1%Z, 4400); ((-1)%Z, 4909); ((-2)%Z, 4399)] 1298074214633706907132624082305024%Z 262144%Z;
  Lin [366; 4844; 4399] [27475; 4908; 27474; 27473; 27472; 4398] 0%Z [(1%Z, 366); (1%Z, 4844); (1%Z, 4399); ((-1)%Z, 4908); ((-2)%Z, 4398)] 649037107316853453566312041152512%Z 524288%Z;
  Lin [365; 4843; 4398] [27471; 4907; 27470; 27469; 27468; 4397] 0%Z [(1%Z, 365); (1%Z, 4843); (1%Z, 4398); ((-1)%Z, 4907); ((-2)%Z, 4397)] 324518553658426726783156020576256%Z 1048576%Z;
  Lin [364; 4842; 4397] [27467; 4906; 27466; 27465; 27464; 4396] 0%Z [(1%Z, 364); (1%Z, 4842); (1%Z, 4397); ((-1)%Z, 4906); ((-2)%Z, 4396)] 162259276829213363391578010288128%Z 2097152%Z;
  Lin [363; 4841; 4396] [27463; 4905; 27462; 27461; 27460; 4395] 0%Z [(1%Z, 363); (1%Z, 4841); (1%Z, 4396); ((-1)%Z, 4905); ((-2)%Z, 4395)] 81129638414606681695789005144064%Z 4194304%Z;
  Lin [362; 4840; 4395] [27459; 4904; 27458; 27457; 27456; 4394] 0%Z [(1%Z, 362); (1%Z, 4840); (1%Z, 4395); ((-1)%Z, 4904); ((-2)%Z, 4394)] 40564819207303340847894502572032%Z 8388608%Z;
  Lin [361; 4839; 4394] [27455; 4903; 27454; 27453; 27452; 4393] 0%Z [(1%Z, 361); (1%Z, 4839); (1%Z, 4394); ((-1)%Z, 4903); ((-2)%Z, 4393)] 20282409603651670423947251286016%Z 16777216%Z;
  Lin [360; 4838; 4393] [27451; 4902; 27450; 27449; 27448; 4392] 0%Z [(1%Z, 360); (1%Z, 4838); (1%Z, 4393); ((-1)%Z, 4902); ((-2)%Z, 4392)] 10141204801825835211973625643008%Z 33554432%Z;
  Lin [359; 4837; 4392] [27447; 4901; 27446; 27445; 27444; 4391] 0%Z [(1%Z, 359); (1%Z, 4837); (1%Z, 4392); ((-1)%Z, 4901); ((-2)%Z, 4391)] 5070602400912917605986812821504%Z 67108864%Z;
  Lin [358; 4836; 4391] [27443; 4900; 27442; 27441; 27440; 4390] 0%Z [(1%Z, 358); (1%Z, 4836); (1%Z, 4391); ((-1)%Z, 4900); ((-2)%Z, 4390)] 2535301200456458802993406410752%Z 134217728%Z;
  Lin [357; 4835; 4390] [27439; 4899; 27438; 27437; 27436; 4389] 0%Z [(1%Z, 357); (1%Z, 4835); (1%Z, 4390); ((-1)%Z, 4899); ((-2)%Z, 4389)] 1267650600228229401496703205376%Z 268435456%Z;
  Lin [356; 4834; 4389] [27435; 4898; 27434; 27433; 27432; 4388] 0%Z [(1%Z, 356); (1%Z, 4834); (1%Z, 4389); ((-1)%Z, 4898); ((-2)%Z, 4388)] 633825300114114700748351602688%Z 536870912%Z;
  Lin [355; 4833; 4388] [27431; 4897; 27430; 27429; 27428; 4387] 0%Z [(1%Z, 355); (1%Z, 4833); (1%Z, 4388); ((-1)%Z, 4897); ((-2)%Z, 4387)] 316912650057057350374175801344%Z 1073741824%Z;
  Lin [354; 4832; 4387] [27427; 4896; 27426; 27425; 27424; 4386] 0%Z [(1%Z, 354); (1%Z, 4832); (1%Z, 4387); ((-1)%Z, 4896); ((-2)%Z, 4386)] 158456325028528675187087900672%Z 2147483648%Z;
  Lin [353; 4831; 4386] [27423; 4895; 27422; 27421; 27420; 4385] 0%Z [(1%Z, 353); (1%Z, 4831); (1%Z, 4386); ((-1)%Z, 4895); ((-2)%Z, 4385)] 79228162514264337593543950336%Z 4294967296%Z;
  Lin [352; 4830; 4385] [27419; 4894; 27418; 27417; 27416; 4384] 0%Z [(1%Z, 352); (1%Z, 4830); (1%Z, 4385); ((-1)%Z, 4894); ((-2)%Z, 4384)] 39614081257132168796771975168%Z 8589934592%Z;
  Lin [351; 4829; 4384] [27415; 4893; 27414; 27413; 27412; 4383] 0%Z [(1%Z, 351); (1%Z, 4829); (1%Z, 4384); ((-1)%Z, 4893); ((-2)%Z, 4383)] 19807040628566084398385987584%Z 17179869184%Z;
  Lin [350; 4828; 4383] [27411; 4892; 27410; 27409; 27408; 4382] 0%Z [(1%Z, 350); (1%Z, 4828); (1%Z, 4383); ((-1)%Z, 4892); ((-2)%Z, 4382)] 9903520314283042199192993792%Z 34359738368%Z;
  Lin [349; 4827; 4382] [27407; 4891; 27406; 27405; 27404; 4381] 0%Z [(1%Z, 349); (1%Z, 4827); (1%Z, 4382); ((-1)%Z, 4891); ((-2)%Z, 4381)] 4951760157141521099596496896%Z 68719476736%Z;
  Lin [348; 4826; 4381] [27403; 4890; 27402; 27401; 27400; 4380] 0%Z [(1%Z, 348); (1%Z, 4826); (1%Z, 4381); ((-1)%Z, 4890); ((-2)%Z, 4380)] 2475880078570760549798248448%Z 137438953472%Z;
  Lin [347; 4825; 4380] [27399; 4889; 27398; 27397; 27396; 4379] 0%Z [(1%Z, 347); (1%Z, 4825); (1%Z, 4380); ((-1)%Z, 4889); ((-2)%Z, 4379)] 1237940039285380274899124224%Z 274877906944%Z;
  Lin [346; 4824; 4379] [27395; 4888; 27394; 27393; 27392; 4378] 0%Z [(1%Z, 346); (1%Z, 4824); (1%Z, 4379); ((-1)%Z, 4888); ((-2)%Z, 4378)] 618970019642690137449562112%Z 549755813888%Z;
  Lin [345; 4823; 4378] [27391; 4887; 27390; 27389; 27388; 4377] 0%Z [(1%Z, 345); (1%Z, 4823); (1%Z, 4378); ((-1)%Z, 4887); ((-2)%Z, 4377)] 309485009821345068724781056%Z 1099511627776%Z;
  Lin [344; 4822; 4377] [27387; 4886; 27386; 27385; 27384; 4376] 0%Z [(1%Z, 344); (1%Z, 4822); (1%Z, 4377); ((-1)%Z, 4886); ((-2)%Z, 4376)] 154742504910672534362390528%Z 2199023255552%Z;
  Lin [343; 4821; 4376] [27383; 4885; 27382; 27381; 27380; 4375] 0%Z [(1%Z, 343); (1%Z, 4821); (1%Z, 4376); ((-1)%Z, 4885); ((-2)%Z, 4375)] 77371252455336267181195264%Z 4398046511104%Z;
  Lin [342; 4820; 4375] [27379; 4884; 27378; 27377; 27376; 4374] 0%Z [(1%Z, 342); (1%Z, 4820); (1%Z, 4375); ((-1)%Z, 4884); ((-2)%Z, 4374)] 38685626227668133590597632%Z 8796093022208%Z;
  Lin [341; 4819; 4374] [27375; 4883; 27374; 27373; 27372; 4373] 0%Z [(1%Z, 341); (1%Z, 4819); (1%Z, 4374); ((-1)%Z, 4883); ((-2)%Z, 4373)] 19342813113834066795298816%Z 17592186044416%Z;
  Lin [340; 4818; 4373] [27371; 4882; 27370; 27369; 27368; 4372] 0%Z [(1%Z, 340); (1%Z, 4818); (1%Z, 4373); ((-1)%Z, 4882); ((-2)%Z, 4372)] 9671406556917033397649408%Z 35184372088832%Z;
  Lin [339; 4817; 4372] [27367; 4881; 27366; 27365; 27364; 4371] 0%Z [(1%Z, 339); (1%Z, 4817); (1%Z, 4372); ((-1)%Z, 4881); ((-2)%Z, 4371)] 4835703278458516698824704%Z 70368744177664%Z;
  Lin [338; 4816; 4371] [27363; 4880; 27362; 27361; 27360; 4370] 0%Z [(1%Z, 338); (1%Z, 4816); (1%Z, 4371); ((-1)%Z, 4880); ((-2)%Z, 4370)] 2417851639229258349412352%Z 140737488355328%Z;
  Lin [337; 4815; 4370] [27359; 4879; 27358; 27357; 27356; 4369] 0%Z [(1%Z, 337); (1%Z, 4815); (1%Z, 4370); ((-1)%Z, 4879); ((-2)%Z, 4369)] 1208925819614629174706176%Z 281474976710656%Z;
  Lin [336; 4814; 4369] [27355; 4878; 27354; 27353; 27352; 4368] 0%Z [(1%Z, 336); (1%Z, 4814); (1%Z, 4369); ((-1)%Z, 4878); ((-2)%Z, 4368)] 604462909807314587353088%Z 562949953421312%Z;
  Lin [335; 4813; 4368] [27351; 4877; 27350; 27349; 27348; 4367] 0%Z [(1%Z, 335); (1%Z, 4813); (1%Z, 4368); ((-1)%Z, 4877); ((-2)%Z, 4367)] 302231454903657293676544%Z 1125899906842624%Z;
  Lin [334; 4812; 4367] [27347; 4876; 27346; 27345; 27344; 4366] 0%Z [(1%Z, 334); (1%Z, 4812); (1%Z, 4367); ((-1)%Z, 4876); ((-2)%Z, 4366)] 151115727451828646838272%Z 2251799813685248%Z;
  Lin [333; 4811; 4366] [27343; 4875; 27342; 27341; 27340; 4365] 0%Z [(1%Z, 333); (1%Z, 4811); (1%Z, 4366); ((-1)%Z, 4875); ((-2)%Z, 4365)] 75557863725914323419136%Z 4503599627370496%Z;
  Lin [332; 4810; 4365] [27339; 4874; 27338; 27337; 27336; 4364] 0%Z [(1%Z, 332); (1%Z, 4810); (1%Z, 4365); ((-1)%Z, 4874); ((-2)%Z, 4364)] 37778931862957161709568%Z 9007199254740992%Z;
  Lin [331; 4809; 4364] [27335; 4873; 27334; 27333; 27332; 4363] 0%Z [(1%Z, 331); (1%Z, 4809); (1%Z, 4364); ((-1)%Z, 4873); ((-2)%Z, 4363)] 18889465931478580854784%Z 18014398509481984%Z;
  Lin [330; 4808; 4363] [27331; 4872; 27330; 27329; 27328; 4362] 0%Z [(1%Z, 330); (1%Z, 4808); (1%Z, 4363); ((-1)%Z, 4872); ((-2)%Z, 4362)] 9444732965739290427392%Z 36028797018963968%Z;
  Lin [329; 4807; 4362] [27327; 4871; 27326; 27325; 27324; 4361] 0%Z [(1%Z, 329); (1%Z, 4807); (1%Z, 4362); ((-1)%Z, 4871); ((-2)%Z, 4361)] 4722366482869645213696%Z 72057594037927936%Z;
  Lin [328; 4806; 4361] [27323; 4870; 27322; 27321; 27320; 4360] 0%Z [(1%Z, 328); (1%Z, 4806); (1%Z, 4361); ((-1)%Z, 4870); ((-2)%Z, 4360)] 2361183241434822606848%Z 144115188075855872%Z;
  Lin [327; 4805; 4360] [27319; 4869; 27318; 27317; 27316; 4359] 0%Z [(1%Z, 327); (1%Z, 4805); (1%Z, 4360); ((-1)%Z, 4869); ((-2)%Z, 4359)] 1180591620717411303424%Z 288230376151711744%Z;
  Lin [326; 4804; 4359] [27315; 4868; 27314; 27313; 27312; 4358] 0%Z [(1%Z, 326); (1%Z, 4804); (1%Z, 4359); ((-1)%Z, 4868); ((-2)%Z, 4358)] 590295810358705651712%Z 576460752303423488%Z;
  Lin [325; 4803; 4358] [27311; 4867; 27310; 27309; 27308; 4357] 0%Z [(1%Z, 325); (1%Z, 4803); (1%Z, 4358); ((-1)%Z, 4867); ((-2)%Z, 4357)] 295147905179352825856%Z 1152921504606846976%Z;
  Lin [324; 4802; 4357] [27307; 4866; 27306; 27305; 27304; 4356] 0%Z [(1%Z, 324); (1%Z, 4802); (1%Z, 4357); ((-1)%Z, 4866); ((-2)%Z, 4356)] 147573952589676412928%Z 2305843009213693952%Z;
  Lin [323; 4801; 4356] [27303; 4865; 27302; 27301; 27300; 4355] 0%Z [(1%Z, 323); (1%Z, 4801); (1%Z, 4356); ((-1)%Z, 4865); ((-2)%Z, 4355)] 73786976294838206464%Z 4611686018427387904%Z;
  Lin [322; 4800; 4355] [27299; 4864; 27298; 27297; 27296; 4354] 0%Z [(1%Z, 322); (1%Z, 4800); (1%Z, 4355); ((-1)%Z, 4864); ((-2)%Z, 4354)] 36893488147419103232%Z 9223372036854775808%Z;
  Lin [321; 4799; 4354] [27295; 4863; 27294; 27293; 27292; 4353] 0%Z [(1%Z, 321); (1%Z, 4799); (1%Z, 4354); ((-1)%Z, 4863); ((-2)%Z, 4353)] 18446744073709551616%Z 18446744073709551616%Z;
  Lin [320; 4798; 4353] [27291; 4862; 27290; 27289; 27288; 4352] 0%Z [(1%Z, 320); (1%Z, 4798); (1%Z, 4353); ((-1)%Z, 4862); ((-2)%Z, 4352)] 9223372036854775808%Z 36893488147419103232%Z;
  Lin [319; 4287; 4352] [27287; 4861; 27286; 27285; 27284; 4351] 0%Z [(1%Z, 319); (1%Z, 4287); (1%Z, 4352); ((-1)%Z, 4861); ((-2)%Z, 4351)] 4611686018427387904%Z 73786976294838206464%Z;
  Lin [446; 4923] [28100; 4478] 0%Z [(1%Z, 446); (1%Z, 4923); ((-1)%Z, 28100); ((-2)%Z, 4478)] 21267647932558653966460912964485513216%Z 16%Z;
  Lin [445; 4922; 4478] [27283; 4986; 27282; 27281; 27280; 4477] 0%Z [(1%Z, 445); (1%Z, 4922); (1%Z, 4478); ((-1)%Z, 4986); ((-2)%Z, 4477)] 10633823966279326983230456482242756608%Z 32%Z;
  Lin [444; 4921; 4477] [27279; 4985; 27278; 27277; 27276; 4476] 0%Z [(1%Z, 444); (1%Z, 4921); (1%Z, 4477); ((-1)%Z, 4985); ((-2)%Z, 4476)] 5316911983139663491615228241121378304%Z 64%Z;
  Lin [443; 4920; 4476] [27275; 4984; 27274; 27273; 27272; 4475] 0%Z [(1%Z, 443); (1%Z, 4920); (1%Z, 4476); ((-1)%Z, 4984); ((-2)%Z, 4475)] 2658455991569831745807614120560689152%Z 128%Z;
  Lin [442; 4919; 4475] [27271; 4983; 27270; 27269; 27268; 4474] 0%Z [(1%Z, 442); (1%Z, 4919); (1%Z, 4475); ((-1)%Z, 4983); ((-2)%Z, 4474)] 1329227995784915872903807060280344576%Z 256%Z;
  Lin [441; 4918; 4474] [27267; 4982; 27266; 27265; 27264; 4473] 0%Z [(1%Z, 441); (1%Z, 4918); (1%Z, 4474); ((-1)%Z, 4982); ((-2)%Z, 4473)] 664613997892457936451903530140172288%Z 512%Z;
  Lin [440; 4917; 4473] [27263; 4981; 27262; 27261; 27260; 4472] 0%Z [(1%Z, 440); (1%Z, 4917); (1%Z, 4473); ((-1)%Z, 4981); ((-2)%Z, 4472)] 332306998946228968225951765070086144%Z 1024%Z;
  Lin [439; 4916; 4472] [27259; 4980; 27258; 27257; 27256; 4471] 0%Z [(1%Z, 439); (1%Z, 4916); (1%Z, 4472); ((-1)%Z, 4980); ((-2)%Z, 4471)] 166153499473114484112975882535043072%Z 2048%Z].
Definition mult2_64_facts_2 : list lin_fact := [
  Lin [438; 4915; 4471] [27255; 4979; 27254; 27253; 27252; 4470] 0%Z [(1%Z, 438); (1%Z, 4915); (1%Z, 4471); ((-1)%Z, 4979); ((-2)%Z, 4470)] 83076749736557242056487941267521536%Z 4096%Z;
  Lin [437; 4914; 4470] [27251; 4978; 27250; 27249; 27248; 4469] 0%Z [(1%Z, 437); (1%Z, 4914); (1%Z, 4470); ((-1)%Z, 4978); ((-2)%Z, 4469)] 41538374868278621028243970633760768%Z 8192%Z;
  Lin [436; 4913; 4469] [27247; 4977; 27246; 27245; 27244; 4468] 0%Z [(1%Z, 436); (1%Z, 4913); (1%Z, 4469); ((-1)%Z, 4977); ((-2)%Z, 4468)] 20769187434139310514121985316880384%Z 16384%Z;
  Lin [435; 4912; 4468] [27243; 4976; 27242; 27241; 27240; 4467] 0%Z [(1%Z, 435); (1%Z, 4912); (1%Z, 4468); ((-1)%Z, 4976); ((-2)%Z, 4467)] 10384593717069655257060992658440192%Z 32768%Z;
  Lin [434; 4911; 4467] [27239; 4975; 27238; 27237; 27236; 4466] 0%Z [(1%Z, 434); (1%Z, 4911); (1%Z, 4467); ((-1)%Z, 4975); ((-2)%Z, 4466)] 5192296858534827628530496329220096%Z 65536%Z;
  Lin [433; 4910; 4466] [27235; 4974; 27234; 27233; 27232; 4465] 0%Z [(1%Z, 433); (1%Z, 4910); (1%Z, 4466); ((-1)%Z, 4974); ((-2)%Z, 4465)] 2596148429267413814265248164610048%Z 131072%Z;
  Lin [432; 4909; 4465] [27231; 4973; 27230; 27229; 27228; 4464] 0%Z [(1%Z, 432); (1%Z, 4909); (1%Z, 4465); ((-1)%Z, 4973); ((-2)%Z, 4464)] 1298074214633706907132624082305024%Z 262144%Z;
  Lin [431; 4908; 4464] [27227; 4972; 27226; 27225; 27224; 4463] 0%Z [(1%Z, 431); (1%Z, 4908); (1%Z, 4464); ((-1)%Z, 4972); ((-2)%Z, 4463)] 649037107316853453566312041152512%Z 524288%Z;
  Lin [430; 4907; 4463] [27223; 4971; 27222; 27221; 27220; 4462] 0%Z [(1%Z, 430); (1%Z, 4907); (1%Z, 4463); ((-1)%Z, 4971); ((-2)%Z, 4462)] 324518553658426726783156020576256%Z 1048576%Z;
  Lin [429; 4906; 4462] [27219; 4970; 27218; 27217; 27216; 4461] 0%Z [(1%Z, 429); (1%Z, 4906); (1%Z, 4462); ((-1)%Z, 4970); ((-2)%Z, 4461)] 162259276829213363391578010288128%Z 2097152%Z;
  Lin [428; 4905; 4461] [27215; 4969; 27214; 27213; 27212; 4460] 0%Z [(1%Z, 428); (1%Z, 4905); (1%Z, 4461); ((-1)%Z, 4969); ((-2)%Z, 4460)] 81129638414606681695789005144064%Z 4194304%Z;
  Lin [427; 4904; 4460] [27211; 4968; 27210; 27209; 27208; 4459] 0%Z [(1%Z, 427); (1%Z, 4904); (1%Z, 4460); ((-1)%Z, 4968); ((-2)%Z, 4459)] 40564819207303340847894502572032%Z 8388608%Z;
  Lin [426; 4903; 4459] [27207; 4967; 27206; 27205; 27204; 4458] 0%Z [(1%Z, 426); (1%Z, 4903); (1%Z, 4459); ((-1)%Z, 4967); ((-2)%Z, 4458)] 20282409603651670423947251286016%Z 16777216%Z;
  Lin [425; 4902; 4458] [27203; 4966; 27202; 27201; 27200; 4457] 0%Z [(1%Z, 425); (1%Z, 4902); (1%Z, 4458); ((-1)%Z, 4966); ((-2)%Z, 4457)] 10141204801825835211973625643008%Z 33554432%Z;
  Lin [424; 4901; 4457] [27199; 4965; 27198; 27197; 27196; 4456] 0%Z [(1%Z, 424); (1%Z, 4901); (1%Z, 4457); ((-1)%Z, 4965); ((-2)%Z, 4456)] 5070602400912917605986812821504%Z 67108864%Z;
  Lin [423; 4900; 4456] [27195; 4964; 27194; 27193; 27192; 4455] 0%Z [(1%Z, 423); (1%Z, 4900); (1%Z, 4456); ((-1)%Z, 4964); ((-2)%Z, 4455)] 2535301200456458802993406410752%Z 134217728%Z;
  Lin [422; 4899; 4455] [27191; 4963; 27190; 27189; 27188; 4454] 0%Z [(1%Z, 422); (1%Z, 4899); (1%Z, 4455); ((-1)%Z, 4963); ((-2)%Z, 4454)] 1267650600228229401496703205376%Z 268435456%Z;
  Lin [421; 4898; 4454] [27187; 4962; 27186; 27185; 27184; 4453] 0%Z [(1%Z, 421); (1%Z, 4898); (1%Z, 4454); ((-1)%Z, 4962); ((-2)%Z, 4453)] 633825300114114700748351602688%Z 536870912%Z;
  Lin [420; 4897; 4453] [27183; 4961; 27182; 27181; 27180; 4452] 0%Z [(1%Z, 420); (1%Z, 4897); (1%Z, 4453); ((-1)%Z, 4961); ((-2)%Z, 4452)] 316912650057057350374175801344%Z 1073741824%Z;
  Lin [419; 4896; 4452] [27179; 4960; 27178; 27177; 27176; 4451] 0%Z [(1%Z, 419); (1%Z, 4896); (1%Z, 4452); ((-1)%Z, 4960); ((-2)%Z, 4451)] 158456325028528675187087900672%Z 2147483648%Z;
  Lin [418; 4895; 4451] [27175; 4959; 27174; 27173; 27172; 4450] 0%Z [(1%Z, 418); (1%Z, 4895); (1%Z, 4451); ((-1)%Z, 4959); ((-2)%Z, 4450)] 79228162514264337593543950336%Z 4294967296%Z;
  Lin [417; 4894; 4450] [27171; 4958; 27170; 27169; 27168; 4449] 0%Z [(1%Z, 417); (1%Z, 4894); (1%Z, 4450); ((-1)%Z, 4958); ((-2)%Z, 4449)] 39614081257132168796771975168%Z 8589934592%Z;
  Lin [416; 4893; 4449] [27167; 4957; 27166; 27165; 27164; 4448] 0%Z [(1%Z, 416); (1%Z, 4893); (1%Z, 4449); ((-1)%Z, 4957); ((-2)%Z, 4448)] 19807040628566084398385987584%Z 17179869184%Z;
  Lin [415; 4892; 4448] [27163; 4956; 27162; 27161; 27160; 4447] 0%Z [(1%Z, 415); (1%Z, 4892); (1%Z, 4448); ((-1)%Z, 4956); ((-2)%Z, 4447)] 9903520314283042199192993792%Z 34359738368%Z;
  Lin [414; 4891; 4447] [27159; 4955; 27158; 27157; 27156; 4446] 0%Z [(1%Z, 414); (1%Z, 4891); (1%Z, 4447); ((-1)%Z, 4955); ((-2)%Z, 4446)] 4951760157141521099596496896%Z 68719476736%Z;
  Lin [413; 4890; 4446] [27155; 4954; 27154; 27153; 27152; 4445] 0%Z [(1%Z, 413); (1%Z, 4890); (1%Z, 4446); ((-1)%Z, 4954); ((-2)%Z, 4445)] 2475880078570760549798248448%Z 137438953472%Z;
  Lin [412; 4889; 4445] [27151; 4953; 27150; 27149; 27148; 4444] 0%Z [(1%Z, 412); (1%Z, 4889); (1%Z, 4445); ((-1)%Z, 4953); ((-2)%Z, 4444)] 1237940039285380274899124224%Z 274877906944%Z;
  Lin [411; 4888; 4444] [27147; 4952; 27146; 27145; 27144; 4443] 0%Z [(1%Z, 411); (1%Z, 4888); (1%Z, 4444); ((-1)%Z, 4952); ((-2)%Z, 4443)] 618970019642690137449562112%Z 549755813888%Z;
  Lin [410; 4887; 4443] [27143; 4951; 27142; 27141; 27140; 4442] 0%Z [(1%Z, 410); (1%Z, 4887); (1%Z, 4443); ((-1)%Z, 4951); ((-2)%Z, 4442)] 309485009821345068724781056%Z 1099511627776%Z;
  Lin [409; 4886; 4442] [27139; 4950; 27138; 27137; 27136; 4441] 0%Z [(1%Z, 409); (1%Z, 4886); (1%Z, 4442); ((-1)%Z, 4950); ((-2)%Z, 4441)] 154742504910672534362390528%Z 2199023255552%Z;
  Lin [408; 4885; 4441] [27135; 4949; 27134; 27133; 27132; 4440] 0%Z [(1%Z, 408); (1%Z, 4885); (1%Z, 4441); ((-1)%Z, 4949); ((-2)%Z, 4440)] 77371252455336267181195264%Z 4398046511104%Z;
  Lin [407; 4884; 4440] [27131; 4948; 27130; 27129; 27128; 4439] 0%Z [(1%Z, 407); (1%Z, 4884); (1%Z, 4440); ((-1)%Z, 4948); ((-2)%Z, 4439)] 38685626227668133590597632%Z 8796093022208%Z;
  Lin [406; 4883; 4439] [27127; 4947; 27126; 27125; 27124; 4438] 0%Z [(1%Z, 406); (1%Z, 4883); (1%Z, 4439); ((-1)%Z, 4947); ((-2)%Z, 4438)] 19342813113834066795298816%Z 17592186044416%Z;
  Lin [405; 4882; 4438] [27123; 4946; 27122; 27121; 27120; 4437] 0%Z [(1%Z, 405); (1%Z, 4882); (1%Z, 4438); ((-1)%Z, 4946); ((-2)%Z, 4437)] 9671406556917033397649408%Z 35184372088832%Z;
  Lin [404; 4881; 4437] [27119; 4945; 27118; 27117; 27116; 4436] 0%Z [(1%Z, 404); (1%Z, 4881); (1%Z, 4437); ((-1)%Z, 4945); ((-2)%Z, 4436)] 4835703278458516698824704%Z 70368744177664%Z;
  Lin [403; 4880; 4436] [27115; 4944; 27114; 27113; 27112; 4435] 0%Z [(1%Z, 403); (1%Z, 4880); (1%Z, 4436); ((-1)%Z, 4944); ((-2)%Z, 4435)] 2417851639229258349412352%Z 140737488355328%Z;
  Lin [402; 4879; 4435] [27111; 4943; 27110; 27109; 27108; 4434] 0%Z [(1%Z, 402); (1%Z, 4879); (1%Z, 4435); ((-1)%Z, 4943); ((-2)%Z, 4434)] 1208925819614629174706176%Z 281474976710656%Z;
  Lin [401; 4878; 4434] [27107; 4942; 27106; 27105; 27104; 4433] 0%Z [(1%Z, 401); (1%Z, 4878); (1%Z, 4434); ((-1)%Z, 4942); ((-2)%Z, 4433)] 604462909807314587353088%Z 562949953421312%Z;
  Lin [400; 4877; 4433] [27103; 4941; 27102; 27101; 27100; 4432] 0%Z [(1%Z, 400); (1%Z, 4877); (1%Z, 4433); ((-1)%Z, 4941); ((-2)%Z, 4432)] 302231454903657293676544%Z 1125899906842624%Z;
  Lin [399; 4876; 4432] [27099; 4940; 27098; 27097; 27096; 4431] 0%Z [(1%Z, 399); (1%Z, 4876); (1%Z, 4432); ((-1)%Z, 4940); ((-2)%Z, 4431)] 151115727451828646838272%Z 2251799813685248%Z;
  Lin [398; 4875; 4431] [27095; 4939; 27094; 27093; 27092; 4430] 0%Z [(1%Z, 398); (1%Z, 4875); (1%Z, 4431); ((-1)%Z, 4939); ((-2)%Z, 4430)] 75557863725914323419136%Z 4503599627370496%Z;
  Lin [397; 4874; 4430] [27091; 4938; 27090; 27089; 27088; 4429] 0%Z [(1%Z, 397); (1%Z, 4874); (1%Z, 4430); ((-1)%Z, 4938); ((-2)%Z, 4429)] 37778931862957161709568%Z 9007199254740992%Z;
  Lin [396; 4873; 4429] [27087; 4937; 27086; 27085; 27084; 4428] 0%Z [(1%Z, 396); (1%Z, 4873); (1%Z, 4429); ((-1)%Z, 4937); ((-2)%Z, 4428)] 18889465931478580854784%Z 18014398509481984%Z;
  Lin [395; 4872; 4428] [27083; 4936; 27082; 27081; 27080; 4427] 0%Z [(1%Z, 395); (1%Z, 4872); (1%Z, 4428); ((-1)%Z, 4936); ((-2)%Z, 4427)] 9444732965739290427392%Z 36028797018963968%Z;
  Lin [394; 4871; 4427] [27079; 4935; 27078; 27077; 27076; 4426] 0%Z [(1%Z, 394); (1%Z, 4871); (1%Z, 4427); ((-1)%Z, 4935); ((-2)%Z, 4426)] 4722366482869645213696%Z 72057594037927936%Z;
  Lin [393; 4870; 4426] [27075; 4934; 27074; 27073; 27072; 4425] 0%Z [(1%Z, 393); (1%Z, 4870); (1%Z, 4426); ((-1)%Z, 4934); ((-2)%Z, 4425)] 2361183241434822606848%Z 144115188075855872%Z;
  Lin [392; 4869; 4425] [27071; 4933; 27070; 27069; 27068; 4424] 0%Z [(1%Z, 392); (1%Z, 4869); (1%Z, 4425); ((-1)%Z, 4933); ((-2)%Z, 4424)] 1180591620717411303424%Z 288230376151711744%Z;
  Lin [391; 4868; 4424] [27067; 4932; 27066; 27065; 27064; 4423] 0%Z [(1%Z, 391); (1%Z, 4868); (1%Z, 4424); ((-1)%Z, 4932); ((-2)%Z, 4423)] 590295810358705651712%Z 576460752303423488%Z;
  Lin [390; 4867; 4423] [27063; 4931; 27062; 27061; 27060; 4422] 0%Z [(1%Z, 390); (1%Z, 4867); (1%Z, 4423); ((-1)%Z, 4931); ((-2)%Z, 4422)] 295147905179352825856%Z 1152921504606846976%Z;
  Lin [389; 4866; 4422] [27059; 4930; 27058; 27057; 27056; 4421] 0%Z [(1%Z, 389); (1%Z, 4866); (1%Z, 4422); ((-1)%Z, 4930); ((-2)%Z, 4421)] 147573952589676412928%Z 2305843009213693952%Z;
  Lin [388; 4865; 4421] [27055; 4929; 27054; 27053; 27052; 4420] 0%Z [(1%Z, 388); (1%Z, 4865); (1%Z, 4421); ((-1)%Z, 4929); ((-2)%Z, 4420)] 73786976294838206464%Z 4611686018427387904%Z;
  Lin [387; 4864; 4420] [27051; 4928; 27050; 27049; 27048; 4419] 0%Z [(1%Z, 387); (1%Z, 4864); (1%Z, 4420); ((-1)%Z, 4928); ((-2)%Z, 4419)] 36893488147419103232%Z 9223372036854775808%Z;
  Lin [386; 4863; 4419] [27047; 4927; 27046; 27045; 27044; 4418] 0%Z [(1%Z, 386); (1%Z, 4863); (1%Z, 4419); ((-1)%Z, 4927); ((-2)%Z, 4418)] 18446744073709551616%Z 18446744073709551616%Z;
  Lin [385; 4862; 4418] [27043; 4926; 27042; 27041; 27040; 4417] 0%Z [(1%Z, 385); (1%Z, 4862); (1%Z, 4418); ((-1)%Z, 4926); ((-2)%Z, 4417)] 9223372036854775808%Z 36893488147419103232%Z;
  Lin [384; 4861; 4417] [27039; 4925; 27038; 27037; 27036; 4416] 0%Z [(1%Z, 384); (1%Z, 4861); (1%Z, 4417); ((-1)%Z, 4925); ((-2)%Z, 4416)] 4611686018427387904%Z 73786976294838206464%Z;
  Lin [383; 4351; 4416] [27035; 4924; 27034; 27033; 27032; 4415] 0%Z [(1%Z, 383); (1%Z, 4351); (1%Z, 4416); ((-1)%Z, 4924); ((-2)%Z, 4415)] 2305843009213693952%Z 147573952589676412928%Z;
  Lin [510; 4986] [28101; 4542] 0%Z [(1%Z, 510); (1%Z, 4986); ((-1)%Z, 28101); ((-2)%Z, 4542)] 10633823966279326983230456482242756608%Z 32%Z;
  Lin [509; 4985; 4542] [27031; 5049; 27030; 27029; 27028; 4541] 0%Z [(1%Z, 509); (1%Z, 4985); (1%Z, 4542); ((-1)%Z, 5049); ((-2)%Z, 4541)] 5316911983139663491615228241121378304%Z 64%Z;
  Lin [508; 4984; 4541] [27027; 5048; 27026; 27025; 27024; 4540] 0%Z [(1%Z, 508); (1%Z, 4984); (1%Z, 4541); ((-1)%Z, 5048); ((-2)%Z, 4540)] 2658455991569831745807614120560689152%Z 128%Z;
  Lin [507; 4983; 4540] [27023; 5047; 27022; 27021; 27020; 4539] 0%Z [(1%Z, 507); (1%Z, 4983); (1%Z, 4540); ((-1)%Z, 5047); ((-2)%Z, 4539)] 1329227995784915872903807060280344576%Z 256%Z;
  Lin [506; 4982; 4539] [27019; 5046; 27018; 27017; 27016; 4538] 0%Z [(1%Z, 506); (1%Z, 4982); (1%Z, 4539); ((-1)%Z, 5046); ((-2)%Z, 4538)] 664613997892457936451903530140172288%Z 512%Z;
  Lin [505; 4981; 4538] [27015; 5045; 27014; 27013; 27012; 4537] 0%Z [(1%Z, 505); (1%Z, 4981); (1%Z, 4538); ((-1)%Z, 5045); ((-2)%Z, 4537)] 332306998946228968225951765070086144%Z 1024%Z;
  Lin [504; 4980; 4537] [27011; 5044; 27010; 27009; 27008; 4536] 0%Z [(1%Z, 504); (1%Z, 4980); (1%Z, 4537); ((-1)%Z, 5044); ((-2)%Z, 4536)] 166153499473114484112975882535043072%Z 2048%Z;
  Lin [503; 4979; 4536] [27007; 5043; 27006; 27005; 27004; 4535] 0%Z [(1%Z, 503); (1%Z, 4979); (1%Z, 4536); ((-1)%Z, 5043); ((-2)%Z, 4535)] 83076749736557242056487941267521536%Z 4096%Z;
  Lin [502; 4978; 4535] [27003; 5042; 27002; 27001; 27000; 4534] 0%Z [(1%Z, 502); (1%Z, 4978); (1%Z, 4535); ((-1)%Z, 5042); ((-2)%Z, 4534)] 41538374868278621028243970633760768%Z 8192%Z;
  Lin [501; 4977; 4534] [26999; 5041; 26998; 26997; 26996; 4533] 0%Z [(1%Z, 501); (1%Z, 4977); (1%Z, 4534); ((-1)%Z, 5041); ((-2)%Z, 4533)] 20769187434139310514121985316880384%Z 16384%Z;
  Lin [500; 4976; 4533] [26995; 5040; 26994; 26993; 26992; 4532] 0%Z [(1%Z, 500); (1%Z, 4976); (1%Z, 4533); ((-1)%Z, 5040); ((-2)%Z, 4532)] 10384593717069655257060992658440192%Z 32768%Z;
  Lin [499; 4975; 4532] [26991; 5039; 26990; 26989; 26988; 4531] 0%Z [(1%Z, 499); (1%Z, 4975); (1%Z, 4532); ((-1)%Z, 5039); ((-2)%Z, 4531)] 5192296858534827628530496329220096%Z 65536%Z;
  Lin [498; 4974; 4531] [26987; 5038; 26986; 26985; 26984; 4530] 0%Z [(1%Z, 498); (1%Z, 4974); (1%Z, 4531); ((-1)%Z, 5038); ((-2)%Z, 4530)] 2596148429267413814265248164610048%Z 131072%Z;
  Lin [497; 4973; 4530] [26983; 5037; 26982; 26981; 26980; 4529] 0%Z [(1%Z, 497); (1%Z, 4973); (1%Z, 4530); ((-1)%Z, 5037); ((-2)%Z, 4529)] 1298074214633706907132624082305024%Z 262144%Z;
  Lin [496; 4972; 4529] [26979; 5036; 26978; 26977; 26976; 4528] 0%Z [(1%Z, 496); (1%Z, 4972); (1%Z, 4529); ((-1)%Z, 5036); ((-2)%Z, 4528)] 649037107316853453566312041152512%Z 524288%Z;
  Lin [495; 4971; 4528] [26975; 5035; 26974; 26973; 26972; 4527] 0%Z [(1%Z, 495); (1%Z, 4971); (1%Z, 4528); ((-1)%Z, 5035); ((-2)%Z, 4527)] 324518553658426726783156020576256%Z 1048576%Z;
  Lin [494; 4970; 4527] [26971; 5034; 26970; 26969; 26968; 4526] 0%Z [(1%Z, 494); (1%Z, 4970); (1%Z, 4527); ((-1)%Z, 5034); ((-2)%Z, 4526)] 162259276829213363391578010288128%Z 2097152%Z;
  Lin [493; 4969; 4526] [26967; 5033; 26966; 26965; 26964; 4525] 0%Z [(1%Z, 493); (1%Z, 4969); (1%Z, 4526); ((-1)%Z, 5033); ((-2)%Z, 4525)] 81129638414606681695789005144064%Z 4194304%Z;
  Lin [492; 4968; 4525] [26963; 5032; 26962; 26961; 26960; 4524] 0%Z [(1%Z, 492); (1%Z, 4968); (1%Z, 4525); ((-1)%Z, 5032); ((-2)%Z, 4524)] 40564819207303340847894502572032%Z 8388608%Z;
  Lin [491; 4967; 4524] [26959; 5031; 26958; 26957; 26956; 4523] 0%Z [(1%Z, 491); (1%Z, 4967); (1%Z, 4524); ((-1)%Z, 5031); ((-2)%Z, 4523)] 20282409603651670423947251286016%Z 16777216%Z;
  Lin [490; 4966; 4523] [26955; 5030; 26954; 26953; 26952; 4522] 0%Z [(1%Z, 490); (1%Z, 4966); (1%Z, 4523); ((-1)%Z, 5030); ((-2)%Z, 4522)] 10141204801825835211973625643008%Z 33554432%Z;
  Lin [489; 4965; 4522] [26951; 5029; 26950; 26949; 26948; 4521] 0%Z [(1%Z, 489); (1%Z, 4965); (1%Z, 4522); ((-1)%Z, 5029); ((-2)%Z, 4521)] 5070602400912917605986812821504%Z 67108864%Z;
  Lin [488; 4964; 4521] [26947; 5028; 26946; 26945; 26944; 4520] 0%Z [(1%Z, 488); (1%Z, 4964); (1%Z, 4521); ((-1)%Z, 5028); ((-2)%Z, 4520)] 2535301200456458802993406410752%Z 134217728%Z;
  Lin [487; 4963; 4520] [26943; 5027; 26942; 26941; 26940; 4519] 0%Z [(1%Z, 487); (1%Z, 4963); (1%Z, 4520); ((-1)%Z, 5027); ((-2)%Z, 4519)] 1267650600228229401496703205376%Z 268435456%Z;
  Lin [486; 4962; 4519] [26939; 5026; 26938; 26937; 26936; 4518] 0%Z [(1%Z, 486); (1%Z, 4962); (1%Z, 4519); ((-1)%Z, 5026); ((-2)%Z, 4518)] 633825300114114700748351602688%Z 536870912%Z;
  Lin [485; 4961; 4518] [26935; 5025; 26934; 26933; 26932; 4517] 0%Z [(1%Z, 485); (1%Z, 4961); (1%Z, 4518); ((-1)%Z, 5025); ((-2)%Z, 4517)] 316912650057057350374175801344%Z 1073741824%Z;
  Lin [484; 4960; 4517] [26931; 5024; 26930; 26929; 26928; 4516] 0%Z [(1%Z, 484); (1%Z, 4960); (1%Z, 4517); ((-1)%Z, 5024); ((-2)%Z, 4516)] 158456325028528675187087900672%Z 2147483648%Z;
  Lin [483; 4959; 4516] [26927; 5023; 26926; 26925; 26924; 4515] 0%Z [(1%Z, 483); (1%Z, 4959); (1%Z, 4516); ((-1)%Z, 5023); ((-2)%Z, 4515)] 79228162514264337593543950336%Z 4294967296%Z;
  Lin [482; 4958; 4515] [26923; 5022; 26922; 26921; 26920; 4514] 0%Z [(1%Z, 482); (1%Z, 4958); (1%Z, 4515); ((-1)%Z, 5022); ((-2)%Z, 4514)] 39614081257132168796771975168%Z 8589934592%Z;
  Lin [481; 4957; 4514] [26919; 5021; 26918; 26917; 26916; 4513] 0%Z [(1%Z, 481); (1%Z, 4957); (1%Z, 4514); ((-1)%Z, 5021); ((-2)%Z, 4513)] 19807040628566084398385987584%Z 17179869184%Z;
  Lin [480; 4956; 4513] [26915; 5020; 26914; 26913; 26912; 4512] 0%Z [(1%Z, 480); (1%Z, 4956); (1%Z, 4513); ((-1)%Z, 5020); ((-2)%Z, 4512)] 9903520314283042199192993792%Z 34359738368%Z;
  Lin [479; 4955; 4512] [26911; 5019; 26910; 26909; 26908; 4511] 0%Z [(1%Z, 479); (1%Z, 4955); (1%Z, 4512); ((-1)%Z, 5019); ((-2)%Z, 4511)] 4951760157141521099596496896%Z 68719476736%Z;
  Lin [478; 4954; 4511] [26907; 5018; 26906; 26905; 26904; 4510] 0%Z [(1%Z, 478); (1%Z, 4954); (1%Z, 4511); ((-1)%Z, 5018); ((-2)%Z, 4510)] 2475880078570760549798248448%Z 137438953472%Z;
  Lin [477; 4953; 4510] [26903; 5017; 26902; 26901; 26900; 4509] 0%Z [(1%Z, 477); (1%Z, 4953); (1%Z, 4510); ((-1)%Z, 5017); ((-2)%Z, 4509)] 1237940039285380274899124224%Z 274877906944%Z;
  Lin [476; 4952; 4509] [26899; 5016; 26898; 26897; 26896; 4508] 0%Z [(1%Z, 476); (1%Z, 4952); (1%Z, 4509); ((-1)%Z, 5016); ((-2)%Z, 4508)] 618970019642690137449562112%Z 549755813888%Z;
  Lin [475; 4951; 4508] [26895; 5015; 26894; 26893; 26892; 4507] 0%Z [(1%Z, 475); (1%Z, 4951); (1%Z, 4508); ((-1)%Z, 5015); ((-2)%Z, 4507)] 309485009821345068724781056%Z 1099511627776%Z;
  Lin [474; 4950; 4507] [26891; 5014; 26890; 26889; 26888; 4506] 0%Z [(1%Z, 474); (1%Z, 4950); (1%Z, 4507); ((-1)%Z, 5014); ((-2)%Z, 4506)] 154742504910672534362390528%Z 2199023255552%Z;
  Lin [473; 4949; 4506] [26887; 5013; 26886; 26885; 26884; 4505] 0%Z [(1%Z, 473); (1%Z, 4949); (1%Z, 4506); ((-1)%Z, 5013); ((-2)%Z, 4505)] 77371252455336267181195264%Z 4398046511104%Z;
  Lin [472; 4948; 4505] [26883; 5012; 26882; 26881; 26880; 4504] 0%Z [(1%Z, 472); (1%Z, 4948); (1%Z, 4505); ((-1)%Z, 5012); ((-2)%Z, 4504)] 38685626227668133590597632%Z 8796093022208%Z;
  Lin [471; 4947; 4504] [26879; 5011; 26878; 26877; 26876; 4503] 0%Z [(1%Z, 471); (1%Z, 4947); (1%Z, 4504); ((-1)%Z, 5011); ((-2)%Z, 4503)] 19342813113834066795298816%Z 17592186044416%Z;
  Lin [470; 4946; 4503] [26875; 5010; 26874; 26873; 26872; 4502] 0%Z [(1%Z, 470); (1%Z, 4946); (1%Z, 4503); ((-1)%Z, 5010); ((-2)%Z, 4502)] 9671406556917033397649408%Z 35184372088832%Z;
  Lin [469; 4945; 4502] [26871; 5009; 26870; 26869; 26868; 4501] 0%Z [(1%Z, 469); (1%Z, 4945); (1%Z, 4502); ((-1)%Z, 5009); ((-2)%Z, 4501)] 4835703278458516698824704%Z 70368744177664%Z;
  Lin [468; 4944; 4501] [26867; 5008; 26866; 26865; 26864; 4500] 0%Z [(1%Z, 468); (1%Z, 4944); (1%Z, 4501); ((-1)%Z, 5008); ((-2)%Z, 4500)] 2417851639229258349412352%Z 140737488355328%Z;
  Lin [467; 4943; 4500] [26863; 5007; 26862; 26861; 26860; 4499] 0%Z [(1%Z, 467); (1%Z, 4943); (1%Z, 4500); ((-1)%Z, 5007); ((-2)%Z, 4499)] 1208925819614629174706176%Z 281474976710656%Z].
Definition mult2_64_facts_3 : list lin_fact := [
  Lin [466; 4942; 4499] [26859; 5006; 26858; 26857; 26856; 4498] 0%Z [(1%Z, 466); (1%Z, 4942); (1%Z, 4499); ((-1)%Z, 5006); ((-2)%Z, 4498)] 604462909807314587353088%Z 562949953421312%Z;
  Lin [465; 4941; 4498] [26855; 5005; 26854; 26853; 26852; 4497] 0%Z [(1%Z, 465); (1%Z, 4941); (1%Z, 4498); ((-1)%Z, 5005); ((-2)%Z, 4497)] 302231454903657293676544%Z 1125899906842624%Z;
  Lin [464; 4940; 4497] [26851; 5004; 26850; 26849; 26848; 4496] 0%Z [(1%Z, 464); (1%Z, 4940); (1%Z, 4497); ((-1)%Z, 5004); ((-2)%Z, 4496)] 151115727451828646838272%Z 2251799813685248%Z;
  Lin [463; 4939; 4496] [26847; 5003; 26846; 26845; 26844; 4495] 0%Z [(1%Z, 463); (1%Z, 4939); (1%Z, 4496); ((-1)%Z, 5003); ((-2)%Z, 4495)] 75557863725914323419136%Z 4503599627370496%Z;
  Lin [462; 4938; 4495] [26843; 5002; 26842; 26841; 26840; 4494] 0%Z [(1%Z, 462); (1%Z, 4938); (1%Z, 4495); ((-1)%Z, 5002); ((-2)%Z, 4494)] 37778931862957161709568%Z 9007199254740992%Z;
  Lin [461; 4937; 4494] [26839; 5001; 26838; 26837; 26836; 4493] 0%Z [(1%Z, 461); (1%Z, 4937); (1%Z, 4494); ((-1)%Z, 5001); ((-2)%Z, 4493)] 18889465931478580854784%Z 18014398509481984%Z;
  Lin [460; 4936; 4493] [26835; 5000; 26834; 26833; 26832; 4492] 0%Z [(1%Z, 460); (1%Z, 4936); (1%Z, 4493); ((-1)%Z, 5000); ((-2)%Z, 4492)] 9444732965739290427392%Z 36028797018963968%Z;
  Lin [459; 4935; 4492] [26831; 4999; 26830; 26829; 26828; 4491] 0%Z [(1%Z, 459); (1%Z, 4935); (1%Z, 4492); ((-1)%Z, 4999); ((-2)%Z, 4491)] 4722366482869645213696%Z 72057594037927936%Z;
  Lin [458; 4934; 4491] [26827; 4998; 26826; 26825; 26824; 4490] 0%Z [(1%Z, 458); (1%Z, 4934); (1%Z, 4491); ((-1)%Z, 4998); ((-2)%Z, 4490)] 2361183241434822606848%Z 144115188075855872%Z;
  Lin [457; 4933; 4490] [26823; 4997; 26822; 26821; 26820; 4489] 0%Z [(1%Z, 457); (1%Z, 4933); (1%Z, 4490); ((-1)%Z, 4997); ((-2)%Z, 4489)] 1180591620717411303424%Z 288230376151711744%Z;
  Lin [456; 4932; 4489] [26819; 4996; 26818; 26817; 26816; 4488] 0%Z [(1%Z, 456); (1%Z, 4932); (1%Z, 4489); ((-1)%Z, 4996); ((-2)%Z, 4488)] 590295810358705651712%Z 576460752303423488%Z;
  Lin [455; 4931; 4488] [26815; 4995; 26814; 26813; 26812; 4487] 0%Z [(1%Z, 455); (1%Z, 4931); (1%Z, 4488); ((-1)%Z, 4995); ((-2)%Z, 4487)] 295147905179352825856%Z 1152921504606846976%Z;
  Lin [454; 4930; 4487] [26811; 4994; 26810; 26809; 26808; 4486] 0%Z [(1%Z, 454); (1%Z, 4930); (1%Z, 4487); ((-1)%Z, 4994); ((-2)%Z, 4486)] 147573952589676412928%Z 2305843009213693952%Z;
  Lin [453; 4929; 4486] [26807; 4993; 26806; 26805; 26804; 4485] 0%Z [(1%Z, 453); (1%Z, 4929); (1%Z, 4486); ((-1)%Z, 4993); ((-2)%Z, 4485)] 73786976294838206464%Z 4611686018427387904%Z;
  Lin [452; 4928; 4485] [26803; 4992; 26802; 26801; 26800; 4484] 0%Z [(1%Z, 452); (1%Z, 4928); (1%Z, 4485); ((-1)%Z, 4992); ((-2)%Z, 4484)] 36893488147419103232%Z 9223372036854775808%Z;
  Lin [451; 4927; 4484] [26799; 4991; 26798; 26797; 26796; 4483] 0%Z [(1%Z, 451); (1%Z, 4927); (1%Z, 4484); ((-1)%Z, 4991); ((-2)%Z, 4483)] 18446744073709551616%Z 18446744073709551616%Z;
  Lin [450; 4926; 4483] [26795; 4990; 26794; 26793; 26792; 4482] 0%Z [(1%Z, 450); (1%Z, 4926); (1%Z, 4483); ((-1)%Z, 4990); ((-2)%Z, 4482)] 9223372036854775808%Z 36893488147419103232%Z;
  Lin [449; 4925; 4482] [26791; 4989; 26790; 26789; 26788; 4481] 0%Z [(1%Z, 449); (1%Z, 4925); (1%Z, 4482); ((-1)%Z, 4989); ((-2)%Z, 4481)] 4611686018427387904%Z 73786976294838206464%Z;
  Lin [448; 4924; 4481] [26787; 4988; 26786; 26785; 26784; 4480] 0%Z [(1%Z, 448); (1%Z, 4924); (1%Z, 4481); ((-1)%Z, 4988); ((-2)%Z, 4480)] 2305843009213693952%Z 147573952589676412928%Z;
  Lin [447; 4415; 4480] [26783; 4987; 26782; 26781; 26780; 4479] 0%Z [(1%Z, 447); (1%Z, 4415); (1%Z, 4480); ((-1)%Z, 4987); ((-2)%Z, 4479)] 1152921504606846976%Z 295147905179352825856%Z;
  Lin [574; 5049] [28102; 4606] 0%Z [(1%Z, 574); (1%Z, 5049); ((-1)%Z, 28102); ((-2)%Z, 4606)] 5316911983139663491615228241121378304%Z 64%Z;
  Lin [573; 5048; 4606] [26779; 5112; 26778; 26777; 26776; 4605] 0%Z [(1%Z, 573); (1%Z, 5048); (1%Z, 4606); ((-1)%Z, 5112); ((-2)%Z, 4605)] 2658455991569831745807614120560689152%Z 128%Z;
  Lin [572; 5047; 4605] [26775; 5111; 26774; 26773; 26772; 4604] 0%Z [(1%Z, 572); (1%Z, 5047); (1%Z, 4605); ((-1)%Z, 5111); ((-2)%Z, 4604)] 1329227995784915872903807060280344576%Z 256%Z;
  Lin [571; 5046; 4604] [26771; 5110; 26770; 26769; 26768; 4603] 0%Z [(1%Z, 571); (1%Z, 5046); (1%Z, 4604); ((-1)%Z, 5110); ((-2)%Z, 4603)] 664613997892457936451903530140172288%Z 512%Z;
  Lin [570; 5045; 4603] [26767; 5109; 26766; 26765; 26764; 4602] 0%Z [(1%Z, 570); (1%Z, 5045); (1%Z, 4603); ((-1)%Z, 5109); ((-2)%Z, 4602)] 332306998946228968225951765070086144%Z 1024%Z;
  Lin [569; 5044; 4602] [26763; 5108; 26762; 26761; 26760; 4601] 0%Z [(1%Z, 569); (1%Z, 5044); (1%Z, 4602); ((-1)%Z, 5108); ((-2)%Z, 4601)] 166153499473114484112975882535043072%Z 2048%Z;
  Lin [568; 5043; 4601] [26759; 5107; 26758; 26757; 26756; 4600] 0%Z [(1%Z, 568); (1%Z, 5043); (1%Z, 4601); ((-1)%Z, 5107); ((-2)%Z, 4600)] 83076749736557242056487941267521536%Z 4096%Z;
  Lin [567; 5042; 4600] [26755; 5106; 26754; 26753; 26752; 4599] 0%Z [(1%Z, 567); (1%Z, 5042); (1%Z, 4600); ((-1)%Z, 5106); ((-2)%Z, 4599)] 41538374868278621028243970633760768%Z 8192%Z;
  Lin [566; 5041; 4599] [26751; 5105; 26750; 26749; 26748; 4598] 0%Z [(1%Z, 566); (1%Z, 5041); (1%Z, 4599); ((-1)%Z, 5105); ((-2)%Z, 4598)] 20769187434139310514121985316880384%Z 16384%Z;
  Lin [565; 5040; 4598] [26747; 5104; 26746; 26745; 26744; 4597] 0%Z [(1%Z, 565); (1%Z, 5040); (1%Z, 4598); ((-1)%Z, 5104); ((-2)%Z, 4597)] 10384593717069655257060992658440192%Z 32768%Z;
  Lin [564; 5039; 4597] [26743; 5103; 26742; 26741; 26740; 4596] 0%Z [(1%Z, 564); (1%Z, 5039); (1%Z, 4597); ((-1)%Z, 5103); ((-2)%Z, 4596)] 5192296858534827628530496329220096%Z 65536%Z;
  Lin [563; 5038; 4596] [26739; 5102; 26738; 26737; 26736; 4595] 0%Z [(1%Z, 563); (1%Z, 5038); (1%Z, 4596); ((-1)%Z, 5102); ((-2)%Z, 4595)] 2596148429267413814265248164610048%Z 131072%Z;
  Lin [562; 5037; 4595] [26735; 5101; 26734; 26733; 26732; 4594] 0%Z [(1%Z, 562); (1%Z, 5037); (1%Z, 4595); ((-1)%Z, 5101); ((-2)%Z, 4594)] 1298074214633706907132624082305024%Z 262144%Z;
  Lin [561; 5036; 4594] [26731; 5100; 26730; 26729; 26728; 4593] 0%Z [(1%Z, 561); (1%Z, 5036); (1%Z, 4594); ((-1)%Z, 5100); ((-2)%Z, 4593)] 649037107316853453566312041152512%Z 524288%Z;
  Lin [560; 5035; 4593] [26727; 5099; 26726; 26725; 26724; 4592] 0%Z [(1%Z, 560); (1%Z, 5035); (1%Z, 4593); ((-1)%Z, 5099); ((-2)%Z, 4592)] 324518553658426726783156020576256%Z 1048576%Z;
  Lin [559; 5034; 4592] [26723; 5098; 26722; 26721; 26720; 4591] 0%Z [(1%Z, 559); (1%Z, 5034); (1%Z, 4592); ((-1)%Z, 5098); ((-2)%Z, 4591)] 162259276829213363391578010288128%Z 2097152%Z;
  Lin [558; 5033; 4591] [26719; 5097; 26718; 26717; 26716; 4590] 0%Z [(1%Z, 558); (1%Z, 5033); (1%Z, 4591); ((-1)%Z, 5097); ((-2)%Z, 4590)] 81129638414606681695789005144064%Z 4194304%Z;
  Lin [557; 5032; 4590] [26715; 5096; 26714; 26713; 26712; 4589] 0%Z [(1%Z, 557); (1%Z, 5032); (1%Z, 4590); ((-1)%Z, 5096); ((-2)%Z, 4589)] 40564819207303340847894502572032%Z 8388608%Z;
  Lin [556; 5031; 4589] [26711; 5095; 26710; 26709; 26708; 4588] 0%Z [(1%Z, 556); (1%Z, 5031); (1%Z, 4589); ((-1)%Z, 5095); ((-2)%Z, 4588)] 20282409603651670423947251286016%Z 16777216%Z;
  Lin [555; 5030; 4588] [26707; 5094; 26706; 26705; 26704; 4587] 0%Z [(1%Z, 555); (1%Z, 5030); (1%Z, 4588); ((-1)%Z, 5094); ((-2)%Z, 4587)] 10141204801825835211973625643008%Z 33554432%Z;
  Lin [554; 5029; 4587] [26703; 5093; 26702; 26701; 26700; 4586] 0%Z [(1%Z, 554); (1%Z, 5029); (1%Z, 4587); ((-1)%Z, 5093); ((-2)%Z, 4586)] 5070602400912917605986812821504%Z 67108864%Z;
  Lin [553; 5028; 4586] [26699; 5092; 26698; 26697; 26696; 4585] 0%Z [(1%Z, 553); (1%Z, 5028); (1%Z, 4586); ((-1)%Z, 5092); ((-2)%Z, 4585)] 2535301200456458802993406410752%Z 134217728%Z;
  Lin [552; 5027; 4585] [26695; 5091; 26694; 26693; 26692; 4584] 0%Z [(1%Z, 552); (1%Z, 5027); (1%Z, 4585); ((-1)%Z, 5091); ((-2)%Z, 4584)] 1267650600228229401496703205376%Z 268435456%Z;
  Lin [551; 5026; 4584] [26691; 5090; 26690; 26689; 26688; 4583] 0%Z [(1%Z, 551); (1%Z, 5026); (1%Z, 4584); ((-1)%Z, 5090); ((-2)%Z, 4583)] 633825300114114700748351602688%Z 536870912%Z;
  Lin [550; 5025; 4583] [26687; 5089; 26686; 26685; 26684; 4582] 0%Z [(1%Z, 550); (1%Z, 5025); (1%Z, 4583); ((-1)%Z, 5089); ((-2)%Z, 4582)] 316912650057057350374175801344%Z 1073741824%Z;
  Lin [549; 5024; 4582] [26683; 5088; 26682; 26681; 26680; 4581] 0%Z [(1%Z, 549); (1%Z, 5024); (1%Z, 4582); ((-1)%Z, 5088); ((-2)%Z, 4581)] 158456325028528675187087900672%Z 2147483648%Z;
  Lin [548; 5023; 4581] [26679; 5087; 26678; 26677; 26676; 4580] 0%Z [(1%Z, 548); (1%Z, 5023); (1%Z, 4581); ((-1)%Z, 5087); ((-2)%Z, 4580)] 79228162514264337593543950336%Z 4294967296%Z;
  Lin [547; 5022; 4580] [26675; 5086; 26674; 26673; 26672; 4579] 0%Z [(1%Z, 547); (1%Z, 5022); (1%Z, 4580); ((-1)%Z, 5086); ((-2)%Z, 4579)] 39614081257132168796771975168%Z 8589934592%Z;
  Lin [546; 5021; 4579] [26671; 5085; 26670; 26669; 26668; 4578] 0%Z [(1%Z, 546); (1%Z, 5021); (1%Z, 4579); ((-1)%Z, 5085); ((-2)%Z, 4578)] 19807040628566084398385987584%Z 17179869184%Z;
  Lin [545; 5020; 4578] [26667; 5084; 26666; 26665; 26664; 4577] 0%Z [(1%Z, 545); (1%Z, 5020); (1%Z, 4578); ((-1)%Z, 5084); ((-2)%Z, 4577)] 9903520314283042199192993792%Z 34359738368%Z;
  Lin [544; 5019; 4577] [26663; 5083; 26662; 26661; 26660; 4576] 0%Z [(1%Z, 544); (1%Z, 5019); (1%Z, 4577); ((-1)%Z, 5083); ((-2)%Z, 4576)] 4951760157141521099596496896%Z 68719476736%Z;
  Lin [543; 5018; 4576] [26659; 5082; 26658; 26657; 26656; 4575] 0%Z [(1%Z, 543); (1%Z, 5018); (1%Z, 4576); ((-1)%Z, 5082); ((-2)%Z, 4575)] 2475880078570760549798248448%Z 137438953472%Z;
  Lin [542; 5017; 4575] [26655; 5081; 26654; 26653; 26652; 4574] 0%Z [(1%Z, 542); (1%Z, 5017); (1%Z, 4575); ((-1)%Z, 5081); ((-2)%Z, 4574)] 1237940039285380274899124224%Z 274877906944%Z;
  Lin [541; 5016; 4574] [26651; 5080; 26650; 26649; 26648; 4573] 0%Z [(1%Z, 541); (1%Z, 5016); (1%Z, 4574); ((-1)%Z, 5080); ((-2)%Z, 4573)] 618970019642690137449562112%Z 549755813888%Z;
  Lin [540; 5015; 4573] [26647; 5079; 26646; 26645; 26644; 4572] 0%Z [(1%Z, 540); (1%Z, 5015); (1%Z, 4573); ((-1)%Z, 5079); ((-2)%Z, 4572)] 309485009821345068724781056%Z 1099511627776%Z;
  Lin [539; 5014; 4572] [26643; 5078; 26642; 26641; 26640; 4571] 0%Z [(1%Z, 539); (1%Z, 5014); (1%Z, 4572); ((-1)%Z, 5078); ((-2)%Z, 4571)] 154742504910672534362390528%Z 2199023255552%Z;
  Lin [538; 5013; 4571] [26639; 5077; 26638; 26637; 26636; 4570] 0%Z [(1%Z, 538); (1%Z, 5013); (1%Z, 4571); ((-1)%Z, 5077); ((-2)%Z, 4570)] 77371252455336267181195264%Z 4398046511104%Z;
  Lin [537; 5012; 4570] [26635; 5076; 26634; 26633; 26632; 4569] 0%Z [(1%Z, 537); (1%Z, 5012); (1%Z, 4570); ((-1)%Z, 5076); ((-2)%Z, 4569)] 38685626227668133590597632%Z 8796093022208%Z;
  Lin [536; 5011; 4569] [26631; 5075; 26630; 26629; 26628; 4568] 0%Z [(1%Z, 536); (1%Z, 5011); (1%Z, 4569); ((-1)%Z, 5075); ((-2)%Z, 4568)] 19342813113834066795298816%Z 17592186044416%Z;
  Lin [535; 5010; 4568] [26627; 5074; 26626; 26625; 26624; 4567] 0%Z [(1%Z, 535); (1%Z, 5010); (1%Z, 4568); ((-1)%Z, 5074); ((-2)%Z, 4567)] 9671406556917033397649408%Z 35184372088832%Z;
  Lin [534; 5009; 4567] [26623; 5073; 26622; 26621; 26620; 4566] 0%Z [(1%Z, 534); (1%Z, 5009); (1%Z, 4567); ((-1)%Z, 5073); ((-2)%Z, 4566)] 4835703278458516698824704%Z 70368744177664%Z;
  Lin [533; 5008; 4566] [26619; 5072; 26618; 26617; 26616; 4565] 0%Z [(1%Z, 533); (1%Z, 5008); (1%Z, 4566); ((-1)%Z, 5072); ((-2)%Z, 4565)] 2417851639229258349412352%Z 140737488355328%Z;
  Lin [532; 5007; 4565] [26615; 5071; 26614; 26613; 26612; 4564] 0%Z [(1%Z, 532); (1%Z, 5007); (1%Z, 4565); ((-1)%Z, 5071); ((-2)%Z, 4564)] 1208925819614629174706176%Z 281474976710656%Z;
  Lin [531; 5006; 4564] [26611; 5070; 26610; 26609; 26608; 4563] 0%Z [(1%Z, 531); (1%Z, 5006); (1%Z, 4564); ((-1)%Z, 5070); ((-2)%Z, 4563)] 604462909807314587353088%Z 562949953421312%Z;
  Lin [530; 5005; 4563] [26607; 5069; 26606; 26605; 26604; 4562] 0%Z [(1%Z, 530); (1%Z, 5005); (1%Z, 4563); ((-1)%Z, 5069); ((-2)%Z, 4562)] 302231454903657293676544%Z 1125899906842624%Z;
  Lin [529; 5004; 4562] [26603; 5068; 26602; 26601; 26600; 4561] 0%Z [(1%Z, 529); (1%Z, 5004); (1%Z, 4562); ((-1)%Z, 5068); ((-2)%Z, 4561)] 151115727451828646838272%Z 2251799813685248%Z;
  Lin [528; 5003; 4561] [26599; 5067; 26598; 26597; 26596; 4560] 0%Z [(1%Z, 528); (1%Z, 5003); (1%Z, 4561); ((-1)%Z, 5067); ((-2)%Z, 4560)] 75557863725914323419136%Z 4503599627370496%Z;
  Lin [527; 5002; 4560] [26595; 5066; 26594; 26593; 26592; 4559] 0%Z [(1%Z, 527); (1%Z, 5002); (1%Z, 4560); ((-1)%Z, 5066); ((-2)%Z, 4559)] 37778931862957161709568%Z 9007199254740992%Z;
  Lin [526; 5001; 4559] [26591; 5065; 26590; 26589; 26588; 4558] 0%Z [(1%Z, 526); (1%Z, 5001); (1%Z, 4559); ((-1)%Z, 5065); ((-2)%Z, 4558)] 18889465931478580854784%Z 18014398509481984%Z;
  Lin [525; 5000; 4558] [26587; 5064; 26586; 26585; 26584; 4557] 0%Z [(1%Z, 525); (1%Z, 5000); (1%Z, 4558); ((-1)%Z, 5064); ((-2)%Z, 4557)] 9444732965739290427392%Z 36028797018963968%Z;
  Lin [524; 4999; 4557] [26583; 5063; 26582; 26581; 26580; 4556] 0%Z [(1%Z, 524); (1%Z, 4999); (1%Z, 4557); ((-1)%Z, 5063); ((-2)%Z, 4556)] 4722366482869645213696%Z 72057594037927936%Z;
  Lin [523; 4998; 4556] [26579; 5062; 26578; 26577; 26576; 4555] 0%Z [(1%Z, 523); (1%Z, 4998); (1%Z, 4556); ((-1)%Z, 5062); ((-2)%Z, 4555)] 2361183241434822606848%Z 144115188075855872%Z;
  Lin [522; 4997; 4555] [26575; 5061; 26574; 26573; 26572; 4554] 0%Z [(1%Z, 522); (1%Z, 4997); (1%Z, 4555); ((-1)%Z, 5061); ((-2)%Z, 4554)] 1180591620717411303424%Z 288230376151711744%Z;
  Lin [521; 4996; 4554] [26571; 5060; 26570; 26569; 26568; 4553] 0%Z [(1%Z, 521); (1%Z, 4996); (1%Z, 4554); ((-1)%Z, 5060); ((-2)%Z, 4553)] 590295810358705651712%Z 576460752303423488%Z;
  Lin [520; 4995; 4553] [26567; 5059; 26566; 26565; 26564; 4552] 0%Z [(1%Z, 520); (1%Z, 4995); (1%Z, 4553); ((-1)%Z, 5059); ((-2)%Z, 4552)] 295147905179352825856%Z 1152921504606846976%Z;
  Lin [519; 4994; 4552] [26563; 5058; 26562; 26561; 26560; 4551] 0%Z [(1%Z, 519); (1%Z, 4994); (1%Z, 4552); ((-1)%Z, 5058); ((-2)%Z, 4551)] 147573952589676412928%Z 2305843009213693952%Z;
  Lin [518; 4993; 4551] [26559; 5057; 26558; 26557; 26556; 4550] 0%Z [(1%Z, 518); (1%Z, 4993); (1%Z, 4551); ((-1)%Z, 5057); ((-2)%Z, 4550)] 73786976294838206464%Z 4611686018427387904%Z;
  Lin [517; 4992; 4550] [26555; 5056; 26554; 26553; 26552; 4549] 0%Z [(1%Z, 517); (1%Z, 4992); (1%Z, 4550); ((-1)%Z, 5056); ((-2)%Z, 4549)] 36893488147419103232%Z 9223372036854775808%Z;
  Lin [516; 4991; 4549] [26551; 5055; 26550; 26549; 26548; 4548] 0%Z [(1%Z, 516); (1%Z, 4991); (1%Z, 4549); ((-1)%Z, 5055); ((-2)%Z, 4548)] 18446744073709551616%Z 18446744073709551616%Z;
  Lin [515; 4990; 4548] [26547; 5054; 26546; 26545; 26544; 4547] 0%Z [(1%Z, 515); (1%Z, 4990); (1%Z, 4548); ((-1)%Z, 5054); ((-2)%Z, 4547)] 9223372036854775808%Z 36893488147419103232%Z;
  Lin [514; 4989; 4547] [26543; 5053; 26542; 26541; 26540; 4546] 0%Z [(1%Z, 514); (1%Z, 4989); (1%Z, 4547); ((-1)%Z, 5053); ((-2)%Z, 4546)] 4611686018427387904%Z 73786976294838206464%Z;
  Lin [513; 4988; 4546] [26539; 5052; 26538; 26537; 26536; 4545] 0%Z [(1%Z, 513); (1%Z, 4988); (1%Z, 4546); ((-1)%Z, 5052); ((-2)%Z, 4545)] 2305843009213693952%Z 147573952589676412928%Z;
  Lin [512; 4987; 4545] [26535; 5051; 26534; 26533; 26532; 4544] 0%Z [(1%Z, 512); (1%Z, 4987); (1%Z, 4545); ((-1)%Z, 5051); ((-2)%Z, 4544)] 1152921504606846976%Z 295147905179352825856%Z;
  Lin [511; 4479; 4544] [26531; 5050; 26530; 26529; 26528; 4543] 0%Z [(1%Z, 511); (1%Z, 4479); (1%Z, 4544); ((-1)%Z, 5050); ((-2)%Z, 4543)] 576460752303423488%Z 590295810358705651712%Z;
  Lin [638; 5112] [28103; 4670] 0%Z [(1%Z, 638); (1%Z, 5112); ((-1)%Z, 28103); ((-2)%Z, 4670)] 2658455991569831745807614120560689152%Z 128%Z;
  Lin [637; 5111; 4670] [26527; 5175; 26526; 26525; 26524; 4669] 0%Z [(1%Z, 637); (1%Z, 5111); (1%Z, 4670); ((-1)%Z, 5175); ((-2)%Z, 4669)] 1329227995784915872903807060280344576%Z 256%Z;
  Lin [636; 5110; 4669] [26523; 5174; 26522; 26521; 26520; 4668] 0%Z [(1%Z, 636); (1%Z, 5110); (1%Z, 4669); ((-1)%Z, 5174); ((-2)%Z, 4668)] 664613997892457936451903530140172288%Z 512%Z;
  Lin [635; 5109; 4668] [26519; 5173; 26518; 26517; 26516; 4667] 0%Z [(1%Z, 635); (1%Z, 5109); (1%Z, 4668); ((-1)%Z, 5173); ((-2)%Z, 4667)] 332306998946228968225951765070086144%Z 1024%Z;
  Lin [634; 5108; 4667] [26515; 5172; 26514; 26513; 26512; 4666] 0%Z [(1%Z, 634); (1%Z, 5108); (1%Z, 4667); ((-1)%Z, 5172); ((-2)%Z, 4666)] 166153499473114484112975882535043072%Z 2048%Z;
  Lin [633; 5107; 4666] [26511; 5171; 26510; 26509; 26508; 4665] 0%Z [(1%Z, 633); (1%Z, 5107); (1%Z, 4666); ((-1)%Z, 5171); ((-2)%Z, 4665)] 83076749736557242056487941267521536%Z 4096%Z;
  Lin [632; 5106; 4665] [26507; 5170; 26506; 26505; 26504; 4664] 0%Z [(1%Z, 632); (1%Z, 5106); (1%Z, 4665); ((-1)%Z, 5170); ((-2)%Z, 4664)] 41538374868278621028243970633760768%Z 8192%Z;
  Lin [631; 5105; 4664] [26503; 5169; 26502; 26501; 26500; 4663] 0%Z [(1%Z, 631); (1%Z, 5105); (1%Z, 4664); ((-1)%Z, 5169); ((-2)%Z, 4663)] 20769187434139310514121985316880384%Z 16384%Z;
  Lin [630; 5104; 4663] [26499; 5168; 26498; 26497; 26496; 4662] 0%Z [(1%Z, 630); (1%Z, 5104); (1%Z, 4663); ((-1)%Z, 5168); ((-2)%Z, 4662)] 10384593717069655257060992658440192%Z 32768%Z;
  Lin [629; 5103; 4662] [26495; 5167; 26494; 26493; 26492; 4661] 0%Z [(1%Z, 629); (1%Z, 5103); (1%Z, 4662); ((-1)%Z, 5167); ((-2)%Z, 4661)] 5192296858534827628530496329220096%Z 65536%Z;
  Lin [628; 5102; 4661] [26491; 5166; 26490; 26489; 26488; 4660] 0%Z [(1%Z, 628); (1%Z, 5102); (1%Z, 4661); ((-1)%Z, 5166); ((-2)%Z, 4660)] 2596148429267413814265248164610048%Z 131072%Z;
  Lin [627; 5101; 4660] [26487; 5165; 26486; 26485; 26484; 4659] 0%Z [(1%Z, 627); (1%Z, 5101); (1%Z, 4660); ((-1)%Z, 5165); ((-2)%Z, 4659)] 1298074214633706907132624082305024%Z 262144%Z;
  Lin [626; 5100; 4659] [26483; 5164; 26482; 26481; 26480; 4658] 0%Z [(1%Z, 626); (1%Z, 5100); (1%Z, 4659); ((-1)%Z, 5164); ((-2)%Z, 4658)] 649037107316853453566312041152512%Z 524288%Z;
  Lin [625; 5099; 4658] [26479; 5163; 26478; 26477; 26476; 4657] 0%Z [(1%Z, 625); (1%Z, 5099); (1%Z, 4658); ((-1)%Z, 5163); ((-2)%Z, 4657)] 324518553658426726783156020576256%Z 1048576%Z;
  Lin [624; 5098; 4657] [26475; 5162; 26474; 26473; 26472; 4656] 0%Z [(1%Z, 624); (1%Z, 5098); (1%Z, 4657); ((-1)%Z, 5162); ((-2)%Z, 4656)] 162259276829213363391578010288128%Z 2097152%Z;
  Lin [623; 5097; 4656] [26471; 5161; 26470; 26469; 26468; 4655] 0%Z [(1%Z, 623); (1%Z, 5097); (1%Z, 4656); ((-1)%Z, 5161); ((-2)%Z, 4655)] 81129638414606681695789005144064%Z 4194304%Z].
Definition mult2_64_facts_4 : list lin_fact := [
  Lin [622; 5096; 4655] [26467; 5160; 26466; 26465; 26464; 4654] 0%Z [(1%Z, 622); (1%Z, 5096); (1%Z, 4655); ((-1)%Z, 5160); ((-2)%Z, 4654)] 40564819207303340847894502572032%Z 8388608%Z;
  Lin [621; 5095; 4654] [26463; 5159; 26462; 26461; 26460; 4653] 0%Z [(1%Z, 621); (1%Z, 5095); (1%Z, 4654); ((-1)%Z, 5159); ((-2)%Z, 4653)] 20282409603651670423947251286016%Z 16777216%Z;
  Lin [620; 5094; 4653] [26459; 5158; 26458; 26457; 26456; 4652] 0%Z [(1%Z, 620); (1%Z, 5094); (1%Z, 4653); ((-1)%Z, 5158); ((-2)%Z, 4652)] 10141204801825835211973625643008%Z 33554432%Z;
  Lin [619; 5093; 4652] [26455; 5157; 26454; 26453; 26452; 4651] 0%Z [(1%Z, 619); (1%Z, 5093); (1%Z, 4652); ((-1)%Z, 5157); ((-2)%Z, 4651)] 5070602400912917605986812821504%Z 67108864%Z;
  Lin [618; 5092; 4651] [26451; 5156; 26450; 26449; 26448; 4650] 0%Z [(1%Z, 618); (1%Z, 5092); (1%Z, 4651); ((-1)%Z, 5156); ((-2)%Z, 4650)] 2535301200456458802993406410752%Z 134217728%Z;
  Lin [617; 5091; 4650] [26447; 5155; 26446; 26445; 26444; 4649] 0%Z [(1%Z, 617); (1%Z, 5091); (1%Z, 4650); ((-1)%Z, 5155); ((-2)%Z, 4649)] 1267650600228229401496703205376%Z 268435456%Z;
  Lin [616; 5090; 4649] [26443; 5154; 26442; 26441; 26440; 4648] 0%Z [(1%Z, 616); (1%Z, 5090); (1%Z, 4649); ((-1)%Z, 5154); ((-2)%Z, 4648)] 633825300114114700748351602688%Z 536870912%Z;
  Lin [615; 5089; 4648] [26439; 5153; 26438; 26437; 26436; 4647] 0%Z [(1%Z, 615); (1%Z, 5089); (1%Z, 4648); ((-1)%Z, 5153); ((-2)%Z, 4647)] 316912650057057350374175801344%Z 1073741824%Z;
  Lin [614; 5088; 4647] [26435; 5152; 26434; 26433; 26432; 4646] 0%Z [(1%Z, 614); (1%Z, 5088); (1%Z, 4647); ((-1)%Z, 5152); ((-2)%Z, 4646)] 158456325028528675187087900672%Z 2147483648%Z;
  Lin [613; 5087; 4646] [26431; 5151; 26430; 26429; 26428; 4645] 0%Z [(1%Z, 613); (1%Z, 5087); (1%Z, 4646); ((-1)%Z, 5151); ((-2)%Z, 4645)] 79228162514264337593543950336%Z 4294967296%Z;
  Lin [612; 5086; 4645] [26427; 5150; 26426; 26425; 26424; 4644] 0%Z [(1%Z, 612); (1%Z, 5086); (1%Z, 4645); ((-1)%Z, 5150); ((-2)%Z, 4644)] 39614081257132168796771975168%Z 8589934592%Z;
  Lin [611; 5085; 4644] [26423; 5149; 26422; 26421; 26420; 4643] 0%Z [(1%Z, 611); (1%Z, 5085); (1%Z, 4644); ((-1)%Z, 5149); ((-2)%Z, 4643)] 19807040628566084398385987584%Z 17179869184%Z;
  Lin [610; 5084; 4643] [26419; 5148; 26418; 26417; 26416; 4642] 0%Z [(1%Z, 610); (1%Z, 5084); (1%Z, 4643); ((-1)%Z, 5148); ((-2)%Z, 4642)] 9903520314283042199192993792%Z 34359738368%Z;
  Lin [609; 5083; 4642] [26415; 5147; 26414; 26413; 26412; 4641] 0%Z [(1%Z, 609); (1%Z, 5083); (1%Z, 4642); ((-1)%Z, 5147); ((-2)%Z, 4641)] 4951760157141521099596496896%Z 68719476736%Z;
  Lin [608; 5082; 4641] [26411; 5146; 26410; 26409; 26408; 4640] 0%Z [(1%Z, 608); (1%Z, 5082); (1%Z, 4641); ((-1)%Z, 5146); ((-2)%Z, 4640)] 2475880078570760549798248448%Z 137438953472%Z;
  Lin [607; 5081; 4640] [26407; 5145; 26406; 26405; 26404; 4639] 0%Z [(1%Z, 607); (1%Z, 5081); (1%Z, 4640); ((-1)%Z, 5145); ((-2)%Z, 4639)] 1237940039285380274899124224%Z 274877906944%Z;
  Lin [606; 5080; 4639] [26403; 5144; 26402; 26401; 26400; 4638] 0%Z [(1%Z, 606); (1%Z, 5080); (1%Z, 4639); ((-1)%Z, 5144); ((-2)%Z, 4638)] 618970019642690137449562112%Z 549755813888%Z;
  Lin [605; 5079; 4638] [26399; 5143; 26398; 26397; 26396; 4637] 0%Z [(1%Z, 605); (1%Z, 5079); (1%Z, 4638); ((-1)%Z, 5143); ((-2)%Z, 4637)] 309485009821345068724781056%Z 1099511627776%Z;
  Lin [604; 5078; 4637] [26395; 5142; 26394; 26393; 26392; 4636] 0%Z [(1%Z, 604); (1%Z, 5078); (1%Z, 4637); ((-1)%Z, 5142); ((-2)%Z, 4636)] 154742504910672534362390528%Z 2199023255552%Z;
  Lin [603; 5077; 4636] [26391; 5141; 26390; 26389; 26388; 4635] 0%Z [(1%Z, 603); (1%Z, 5077); (1%Z, 4636); ((-1)%Z, 5141); ((-2)%Z, 4635)] 77371252455336267181195264%Z 4398046511104%Z;
  Lin [602; 5076; 4635] [26387; 5140; 26386; 26385; 26384; 4634] 0%Z [(1%Z, 602); (1%Z, 5076); (1%Z, 4635); ((-1)%Z, 5140); ((-2)%Z, 4634)] 38685626227668133590597632%Z 8796093022208%Z;
  Lin [601; 5075; 4634] [26383; 5139; 26382; 26381; 26380; 4633] 0%Z [(1%Z, 601); (1%Z, 5075); (1%Z, 4634); ((-1)%Z, 5139); ((-2)%Z, 4633)] 19342813113834066795298816%Z 17592186044416%Z;
  Lin [600; 5074; 4633] [26379; 5138; 26378; 26377; 26376; 4632] 0%Z [(1%Z, 600); (1%Z, 5074); (1%Z, 4633); ((-1)%Z, 5138); ((-2)%Z, 4632)] 9671406556917033397649408%Z 35184372088832%Z;
  Lin [599; 5073; 4632] [26375; 5137; 26374; 26373; 26372; 4631] 0%Z [(1%Z, 599); (1%Z, 5073); (1%Z, 4632); ((-1)%Z, 5137); ((-2)%Z, 4631)] 4835703278458516698824704%Z 70368744177664%Z;
  Lin [598; 5072; 4631] [26371; 5136; 26370; 26369; 26368; 4630] 0%Z [(1%Z, 598); (1%Z, 5072); (1%Z, 4631); ((-1)%Z, 5136); ((-2)%Z, 4630)] 2417851639229258349412352%Z 140737488355328%Z;
  Lin [597; 5071; 4630] [26367; 5135; 26366; 26365; 26364; 4629] 0%Z [(1%Z, 597); (1%Z, 5071); (1%Z, 4630); ((-1)%Z, 5135); ((-2)%Z, 4629)] 1208925819614629174706176%Z 281474976710656%Z;
  Lin [596; 5070; 4629] [26363; 5134; 26362; 26361; 26360; 4628] 0%Z [(1%Z, 596); (1%Z, 5070); (1%Z, 4629); ((-1)%Z, 5134); ((-2)%Z, 4628)] 604462909807314587353088%Z 562949953421312%Z;
  Lin [595; 5069; 4628] [26359; 5133; 26358; 26357; 26356; 4627] 0%Z [(1%Z, 595); (1%Z, 5069); (1%Z, 4628); ((-1)%Z, 5133); ((-2)%Z, 4627)] 302231454903657293676544%Z 1125899906842624%Z;
  Lin [594; 5068; 4627] [26355; 5132; 26354; 26353; 26352; 4626] 0%Z [(1%Z, 594); (1%Z, 5068); (1%Z, 4627); ((-1)%Z, 5132); ((-2)%Z, 4626)] 151115727451828646838272%Z 2251799813685248%Z;
  Lin [593; 5067; 4626] [26351; 5131; 26350; 26349; 26348; 4625] 0%Z [(1%Z, 593); (1%Z, 5067); (1%Z, 4626); ((-1)%Z, 5131); ((-2)%Z, 4625)] 75557863725914323419136%Z 4503599627370496%Z;
  Lin [592; 5066; 4625] [26347; 5130; 26346; 26345; 26344; 4624] 0%Z [(1%Z, 592); (1%Z, 5066); (1%Z, 4625); ((-1)%Z, 5130); ((-2)%Z, 4624)] 37778931862957161709568%Z 9007199254740992%Z;
  Lin [591; 5065; 4624] [26343; 5129; 26342; 26341; 26340; 4623] 0%Z [(1%Z, 591); (1%Z, 5065); (1%Z, 4624); ((-1)%Z, 5129); ((-2)%Z, 4623)] 18889465931478580854784%Z 18014398509481984%Z;
  Lin [590; 5064; 4623] [26339; 5128; 26338; 26337; 26336; 4622] 0%Z [(1%Z, 590); (1%Z, 5064); (1%Z, 4623); ((-1)%Z, 5128); ((-2)%Z, 4622)] 9444732965739290427392%Z 36028797018963968%Z;
  Lin [589; 5063; 4622] [26335; 5127; 26334; 26333; 26332; 4621] 0%Z [(1%Z, 589); (1%Z, 5063); (1%Z, 4622); ((-1)%Z, 5127); ((-2)%Z, 4621)] 4722366482869645213696%Z 72057594037927936%Z;
  Lin [588; 5062; 4621] [26331; 5126; 26330; 26329; 26328; 4620] 0%Z [(1%Z, 588); (1%Z, 5062); (1%Z, 4621); ((-1)%Z, 5126); ((-2)%Z, 4620)] 2361183241434822606848%Z 144115188075855872%Z;
  Lin [587; 5061; 4620] [26327; 5125; 26326; 26325; 26324; 4619] 0%Z [(1%Z, 587); (1%Z, 5061); (1%Z, 4620); ((-1)%Z, 5125); ((-2)%Z, 4619)] 1180591620717411303424%Z 288230376151711744%Z;
  Lin [586; 5060; 4619] [26323; 5124; 26322; 26321; 26320; 4618] 0%Z [(1%Z, 586); (1%Z, 5060); (1%Z, 4619); ((-1)%Z, 5124); ((-2)%Z, 4618)] 590295810358705651712%Z 576460752303423488%Z;
  Lin [585; 5059; 4618] [26319; 5123; 26318; 26317; 26316; 4617] 0%Z [(1%Z, 585); (1%Z, 5059); (1%Z, 4618); ((-1)%Z, 5123); ((-2)%Z, 4617)] 295147905179352825856%Z 1152921504606846976%Z;
  Lin [584; 5058; 4617] [26315; 5122; 26314; 26313; 26312; 4616] 0%Z [(1%Z, 584); (1%Z, 5058); (1%Z, 4617); ((-1)%Z, 5122); ((-2)%Z, 4616)] 147573952589676412928%Z 2305843009213693952%Z;
  Lin [583; 5057; 4616] [26311; 5121; 26310; 26309; 26308; 4615] 0%Z [(1%Z, 583); (1%Z, 5057); (1%Z, 4616); ((-1)%Z, 5121); ((-2)%Z, 4615)] 73786976294838206464%Z 4611686018427387904%Z;
  Lin [582; 5056; 4615] [26307; 5120; 26306; 26305; 26304; 4614] 0%Z [(1%Z, 582); (1%Z, 5056); (1%Z, 4615); ((-1)%Z, 5120); ((-2)%Z, 4614)] 36893488147419103232%Z 9223372036854775808%Z;
  Lin [581; 5055; 4614] [26303; 5119; 26302; 26301; 26300; 4613] 0%Z [(1%Z, 581); (1%Z, 5055); (1%Z, 4614); ((-1)%Z, 5119); ((-2)%Z, 4613)] 18446744073709551616%Z 18446744073709551616%Z;
  Lin [580; 5054; 4613] [26299; 5118; 26298; 26297; 26296; 4612] 0%Z [(1%Z, 580); (1%Z, 5054); (1%Z, 4613); ((-1)%Z, 5118); ((-2)%Z, 4612)] 9223372036854775808%Z 36893488147419103232%Z;
  Lin [579; 5053; 4612] [26295; 5117; 26294; 26293; 26292; 4611] 0%Z [(1%Z, 579); (1%Z, 5053); (1%Z, 4612); ((-1)%Z, 5117); ((-2)%Z, 4611)] 4611686018427387904%Z 73786976294838206464%Z;
  Lin [578; 5052; 4611] [26291; 5116; 26290; 26289; 26288; 4610] 0%Z [(1%Z, 578); (1%Z, 5052); (1%Z, 4611); ((-1)%Z, 5116); ((-2)%Z, 4610)] 2305843009213693952%Z 147573952589676412928%Z;
  Lin [577; 5051; 4610] [26287; 5115; 26286; 26285; 26284; 4609] 0%Z [(1%Z, 577); (1%Z, 5051); (1%Z, 4610); ((-1)%Z, 5115); ((-2)%Z, 4609)] 1152921504606846976%Z 295147905179352825856%Z;
  Lin [576; 5050; 4609] [26283; 5114; 26282; 26281; 26280; 4608] 0%Z [(1%Z, 576); (1%Z, 5050); (1%Z, 4609); ((-1)%Z, 5114); ((-2)%Z, 4608)] 576460752303423488%Z 590295810358705651712%Z;
  Lin [575; 4543; 4608] [26279; 5113; 26278; 26277; 26276; 4607] 0%Z [(1%Z, 575); (1%Z, 4543); (1%Z, 4608); ((-1)%Z, 5113); ((-2)%Z, 4607)] 288230376151711744%Z 1180591620717411303424%Z;
  Lin [702; 5175] [28104; 4734] 0%Z [(1%Z, 702); (1%Z, 5175); ((-1)%Z, 28104); ((-2)%Z, 4734)] 1329227995784915872903807060280344576%Z 256%Z;
  Lin [701; 5174; 4734] [26275; 5238; 26274; 26273; 26272; 4733] 0%Z [(1%Z, 701); (1%Z, 5174); (1%Z, 4734); ((-1)%Z, 5238); ((-2)%Z, 4733)] 664613997892457936451903530140172288%Z 512%Z;
  Lin [700; 5173; 4733] [26271; 5237; 26270; 26269; 26268; 4732] 0%Z [(1%Z, 700); (1%Z, 5173); (1%Z, 4733); ((-1)%Z, 5237); ((-2)%Z, 4732)] 332306998946228968225951765070086144%Z 1024%Z;
  Lin [699; 5172; 4732] [26267; 5236; 26266; 26265; 26264; 4731] 0%Z [(1%Z, 699); (1%Z, 5172); (1%Z, 4732); ((-1)%Z, 5236); ((-2)%Z, 4731)] 166153499473114484112975882535043072%Z 2048%Z;
  Lin [698; 5171; 4731] [26263; 5235; 26262; 26261; 26260; 4730] 0%Z [(1%Z, 698); (1%Z, 5171); (1%Z, 4731); ((-1)%Z, 5235); ((-2)%Z, 4730)] 83076749736557242056487941267521536%Z 4096%Z;
  Lin [697; 5170; 4730] [26259; 5234; 26258; 26257; 26256; 4729] 0%Z [(1%Z, 697); (1%Z, 5170); (1%Z, 4730); ((-1)%Z, 5234); ((-2)%Z, 4729)] 41538374868278621028243970633760768%Z 8192%Z;
  Lin [696; 5169; 4729] [26255; 5233; 26254; 26253; 26252; 4728] 0%Z [(1%Z, 696); (1%Z, 5169); (1%Z, 4729); ((-1)%Z, 5233); ((-2)%Z, 4728)] 20769187434139310514121985316880384%Z 16384%Z;
  Lin [695; 5168; 4728] [26251; 5232; 26250; 26249; 26248; 4727] 0%Z [(1%Z, 695); (1%Z, 5168); (1%Z, 4728); ((-1)%Z, 5232); ((-2)%Z, 4727)] 10384593717069655257060992658440192%Z 32768%Z;
  Lin [694; 5167; 4727] [26247; 5231; 26246; 26245; 26244; 4726] 0%Z [(1%Z, 694); (1%Z, 5167); (1%Z, 4727); ((-1)%Z, 5231); ((-2)%Z, 4726)] 5192296858534827628530496329220096%Z 65536%Z;
  Lin [693; 5166; 4726] [26243; 5230; 26242; 26241; 26240; 4725] 0%Z [(1%Z, 693); (1%Z, 5166); (1%Z, 4726); ((-1)%Z, 5230); ((-2)%Z, 4725)] 2596148429267413814265248164610048%Z 131072%Z;
  Lin [692; 5165; 4725] [26239; 5229; 26238; 26237; 26236; 4724] 0%Z [(1%Z, 692); (1%Z, 5165); (1%Z, 4725); ((-1)%Z, 5229); ((-2)%Z, 4724)] 1298074214633706907132624082305024%Z 262144%Z;
  Lin [691; 5164; 4724] [26235; 5228; 26234; 26233; 26232; 4723] 0%Z [(1%Z, 691); (1%Z, 5164); (1%Z, 4724); ((-1)%Z, 5228); ((-2)%Z, 4723)] 649037107316853453566312041152512%Z 524288%Z;
  Lin [690; 5163; 4723] [26231; 5227; 26230; 26229; 26228; 4722] 0%Z [(1%Z, 690); (1%Z, 5163); (1%Z, 4723); ((-1)%Z, 5227); ((-2)%Z, 4722)] 324518553658426726783156020576256%Z 1048576%Z;
  Lin [689; 5162; 4722] [26227; 5226; 26226; 26225; 26224; 4721] 0%Z [(1%Z, 689); (1%Z, 5162); (1%Z, 4722); ((-1)%Z, 5226); ((-2)%Z, 4721)] 162259276829213363391578010288128%Z 2097152%Z;
  Lin [688; 5161; 4721] [26223; 5225; 26222; 26221; 26220; 4720] 0%Z [(1%Z, 688); (1%Z, 5161); (1%Z, 4721); ((-1)%Z, 5225); ((-2)%Z, 4720)] 81129638414606681695789005144064%Z 4194304%Z;
  Lin [687; 5160; 4720] [26219; 5224; 26218; 26217; 26216; 4719] 0%Z [(1%Z, 687); (1%Z, 5160); (1%Z, 4720); ((-1)%Z, 5224); ((-2)%Z, 4719)] 40564819207303340847894502572032%Z 8388608%Z;
  Lin [686; 5159; 4719] [26215; 5223; 26214; 26213; 26212; 4718] 0%Z [(1%Z, 686); (1%Z, 5159); (1%Z, 4719); ((-1)%Z, 5223); ((-2)%Z, 4718)] 20282409603651670423947251286016%Z 16777216%Z;
  Lin [685; 5158; 4718] [26211; 5222; 26210; 26209; 26208; 4717] 0%Z [(1%Z, 685); (1%Z, 5158); (1%Z, 4718); ((-1)%Z, 5222); ((-2)%Z, 4717)] 10141204801825835211973625643008%Z 33554432%Z;
  Lin [684; 5157; 4717] [26207; 5221; 26206; 26205; 26204; 4716] 0%Z [(1%Z, 684); (1%Z, 5157); (1%Z, 4717); ((-1)%Z, 5221); ((-2)%Z, 4716)] 5070602400912917605986812821504%Z 67108864%Z;
  Lin [683; 5156; 4716] [26203; 5220; 26202; 26201; 26200; 4715] 0%Z [(1%Z, 683); (1%Z, 5156); (1%Z, 4716); ((-1)%Z, 5220); ((-2)%Z, 4715)] 2535301200456458802993406410752%Z 134217728%Z;
  Lin [682; 5155; 4715] [26199; 5219; 26198; 26197; 26196; 4714] 0%Z [(1%Z, 682); (1%Z, 5155); (1%Z, 4715); ((-1)%Z, 5219); ((-2)%Z, 4714)] 1267650600228229401496703205376%Z 268435456%Z;
  Lin [681; 5154; 4714] [26195; 5218; 26194; 26193; 26192; 4713] 0%Z [(1%Z, 681); (1%Z, 5154); (1%Z, 4714); ((-1)%Z, 5218); ((-2)%Z, 4713)] 633825300114114700748351602688%Z 536870912%Z;
  Lin [680; 5153; 4713] [26191; 5217; 26190; 26189; 26188; 4712] 0%Z [(1%Z, 680); (1%Z, 5153); (1%Z, 4713); ((-1)%Z, 5217); ((-2)%Z, 4712)] 316912650057057350374175801344%Z 1073741824%Z;
  Lin [679; 5152; 4712] [26187; 5216; 26186; 26185; 26184; 4711] 0%Z [(1%Z, 679); (1%Z, 5152); (1%Z, 4712); ((-1)%Z, 5216); ((-2)%Z, 4711)] 158456325028528675187087900672%Z 2147483648%Z;
  Lin [678; 5151; 4711] [26183; 5215; 26182; 26181; 26180; 4710] 0%Z [(1%Z, 678); (1%Z, 5151); (1%Z, 4711); ((-1)%Z, 5215); ((-2)%Z, 4710)] 79228162514264337593543950336%Z 4294967296%Z;
  Lin [677; 5150; 4710] [26179; 5214; 26178; 26177; 26176; 4709] 0%Z [(1%Z, 677); (1%Z, 5150); (1%Z, 4710); ((-1)%Z, 5214); ((-2)%Z, 4709)] 39614081257132168796771975168%Z 8589934592%Z;
  Lin [676; 5149; 4709] [26175; 5213; 26174; 26173; 26172; 4708] 0%Z [(1%Z, 676); (1%Z, 5149); (1%Z, 4709); ((-1)%Z, 5213); ((-2)%Z, 4708)] 19807040628566084398385987584%Z 17179869184%Z;
  Lin [675; 5148; 4708] [26171; 5212; 26170; 26169; 26168; 4707] 0%Z [(1%Z, 675); (1%Z, 5148); (1%Z, 4708); ((-1)%Z, 5212); ((-2)%Z, 4707)] 9903520314283042199192993792%Z 34359738368%Z;
  Lin [674; 5147; 4707] [26167; 5211; 26166; 26165; 26164; 4706] 0%Z [(1%Z, 674); (1%Z, 5147); (1%Z, 4707); ((-1)%Z, 5211); ((-2)%Z, 4706)] 4951760157141521099596496896%Z 68719476736%Z;
  Lin [673; 5146; 4706] [26163; 5210; 26162; 26161; 26160; 4705] 0%Z [(1%Z, 673); (1%Z, 5146); (1%Z, 4706); ((-1)%Z, 5210); ((-2)%Z, 4705)] 2475880078570760549798248448%Z 137438953472%Z;
  Lin [672; 5145; 4705] [26159; 5209; 26158; 26157; 26156; 4704] 0%Z [(1%Z, 672); (1%Z, 5145); (1%Z, 4705); ((-1)%Z, 5209); ((-2)%Z, 4704)] 1237940039285380274899124224%Z 274877906944%Z;
  Lin [671; 5144; 4704] [26155; 5208; 26154; 26153; 26152; 4703] 0%Z [(1%Z, 671); (1%Z, 5144); (1%Z, 4704); ((-1)%Z, 5208); ((-2)%Z, 4703)] 618970019642690137449562112%Z 549755813888%Z;
  Lin [670; 5143; 4703] [26151; 5207; 26150; 26149; 26148; 4702] 0%Z [(1%Z, 670); (1%Z, 5143); (1%Z, 4703); ((-1)%Z, 5207); ((-2)%Z, 4702)] 309485009821345068724781056%Z 1099511627776%Z;
  Lin [669; 5142; 4702] [26147; 5206; 26146; 26145; 26144; 4701] 0%Z [(1%Z, 669); (1%Z, 5142); (1%Z, 4702); ((-1)%Z, 5206); ((-2)%Z, 4701)] 154742504910672534362390528%Z 2199023255552%Z;
  Lin [668; 5141; 4701] [26143; 5205; 26142; 26141; 26140; 4700] 0%Z [(1%Z, 668); (1%Z, 5141); (1%Z, 4701); ((-1)%Z, 5205); ((-2)%Z, 4700)] 77371252455336267181195264%Z 4398046511104%Z;
  Lin [667; 5140; 4700] [26139; 5204; 26138; 26137; 26136; 4699] 0%Z [(1%Z, 667); (1%Z, 5140); (1%Z, 4700); ((-1)%Z, 5204); ((-2)%Z, 4699)] 38685626227668133590597632%Z 8796093022208%Z;
  Lin [666; 5139; 4699] [26135; 5203; 26134; 26133; 26132; 4698] 0%Z [(1%Z, 666); (1%Z, 5139); (1%Z, 4699); ((-1)%Z, 5203); ((-2)%Z, 4698)] 19342813113834066795298816%Z 17592186044416%Z;
  Lin [665; 5138; 4698] [26131; 5202; 26130; 26129; 26128; 4697] 0%Z [(1%Z, 665); (1%Z, 5138); (1%Z, 4698); ((-1)%Z, 5202); ((-2)%Z, 4697)] 9671406556917033397649408%Z 35184372088832%Z;
  Lin [664; 5137; 4697] [26127; 5201; 26126; 26125; 26124; 4696] 0%Z [(1%Z, 664); (1%Z, 5137); (1%Z, 4697); ((-1)%Z, 5201); ((-2)%Z, 4696)] 4835703278458516698824704%Z 70368744177664%Z;
  Lin [663; 5136; 4696] [26123; 5200; 26122; 26121; 26120; 4695] 0%Z [(1%Z, 663); (1%Z, 5136); (1%Z, 4696); ((-1)%Z, 5200); ((-2)%Z, 4695)] 2417851639229258349412352%Z 140737488355328%Z;
  Lin [662; 5135; 4695] [26119; 5199; 26118; 26117; 26116; 4694] 0%Z [(1%Z, 662); (1%Z, 5135); (1%Z, 4695); ((-1)%Z, 5199); ((-2)%Z, 4694)] 1208925819614629174706176%Z 281474976710656%Z;
  Lin [661; 5134; 4694] [26115; 5198; 26114; 26113; 26112; 4693] 0%Z [(1%Z, 661); (1%Z, 5134); (1%Z, 4694); ((-1)%Z, 5198); ((-2)%Z, 4693)] 604462909807314587353088%Z 562949953421312%Z;
  Lin [660; 5133; 4693] [26111; 5197; 26110; 26109; 26108; 4692] 0%Z [(1%Z, 660); (1%Z, 5133); (1%Z, 4693); ((-1)%Z, 5197); ((-2)%Z, 4692)] 302231454903657293676544%Z 1125899906842624%Z;
  Lin [659; 5132; 4692] [26107; 5196; 26106; 26105; 26104; 4691] 0%Z [(1%Z, 659); (1%Z, 5132); (1%Z, 4692); ((-1)%Z, 5196); ((-2)%Z, 4691)] 151115727451828646838272%Z 2251799813685248%Z;
  Lin [658; 5131; 4691] [26103; 5195; 26102; 26101; 26100; 4690] 0%Z [(1%Z, 658); (1%Z, 5131); (1%Z, 4691); ((-1)%Z, 5195); ((-2)%Z, 4690)] 75557863725914323419136%Z 4503599627370496%Z;
  Lin [657; 5130; 4690] [26099; 5194; 26098; 26097; 26096; 4689] 0%Z [(1%Z, 657); (1%Z, 5130); (1%Z, 4690); ((-1)%Z, 5194); ((-2)%Z, 4689)] 37778931862957161709568%Z 9007199254740992%Z;
  Lin [656; 5129; 4689] [26095; 5193; 26094; 26093; 26092; 4688] 0%Z [(1%Z, 656); (1%Z, 5129); (1%Z, 4689); ((-1)%Z, 5193); ((-2)%Z, 4688)] 18889465931478580854784%Z 18014398509481984%Z;
  Lin [655; 5128; 4688] [26091; 5192; 26090; 26089; 26088; 4687] 0%Z [(1%Z, 655); (1%Z, 5128); (1%Z, 4688); ((-1)%Z, 5192); ((-2)%Z, 4687)] 9444732965739290427392%Z 36028797018963968%Z;
  Lin [654; 5127; 4687] [26087; 5191; 26086; 26085; 26084; 4686] 0%Z [(1%Z, 654); (1%Z, 5127); (1%Z, 4687); ((-1)%Z, 5191); ((-2)%Z, 4686)] 4722366482869645213696%Z 72057594037927936%Z;
  Lin [653; 5126; 4686] [26083; 5190; 26082; 26081; 26080; 4685] 0%Z [(1%Z, 653); (1%Z, 5126); (1%Z, 4686); ((-1)%Z, 5190); ((-2)%Z, 4685)] 2361183241434822606848%Z 144115188075855872%Z;
  Lin [652; 5125; 4685] [26079; 5189; 26078; 26077; 26076; 4684] 0%Z [(1%Z, 652); (1%Z, 5125); (1%Z, 4685); ((-1)%Z, 5189); ((-2)%Z, 4684)] 1180591620717411303424%Z 288230376151711744%Z;
  Lin [651; 5124; 4684] [26075; 5188; 26074; 26073; 26072; 4683] 0%Z [(1%Z, 651); (1%Z, 5124); (1%Z, 4684); ((-1)%Z, 5188); ((-2)%Z, 4683)] 590295810358705651712%Z 576460752303423488%Z].
Definition mult2_64_facts_5 : list lin_fact := [
  Lin [650; 5123; 4683] [26071; 5187; 26070; 26069; 26068; 4682] 0%Z [(1%Z, 650); (1%Z, 5123); (1%Z, 4683); ((-1)%Z, 5187); ((-2)%Z, 4682)] 295147905179352825856%Z 1152921504606846976%Z;
  Lin [649; 5122; 4682] [26067; 5186; 26066; 26065; 26064; 4681] 0%Z [(1%Z, 649); (1%Z, 5122); (1%Z, 4682); ((-1)%Z, 5186); ((-2)%Z, 4681)] 147573952589676412928%Z 2305843009213693952%Z;
  Lin [648; 5121; 4681] [26063; 5185; 26062; 26061; 26060; 4680] 0%Z [(1%Z, 648); (1%Z, 5121); (1%Z, 4681); ((-1)%Z, 5185); ((-2)%Z, 4680)] 73786976294838206464%Z 4611686018427387904%Z;
  Lin [647; 5120; 4680] [26059; 5184; 26058; 26057; 26056; 4679] 0%Z [(1%Z, 647); (1%Z, 5120); (1%Z, 4680); ((-1)%Z, 5184); ((-2)%Z, 4679)] 36893488147419103232%Z 9223372036854775808%Z;
  Lin [646; 5119; 4679] [26055; 5183; 26054; 26053; 26052; 4678] 0%Z [(1%Z, 646); (1%Z, 5119); (1%Z, 4679); ((-1)%Z, 5183); ((-2)%Z, 4678)] 18446744073709551616%Z 18446744073709551616%Z;
  Lin [645; 5118; 4678] [26051; 5182; 26050; 26049; 26048; 4677] 0%Z [(1%Z, 645); (1%Z, 5118); (1%Z, 4678); ((-1)%Z, 5182); ((-2)%Z, 4677)] 9223372036854775808%Z 36893488147419103232%Z;
  Lin [644; 5117; 4677] [26047; 5181; 26046; 26045; 26044; 4676] 0%Z [(1%Z, 644); (1%Z, 5117); (1%Z, 4677); ((-1)%Z, 5181); ((-2)%Z, 4676)] 4611686018427387904%Z 73786976294838206464%Z;
  Lin [643; 5116; 4676] [26043; 5180; 26042; 26041; 26040; 4675] 0%Z [(1%Z, 643); (1%Z, 5116); (1%Z, 4676); ((-1)%Z, 5180); ((-2)%Z, 4675)] 2305843009213693952%Z 147573952589676412928%Z;
  Lin [642; 5115; 4675] [26039; 5179; 26038; 26037; 26036; 4674] 0%Z [(1%Z, 642); (1%Z, 5115); (1%Z, 4675); ((-1)%Z, 5179); ((-2)%Z, 4674)] 1152921504606846976%Z 295147905179352825856%Z;
  Lin [641; 5114; 4674] [26035; 5178; 26034; 26033; 26032; 4673] 0%Z [(1%Z, 641); (1%Z, 5114); (1%Z, 4674); ((-1)%Z, 5178); ((-2)%Z, 4673)] 576460752303423488%Z 590295810358705651712%Z;
  Lin [640; 5113; 4673] [26031; 5177; 26030; 26029; 26028; 4672] 0%Z [(1%Z, 640); (1%Z, 5113); (1%Z, 4673); ((-1)%Z, 5177); ((-2)%Z, 4672)] 288230376151711744%Z 1180591620717411303424%Z;
  Lin [639; 4607; 4672] [26027; 5176; 26026; 26025; 26024; 4671] 0%Z [(1%Z, 639); (1%Z, 4607); (1%Z, 4672); ((-1)%Z, 5176); ((-2)%Z, 4671)] 144115188075855872%Z 2361183241434822606848%Z;
  Lin [766; 5238] [28105; 5302] 0%Z [(1%Z, 766); (1%Z, 5238); ((-1)%Z, 28105); ((-2)%Z, 5302)] 664613997892457936451903530140172288%Z 512%Z;
  Lin [765; 5237; 5302] [26023; 5813; 26022; 26021; 26020; 5301] 0%Z [(1%Z, 765); (1%Z, 5237); (1%Z, 5302); ((-1)%Z, 5813); ((-2)%Z, 5301)] 332306998946228968225951765070086144%Z 1024%Z;
  Lin [764; 5236; 5301] [26019; 5812; 26018; 26017; 26016; 5300] 0%Z [(1%Z, 764); (1%Z, 5236); (1%Z, 5301); ((-1)%Z, 5812); ((-2)%Z, 5300)] 166153499473114484112975882535043072%Z 2048%Z;
  Lin [763; 5235; 5300] [26015; 5811; 26014; 26013; 26012; 5299] 0%Z [(1%Z, 763); (1%Z, 5235); (1%Z, 5300); ((-1)%Z, 5811); ((-2)%Z, 5299)] 83076749736557242056487941267521536%Z 4096%Z;
  Lin [762; 5234; 5299] [26011; 5810; 26010; 26009; 26008; 5298] 0%Z [(1%Z, 762); (1%Z, 5234); (1%Z, 5299); ((-1)%Z, 5810); ((-2)%Z, 5298)] 41538374868278621028243970633760768%Z 8192%Z;
  Lin [761; 5233; 5298] [26007; 5809; 26006; 26005; 26004; 5297] 0%Z [(1%Z, 761); (1%Z, 5233); (1%Z, 5298); ((-1)%Z, 5809); ((-2)%Z, 5297)] 20769187434139310514121985316880384%Z 16384%Z;
  Lin [760; 5232; 5297] [26003; 5808; 26002; 26001; 26000; 5296] 0%Z [(1%Z, 760); (1%Z, 5232); (1%Z, 5297); ((-1)%Z, 5808); ((-2)%Z, 5296)] 10384593717069655257060992658440192%Z 32768%Z;
  Lin [759; 5231; 5296] [25999; 5807; 25998; 25997; 25996; 5295] 0%Z [(1%Z, 759); (1%Z, 5231); (1%Z, 5296); ((-1)%Z, 5807); ((-2)%Z, 5295)] 5192296858534827628530496329220096%Z 65536%Z;
  Lin [758; 5230; 5295] [25995; 5806; 25994; 25993; 25992; 5294] 0%Z [(1%Z, 758); (1%Z, 5230); (1%Z, 5295); ((-1)%Z, 5806); ((-2)%Z, 5294)] 2596148429267413814265248164610048%Z 131072%Z;
  Lin [757; 5229; 5294] [25991; 5805; 25990; 25989; 25988; 5293] 0%Z [(1%Z, 757); (1%Z, 5229); (1%Z, 5294); ((-1)%Z, 5805); ((-2)%Z, 5293)] 1298074214633706907132624082305024%Z 262144%Z;
  Lin [756; 5228; 5293] [25987; 5804; 25986; 25985; 25984; 5292] 0%Z [(1%Z, 756); (1%Z, 5228); (1%Z, 5293); ((-1)%Z, 5804); ((-2)%Z, 5292)] 649037107316853453566312041152512%Z 524288%Z;
  Lin [755; 5227; 5292] [25983; 5803; 25982; 25981; 25980; 5291] 0%Z [(1%Z, 755); (1%Z, 5227); (1%Z, 5292); ((-1)%Z, 5803); ((-2)%Z, 5291)] 324518553658426726783156020576256%Z 1048576%Z;
  Lin [754; 5226; 5291] [25979; 5802; 25978; 25977; 25976; 5290] 0%Z [(1%Z, 754); (1%Z, 5226); (1%Z, 5291); ((-1)%Z, 5802); ((-2)%Z, 5290)] 162259276829213363391578010288128%Z 2097152%Z;
  Lin [753; 5225; 5290] [25975; 5801; 25974; 25973; 25972; 5289] 0%Z [(1%Z, 753); (1%Z, 5225); (1%Z, 5290); ((-1)%Z, 5801); ((-2)%Z, 5289)] 81129638414606681695789005144064%Z 4194304%Z;
  Lin [752; 5224; 5289] [25971; 5800; 25970; 25969; 25968; 5288] 0%Z [(1%Z, 752); (1%Z, 5224); (1%Z, 5289); ((-1)%Z, 5800); ((-2)%Z, 5288)] 40564819207303340847894502572032%Z 8388608%Z;
  Lin [751; 5223; 5288] [25967; 5799; 25966; 25965; 25964; 5287] 0%Z [(1%Z, 751); (1%Z, 5223); (1%Z, 5288); ((-1)%Z, 5799); ((-2)%Z, 5287)] 20282409603651670423947251286016%Z 16777216%Z;
  Lin [750; 5222; 5287] [25963; 5798; 25962; 25961; 25960; 5286] 0%Z [(1%Z, 750); (1%Z, 5222); (1%Z, 5287); ((-1)%Z, 5798); ((-2)%Z, 5286)] 10141204801825835211973625643008%Z 33554432%Z;
  Lin [749; 5221; 5286] [25959; 5797; 25958; 25957; 25956; 5285] 0%Z [(1%Z, 749); (1%Z, 5221); (1%Z, 5286); ((-1)%Z, 5797); ((-2)%Z, 5285)] 5070602400912917605986812821504%Z 67108864%Z;
  Lin [748; 5220; 5285] [25955; 5796; 25954; 25953; 25952; 5284] 0%Z [(1%Z, 748); (1%Z, 5220); (1%Z, 5285); ((-1)%Z, 5796); ((-2)%Z, 5284)] 2535301200456458802993406410752%Z 134217728%Z;
  Lin [747; 5219; 5284] [25951; 5795; 25950; 25949; 25948; 5283] 0%Z [(1%Z, 747); (1%Z, 5219); (1%Z, 5284); ((-1)%Z, 5795); ((-2)%Z, 5283)] 1267650600228229401496703205376%Z 268435456%Z;
  Lin [746; 5218; 5283] [25947; 5794; 25946; 25945; 25944; 5282] 0%Z [(1%Z, 746); (1%Z, 5218); (1%Z, 5283); ((-1)%Z, 5794); ((-2)%Z, 5282)] 633825300114114700748351602688%Z 536870912%Z;
  Lin [745; 5217; 5282] [25943; 5793; 25942; 25941; 25940; 5281] 0%Z [(1%Z, 745); (1%Z, 5217); (1%Z, 5282); ((-1)%Z, 5793); ((-2)%Z, 5281)] 316912650057057350374175801344%Z 1073741824%Z;
  Lin [744; 5216; 5281] [25939; 5792; 25938; 25937; 25936; 5280] 0%Z [(1%Z, 744); (1%Z, 5216); (1%Z, 5281); ((-1)%Z, 5792); ((-2)%Z, 5280)] 158456325028528675187087900672%Z 2147483648%Z;
  Lin [743; 5215; 5280] [25935; 5791; 25934; 25933; 25932; 5279] 0%Z [(1%Z, 743); (1%Z, 5215); (1%Z, 5280); ((-1)%Z, 5791); ((-2)%Z, 5279)] 79228162514264337593543950336%Z 4294967296%Z;
  Lin [742; 5214; 5279] [25931; 5790; 25930; 25929; 25928; 5278] 0%Z [(1%Z, 742); (1%Z, 5214); (1%Z, 5279); ((-1)%Z, 5790); ((-2)%Z, 5278)] 39614081257132168796771975168%Z 8589934592%Z;
  Lin [741; 5213; 5278] [25927; 5789; 25926; 25925; 25924; 5277] 0%Z [(1%Z, 741); (1%Z, 5213); (1%Z, 5278); ((-1)%Z, 5789); ((-2)%Z, 5277)] 19807040628566084398385987584%Z 17179869184%Z;
  Lin [740; 5212; 5277] [25923; 5788; 25922; 25921; 25920; 5276] 0%Z [(1%Z, 740); (1%Z, 5212); (1%Z, 5277); ((-1)%Z, 5788); ((-2)%Z, 5276)] 9903520314283042199192993792%Z 34359738368%Z;
  Lin [739; 5211; 5276] [25919; 5787; 25918; 25917; 25916; 5275] 0%Z [(1%Z, 739); (1%Z, 5211); (1%Z, 5276); ((-1)%Z, 5787); ((-2)%Z, 5275)] 4951760157141521099596496896%Z 68719476736%Z;
  Lin [738; 5210; 5275] [25915; 5786; 25914; 25913; 25912; 5274] 0%Z [(1%Z, 738); (1%Z, 5210); (1%Z, 5275); ((-1)%Z, 5786); ((-2)%Z, 5274)] 2475880078570760549798248448%Z 137438953472%Z;
  Lin [737; 5209; 5274] [25911; 5785; 25910; 25909; 25908; 5273] 0%Z [(1%Z, 737); (1%Z, 5209); (1%Z, 5274); ((-1)%Z, 5785); ((-2)%Z, 5273)] 1237940039285380274899124224%Z 274877906944%Z;
  Lin [736; 5208; 5273] [25907; 5784; 25906; 25905; 25904; 5272] 0%Z [(1%Z, 736); (1%Z, 5208); (1%Z, 5273); ((-1)%Z, 5784); ((-2)%Z, 5272)] 618970019642690137449562112%Z 549755813888%Z;
  Lin [735; 5207; 5272] [25903; 5783; 25902; 25901; 25900; 5271] 0%Z [(1%Z, 735); (1%Z, 5207); (1%Z, 5272); ((-1)%Z, 5783); ((-2)%Z, 5271)] 309485009821345068724781056%Z 1099511627776%Z;
  Lin [734; 5206; 5271] [25899; 5782; 25898; 25897; 25896; 5270] 0%Z [(1%Z, 734); (1%Z, 5206); (1%Z, 5271); ((-1)%Z, 5782); ((-2)%Z, 5270)] 154742504910672534362390528%Z 2199023255552%Z;
  Lin [733; 5205; 5270] [25895; 5781; 25894; 25893; 25892; 5269] 0%Z [(1%Z, 733); (1%Z, 5205); (1%Z, 5270); ((-1)%Z, 5781); ((-2)%Z, 5269)] 77371252455336267181195264%Z 4398046511104%Z;
  Lin [732; 5204; 5269] [25891; 5780; 25890; 25889; 25888; 5268] 0%Z [(1%Z, 732); (1%Z, 5204); (1%Z, 5269); ((-1)%Z, 5780); ((-2)%Z, 5268)] 38685626227668133590597632%Z 8796093022208%Z;
  Lin [731; 5203; 5268] [25887; 5779; 25886; 25885; 25884; 5267] 0%Z [(1%Z, 731); (1%Z, 5203); (1%Z, 5268); ((-1)%Z, 5779); ((-2)%Z, 5267)] 19342813113834066795298816%Z 17592186044416%Z;
  Lin [730; 5202; 5267] [25883; 5778; 25882; 25881; 25880; 5266] 0%Z [(1%Z, 730); (1%Z, 5202); (1%Z, 5267); ((-1)%Z, 5778); ((-2)%Z, 5266)] 9671406556917033397649408%Z 35184372088832%Z;
  Lin [729; 5201; 5266] [25879; 5777; 25878; 25877; 25876; 5265] 0%Z [(1%Z, 729); (1%Z, 5201); (1%Z, 5266); ((-1)%Z, 5777); ((-2)%Z, 5265)] 4835703278458516698824704%Z 70368744177664%Z;
  Lin [728; 5200; 5265] [25875; 5776; 25874; 25873; 25872; 5264] 0%Z [(1%Z, 728); (1%Z, 5200); (1%Z, 5265); ((-1)%Z, 5776); ((-2)%Z, 5264)] 2417851639229258349412352%Z 140737488355328%Z;
  Lin [727; 5199; 5264] [25871; 5775; 25870; 25869; 25868; 5263] 0%Z [(1%Z, 727); (1%Z, 5199); (1%Z, 5264); ((-1)%Z, 5775); ((-2)%Z, 5263)] 1208925819614629174706176%Z 281474976710656%Z;
  Lin [726; 5198; 5263] [25867; 5774; 25866; 25865; 25864; 5262] 0%Z [(1%Z, 726); (1%Z, 5198); (1%Z, 5263); ((-1)%Z, 5774); ((-2)%Z, 5262)] 604462909807314587353088%Z 562949953421312%Z;
  Lin [725; 5197; 5262] [25863; 5773; 25862; 25861; 25860; 5261] 0%Z [(1%Z, 725); (1%Z, 5197); (1%Z, 5262); ((-1)%Z, 5773); ((-2)%Z, 5261)] 302231454903657293676544%Z 1125899906842624%Z;
  Lin [724; 5196; 5261] [25859; 5772; 25858; 25857; 25856; 5260] 0%Z [(1%Z, 724); (1%Z, 5196); (1%Z, 5261); ((-1)%Z, 5772); ((-2)%Z, 5260)] 151115727451828646838272%Z 2251799813685248%Z;
  Lin [723; 5195; 5260] [25855; 5771; 25854; 25853; 25852; 5259] 0%Z [(1%Z, 723); (1%Z, 5195); (1%Z, 5260); ((-1)%Z, 5771); ((-2)%Z, 5259)] 75557863725914323419136%Z 4503599627370496%Z;
  Lin [722; 5194; 5259] [25851; 5770; 25850; 25849; 25848; 5258] 0%Z [(1%Z, 722); (1%Z, 5194); (1%Z, 5259); ((-1)%Z, 5770); ((-2)%Z, 5258)] 37778931862957161709568%Z 9007199254740992%Z;
  Lin [721; 5193; 5258] [25847; 5769; 25846; 25845; 25844; 5257] 0%Z [(1%Z, 721); (1%Z, 5193); (1%Z, 5258); ((-1)%Z, 5769); ((-2)%Z, 5257)] 18889465931478580854784%Z 18014398509481984%Z;
  Lin [720; 5192; 5257] [25843; 5768; 25842; 25841; 25840; 5256] 0%Z [(1%Z, 720); (1%Z, 5192); (1%Z, 5257); ((-1)%Z, 5768); ((-2)%Z, 5256)] 9444732965739290427392%Z 36028797018963968%Z;
  Lin [719; 5191; 5256] [25839; 5767; 25838; 25837; 25836; 5255] 0%Z [(1%Z, 719); (1%Z, 5191); (1%Z, 5256); ((-1)%Z, 5767); ((-2)%Z, 5255)] 4722366482869645213696%Z 72057594037927936%Z;
  Lin [718; 5190; 5255] [25835; 5766; 25834; 25833; 25832; 5254] 0%Z [(1%Z, 718); (1%Z, 5190); (1%Z, 5255); ((-1)%Z, 5766); ((-2)%Z, 5254)] 2361183241434822606848%Z 144115188075855872%Z;
  Lin [717; 5189; 5254] [25831; 5765; 25830; 25829; 25828; 5253] 0%Z [(1%Z, 717); (1%Z, 5189); (1%Z, 5254); ((-1)%Z, 5765); ((-2)%Z, 5253)] 1180591620717411303424%Z 288230376151711744%Z;
  Lin [716; 5188; 5253] [25827; 5764; 25826; 25825; 25824; 5252] 0%Z [(1%Z, 716); (1%Z, 5188); (1%Z, 5253); ((-1)%Z, 5764); ((-2)%Z, 5252)] 590295810358705651712%Z 576460752303423488%Z;
  Lin [715; 5187; 5252] [25823; 5763; 25822; 25821; 25820; 5251] 0%Z [(1%Z, 715); (1%Z, 5187); (1%Z, 5252); ((-1)%Z, 5763); ((-2)%Z, 5251)] 295147905179352825856%Z 1152921504606846976%Z;
  Lin [714; 5186; 5251] [25819; 5762; 25818; 25817; 25816; 5250] 0%Z [(1%Z, 714); (1%Z, 5186); (1%Z, 5251); ((-1)%Z, 5762); ((-2)%Z, 5250)] 147573952589676412928%Z 2305843009213693952%Z;
  Lin [713; 5185; 5250] [25815; 5761; 25814; 25813; 25812; 5249] 0%Z [(1%Z, 713); (1%Z, 5185); (1%Z, 5250); ((-1)%Z, 5761); ((-2)%Z, 5249)] 73786976294838206464%Z 4611686018427387904%Z;
  Lin [712; 5184; 5249] [25811; 5760; 25810; 25809; 25808; 5248] 0%Z [(1%Z, 712); (1%Z, 5184); (1%Z, 5249); ((-1)%Z, 5760); ((-2)%Z, 5248)] 36893488147419103232%Z 9223372036854775808%Z;
  Lin [711; 5183; 5248] [25807; 5759; 25806; 25805; 25804; 5247] 0%Z [(1%Z, 711); (1%Z, 5183); (1%Z, 5248); ((-1)%Z, 5759); ((-2)%Z, 5247)] 18446744073709551616%Z 18446744073709551616%Z;
  Lin [710; 5182; 5247] [25803; 5758; 25802; 25801; 25800; 5246] 0%Z [(1%Z, 710); (1%Z, 5182); (1%Z, 5247); ((-1)%Z, 5758); ((-2)%Z, 5246)] 9223372036854775808%Z 36893488147419103232%Z;
  Lin [709; 5181; 5246] [25799; 5757; 25798; 25797; 25796; 5245] 0%Z [(1%Z, 709); (1%Z, 5181); (1%Z, 5246); ((-1)%Z, 5757); ((-2)%Z, 5245)] 4611686018427387904%Z 73786976294838206464%Z;
  Lin [708; 5180; 5245] [25795; 5756; 25794; 25793; 25792; 5244] 0%Z [(1%Z, 708); (1%Z, 5180); (1%Z, 5245); ((-1)%Z, 5756); ((-2)%Z, 5244)] 2305843009213693952%Z 147573952589676412928%Z;
  Lin [707; 5179; 5244] [25791; 5755; 25790; 25789; 25788; 5243] 0%Z [(1%Z, 707); (1%Z, 5179); (1%Z, 5244); ((-1)%Z, 5755); ((-2)%Z, 5243)] 1152921504606846976%Z 295147905179352825856%Z;
  Lin [706; 5178; 5243] [25787; 5754; 25786; 25785; 25784; 5242] 0%Z [(1%Z, 706); (1%Z, 5178); (1%Z, 5243); ((-1)%Z, 5754); ((-2)%Z, 5242)] 576460752303423488%Z 590295810358705651712%Z;
  Lin [705; 5177; 5242] [25783; 5753; 25782; 25781; 25780; 5241] 0%Z [(1%Z, 705); (1%Z, 5177); (1%Z, 5242); ((-1)%Z, 5753); ((-2)%Z, 5241)] 288230376151711744%Z 1180591620717411303424%Z;
  Lin [704; 5176; 5241] [25779; 5752; 25778; 25777; 25776; 5240] 0%Z [(1%Z, 704); (1%Z, 5176); (1%Z, 5241); ((-1)%Z, 5752); ((-2)%Z, 5240)] 144115188075855872%Z 2361183241434822606848%Z;
  Lin [703; 4671; 5240] [25775; 5751; 25774; 25773; 25772; 5239] 0%Z [(1%Z, 703); (1%Z, 4671); (1%Z, 5240); ((-1)%Z, 5751); ((-2)%Z, 5239)] 72057594037927936%Z 4722366482869645213696%Z;
  Lin [830; 5813] [28106; 5366] 0%Z [(1%Z, 830); (1%Z, 5813); ((-1)%Z, 28106); ((-2)%Z, 5366)] 332306998946228968225951765070086144%Z 1024%Z;
  Lin [829; 5812; 5366] [25771; 5876; 25770; 25769; 25768; 5365] 0%Z [(1%Z, 829); (1%Z, 5812); (1%Z, 5366); ((-1)%Z, 5876); ((-2)%Z, 5365)] 166153499473114484112975882535043072%Z 2048%Z;
  Lin [828; 5811; 5365] [25767; 5875; 25766; 25765; 25764; 5364] 0%Z [(1%Z, 828); (1%Z, 5811); (1%Z, 5365); ((-1)%Z, 5875); ((-2)%Z, 5364)] 83076749736557242056487941267521536%Z 4096%Z;
  Lin [827; 5810; 5364] [25763; 5874; 25762; 25761; 25760; 5363] 0%Z [(1%Z, 827); (1%Z, 5810); (1%Z, 5364); ((-1)%Z, 5874); ((-2)%Z, 5363)] 41538374868278621028243970633760768%Z 8192%Z;
  Lin [826; 5809; 5363] [25759; 5873; 25758; 25757; 25756; 5362] 0%Z [(1%Z, 826); (1%Z, 5809); (1%Z, 5363); ((-1)%Z, 5873); ((-2)%Z, 5362)] 20769187434139310514121985316880384%Z 16384%Z;
  Lin [825; 5808; 5362] [25755; 5872; 25754; 25753; 25752; 5361] 0%Z [(1%Z, 825); (1%Z, 5808); (1%Z, 5362); ((-1)%Z, 5872); ((-2)%Z, 5361)] 10384593717069655257060992658440192%Z 32768%Z;
  Lin [824; 5807; 5361] [25751; 5871; 25750; 25749; 25748; 5360] 0%Z [(1%Z, 824); (1%Z, 5807); (1%Z, 5361); ((-1)%Z, 5871); ((-2)%Z, 5360)] 5192296858534827628530496329220096%Z 65536%Z;
  Lin [823; 5806; 5360] [25747; 5870; 25746; 25745; 25744; 5359] 0%Z [(1%Z, 823); (1%Z, 5806); (1%Z, 5360); ((-1)%Z, 5870); ((-2)%Z, 5359)] 2596148429267413814265248164610048%Z 131072%Z;
  Lin [822; 5805; 5359] [25743; 5869; 25742; 25741; 25740; 5358] 0%Z [(1%Z, 822); (1%Z, 5805); (1%Z, 5359); ((-1)%Z, 5869); ((-2)%Z, 5358)] 1298074214633706907132624082305024%Z 262144%Z;
  Lin [821; 5804; 5358] [25739; 5868; 25738; 25737; 25736; 5357] 0%Z [(1%Z, 821); (1%Z, 5804); (1%Z, 5358); ((-1)%Z, 5868); ((-2)%Z, 5357)] 649037107316853453566312041152512%Z 524288%Z;
  Lin [820; 5803; 5357] [25735; 5867; 25734; 25733; 25732; 5356] 0%Z [(1%Z, 820); (1%Z, 5803); (1%Z, 5357); ((-1)%Z, 5867); ((-2)%Z, 5356)] 324518553658426726783156020576256%Z 1048576%Z;
  Lin [819; 5802; 5356] [25731; 5866; 25730; 25729; 25728; 5355] 0%Z [(1%Z, 819); (1%Z, 5802); (1%Z, 5356); ((-1)%Z, 5866); ((-2)%Z, 5355)] 162259276829213363391578010288128%Z 2097152%Z;
  Lin [818; 5801; 5355] [25727; 5865; 25726; 25725; 25724; 5354] 0%Z [(1%Z, 818); (1%Z, 5801); (1%Z, 5355); ((-1)%Z, 5865); ((-2)%Z, 5354)] 81129638414606681695789005144064%Z 4194304%Z;
  Lin [817; 5800; 5354] [25723; 5864; 25722; 25721; 25720; 5353] 0%Z [(1%Z, 817); (1%Z, 5800); (1%Z, 5354); ((-1)%Z, 5864); ((-2)%Z, 5353)] 40564819207303340847894502572032%Z 8388608%Z;
  Lin [816; 5799; 5353] [25719; 5863; 25718; 25717; 25716; 5352] 0%Z [(1%Z, 816); (1%Z, 5799); (1%Z, 5353); ((-1)%Z, 5863); ((-2)%Z, 5352)] 20282409603651670423947251286016%Z 16777216%Z;
  Lin [815; 5798; 5352] [25715; 5862; 25714; 25713; 25712; 5351] 0%Z [(1%Z, 815); (1%Z, 5798); (1%Z, 5352); ((-1)%Z, 5862); ((-2)%Z, 5351)] 10141204801825835211973625643008%Z 33554432%Z;
  Lin [814; 5797; 5351] [25711; 5861; 25710; 25709; 25708; 5350] 0%Z [(1%Z, 814); (1%Z, 5797); (1%Z, 5351); ((-1)%Z, 5861); ((-2)%Z, 5350)] 5070602400912917605986812821504%Z 67108864%Z;
  Lin [813; 5796; 5350] [25707; 5860; 25706; 25705; 25704; 5349] 0%Z [(1%Z, 813); (1%Z, 5796); (1%Z, 5350); ((-1)%Z, 5860); ((-2)%Z, 5349)] 2535301200456458802993406410752%Z 134217728%Z;
  Lin [812; 5795; 5349] [25703; 5859; 25702; 25701; 25700; 5348] 0%Z [(1%Z, 812); (1%Z, 5795); (1%Z, 5349); ((-1)%Z, 5859); ((-2)%Z, 5348)] 1267650600228229401496703205376%Z 268435456%Z;
  Lin [811; 5794; 5348] [25699; 5858; 25698; 25697; 25696; 5347] 0%Z [(1%Z, 811); (1%Z, 5794); (1%Z, 5348); ((-1)%Z, 5858); ((-2)%Z, 5347)] 633825300114114700748351602688%Z 536870912%Z;
  Lin [810; 5793; 5347] [25695; 5857; 25694; 25693; 25692; 5346] 0%Z [(1%Z, 810); (1%Z, 5793); (1%Z, 5347); ((-1)%Z, 5857); ((-2)%Z, 5346)] 316912650057057350374175801344%Z 1073741824%Z;
  Lin [809; 5792; 5346] [25691; 5856; 25690; 25689; 25688; 5345] 0%Z [(1%Z, 809); (1%Z, 5792); (1%Z, 5346); ((-1)%Z, 5856); ((-2)%Z, 5345)] 158456325028528675187087900672%Z 2147483648%Z;
  Lin [808; 5791; 5345] [25687; 5855; 25686; 25685; 25684; 5344] 0%Z [(1%Z, 808); (1%Z, 5791); (1%Z, 5345); ((-1)%Z, 5855); ((-2)%Z, 5344)] 79228162514264337593543950336%Z 4294967296%Z;
  Lin [807; 5790; 5344] [25683; 5854; 25682; 25681; 25680; 5343] 0%Z [(1%Z, 807); (1%Z, 5790); (1%Z, 5344); ((-1)%Z, 5854); ((-2)%Z, 5343)] 39614081257132168796771975168%Z 8589934592%Z].
Definition mult2_64_facts_6 : list lin_fact := [
  Lin [806; 5789; 5343] [25679; 5853; 25678; 25677; 25676; 5342] 0%Z [(1%Z, 806); (1%Z, 5789); (1%Z, 5343); ((-1)%Z, 5853); ((-2)%Z, 5342)] 19807040628566084398385987584%Z 17179869184%Z;
  Lin [805; 5788; 5342] [25675; 5852; 25674; 25673; 25672; 5341] 0%Z [(1%Z, 805); (1%Z, 5788); (1%Z, 5342); ((-1)%Z, 5852); ((-2)%Z, 5341)] 9903520314283042199192993792%Z 34359738368%Z;
  Lin [804; 5787; 5341] [25671; 5851; 25670; 25669; 25668; 5340] 0%Z [(1%Z, 804); (1%Z, 5787); (1%Z, 5341); ((-1)%Z, 5851); ((-2)%Z, 5340)] 4951760157141521099596496896%Z 68719476736%Z;
  Lin [803; 5786; 5340] [25667; 5850; 25666; 25665; 25664; 5339] 0%Z [(1%Z, 803); (1%Z, 5786); (1%Z, 5340); ((-1)%Z, 5850); ((-2)%Z, 5339)] 2475880078570760549798248448%Z 137438953472%Z;
  Lin [802; 5785; 5339] [25663; 5849; 25662; 25661; 25660; 5338] 0%Z [(1%Z, 802); (1%Z, 5785); (1%Z, 5339); ((-1)%Z, 5849); ((-2)%Z, 5338)] 1237940039285380274899124224%Z 274877906944%Z;
  Lin [801; 5784; 5338] [25659; 5848; 25658; 25657; 25656; 5337] 0%Z [(1%Z, 801); (1%Z, 5784); (1%Z, 5338); ((-1)%Z, 5848); ((-2)%Z, 5337)] 618970019642690137449562112%Z 549755813888%Z;
  Lin [800; 5783; 5337] [25655; 5847; 25654; 25653; 25652; 5336] 0%Z [(1%Z, 800); (1%Z, 5783); (1%Z, 5337); ((-1)%Z, 5847); ((-2)%Z, 5336)] 309485009821345068724781056%Z 1099511627776%Z;
  Lin [799; 5782; 5336] [25651; 5846; 25650; 25649; 25648; 5335] 0%Z [(1%Z, 799); (1%Z, 5782); (1%Z, 5336); ((-1)%Z, 5846); ((-2)%Z, 5335)] 154742504910672534362390528%Z 2199023255552%Z;
  Lin [798; 5781; 5335] [25647; 5845; 25646; 25645; 25644; 5334] 0%Z [(1%Z, 798); (1%Z, 5781); (1%Z, 5335); ((-1)%Z, 5845); ((-2)%Z, 5334)] 77371252455336267181195264%Z 4398046511104%Z;
  Lin [797; 5780; 5334] [25643; 5844; 25642; 25641; 25640; 5333] 0%Z [(1%Z, 797); (1%Z, 5780); (1%Z, 5334); ((-1)%Z, 5844); ((-2)%Z, 5333)] 38685626227668133590597632%Z 8796093022208%Z;
  Lin [796; 5779; 5333] [25639; 5843; 25638; 25637; 25636; 5332] 0%Z [(1%Z, 796); (1%Z, 5779); (1%Z, 5333); ((-1)%Z, 5843); ((-2)%Z, 5332)] 19342813113834066795298816%Z 17592186044416%Z;
  Lin [795; 5778; 5332] [25635; 5842; 25634; 25633; 25632; 5331] 0%Z [(1%Z, 795); (1%Z, 5778); (1%Z, 5332); ((-1)%Z, 5842); ((-2)%Z, 5331)] 9671406556917033397649408%Z 35184372088832%Z;
  Lin [794; 5777; 5331] [25631; 5841; 25630; 25629; 25628; 5330] 0%Z [(1%Z, 794); (1%Z, 5777); (1%Z, 5331); ((-1)%Z, 5841); ((-2)%Z, 5330)] 4835703278458516698824704%Z 70368744177664%Z;
  Lin [793; 5776; 5330] [25627; 5840; 25626; 25625; 25624; 5329] 0%Z [(1%Z, 793); (1%Z, 5776); (1%Z, 5330); ((-1)%Z, 5840); ((-2)%Z, 5329)] 2417851639229258349412352%Z 140737488355328%Z;
  Lin [792; 5775; 5329] [25623; 5839; 25622; 25621; 25620; 5328] 0%Z [(1%Z, 792); (1%Z, 5775); (1%Z, 5329); ((-1)%Z, 5839); ((-2)%Z, 5328)] 1208925819614629174706176%Z 281474976710656%Z;
  Lin [791; 5774; 5328] [25619; 5838; 25618; 25617; 25616; 5327] 0%Z [(1%Z, 791); (1%Z, 5774); (1%Z, 5328); ((-1)%Z, 5838); ((-2)%Z, 5327)] 604462909807314587353088%Z 562949953421312%Z;
  Lin [790; 5773; 5327] [25615; 5837; 25614; 25613; 25612; 5326] 0%Z [(1%Z, 790); (1%Z, 5773); (1%Z, 5327); ((-1)%Z, 5837); ((-2)%Z, 5326)] 302231454903657293676544%Z 1125899906842624%Z;
  Lin [789; 5772; 5326] [25611; 5836; 25610; 25609; 25608; 5325] 0%Z [(1%Z, 789); (1%Z, 5772); (1%Z, 5326); ((-1)%Z, 5836); ((-2)%Z, 5325)] 151115727451828646838272%Z 2251799813685248%Z;
  Lin [788; 5771; 5325] [25607; 5835; 25606; 25605; 25604; 5324] 0%Z [(1%Z, 788); (1%Z, 5771); (1%Z, 5325); ((-1)%Z, 5835); ((-2)%Z, 5324)] 75557863725914323419136%Z 4503599627370496%Z;
  Lin [787; 5770; 5324] [25603; 5834; 25602; 25601; 25600; 5323] 0%Z [(1%Z, 787); (1%Z, 5770); (1%Z, 5324); ((-1)%Z, 5834); ((-2)%Z, 5323)] 37778931862957161709568%Z 9007199254740992%Z;
  Lin [786; 5769; 5323] [25599; 5833; 25598; 25597; 25596; 5322] 0%Z [(1%Z, 786); (1%Z, 5769); (1%Z, 5323); ((-1)%Z, 5833); ((-2)%Z, 5322)] 18889465931478580854784%Z 18014398509481984%Z;
  Lin [785; 5768; 5322] [25595; 5832; 25594; 25593; 25592; 5321] 0%Z [(1%Z, 785); (1%Z, 5768); (1%Z, 5322); ((-1)%Z, 5832); ((-2)%Z, 5321)] 9444732965739290427392%Z 36028797018963968%Z;
  Lin [784; 5767; 5321] [25591; 5831; 25590; 25589; 25588; 5320] 0%Z [(1%Z, 784); (1%Z, 5767); (1%Z, 5321); ((-1)%Z, 5831); ((-2)%Z, 5320)] 4722366482869645213696%Z 72057594037927936%Z;
  Lin [783; 5766; 5320] [25587; 5830; 25586; 25585; 25584; 5319] 0%Z [(1%Z, 783); (1%Z, 5766); (1%Z, 5320); ((-1)%Z, 5830); ((-2)%Z, 5319)] 2361183241434822606848%Z 144115188075855872%Z;
  Lin [782; 5765; 5319] [25583; 5829; 25582; 25581; 25580; 5318] 0%Z [(1%Z, 782); (1%Z, 5765); (1%Z, 5319); ((-1)%Z, 5829); ((-2)%Z, 5318)] 1180591620717411303424%Z 288230376151711744%Z;
  Lin [781; 5764; 5318] [25579; 5828; 25578; 25577; 25576; 5317] 0%Z [(1%Z, 781); (1%Z, 5764); (1%Z, 5318); ((-1)%Z, 5828); ((-2)%Z, 5317)] 590295810358705651712%Z 576460752303423488%Z;
  Lin [780; 5763; 5317] [25575; 5827; 25574; 25573; 25572; 5316] 0%Z [(1%Z, 780); (1%Z, 5763); (1%Z, 5317); ((-1)%Z, 5827); ((-2)%Z, 5316)] 295147905179352825856%Z 1152921504606846976%Z;
  Lin [779; 5762; 5316] [25571; 5826; 25570; 25569; 25568; 5315] 0%Z [(1%Z, 779); (1%Z, 5762); (1%Z, 5316); ((-1)%Z, 5826); ((-2)%Z, 5315)] 147573952589676412928%Z 2305843009213693952%Z;
  Lin [778; 5761; 5315] [25567; 5825; 25566; 25565; 25564; 5314] 0%Z [(1%Z, 778); (1%Z, 5761); (1%Z, 5315); ((-1)%Z, 5825); ((-2)%Z, 5314)] 73786976294838206464%Z 4611686018427387904%Z;
  Lin [777; 5760; 5314] [25563; 5824; 25562; 25561; 25560; 5313] 0%Z [(1%Z, 777); (1%Z, 5760); (1%Z, 5314); ((-1)%Z, 5824); ((-2)%Z, 5313)] 36893488147419103232%Z 9223372036854775808%Z;
  Lin [776; 5759; 5313] [25559; 5823; 25558; 25557; 25556; 5312] 0%Z [(1%Z, 776); (1%Z, 5759); (1%Z, 5313); ((-1)%Z, 5823); ((-2)%Z, 5312)] 18446744073709551616%Z 18446744073709551616%Z;
  Lin [775; 5758; 5312] [25555; 5822; 25554; 25553; 25552; 5311] 0%Z [(1%Z, 775); (1%Z, 5758); (1%Z, 5312); ((-1)%Z, 5822); ((-2)%Z, 5311)] 9223372036854775808%Z 36893488147419103232%Z;
  Lin [774; 5757; 5311] [25551; 5821; 25550; 25549; 25548; 5310] 0%Z [(1%Z, 774); (1%Z, 5757); (1%Z, 5311); ((-1)%Z, 5821); ((-2)%Z, 5310)] 4611686018427387904%Z 73786976294838206464%Z;
  Lin [773; 5756; 5310] [25547; 5820; 25546; 25545; 25544; 5309] 0%Z [(1%Z, 773); (1%Z, 5756); (1%Z, 5310); ((-1)%Z, 5820); ((-2)%Z, 5309)] 2305843009213693952%Z 147573952589676412928%Z;
  Lin [772; 5755; 5309] [25543; 5819; 25542; 25541; 25540; 5308] 0%Z [(1%Z, 772); (1%Z, 5755); (1%Z, 5309); ((-1)%Z, 5819); ((-2)%Z, 5308)] 1152921504606846976%Z 295147905179352825856%Z;
  Lin [771; 5754; 5308] [25539; 5818; 25538; 25537; 25536; 5307] 0%Z [(1%Z, 771); (1%Z, 5754); (1%Z, 5308); ((-1)%Z, 5818); ((-2)%Z, 5307)] 576460752303423488%Z 590295810358705651712%Z;
  Lin [770; 5753; 5307] [25535; 5817; 25534; 25533; 25532; 5306] 0%Z [(1%Z, 770); (1%Z, 5753); (1%Z, 5307); ((-1)%Z, 5817); ((-2)%Z, 5306)] 288230376151711744%Z 1180591620717411303424%Z;
  Lin [769; 5752; 5306] [25531; 5816; 25530; 25529; 25528; 5305] 0%Z [(1%Z, 769); (1%Z, 5752); (1%Z, 5306); ((-1)%Z, 5816); ((-2)%Z, 5305)] 144115188075855872%Z 2361183241434822606848%Z;
  Lin [768; 5751; 5305] [25527; 5815; 25526; 25525; 25524; 5304] 0%Z [(1%Z, 768); (1%Z, 5751); (1%Z, 5305); ((-1)%Z, 5815); ((-2)%Z, 5304)] 72057594037927936%Z 4722366482869645213696%Z;
  Lin [767; 5239; 5304] [25523; 5814; 25522; 25521; 25520; 5303] 0%Z [(1%Z, 767); (1%Z, 5239); (1%Z, 5304); ((-1)%Z, 5814); ((-2)%Z, 5303)] 36028797018963968%Z 9444732965739290427392%Z;
  Lin [894; 5876] [28107; 5430] 0%Z [(1%Z, 894); (1%Z, 5876); ((-1)%Z, 28107); ((-2)%Z, 5430)] 166153499473114484112975882535043072%Z 2048%Z;
  Lin [893; 5875; 5430] [25519; 5939; 25518; 25517; 25516; 5429] 0%Z [(1%Z, 893); (1%Z, 5875); (1%Z, 5430); ((-1)%Z, 5939); ((-2)%Z, 5429)] 83076749736557242056487941267521536%Z 4096%Z;
  Lin [892; 5874; 5429] [25515; 5938; 25514; 25513; 25512; 5428] 0%Z [(1%Z, 892); (1%Z, 5874); (1%Z, 5429); ((-1)%Z, 5938); ((-2)%Z, 5428)] 41538374868278621028243970633760768%Z 8192%Z;
  Lin [891; 5873; 5428] [25511; 5937; 25510; 25509; 25508; 5427] 0%Z [(1%Z, 891); (1%Z, 5873); (1%Z, 5428); ((-1)%Z, 5937); ((-2)%Z, 5427)] 20769187434139310514121985316880384%Z 16384%Z;
  Lin [890; 5872; 5427] [25507; 5936; 25506; 25505; 25504; 5426] 0%Z [(1%Z, 890); (1%Z, 5872); (1%Z, 5427); ((-1)%Z, 5936); ((-2)%Z, 5426)] 10384593717069655257060992658440192%Z 32768%Z;
  Lin [889; 5871; 5426] [25503; 5935; 25502; 25501; 25500; 5425] 0%Z [(1%Z, 889); (1%Z, 5871); (1%Z, 5426); ((-1)%Z, 5935); ((-2)%Z, 5425)] 5192296858534827628530496329220096%Z 65536%Z;
  Lin [888; 5870; 5425] [25499; 5934; 25498; 25497; 25496; 5424] 0%Z [(1%Z, 888); (1%Z, 5870); (1%Z, 5425); ((-1)%Z, 5934); ((-2)%Z, 5424)] 2596148429267413814265248164610048%Z 131072%Z;
  Lin [887; 5869; 5424] [25495; 5933; 25494; 25493; 25492; 5423] 0%Z [(1%Z, 887); (1%Z, 5869); (1%Z, 5424); ((-1)%Z, 5933); ((-2)%Z, 5423)] 1298074214633706907132624082305024%Z 262144%Z;
  Lin [886; 5868; 5423] [25491; 5932; 25490; 25489; 25488; 5422] 0%Z [(1%Z, 886); (1%Z, 5868); (1%Z, 5423); ((-1)%Z, 5932); ((-2)%Z, 5422)] 649037107316853453566312041152512%Z 524288%Z;
  Lin [885; 5867; 5422] [25487; 5931; 25486; 25485; 25484; 5421] 0%Z [(1%Z, 885); (1%Z, 5867); (1%Z, 5422); ((-1)%Z, 5931); ((-2)%Z, 5421)] 324518553658426726783156020576256%Z 1048576%Z;
  Lin [884; 5866; 5421] [25483; 5930; 25482; 25481; 25480; 5420] 0%Z [(1%Z, 884); (1%Z, 5866); (1%Z, 5421); ((-1)%Z, 5930); ((-2)%Z, 5420)] 162259276829213363391578010288128%Z 2097152%Z;
  Lin [883; 5865; 5420] [25479; 5929; 25478; 25477; 25476; 5419] 0%Z [(1%Z, 883); (1%Z, 5865); (1%Z, 5420); ((-1)%Z, 5929); ((-2)%Z, 5419)] 81129638414606681695789005144064%Z 4194304%Z;
  Lin [882; 5864; 5419] [25475; 5928; 25474; 25473; 25472; 5418] 0%Z [(1%Z, 882); (1%Z, 5864); (1%Z, 5419); ((-1)%Z, 5928); ((-2)%Z, 5418)] 40564819207303340847894502572032%Z 8388608%Z;
  Lin [881; 5863; 5418] [25471; 5927; 25470; 25469; 25468; 5417] 0%Z [(1%Z, 881); (1%Z, 5863); (1%Z, 5418); ((-1)%Z, 5927); ((-2)%Z, 5417)] 20282409603651670423947251286016%Z 16777216%Z;
  Lin [880; 5862; 5417] [25467; 5926; 25466; 25465; 25464; 5416] 0%Z [(1%Z, 880); (1%Z, 5862); (1%Z, 5417); ((-1)%Z, 5926); ((-2)%Z, 5416)] 10141204801825835211973625643008%Z 33554432%Z;
  Lin [879; 5861; 5416] [25463; 5925; 25462; 25461; 25460; 5415] 0%Z [(1%Z, 879); (1%Z, 5861); (1%Z, 5416); ((-1)%Z, 5925); ((-2)%Z, 5415)] 5070602400912917605986812821504%Z 67108864%Z;
  Lin [878; 5860; 5415] [25459; 5924; 25458; 25457; 25456; 5414] 0%Z [(1%Z, 878); (1%Z, 5860); (1%Z, 5415); ((-1)%Z, 5924); ((-2)%Z, 5414)] 2535301200456458802993406410752%Z 134217728%Z;
  Lin [877; 5859; 5414] [25455; 5923; 25454; 25453; 25452; 5413] 0%Z [(1%Z, 877); (1%Z, 5859); (1%Z, 5414); ((-1)%Z, 5923); ((-2)%Z, 5413)] 1267650600228229401496703205376%Z 268435456%Z;
  Lin [876; 5858; 5413] [25451; 5922; 25450; 25449; 25448; 5412] 0%Z [(1%Z, 876); (1%Z, 5858); (1%Z, 5413); ((-1)%Z, 5922); ((-2)%Z, 5412)] 633825300114114700748351602688%Z 536870912%Z;
  Lin [875; 5857; 5412] [25447; 5921; 25446; 25445; 25444; 5411] 0%Z [(1%Z, 875); (1%Z, 5857); (1%Z, 5412); ((-1)%Z, 5921); ((-2)%Z, 5411)] 316912650057057350374175801344%Z 1073741824%Z;
  Lin [874; 5856; 5411] [25443; 5920; 25442; 25441; 25440; 5410] 0%Z [(1%Z, 874); (1%Z, 5856); (1%Z, 5411); ((-1)%Z, 5920); ((-2)%Z, 5410)] 158456325028528675187087900672%Z 2147483648%Z;
  Lin [873; 5855; 5410] [25439; 5919; 25438; 25437; 25436; 5409] 0%Z [(1%Z, 873); (1%Z, 5855); (1%Z, 5410); ((-1)%Z, 5919); ((-2)%Z, 5409)] 79228162514264337593543950336%Z 4294967296%Z;
  Lin [872; 5854; 5409] [25435; 5918; 25434; 25433; 25432; 5408] 0%Z [(1%Z, 872); (1%Z, 5854); (1%Z, 5409); ((-1)%Z, 5918); ((-2)%Z, 5408)] 39614081257132168796771975168%Z 8589934592%Z;
  Lin [871; 5853; 5408] [25431; 5917; 25430; 25429; 25428; 5407] 0%Z [(1%Z, 871); (1%Z, 5853); (1%Z, 5408); ((-1)%Z, 5917); ((-2)%Z, 5407)] 19807040628566084398385987584%Z 17179869184%Z;
  Lin [870; 5852; 5407] [25427; 5916; 25426; 25425; 25424; 5406] 0%Z [(1%Z, 870); (1%Z, 5852); (1%Z, 5407); ((-1)%Z, 5916); ((-2)%Z, 5406)] 9903520314283042199192993792%Z 34359738368%Z;
  Lin [869; 5851; 5406] [25423; 5915; 25422; 25421; 25420; 5405] 0%Z [(1%Z, 869); (1%Z, 5851); (1%Z, 5406); ((-1)%Z, 5915); ((-2)%Z, 5405)] 4951760157141521099596496896%Z 68719476736%Z;
  Lin [868; 5850; 5405] [25419; 5914; 25418; 25417; 25416; 5404] 0%Z [(1%Z, 868); (1%Z, 5850); (1%Z, 5405); ((-1)%Z, 5914); ((-2)%Z, 5404)] 2475880078570760549798248448%Z 137438953472%Z;
  Lin [867; 5849; 5404] [25415; 5913; 25414; 25413; 25412; 5403] 0%Z [(1%Z, 867); (1%Z, 5849); (1%Z, 5404); ((-1)%Z, 5913); ((-2)%Z, 5403)] 1237940039285380274899124224%Z 274877906944%Z;
  Lin [866; 5848; 5403] [25411; 5912; 25410; 25409; 25408; 5402] 0%Z [(1%Z, 866); (1%Z, 5848); (1%Z, 5403); ((-1)%Z, 5912); ((-2)%Z, 5402)] 618970019642690137449562112%Z 549755813888%Z;
  Lin [865; 5847; 5402] [25407; 5911; 25406; 25405; 25404; 5401] 0%Z [(1%Z, 865); (1%Z, 5847); (1%Z, 5402); ((-1)%Z, 5911); ((-2)%Z, 5401)] 309485009821345068724781056%Z 1099511627776%Z;
  Lin [864; 5846; 5401] [25403; 5910; 25402; 25401; 25400; 5400] 0%Z [(1%Z, 864); (1%Z, 5846); (1%Z, 5401); ((-1)%Z, 5910); ((-2)%Z, 5400)] 154742504910672534362390528%Z 2199023255552%Z;
  Lin [863; 5845; 5400] [25399; 5909; 25398; 25397; 25396; 5399] 0%Z [(1%Z, 863); (1%Z, 5845); (1%Z, 5400); ((-1)%Z, 5909); ((-2)%Z, 5399)] 77371252455336267181195264%Z 4398046511104%Z;
  Lin [862; 5844; 5399] [25395; 5908; 25394; 25393; 25392; 5398] 0%Z [(1%Z, 862); (1%Z, 5844); (1%Z, 5399); ((-1)%Z, 5908); ((-2)%Z, 5398)] 38685626227668133590597632%Z 8796093022208%Z;
  Lin [861; 5843; 5398] [25391; 5907; 25390; 25389; 25388; 5397] 0%Z [(1%Z, 861); (1%Z, 5843); (1%Z, 5398); ((-1)%Z, 5907); ((-2)%Z, 5397)] 19342813113834066795298816%Z 17592186044416%Z;
  Lin [860; 5842; 5397] [25387; 5906; 25386; 25385; 25384; 5396] 0%Z [(1%Z, 860); (1%Z, 5842); (1%Z, 5397); ((-1)%Z, 5906); ((-2)%Z, 5396)] 9671406556917033397649408%Z 35184372088832%Z;
  Lin [859; 5841; 5396] [25383; 5905; 25382; 25381; 25380; 5395] 0%Z [(1%Z, 859); (1%Z, 5841); (1%Z, 5396); ((-1)%Z, 5905); ((-2)%Z, 5395)] 4835703278458516698824704%Z 70368744177664%Z;
  Lin [858; 5840; 5395] [25379; 5904; 25378; 25377; 25376; 5394] 0%Z [(1%Z, 858); (1%Z, 5840); (1%Z, 5395); ((-1)%Z, 5904); ((-2)%Z, 5394)] 2417851639229258349412352%Z 140737488355328%Z;
  Lin [857; 5839; 5394] [25375; 5903; 25374; 25373; 25372; 5393] 0%Z [(1%Z, 857); (1%Z, 5839); (1%Z, 5394); ((-1)%Z, 5903); ((-2)%Z, 5393)] 1208925819614629174706176%Z 281474976710656%Z;
  Lin [856; 5838; 5393] [25371; 5902; 25370; 25369; 25368; 5392] 0%Z [(1%Z, 856); (1%Z, 5838); (1%Z, 5393); ((-1)%Z, 5902); ((-2)%Z, 5392)] 604462909807314587353088%Z 562949953421312%Z;
  Lin [855; 5837; 5392] [25367; 5901; 25366; 25365; 25364; 5391] 0%Z [(1%Z, 855); (1%Z, 5837); (1%Z, 5392); ((-1)%Z, 5901); ((-2)%Z, 5391)] 302231454903657293676544%Z 1125899906842624%Z;
  Lin [854; 5836; 5391] [25363; 5900; 25362; 25361; 25360; 5390] 0%Z [(1%Z, 854); (1%Z, 5836); (1%Z, 5391); ((-1)%Z, 5900); ((-2)%Z, 5390)] 151115727451828646838272%Z 2251799813685248%Z;
  Lin [853; 5835; 5390] [25359; 5899; 25358; 25357; 25356; 5389] 0%Z [(1%Z, 853); (1%Z, 5835); (1%Z, 5390); ((-1)%Z, 5899); ((-2)%Z, 5389)] 75557863725914323419136%Z 4503599627370496%Z;
  Lin [852; 5834; 5389] [25355; 5898; 25354; 25353; 25352; 5388] 0%Z [(1%Z, 852); (1%Z, 5834); (1%Z, 5389); ((-1)%Z, 5898); ((-2)%Z, 5388)] 37778931862957161709568%Z 9007199254740992%Z;
  Lin [851; 5833; 5388] [25351; 5897; 25350; 25349; 25348; 5387] 0%Z [(1%Z, 851); (1%Z, 5833); (1%Z, 5388); ((-1)%Z, 5897); ((-2)%Z, 5387)] 18889465931478580854784%Z 18014398509481984%Z;
  Lin [850; 5832; 5387] [25347; 5896; 25346; 25345; 25344; 5386] 0%Z [(1%Z, 850); (1%Z, 5832); (1%Z, 5387); ((-1)%Z, 5896); ((-2)%Z, 5386)] 9444732965739290427392%Z 36028797018963968%Z;
  Lin [849; 5831; 5386] [25343; 5895; 25342; 25341; 25340; 5385] 0%Z [(1%Z, 849); (1%Z, 5831); (1%Z, 5386); ((-1)%Z, 5895); ((-2)%Z, 5385)] 4722366482869645213696%Z 72057594037927936%Z;
  Lin [848; 5830; 5385] [25339; 5894; 25338; 25337; 25336; 5384] 0%Z [(1%Z, 848); (1%Z, 5830); (1%Z, 5385); ((-1)%Z, 5894); ((-2)%Z, 5384)] 2361183241434822606848%Z 144115188075855872%Z;
  Lin [847; 5829; 5384] [25335; 5893; 25334; 25333; 25332; 5383] 0%Z [(1%Z, 847); (1%Z, 5829); (1%Z, 5384); ((-1)%Z, 5893); ((-2)%Z, 5383)] 1180591620717411303424%Z 288230376151711744%Z;
  Lin [846; 5828; 5383] [25331; 5892; 25330; 25329; 25328; 5382] 0%Z [(1%Z, 846); (1%Z, 5828); (1%Z, 5383); ((-1)%Z, 5892); ((-2)%Z, 5382)] 590295810358705651712%Z 576460752303423488%Z;
  Lin [845; 5827; 5382] [25327; 5891; 25326; 25325; 25324; 5381] 0%Z [(1%Z, 845); (1%Z, 5827); (1%Z, 5382); ((-1)%Z, 5891); ((-2)%Z, 5381)] 295147905179352825856%Z 1152921504606846976%Z;
  Lin [844; 5826; 5381] [25323; 5890; 25322; 25321; 25320; 5380] 0%Z [(1%Z, 844); (1%Z, 5826); (1%Z, 5381); ((-1)%Z, 5890); ((-2)%Z, 5380)] 147573952589676412928%Z 2305843009213693952%Z;
  Lin [843; 5825; 5380] [25319; 5889; 25318; 25317; 25316; 5379] 0%Z [(1%Z, 843); (1%Z, 5825); (1%Z, 5380); ((-1)%Z, 5889); ((-2)%Z, 5379)] 73786976294838206464%Z 4611686018427387904%Z;
  Lin [842; 5824; 5379] [25315; 5888; 25314; 25313; 25312; 5378] 0%Z [(1%Z, 842); (1%Z, 5824); (1%Z, 5379); ((-1)%Z, 5888); ((-2)%Z, 5378)] 36893488147419103232%Z 9223372036854775808%Z;
  Lin [841; 5823; 5378] [25311; 5887; 25310; 25309; 25308; 5377] 0%Z [(1%Z, 841); (1%Z, 5823); (1%Z, 5378); ((-1)%Z, 5887); ((-2)%Z, 5377)] 18446744073709551616%Z 18446744073709551616%Z;
  Lin [840; 5822; 5377] [25307; 5886; 25306; 25305; 25304; 5376] 0%Z [(1%Z, 840); (1%Z, 5822); (1%Z, 5377); ((-1)%Z, 5886); ((-2)%Z, 5376)] 9223372036854775808%Z 36893488147419103232%Z;
  Lin [839; 5821; 5376] [25303; 5885; 25302; 25301; 25300; 5375] 0%Z [(1%Z, 839); (1%Z, 5821); (1%Z, 5376); ((-1)%Z, 5885); ((-2)%Z, 5375)] 4611686018427387904%Z 73786976294838206464%Z;
  Lin [838; 5820; 5375] [25299; 5884; 25298; 25297; 25296; 5374] 0%Z [(1%Z, 838); (1%Z, 5820); (1%Z, 5375); ((-1)%Z, 5884); ((-2)%Z, 5374)] 2305843009213693952%Z 147573952589676412928%Z;
  Lin [837; 5819; 5374] [25295; 5883; 25294; 25293; 25292; 5373] 0%Z [(1%Z, 837); (1%Z, 5819); (1%Z, 5374); ((-1)%Z, 5883); ((-2)%Z, 5373)] 1152921504606846976%Z 295147905179352825856%Z;
  Lin [836; 5818; 5373] [25291; 5882; 25290; 25289; 25288; 5372] 0%Z [(1%Z, 836); (1%Z, 5818); (1%Z, 5373); ((-1)%Z, 5882); ((-2)%Z, 5372)] 576460752303423488%Z 590295810358705651712%Z;
  Lin [835; 5817; 5372] [25287; 5881; 25286; 25285; 25284; 5371] 0%Z [(1%Z, 835); (1%Z, 5817); (1%Z, 5372); ((-1)%Z, 5881); ((-2)%Z, 5371)] 288230376151711744%Z 1180591620717411303424%Z].
Definition mult2_64_facts_7 : list lin_fact := [
  Lin [834; 5816; 5371] [25283; 5880; 25282; 25281; 25280; 5370] 0%Z [(1%Z, 834); (1%Z, 5816); (1%Z, 5371); ((-1)%Z, 5880); ((-2)%Z, 5370)] 144115188075855872%Z 2361183241434822606848%Z;
  Lin [833; 5815; 5370] [25279; 5879; 25278; 25277; 25276; 5369] 0%Z [(1%Z, 833); (1%Z, 5815); (1%Z, 5370); ((-1)%Z, 5879); ((-2)%Z, 5369)] 72057594037927936%Z 4722366482869645213696%Z;
  Lin [832; 5814; 5369] [25275; 5878; 25274; 25273; 25272; 5368] 0%Z [(1%Z, 832); (1%Z, 5814); (1%Z, 5369); ((-1)%Z, 5878); ((-2)%Z, 5368)] 36028797018963968%Z 9444732965739290427392%Z;
  Lin [831; 5303; 5368] [25271; 5877; 25270; 25269; 25268; 5367] 0%Z [(1%Z, 831); (1%Z, 5303); (1%Z, 5368); ((-1)%Z, 5877); ((-2)%Z, 5367)] 18014398509481984%Z 18889465931478580854784%Z;
  Lin [958; 5939] [28108; 5494] 0%Z [(1%Z, 958); (1%Z, 5939); ((-1)%Z, 28108); ((-2)%Z, 5494)] 83076749736557242056487941267521536%Z 4096%Z;
  Lin [957; 5938; 5494] [25267; 6002; 25266; 25265; 25264; 5493] 0%Z [(1%Z, 957); (1%Z, 5938); (1%Z, 5494); ((-1)%Z, 6002); ((-2)%Z, 5493)] 41538374868278621028243970633760768%Z 8192%Z;
  Lin [956; 5937; 5493] [25263; 6001; 25262; 25261; 25260; 5492] 0%Z [(1%Z, 956); (1%Z, 5937); (1%Z, 5493); ((-1)%Z, 6001); ((-2)%Z, 5492)] 20769187434139310514121985316880384%Z 16384%Z;
  Lin [955; 5936; 5492] [25259; 6000; 25258; 25257; 25256; 5491] 0%Z [(1%Z, 955); (1%Z, 5936); (1%Z, 5492); ((-1)%Z, 6000); ((-2)%Z, 5491)] 10384593717069655257060992658440192%Z 32768%Z;
  Lin [954; 5935; 5491] [25255; 5999; 25254; 25253; 25252; 5490] 0%Z [(1%Z, 954); (1%Z, 5935); (1%Z, 5491); ((-1)%Z, 5999); ((-2)%Z, 5490)] 5192296858534827628530496329220096%Z 65536%Z;
  Lin [953; 5934; 5490] [25251; 5998; 25250; 25249; 25248; 5489] 0%Z [(1%Z, 953); (1%Z, 5934); (1%Z, 5490); ((-1)%Z, 5998); ((-2)%Z, 5489)] 2596148429267413814265248164610048%Z 131072%Z;
  Lin [952; 5933; 5489] [25247; 5997; 25246; 25245; 25244; 5488] 0%Z [(1%Z, 952); (1%Z, 5933); (1%Z, 5489); ((-1)%Z, 5997); ((-2)%Z, 5488)] 1298074214633706907132624082305024%Z 262144%Z;
  Lin [951; 5932; 5488] [25243; 5996; 25242; 25241; 25240; 5487] 0%Z [(1%Z, 951); (1%Z, 5932); (1%Z, 5488); ((-1)%Z, 5996); ((-2)%Z, 5487)] 649037107316853453566312041152512%Z 524288%Z;
  Lin [950; 5931; 5487] [25239; 5995; 25238; 25237; 25236; 5486] 0%Z [(1%Z, 950); (1%Z, 5931); (1%Z, 5487); ((-1)%Z, 5995); ((-2)%Z, 5486)] 324518553658426726783156020576256%Z 1048576%Z;
  Lin [949; 5930; 5486] [25235; 5994; 25234; 25233; 25232; 5485] 0%Z [(1%Z, 949); (1%Z, 5930); (1%Z, 5486); ((-1)%Z, 5994); ((-2)%Z, 5485)] 162259276829213363391578010288128%Z 2097152%Z;
  Lin [948; 5929; 5485] [25231; 5993; 25230; 25229; 25228; 5484] 0%Z [(1%Z, 948); (1%Z, 5929); (1%Z, 5485); ((-1)%Z, 5993); ((-2)%Z, 5484)] 81129638414606681695789005144064%Z 4194304%Z;
  Lin [947; 5928; 5484] [25227; 5992; 25226; 25225; 25224; 5483] 0%Z [(1%Z, 947); (1%Z, 5928); (1%Z, 5484); ((-1)%Z, 5992); ((-2)%Z, 5483)] 40564819207303340847894502572032%Z 8388608%Z;
  Lin [946; 5927; 5483] [25223; 5991; 25222; 25221; 25220; 5482] 0%Z [(1%Z, 946); (1%Z, 5927); (1%Z, 5483); ((-1)%Z, 5991); ((-2)%Z, 5482)] 20282409603651670423947251286016%Z 16777216%Z;
  Lin [945; 5926; 5482] [25219; 5990; 25218; 25217; 25216; 5481] 0%Z [(1%Z, 945); (1%Z, 5926); (1%Z, 5482); ((-1)%Z, 5990); ((-2)%Z, 5481)] 10141204801825835211973625643008%Z 33554432%Z;
  Lin [944; 5925; 5481] [25215; 5989; 25214; 25213; 25212; 5480] 0%Z [(1%Z, 944); (1%Z, 5925); (1%Z, 5481); ((-1)%Z, 5989); ((-2)%Z, 5480)] 5070602400912917605986812821504%Z 67108864%Z;
  Lin [943; 5924; 5480] [25211; 5988; 25210; 25209; 25208; 5479] 0%Z [(1%Z, 943); (1%Z, 5924); (1%Z, 5480); ((-1)%Z, 5988); ((-2)%Z, 5479)] 2535301200456458802993406410752%Z 134217728%Z;
  Lin [942; 5923; 5479] [25207; 5987; 25206; 25205; 25204; 5478] 0%Z [(1%Z, 942); (1%Z, 5923); (1%Z, 5479); ((-1)%Z, 5987); ((-2)%Z, 5478)] 1267650600228229401496703205376%Z 268435456%Z;
  Lin [941; 5922; 5478] [25203; 5986; 25202; 25201; 25200; 5477] 0%Z [(1%Z, 941); (1%Z, 5922); (1%Z, 5478); ((-1)%Z, 5986); ((-2)%Z, 5477)] 633825300114114700748351602688%Z 536870912%Z;
  Lin [940; 5921; 5477] [25199; 5985; 25198; 25197; 25196; 5476] 0%Z [(1%Z, 940); (1%Z, 5921); (1%Z, 5477); ((-1)%Z, 5985); ((-2)%Z, 5476)] 316912650057057350374175801344%Z 1073741824%Z;
  Lin [939; 5920; 5476] [25195; 5984; 25194; 25193; 25192; 5475] 0%Z [(1%Z, 939); (1%Z, 5920); (1%Z, 5476); ((-1)%Z, 5984); ((-2)%Z, 5475)] 158456325028528675187087900672%Z 2147483648%Z;
  Lin [938; 5919; 5475] [25191; 5983; 25190; 25189; 25188; 5474] 0%Z [(1%Z, 938); (1%Z, 5919); (1%Z, 5475); ((-1)%Z, 5983); ((-2)%Z, 5474)] 79228162514264337593543950336%Z 4294967296%Z;
  Lin [937; 5918; 5474] [25187; 5982; 25186; 25185; 25184; 5473] 0%Z [(1%Z, 937); (1%Z, 5918); (1%Z, 5474); ((-1)%Z, 5982); ((-2)%Z, 5473)] 39614081257132168796771975168%Z 8589934592%Z;
  Lin [936; 5917; 5473] [25183; 5981; 25182; 25181; 25180; 5472] 0%Z [(1%Z, 936); (1%Z, 5917); (1%Z, 5473); ((-1)%Z, 5981); ((-2)%Z, 5472)] 19807040628566084398385987584%Z 17179869184%Z;
  Lin [935; 5916; 5472] [25179; 5980; 25178; 25177; 25176; 5471] 0%Z [(1%Z, 935); (1%Z, 5916); (1%Z, 5472); ((-1)%Z, 5980); ((-2)%Z, 5471)] 9903520314283042199192993792%Z 34359738368%Z;
  Lin [934; 5915; 5471] [25175; 5979; 25174; 25173; 25172; 5470] 0%Z [(1%Z, 934); (1%Z, 5915); (1%Z, 5471); ((-1)%Z, 5979); ((-2)%Z, 5470)] 4951760157141521099596496896%Z 68719476736%Z;
  Lin [933; 5914; 5470] [25171; 5978; 25170; 25169; 25168; 5469] 0%Z [(1%Z, 933); (1%Z, 5914); (1%Z, 5470); ((-1)%Z, 5978); ((-2)%Z, 5469)] 2475880078570760549798248448%Z 137438953472%Z;
  Lin [932; 5913; 5469] [25167; 5977; 25166; 25165; 25164; 5468] 0%Z [(1%Z, 932); (1%Z, 5913); (1%Z, 5469); ((-1)%Z, 5977); ((-2)%Z, 5468)] 1237940039285380274899124224%Z 274877906944%Z;
  Lin [931; 5912; 5468] [25163; 5976; 25162; 25161; 25160; 5467] 0%Z [(1%Z, 931); (1%Z, 5912); (1%Z, 5468); ((-1)%Z, 5976); ((-2)%Z, 5467)] 618970019642690137449562112%Z 549755813888%Z;
  Lin [930; 5911; 5467] [25159; 5975; 25158; 25157; 25156; 5466] 0%Z [(1%Z, 930); (1%Z, 5911); (1%Z, 5467); ((-1)%Z, 5975); ((-2)%Z, 5466)] 309485009821345068724781056%Z 1099511627776%Z;
  Lin [929; 5910; 5466] [25155; 5974; 25154; 25153; 25152; 5465] 0%Z [(1%Z, 929); (1%Z, 5910); (1%Z, 5466); ((-1)%Z, 5974); ((-2)%Z, 5465)] 154742504910672534362390528%Z 2199023255552%Z;
  Lin [928; 5909; 5465] [25151; 5973; 25150; 25149; 25148; 5464] 0%Z [(1%Z, 928); (1%Z, 5909); (1%Z, 5465); ((-1)%Z, 5973); ((-2)%Z, 5464)] 77371252455336267181195264%Z 4398046511104%Z;
  Lin [927; 5908; 5464] [25147; 5972; 25146; 25145; 25144; 5463] 0%Z [(1%Z, 927); (1%Z, 5908); (1%Z, 5464); ((-1)%Z, 5972); ((-2)%Z, 5463)] 38685626227668133590597632%Z 8796093022208%Z;
  Lin [926; 5907; 5463] [25143; 5971; 25142; 25141; 25140; 5462] 0%Z [(1%Z, 926); (1%Z, 5907); (1%Z, 5463); ((-1)%Z, 5971); ((-2)%Z, 5462)] 19342813113834066795298816%Z 17592186044416%Z;
  Lin [925; 5906; 5462] [25139; 5970; 25138; 25137; 25136; 5461] 0%Z [(1%Z, 925); (1%Z, 5906); (1%Z, 5462); ((-1)%Z, 5970); ((-2)%Z, 5461)] 9671406556917033397649408%Z 35184372088832%Z;
  Lin [924; 5905; 5461] [25135; 5969; 25134; 25133; 25132; 5460] 0%Z [(1%Z, 924); (1%Z, 5905); (1%Z, 5461); ((-1)%Z, 5969); ((-2)%Z, 5460)] 4835703278458516698824704%Z 70368744177664%Z;
  Lin [923; 5904; 5460] [25131; 5968; 25130; 25129; 25128; 5459] 0%Z [(1%Z, 923); (1%Z, 5904); (1%Z, 5460); ((-1)%Z, 5968); ((-2)%Z, 5459)] 2417851639229258349412352%Z 140737488355328%Z;
  Lin [922; 5903; 5459] [25127; 5967; 25126; 25125; 25124; 5458] 0%Z [(1%Z, 922); (1%Z, 5903); (1%Z, 5459); ((-1)%Z, 5967); ((-2)%Z, 5458)] 1208925819614629174706176%Z 281474976710656%Z;
  Lin [921; 5902; 5458] [25123; 5966; 25122; 25121; 25120; 5457] 0%Z [(1%Z, 921); (1%Z, 5902); (1%Z, 5458); ((-1)%Z, 5966); ((-2)%Z, 5457)] 604462909807314587353088%Z 562949953421312%Z;
  Lin [920; 5901; 5457] [25119; 5965; 25118; 25117; 25116; 5456] 0%Z [(1%Z, 920); (1%Z, 5901); (1%Z, 5457); ((-1)%Z, 5965); ((-2)%Z, 5456)] 302231454903657293676544%Z 1125899906842624%Z;
  Lin [919; 5900; 5456] [25115; 5964; 25114; 25113; 25112; 5455] 0%Z [(1%Z, 919); (1%Z, 5900); (1%Z, 5456); ((-1)%Z, 5964); ((-2)%Z, 5455)] 151115727451828646838272%Z 2251799813685248%Z;
  Lin [918; 5899; 5455] [25111; 5963; 25110; 25109; 25108; 5454] 0%Z [(1%Z, 918); (1%Z, 5899); (1%Z, 5455); ((-1)%Z, 5963); ((-2)%Z, 5454)] 75557863725914323419136%Z 4503599627370496%Z;
  Lin [917; 5898; 5454] [25107; 5962; 25106; 25105; 25104; 5453] 0%Z [(1%Z, 917); (1%Z, 5898); (1%Z, 5454); ((-1)%Z, 5962); ((-2)%Z, 5453)] 37778931862957161709568%Z 9007199254740992%Z;
  Lin [916; 5897; 5453] [25103; 5961; 25102; 25101; 25100; 5452] 0%Z [(1%Z, 916); (1%Z, 5897); (1%Z, 5453); ((-1)%Z, 5961); ((-2)%Z, 5452)] 18889465931478580854784%Z 18014398509481984%Z;
  Lin [915; 5896; 5452] [25099; 5960; 25098; 25097; 25096; 5451] 0%Z [(1%Z, 915); (1%Z, 5896); (1%Z, 5452); ((-1)%Z, 5960); ((-2)%Z, 5451)] 9444732965739290427392%Z 36028797018963968%Z;
  Lin [914; 5895; 5451] [25095; 5959; 25094; 25093; 25092; 5450] 0%Z [(1%Z, 914); (1%Z, 5895); (1%Z, 5451); ((-1)%Z, 5959); ((-2)%Z, 5450)] 4722366482869645213696%Z 72057594037927936%Z;
  Lin [913; 5894; 5450] [25091; 5958; 25090; 25089; 25088; 5449] 0%Z [(1%Z, 913); (1%Z, 5894); (1%Z, 5450); ((-1)%Z, 5958); ((-2)%Z, 5449)] 2361183241434822606848%Z 144115188075855872%Z;
  Lin [912; 5893; 5449] [25087; 5957; 25086; 25085; 25084; 5448] 0%Z [(1%Z, 912); (1%Z, 5893); (1%Z, 5449); ((-1)%Z, 5957); ((-2)%Z, 5448)] 1180591620717411303424%Z 288230376151711744%Z;
  Lin [911; 5892; 5448] [25083; 5956; 25082; 25081; 25080; 5447] 0%Z [(1%Z, 911); (1%Z, 5892); (1%Z, 5448); ((-1)%Z, 5956); ((-2)%Z, 5447)] 590295810358705651712%Z 576460752303423488%Z;
  Lin [910; 5891; 5447] [25079; 5955; 25078; 25077; 25076; 5446] 0%Z [(1%Z, 910); (1%Z, 5891); (1%Z, 5447); ((-1)%Z, 5955); ((-2)%Z, 5446)] 295147905179352825856%Z 1152921504606846976%Z;
  Lin [909; 5890; 5446] [25075; 5954; 25074; 25073; 25072; 5445] 0%Z [(1%Z, 909); (1%Z, 5890); (1%Z, 5446); ((-1)%Z, 5954); ((-2)%Z, 5445)] 147573952589676412928%Z 2305843009213693952%Z;
  Lin [908; 5889; 5445] [25071; 5953; 25070; 25069; 25068; 5444] 0%Z [(1%Z, 908); (1%Z, 5889); (1%Z, 5445); ((-1)%Z, 5953); ((-2)%Z, 5444)] 73786976294838206464%Z 4611686018427387904%Z;
  Lin [907; 5888; 5444] [25067; 5952; 25066; 25065; 25064; 5443] 0%Z [(1%Z, 907); (1%Z, 5888); (1%Z, 5444); ((-1)%Z, 5952); ((-2)%Z, 5443)] 36893488147419103232%Z 9223372036854775808%Z;
  Lin [906; 5887; 5443] [25063; 5951; 25062; 25061; 25060; 5442] 0%Z [(1%Z, 906); (1%Z, 5887); (1%Z, 5443); ((-1)%Z, 5951); ((-2)%Z, 5442)] 18446744073709551616%Z 18446744073709551616%Z;
  Lin [905; 5886; 5442] [25059; 5950; 25058; 25057; 25056; 5441] 0%Z [(1%Z, 905); (1%Z, 5886); (1%Z, 5442); ((-1)%Z, 5950); ((-2)%Z, 5441)] 9223372036854775808%Z 36893488147419103232%Z;
  Lin [904; 5885; 5441] [25055; 5949; 25054; 25053; 25052; 5440] 0%Z [(1%Z, 904); (1%Z, 5885); (1%Z, 5441); ((-1)%Z, 5949); ((-2)%Z, 5440)] 4611686018427387904%Z 73786976294838206464%Z;
  Lin [903; 5884; 5440] [25051; 5948; 25050; 25049; 25048; 5439] 0%Z [(1%Z, 903); (1%Z, 5884); (1%Z, 5440); ((-1)%Z, 5948); ((-2)%Z, 5439)] 2305843009213693952%Z 147573952589676412928%Z;
  Lin [902; 5883; 5439] [25047; 5947; 25046; 25045; 25044; 5438] 0%Z [(1%Z, 902); (1%Z, 5883); (1%Z, 5439); ((-1)%Z, 5947); ((-2)%Z, 5438)] 1152921504606846976%Z 295147905179352825856%Z;
  Lin [901; 5882; 5438] [25043; 5946; 25042; 25041; 25040; 5437] 0%Z [(1%Z, 901); (1%Z, 5882); (1%Z, 5438); ((-1)%Z, 5946); ((-2)%Z, 5437)] 576460752303423488%Z 590295810358705651712%Z;
  Lin [900; 5881; 5437] [25039; 5945; 25038; 25037; 25036; 5436] 0%Z [(1%Z, 900); (1%Z, 5881); (1%Z, 5437); ((-1)%Z, 5945); ((-2)%Z, 5436)] 288230376151711744%Z 1180591620717411303424%Z;
  Lin [899; 5880; 5436] [25035; 5944; 25034; 25033; 25032; 5435] 0%Z [(1%Z, 899); (1%Z, 5880); (1%Z, 5436); ((-1)%Z, 5944); ((-2)%Z, 5435)] 144115188075855872%Z 2361183241434822606848%Z;
  Lin [898; 5879; 5435] [25031; 5943; 25030; 25029; 25028; 5434] 0%Z [(1%Z, 898); (1%Z, 5879); (1%Z, 5435); ((-1)%Z, 5943); ((-2)%Z, 5434)] 72057594037927936%Z 4722366482869645213696%Z;
  Lin [897; 5878; 5434] [25027; 5942; 25026; 25025; 25024; 5433] 0%Z [(1%Z, 897); (1%Z, 5878); (1%Z, 5434); ((-1)%Z, 5942); ((-2)%Z, 5433)] 36028797018963968%Z 9444732965739290427392%Z;
  Lin [896; 5877; 5433] [25023; 5941; 25022; 25021; 25020; 5432] 0%Z [(1%Z, 896); (1%Z, 5877); (1%Z, 5433); ((-1)%Z, 5941); ((-2)%Z, 5432)] 18014398509481984%Z 18889465931478580854784%Z;
  Lin [895; 5367; 5432] [25019; 5940; 25018; 25017; 25016; 5431] 0%Z [(1%Z, 895); (1%Z, 5367); (1%Z, 5432); ((-1)%Z, 5940); ((-2)%Z, 5431)] 9007199254740992%Z 37778931862957161709568%Z;
  Lin [1022; 6002] [28109; 5558] 0%Z [(1%Z, 1022); (1%Z, 6002); ((-1)%Z, 28109); ((-2)%Z, 5558)] 41538374868278621028243970633760768%Z 8192%Z;
  Lin [1021; 6001; 5558] [25015; 6065; 25014; 25013; 25012; 5557] 0%Z [(1%Z, 1021); (1%Z, 6001); (1%Z, 5558); ((-1)%Z, 6065); ((-2)%Z, 5557)] 20769187434139310514121985316880384%Z 16384%Z;
  Lin [1020; 6000; 5557] [25011; 6064; 25010; 25009; 25008; 5556] 0%Z [(1%Z, 1020); (1%Z, 6000); (1%Z, 5557); ((-1)%Z, 6064); ((-2)%Z, 5556)] 10384593717069655257060992658440192%Z 32768%Z;
  Lin [1019; 5999; 5556] [25007; 6063; 25006; 25005; 25004; 5555] 0%Z [(1%Z, 1019); (1%Z, 5999); (1%Z, 5556); ((-1)%Z, 6063); ((-2)%Z, 5555)] 5192296858534827628530496329220096%Z 65536%Z;
  Lin [1018; 5998; 5555] [25003; 6062; 25002; 25001; 25000; 5554] 0%Z [(1%Z, 1018); (1%Z, 5998); (1%Z, 5555); ((-1)%Z, 6062); ((-2)%Z, 5554)] 2596148429267413814265248164610048%Z 131072%Z;
  Lin [1017; 5997; 5554] [24999; 6061; 24998; 24997; 24996; 5553] 0%Z [(1%Z, 1017); (1%Z, 5997); (1%Z, 5554); ((-1)%Z, 6061); ((-2)%Z, 5553)] 1298074214633706907132624082305024%Z 262144%Z;
  Lin [1016; 5996; 5553] [24995; 6060; 24994; 24993; 24992; 5552] 0%Z [(1%Z, 1016); (1%Z, 5996); (1%Z, 5553); ((-1)%Z, 6060); ((-2)%Z, 5552)] 649037107316853453566312041152512%Z 524288%Z;
  Lin [1015; 5995; 5552] [24991; 6059; 24990; 24989; 24988; 5551] 0%Z [(1%Z, 1015); (1%Z, 5995); (1%Z, 5552); ((-1)%Z, 6059); ((-2)%Z, 5551)] 324518553658426726783156020576256%Z 1048576%Z;
  Lin [1014; 5994; 5551] [24987; 6058; 24986; 24985; 24984; 5550] 0%Z [(1%Z, 1014); (1%Z, 5994); (1%Z, 5551); ((-1)%Z, 6058); ((-2)%Z, 5550)] 162259276829213363391578010288128%Z 2097152%Z;
  Lin [1013; 5993; 5550] [24983; 6057; 24982; 24981; 24980; 5549] 0%Z [(1%Z, 1013); (1%Z, 5993); (1%Z, 5550); ((-1)%Z, 6057); ((-2)%Z, 5549)] 81129638414606681695789005144064%Z 4194304%Z;
  Lin [1012; 5992; 5549] [24979; 6056; 24978; 24977; 24976; 5548] 0%Z [(1%Z, 1012); (1%Z, 5992); (1%Z, 5549); ((-1)%Z, 6056); ((-2)%Z, 5548)] 40564819207303340847894502572032%Z 8388608%Z;
  Lin [1011; 5991; 5548] [24975; 6055; 24974; 24973; 24972; 5547] 0%Z [(1%Z, 1011); (1%Z, 5991); (1%Z, 5548); ((-1)%Z, 6055); ((-2)%Z, 5547)] 20282409603651670423947251286016%Z 16777216%Z;
  Lin [1010; 5990; 5547] [24971; 6054; 24970; 24969; 24968; 5546] 0%Z [(1%Z, 1010); (1%Z, 5990); (1%Z, 5547); ((-1)%Z, 6054); ((-2)%Z, 5546)] 10141204801825835211973625643008%Z 33554432%Z;
  Lin [1009; 5989; 5546] [24967; 6053; 24966; 24965; 24964; 5545] 0%Z [(1%Z, 1009); (1%Z, 5989); (1%Z, 5546); ((-1)%Z, 6053); ((-2)%Z, 5545)] 5070602400912917605986812821504%Z 67108864%Z;
  Lin [1008; 5988; 5545] [24963; 6052; 24962; 24961; 24960; 5544] 0%Z [(1%Z, 1008); (1%Z, 5988); (1%Z, 5545); ((-1)%Z, 6052); ((-2)%Z, 5544)] 2535301200456458802993406410752%Z 134217728%Z;
  Lin [1007; 5987; 5544] [24959; 6051; 24958; 24957; 24956; 5543] 0%Z [(1%Z, 1007); (1%Z, 5987); (1%Z, 5544); ((-1)%Z, 6051); ((-2)%Z, 5543)] 1267650600228229401496703205376%Z 268435456%Z;
  Lin [1006; 5986; 5543] [24955; 6050; 24954; 24953; 24952; 5542] 0%Z [(1%Z, 1006); (1%Z, 5986); (1%Z, 5543); ((-1)%Z, 6050); ((-2)%Z, 5542)] 633825300114114700748351602688%Z 536870912%Z;
  Lin [1005; 5985; 5542] [24951; 6049; 24950; 24949; 24948; 5541] 0%Z [(1%Z, 1005); (1%Z, 5985); (1%Z, 5542); ((-1)%Z, 6049); ((-2)%Z, 5541)] 316912650057057350374175801344%Z 1073741824%Z;
  Lin [1004; 5984; 5541] [24947; 6048; 24946; 24945; 24944; 5540] 0%Z [(1%Z, 1004); (1%Z, 5984); (1%Z, 5541); ((-1)%Z, 6048); ((-2)%Z, 5540)] 158456325028528675187087900672%Z 2147483648%Z;
  Lin [1003; 5983; 5540] [24943; 6047; 24942; 24941; 24940; 5539] 0%Z [(1%Z, 1003); (1%Z, 5983); (1%Z, 5540); ((-1)%Z, 6047); ((-2)%Z, 5539)] 79228162514264337593543950336%Z 4294967296%Z;
  Lin [1002; 5982; 5539] [24939; 6046; 24938; 24937; 24936; 5538] 0%Z [(1%Z, 1002); (1%Z, 5982); (1%Z, 5539); ((-1)%Z, 6046); ((-2)%Z, 5538)] 39614081257132168796771975168%Z 8589934592%Z;
  Lin [1001; 5981; 5538] [24935; 6045; 24934; 24933; 24932; 5537] 0%Z [(1%Z, 1001); (1%Z, 5981); (1%Z, 5538); ((-1)%Z, 6045); ((-2)%Z, 5537)] 19807040628566084398385987584%Z 17179869184%Z;
  Lin [1000; 5980; 5537] [24931; 6044; 24930; 24929; 24928; 5536] 0%Z [(1%Z, 1000); (1%Z, 5980); (1%Z, 5537); ((-1)%Z, 6044); ((-2)%Z, 5536)] 9903520314283042199192993792%Z 34359738368%Z;
  Lin [999; 5979; 5536] [24927; 6043; 24926; 24925; 24924; 5535] 0%Z [(1%Z, 999); (1%Z, 5979); (1%Z, 5536); ((-1)%Z, 6043); ((-2)%Z, 5535)] 4951760157141521099596496896%Z 68719476736%Z;
  Lin [998; 5978; 5535] [24923; 6042; 24922; 24921; 24920; 5534] 0%Z [(1%Z, 998); (1%Z, 5978); (1%Z, 5535); ((-1)%Z, 6042); ((-2)%Z, 5534)] 2475880078570760549798248448%Z 137438953472%Z;
  Lin [997; 5977; 5534] [24919; 6041; 24918; 24917; 24916; 5533] 0%Z [(1%Z, 997); (1%Z, 5977); (1%Z, 5534); ((-1)%Z, 6041); ((-2)%Z, 5533)] 1237940039285380274899124224%Z 274877906944%Z;
  Lin [996; 5976; 5533] [24915; 6040; 24914; 24913; 24912; 5532] 0%Z [(1%Z, 996); (1%Z, 5976); (1%Z, 5533); ((-1)%Z, 6040); ((-2)%Z, 5532)] 618970019642690137449562112%Z 549755813888%Z;
  Lin [995; 5975; 5532] [24911; 6039; 24910; 24909; 24908; 5531] 0%Z [(1%Z, 995); (1%Z, 5975); (1%Z, 5532); ((-1)%Z, 6039); ((-2)%Z, 5531)] 309485009821345068724781056%Z 1099511627776%Z;
  Lin [994; 5974; 5531] [24907; 6038; 24906; 24905; 24904; 5530] 0%Z [(1%Z, 994); (1%Z, 5974); (1%Z, 5531); ((-1)%Z, 6038); ((-2)%Z, 5530)] 154742504910672534362390528%Z 2199023255552%Z;
  Lin [993; 5973; 5530] [24903; 6037; 24902; 24901; 24900; 5529] 0%Z [(1%Z, 993); (1%Z, 5973); (1%Z, 5530); ((-1)%Z, 6037); ((-2)%Z, 5529)] 77371252455336267181195264%Z 4398046511104%Z;
  Lin [992; 5972; 5529] [24899; 6036; 24898; 24897; 24896; 5528] 0%Z [(1%Z, 992); (1%Z, 5972); (1%Z, 5529); ((-1)%Z, 6036); ((-2)%Z, 5528)] 38685626227668133590597632%Z 8796093022208%Z;
  Lin [991; 5971; 5528] [24895; 6035; 24894; 24893; 24892; 5527] 0%Z [(1%Z, 991); (1%Z, 5971); (1%Z, 5528); ((-1)%Z, 6035); ((-2)%Z, 5527)] 19342813113834066795298816%Z 17592186044416%Z].
Definition mult2_64_facts_8 : list lin_fact := [
  Lin [990; 5970; 5527] [24891; 6034; 24890; 24889; 24888; 5526] 0%Z [(1%Z, 990); (1%Z, 5970); (1%Z, 5527); ((-1)%Z, 6034); ((-2)%Z, 5526)] 9671406556917033397649408%Z 35184372088832%Z;
  Lin [989; 5969; 5526] [24887; 6033; 24886; 24885; 24884; 5525] 0%Z [(1%Z, 989); (1%Z, 5969); (1%Z, 5526); ((-1)%Z, 6033); ((-2)%Z, 5525)] 4835703278458516698824704%Z 70368744177664%Z;
  Lin [988; 5968; 5525] [24883; 6032; 24882; 24881; 24880; 5524] 0%Z [(1%Z, 988); (1%Z, 5968); (1%Z, 5525); ((-1)%Z, 6032); ((-2)%Z, 5524)] 2417851639229258349412352%Z 140737488355328%Z;
  Lin [987; 5967; 5524] [24879; 6031; 24878; 24877; 24876; 5523] 0%Z [(1%Z, 987); (1%Z, 5967); (1%Z, 5524); ((-1)%Z, 6031); ((-2)%Z, 5523)] 1208925819614629174706176%Z 281474976710656%Z;
  Lin [986; 5966; 5523] [24875; 6030; 24874; 24873; 24872; 5522] 0%Z [(1%Z, 986); (1%Z, 5966); (1%Z, 5523); ((-1)%Z, 6030); ((-2)%Z, 5522)] 604462909807314587353088%Z 562949953421312%Z;
  Lin [985; 5965; 5522] [24871; 6029; 24870; 24869; 24868; 5521] 0%Z [(1%Z, 985); (1%Z, 5965); (1%Z, 5522); ((-1)%Z, 6029); ((-2)%Z, 5521)] 302231454903657293676544%Z 1125899906842624%Z;
  Lin [984; 5964; 5521] [24867; 6028; 24866; 24865; 24864; 5520] 0%Z [(1%Z, 984); (1%Z, 5964); (1%Z, 5521); ((-1)%Z, 6028); ((-2)%Z, 5520)] 151115727451828646838272%Z 2251799813685248%Z;
  Lin [983; 5963; 5520] [24863; 6027; 24862; 24861; 24860; 5519] 0%Z [(1%Z, 983); (1%Z, 5963); (1%Z, 5520); ((-1)%Z, 6027); ((-2)%Z, 5519)] 75557863725914323419136%Z 4503599627370496%Z;
  Lin [982; 5962; 5519] [24859; 6026; 24858; 24857; 24856; 5518] 0%Z [(1%Z, 982); (1%Z, 5962); (1%Z, 5519); ((-1)%Z, 6026); ((-2)%Z, 5518)] 37778931862957161709568%Z 9007199254740992%Z;
  Lin [981; 5961; 5518] [24855; 6025; 24854; 24853; 24852; 5517] 0%Z [(1%Z, 981); (1%Z, 5961); (1%Z, 5518); ((-1)%Z, 6025); ((-2)%Z, 5517)] 18889465931478580854784%Z 18014398509481984%Z;
  Lin [980; 5960; 5517] [24851; 6024; 24850; 24849; 24848; 5516] 0%Z [(1%Z, 980); (1%Z, 5960); (1%Z, 5517); ((-1)%Z, 6024); ((-2)%Z, 5516)] 9444732965739290427392%Z 36028797018963968%Z;
  Lin [979; 5959; 5516] [24847; 6023; 24846; 24845; 24844; 5515] 0%Z [(1%Z, 979); (1%Z, 5959); (1%Z, 5516); ((-1)%Z, 6023); ((-2)%Z, 5515)] 4722366482869645213696%Z 72057594037927936%Z;
  Lin [978; 5958; 5515] [24843; 6022; 24842; 24841; 24840; 5514] 0%Z [(1%Z, 978); (1%Z, 5958); (1%Z, 5515); ((-1)%Z, 6022); ((-2)%Z, 5514)] 2361183241434822606848%Z 144115188075855872%Z;
  Lin [977; 5957; 5514] [24839; 6021; 24838; 24837; 24836; 5513] 0%Z [(1%Z, 977); (1%Z, 5957); (1%Z, 5514); ((-1)%Z, 6021); ((-2)%Z, 5513)] 1180591620717411303424%Z 288230376151711744%Z;
  Lin [976; 5956; 5513] [24835; 6020; 24834; 24833; 24832; 5512] 0%Z [(1%Z, 976); (1%Z, 5956); (1%Z, 5513); ((-1)%Z, 6020); ((-2)%Z, 5512)] 590295810358705651712%Z 576460752303423488%Z;
  Lin [975; 5955; 5512] [24831; 6019; 24830; 24829; 24828; 5511] 0%Z [(1%Z, 975); (1%Z, 5955); (1%Z, 5512); ((-1)%Z, 6019); ((-2)%Z, 5511)] 295147905179352825856%Z 1152921504606846976%Z;
  Lin [974; 5954; 5511] [24827; 6018; 24826; 24825; 24824; 5510] 0%Z [(1%Z, 974); (1%Z, 5954); (1%Z, 5511); ((-1)%Z, 6018); ((-2)%Z, 5510)] 147573952589676412928%Z 2305843009213693952%Z;
  Lin [973; 5953; 5510] [24823; 6017; 24822; 24821; 24820; 5509] 0%Z [(1%Z, 973); (1%Z, 5953); (1%Z, 5510); ((-1)%Z, 6017); ((-2)%Z, 5509)] 73786976294838206464%Z 4611686018427387904%Z;
  Lin [972; 5952; 5509] [24819; 6016; 24818; 24817; 24816; 5508] 0%Z [(1%Z, 972); (1%Z, 5952); (1%Z, 5509); ((-1)%Z, 6016); ((-2)%Z, 5508)] 36893488147419103232%Z 9223372036854775808%Z;
  Lin [971; 5951; 5508] [24815; 6015; 24814; 24813; 24812; 5507] 0%Z [(1%Z, 971); (1%Z, 5951); (1%Z, 5508); ((-1)%Z, 6015); ((-2)%Z, 5507)] 18446744073709551616%Z 18446744073709551616%Z;
  Lin [970; 5950; 5507] [24811; 6014; 24810; 24809; 24808; 5506] 0%Z [(1%Z, 970); (1%Z, 5950); (1%Z, 5507); ((-1)%Z, 6014); ((-2)%Z, 5506)] 9223372036854775808%Z 36893488147419103232%Z;
  Lin [969; 5949; 5506] [24807; 6013; 24806; 24805; 24804; 5505] 0%Z [(1%Z, 969); (1%Z, 5949); (1%Z, 5506); ((-1)%Z, 6013); ((-2)%Z, 5505)] 4611686018427387904%Z 73786976294838206464%Z;
  Lin [968; 5948; 5505] [24803; 6012; 24802; 24801; 24800; 5504] 0%Z [(1%Z, 968); (1%Z, 5948); (1%Z, 5505); ((-1)%Z, 6012); ((-2)%Z, 5504)] 2305843009213693952%Z 147573952589676412928%Z;
  Lin [967; 5947; 5504] [24799; 6011; 24798; 24797; 24796; 5503] 0%Z [(1%Z, 967); (1%Z, 5947); (1%Z, 5504); ((-1)%Z, 6011); ((-2)%Z, 5503)] 1152921504606846976%Z 295147905179352825856%Z;
  Lin [966; 5946; 5503] [24795; 6010; 24794; 24793; 24792; 5502] 0%Z [(1%Z, 966); (1%Z, 5946); (1%Z, 5503); ((-1)%Z, 6010); ((-2)%Z, 5502)] 576460752303423488%Z 590295810358705651712%Z;
  Lin [965; 5945; 5502] [24791; 6009; 24790; 24789; 24788; 5501] 0%Z [(1%Z, 965); (1%Z, 5945); (1%Z, 5502); ((-1)%Z, 6009); ((-2)%Z, 5501)] 288230376151711744%Z 1180591620717411303424%Z;
  Lin [964; 5944; 5501] [24787; 6008; 24786; 24785; 24784; 5500] 0%Z [(1%Z, 964); (1%Z, 5944); (1%Z, 5501); ((-1)%Z, 6008); ((-2)%Z, 5500)] 144115188075855872%Z 2361183241434822606848%Z;
  Lin [963; 5943; 5500] [24783; 6007; 24782; 24781; 24780; 5499] 0%Z [(1%Z, 963); (1%Z, 5943); (1%Z, 5500); ((-1)%Z, 6007); ((-2)%Z, 5499)] 72057594037927936%Z 4722366482869645213696%Z;
  Lin [962; 5942; 5499] [24779; 6006; 24778; 24777; 24776; 5498] 0%Z [(1%Z, 962); (1%Z, 5942); (1%Z, 5499); ((-1)%Z, 6006); ((-2)%Z, 5498)] 36028797018963968%Z 9444732965739290427392%Z;
  Lin [961; 5941; 5498] [24775; 6005; 24774; 24773; 24772; 5497] 0%Z [(1%Z, 961); (1%Z, 5941); (1%Z, 5498); ((-1)%Z, 6005); ((-2)%Z, 5497)] 18014398509481984%Z 18889465931478580854784%Z;
  Lin [960; 5940; 5497] [24771; 6004; 24770; 24769; 24768; 5496] 0%Z [(1%Z, 960); (1%Z, 5940); (1%Z, 5497); ((-1)%Z, 6004); ((-2)%Z, 5496)] 9007199254740992%Z 37778931862957161709568%Z;
  Lin [959; 5431; 5496] [24767; 6003; 24766; 24765; 24764; 5495] 0%Z [(1%Z, 959); (1%Z, 5431); (1%Z, 5496); ((-1)%Z, 6003); ((-2)%Z, 5495)] 4503599627370496%Z 75557863725914323419136%Z;
  Lin [1086; 6065] [28110; 5622] 0%Z [(1%Z, 1086); (1%Z, 6065); ((-1)%Z, 28110); ((-2)%Z, 5622)] 20769187434139310514121985316880384%Z 16384%Z;
  Lin [1085; 6064; 5622] [24763; 6128; 24762; 24761; 24760; 5621] 0%Z [(1%Z, 1085); (1%Z, 6064); (1%Z, 5622); ((-1)%Z, 6128); ((-2)%Z, 5621)] 10384593717069655257060992658440192%Z 32768%Z;
  Lin [1084; 6063; 5621] [24759; 6127; 24758; 24757; 24756; 5620] 0%Z [(1%Z, 1084); (1%Z, 6063); (1%Z, 5621); ((-1)%Z, 6127); ((-2)%Z, 5620)] 5192296858534827628530496329220096%Z 65536%Z;
  Lin [1083; 6062; 5620] [24755; 6126; 24754; 24753; 24752; 5619] 0%Z [(1%Z, 1083); (1%Z, 6062); (1%Z, 5620); ((-1)%Z, 6126); ((-2)%Z, 5619)] 2596148429267413814265248164610048%Z 131072%Z;
  Lin [1082; 6061; 5619] [24751; 6125; 24750; 24749; 24748; 5618] 0%Z [(1%Z, 1082); (1%Z, 6061); (1%Z, 5619); ((-1)%Z, 6125); ((-2)%Z, 5618)] 1298074214633706907132624082305024%Z 262144%Z;
  Lin [1081; 6060; 5618] [24747; 6124; 24746; 24745; 24744; 5617] 0%Z [(1%Z, 1081); (1%Z, 6060); (1%Z, 5618); ((-1)%Z, 6124); ((-2)%Z, 5617)] 649037107316853453566312041152512%Z 524288%Z;
  Lin [1080; 6059; 5617] [24743; 6123; 24742; 24741; 24740; 5616] 0%Z [(1%Z, 1080); (1%Z, 6059); (1%Z, 5617); ((-1)%Z, 6123); ((-2)%Z, 5616)] 324518553658426726783156020576256%Z 1048576%Z;
  Lin [1079; 6058; 5616] [24739; 6122; 24738; 24737; 24736; 5615] 0%Z [(1%Z, 1079); (1%Z, 6058); (1%Z, 5616); ((-1)%Z, 6122); ((-2)%Z, 5615)] 162259276829213363391578010288128%Z 2097152%Z;
  Lin [1078; 6057; 5615] [24735; 6121; 24734; 24733; 24732; 5614] 0%Z [(1%Z, 1078); (1%Z, 6057); (1%Z, 5615); ((-1)%Z, 6121); ((-2)%Z, 5614)] 81129638414606681695789005144064%Z 4194304%Z;
  Lin [1077; 6056; 5614] [24731; 6120; 24730; 24729; 24728; 5613] 0%Z [(1%Z, 1077); (1%Z, 6056); (1%Z, 5614); ((-1)%Z, 6120); ((-2)%Z, 5613)] 40564819207303340847894502572032%Z 8388608%Z;
  Lin [1076; 6055; 5613] [24727; 6119; 24726; 24725; 24724; 5612] 0%Z [(1%Z, 1076); (1%Z, 6055); (1%Z, 5613); ((-1)%Z, 6119); ((-2)%Z, 5612)] 20282409603651670423947251286016%Z 16777216%Z;
  Lin [1075; 6054; 5612] [24723; 6118; 24722; 24721; 24720; 5611] 0%Z [(1%Z, 1075); (1%Z, 6054); (1%Z, 5612); ((-1)%Z, 6118); ((-2)%Z, 5611)] 10141204801825835211973625643008%Z 33554432%Z;
  Lin [1074; 6053; 5611] [24719; 6117; 24718; 24717; 24716; 5610] 0%Z [(1%Z, 1074); (1%Z, 6053); (1%Z, 5611); ((-1)%Z, 6117); ((-2)%Z, 5610)] 5070602400912917605986812821504%Z 67108864%Z;
  Lin [1073; 6052; 5610] [24715; 6116; 24714; 24713; 24712; 5609] 0%Z [(1%Z, 1073); (1%Z, 6052); (1%Z, 5610); ((-1)%Z, 6116); ((-2)%Z, 5609)] 2535301200456458802993406410752%Z 134217728%Z;
  Lin [1072; 6051; 5609] [24711; 6115; 24710; 24709; 24708; 5608] 0%Z [(1%Z, 1072); (1%Z, 6051); (1%Z, 5609); ((-1)%Z, 6115); ((-2)%Z, 5608)] 1267650600228229401496703205376%Z 268435456%Z;
  Lin [1071; 6050; 5608] [24707; 6114; 24706; 24705; 24704; 5607] 0%Z [(1%Z, 1071); (1%Z, 6050); (1%Z, 5608); ((-1)%Z, 6114); ((-2)%Z, 5607)] 633825300114114700748351602688%Z 536870912%Z;
  Lin [1070; 6049; 5607] [24703; 6113; 24702; 24701; 24700; 5606] 0%Z [(1%Z, 1070); (1%Z, 6049); (1%Z, 5607); ((-1)%Z, 6113); ((-2)%Z, 5606)] 316912650057057350374175801344%Z 1073741824%Z;
  Lin [1069; 6048; 5606] [24699; 6112; 24698; 24697; 24696; 5605] 0%Z [(1%Z, 1069); (1%Z, 6048); (1%Z, 5606); ((-1)%Z, 6112); ((-2)%Z, 5605)] 158456325028528675187087900672%Z 2147483648%Z;
  Lin [1068; 6047; 5605] [24695; 6111; 24694; 24693; 24692; 5604] 0%Z [(1%Z, 1068); (1%Z, 6047); (1%Z, 5605); ((-1)%Z, 6111); ((-2)%Z, 5604)] 79228162514264337593543950336%Z 4294967296%Z;
  Lin [1067; 6046; 5604] [24691; 6110; 24690; 24689; 24688; 5603] 0%Z [(1%Z, 1067); (1%Z, 6046); (1%Z, 5604); ((-1)%Z, 6110); ((-2)%Z, 5603)] 39614081257132168796771975168%Z 8589934592%Z;
  Lin [1066; 6045; 5603] [24687; 6109; 24686; 24685; 24684; 5602] 0%Z [(1%Z, 1066); (1%Z, 6045); (1%Z, 5603); ((-1)%Z, 6109); ((-2)%Z, 5602)] 19807040628566084398385987584%Z 17179869184%Z;
  Lin [1065; 6044; 5602] [24683; 6108; 24682; 24681; 24680; 5601] 0%Z [(1%Z, 1065); (1%Z, 6044); (1%Z, 5602); ((-1)%Z, 6108); ((-2)%Z, 5601)] 9903520314283042199192993792%Z 34359738368%Z;
  Lin [1064; 6043; 5601] [24679; 6107; 24678; 24677; 24676; 5600] 0%Z [(1%Z, 1064); (1%Z, 6043); (1%Z, 5601); ((-1)%Z, 6107); ((-2)%Z, 5600)] 4951760157141521099596496896%Z 68719476736%Z;
  Lin [1063; 6042; 5600] [24675; 6106; 24674; 24673; 24672; 5599] 0%Z [(1%Z, 1063); (1%Z, 6042); (1%Z, 5600); ((-1)%Z, 6106); ((-2)%Z, 5599)] 2475880078570760549798248448%Z 137438953472%Z;
  Lin [1062; 6041; 5599] [24671; 6105; 24670; 24669; 24668; 5598] 0%Z [(1%Z, 1062); (1%Z, 6041); (1%Z, 5599); ((-1)%Z, 6105); ((-2)%Z, 5598)] 1237940039285380274899124224%Z 274877906944%Z;
  Lin [1061; 6040; 5598] [24667; 6104; 24666; 24665; 24664; 5597] 0%Z [(1%Z, 1061); (1%Z, 6040); (1%Z, 5598); ((-1)%Z, 6104); ((-2)%Z, 5597)] 618970019642690137449562112%Z 549755813888%Z;
  Lin [1060; 6039; 5597] [24663; 6103; 24662; 24661; 24660; 5596] 0%Z [(1%Z, 1060); (1%Z, 6039); (1%Z, 5597); ((-1)%Z, 6103); ((-2)%Z, 5596)] 309485009821345068724781056%Z 1099511627776%Z;
  Lin [1059; 6038; 5596] [24659; 6102; 24658; 24657; 24656; 5595] 0%Z [(1%Z, 1059); (1%Z, 6038); (1%Z, 5596); ((-1)%Z, 6102); ((-2)%Z, 5595)] 154742504910672534362390528%Z 2199023255552%Z;
  Lin [1058; 6037; 5595] [24655; 6101; 24654; 24653; 24652; 5594] 0%Z [(1%Z, 1058); (1%Z, 6037); (1%Z, 5595); ((-1)%Z, 6101); ((-2)%Z, 5594)] 77371252455336267181195264%Z 4398046511104%Z;
  Lin [1057; 6036; 5594] [24651; 6100; 24650; 24649; 24648; 5593] 0%Z [(1%Z, 1057); (1%Z, 6036); (1%Z, 5594); ((-1)%Z, 6100); ((-2)%Z, 5593)] 38685626227668133590597632%Z 8796093022208%Z;
  Lin [1056; 6035; 5593] [24647; 6099; 24646; 24645; 24644; 5592] 0%Z [(1%Z, 1056); (1%Z, 6035); (1%Z, 5593); ((-1)%Z, 6099); ((-2)%Z, 5592)] 19342813113834066795298816%Z 17592186044416%Z;
  Lin [1055; 6034; 5592] [24643; 6098; 24642; 24641; 24640; 5591] 0%Z [(1%Z, 1055); (1%Z, 6034); (1%Z, 5592); ((-1)%Z, 6098); ((-2)%Z, 5591)] 9671406556917033397649408%Z 35184372088832%Z;
  Lin [1054; 6033; 5591] [24639; 6097; 24638; 24637; 24636; 5590] 0%Z [(1%Z, 1054); (1%Z, 6033); (1%Z, 5591); ((-1)%Z, 6097); ((-2)%Z, 5590)] 4835703278458516698824704%Z 70368744177664%Z;
  Lin [1053; 6032; 5590] [24635; 6096; 24634; 24633; 24632; 5589] 0%Z [(1%Z, 1053); (1%Z, 6032); (1%Z, 5590); ((-1)%Z, 6096); ((-2)%Z, 5589)] 2417851639229258349412352%Z 140737488355328%Z;
  Lin [1052; 6031; 5589] [24631; 6095; 24630; 24629; 24628; 5588] 0%Z [(1%Z, 1052); (1%Z, 6031); (1%Z, 5589); ((-1)%Z, 6095); ((-2)%Z, 5588)] 1208925819614629174706176%Z 281474976710656%Z;
  Lin [1051; 6030; 5588] [24627; 6094; 24626; 24625; 24624; 5587] 0%Z [(1%Z, 1051); (1%Z, 6030); (1%Z, 5588); ((-1)%Z, 6094); ((-2)%Z, 5587)] 604462909807314587353088%Z 562949953421312%Z;
  Lin [1050; 6029; 5587] [24623; 6093; 24622; 24621; 24620; 5586] 0%Z [(1%Z, 1050); (1%Z, 6029); (1%Z, 5587); ((-1)%Z, 6093); ((-2)%Z, 5586)] 302231454903657293676544%Z 1125899906842624%Z;
  Lin [1049; 6028; 5586] [24619; 6092; 24618; 24617; 24616; 5585] 0%Z [(1%Z, 1049); (1%Z, 6028); (1%Z, 5586); ((-1)%Z, 6092); ((-2)%Z, 5585)] 151115727451828646838272%Z 2251799813685248%Z;
  Lin [1048; 6027; 5585] [24615; 6091; 24614; 24613; 24612; 5584] 0%Z [(1%Z, 1048); (1%Z, 6027); (1%Z, 5585); ((-1)%Z, 6091); ((-2)%Z, 5584)] 75557863725914323419136%Z 4503599627370496%Z;
  Lin [1047; 6026; 5584] [24611; 6090; 24610; 24609; 24608; 5583] 0%Z [(1%Z, 1047); (1%Z, 6026); (1%Z, 5584); ((-1)%Z, 6090); ((-2)%Z, 5583)] 37778931862957161709568%Z 9007199254740992%Z;
  Lin [1046; 6025; 5583] [24607; 6089; 24606; 24605; 24604; 5582] 0%Z [(1%Z, 1046); (1%Z, 6025); (1%Z, 5583); ((-1)%Z, 6089); ((-2)%Z, 5582)] 18889465931478580854784%Z 18014398509481984%Z;
  Lin [1045; 6024; 5582] [24603; 6088; 24602; 24601; 24600; 5581] 0%Z [(1%Z, 1045); (1%Z, 6024); (1%Z, 5582); ((-1)%Z, 6088); ((-2)%Z, 5581)] 9444732965739290427392%Z 36028797018963968%Z;
  Lin [1044; 6023; 5581] [24599; 6087; 24598; 24597; 24596; 5580] 0%Z [(1%Z, 1044); (1%Z, 6023); (1%Z, 5581); ((-1)%Z, 6087); ((-2)%Z, 5580)] 4722366482869645213696%Z 72057594037927936%Z;
  Lin [1043; 6022; 5580] [24595; 6086; 24594; 24593; 24592; 5579] 0%Z [(1%Z, 1043); (1%Z, 6022); (1%Z, 5580); ((-1)%Z, 6086); ((-2)%Z, 5579)] 2361183241434822606848%Z 144115188075855872%Z;
  Lin [1042; 6021; 5579] [24591; 6085; 24590; 24589; 24588; 5578] 0%Z [(1%Z, 1042); (1%Z, 6021); (1%Z, 5579); ((-1)%Z, 6085); ((-2)%Z, 5578)] 1180591620717411303424%Z 288230376151711744%Z;
  Lin [1041; 6020; 5578] [24587; 6084; 24586; 24585; 24584; 5577] 0%Z [(1%Z, 1041); (1%Z, 6020); (1%Z, 5578); ((-1)%Z, 6084); ((-2)%Z, 5577)] 590295810358705651712%Z 576460752303423488%Z;
  Lin [1040; 6019; 5577] [24583; 6083; 24582; 24581; 24580; 5576] 0%Z [(1%Z, 1040); (1%Z, 6019); (1%Z, 5577); ((-1)%Z, 6083); ((-2)%Z, 5576)] 295147905179352825856%Z 1152921504606846976%Z;
  Lin [1039; 6018; 5576] [24579; 6082; 24578; 24577; 24576; 5575] 0%Z [(1%Z, 1039); (1%Z, 6018); (1%Z, 5576); ((-1)%Z, 6082); ((-2)%Z, 5575)] 147573952589676412928%Z 2305843009213693952%Z;
  Lin [1038; 6017; 5575] [24575; 6081; 24574; 24573; 24572; 5574] 0%Z [(1%Z, 1038); (1%Z, 6017); (1%Z, 5575); ((-1)%Z, 6081); ((-2)%Z, 5574)] 73786976294838206464%Z 4611686018427387904%Z;
  Lin [1037; 6016; 5574] [24571; 6080; 24570; 24569; 24568; 5573] 0%Z [(1%Z, 1037); (1%Z, 6016); (1%Z, 5574); ((-1)%Z, 6080); ((-2)%Z, 5573)] 36893488147419103232%Z 9223372036854775808%Z;
  Lin [1036; 6015; 5573] [24567; 6079; 24566; 24565; 24564; 5572] 0%Z [(1%Z, 1036); (1%Z, 6015); (1%Z, 5573); ((-1)%Z, 6079); ((-2)%Z, 5572)] 18446744073709551616%Z 18446744073709551616%Z;
  Lin [1035; 6014; 5572] [24563; 6078; 24562; 24561; 24560; 5571] 0%Z [(1%Z, 1035); (1%Z, 6014); (1%Z, 5572); ((-1)%Z, 6078); ((-2)%Z, 5571)] 9223372036854775808%Z 36893488147419103232%Z;
  Lin [1034; 6013; 5571] [24559; 6077; 24558; 24557; 24556; 5570] 0%Z [(1%Z, 1034); (1%Z, 6013); (1%Z, 5571); ((-1)%Z, 6077); ((-2)%Z, 5570)] 4611686018427387904%Z 73786976294838206464%Z;
  Lin [1033; 6012; 5570] [24555; 6076; 24554; 24553; 24552; 5569] 0%Z [(1%Z, 1033); (1%Z, 6012); (1%Z, 5570); ((-1)%Z, 6076); ((-2)%Z, 5569)] 2305843009213693952%Z 147573952589676412928%Z;
  Lin [1032; 6011; 5569] [24551; 6075; 24550; 24549; 24548; 5568] 0%Z [(1%Z, 1032); (1%Z, 6011); (1%Z, 5569); ((-1)%Z, 6075); ((-2)%Z, 5568)] 1152921504606846976%Z 295147905179352825856%Z;
  Lin [1031; 6010; 5568] [24547; 6074; 24546; 24545; 24544; 5567] 0%Z [(1%Z, 1031); (1%Z, 6010); (1%Z, 5568); ((-1)%Z, 6074); ((-2)%Z, 5567)] 576460752303423488%Z 590295810358705651712%Z;
  Lin [1030; 6009; 5567] [24543; 6073; 24542; 24541; 24540; 5566] 0%Z [(1%Z, 1030); (1%Z, 6009); (1%Z, 5567); ((-1)%Z, 6073); ((-2)%Z, 5566)] 288230376151711744%Z 1180591620717411303424%Z;
  Lin [1029; 6008; 5566] [24539; 6072; 24538; 24537; 24536; 5565] 0%Z [(1%Z, 1029); (1%Z, 6008); (1%Z, 5566); ((-1)%Z, 6072); ((-2)%Z, 5565)] 144115188075855872%Z 2361183241434822606848%Z;
  Lin [1028; 6007; 5565] [24535; 6071; 24534; 24533; 24532; 5564] 0%Z [(1%Z, 1028); (1%Z, 6007); (1%Z, 5565); ((-1)%Z, 6071); ((-2)%Z, 5564)] 72057594037927936%Z 4722366482869645213696%Z;
  Lin [1027; 6006; 5564] [24531; 6070; 24530; 24529; 24528; 5563] 0%Z [(1%Z, 1027); (1%Z, 6006); (1%Z, 5564); ((-1)%Z, 6070); ((-2)%Z, 5563)] 36028797018963968%Z 9444732965739290427392%Z;
  Lin [1026; 6005; 5563] [24527; 6069; 24526; 24525; 24524; 5562] 0%Z [(1%Z, 1026); (1%Z, 6005); (1%Z, 5563); ((-1)%Z, 6069); ((-2)%Z, 5562)] 18014398509481984%Z 18889465931478580854784%Z;
  Lin [1025; 6004; 5562] [24523; 6068; 24522; 24521; 24520; 5561] 0%Z [(1%Z, 1025); (1%Z, 6004); (1%Z, 5562); ((-1)%Z, 6068); ((-2)%Z, 5561)] 9007199254740992%Z 37778931862957161709568%Z;
  Lin [1024; 6003; 5561] [24519; 6067; 24518; 24517; 24516; 5560] 0%Z [(1%Z, 1024); (1%Z, 6003); (1%Z, 5561); ((-1)%Z, 6067); ((-2)%Z, 5560)] 4503599627370496%Z 75557863725914323419136%Z;
  Lin [1023; 5495; 5560] [24515; 6066; 24514; 24513; 24512; 5559] 0%Z [(1%Z, 1023); (1%Z, 5495); (1%Z, 5560); ((-1)%Z, 6066); ((-2)%Z, 5559)] 2251799813685248%Z 151115727451828646838272%Z;
  Lin [1150; 6128] [28111; 5686] 0%Z [(1%Z, 1150); (1%Z, 6128); ((-1)%Z, 28111); ((-2)%Z, 5686)] 10384593717069655257060992658440192%Z 32768%Z;
  Lin [1149; 6127; 5686] [24511; 6191; 24510; 24509; 24508; 5685] 0%Z [(1%Z, 1149); (1%Z, 6127); (1%Z, 5686); ((-1)%Z, 6191); ((-2)%Z, 5685)] 5192296858534827628530496329220096%Z 65536%Z;
  Lin [1148; 6126; 5685] [24507; 6190; 24506; 24505; 24504; 5684] 0%Z [(1%Z, 1148); (1%Z, 6126); (1%Z, 5685); ((-1)%Z, 6190); ((-2)%Z, 5684)] 2596148429267413814265248164610048%Z 131072%Z;
  Lin [1147; 6125; 5684] [24503; 6189; 24502; 24501; 24500; 5683] 0%Z [(1%Z, 1147); (1%Z, 6125); (1%Z, 5684); ((-1)%Z, 6189); ((-2)%Z, 5683)] 1298074214633706907132624082305024%Z 262144%Z].
Definition mult2_64_facts_9 : list lin_fact := [
  Lin [1146; 6124; 5683] [24499; 6188; 24498; 24497; 24496; 5682] 0%Z [(1%Z, 1146); (1%Z, 6124); (1%Z, 5683); ((-1)%Z, 6188); ((-2)%Z, 5682)] 649037107316853453566312041152512%Z 524288%Z;
  Lin [1145; 6123; 5682] [24495; 6187; 24494; 24493; 24492; 5681] 0%Z [(1%Z, 1145); (1%Z, 6123); (1%Z, 5682); ((-1)%Z, 6187); ((-2)%Z, 5681)] 324518553658426726783156020576256%Z 1048576%Z;
  Lin [1144; 6122; 5681] [24491; 6186; 24490; 24489; 24488; 5680] 0%Z [(1%Z, 1144); (1%Z, 6122); (1%Z, 5681); ((-1)%Z, 6186); ((-2)%Z, 5680)] 162259276829213363391578010288128%Z 2097152%Z;
  Lin [1143; 6121; 5680] [24487; 6185; 24486; 24485; 24484; 5679] 0%Z [(1%Z, 1143); (1%Z, 6121); (1%Z, 5680); ((-1)%Z, 6185); ((-2)%Z, 5679)] 81129638414606681695789005144064%Z 4194304%Z;
  Lin [1142; 6120; 5679] [24483; 6184; 24482; 24481; 24480; 5678] 0%Z [(1%Z, 1142); (1%Z, 6120); (1%Z, 5679); ((-1)%Z, 6184); ((-2)%Z, 5678)] 40564819207303340847894502572032%Z 8388608%Z;
  Lin [1141; 6119; 5678] [24479; 6183; 24478; 24477; 24476; 5677] 0%Z [(1%Z, 1141); (1%Z, 6119); (1%Z, 5678); ((-1)%Z, 6183); ((-2)%Z, 5677)] 20282409603651670423947251286016%Z 16777216%Z;
  Lin [1140; 6118; 5677] [24475; 6182; 24474; 24473; 24472; 5676] 0%Z [(1%Z, 1140); (1%Z, 6118); (1%Z, 5677); ((-1)%Z, 6182); ((-2)%Z, 5676)] 10141204801825835211973625643008%Z 33554432%Z;
  Lin [1139; 6117; 5676] [24471; 6181; 24470; 24469; 24468; 5675] 0%Z [(1%Z, 1139); (1%Z, 6117); (1%Z, 5676); ((-1)%Z, 6181); ((-2)%Z, 5675)] 5070602400912917605986812821504%Z 67108864%Z;
  Lin [1138; 6116; 5675] [24467; 6180; 24466; 24465; 24464; 5674] 0%Z [(1%Z, 1138); (1%Z, 6116); (1%Z, 5675); ((-1)%Z, 6180); ((-2)%Z, 5674)] 2535301200456458802993406410752%Z 134217728%Z;
  Lin [1137; 6115; 5674] [24463; 6179; 24462; 24461; 24460; 5673] 0%Z [(1%Z, 1137); (1%Z, 6115); (1%Z, 5674); ((-1)%Z, 6179); ((-2)%Z, 5673)] 1267650600228229401496703205376%Z 268435456%Z;
  Lin [1136; 6114; 5673] [24459; 6178; 24458; 24457; 24456; 5672] 0%Z [(1%Z, 1136); (1%Z, 6114); (1%Z, 5673); ((-1)%Z, 6178); ((-2)%Z, 5672)] 633825300114114700748351602688%Z 536870912%Z;
  Lin [1135; 6113; 5672] [24455; 6177; 24454; 24453; 24452; 5671] 0%Z [(1%Z, 1135); (1%Z, 6113); (1%Z, 5672); ((-1)%Z, 6177); ((-2)%Z, 5671)] 316912650057057350374175801344%Z 1073741824%Z;
  Lin [1134; 6112; 5671] [24451; 6176; 24450; 24449; 24448; 5670] 0%Z [(1%Z, 1134); (1%Z, 6112); (1%Z, 5671); ((-1)%Z, 6176); ((-2)%Z, 5670)] 158456325028528675187087900672%Z 2147483648%Z;
  Lin [1133; 6111; 5670] [24447; 6175; 24446; 24445; 24444; 5669] 0%Z [(1%Z, 1133); (1%Z, 6111); (1%Z, 5670); ((-1)%Z, 6175); ((-2)%Z, 5669)] 79228162514264337593543950336%Z 4294967296%Z;
  Lin [1132; 6110; 5669] [24443; 6174; 24442; 24441; 24440; 5668] 0%Z [(1%Z, 1132); (1%Z, 6110); (1%Z, 5669); ((-1)%Z, 6174); ((-2)%Z, 5668)] 39614081257132168796771975168%Z 8589934592%Z;
  Lin [1131; 6109; 5668] [24439; 6173; 24438; 24437; 24436; 5667] 0%Z [(1%Z, 1131); (1%Z, 6109); (1%Z, 5668); ((-1)%Z, 6173); ((-2)%Z, 5667)] 19807040628566084398385987584%Z 17179869184%Z;
  Lin [1130; 6108; 5667] [24435; 6172; 24434; 24433; 24432; 5666] 0%Z [(1%Z, 1130); (1%Z, 6108); (1%Z, 5667); ((-1)%Z, 6172); ((-2)%Z, 5666)] 9903520314283042199192993792%Z 34359738368%Z;
  Lin [1129; 6107; 5666] [24431; 6171; 24430; 24429; 24428; 5665] 0%Z [(1%Z, 1129); (1%Z, 6107); (1%Z, 5666); ((-1)%Z, 6171); ((-2)%Z, 5665)] 4951760157141521099596496896%Z 68719476736%Z;
  Lin [1128; 6106; 5665] [24427; 6170; 24426; 24425; 24424; 5664] 0%Z [(1%Z, 1128); (1%Z, 6106); (1%Z, 5665); ((-1)%Z, 6170); ((-2)%Z, 5664)] 2475880078570760549798248448%Z 137438953472%Z;
  Lin [1127; 6105; 5664] [24423; 6169; 24422; 24421; 24420; 5663] 0%Z [(1%Z, 1127); (1%Z, 6105); (1%Z, 5664); ((-1)%Z, 6169); ((-2)%Z, 5663)] 1237940039285380274899124224%Z 274877906944%Z;
  Lin [1126; 6104; 5663] [24419; 6168; 24418; 24417; 24416; 5662] 0%Z [(1%Z, 1126); (1%Z, 6104); (1%Z, 5663); ((-1)%Z, 6168); ((-2)%Z, 5662)] 618970019642690137449562112%Z 549755813888%Z;
  Lin [1125; 6103; 5662] [24415; 6167; 24414; 24413; 24412; 5661] 0%Z [(1%Z, 1125); (1%Z, 6103); (1%Z, 5662); ((-1)%Z, 6167); ((-2)%Z, 5661)] 309485009821345068724781056%Z 1099511627776%Z;
  Lin [1124; 6102; 5661] [24411; 6166; 24410; 24409; 24408; 5660] 0%Z [(1%Z, 1124); (1%Z, 6102); (1%Z, 5661); ((-1)%Z, 6166); ((-2)%Z, 5660)] 154742504910672534362390528%Z 2199023255552%Z;
  Lin [1123; 6101; 5660] [24407; 6165; 24406; 24405; 24404; 5659] 0%Z [(1%Z, 1123); (1%Z, 6101); (1%Z, 5660); ((-1)%Z, 6165); ((-2)%Z, 5659)] 77371252455336267181195264%Z 4398046511104%Z;
  Lin [1122; 6100; 5659] [24403; 6164; 24402; 24401; 24400; 5658] 0%Z [(1%Z, 1122); (1%Z, 6100); (1%Z, 5659); ((-1)%Z, 6164); ((-2)%Z, 5658)] 38685626227668133590597632%Z 8796093022208%Z;
  Lin [1121; 6099; 5658] [24399; 6163; 24398; 24397; 24396; 5657] 0%Z [(1%Z, 1121); (1%Z, 6099); (1%Z, 5658); ((-1)%Z, 6163); ((-2)%Z, 5657)] 19342813113834066795298816%Z 17592186044416%Z;
  Lin [1120; 6098; 5657] [24395; 6162; 24394; 24393; 24392; 5656] 0%Z [(1%Z, 1120); (1%Z, 6098); (1%Z, 5657); ((-1)%Z, 6162); ((-2)%Z, 5656)] 9671406556917033397649408%Z 35184372088832%Z;
  Lin [1119; 6097; 5656] [24391; 6161; 24390; 24389; 24388; 5655] 0%Z [(1%Z, 1119); (1%Z, 6097); (1%Z, 5656); ((-1)%Z, 6161); ((-2)%Z, 5655)] 4835703278458516698824704%Z 70368744177664%Z;
  Lin [1118; 6096; 5655] [24387; 6160; 24386; 24385; 24384; 5654] 0%Z [(1%Z, 1118); (1%Z, 6096); (1%Z, 5655); ((-1)%Z, 6160); ((-2)%Z, 5654)] 2417851639229258349412352%Z 140737488355328%Z;
  Lin [1117; 6095; 5654] [24383; 6159; 24382; 24381; 24380; 5653] 0%Z [(1%Z, 1117); (1%Z, 6095); (1%Z, 5654); ((-1)%Z, 6159); ((-2)%Z, 5653)] 1208925819614629174706176%Z 281474976710656%Z;
  Lin [1116; 6094; 5653] [24379; 6158; 24378; 24377; 24376; 5652] 0%Z [(1%Z, 1116); (1%Z, 6094); (1%Z, 5653); ((-1)%Z, 6158); ((-2)%Z, 5652)] 604462909807314587353088%Z 562949953421312%Z;
  Lin [1115; 6093; 5652] [24375; 6157; 24374; 24373; 24372; 5651] 0%Z [(1%Z, 1115); (1%Z, 6093); (1%Z, 5652); ((-1)%Z, 6157); ((-2)%Z, 5651)] 302231454903657293676544%Z 1125899906842624%Z;
  Lin [1114; 6092; 5651] [24371; 6156; 24370; 24369; 24368; 5650] 0%Z [(1%Z, 1114); (1%Z, 6092); (1%Z, 5651); ((-1)%Z, 6156); ((-2)%Z, 5650)] 151115727451828646838272%Z 2251799813685248%Z;
  Lin [1113; 6091; 5650] [24367; 6155; 24366; 24365; 24364; 5649] 0%Z [(1%Z, 1113); (1%Z, 6091); (1%Z, 5650); ((-1)%Z, 6155); ((-2)%Z, 5649)] 75557863725914323419136%Z 4503599627370496%Z;
  Lin [1112; 6090; 5649] [24363; 6154; 24362; 24361; 24360; 5648] 0%Z [(1%Z, 1112); (1%Z, 6090); (1%Z, 5649); ((-1)%Z, 6154); ((-2)%Z, 5648)] 37778931862957161709568%Z 9007199254740992%Z;
  Lin [1111; 6089; 5648] [24359; 6153; 24358; 24357; 24356; 5647] 0%Z [(1%Z, 1111); (1%Z, 6089); (1%Z, 5648); ((-1)%Z, 6153); ((-2)%Z, 5647)] 18889465931478580854784%Z 18014398509481984%Z;
  Lin [1110; 6088; 5647] [24355; 6152; 24354; 24353; 24352; 5646] 0%Z [(1%Z, 1110); (1%Z, 6088); (1%Z, 5647); ((-1)%Z, 6152); ((-2)%Z, 5646)] 9444732965739290427392%Z 36028797018963968%Z;
  Lin [1109; 6087; 5646] [24351; 6151; 24350; 24349; 24348; 5645] 0%Z [(1%Z, 1109); (1%Z, 6087); (1%Z, 5646); ((-1)%Z, 6151); ((-2)%Z, 5645)] 4722366482869645213696%Z 72057594037927936%Z;
  Lin [1108; 6086; 5645] [24347; 6150; 24346; 24345; 24344; 5644] 0%Z [(1%Z, 1108); (1%Z, 6086); (1%Z, 5645); ((-1)%Z, 6150); ((-2)%Z, 5644)] 2361183241434822606848%Z 144115188075855872%Z;
  Lin [1107; 6085; 5644] [24343; 6149; 24342; 24341; 24340; 5643] 0%Z [(1%Z, 1107); (1%Z, 6085); (1%Z, 5644); ((-1)%Z, 6149); ((-2)%Z, 5643)] 1180591620717411303424%Z 288230376151711744%Z;
  Lin [1106; 6084; 5643] [24339; 6148; 24338; 24337; 24336; 5642] 0%Z [(1%Z, 1106); (1%Z, 6084); (1%Z, 5643); ((-1)%Z, 6148); ((-2)%Z, 5642)] 590295810358705651712%Z 576460752303423488%Z;
  Lin [1105; 6083; 5642] [24335; 6147; 24334; 24333; 24332; 5641] 0%Z [(1%Z, 1105); (1%Z, 6083); (1%Z, 5642); ((-1)%Z, 6147); ((-2)%Z, 5641)] 295147905179352825856%Z 1152921504606846976%Z;
  Lin [1104; 6082; 5641] [24331; 6146; 24330; 24329; 24328; 5640] 0%Z [(1%Z, 1104); (1%Z, 6082); (1%Z, 5641); ((-1)%Z, 6146); ((-2)%Z, 5640)] 147573952589676412928%Z 2305843009213693952%Z;
  Lin [1103; 6081; 5640] [24327; 6145; 24326; 24325; 24324; 5639] 0%Z [(1%Z, 1103); (1%Z, 6081); (1%Z, 5640); ((-1)%Z, 6145); ((-2)%Z, 5639)] 73786976294838206464%Z 4611686018427387904%Z;
  Lin [1102; 6080; 5639] [24323; 6144; 24322; 24321; 24320; 5638] 0%Z [(1%Z, 1102); (1%Z, 6080); (1%Z, 5639); ((-1)%Z, 6144); ((-2)%Z, 5638)] 36893488147419103232%Z 9223372036854775808%Z;
  Lin [1101; 6079; 5638] [24319; 6143; 24318; 24317; 24316; 5637] 0%Z [(1%Z, 1101); (1%Z, 6079); (1%Z, 5638); ((-1)%Z, 6143); ((-2)%Z, 5637)] 18446744073709551616%Z 18446744073709551616%Z;
  Lin [1100; 6078; 5637] [24315; 6142; 24314; 24313; 24312; 5636] 0%Z [(1%Z, 1100); (1%Z, 6078); (1%Z, 5637); ((-1)%Z, 6142); ((-2)%Z, 5636)] 9223372036854775808%Z 36893488147419103232%Z;
  Lin [1099; 6077; 5636] [24311; 6141; 24310; 24309; 24308; 5635] 0%Z [(1%Z, 1099); (1%Z, 6077); (1%Z, 5636); ((-1)%Z, 6141); ((-2)%Z, 5635)] 4611686018427387904%Z 73786976294838206464%Z;
  Lin [1098; 6076; 5635] [24307; 6140; 24306; 24305; 24304; 5634] 0%Z [(1%Z, 1098); (1%Z, 6076); (1%Z, 5635); ((-1)%Z, 6140); ((-2)%Z, 5634)] 2305843009213693952%Z 147573952589676412928%Z;
  Lin [1097; 6075; 5634] [24303; 6139; 24302; 24301; 24300; 5633] 0%Z [(1%Z, 1097); (1%Z, 6075); (1%Z, 5634); ((-1)%Z, 6139); ((-2)%Z, 5633)] 1152921504606846976%Z 295147905179352825856%Z;
  Lin [1096; 6074; 5633] [24299; 6138; 24298; 24297; 24296; 5632] 0%Z [(1%Z, 1096); (1%Z, 6074); (1%Z, 5633); ((-1)%Z, 6138); ((-2)%Z, 5632)] 576460752303423488%Z 590295810358705651712%Z;
  Lin [1095; 6073; 5632] [24295; 6137; 24294; 24293; 24292; 5631] 0%Z [(1%Z, 1095); (1%Z, 6073); (1%Z, 5632); ((-1)%Z, 6137); ((-2)%Z, 5631)] 288230376151711744%Z 1180591620717411303424%Z;
  Lin [1094; 6072; 5631] [24291; 6136; 24290; 24289; 24288; 5630] 0%Z [(1%Z, 1094); (1%Z, 6072); (1%Z, 5631); ((-1)%Z, 6136); ((-2)%Z, 5630)] 144115188075855872%Z 2361183241434822606848%Z;
  Lin [1093; 6071; 5630] [24287; 6135; 24286; 24285; 24284; 5629] 0%Z [(1%Z, 1093); (1%Z, 6071); (1%Z, 5630); ((-1)%Z, 6135); ((-2)%Z, 5629)] 72057594037927936%Z 4722366482869645213696%Z;
  Lin [1092; 6070; 5629] [24283; 6134; 24282; 24281; 24280; 5628] 0%Z [(1%Z, 1092); (1%Z, 6070); (1%Z, 5629); ((-1)%Z, 6134); ((-2)%Z, 5628)] 36028797018963968%Z 9444732965739290427392%Z;
  Lin [1091; 6069; 5628] [24279; 6133; 24278; 24277; 24276; 5627] 0%Z [(1%Z, 1091); (1%Z, 6069); (1%Z, 5628); ((-1)%Z, 6133); ((-2)%Z, 5627)] 18014398509481984%Z 18889465931478580854784%Z;
  Lin [1090; 6068; 5627] [24275; 6132; 24274; 24273; 24272; 5626] 0%Z [(1%Z, 1090); (1%Z, 6068); (1%Z, 5627); ((-1)%Z, 6132); ((-2)%Z, 5626)] 9007199254740992%Z 37778931862957161709568%Z;
  Lin [1089; 6067; 5626] [24271; 6131; 24270; 24269; 24268; 5625] 0%Z [(1%Z, 1089); (1%Z, 6067); (1%Z, 5626); ((-1)%Z, 6131); ((-2)%Z, 5625)] 4503599627370496%Z 75557863725914323419136%Z;
  Lin [1088; 6066; 5625] [24267; 6130; 24266; 24265; 24264; 5624] 0%Z [(1%Z, 1088); (1%Z, 6066); (1%Z, 5625); ((-1)%Z, 6130); ((-2)%Z, 5624)] 2251799813685248%Z 151115727451828646838272%Z;
  Lin [1087; 5559; 5624] [24263; 6129; 24262; 24261; 24260; 5623] 0%Z [(1%Z, 1087); (1%Z, 5559); (1%Z, 5624); ((-1)%Z, 6129); ((-2)%Z, 5623)] 1125899906842624%Z 302231454903657293676544%Z;
  Lin [1214; 6191] [28112; 5750] 0%Z [(1%Z, 1214); (1%Z, 6191); ((-1)%Z, 28112); ((-2)%Z, 5750)] 5192296858534827628530496329220096%Z 65536%Z;
  Lin [1213; 6190; 5750] [24259; 6254; 24258; 24257; 24256; 5749] 0%Z [(1%Z, 1213); (1%Z, 6190); (1%Z, 5750); ((-1)%Z, 6254); ((-2)%Z, 5749)] 2596148429267413814265248164610048%Z 131072%Z;
  Lin [1212; 6189; 5749] [24255; 6253; 24254; 24253; 24252; 5748] 0%Z [(1%Z, 1212); (1%Z, 6189); (1%Z, 5749); ((-1)%Z, 6253); ((-2)%Z, 5748)] 1298074214633706907132624082305024%Z 262144%Z;
  Lin [1211; 6188; 5748] [24251; 6252; 24250; 24249; 24248; 5747] 0%Z [(1%Z, 1211); (1%Z, 6188); (1%Z, 5748); ((-1)%Z, 6252); ((-2)%Z, 5747)] 649037107316853453566312041152512%Z 524288%Z;
  Lin [1210; 6187; 5747] [24247; 6251; 24246; 24245; 24244; 5746] 0%Z [(1%Z, 1210); (1%Z, 6187); (1%Z, 5747); ((-1)%Z, 6251); ((-2)%Z, 5746)] 324518553658426726783156020576256%Z 1048576%Z;
  Lin [1209; 6186; 5746] [24243; 6250; 24242; 24241; 24240; 5745] 0%Z [(1%Z, 1209); (1%Z, 6186); (1%Z, 5746); ((-1)%Z, 6250); ((-2)%Z, 5745)] 162259276829213363391578010288128%Z 2097152%Z;
  Lin [1208; 6185; 5745] [24239; 6249; 24238; 24237; 24236; 5744] 0%Z [(1%Z, 1208); (1%Z, 6185); (1%Z, 5745); ((-1)%Z, 6249); ((-2)%Z, 5744)] 81129638414606681695789005144064%Z 4194304%Z;
  Lin [1207; 6184; 5744] [24235; 6248; 24234; 24233; 24232; 5743] 0%Z [(1%Z, 1207); (1%Z, 6184); (1%Z, 5744); ((-1)%Z, 6248); ((-2)%Z, 5743)] 40564819207303340847894502572032%Z 8388608%Z;
  Lin [1206; 6183; 5743] [24231; 6247; 24230; 24229; 24228; 5742] 0%Z [(1%Z, 1206); (1%Z, 6183); (1%Z, 5743); ((-1)%Z, 6247); ((-2)%Z, 5742)] 20282409603651670423947251286016%Z 16777216%Z;
  Lin [1205; 6182; 5742] [24227; 6246; 24226; 24225; 24224; 5741] 0%Z [(1%Z, 1205); (1%Z, 6182); (1%Z, 5742); ((-1)%Z, 6246); ((-2)%Z, 5741)] 10141204801825835211973625643008%Z 33554432%Z;
  Lin [1204; 6181; 5741] [24223; 6245; 24222; 24221; 24220; 5740] 0%Z [(1%Z, 1204); (1%Z, 6181); (1%Z, 5741); ((-1)%Z, 6245); ((-2)%Z, 5740)] 5070602400912917605986812821504%Z 67108864%Z;
  Lin [1203; 6180; 5740] [24219; 6244; 24218; 24217; 24216; 5739] 0%Z [(1%Z, 1203); (1%Z, 6180); (1%Z, 5740); ((-1)%Z, 6244); ((-2)%Z, 5739)] 2535301200456458802993406410752%Z 134217728%Z;
  Lin [1202; 6179; 5739] [24215; 6243; 24214; 24213; 24212; 5738] 0%Z [(1%Z, 1202); (1%Z, 6179); (1%Z, 5739); ((-1)%Z, 6243); ((-2)%Z, 5738)] 1267650600228229401496703205376%Z 268435456%Z;
  Lin [1201; 6178; 5738] [24211; 6242; 24210; 24209; 24208; 5737] 0%Z [(1%Z, 1201); (1%Z, 6178); (1%Z, 5738); ((-1)%Z, 6242); ((-2)%Z, 5737)] 633825300114114700748351602688%Z 536870912%Z;
  Lin [1200; 6177; 5737] [24207; 6241; 24206; 24205; 24204; 5736] 0%Z [(1%Z, 1200); (1%Z, 6177); (1%Z, 5737); ((-1)%Z, 6241); ((-2)%Z, 5736)] 316912650057057350374175801344%Z 1073741824%Z;
  Lin [1199; 6176; 5736] [24203; 6240; 24202; 24201; 24200; 5735] 0%Z [(1%Z, 1199); (1%Z, 6176); (1%Z, 5736); ((-1)%Z, 6240); ((-2)%Z, 5735)] 158456325028528675187087900672%Z 2147483648%Z;
  Lin [1198; 6175; 5735] [24199; 6239; 24198; 24197; 24196; 5734] 0%Z [(1%Z, 1198); (1%Z, 6175); (1%Z, 5735); ((-1)%Z, 6239); ((-2)%Z, 5734)] 79228162514264337593543950336%Z 4294967296%Z;
  Lin [1197; 6174; 5734] [24195; 6238; 24194; 24193; 24192; 5733] 0%Z [(1%Z, 1197); (1%Z, 6174); (1%Z, 5734); ((-1)%Z, 6238); ((-2)%Z, 5733)] 39614081257132168796771975168%Z 8589934592%Z;
  Lin [1196; 6173; 5733] [24191; 6237; 24190; 24189; 24188; 5732] 0%Z [(1%Z, 1196); (1%Z, 6173); (1%Z, 5733); ((-1)%Z, 6237); ((-2)%Z, 5732)] 19807040628566084398385987584%Z 17179869184%Z;
  Lin [1195; 6172; 5732] [24187; 6236; 24186; 24185; 24184; 5731] 0%Z [(1%Z, 1195); (1%Z, 6172); (1%Z, 5732); ((-1)%Z, 6236); ((-2)%Z, 5731)] 9903520314283042199192993792%Z 34359738368%Z;
  Lin [1194; 6171; 5731] [24183; 6235; 24182; 24181; 24180; 5730] 0%Z [(1%Z, 1194); (1%Z, 6171); (1%Z, 5731); ((-1)%Z, 6235); ((-2)%Z, 5730)] 4951760157141521099596496896%Z 68719476736%Z;
  Lin [1193; 6170; 5730] [24179; 6234; 24178; 24177; 24176; 5729] 0%Z [(1%Z, 1193); (1%Z, 6170); (1%Z, 5730); ((-1)%Z, 6234); ((-2)%Z, 5729)] 2475880078570760549798248448%Z 137438953472%Z;
  Lin [1192; 6169; 5729] [24175; 6233; 24174; 24173; 24172; 5728] 0%Z [(1%Z, 1192); (1%Z, 6169); (1%Z, 5729); ((-1)%Z, 6233); ((-2)%Z, 5728)] 1237940039285380274899124224%Z 274877906944%Z;
  Lin [1191; 6168; 5728] [24171; 6232; 24170; 24169; 24168; 5727] 0%Z [(1%Z, 1191); (1%Z, 6168); (1%Z, 5728); ((-1)%Z, 6232); ((-2)%Z, 5727)] 618970019642690137449562112%Z 549755813888%Z;
  Lin [1190; 6167; 5727] [24167; 6231; 24166; 24165; 24164; 5726] 0%Z [(1%Z, 1190); (1%Z, 6167); (1%Z, 5727); ((-1)%Z, 6231); ((-2)%Z, 5726)] 309485009821345068724781056%Z 1099511627776%Z;
  Lin [1189; 6166; 5726] [24163; 6230; 24162; 24161; 24160; 5725] 0%Z [(1%Z, 1189); (1%Z, 6166); (1%Z, 5726); ((-1)%Z, 6230); ((-2)%Z, 5725)] 154742504910672534362390528%Z 2199023255552%Z;
  Lin [1188; 6165; 5725] [24159; 6229; 24158; 24157; 24156; 5724] 0%Z [(1%Z, 1188); (1%Z, 6165); (1%Z, 5725); ((-1)%Z, 6229); ((-2)%Z, 5724)] 77371252455336267181195264%Z 4398046511104%Z;
  Lin [1187; 6164; 5724] [24155; 6228; 24154; 24153; 24152; 5723] 0%Z [(1%Z, 1187); (1%Z, 6164); (1%Z, 5724); ((-1)%Z, 6228); ((-2)%Z, 5723)] 38685626227668133590597632%Z 8796093022208%Z;
  Lin [1186; 6163; 5723] [24151; 6227; 24150; 24149; 24148; 5722] 0%Z [(1%Z, 1186); (1%Z, 6163); (1%Z, 5723); ((-1)%Z, 6227); ((-2)%Z, 5722)] 19342813113834066795298816%Z 17592186044416%Z;
  Lin [1185; 6162; 5722] [24147; 6226; 24146; 24145; 24144; 5721] 0%Z [(1%Z, 1185); (1%Z, 6162); (1%Z, 5722); ((-1)%Z, 6226); ((-2)%Z, 5721)] 9671406556917033397649408%Z 35184372088832%Z;
  Lin [1184; 6161; 5721] [24143; 6225; 24142; 24141; 24140; 5720] 0%Z [(1%Z, 1184); (1%Z, 6161); (1%Z, 5721); ((-1)%Z, 6225); ((-2)%Z, 5720)] 4835703278458516698824704%Z 70368744177664%Z;
  Lin [1183; 6160; 5720] [24139; 6224; 24138; 24137; 24136; 5719] 0%Z [(1%Z, 1183); (1%Z, 6160); (1%Z, 5720); ((-1)%Z, 6224); ((-2)%Z, 5719)] 2417851639229258349412352%Z 140737488355328%Z;
  Lin [1182; 6159; 5719] [24135; 6223; 24134; 24133; 24132; 5718] 0%Z [(1%Z, 1182); (1%Z, 6159); (1%Z, 5719); ((-1)%Z, 6223); ((-2)%Z, 5718)] 1208925819614629174706176%Z 281474976710656%Z;
  Lin [1181; 6158; 5718] [24131; 6222; 24130; 24129; 24128; 5717] 0%Z [(1%Z, 1181); (1%Z, 6158); (1%Z, 5718); ((-1)%Z, 6222); ((-2)%Z, 5717)] 604462909807314587353088%Z 562949953421312%Z;
  Lin [1180; 6157; 5717] [24127; 6221; 24126; 24125; 24124; 5716] 0%Z [(1%Z, 1180); (1%Z, 6157); (1%Z, 5717); ((-1)%Z, 6221); ((-2)%Z, 5716)] 302231454903657293676544%Z 1125899906842624%Z;
  Lin [1179; 6156; 5716] [24123; 6220; 24122; 24121; 24120; 5715] 0%Z [(1%Z, 1179); (1%Z, 6156); (1%Z, 5716); ((-1)%Z, 6220); ((-2)%Z, 5715)] 151115727451828646838272%Z 2251799813685248%Z;
  Lin [1178; 6155; 5715] [24119; 6219; 24118; 24117; 24116; 5714] 0%Z [(1%Z, 1178); (1%Z, 6155); (1%Z, 5715); ((-1)%Z, 6219); ((-2)%Z, 5714)] 75557863725914323419136%Z 4503599627370496%Z;
  Lin [1177; 6154; 5714] [24115; 6218; 24114; 24113; 24112; 5713] 0%Z [(1%Z, 1177); (1%Z, 6154); (1%Z, 5714); ((-1)%Z, 6218); ((-2)%Z, 5713)] 37778931862957161709568%Z 9007199254740992%Z;
  Lin [1176; 6153; 5713] [24111; 6217; 24110; 24109; 24108; 5712] 0%Z [(1%Z, 1176); (1%Z, 6153); (1%Z, 5713); ((-1)%Z, 6217); ((-2)%Z, 5712)] 18889465931478580854784%Z 18014398509481984%Z;
  Lin [1175; 6152; 5712] [24107; 6216; 24106; 24105; 24104; 5711] 0%Z [(1%Z, 1175); (1%Z, 6152); (1%Z, 5712); ((-1)%Z, 6216); ((-2)%Z, 5711)] 9444732965739290427392%Z 36028797018963968%Z].
Definition mult2_64_facts_10 : list lin_fact := [
  Lin [1174; 6151; 5711] [24103; 6215; 24102; 24101; 24100; 5710] 0%Z [(1%Z, 1174); (1%Z, 6151); (1%Z, 5711); ((-1)%Z, 6215); ((-2)%Z, 5710)] 4722366482869645213696%Z 72057594037927936%Z;
  Lin [1173; 6150; 5710] [24099; 6214; 24098; 24097; 24096; 5709] 0%Z [(1%Z, 1173); (1%Z, 6150); (1%Z, 5710); ((-1)%Z, 6214); ((-2)%Z, 5709)] 2361183241434822606848%Z 144115188075855872%Z;
  Lin [1172; 6149; 5709] [24095; 6213; 24094; 24093; 24092; 5708] 0%Z [(1%Z, 1172); (1%Z, 6149); (1%Z, 5709); ((-1)%Z, 6213); ((-2)%Z, 5708)] 1180591620717411303424%Z 288230376151711744%Z;
  Lin [1171; 6148; 5708] [24091; 6212; 24090; 24089; 24088; 5707] 0%Z [(1%Z, 1171); (1%Z, 6148); (1%Z, 5708); ((-1)%Z, 6212); ((-2)%Z, 5707)] 590295810358705651712%Z 576460752303423488%Z;
  Lin [1170; 6147; 5707] [24087; 6211; 24086; 24085; 24084; 5706] 0%Z [(1%Z, 1170); (1%Z, 6147); (1%Z, 5707); ((-1)%Z, 6211); ((-2)%Z, 5706)] 295147905179352825856%Z 1152921504606846976%Z;
  Lin [1169; 6146; 5706] [24083; 6210; 24082; 24081; 24080; 5705] 0%Z [(1%Z, 1169); (1%Z, 6146); (1%Z, 5706); ((-1)%Z, 6210); ((-2)%Z, 5705)] 147573952589676412928%Z 2305843009213693952%Z;
  Lin [1168; 6145; 5705] [24079; 6209; 24078; 24077; 24076; 5704] 0%Z [(1%Z, 1168); (1%Z, 6145); (1%Z, 5705); ((-1)%Z, 6209); ((-2)%Z, 5704)] 73786976294838206464%Z 4611686018427387904%Z;
  Lin [1167; 6144; 5704] [24075; 6208; 24074; 24073; 24072; 5703] 0%Z [(1%Z, 1167); (1%Z, 6144); (1%Z, 5704); ((-1)%Z, 6208); ((-2)%Z, 5703)] 36893488147419103232%Z 9223372036854775808%Z;
  Lin [1166; 6143; 5703] [24071; 6207; 24070; 24069; 24068; 5702] 0%Z [(1%Z, 1166); (1%Z, 6143); (1%Z, 5703); ((-1)%Z, 6207); ((-2)%Z, 5702)] 18446744073709551616%Z 18446744073709551616%Z;
  Lin [1165; 6142; 5702] [24067; 6206; 24066; 24065; 24064; 5701] 0%Z [(1%Z, 1165); (1%Z, 6142); (1%Z, 5702); ((-1)%Z, 6206); ((-2)%Z, 5701)] 9223372036854775808%Z 36893488147419103232%Z;
  Lin [1164; 6141; 5701] [24063; 6205; 24062; 24061; 24060; 5700] 0%Z [(1%Z, 1164); (1%Z, 6141); (1%Z, 5701); ((-1)%Z, 6205); ((-2)%Z, 5700)] 4611686018427387904%Z 73786976294838206464%Z;
  Lin [1163; 6140; 5700] [24059; 6204; 24058; 24057; 24056; 5699] 0%Z [(1%Z, 1163); (1%Z, 6140); (1%Z, 5700); ((-1)%Z, 6204); ((-2)%Z, 5699)] 2305843009213693952%Z 147573952589676412928%Z;
  Lin [1162; 6139; 5699] [24055; 6203; 24054; 24053; 24052; 5698] 0%Z [(1%Z, 1162); (1%Z, 6139); (1%Z, 5699); ((-1)%Z, 6203); ((-2)%Z, 5698)] 1152921504606846976%Z 295147905179352825856%Z;
  Lin [1161; 6138; 5698] [24051; 6202; 24050; 24049; 24048; 5697] 0%Z [(1%Z, 1161); (1%Z, 6138); (1%Z, 5698); ((-1)%Z, 6202); ((-2)%Z, 5697)] 576460752303423488%Z 590295810358705651712%Z;
  Lin [1160; 6137; 5697] [24047; 6201; 24046; 24045; 24044; 5696] 0%Z [(1%Z, 1160); (1%Z, 6137); (1%Z, 5697); ((-1)%Z, 6201); ((-2)%Z, 5696)] 288230376151711744%Z 1180591620717411303424%Z;
  Lin [1159; 6136; 5696] [24043; 6200; 24042; 24041; 24040; 5695] 0%Z [(1%Z, 1159); (1%Z, 6136); (1%Z, 5696); ((-1)%Z, 6200); ((-2)%Z, 5695)] 144115188075855872%Z 2361183241434822606848%Z;
  Lin [1158; 6135; 5695] [24039; 6199; 24038; 24037; 24036; 5694] 0%Z [(1%Z, 1158); (1%Z, 6135); (1%Z, 5695); ((-1)%Z, 6199); ((-2)%Z, 5694)] 72057594037927936%Z 4722366482869645213696%Z;
  Lin [1157; 6134; 5694] [24035; 6198; 24034; 24033; 24032; 5693] 0%Z [(1%Z, 1157); (1%Z, 6134); (1%Z, 5694); ((-1)%Z, 6198); ((-2)%Z, 5693)] 36028797018963968%Z 9444732965739290427392%Z;
  Lin [1156; 6133; 5693] [24031; 6197; 24030; 24029; 24028; 5692] 0%Z [(1%Z, 1156); (1%Z, 6133); (1%Z, 5693); ((-1)%Z, 6197); ((-2)%Z, 5692)] 18014398509481984%Z 18889465931478580854784%Z;
  Lin [1155; 6132; 5692] [24027; 6196; 24026; 24025; 24024; 5691] 0%Z [(1%Z, 1155); (1%Z, 6132); (1%Z, 5692); ((-1)%Z, 6196); ((-2)%Z, 5691)] 9007199254740992%Z 37778931862957161709568%Z;
  Lin [1154; 6131; 5691] [24023; 6195; 24022; 24021; 24020; 5690] 0%Z [(1%Z, 1154); (1%Z, 6131); (1%Z, 5691); ((-1)%Z, 6195); ((-2)%Z, 5690)] 4503599627370496%Z 75557863725914323419136%Z;
  Lin [1153; 6130; 5690] [24019; 6194; 24018; 24017; 24016; 5689] 0%Z [(1%Z, 1153); (1%Z, 6130); (1%Z, 5690); ((-1)%Z, 6194); ((-2)%Z, 5689)] 2251799813685248%Z 151115727451828646838272%Z;
  Lin [1152; 6129; 5689] [24015; 6193; 24014; 24013; 24012; 5688] 0%Z [(1%Z, 1152); (1%Z, 6129); (1%Z, 5689); ((-1)%Z, 6193); ((-2)%Z, 5688)] 1125899906842624%Z 302231454903657293676544%Z;
  Lin [1151; 5623; 5688] [24011; 6192; 24010; 24009; 24008; 5687] 0%Z [(1%Z, 1151); (1%Z, 5623); (1%Z, 5688); ((-1)%Z, 6192); ((-2)%Z, 5687)] 562949953421312%Z 604462909807314587353088%Z;
  Lin [1278; 6254] [28113; 6318] 0%Z [(1%Z, 1278); (1%Z, 6254); ((-1)%Z, 28113); ((-2)%Z, 6318)] 2596148429267413814265248164610048%Z 131072%Z;
  Lin [1277; 6253; 6318] [24007; 6829; 24006; 24005; 24004; 6317] 0%Z [(1%Z, 1277); (1%Z, 6253); (1%Z, 6318); ((-1)%Z, 6829); ((-2)%Z, 6317)] 1298074214633706907132624082305024%Z 262144%Z;
  Lin [1276; 6252; 6317] [24003; 6828; 24002; 24001; 24000; 6316] 0%Z [(1%Z, 1276); (1%Z, 6252); (1%Z, 6317); ((-1)%Z, 6828); ((-2)%Z, 6316)] 649037107316853453566312041152512%Z 524288%Z;
  Lin [1275; 6251; 6316] [23999; 6827; 23998; 23997; 23996; 6315] 0%Z [(1%Z, 1275); (1%Z, 6251); (1%Z, 6316); ((-1)%Z, 6827); ((-2)%Z, 6315)] 324518553658426726783156020576256%Z 1048576%Z;
  Lin [1274; 6250; 6315] [23995; 6826; 23994; 23993; 23992; 6314] 0%Z [(1%Z, 1274); (1%Z, 6250); (1%Z, 6315); ((-1)%Z, 6826); ((-2)%Z, 6314)] 162259276829213363391578010288128%Z 2097152%Z;
  Lin [1273; 6249; 6314] [23991; 6825; 23990; 23989; 23988; 6313] 0%Z [(1%Z, 1273); (1%Z, 6249); (1%Z, 6314); ((-1)%Z, 6825); ((-2)%Z, 6313)] 81129638414606681695789005144064%Z 4194304%Z;
  Lin [1272; 6248; 6313] [23987; 6824; 23986; 23985; 23984; 6312] 0%Z [(1%Z, 1272); (1%Z, 6248); (1%Z, 6313); ((-1)%Z, 6824); ((-2)%Z, 6312)] 40564819207303340847894502572032%Z 8388608%Z;
  Lin [1271; 6247; 6312] [23983; 6823; 23982; 23981; 23980; 6311] 0%Z [(1%Z, 1271); (1%Z, 6247); (1%Z, 6312); ((-1)%Z, 6823); ((-2)%Z, 6311)] 20282409603651670423947251286016%Z 16777216%Z;
  Lin [1270; 6246; 6311] [23979; 6822; 23978; 23977; 23976; 6310] 0%Z [(1%Z, 1270); (1%Z, 6246); (1%Z, 6311); ((-1)%Z, 6822); ((-2)%Z, 6310)] 10141204801825835211973625643008%Z 33554432%Z;
  Lin [1269; 6245; 6310] [23975; 6821; 23974; 23973; 23972; 6309] 0%Z [(1%Z, 1269); (1%Z, 6245); (1%Z, 6310); ((-1)%Z, 6821); ((-2)%Z, 6309)] 5070602400912917605986812821504%Z 67108864%Z;
  Lin [1268; 6244; 6309] [23971; 6820; 23970; 23969; 23968; 6308] 0%Z [(1%Z, 1268); (1%Z, 6244); (1%Z, 6309); ((-1)%Z, 6820); ((-2)%Z, 6308)] 2535301200456458802993406410752%Z 134217728%Z;
  Lin [1267; 6243; 6308] [23967; 6819; 23966; 23965; 23964; 6307] 0%Z [(1%Z, 1267); (1%Z, 6243); (1%Z, 6308); ((-1)%Z, 6819); ((-2)%Z, 6307)] 1267650600228229401496703205376%Z 268435456%Z;
  Lin [1266; 6242; 6307] [23963; 6818; 23962; 23961; 23960; 6306] 0%Z [(1%Z, 1266); (1%Z, 6242); (1%Z, 6307); ((-1)%Z, 6818); ((-2)%Z, 6306)] 633825300114114700748351602688%Z 536870912%Z;
  Lin [1265; 6241; 6306] [23959; 6817; 23958; 23957; 23956; 6305] 0%Z [(1%Z, 1265); (1%Z, 6241); (1%Z, 6306); ((-1)%Z, 6817); ((-2)%Z, 6305)] 316912650057057350374175801344%Z 1073741824%Z;
  Lin [1264; 6240; 6305] [23955; 6816; 23954; 23953; 23952; 6304] 0%Z [(1%Z, 1264); (1%Z, 6240); (1%Z, 6305); ((-1)%Z, 6816); ((-2)%Z, 6304)] 158456325028528675187087900672%Z 2147483648%Z;
  Lin [1263; 6239; 6304] [23951; 6815; 23950; 23949; 23948; 6303] 0%Z [(1%Z, 1263); (1%Z, 6239); (1%Z, 6304); ((-1)%Z, 6815); ((-2)%Z, 6303)] 79228162514264337593543950336%Z 4294967296%Z;
  Lin [1262; 6238; 6303] [23947; 6814; 23946; 23945; 23944; 6302] 0%Z [(1%Z, 1262); (1%Z, 6238); (1%Z, 6303); ((-1)%Z, 6814); ((-2)%Z, 6302)] 39614081257132168796771975168%Z 8589934592%Z;
  Lin [1261; 6237; 6302] [23943; 6813; 23942; 23941; 23940; 6301] 0%Z [(1%Z, 1261); (1%Z, 6237); (1%Z, 6302); ((-1)%Z, 6813); ((-2)%Z, 6301)] 19807040628566084398385987584%Z 17179869184%Z;
  Lin [1260; 6236; 6301] [23939; 6812; 23938; 23937; 23936; 6300] 0%Z [(1%Z, 1260); (1%Z, 6236); (1%Z, 6301); ((-1)%Z, 6812); ((-2)%Z, 6300)] 9903520314283042199192993792%Z 34359738368%Z;
  Lin [1259; 6235; 6300] [23935; 6811; 23934; 23933; 23932; 6299] 0%Z [(1%Z, 1259); (1%Z, 6235); (1%Z, 6300); ((-1)%Z, 6811); ((-2)%Z, 6299)] 4951760157141521099596496896%Z 68719476736%Z;
  Lin [1258; 6234; 6299] [23931; 6810; 23930; 23929; 23928; 6298] 0%Z [(1%Z, 1258); (1%Z, 6234); (1%Z, 6299); ((-1)%Z, 6810); ((-2)%Z, 6298)] 2475880078570760549798248448%Z 137438953472%Z;
  Lin [1257; 6233; 6298] [23927; 6809; 23926; 23925; 23924; 6297] 0%Z [(1%Z, 1257); (1%Z, 6233); (1%Z, 6298); ((-1)%Z, 6809); ((-2)%Z, 6297)] 1237940039285380274899124224%Z 274877906944%Z;
  Lin [1256; 6232; 6297] [23923; 6808; 23922; 23921; 23920; 6296] 0%Z [(1%Z, 1256); (1%Z, 6232); (1%Z, 6297); ((-1)%Z, 6808); ((-2)%Z, 6296)] 618970019642690137449562112%Z 549755813888%Z;
  Lin [1255; 6231; 6296] [23919; 6807; 23918; 23917; 23916; 6295] 0%Z [(1%Z, 1255); (1%Z, 6231); (1%Z, 6296); ((-1)%Z, 6807); ((-2)%Z, 6295)] 309485009821345068724781056%Z 1099511627776%Z;
  Lin [1254; 6230; 6295] [23915; 6806; 23914; 23913; 23912; 6294] 0%Z [(1%Z, 1254); (1%Z, 6230); (1%Z, 6295); ((-1)%Z, 6806); ((-2)%Z, 6294)] 154742504910672534362390528%Z 2199023255552%Z;
  Lin [1253; 6229; 6294] [23911; 6805; 23910; 23909; 23908; 6293] 0%Z [(1%Z, 1253); (1%Z, 6229); (1%Z, 6294); ((-1)%Z, 6805); ((-2)%Z, 6293)] 77371252455336267181195264%Z 4398046511104%Z;
  Lin [1252; 6228; 6293] [23907; 6804; 23906; 23905; 23904; 6292] 0%Z [(1%Z, 1252); (1%Z, 6228); (1%Z, 6293); ((-1)%Z, 6804); ((-2)%Z, 6292)] 38685626227668133590597632%Z 8796093022208%Z;
  Lin [1251; 6227; 6292] [23903; 6803; 23902; 23901; 23900; 6291] 0%Z [(1%Z, 1251); (1%Z, 6227); (1%Z, 6292); ((-1)%Z, 6803); ((-2)%Z, 6291)] 19342813113834066795298816%Z 17592186044416%Z;
  Lin [1250; 6226; 6291] [23899; 6802; 23898; 23897; 23896; 6290] 0%Z [(1%Z, 1250); (1%Z, 6226); (1%Z, 6291); ((-1)%Z, 6802); ((-2)%Z, 6290)] 9671406556917033397649408%Z 35184372088832%Z;
  Lin [1249; 6225; 6290] [23895; 6801; 23894; 23893; 23892; 6289] 0%Z [(1%Z, 1249); (1%Z, 6225); (1%Z, 6290); ((-1)%Z, 6801); ((-2)%Z, 6289)] 4835703278458516698824704%Z 70368744177664%Z;
  Lin [1248; 6224; 6289] [23891; 6800; 23890; 23889; 23888; 6288] 0%Z [(1%Z, 1248); (1%Z, 6224); (1%Z, 6289); ((-1)%Z, 6800); ((-2)%Z, 6288)] 2417851639229258349412352%Z 140737488355328%Z;
  Lin [1247; 6223; 6288] [23887; 6799; 23886; 23885; 23884; 6287] 0%Z [(1%Z, 1247); (1%Z, 6223); (1%Z, 6288); ((-1)%Z, 6799); ((-2)%Z, 6287)] 1208925819614629174706176%Z 281474976710656%Z;
  Lin [1246; 6222; 6287] [23883; 6798; 23882; 23881; 23880; 6286] 0%Z [(1%Z, 1246); (1%Z, 6222); (1%Z, 6287); ((-1)%Z, 6798); ((-2)%Z, 6286)] 604462909807314587353088%Z 562949953421312%Z;
  Lin [1245; 6221; 6286] [23879; 6797; 23878; 23877; 23876; 6285] 0%Z [(1%Z, 1245); (1%Z, 6221); (1%Z, 6286); ((-1)%Z, 6797); ((-2)%Z, 6285)] 302231454903657293676544%Z 1125899906842624%Z;
  Lin [1244; 6220; 6285] [23875; 6796; 23874; 23873; 23872; 6284] 0%Z [(1%Z, 1244); (1%Z, 6220); (1%Z, 6285); ((-1)%Z, 6796); ((-2)%Z, 6284)] 151115727451828646838272%Z 2251799813685248%Z;
  Lin [1243; 6219; 6284] [23871; 6795; 23870; 23869; 23868; 6283] 0%Z [(1%Z, 1243); (1%Z, 6219); (1%Z, 6284); ((-1)%Z, 6795); ((-2)%Z, 6283)] 75557863725914323419136%Z 4503599627370496%Z;
  Lin [1242; 6218; 6283] [23867; 6794; 23866; 23865; 23864; 6282] 0%Z [(1%Z, 1242); (1%Z, 6218); (1%Z, 6283); ((-1)%Z, 6794); ((-2)%Z, 6282)] 37778931862957161709568%Z 9007199254740992%Z;
  Lin [1241; 6217; 6282] [23863; 6793; 23862; 23861; 23860; 6281] 0%Z [(1%Z, 1241); (1%Z, 6217); (1%Z, 6282); ((-1)%Z, 6793); ((-2)%Z, 6281)] 18889465931478580854784%Z 18014398509481984%Z;
  Lin [1240; 6216; 6281] [23859; 6792; 23858; 23857; 23856; 6280] 0%Z [(1%Z, 1240); (1%Z, 6216); (1%Z, 6281); ((-1)%Z, 6792); ((-2)%Z, 6280)] 9444732965739290427392%Z 36028797018963968%Z;
  Lin [1239; 6215; 6280] [23855; 6791; 23854; 23853; 23852; 6279] 0%Z [(1%Z, 1239); (1%Z, 6215); (1%Z, 6280); ((-1)%Z, 6791); ((-2)%Z, 6279)] 4722366482869645213696%Z 72057594037927936%Z;
  Lin [1238; 6214; 6279] [23851; 6790; 23850; 23849; 23848; 6278] 0%Z [(1%Z, 1238); (1%Z, 6214); (1%Z, 6279); ((-1)%Z, 6790); ((-2)%Z, 6278)] 2361183241434822606848%Z 144115188075855872%Z;
  Lin [1237; 6213; 6278] [23847; 6789; 23846; 23845; 23844; 6277] 0%Z [(1%Z, 1237); (1%Z, 6213); (1%Z, 6278); ((-1)%Z, 6789); ((-2)%Z, 6277)] 1180591620717411303424%Z 288230376151711744%Z;
  Lin [1236; 6212; 6277] [23843; 6788; 23842; 23841; 23840; 6276] 0%Z [(1%Z, 1236); (1%Z, 6212); (1%Z, 6277); ((-1)%Z, 6788); ((-2)%Z, 6276)] 590295810358705651712%Z 576460752303423488%Z;
  Lin [1235; 6211; 6276] [23839; 6787; 23838; 23837; 23836; 6275] 0%Z [(1%Z, 1235); (1%Z, 6211); (1%Z, 6276); ((-1)%Z, 6787); ((-2)%Z, 6275)] 295147905179352825856%Z 1152921504606846976%Z;
  Lin [1234; 6210; 6275] [23835; 6786; 23834; 23833; 23832; 6274] 0%Z [(1%Z, 1234); (1%Z, 6210); (1%Z, 6275); ((-1)%Z, 6786); ((-2)%Z, 6274)] 147573952589676412928%Z 2305843009213693952%Z;
  Lin [1233; 6209; 6274] [23831; 6785; 23830; 23829; 23828; 6273] 0%Z [(1%Z, 1233); (1%Z, 6209); (1%Z, 6274); ((-1)%Z, 6785); ((-2)%Z, 6273)] 73786976294838206464%Z 4611686018427387904%Z;
  Lin [1232; 6208; 6273] [23827; 6784; 23826; 23825; 23824; 6272] 0%Z [(1%Z, 1232); (1%Z, 6208); (1%Z, 6273); ((-1)%Z, 6784); ((-2)%Z, 6272)] 36893488147419103232%Z 9223372036854775808%Z;
  Lin [1231; 6207; 6272] [23823; 6783; 23822; 23821; 23820; 6271] 0%Z [(1%Z, 1231); (1%Z, 6207); (1%Z, 6272); ((-1)%Z, 6783); ((-2)%Z, 6271)] 18446744073709551616%Z 18446744073709551616%Z;
  Lin [1230; 6206; 6271] [23819; 6782; 23818; 23817; 23816; 6270] 0%Z [(1%Z, 1230); (1%Z, 6206); (1%Z, 6271); ((-1)%Z, 6782); ((-2)%Z, 6270)] 9223372036854775808%Z 36893488147419103232%Z;
  Lin [1229; 6205; 6270] [23815; 6781; 23814; 23813; 23812; 6269] 0%Z [(1%Z, 1229); (1%Z, 6205); (1%Z, 6270); ((-1)%Z, 6781); ((-2)%Z, 6269)] 4611686018427387904%Z 73786976294838206464%Z;
  Lin [1228; 6204; 6269] [23811; 6780; 23810; 23809; 23808; 6268] 0%Z [(1%Z, 1228); (1%Z, 6204); (1%Z, 6269); ((-1)%Z, 6780); ((-2)%Z, 6268)] 2305843009213693952%Z 147573952589676412928%Z;
  Lin [1227; 6203; 6268] [23807; 6779; 23806; 23805; 23804; 6267] 0%Z [(1%Z, 1227); (1%Z, 6203); (1%Z, 6268); ((-1)%Z, 6779); ((-2)%Z, 6267)] 1152921504606846976%Z 295147905179352825856%Z;
  Lin [1226; 6202; 6267] [23803; 6778; 23802; 23801; 23800; 6266] 0%Z [(1%Z, 1226); (1%Z, 6202); (1%Z, 6267); ((-1)%Z, 6778); ((-2)%Z, 6266)] 576460752303423488%Z 590295810358705651712%Z;
  Lin [1225; 6201; 6266] [23799; 6777; 23798; 23797; 23796; 6265] 0%Z [(1%Z, 1225); (1%Z, 6201); (1%Z, 6266); ((-1)%Z, 6777); ((-2)%Z, 6265)] 288230376151711744%Z 1180591620717411303424%Z;
  Lin [1224; 6200; 6265] [23795; 6776; 23794; 23793; 23792; 6264] 0%Z [(1%Z, 1224); (1%Z, 6200); (1%Z, 6265); ((-1)%Z, 6776); ((-2)%Z, 6264)] 144115188075855872%Z 2361183241434822606848%Z;
  Lin [1223; 6199; 6264] [23791; 6775; 23790; 23789; 23788; 6263] 0%Z [(1%Z, 1223); (1%Z, 6199); (1%Z, 6264); ((-1)%Z, 6775); ((-2)%Z, 6263)] 72057594037927936%Z 4722366482869645213696%Z;
  Lin [1222; 6198; 6263] [23787; 6774; 23786; 23785; 23784; 6262] 0%Z [(1%Z, 1222); (1%Z, 6198); (1%Z, 6263); ((-1)%Z, 6774); ((-2)%Z, 6262)] 36028797018963968%Z 9444732965739290427392%Z;
  Lin [1221; 6197; 6262] [23783; 6773; 23782; 23781; 23780; 6261] 0%Z [(1%Z, 1221); (1%Z, 6197); (1%Z, 6262); ((-1)%Z, 6773); ((-2)%Z, 6261)] 18014398509481984%Z 18889465931478580854784%Z;
  Lin [1220; 6196; 6261] [23779; 6772; 23778; 23777; 23776; 6260] 0%Z [(1%Z, 1220); (1%Z, 6196); (1%Z, 6261); ((-1)%Z, 6772); ((-2)%Z, 6260)] 9007199254740992%Z 37778931862957161709568%Z;
  Lin [1219; 6195; 6260] [23775; 6771; 23774; 23773; 23772; 6259] 0%Z [(1%Z, 1219); (1%Z, 6195); (1%Z, 6260); ((-1)%Z, 6771); ((-2)%Z, 6259)] 4503599627370496%Z 75557863725914323419136%Z;
  Lin [1218; 6194; 6259] [23771; 6770; 23770; 23769; 23768; 6258] 0%Z [(1%Z, 1218); (1%Z, 6194); (1%Z, 6259); ((-1)%Z, 6770); ((-2)%Z, 6258)] 2251799813685248%Z 151115727451828646838272%Z;
  Lin [1217; 6193; 6258] [23767; 6769; 23766; 23765; 23764; 6257] 0%Z [(1%Z, 1217); (1%Z, 6193); (1%Z, 6258); ((-1)%Z, 6769); ((-2)%Z, 6257)] 1125899906842624%Z 302231454903657293676544%Z;
  Lin [1216; 6192; 6257] [23763; 6768; 23762; 23761; 23760; 6256] 0%Z [(1%Z, 1216); (1%Z, 6192); (1%Z, 6257); ((-1)%Z, 6768); ((-2)%Z, 6256)] 562949953421312%Z 604462909807314587353088%Z;
  Lin [1215; 5687; 6256] [23759; 6767; 23758; 23757; 23756; 6255] 0%Z [(1%Z, 1215); (1%Z, 5687); (1%Z, 6256); ((-1)%Z, 6767); ((-2)%Z, 6255)] 281474976710656%Z 1208925819614629174706176%Z;
  Lin [1342; 6829] [28114; 6382] 0%Z [(1%Z, 1342); (1%Z, 6829); ((-1)%Z, 28114); ((-2)%Z, 6382)] 1298074214633706907132624082305024%Z 262144%Z;
  Lin [1341; 6828; 6382] [23755; 6892; 23754; 23753; 23752; 6381] 0%Z [(1%Z, 1341); (1%Z, 6828); (1%Z, 6382); ((-1)%Z, 6892); ((-2)%Z, 6381)] 649037107316853453566312041152512%Z 524288%Z;
  Lin [1340; 6827; 6381] [23751; 6891; 23750; 23749; 23748; 6380] 0%Z [(1%Z, 1340); (1%Z, 6827); (1%Z, 6381); ((-1)%Z, 6891); ((-2)%Z, 6380)] 324518553658426726783156020576256%Z 1048576%Z;
  Lin [1339; 6826; 6380] [23747; 6890; 23746; 23745; 23744; 6379] 0%Z [(1%Z, 1339); (1%Z, 6826); (1%Z, 6380); ((-1)%Z, 6890); ((-2)%Z, 6379)] 162259276829213363391578010288128%Z 2097152%Z;
  Lin [1338; 6825; 6379] [23743; 6889; 23742; 23741; 23740; 6378] 0%Z [(1%Z, 1338); (1%Z, 6825); (1%Z, 6379); ((-1)%Z, 6889); ((-2)%Z, 6378)] 81129638414606681695789005144064%Z 4194304%Z;
  Lin [1337; 6824; 6378] [23739; 6888; 23738; 23737; 23736; 6377] 0%Z [(1%Z, 1337); (1%Z, 6824); (1%Z, 6378); ((-1)%Z, 6888); ((-2)%Z, 6377)] 40564819207303340847894502572032%Z 8388608%Z;
  Lin [1336; 6823; 6377] [23735; 6887; 23734; 23733; 23732; 6376] 0%Z [(1%Z, 1336); (1%Z, 6823); (1%Z, 6377); ((-1)%Z, 6887); ((-2)%Z, 6376)] 20282409603651670423947251286016%Z 16777216%Z;
  Lin [1335; 6822; 6376] [23731; 6886; 23730; 23729; 23728; 6375] 0%Z [(1%Z, 1335); (1%Z, 6822); (1%Z, 6376); ((-1)%Z, 6886); ((-2)%Z, 6375)] 10141204801825835211973625643008%Z 33554432%Z;
  Lin [1334; 6821; 6375] [23727; 6885; 23726; 23725; 23724; 6374] 0%Z [(1%Z, 1334); (1%Z, 6821); (1%Z, 6375); ((-1)%Z, 6885); ((-2)%Z, 6374)] 5070602400912917605986812821504%Z 67108864%Z;
  Lin [1333; 6820; 6374] [23723; 6884; 23722; 23721; 23720; 6373] 0%Z [(1%Z, 1333); (1%Z, 6820); (1%Z, 6374); ((-1)%Z, 6884); ((-2)%Z, 6373)] 2535301200456458802993406410752%Z 134217728%Z;
  Lin [1332; 6819; 6373] [23719; 6883; 23718; 23717; 23716; 6372] 0%Z [(1%Z, 1332); (1%Z, 6819); (1%Z, 6373); ((-1)%Z, 6883); ((-2)%Z, 6372)] 1267650600228229401496703205376%Z 268435456%Z;
  Lin [1331; 6818; 6372] [23715; 6882; 23714; 23713; 23712; 6371] 0%Z [(1%Z, 1331); (1%Z, 6818); (1%Z, 6372); ((-1)%Z, 6882); ((-2)%Z, 6371)] 633825300114114700748351602688%Z 536870912%Z].
Definition mult2_64_facts_11 : list lin_fact := [
  Lin [1330; 6817; 6371] [23711; 6881; 23710; 23709; 23708; 6370] 0%Z [(1%Z, 1330); (1%Z, 6817); (1%Z, 6371); ((-1)%Z, 6881); ((-2)%Z, 6370)] 316912650057057350374175801344%Z 1073741824%Z;
  Lin [1329; 6816; 6370] [23707; 6880; 23706; 23705; 23704; 6369] 0%Z [(1%Z, 1329); (1%Z, 6816); (1%Z, 6370); ((-1)%Z, 6880); ((-2)%Z, 6369)] 158456325028528675187087900672%Z 2147483648%Z;
  Lin [1328; 6815; 6369] [23703; 6879; 23702; 23701; 23700; 6368] 0%Z [(1%Z, 1328); (1%Z, 6815); (1%Z, 6369); ((-1)%Z, 6879); ((-2)%Z, 6368)] 79228162514264337593543950336%Z 4294967296%Z;
  Lin [1327; 6814; 6368] [23699; 6878; 23698; 23697; 23696; 6367] 0%Z [(1%Z, 1327); (1%Z, 6814); (1%Z, 6368); ((-1)%Z, 6878); ((-2)%Z, 6367)] 39614081257132168796771975168%Z 8589934592%Z;
  Lin [1326; 6813; 6367] [23695; 6877; 23694; 23693; 23692; 6366] 0%Z [(1%Z, 1326); (1%Z, 6813); (1%Z, 6367); ((-1)%Z, 6877); ((-2)%Z, 6366)] 19807040628566084398385987584%Z 17179869184%Z;
  Lin [1325; 6812; 6366] [23691; 6876; 23690; 23689; 23688; 6365] 0%Z [(1%Z, 1325); (1%Z, 6812); (1%Z, 6366); ((-1)%Z, 6876); ((-2)%Z, 6365)] 9903520314283042199192993792%Z 34359738368%Z;
  Lin [1324; 6811; 6365] [23687; 6875; 23686; 23685; 23684; 6364] 0%Z [(1%Z, 1324); (1%Z, 6811); (1%Z, 6365); ((-1)%Z, 6875); ((-2)%Z, 6364)] 4951760157141521099596496896%Z 68719476736%Z;
  Lin [1323; 6810; 6364] [23683; 6874; 23682; 23681; 23680; 6363] 0%Z [(1%Z, 1323); (1%Z, 6810); (1%Z, 6364); ((-1)%Z, 6874); ((-2)%Z, 6363)] 2475880078570760549798248448%Z 137438953472%Z;
  Lin [1322; 6809; 6363] [23679; 6873; 23678; 23677; 23676; 6362] 0%Z [(1%Z, 1322); (1%Z, 6809); (1%Z, 6363); ((-1)%Z, 6873); ((-2)%Z, 6362)] 1237940039285380274899124224%Z 274877906944%Z;
  Lin [1321; 6808; 6362] [23675; 6872; 23674; 23673; 23672; 6361] 0%Z [(1%Z, 1321); (1%Z, 6808); (1%Z, 6362); ((-1)%Z, 6872); ((-2)%Z, 6361)] 618970019642690137449562112%Z 549755813888%Z;
  Lin [1320; 6807; 6361] [23671; 6871; 23670; 23669; 23668; 6360] 0%Z [(1%Z, 1320); (1%Z, 6807); (1%Z, 6361); ((-1)%Z, 6871); ((-2)%Z, 6360)] 309485009821345068724781056%Z 1099511627776%Z;
  Lin [1319; 6806; 6360] [23667; 6870; 23666; 23665; 23664; 6359] 0%Z [(1%Z, 1319); (1%Z, 6806); (1%Z, 6360); ((-1)%Z, 6870); ((-2)%Z, 6359)] 154742504910672534362390528%Z 2199023255552%Z;
  Lin [1318; 6805; 6359] [23663; 6869; 23662; 23661; 23660; 6358] 0%Z [(1%Z, 1318); (1%Z, 6805); (1%Z, 6359); ((-1)%Z, 6869); ((-2)%Z, 6358)] 77371252455336267181195264%Z 4398046511104%Z;
  Lin [1317; 6804; 6358] [23659; 6868; 23658; 23657; 23656; 6357] 0%Z [(1%Z, 1317); (1%Z, 6804); (1%Z, 6358); ((-1)%Z, 6868); ((-2)%Z, 6357)] 38685626227668133590597632%Z 8796093022208%Z;
  Lin [1316; 6803; 6357] [23655; 6867; 23654; 23653; 23652; 6356] 0%Z [(1%Z, 1316); (1%Z, 6803); (1%Z, 6357); ((-1)%Z, 6867); ((-2)%Z, 6356)] 19342813113834066795298816%Z 17592186044416%Z;
  Lin [1315; 6802; 6356] [23651; 6866; 23650; 23649; 23648; 6355] 0%Z [(1%Z, 1315); (1%Z, 6802); (1%Z, 6356); ((-1)%Z, 6866); ((-2)%Z, 6355)] 9671406556917033397649408%Z 35184372088832%Z;
  Lin [1314; 6801; 6355] [23647; 6865; 23646; 23645; 23644; 6354] 0%Z [(1%Z, 1314); (1%Z, 6801); (1%Z, 6355); ((-1)%Z, 6865); ((-2)%Z, 6354)] 4835703278458516698824704%Z 70368744177664%Z;
  Lin [1313; 6800; 6354] [23643; 6864; 23642; 23641; 23640; 6353] 0%Z [(1%Z, 1313); (1%Z, 6800); (1%Z, 6354); ((-1)%Z, 6864); ((-2)%Z, 6353)] 2417851639229258349412352%Z 140737488355328%Z;
  Lin [1312; 6799; 6353] [23639; 6863; 23638; 23637; 23636; 6352] 0%Z [(1%Z, 1312); (1%Z, 6799); (1%Z, 6353); ((-1)%Z, 6863); ((-2)%Z, 6352)] 1208925819614629174706176%Z 281474976710656%Z;
  Lin [1311; 6798; 6352] [23635; 6862; 23634; 23633; 23632; 6351] 0%Z [(1%Z, 1311); (1%Z, 6798); (1%Z, 6352); ((-1)%Z, 6862); ((-2)%Z, 6351)] 604462909807314587353088%Z 562949953421312%Z;
  Lin [1310; 6797; 6351] [23631; 6861; 23630; 23629; 23628; 6350] 0%Z [(1%Z, 1310); (1%Z, 6797); (1%Z, 6351); ((-1)%Z, 6861); ((-2)%Z, 6350)] 302231454903657293676544%Z 1125899906842624%Z;
  Lin [1309; 6796; 6350] [23627; 6860; 23626; 23625; 23624; 6349] 0%Z [(1%Z, 1309); (1%Z, 6796); (1%Z, 6350); ((-1)%Z, 6860); ((-2)%Z, 6349)] 151115727451828646838272%Z 2251799813685248%Z;
  Lin [1308; 6795; 6349] [23623; 6859; 23622; 23621; 23620; 6348] 0%Z [(1%Z, 1308); (1%Z, 6795); (1%Z, 6349); ((-1)%Z, 6859); ((-2)%Z, 6348)] 75557863725914323419136%Z 4503599627370496%Z;
  Lin [1307; 6794; 6348] [23619; 6858; 23618; 23617; 23616; 6347] 0%Z [(1%Z, 1307); (1%Z, 6794); (1%Z, 6348); ((-1)%Z, 6858); ((-2)%Z, 6347)] 37778931862957161709568%Z 9007199254740992%Z;
  Lin [1306; 6793; 6347] [23615; 6857; 23614; 23613; 23612; 6346] 0%Z [(1%Z, 1306); (1%Z, 6793); (1%Z, 6347); ((-1)%Z, 6857); ((-2)%Z, 6346)] 18889465931478580854784%Z 18014398509481984%Z;
  Lin [1305; 6792; 6346] [23611; 6856; 23610; 23609; 23608; 6345] 0%Z [(1%Z, 1305); (1%Z, 6792); (1%Z, 6346); ((-1)%Z, 6856); ((-2)%Z, 6345)] 9444732965739290427392%Z 36028797018963968%Z;
  Lin [1304; 6791; 6345] [23607; 6855; 23606; 23605; 23604; 6344] 0%Z [(1%Z, 1304); (1%Z, 6791); (1%Z, 6345); ((-1)%Z, 6855); ((-2)%Z, 6344)] 4722366482869645213696%Z 72057594037927936%Z;
  Lin [1303; 6790; 6344] [23603; 6854; 23602; 23601; 23600; 6343] 0%Z [(1%Z, 1303); (1%Z, 6790); (1%Z, 6344); ((-1)%Z, 6854); ((-2)%Z, 6343)] 2361183241434822606848%Z 144115188075855872%Z;
  Lin [1302; 6789; 6343] [23599; 6853; 23598; 23597; 23596; 6342] 0%Z [(1%Z, 1302); (1%Z, 6789); (1%Z, 6343); ((-1)%Z, 6853); ((-2)%Z, 6342)] 1180591620717411303424%Z 288230376151711744%Z;
  Lin [1301; 6788; 6342] [23595; 6852; 23594; 23593; 23592; 6341] 0%Z [(1%Z, 1301); (1%Z, 6788); (1%Z, 6342); ((-1)%Z, 6852); ((-2)%Z, 6341)] 590295810358705651712%Z 576460752303423488%Z;
  Lin [1300; 6787; 6341] [23591; 6851; 23590; 23589; 23588; 6340] 0%Z [(1%Z, 1300); (1%Z, 6787); (1%Z, 6341); ((-1)%Z, 6851); ((-2)%Z, 6340)] 295147905179352825856%Z 1152921504606846976%Z;
  Lin [1299; 6786; 6340] [23587; 6850; 23586; 23585; 23584; 6339] 0%Z [(1%Z, 1299); (1%Z, 6786); (1%Z, 6340); ((-1)%Z, 6850); ((-2)%Z, 6339)] 147573952589676412928%Z 2305843009213693952%Z;
  Lin [1298; 6785; 6339] [23583; 6849; 23582; 23581; 23580; 6338] 0%Z [(1%Z, 1298); (1%Z, 6785); (1%Z, 6339); ((-1)%Z, 6849); ((-2)%Z, 6338)] 73786976294838206464%Z 4611686018427387904%Z;
  Lin [1297; 6784; 6338] [23579; 6848; 23578; 23577; 23576; 6337] 0%Z [(1%Z, 1297); (1%Z, 6784); (1%Z, 6338); ((-1)%Z, 6848); ((-2)%Z, 6337)] 36893488147419103232%Z 9223372036854775808%Z;
  Lin [1296; 6783; 6337] [23575; 6847; 23574; 23573; 23572; 6336] 0%Z [(1%Z, 1296); (1%Z, 6783); (1%Z, 6337); ((-1)%Z, 6847); ((-2)%Z, 6336)] 18446744073709551616%Z 18446744073709551616%Z;
  Lin [1295; 6782; 6336] [23571; 6846; 23570; 23569; 23568; 6335] 0%Z [(1%Z, 1295); (1%Z, 6782); (1%Z, 6336); ((-1)%Z, 6846); ((-2)%Z, 6335)] 9223372036854775808%Z 36893488147419103232%Z;
  Lin [1294; 6781; 6335] [23567; 6845; 23566; 23565; 23564; 6334] 0%Z [(1%Z, 1294); (1%Z, 6781); (1%Z, 6335); ((-1)%Z, 6845); ((-2)%Z, 6334)] 4611686018427387904%Z 73786976294838206464%Z;
  Lin [1293; 6780; 6334] [23563; 6844; 23562; 23561; 23560; 6333] 0%Z [(1%Z, 1293); (1%Z, 6780); (1%Z, 6334); ((-1)%Z, 6844); ((-2)%Z, 6333)] 2305843009213693952%Z 147573952589676412928%Z;
  Lin [1292; 6779; 6333] [23559; 6843; 23558; 23557; 23556; 6332] 0%Z [(1%Z, 1292); (1%Z, 6779); (1%Z, 6333); ((-1)%Z, 6843); ((-2)%Z, 6332)] 1152921504606846976%Z 295147905179352825856%Z;
  Lin [1291; 6778; 6332] [23555; 6842; 23554; 23553; 23552; 6331] 0%Z [(1%Z, 1291); (1%Z, 6778); (1%Z, 6332); ((-1)%Z, 6842); ((-2)%Z, 6331)] 576460752303423488%Z 590295810358705651712%Z;
  Lin [1290; 6777; 6331] [23551; 6841; 23550; 23549; 23548; 6330] 0%Z [(1%Z, 1290); (1%Z, 6777); (1%Z, 6331); ((-1)%Z, 6841); ((-2)%Z, 6330)] 288230376151711744%Z 1180591620717411303424%Z;
  Lin [1289; 6776; 6330] [23547; 6840; 23546; 23545; 23544; 6329] 0%Z [(1%Z, 1289); (1%Z, 6776); (1%Z, 6330); ((-1)%Z, 6840); ((-2)%Z, 6329)] 144115188075855872%Z 2361183241434822606848%Z;
  Lin [1288; 6775; 6329] [23543; 6839; 23542; 23541; 23540; 6328] 0%Z [(1%Z, 1288); (1%Z, 6775); (1%Z, 6329); ((-1)%Z, 6839); ((-2)%Z, 6328)] 72057594037927936%Z 4722366482869645213696%Z;
  Lin [1287; 6774; 6328] [23539; 6838; 23538; 23537; 23536; 6327] 0%Z [(1%Z, 1287); (1%Z, 6774); (1%Z, 6328); ((-1)%Z, 6838); ((-2)%Z, 6327)] 36028797018963968%Z 9444732965739290427392%Z;
  Lin [1286; 6773; 6327] [23535; 6837; 23534; 23533; 23532; 6326] 0%Z [(1%Z, 1286); (1%Z, 6773); (1%Z, 6327); ((-1)%Z, 6837); ((-2)%Z, 6326)] 18014398509481984%Z 18889465931478580854784%Z;
  Lin [1285; 6772; 6326] [23531; 6836; 23530; 23529; 23528; 6325] 0%Z [(1%Z, 1285); (1%Z, 6772); (1%Z, 6326); ((-1)%Z, 6836); ((-2)%Z, 6325)] 9007199254740992%Z 37778931862957161709568%Z;
  Lin [1284; 6771; 6325] [23527; 6835; 23526; 23525; 23524; 6324] 0%Z [(1%Z, 1284); (1%Z, 6771); (1%Z, 6325); ((-1)%Z, 6835); ((-2)%Z, 6324)] 4503599627370496%Z 75557863725914323419136%Z;
  Lin [1283; 6770; 6324] [23523; 6834; 23522; 23521; 23520; 6323] 0%Z [(1%Z, 1283); (1%Z, 6770); (1%Z, 6324); ((-1)%Z, 6834); ((-2)%Z, 6323)] 2251799813685248%Z 151115727451828646838272%Z;
  Lin [1282; 6769; 6323] [23519; 6833; 23518; 23517; 23516; 6322] 0%Z [(1%Z, 1282); (1%Z, 6769); (1%Z, 6323); ((-1)%Z, 6833); ((-2)%Z, 6322)] 1125899906842624%Z 302231454903657293676544%Z;
  Lin [1281; 6768; 6322] [23515; 6832; 23514; 23513; 23512; 6321] 0%Z [(1%Z, 1281); (1%Z, 6768); (1%Z, 6322); ((-1)%Z, 6832); ((-2)%Z, 6321)] 562949953421312%Z 604462909807314587353088%Z;
  Lin [1280; 6767; 6321] [23511; 6831; 23510; 23509; 23508; 6320] 0%Z [(1%Z, 1280); (1%Z, 6767); (1%Z, 6321); ((-1)%Z, 6831); ((-2)%Z, 6320)] 281474976710656%Z 1208925819614629174706176%Z;
  Lin [1279; 6255; 6320] [23507; 6830; 23506; 23505; 23504; 6319] 0%Z [(1%Z, 1279); (1%Z, 6255); (1%Z, 6320); ((-1)%Z, 6830); ((-2)%Z, 6319)] 140737488355328%Z 2417851639229258349412352%Z;
  Lin [1406; 6892] [28115; 6446] 0%Z [(1%Z, 1406); (1%Z, 6892); ((-1)%Z, 28115); ((-2)%Z, 6446)] 649037107316853453566312041152512%Z 524288%Z;
  Lin [1405; 6891; 6446] [23503; 6955; 23502; 23501; 23500; 6445] 0%Z [(1%Z, 1405); (1%Z, 6891); (1%Z, 6446); ((-1)%Z, 6955); ((-2)%Z, 6445)] 324518553658426726783156020576256%Z 1048576%Z;
  Lin [1404; 6890; 6445] [23499; 6954; 23498; 23497; 23496; 6444] 0%Z [(1%Z, 1404); (1%Z, 6890); (1%Z, 6445); ((-1)%Z, 6954); ((-2)%Z, 6444)] 162259276829213363391578010288128%Z 2097152%Z;
  Lin [1403; 6889; 6444] [23495; 6953; 23494; 23493; 23492; 6443] 0%Z [(1%Z, 1403); (1%Z, 6889); (1%Z, 6444); ((-1)%Z, 6953); ((-2)%Z, 6443)] 81129638414606681695789005144064%Z 4194304%Z;
  Lin [1402; 6888; 6443] [23491; 6952; 23490; 23489; 23488; 6442] 0%Z [(1%Z, 1402); (1%Z, 6888); (1%Z, 6443); ((-1)%Z, 6952); ((-2)%Z, 6442)] 40564819207303340847894502572032%Z 8388608%Z;
  Lin [1401; 6887; 6442] [23487; 6951; 23486; 23485; 23484; 6441] 0%Z [(1%Z, 1401); (1%Z, 6887); (1%Z, 6442); ((-1)%Z, 6951); ((-2)%Z, 6441)] 20282409603651670423947251286016%Z 16777216%Z;
  Lin [1400; 6886; 6441] [23483; 6950; 23482; 23481; 23480; 6440] 0%Z [(1%Z, 1400); (1%Z, 6886); (1%Z, 6441); ((-1)%Z, 6950); ((-2)%Z, 6440)] 10141204801825835211973625643008%Z 33554432%Z;
  Lin [1399; 6885; 6440] [23479; 6949; 23478; 23477; 23476; 6439] 0%Z [(1%Z, 1399); (1%Z, 6885); (1%Z, 6440); ((-1)%Z, 6949); ((-2)%Z, 6439)] 5070602400912917605986812821504%Z 67108864%Z;
  Lin [1398; 6884; 6439] [23475; 6948; 23474; 23473; 23472; 6438] 0%Z [(1%Z, 1398); (1%Z, 6884); (1%Z, 6439); ((-1)%Z, 6948); ((-2)%Z, 6438)] 2535301200456458802993406410752%Z 134217728%Z;
  Lin [1397; 6883; 6438] [23471; 6947; 23470; 23469; 23468; 6437] 0%Z [(1%Z, 1397); (1%Z, 6883); (1%Z, 6438); ((-1)%Z, 6947); ((-2)%Z, 6437)] 1267650600228229401496703205376%Z 268435456%Z;
  Lin [1396; 6882; 6437] [23467; 6946; 23466; 23465; 23464; 6436] 0%Z [(1%Z, 1396); (1%Z, 6882); (1%Z, 6437); ((-1)%Z, 6946); ((-2)%Z, 6436)] 633825300114114700748351602688%Z 536870912%Z;
  Lin [1395; 6881; 6436] [23463; 6945; 23462; 23461; 23460; 6435] 0%Z [(1%Z, 1395); (1%Z, 6881); (1%Z, 6436); ((-1)%Z, 6945); ((-2)%Z, 6435)] 316912650057057350374175801344%Z 1073741824%Z;
  Lin [1394; 6880; 6435] [23459; 6944; 23458; 23457; 23456; 6434] 0%Z [(1%Z, 1394); (1%Z, 6880); (1%Z, 6435); ((-1)%Z, 6944); ((-2)%Z, 6434)] 158456325028528675187087900672%Z 2147483648%Z;
  Lin [1393; 6879; 6434] [23455; 6943; 23454; 23453; 23452; 6433] 0%Z [(1%Z, 1393); (1%Z, 6879); (1%Z, 6434); ((-1)%Z, 6943); ((-2)%Z, 6433)] 79228162514264337593543950336%Z 4294967296%Z;
  Lin [1392; 6878; 6433] [23451; 6942; 23450; 23449; 23448; 6432] 0%Z [(1%Z, 1392); (1%Z, 6878); (1%Z, 6433); ((-1)%Z, 6942); ((-2)%Z, 6432)] 39614081257132168796771975168%Z 8589934592%Z;
  Lin [1391; 6877; 6432] [23447; 6941; 23446; 23445; 23444; 6431] 0%Z [(1%Z, 1391); (1%Z, 6877); (1%Z, 6432); ((-1)%Z, 6941); ((-2)%Z, 6431)] 19807040628566084398385987584%Z 17179869184%Z;
  Lin [1390; 6876; 6431] [23443; 6940; 23442; 23441; 23440; 6430] 0%Z [(1%Z, 1390); (1%Z, 6876); (1%Z, 6431); ((-1)%Z, 6940); ((-2)%Z, 6430)] 9903520314283042199192993792%Z 34359738368%Z;
  Lin [1389; 6875; 6430] [23439; 6939; 23438; 23437; 23436; 6429] 0%Z [(1%Z, 1389); (1%Z, 6875); (1%Z, 6430); ((-1)%Z, 6939); ((-2)%Z, 6429)] 4951760157141521099596496896%Z 68719476736%Z;
  Lin [1388; 6874; 6429] [23435; 6938; 23434; 23433; 23432; 6428] 0%Z [(1%Z, 1388); (1%Z, 6874); (1%Z, 6429); ((-1)%Z, 6938); ((-2)%Z, 6428)] 2475880078570760549798248448%Z 137438953472%Z;
  Lin [1387; 6873; 6428] [23431; 6937; 23430; 23429; 23428; 6427] 0%Z [(1%Z, 1387); (1%Z, 6873); (1%Z, 6428); ((-1)%Z, 6937); ((-2)%Z, 6427)] 1237940039285380274899124224%Z 274877906944%Z;
  Lin [1386; 6872; 6427] [23427; 6936; 23426; 23425; 23424; 6426] 0%Z [(1%Z, 1386); (1%Z, 6872); (1%Z, 6427); ((-1)%Z, 6936); ((-2)%Z, 6426)] 618970019642690137449562112%Z 549755813888%Z;
  Lin [1385; 6871; 6426] [23423; 6935; 23422; 23421; 23420; 6425] 0%Z [(1%Z, 1385); (1%Z, 6871); (1%Z, 6426); ((-1)%Z, 6935); ((-2)%Z, 6425)] 309485009821345068724781056%Z 1099511627776%Z;
  Lin [1384; 6870; 6425] [23419; 6934; 23418; 23417; 23416; 6424] 0%Z [(1%Z, 1384); (1%Z, 6870); (1%Z, 6425); ((-1)%Z, 6934); ((-2)%Z, 6424)] 154742504910672534362390528%Z 2199023255552%Z;
  Lin [1383; 6869; 6424] [23415; 6933; 23414; 23413; 23412; 6423] 0%Z [(1%Z, 1383); (1%Z, 6869); (1%Z, 6424); ((-1)%Z, 6933); ((-2)%Z, 6423)] 77371252455336267181195264%Z 4398046511104%Z;
  Lin [1382; 6868; 6423] [23411; 6932; 23410; 23409; 23408; 6422] 0%Z [(1%Z, 1382); (1%Z, 6868); (1%Z, 6423); ((-1)%Z, 6932); ((-2)%Z, 6422)] 38685626227668133590597632%Z 8796093022208%Z;
  Lin [1381; 6867; 6422] [23407; 6931; 23406; 23405; 23404; 6421] 0%Z [(1%Z, 1381); (1%Z, 6867); (1%Z, 6422); ((-1)%Z, 6931); ((-2)%Z, 6421)] 19342813113834066795298816%Z 17592186044416%Z;
  Lin [1380; 6866; 6421] [23403; 6930; 23402; 23401; 23400; 6420] 0%Z [(1%Z, 1380); (1%Z, 6866); (1%Z, 6421); ((-1)%Z, 6930); ((-2)%Z, 6420)] 9671406556917033397649408%Z 35184372088832%Z;
  Lin [1379; 6865; 6420] [23399; 6929; 23398; 23397; 23396; 6419] 0%Z [(1%Z, 1379); (1%Z, 6865); (1%Z, 6420); ((-1)%Z, 6929); ((-2)%Z, 6419)] 4835703278458516698824704%Z 70368744177664%Z;
  Lin [1378; 6864; 6419] [23395; 6928; 23394; 23393; 23392; 6418] 0%Z [(1%Z, 1378); (1%Z, 6864); (1%Z, 6419); ((-1)%Z, 6928); ((-2)%Z, 6418)] 2417851639229258349412352%Z 140737488355328%Z;
  Lin [1377; 6863; 6418] [23391; 6927; 23390; 23389; 23388; 6417] 0%Z [(1%Z, 1377); (1%Z, 6863); (1%Z, 6418); ((-1)%Z, 6927); ((-2)%Z, 6417)] 1208925819614629174706176%Z 281474976710656%Z;
  Lin [1376; 6862; 6417] [23387; 6926; 23386; 23385; 23384; 6416] 0%Z [(1%Z, 1376); (1%Z, 6862); (1%Z, 6417); ((-1)%Z, 6926); ((-2)%Z, 6416)] 604462909807314587353088%Z 562949953421312%Z;
  Lin [1375; 6861; 6416] [23383; 6925; 23382; 23381; 23380; 6415] 0%Z [(1%Z, 1375); (1%Z, 6861); (1%Z, 6416); ((-1)%Z, 6925); ((-2)%Z, 6415)] 302231454903657293676544%Z 1125899906842624%Z;
  Lin [1374; 6860; 6415] [23379; 6924; 23378; 23377; 23376; 6414] 0%Z [(1%Z, 1374); (1%Z, 6860); (1%Z, 6415); ((-1)%Z, 6924); ((-2)%Z, 6414)] 151115727451828646838272%Z 2251799813685248%Z;
  Lin [1373; 6859; 6414] [23375; 6923; 23374; 23373; 23372; 6413] 0%Z [(1%Z, 1373); (1%Z, 6859); (1%Z, 6414); ((-1)%Z, 6923); ((-2)%Z, 6413)] 75557863725914323419136%Z 4503599627370496%Z;
  Lin [1372; 6858; 6413] [23371; 6922; 23370; 23369; 23368; 6412] 0%Z [(1%Z, 1372); (1%Z, 6858); (1%Z, 6413); ((-1)%Z, 6922); ((-2)%Z, 6412)] 37778931862957161709568%Z 9007199254740992%Z;
  Lin [1371; 6857; 6412] [23367; 6921; 23366; 23365; 23364; 6411] 0%Z [(1%Z, 1371); (1%Z, 6857); (1%Z, 6412); ((-1)%Z, 6921); ((-2)%Z, 6411)] 18889465931478580854784%Z 18014398509481984%Z;
  Lin [1370; 6856; 6411] [23363; 6920; 23362; 23361; 23360; 6410] 0%Z [(1%Z, 1370); (1%Z, 6856); (1%Z, 6411); ((-1)%Z, 6920); ((-2)%Z, 6410)] 9444732965739290427392%Z 36028797018963968%Z;
  Lin [1369; 6855; 6410] [23359; 6919; 23358; 23357; 23356; 6409] 0%Z [(1%Z, 1369); (1%Z, 6855); (1%Z, 6410); ((-1)%Z, 6919); ((-2)%Z, 6409)] 4722366482869645213696%Z 72057594037927936%Z;
  Lin [1368; 6854; 6409] [23355; 6918; 23354; 23353; 23352; 6408] 0%Z [(1%Z, 1368); (1%Z, 6854); (1%Z, 6409); ((-1)%Z, 6918); ((-2)%Z, 6408)] 2361183241434822606848%Z 144115188075855872%Z;
  Lin [1367; 6853; 6408] [23351; 6917; 23350; 23349; 23348; 6407] 0%Z [(1%Z, 1367); (1%Z, 6853); (1%Z, 6408); ((-1)%Z, 6917); ((-2)%Z, 6407)] 1180591620717411303424%Z 288230376151711744%Z;
  Lin [1366; 6852; 6407] [23347; 6916; 23346; 23345; 23344; 6406] 0%Z [(1%Z, 1366); (1%Z, 6852); (1%Z, 6407); ((-1)%Z, 6916); ((-2)%Z, 6406)] 590295810358705651712%Z 576460752303423488%Z;
  Lin [1365; 6851; 6406] [23343; 6915; 23342; 23341; 23340; 6405] 0%Z [(1%Z, 1365); (1%Z, 6851); (1%Z, 6406); ((-1)%Z, 6915); ((-2)%Z, 6405)] 295147905179352825856%Z 1152921504606846976%Z;
  Lin [1364; 6850; 6405] [23339; 6914; 23338; 23337; 23336; 6404] 0%Z [(1%Z, 1364); (1%Z, 6850); (1%Z, 6405); ((-1)%Z, 6914); ((-2)%Z, 6404)] 147573952589676412928%Z 2305843009213693952%Z;
  Lin [1363; 6849; 6404] [23335; 6913; 23334; 23333; 23332; 6403] 0%Z [(1%Z, 1363); (1%Z, 6849); (1%Z, 6404); ((-1)%Z, 6913); ((-2)%Z, 6403)] 73786976294838206464%Z 4611686018427387904%Z;
  Lin [1362; 6848; 6403] [23331; 6912; 23330; 23329; 23328; 6402] 0%Z [(1%Z, 1362); (1%Z, 6848); (1%Z, 6403); ((-1)%Z, 6912); ((-2)%Z, 6402)] 36893488147419103232%Z 9223372036854775808%Z;
  Lin [1361; 6847; 6402] [23327; 6911; 23326; 23325; 23324; 6401] 0%Z [(1%Z, 1361); (1%Z, 6847); (1%Z, 6402); ((-1)%Z, 6911); ((-2)%Z, 6401)] 18446744073709551616%Z 18446744073709551616%Z;
  Lin [1360; 6846; 6401] [23323; 6910; 23322; 23321; 23320; 6400] 0%Z [(1%Z, 1360); (1%Z, 6846); (1%Z, 6401); ((-1)%Z, 6910); ((-2)%Z, 6400)] 9223372036854775808%Z 36893488147419103232%Z;
  Lin [1359; 6845; 6400] [23319; 6909; 23318; 23317; 23316; 6399] 0%Z [(1%Z, 1359); (1%Z, 6845); (1%Z, 6400); ((-1)%Z, 6909); ((-2)%Z, 6399)] 4611686018427387904%Z 73786976294838206464%Z].
Definition mult2_64_facts_12 : list lin_fact := [
  Lin [1358; 6844; 6399] [23315; 6908; 23314; 23313; 23312; 6398] 0%Z [(1%Z, 1358); (1%Z, 6844); (1%Z, 6399); ((-1)%Z, 6908); ((-2)%Z, 6398)] 2305843009213693952%Z 147573952589676412928%Z;
  Lin [1357; 6843; 6398] [23311; 6907; 23310; 23309; 23308; 6397] 0%Z [(1%Z, 1357); (1%Z, 6843); (1%Z, 6398); ((-1)%Z, 6907); ((-2)%Z, 6397)] 1152921504606846976%Z 295147905179352825856%Z;
  Lin [1356; 6842; 6397] [23307; 6906; 23306; 23305; 23304; 6396] 0%Z [(1%Z, 1356); (1%Z, 6842); (1%Z, 6397); ((-1)%Z, 6906); ((-2)%Z, 6396)] 576460752303423488%Z 590295810358705651712%Z;
  Lin [1355; 6841; 6396] [23303; 6905; 23302; 23301; 23300; 6395] 0%Z [(1%Z, 1355); (1%Z, 6841); (1%Z, 6396); ((-1)%Z, 6905); ((-2)%Z, 6395)] 288230376151711744%Z 1180591620717411303424%Z;
  Lin [1354; 6840; 6395] [23299; 6904; 23298; 23297; 23296; 6394] 0%Z [(1%Z, 1354); (1%Z, 6840); (1%Z, 6395); ((-1)%Z, 6904); ((-2)%Z, 6394)] 144115188075855872%Z 2361183241434822606848%Z;
  Lin [1353; 6839; 6394] [23295; 6903; 23294; 23293; 23292; 6393] 0%Z [(1%Z, 1353); (1%Z, 6839); (1%Z, 6394); ((-1)%Z, 6903); ((-2)%Z, 6393)] 72057594037927936%Z 4722366482869645213696%Z;
  Lin [1352; 6838; 6393] [23291; 6902; 23290; 23289; 23288; 6392] 0%Z [(1%Z, 1352); (1%Z, 6838); (1%Z, 6393); ((-1)%Z, 6902); ((-2)%Z, 6392)] 36028797018963968%Z 9444732965739290427392%Z;
  Lin [1351; 6837; 6392] [23287; 6901; 23286; 23285; 23284; 6391] 0%Z [(1%Z, 1351); (1%Z, 6837); (1%Z, 6392); ((-1)%Z, 6901); ((-2)%Z, 6391)] 18014398509481984%Z 18889465931478580854784%Z;
  Lin [1350; 6836; 6391] [23283; 6900; 23282; 23281; 23280; 6390] 0%Z [(1%Z, 1350); (1%Z, 6836); (1%Z, 6391); ((-1)%Z, 6900); ((-2)%Z, 6390)] 9007199254740992%Z 37778931862957161709568%Z;
  Lin [1349; 6835; 6390] [23279; 6899; 23278; 23277; 23276; 6389] 0%Z [(1%Z, 1349); (1%Z, 6835); (1%Z, 6390); ((-1)%Z, 6899); ((-2)%Z, 6389)] 4503599627370496%Z 75557863725914323419136%Z;
  Lin [1348; 6834; 6389] [23275; 6898; 23274; 23273; 23272; 6388] 0%Z [(1%Z, 1348); (1%Z, 6834); (1%Z, 6389); ((-1)%Z, 6898); ((-2)%Z, 6388)] 2251799813685248%Z 151115727451828646838272%Z;
  Lin [1347; 6833; 6388] [23271; 6897; 23270; 23269; 23268; 6387] 0%Z [(1%Z, 1347); (1%Z, 6833); (1%Z, 6388); ((-1)%Z, 6897); ((-2)%Z, 6387)] 1125899906842624%Z 302231454903657293676544%Z;
  Lin [1346; 6832; 6387] [23267; 6896; 23266; 23265; 23264; 6386] 0%Z [(1%Z, 1346); (1%Z, 6832); (1%Z, 6387); ((-1)%Z, 6896); ((-2)%Z, 6386)] 562949953421312%Z 604462909807314587353088%Z;
  Lin [1345; 6831; 6386] [23263; 6895; 23262; 23261; 23260; 6385] 0%Z [(1%Z, 1345); (1%Z, 6831); (1%Z, 6386); ((-1)%Z, 6895); ((-2)%Z, 6385)] 281474976710656%Z 1208925819614629174706176%Z;
  Lin [1344; 6830; 6385] [23259; 6894; 23258; 23257; 23256; 6384] 0%Z [(1%Z, 1344); (1%Z, 6830); (1%Z, 6385); ((-1)%Z, 6894); ((-2)%Z, 6384)] 140737488355328%Z 2417851639229258349412352%Z;
  Lin [1343; 6319; 6384] [23255; 6893; 23254; 23253; 23252; 6383] 0%Z [(1%Z, 1343); (1%Z, 6319); (1%Z, 6384); ((-1)%Z, 6893); ((-2)%Z, 6383)] 70368744177664%Z 4835703278458516698824704%Z;
  Lin [1470; 6955] [28116; 6510] 0%Z [(1%Z, 1470); (1%Z, 6955); ((-1)%Z, 28116); ((-2)%Z, 6510)] 324518553658426726783156020576256%Z 1048576%Z;
  Lin [1469; 6954; 6510] [23251; 7018; 23250; 23249; 23248; 6509] 0%Z [(1%Z, 1469); (1%Z, 6954); (1%Z, 6510); ((-1)%Z, 7018); ((-2)%Z, 6509)] 162259276829213363391578010288128%Z 2097152%Z;
  Lin [1468; 6953; 6509] [23247; 7017; 23246; 23245; 23244; 6508] 0%Z [(1%Z, 1468); (1%Z, 6953); (1%Z, 6509); ((-1)%Z, 7017); ((-2)%Z, 6508)] 81129638414606681695789005144064%Z 4194304%Z;
  Lin [1467; 6952; 6508] [23243; 7016; 23242; 23241; 23240; 6507] 0%Z [(1%Z, 1467); (1%Z, 6952); (1%Z, 6508); ((-1)%Z, 7016); ((-2)%Z, 6507)] 40564819207303340847894502572032%Z 8388608%Z;
  Lin [1466; 6951; 6507] [23239; 7015; 23238; 23237; 23236; 6506] 0%Z [(1%Z, 1466); (1%Z, 6951); (1%Z, 6507); ((-1)%Z, 7015); ((-2)%Z, 6506)] 20282409603651670423947251286016%Z 16777216%Z;
  Lin [1465; 6950; 6506] [23235; 7014; 23234; 23233; 23232; 6505] 0%Z [(1%Z, 1465); (1%Z, 6950); (1%Z, 6506); ((-1)%Z, 7014); ((-2)%Z, 6505)] 10141204801825835211973625643008%Z 33554432%Z;
  Lin [1464; 6949; 6505] [23231; 7013; 23230; 23229; 23228; 6504] 0%Z [(1%Z, 1464); (1%Z, 6949); (1%Z, 6505); ((-1)%Z, 7013); ((-2)%Z, 6504)] 5070602400912917605986812821504%Z 67108864%Z;
  Lin [1463; 6948; 6504] [23227; 7012; 23226; 23225; 23224; 6503] 0%Z [(1%Z, 1463); (1%Z, 6948); (1%Z, 6504); ((-1)%Z, 7012); ((-2)%Z, 6503)] 2535301200456458802993406410752%Z 134217728%Z;
  Lin [1462; 6947; 6503] [23223; 7011; 23222; 23221; 23220; 6502] 0%Z [(1%Z, 1462); (1%Z, 6947); (1%Z, 6503); ((-1)%Z, 7011); ((-2)%Z, 6502)] 1267650600228229401496703205376%Z 268435456%Z;
  Lin [1461; 6946; 6502] [23219; 7010; 23218; 23217; 23216; 6501] 0%Z [(1%Z, 1461); (1%Z, 6946); (1%Z, 6502); ((-1)%Z, 7010); ((-2)%Z, 6501)] 633825300114114700748351602688%Z 536870912%Z;
  Lin [1460; 6945; 6501] [23215; 7009; 23214; 23213; 23212; 6500] 0%Z [(1%Z, 1460); (1%Z, 6945); (1%Z, 6501); ((-1)%Z, 7009); ((-2)%Z, 6500)] 316912650057057350374175801344%Z 1073741824%Z;
  Lin [1459; 6944; 6500] [23211; 7008; 23210; 23209; 23208; 6499] 0%Z [(1%Z, 1459); (1%Z, 6944); (1%Z, 6500); ((-1)%Z, 7008); ((-2)%Z, 6499)] 158456325028528675187087900672%Z 2147483648%Z;
  Lin [1458; 6943; 6499] [23207; 7007; 23206; 23205; 23204; 6498] 0%Z [(1%Z, 1458); (1%Z, 6943); (1%Z, 6499); ((-1)%Z, 7007); ((-2)%Z, 6498)] 79228162514264337593543950336%Z 4294967296%Z;
  Lin [1457; 6942; 6498] [23203; 7006; 23202; 23201; 23200; 6497] 0%Z [(1%Z, 1457); (1%Z, 6942); (1%Z, 6498); ((-1)%Z, 7006); ((-2)%Z, 6497)] 39614081257132168796771975168%Z 8589934592%Z;
  Lin [1456; 6941; 6497] [23199; 7005; 23198; 23197; 23196; 6496] 0%Z [(1%Z, 1456); (1%Z, 6941); (1%Z, 6497); ((-1)%Z, 7005); ((-2)%Z, 6496)] 19807040628566084398385987584%Z 17179869184%Z;
  Lin [1455; 6940; 6496] [23195; 7004; 23194; 23193; 23192; 6495] 0%Z [(1%Z, 1455); (1%Z, 6940); (1%Z, 6496); ((-1)%Z, 7004); ((-2)%Z, 6495)] 9903520314283042199192993792%Z 34359738368%Z;
  Lin [1454; 6939; 6495] [23191; 7003; 23190; 23189; 23188; 6494] 0%Z [(1%Z, 1454); (1%Z, 6939); (1%Z, 6495); ((-1)%Z, 7003); ((-2)%Z, 6494)] 4951760157141521099596496896%Z 68719476736%Z;
  Lin [1453; 6938; 6494] [23187; 7002; 23186; 23185; 23184; 6493] 0%Z [(1%Z, 1453); (1%Z, 6938); (1%Z, 6494); ((-1)%Z, 7002); ((-2)%Z, 6493)] 2475880078570760549798248448%Z 137438953472%Z;
  Lin [1452; 6937; 6493] [23183; 7001; 23182; 23181; 23180; 6492] 0%Z [(1%Z, 1452); (1%Z, 6937); (1%Z, 6493); ((-1)%Z, 7001); ((-2)%Z, 6492)] 1237940039285380274899124224%Z 274877906944%Z;
  Lin [1451; 6936; 6492] [23179; 7000; 23178; 23177; 23176; 6491] 0%Z [(1%Z, 1451); (1%Z, 6936); (1%Z, 6492); ((-1)%Z, 7000); ((-2)%Z, 6491)] 618970019642690137449562112%Z 549755813888%Z;
  Lin [1450; 6935; 6491] [23175; 6999; 23174; 23173; 23172; 6490] 0%Z [(1%Z, 1450); (1%Z, 6935); (1%Z, 6491); ((-1)%Z, 6999); ((-2)%Z, 6490)] 309485009821345068724781056%Z 1099511627776%Z;
  Lin [1449; 6934; 6490] [23171; 6998; 23170; 23169; 23168; 6489] 0%Z [(1%Z, 1449); (1%Z, 6934); (1%Z, 6490); ((-1)%Z, 6998); ((-2)%Z, 6489)] 154742504910672534362390528%Z 2199023255552%Z;
  Lin [1448; 6933; 6489] [23167; 6997; 23166; 23165; 23164; 6488] 0%Z [(1%Z, 1448); (1%Z, 6933); (1%Z, 6489); ((-1)%Z, 6997); ((-2)%Z, 6488)] 77371252455336267181195264%Z 4398046511104%Z;
  Lin [1447; 6932; 6488] [23163; 6996; 23162; 23161; 23160; 6487] 0%Z [(1%Z, 1447); (1%Z, 6932); (1%Z, 6488); ((-1)%Z, 6996); ((-2)%Z, 6487)] 38685626227668133590597632%Z 8796093022208%Z;
  Lin [1446; 6931; 6487] [23159; 6995; 23158; 23157; 23156; 6486] 0%Z [(1%Z, 1446); (1%Z, 6931); (1%Z, 6487); ((-1)%Z, 6995); ((-2)%Z, 6486)] 19342813113834066795298816%Z 17592186044416%Z;
  Lin [1445; 6930; 6486] [23155; 6994; 23154; 23153; 23152; 6485] 0%Z [(1%Z, 1445); (1%Z, 6930); (1%Z, 6486); ((-1)%Z, 6994); ((-2)%Z, 6485)] 9671406556917033397649408%Z 35184372088832%Z;
  Lin [1444; 6929; 6485] [23151; 6993; 23150; 23149; 23148; 6484] 0%Z [(1%Z, 1444); (1%Z, 6929); (1%Z, 6485); ((-1)%Z, 6993); ((-2)%Z, 6484)] 4835703278458516698824704%Z 70368744177664%Z;
  Lin [1443; 6928; 6484] [23147; 6992; 23146; 23145; 23144; 6483] 0%Z [(1%Z, 1443); (1%Z, 6928); (1%Z, 6484); ((-1)%Z, 6992); ((-2)%Z, 6483)] 2417851639229258349412352%Z 140737488355328%Z;
  Lin [1442; 6927; 6483] [23143; 6991; 23142; 23141; 23140; 6482] 0%Z [(1%Z, 1442); (1%Z, 6927); (1%Z, 6483); ((-1)%Z, 6991); ((-2)%Z, 6482)] 1208925819614629174706176%Z 281474976710656%Z;
  Lin [1441; 6926; 6482] [23139; 6990; 23138; 23137; 23136; 6481] 0%Z [(1%Z, 1441); (1%Z, 6926); (1%Z, 6482); ((-1)%Z, 6990); ((-2)%Z, 6481)] 604462909807314587353088%Z 562949953421312%Z;
  Lin [1440; 6925; 6481] [23135; 6989; 23134; 23133; 23132; 6480] 0%Z [(1%Z, 1440); (1%Z, 6925); (1%Z, 6481); ((-1)%Z, 6989); ((-2)%Z, 6480)] 302231454903657293676544%Z 1125899906842624%Z;
  Lin [1439; 6924; 6480] [23131; 6988; 23130; 23129; 23128; 6479] 0%Z [(1%Z, 1439); (1%Z, 6924); (1%Z, 6480); ((-1)%Z, 6988); ((-2)%Z, 6479)] 151115727451828646838272%Z 2251799813685248%Z;
  Lin [1438; 6923; 6479] [23127; 6987; 23126; 23125; 23124; 6478] 0%Z [(1%Z, 1438); (1%Z, 6923); (1%Z, 6479); ((-1)%Z, 6987); ((-2)%Z, 6478)] 75557863725914323419136%Z 4503599627370496%Z;
  Lin [1437; 6922; 6478] [23123; 6986; 23122; 23121; 23120; 6477] 0%Z [(1%Z, 1437); (1%Z, 6922); (1%Z, 6478); ((-1)%Z, 6986); ((-2)%Z, 6477)] 37778931862957161709568%Z 9007199254740992%Z;
  Lin [1436; 6921; 6477] [23119; 6985; 23118; 23117; 23116; 6476] 0%Z [(1%Z, 1436); (1%Z, 6921); (1%Z, 6477); ((-1)%Z, 6985); ((-2)%Z, 6476)] 18889465931478580854784%Z 18014398509481984%Z;
  Lin [1435; 6920; 6476] [23115; 6984; 23114; 23113; 23112; 6475] 0%Z [(1%Z, 1435); (1%Z, 6920); (1%Z, 6476); ((-1)%Z, 6984); ((-2)%Z, 6475)] 9444732965739290427392%Z 36028797018963968%Z;
  Lin [1434; 6919; 6475] [23111; 6983; 23110; 23109; 23108; 6474] 0%Z [(1%Z, 1434); (1%Z, 6919); (1%Z, 6475); ((-1)%Z, 6983); ((-2)%Z, 6474)] 4722366482869645213696%Z 72057594037927936%Z;
  Lin [1433; 6918; 6474] [23107; 6982; 23106; 23105; 23104; 6473] 0%Z [(1%Z, 1433); (1%Z, 6918); (1%Z, 6474); ((-1)%Z, 6982); ((-2)%Z, 6473)] 2361183241434822606848%Z 144115188075855872%Z;
  Lin [1432; 6917; 6473] [23103; 6981; 23102; 23101; 23100; 6472] 0%Z [(1%Z, 1432); (1%Z, 6917); (1%Z, 6473); ((-1)%Z, 6981); ((-2)%Z, 6472)] 1180591620717411303424%Z 288230376151711744%Z;
  Lin [1431; 6916; 6472] [23099; 6980; 23098; 23097; 23096; 6471] 0%Z [(1%Z, 1431); (1%Z, 6916); (1%Z, 6472); ((-1)%Z, 6980); ((-2)%Z, 6471)] 590295810358705651712%Z 576460752303423488%Z;
  Lin [1430; 6915; 6471] [23095; 6979; 23094; 23093; 23092; 6470] 0%Z [(1%Z, 1430); (1%Z, 6915); (1%Z, 6471); ((-1)%Z, 6979); ((-2)%Z, 6470)] 295147905179352825856%Z 1152921504606846976%Z;
  Lin [1429; 6914; 6470] [23091; 6978; 23090; 23089; 23088; 6469] 0%Z [(1%Z, 1429); (1%Z, 6914); (1%Z, 6470); ((-1)%Z, 6978); ((-2)%Z, 6469)] 147573952589676412928%Z 2305843009213693952%Z;
  Lin [1428; 6913; 6469] [23087; 6977; 23086; 23085; 23084; 6468] 0%Z [(1%Z, 1428); (1%Z, 6913); (1%Z, 6469); ((-1)%Z, 6977); ((-2)%Z, 6468)] 73786976294838206464%Z 4611686018427387904%Z;
  Lin [1427; 6912; 6468] [23083; 6976; 23082; 23081; 23080; 6467] 0%Z [(1%Z, 1427); (1%Z, 6912); (1%Z, 6468); ((-1)%Z, 6976); ((-2)%Z, 6467)] 36893488147419103232%Z 9223372036854775808%Z;
  Lin [1426; 6911; 6467] [23079; 6975; 23078; 23077; 23076; 6466] 0%Z [(1%Z, 1426); (1%Z, 6911); (1%Z, 6467); ((-1)%Z, 6975); ((-2)%Z, 6466)] 18446744073709551616%Z 18446744073709551616%Z;
  Lin [1425; 6910; 6466] [23075; 6974; 23074; 23073; 23072; 6465] 0%Z [(1%Z, 1425); (1%Z, 6910); (1%Z, 6466); ((-1)%Z, 6974); ((-2)%Z, 6465)] 9223372036854775808%Z 36893488147419103232%Z;
  Lin [1424; 6909; 6465] [23071; 6973; 23070; 23069; 23068; 6464] 0%Z [(1%Z, 1424); (1%Z, 6909); (1%Z, 6465); ((-1)%Z, 6973); ((-2)%Z, 6464)] 4611686018427387904%Z 73786976294838206464%Z;
  Lin [1423; 6908; 6464] [23067; 6972; 23066; 23065; 23064; 6463] 0%Z [(1%Z, 1423); (1%Z, 6908); (1%Z, 6464); ((-1)%Z, 6972); ((-2)%Z, 6463)] 2305843009213693952%Z 147573952589676412928%Z;
  Lin [1422; 6907; 6463] [23063; 6971; 23062; 23061; 23060; 6462] 0%Z [(1%Z, 1422); (1%Z, 6907); (1%Z, 6463); ((-1)%Z, 6971); ((-2)%Z, 6462)] 1152921504606846976%Z 295147905179352825856%Z;
  Lin [1421; 6906; 6462] [23059; 6970; 23058; 23057; 23056; 6461] 0%Z [(1%Z, 1421); (1%Z, 6906); (1%Z, 6462); ((-1)%Z, 6970); ((-2)%Z, 6461)] 576460752303423488%Z 590295810358705651712%Z;
  Lin [1420; 6905; 6461] [23055; 6969; 23054; 23053; 23052; 6460] 0%Z [(1%Z, 1420); (1%Z, 6905); (1%Z, 6461); ((-1)%Z, 6969); ((-2)%Z, 6460)] 288230376151711744%Z 1180591620717411303424%Z;
  Lin [1419; 6904; 6460] [23051; 6968; 23050; 23049; 23048; 6459] 0%Z [(1%Z, 1419); (1%Z, 6904); (1%Z, 6460); ((-1)%Z, 6968); ((-2)%Z, 6459)] 144115188075855872%Z 2361183241434822606848%Z;
  Lin [1418; 6903; 6459] [23047; 6967; 23046; 23045; 23044; 6458] 0%Z [(1%Z, 1418); (1%Z, 6903); (1%Z, 6459); ((-1)%Z, 6967); ((-2)%Z, 6458)] 72057594037927936%Z 4722366482869645213696%Z;
  Lin [1417; 6902; 6458] [23043; 6966; 23042; 23041; 23040; 6457] 0%Z [(1%Z, 1417); (1%Z, 6902); (1%Z, 6458); ((-1)%Z, 6966); ((-2)%Z, 6457)] 36028797018963968%Z 9444732965739290427392%Z;
  Lin [1416; 6901; 6457] [23039; 6965; 23038; 23037; 23036; 6456] 0%Z [(1%Z, 1416); (1%Z, 6901); (1%Z, 6457); ((-1)%Z, 6965); ((-2)%Z, 6456)] 18014398509481984%Z 18889465931478580854784%Z;
  Lin [1415; 6900; 6456] [23035; 6964; 23034; 23033; 23032; 6455] 0%Z [(1%Z, 1415); (1%Z, 6900); (1%Z, 6456); ((-1)%Z, 6964); ((-2)%Z, 6455)] 9007199254740992%Z 37778931862957161709568%Z;
  Lin [1414; 6899; 6455] [23031; 6963; 23030; 23029; 23028; 6454] 0%Z [(1%Z, 1414); (1%Z, 6899); (1%Z, 6455); ((-1)%Z, 6963); ((-2)%Z, 6454)] 4503599627370496%Z 75557863725914323419136%Z;
  Lin [1413; 6898; 6454] [23027; 6962; 23026; 23025; 23024; 6453] 0%Z [(1%Z, 1413); (1%Z, 6898); (1%Z, 6454); ((-1)%Z, 6962); ((-2)%Z, 6453)] 2251799813685248%Z 151115727451828646838272%Z;
  Lin [1412; 6897; 6453] [23023; 6961; 23022; 23021; 23020; 6452] 0%Z [(1%Z, 1412); (1%Z, 6897); (1%Z, 6453); ((-1)%Z, 6961); ((-2)%Z, 6452)] 1125899906842624%Z 302231454903657293676544%Z;
  Lin [1411; 6896; 6452] [23019; 6960; 23018; 23017; 23016; 6451] 0%Z [(1%Z, 1411); (1%Z, 6896); (1%Z, 6452); ((-1)%Z, 6960); ((-2)%Z, 6451)] 562949953421312%Z 604462909807314587353088%Z;
  Lin [1410; 6895; 6451] [23015; 6959; 23014; 23013; 23012; 6450] 0%Z [(1%Z, 1410); (1%Z, 6895); (1%Z, 6451); ((-1)%Z, 6959); ((-2)%Z, 6450)] 281474976710656%Z 1208925819614629174706176%Z;
  Lin [1409; 6894; 6450] [23011; 6958; 23010; 23009; 23008; 6449] 0%Z [(1%Z, 1409); (1%Z, 6894); (1%Z, 6450); ((-1)%Z, 6958); ((-2)%Z, 6449)] 140737488355328%Z 2417851639229258349412352%Z;
  Lin [1408; 6893; 6449] [23007; 6957; 23006; 23005; 23004; 6448] 0%Z [(1%Z, 1408); (1%Z, 6893); (1%Z, 6449); ((-1)%Z, 6957); ((-2)%Z, 6448)] 70368744177664%Z 4835703278458516698824704%Z;
  Lin [1407; 6383; 6448] [23003; 6956; 23002; 23001; 23000; 6447] 0%Z [(1%Z, 1407); (1%Z, 6383); (1%Z, 6448); ((-1)%Z, 6956); ((-2)%Z, 6447)] 35184372088832%Z 9671406556917033397649408%Z;
  Lin [1534; 7018] [28117; 6574] 0%Z [(1%Z, 1534); (1%Z, 7018); ((-1)%Z, 28117); ((-2)%Z, 6574)] 162259276829213363391578010288128%Z 2097152%Z;
  Lin [1533; 7017; 6574] [22999; 7081; 22998; 22997; 22996; 6573] 0%Z [(1%Z, 1533); (1%Z, 7017); (1%Z, 6574); ((-1)%Z, 7081); ((-2)%Z, 6573)] 81129638414606681695789005144064%Z 4194304%Z;
  Lin [1532; 7016; 6573] [22995; 7080; 22994; 22993; 22992; 6572] 0%Z [(1%Z, 1532); (1%Z, 7016); (1%Z, 6573); ((-1)%Z, 7080); ((-2)%Z, 6572)] 40564819207303340847894502572032%Z 8388608%Z;
  Lin [1531; 7015; 6572] [22991; 7079; 22990; 22989; 22988; 6571] 0%Z [(1%Z, 1531); (1%Z, 7015); (1%Z, 6572); ((-1)%Z, 7079); ((-2)%Z, 6571)] 20282409603651670423947251286016%Z 16777216%Z;
  Lin [1530; 7014; 6571] [22987; 7078; 22986; 22985; 22984; 6570] 0%Z [(1%Z, 1530); (1%Z, 7014); (1%Z, 6571); ((-1)%Z, 7078); ((-2)%Z, 6570)] 10141204801825835211973625643008%Z 33554432%Z;
  Lin [1529; 7013; 6570] [22983; 7077; 22982; 22981; 22980; 6569] 0%Z [(1%Z, 1529); (1%Z, 7013); (1%Z, 6570); ((-1)%Z, 7077); ((-2)%Z, 6569)] 5070602400912917605986812821504%Z 67108864%Z;
  Lin [1528; 7012; 6569] [22979; 7076; 22978; 22977; 22976; 6568] 0%Z [(1%Z, 1528); (1%Z, 7012); (1%Z, 6569); ((-1)%Z, 7076); ((-2)%Z, 6568)] 2535301200456458802993406410752%Z 134217728%Z;
  Lin [1527; 7011; 6568] [22975; 7075; 22974; 22973; 22972; 6567] 0%Z [(1%Z, 1527); (1%Z, 7011); (1%Z, 6568); ((-1)%Z, 7075); ((-2)%Z, 6567)] 1267650600228229401496703205376%Z 268435456%Z;
  Lin [1526; 7010; 6567] [22971; 7074; 22970; 22969; 22968; 6566] 0%Z [(1%Z, 1526); (1%Z, 7010); (1%Z, 6567); ((-1)%Z, 7074); ((-2)%Z, 6566)] 633825300114114700748351602688%Z 536870912%Z;
  Lin [1525; 7009; 6566] [22967; 7073; 22966; 22965; 22964; 6565] 0%Z [(1%Z, 1525); (1%Z, 7009); (1%Z, 6566); ((-1)%Z, 7073); ((-2)%Z, 6565)] 316912650057057350374175801344%Z 1073741824%Z;
  Lin [1524; 7008; 6565] [22963; 7072; 22962; 22961; 22960; 6564] 0%Z [(1%Z, 1524); (1%Z, 7008); (1%Z, 6565); ((-1)%Z, 7072); ((-2)%Z, 6564)] 158456325028528675187087900672%Z 2147483648%Z;
  Lin [1523; 7007; 6564] [22959; 7071; 22958; 22957; 22956; 6563] 0%Z [(1%Z, 1523); (1%Z, 7007); (1%Z, 6564); ((-1)%Z, 7071); ((-2)%Z, 6563)] 79228162514264337593543950336%Z 4294967296%Z;
  Lin [1522; 7006; 6563] [22955; 7070; 22954; 22953; 22952; 6562] 0%Z [(1%Z, 1522); (1%Z, 7006); (1%Z, 6563); ((-1)%Z, 7070); ((-2)%Z, 6562)] 39614081257132168796771975168%Z 8589934592%Z;
  Lin [1521; 7005; 6562] [22951; 7069; 22950; 22949; 22948; 6561] 0%Z [(1%Z, 1521); (1%Z, 7005); (1%Z, 6562); ((-1)%Z, 7069); ((-2)%Z, 6561)] 19807040628566084398385987584%Z 17179869184%Z;
  Lin [1520; 7004; 6561] [22947; 7068; 22946; 22945; 22944; 6560] 0%Z [(1%Z, 1520); (1%Z, 7004); (1%Z, 6561); ((-1)%Z, 7068); ((-2)%Z, 6560)] 9903520314283042199192993792%Z 34359738368%Z;
  Lin [1519; 7003; 6560] [22943; 7067; 22942; 22941; 22940; 6559] 0%Z [(1%Z, 1519); (1%Z, 7003); (1%Z, 6560); ((-1)%Z, 7067); ((-2)%Z, 6559)] 4951760157141521099596496896%Z 68719476736%Z;
  Lin [1518; 7002; 6559] [22939; 7066; 22938; 22937; 22936; 6558] 0%Z [(1%Z, 1518); (1%Z, 7002); (1%Z, 6559); ((-1)%Z, 7066); ((-2)%Z, 6558)] 2475880078570760549798248448%Z 137438953472%Z;
  Lin [1517; 7001; 6558] [22935; 7065; 22934; 22933; 22932; 6557] 0%Z [(1%Z, 1517); (1%Z, 7001); (1%Z, 6558); ((-1)%Z, 7065); ((-2)%Z, 6557)] 1237940039285380274899124224%Z 274877906944%Z;
  Lin [1516; 7000; 6557] [22931; 7064; 22930; 22929; 22928; 6556] 0%Z [(1%Z, 1516); (1%Z, 7000); (1%Z, 6557); ((-1)%Z, 7064); ((-2)%Z, 6556)] 618970019642690137449562112%Z 549755813888%Z;
  Lin [1515; 6999; 6556] [22927; 7063; 22926; 22925; 22924; 6555] 0%Z [(1%Z, 1515); (1%Z, 6999); (1%Z, 6556); ((-1)%Z, 7063); ((-2)%Z, 6555)] 309485009821345068724781056%Z 1099511627776%Z].
Definition mult2_64_facts_13 : list lin_fact := [
  Lin [1514; 6998; 6555] [22923; 7062; 22922; 22921; 22920; 6554] 0%Z [(1%Z, 1514); (1%Z, 6998); (1%Z, 6555); ((-1)%Z, 7062); ((-2)%Z, 6554)] 154742504910672534362390528%Z 2199023255552%Z;
  Lin [1513; 6997; 6554] [22919; 7061; 22918; 22917; 22916; 6553] 0%Z [(1%Z, 1513); (1%Z, 6997); (1%Z, 6554); ((-1)%Z, 7061); ((-2)%Z, 6553)] 77371252455336267181195264%Z 4398046511104%Z;
  Lin [1512; 6996; 6553] [22915; 7060; 22914; 22913; 22912; 6552] 0%Z [(1%Z, 1512); (1%Z, 6996); (1%Z, 6553); ((-1)%Z, 7060); ((-2)%Z, 6552)] 38685626227668133590597632%Z 8796093022208%Z;
  Lin [1511; 6995; 6552] [22911; 7059; 22910; 22909; 22908; 6551] 0%Z [(1%Z, 1511); (1%Z, 6995); (1%Z, 6552); ((-1)%Z, 7059); ((-2)%Z, 6551)] 19342813113834066795298816%Z 17592186044416%Z;
  Lin [1510; 6994; 6551] [22907; 7058; 22906; 22905; 22904; 6550] 0%Z [(1%Z, 1510); (1%Z, 6994); (1%Z, 6551); ((-1)%Z, 7058); ((-2)%Z, 6550)] 9671406556917033397649408%Z 35184372088832%Z;
  Lin [1509; 6993; 6550] [22903; 7057; 22902; 22901; 22900; 6549] 0%Z [(1%Z, 1509); (1%Z, 6993); (1%Z, 6550); ((-1)%Z, 7057); ((-2)%Z, 6549)] 4835703278458516698824704%Z 70368744177664%Z;
  Lin [1508; 6992; 6549] [22899; 7056; 22898; 22897; 22896; 6548] 0%Z [(1%Z, 1508); (1%Z, 6992); (1%Z, 6549); ((-1)%Z, 7056); ((-2)%Z, 6548)] 2417851639229258349412352%Z 140737488355328%Z;
  Lin [1507; 6991; 6548] [22895; 7055; 22894; 22893; 22892; 6547] 0%Z [(1%Z, 1507); (1%Z, 6991); (1%Z, 6548); ((-1)%Z, 7055); ((-2)%Z, 6547)] 1208925819614629174706176%Z 281474976710656%Z;
  Lin [1506; 6990; 6547] [22891; 7054; 22890; 22889; 22888; 6546] 0%Z [(1%Z, 1506); (1%Z, 6990); (1%Z, 6547); ((-1)%Z, 7054); ((-2)%Z, 6546)] 604462909807314587353088%Z 562949953421312%Z;
  Lin [1505; 6989; 6546] [22887; 7053; 22886; 22885; 22884; 6545] 0%Z [(1%Z, 1505); (1%Z, 6989); (1%Z, 6546); ((-1)%Z, 7053); ((-2)%Z, 6545)] 302231454903657293676544%Z 1125899906842624%Z;
  Lin [1504; 6988; 6545] [22883; 7052; 22882; 22881; 22880; 6544] 0%Z [(1%Z, 1504); (1%Z, 6988); (1%Z, 6545); ((-1)%Z, 7052); ((-2)%Z, 6544)] 151115727451828646838272%Z 2251799813685248%Z;
  Lin [1503; 6987; 6544] [22879; 7051; 22878; 22877; 22876; 6543] 0%Z [(1%Z, 1503); (1%Z, 6987); (1%Z, 6544); ((-1)%Z, 7051); ((-2)%Z, 6543)] 75557863725914323419136%Z 4503599627370496%Z;
  Lin [1502; 6986; 6543] [22875; 7050; 22874; 22873; 22872; 6542] 0%Z [(1%Z, 1502); (1%Z, 6986); (1%Z, 6543); ((-1)%Z, 7050); ((-2)%Z, 6542)] 37778931862957161709568%Z 9007199254740992%Z;
  Lin [1501; 6985; 6542] [22871; 7049; 22870; 22869; 22868; 6541] 0%Z [(1%Z, 1501); (1%Z, 6985); (1%Z, 6542); ((-1)%Z, 7049); ((-2)%Z, 6541)] 18889465931478580854784%Z 18014398509481984%Z;
  Lin [1500; 6984; 6541] [22867; 7048; 22866; 22865; 22864; 6540] 0%Z [(1%Z, 1500); (1%Z, 6984); (1%Z, 6541); ((-1)%Z, 7048); ((-2)%Z, 6540)] 9444732965739290427392%Z 36028797018963968%Z;
  Lin [1499; 6983; 6540] [22863; 7047; 22862; 22861; 22860; 6539] 0%Z [(1%Z, 1499); (1%Z, 6983); (1%Z, 6540); ((-1)%Z, 7047); ((-2)%Z, 6539)] 4722366482869645213696%Z 72057594037927936%Z;
  Lin [1498; 6982; 6539] [22859; 7046; 22858; 22857; 22856; 6538] 0%Z [(1%Z, 1498); (1%Z, 6982); (1%Z, 6539); ((-1)%Z, 7046); ((-2)%Z, 6538)] 2361183241434822606848%Z 144115188075855872%Z;
  Lin [1497; 6981; 6538] [22855; 7045; 22854; 22853; 22852; 6537] 0%Z [(1%Z, 1497); (1%Z, 6981); (1%Z, 6538); ((-1)%Z, 7045); ((-2)%Z, 6537)] 1180591620717411303424%Z 288230376151711744%Z;
  Lin [1496; 6980; 6537] [22851; 7044; 22850; 22849; 22848; 6536] 0%Z [(1%Z, 1496); (1%Z, 6980); (1%Z, 6537); ((-1)%Z, 7044); ((-2)%Z, 6536)] 590295810358705651712%Z 576460752303423488%Z;
  Lin [1495; 6979; 6536] [22847; 7043; 22846; 22845; 22844; 6535] 0%Z [(1%Z, 1495); (1%Z, 6979); (1%Z, 6536); ((-1)%Z, 7043); ((-2)%Z, 6535)] 295147905179352825856%Z 1152921504606846976%Z;
  Lin [1494; 6978; 6535] [22843; 7042; 22842; 22841; 22840; 6534] 0%Z [(1%Z, 1494); (1%Z, 6978); (1%Z, 6535); ((-1)%Z, 7042); ((-2)%Z, 6534)] 147573952589676412928%Z 2305843009213693952%Z;
  Lin [1493; 6977; 6534] [22839; 7041; 22838; 22837; 22836; 6533] 0%Z [(1%Z, 1493); (1%Z, 6977); (1%Z, 6534); ((-1)%Z, 7041); ((-2)%Z, 6533)] 73786976294838206464%Z 4611686018427387904%Z;
  Lin [1492; 6976; 6533] [22835; 7040; 22834; 22833; 22832; 6532] 0%Z [(1%Z, 1492); (1%Z, 6976); (1%Z, 6533); ((-1)%Z, 7040); ((-2)%Z, 6532)] 36893488147419103232%Z 9223372036854775808%Z;
  Lin [1491; 6975; 6532] [22831; 7039; 22830; 22829; 22828; 6531] 0%Z [(1%Z, 1491); (1%Z, 6975); (1%Z, 6532); ((-1)%Z, 7039); ((-2)%Z, 6531)] 18446744073709551616%Z 18446744073709551616%Z;
  Lin [1490; 6974; 6531] [22827; 7038; 22826; 22825; 22824; 6530] 0%Z [(1%Z, 1490); (1%Z, 6974); (1%Z, 6531); ((-1)%Z, 7038); ((-2)%Z, 6530)] 9223372036854775808%Z 36893488147419103232%Z;
  Lin [1489; 6973; 6530] [22823; 7037; 22822; 22821; 22820; 6529] 0%Z [(1%Z, 1489); (1%Z, 6973); (1%Z, 6530); ((-1)%Z, 7037); ((-2)%Z, 6529)] 4611686018427387904%Z 73786976294838206464%Z;
  Lin [1488; 6972; 6529] [22819; 7036; 22818; 22817; 22816; 6528] 0%Z [(1%Z, 1488); (1%Z, 6972); (1%Z, 6529); ((-1)%Z, 7036); ((-2)%Z, 6528)] 2305843009213693952%Z 147573952589676412928%Z;
  Lin [1487; 6971; 6528] [22815; 7035; 22814; 22813; 22812; 6527] 0%Z [(1%Z, 1487); (1%Z, 6971); (1%Z, 6528); ((-1)%Z, 7035); ((-2)%Z, 6527)] 1152921504606846976%Z 295147905179352825856%Z;
  Lin [1486; 6970; 6527] [22811; 7034; 22810; 22809; 22808; 6526] 0%Z [(1%Z, 1486); (1%Z, 6970); (1%Z, 6527); ((-1)%Z, 7034); ((-2)%Z, 6526)] 576460752303423488%Z 590295810358705651712%Z;
  Lin [1485; 6969; 6526] [22807; 7033; 22806; 22805; 22804; 6525] 0%Z [(1%Z, 1485); (1%Z, 6969); (1%Z, 6526); ((-1)%Z, 7033); ((-2)%Z, 6525)] 288230376151711744%Z 1180591620717411303424%Z;
  Lin [1484; 6968; 6525] [22803; 7032; 22802; 22801; 22800; 6524] 0%Z [(1%Z, 1484); (1%Z, 6968); (1%Z, 6525); ((-1)%Z, 7032); ((-2)%Z, 6524)] 144115188075855872%Z 2361183241434822606848%Z;
  Lin [1483; 6967; 6524] [22799; 7031; 22798; 22797; 22796; 6523] 0%Z [(1%Z, 1483); (1%Z, 6967); (1%Z, 6524); ((-1)%Z, 7031); ((-2)%Z, 6523)] 72057594037927936%Z 4722366482869645213696%Z;
  Lin [1482; 6966; 6523] [22795; 7030; 22794; 22793; 22792; 6522] 0%Z [(1%Z, 1482); (1%Z, 6966); (1%Z, 6523); ((-1)%Z, 7030); ((-2)%Z, 6522)] 36028797018963968%Z 9444732965739290427392%Z;
  Lin [1481; 6965; 6522] [22791; 7029; 22790; 22789; 22788; 6521] 0%Z [(1%Z, 1481); (1%Z, 6965); (1%Z, 6522); ((-1)%Z, 7029); ((-2)%Z, 6521)] 18014398509481984%Z 18889465931478580854784%Z;
  Lin [1480; 6964; 6521] [22787; 7028; 22786; 22785; 22784; 6520] 0%Z [(1%Z, 1480); (1%Z, 6964); (1%Z, 6521); ((-1)%Z, 7028); ((-2)%Z, 6520)] 9007199254740992%Z 37778931862957161709568%Z;
  Lin [1479; 6963; 6520] [22783; 7027; 22782; 22781; 22780; 6519] 0%Z [(1%Z, 1479); (1%Z, 6963); (1%Z, 6520); ((-1)%Z, 7027); ((-2)%Z, 6519)] 4503599627370496%Z 75557863725914323419136%Z;
  Lin [1478; 6962; 6519] [22779; 7026; 22778; 22777; 22776; 6518] 0%Z [(1%Z, 1478); (1%Z, 6962); (1%Z, 6519); ((-1)%Z, 7026); ((-2)%Z, 6518)] 2251799813685248%Z 151115727451828646838272%Z;
  Lin [1477; 6961; 6518] [22775; 7025; 22774; 22773; 22772; 6517] 0%Z [(1%Z, 1477); (1%Z, 6961); (1%Z, 6518); ((-1)%Z, 7025); ((-2)%Z, 6517)] 1125899906842624%Z 302231454903657293676544%Z;
  Lin [1476; 6960; 6517] [22771; 7024; 22770; 22769; 22768; 6516] 0%Z [(1%Z, 1476); (1%Z, 6960); (1%Z, 6517); ((-1)%Z, 7024); ((-2)%Z, 6516)] 562949953421312%Z 604462909807314587353088%Z;
  Lin [1475; 6959; 6516] [22767; 7023; 22766; 22765; 22764; 6515] 0%Z [(1%Z, 1475); (1%Z, 6959); (1%Z, 6516); ((-1)%Z, 7023); ((-2)%Z, 6515)] 281474976710656%Z 1208925819614629174706176%Z;
  Lin [1474; 6958; 6515] [22763; 7022; 22762; 22761; 22760; 6514] 0%Z [(1%Z, 1474); (1%Z, 6958); (1%Z, 6515); ((-1)%Z, 7022); ((-2)%Z, 6514)] 140737488355328%Z 2417851639229258349412352%Z;
  Lin [1473; 6957; 6514] [22759; 7021; 22758; 22757; 22756; 6513] 0%Z [(1%Z, 1473); (1%Z, 6957); (1%Z, 6514); ((-1)%Z, 7021); ((-2)%Z, 6513)] 70368744177664%Z 4835703278458516698824704%Z;
  Lin [1472; 6956; 6513] [22755; 7020; 22754; 22753; 22752; 6512] 0%Z [(1%Z, 1472); (1%Z, 6956); (1%Z, 6513); ((-1)%Z, 7020); ((-2)%Z, 6512)] 35184372088832%Z 9671406556917033397649408%Z;
  Lin [1471; 6447; 6512] [22751; 7019; 22750; 22749; 22748; 6511] 0%Z [(1%Z, 1471); (1%Z, 6447); (1%Z, 6512); ((-1)%Z, 7019); ((-2)%Z, 6511)] 17592186044416%Z 19342813113834066795298816%Z;
  Lin [1598; 7081] [28118; 6638] 0%Z [(1%Z, 1598); (1%Z, 7081); ((-1)%Z, 28118); ((-2)%Z, 6638)] 81129638414606681695789005144064%Z 4194304%Z;
  Lin [1597; 7080; 6638] [22747; 7144; 22746; 22745; 22744; 6637] 0%Z [(1%Z, 1597); (1%Z, 7080); (1%Z, 6638); ((-1)%Z, 7144); ((-2)%Z, 6637)] 40564819207303340847894502572032%Z 8388608%Z;
  Lin [1596; 7079; 6637] [22743; 7143; 22742; 22741; 22740; 6636] 0%Z [(1%Z, 1596); (1%Z, 7079); (1%Z, 6637); ((-1)%Z, 7143); ((-2)%Z, 6636)] 20282409603651670423947251286016%Z 16777216%Z;
  Lin [1595; 7078; 6636] [22739; 7142; 22738; 22737; 22736; 6635] 0%Z [(1%Z, 1595); (1%Z, 7078); (1%Z, 6636); ((-1)%Z, 7142); ((-2)%Z, 6635)] 10141204801825835211973625643008%Z 33554432%Z;
  Lin [1594; 7077; 6635] [22735; 7141; 22734; 22733; 22732; 6634] 0%Z [(1%Z, 1594); (1%Z, 7077); (1%Z, 6635); ((-1)%Z, 7141); ((-2)%Z, 6634)] 5070602400912917605986812821504%Z 67108864%Z;
  Lin [1593; 7076; 6634] [22731; 7140; 22730; 22729; 22728; 6633] 0%Z [(1%Z, 1593); (1%Z, 7076); (1%Z, 6634); ((-1)%Z, 7140); ((-2)%Z, 6633)] 2535301200456458802993406410752%Z 134217728%Z;
  Lin [1592; 7075; 6633] [22727; 7139; 22726; 22725; 22724; 6632] 0%Z [(1%Z, 1592); (1%Z, 7075); (1%Z, 6633); ((-1)%Z, 7139); ((-2)%Z, 6632)] 1267650600228229401496703205376%Z 268435456%Z;
  Lin [1591; 7074; 6632] [22723; 7138; 22722; 22721; 22720; 6631] 0%Z [(1%Z, 1591); (1%Z, 7074); (1%Z, 6632); ((-1)%Z, 7138); ((-2)%Z, 6631)] 633825300114114700748351602688%Z 536870912%Z;
  Lin [1590; 7073; 6631] [22719; 7137; 22718; 22717; 22716; 6630] 0%Z [(1%Z, 1590); (1%Z, 7073); (1%Z, 6631); ((-1)%Z, 7137); ((-2)%Z, 6630)] 316912650057057350374175801344%Z 1073741824%Z;
  Lin [1589; 7072; 6630] [22715; 7136; 22714; 22713; 22712; 6629] 0%Z [(1%Z, 1589); (1%Z, 7072); (1%Z, 6630); ((-1)%Z, 7136); ((-2)%Z, 6629)] 158456325028528675187087900672%Z 2147483648%Z;
  Lin [1588; 7071; 6629] [22711; 7135; 22710; 22709; 22708; 6628] 0%Z [(1%Z, 1588); (1%Z, 7071); (1%Z, 6629); ((-1)%Z, 7135); ((-2)%Z, 6628)] 79228162514264337593543950336%Z 4294967296%Z;
  Lin [1587; 7070; 6628] [22707; 7134; 22706; 22705; 22704; 6627] 0%Z [(1%Z, 1587); (1%Z, 7070); (1%Z, 6628); ((-1)%Z, 7134); ((-2)%Z, 6627)] 39614081257132168796771975168%Z 8589934592%Z;
  Lin [1586; 7069; 6627] [22703; 7133; 22702; 22701; 22700; 6626] 0%Z [(1%Z, 1586); (1%Z, 7069); (1%Z, 6627); ((-1)%Z, 7133); ((-2)%Z, 6626)] 19807040628566084398385987584%Z 17179869184%Z;
  Lin [1585; 7068; 6626] [22699; 7132; 22698; 22697; 22696; 6625] 0%Z [(1%Z, 1585); (1%Z, 7068); (1%Z, 6626); ((-1)%Z, 7132); ((-2)%Z, 6625)] 9903520314283042199192993792%Z 34359738368%Z;
  Lin [1584; 7067; 6625] [22695; 7131; 22694; 22693; 22692; 6624] 0%Z [(1%Z, 1584); (1%Z, 7067); (1%Z, 6625); ((-1)%Z, 7131); ((-2)%Z, 6624)] 4951760157141521099596496896%Z 68719476736%Z;
  Lin [1583; 7066; 6624] [22691; 7130; 22690; 22689; 22688; 6623] 0%Z [(1%Z, 1583); (1%Z, 7066); (1%Z, 6624); ((-1)%Z, 7130); ((-2)%Z, 6623)] 2475880078570760549798248448%Z 137438953472%Z;
  Lin [1582; 7065; 6623] [22687; 7129; 22686; 22685; 22684; 6622] 0%Z [(1%Z, 1582); (1%Z, 7065); (1%Z, 6623); ((-1)%Z, 7129); ((-2)%Z, 6622)] 1237940039285380274899124224%Z 274877906944%Z;
  Lin [1581; 7064; 6622] [22683; 7128; 22682; 22681; 22680; 6621] 0%Z [(1%Z, 1581); (1%Z, 7064); (1%Z, 6622); ((-1)%Z, 7128); ((-2)%Z, 6621)] 618970019642690137449562112%Z 549755813888%Z;
  Lin [1580; 7063; 6621] [22679; 7127; 22678; 22677; 22676; 6620] 0%Z [(1%Z, 1580); (1%Z, 7063); (1%Z, 6621); ((-1)%Z, 7127); ((-2)%Z, 6620)] 309485009821345068724781056%Z 1099511627776%Z;
  Lin [1579; 7062; 6620] [22675; 7126; 22674; 22673; 22672; 6619] 0%Z [(1%Z, 1579); (1%Z, 7062); (1%Z, 6620); ((-1)%Z, 7126); ((-2)%Z, 6619)] 154742504910672534362390528%Z 2199023255552%Z;
  Lin [1578; 7061; 6619] [22671; 7125; 22670; 22669; 22668; 6618] 0%Z [(1%Z, 1578); (1%Z, 7061); (1%Z, 6619); ((-1)%Z, 7125); ((-2)%Z, 6618)] 77371252455336267181195264%Z 4398046511104%Z;
  Lin [1577; 7060; 6618] [22667; 7124; 22666; 22665; 22664; 6617] 0%Z [(1%Z, 1577); (1%Z, 7060); (1%Z, 6618); ((-1)%Z, 7124); ((-2)%Z, 6617)] 38685626227668133590597632%Z 8796093022208%Z;
  Lin [1576; 7059; 6617] [22663; 7123; 22662; 22661; 22660; 6616] 0%Z [(1%Z, 1576); (1%Z, 7059); (1%Z, 6617); ((-1)%Z, 7123); ((-2)%Z, 6616)] 19342813113834066795298816%Z 17592186044416%Z;
  Lin [1575; 7058; 6616] [22659; 7122; 22658; 22657; 22656; 6615] 0%Z [(1%Z, 1575); (1%Z, 7058); (1%Z, 6616); ((-1)%Z, 7122); ((-2)%Z, 6615)] 9671406556917033397649408%Z 35184372088832%Z;
  Lin [1574; 7057; 6615] [22655; 7121; 22654; 22653; 22652; 6614] 0%Z [(1%Z, 1574); (1%Z, 7057); (1%Z, 6615); ((-1)%Z, 7121); ((-2)%Z, 6614)] 4835703278458516698824704%Z 70368744177664%Z;
  Lin [1573; 7056; 6614] [22651; 7120; 22650; 22649; 22648; 6613] 0%Z [(1%Z, 1573); (1%Z, 7056); (1%Z, 6614); ((-1)%Z, 7120); ((-2)%Z, 6613)] 2417851639229258349412352%Z 140737488355328%Z;
  Lin [1572; 7055; 6613] [22647; 7119; 22646; 22645; 22644; 6612] 0%Z [(1%Z, 1572); (1%Z, 7055); (1%Z, 6613); ((-1)%Z, 7119); ((-2)%Z, 6612)] 1208925819614629174706176%Z 281474976710656%Z;
  Lin [1571; 7054; 6612] [22643; 7118; 22642; 22641; 22640; 6611] 0%Z [(1%Z, 1571); (1%Z, 7054); (1%Z, 6612); ((-1)%Z, 7118); ((-2)%Z, 6611)] 604462909807314587353088%Z 562949953421312%Z;
  Lin [1570; 7053; 6611] [22639; 7117; 22638; 22637; 22636; 6610] 0%Z [(1%Z, 1570); (1%Z, 7053); (1%Z, 6611); ((-1)%Z, 7117); ((-2)%Z, 6610)] 302231454903657293676544%Z 1125899906842624%Z;
  Lin [1569; 7052; 6610] [22635; 7116; 22634; 22633; 22632; 6609] 0%Z [(1%Z, 1569); (1%Z, 7052); (1%Z, 6610); ((-1)%Z, 7116); ((-2)%Z, 6609)] 151115727451828646838272%Z 2251799813685248%Z;
  Lin [1568; 7051; 6609] [22631; 7115; 22630; 22629; 22628; 6608] 0%Z [(1%Z, 1568); (1%Z, 7051); (1%Z, 6609); ((-1)%Z, 7115); ((-2)%Z, 6608)] 75557863725914323419136%Z 4503599627370496%Z;
  Lin [1567; 7050; 6608] [22627; 7114; 22626; 22625; 22624; 6607] 0%Z [(1%Z, 1567); (1%Z, 7050); (1%Z, 6608); ((-1)%Z, 7114); ((-2)%Z, 6607)] 37778931862957161709568%Z 9007199254740992%Z;
  Lin [1566; 7049; 6607] [22623; 7113; 22622; 22621; 22620; 6606] 0%Z [(1%Z, 1566); (1%Z, 7049); (1%Z, 6607); ((-1)%Z, 7113); ((-2)%Z, 6606)] 18889465931478580854784%Z 18014398509481984%Z;
  Lin [1565; 7048; 6606] [22619; 7112; 22618; 22617; 22616; 6605] 0%Z [(1%Z, 1565); (1%Z, 7048); (1%Z, 6606); ((-1)%Z, 7112); ((-2)%Z, 6605)] 9444732965739290427392%Z 36028797018963968%Z;
  Lin [1564; 7047; 6605] [22615; 7111; 22614; 22613; 22612; 6604] 0%Z [(1%Z, 1564); (1%Z, 7047); (1%Z, 6605); ((-1)%Z, 7111); ((-2)%Z, 6604)] 4722366482869645213696%Z 72057594037927936%Z;
  Lin [1563; 7046; 6604] [22611; 7110; 22610; 22609; 22608; 6603] 0%Z [(1%Z, 1563); (1%Z, 7046); (1%Z, 6604); ((-1)%Z, 7110); ((-2)%Z, 6603)] 2361183241434822606848%Z 144115188075855872%Z;
  Lin [1562; 7045; 6603] [22607; 7109; 22606; 22605; 22604; 6602] 0%Z [(1%Z, 1562); (1%Z, 7045); (1%Z, 6603); ((-1)%Z, 7109); ((-2)%Z, 6602)] 1180591620717411303424%Z 288230376151711744%Z;
  Lin [1561; 7044; 6602] [22603; 7108; 22602; 22601; 22600; 6601] 0%Z [(1%Z, 1561); (1%Z, 7044); (1%Z, 6602); ((-1)%Z, 7108); ((-2)%Z, 6601)] 590295810358705651712%Z 576460752303423488%Z;
  Lin [1560; 7043; 6601] [22599; 7107; 22598; 22597; 22596; 6600] 0%Z [(1%Z, 1560); (1%Z, 7043); (1%Z, 6601); ((-1)%Z, 7107); ((-2)%Z, 6600)] 295147905179352825856%Z 1152921504606846976%Z;
  Lin [1559; 7042; 6600] [22595; 7106; 22594; 22593; 22592; 6599] 0%Z [(1%Z, 1559); (1%Z, 7042); (1%Z, 6600); ((-1)%Z, 7106); ((-2)%Z, 6599)] 147573952589676412928%Z 2305843009213693952%Z;
  Lin [1558; 7041; 6599] [22591; 7105; 22590; 22589; 22588; 6598] 0%Z [(1%Z, 1558); (1%Z, 7041); (1%Z, 6599); ((-1)%Z, 7105); ((-2)%Z, 6598)] 73786976294838206464%Z 4611686018427387904%Z;
  Lin [1557; 7040; 6598] [22587; 7104; 22586; 22585; 22584; 6597] 0%Z [(1%Z, 1557); (1%Z, 7040); (1%Z, 6598); ((-1)%Z, 7104); ((-2)%Z, 6597)] 36893488147419103232%Z 9223372036854775808%Z;
  Lin [1556; 7039; 6597] [22583; 7103; 22582; 22581; 22580; 6596] 0%Z [(1%Z, 1556); (1%Z, 7039); (1%Z, 6597); ((-1)%Z, 7103); ((-2)%Z, 6596)] 18446744073709551616%Z 18446744073709551616%Z;
  Lin [1555; 7038; 6596] [22579; 7102; 22578; 22577; 22576; 6595] 0%Z [(1%Z, 1555); (1%Z, 7038); (1%Z, 6596); ((-1)%Z, 7102); ((-2)%Z, 6595)] 9223372036854775808%Z 36893488147419103232%Z;
  Lin [1554; 7037; 6595] [22575; 7101; 22574; 22573; 22572; 6594] 0%Z [(1%Z, 1554); (1%Z, 7037); (1%Z, 6595); ((-1)%Z, 7101); ((-2)%Z, 6594)] 4611686018427387904%Z 73786976294838206464%Z;
  Lin [1553; 7036; 6594] [22571; 7100; 22570; 22569; 22568; 6593] 0%Z [(1%Z, 1553); (1%Z, 7036); (1%Z, 6594); ((-1)%Z, 7100); ((-2)%Z, 6593)] 2305843009213693952%Z 147573952589676412928%Z;
  Lin [1552; 7035; 6593] [22567; 7099; 22566; 22565; 22564; 6592] 0%Z [(1%Z, 1552); (1%Z, 7035); (1%Z, 6593); ((-1)%Z, 7099); ((-2)%Z, 6592)] 1152921504606846976%Z 295147905179352825856%Z;
  Lin [1551; 7034; 6592] [22563; 7098; 22562; 22561; 22560; 6591] 0%Z [(1%Z, 1551); (1%Z, 7034); (1%Z, 6592); ((-1)%Z, 7098); ((-2)%Z, 6591)] 576460752303423488%Z 590295810358705651712%Z;
  Lin [1550; 7033; 6591] [22559; 7097; 22558; 22557; 22556; 6590] 0%Z [(1%Z, 1550); (1%Z, 7033); (1%Z, 6591); ((-1)%Z, 7097); ((-2)%Z, 6590)] 288230376151711744%Z 1180591620717411303424%Z;
  Lin [1549; 7032; 6590] [22555; 7096; 22554; 22553; 22552; 6589] 0%Z [(1%Z, 1549); (1%Z, 7032); (1%Z, 6590); ((-1)%Z, 7096); ((-2)%Z, 6589)] 144115188075855872%Z 2361183241434822606848%Z;
  Lin [1548; 7031; 6589] [22551; 7095; 22550; 22549; 22548; 6588] 0%Z [(1%Z, 1548); (1%Z, 7031); (1%Z, 6589); ((-1)%Z, 7095); ((-2)%Z, 6588)] 72057594037927936%Z 4722366482869645213696%Z;
  Lin [1547; 7030; 6588] [22547; 7094; 22546; 22545; 22544; 6587] 0%Z [(1%Z, 1547); (1%Z, 7030); (1%Z, 6588); ((-1)%Z, 7094); ((-2)%Z, 6587)] 36028797018963968%Z 9444732965739290427392%Z;
  Lin [1546; 7029; 6587] [22543; 7093; 22542; 22541; 22540; 6586] 0%Z [(1%Z, 1546); (1%Z, 7029); (1%Z, 6587); ((-1)%Z, 7093); ((-2)%Z, 6586)] 18014398509481984%Z 18889465931478580854784%Z;
  Lin [1545; 7028; 6586] [22539; 7092; 22538; 22537; 22536; 6585] 0%Z [(1%Z, 1545); (1%Z, 7028); (1%Z, 6586); ((-1)%Z, 7092); ((-2)%Z, 6585)] 9007199254740992%Z 37778931862957161709568%Z;
  Lin [1544; 7027; 6585] [22535; 7091; 22534; 22533; 22532; 6584] 0%Z [(1%Z, 1544); (1%Z, 7027); (1%Z, 6585); ((-1)%Z, 7091); ((-2)%Z, 6584)] 4503599627370496%Z 75557863725914323419136%Z;
  Lin [1543; 7026; 6584] [22531; 7090; 22530; 22529; 22528; 6583] 0%Z [(1%Z, 1543); (1%Z, 7026); (1%Z, 6584); ((-1)%Z, 7090); ((-2)%Z, 6583)] 2251799813685248%Z 151115727451828646838272%Z].
Definition mult2_64_facts_14 : list lin_fact := [
  Lin [1542; 7025; 6583] [22527; 7089; 22526; 22525; 22524; 6582] 0%Z [(1%Z, 1542); (1%Z, 7025); (1%Z, 6583); ((-1)%Z, 7089); ((-2)%Z, 6582)] 1125899906842624%Z 302231454903657293676544%Z;
  Lin [1541; 7024; 6582] [22523; 7088; 22522; 22521; 22520; 6581] 0%Z [(1%Z, 1541); (1%Z, 7024); (1%Z, 6582); ((-1)%Z, 7088); ((-2)%Z, 6581)] 562949953421312%Z 604462909807314587353088%Z;
  Lin [1540; 7023; 6581] [22519; 7087; 22518; 22517; 22516; 6580] 0%Z [(1%Z, 1540); (1%Z, 7023); (1%Z, 6581); ((-1)%Z, 7087); ((-2)%Z, 6580)] 281474976710656%Z 1208925819614629174706176%Z;
  Lin [1539; 7022; 6580] [22515; 7086; 22514; 22513; 22512; 6579] 0%Z [(1%Z, 1539); (1%Z, 7022); (1%Z, 6580); ((-1)%Z, 7086); ((-2)%Z, 6579)] 140737488355328%Z 2417851639229258349412352%Z;
  Lin [1538; 7021; 6579] [22511; 7085; 22510; 22509; 22508; 6578] 0%Z [(1%Z, 1538); (1%Z, 7021); (1%Z, 6579); ((-1)%Z, 7085); ((-2)%Z, 6578)] 70368744177664%Z 4835703278458516698824704%Z;
  Lin [1537; 7020; 6578] [22507; 7084; 22506; 22505; 22504; 6577] 0%Z [(1%Z, 1537); (1%Z, 7020); (1%Z, 6578); ((-1)%Z, 7084); ((-2)%Z, 6577)] 35184372088832%Z 9671406556917033397649408%Z;
  Lin [1536; 7019; 6577] [22503; 7083; 22502; 22501; 22500; 6576] 0%Z [(1%Z, 1536); (1%Z, 7019); (1%Z, 6577); ((-1)%Z, 7083); ((-2)%Z, 6576)] 17592186044416%Z 19342813113834066795298816%Z;
  Lin [1535; 6511; 6576] [22499; 7082; 22498; 22497; 22496; 6575] 0%Z [(1%Z, 1535); (1%Z, 6511); (1%Z, 6576); ((-1)%Z, 7082); ((-2)%Z, 6575)] 8796093022208%Z 38685626227668133590597632%Z;
  Lin [1662; 7144] [28119; 6702] 0%Z [(1%Z, 1662); (1%Z, 7144); ((-1)%Z, 28119); ((-2)%Z, 6702)] 40564819207303340847894502572032%Z 8388608%Z;
  Lin [1661; 7143; 6702] [22495; 7207; 22494; 22493; 22492; 6701] 0%Z [(1%Z, 1661); (1%Z, 7143); (1%Z, 6702); ((-1)%Z, 7207); ((-2)%Z, 6701)] 20282409603651670423947251286016%Z 16777216%Z;
  Lin [1660; 7142; 6701] [22491; 7206; 22490; 22489; 22488; 6700] 0%Z [(1%Z, 1660); (1%Z, 7142); (1%Z, 6701); ((-1)%Z, 7206); ((-2)%Z, 6700)] 10141204801825835211973625643008%Z 33554432%Z;
  Lin [1659; 7141; 6700] [22487; 7205; 22486; 22485; 22484; 6699] 0%Z [(1%Z, 1659); (1%Z, 7141); (1%Z, 6700); ((-1)%Z, 7205); ((-2)%Z, 6699)] 5070602400912917605986812821504%Z 67108864%Z;
  Lin [1658; 7140; 6699] [22483; 7204; 22482; 22481; 22480; 6698] 0%Z [(1%Z, 1658); (1%Z, 7140); (1%Z, 6699); ((-1)%Z, 7204); ((-2)%Z, 6698)] 2535301200456458802993406410752%Z 134217728%Z;
  Lin [1657; 7139; 6698] [22479; 7203; 22478; 22477; 22476; 6697] 0%Z [(1%Z, 1657); (1%Z, 7139); (1%Z, 6698); ((-1)%Z, 7203); ((-2)%Z, 6697)] 1267650600228229401496703205376%Z 268435456%Z;
  Lin [1656; 7138; 6697] [22475; 7202; 22474; 22473; 22472; 6696] 0%Z [(1%Z, 1656); (1%Z, 7138); (1%Z, 6697); ((-1)%Z, 7202); ((-2)%Z, 6696)] 633825300114114700748351602688%Z 536870912%Z;
  Lin [1655; 7137; 6696] [22471; 7201; 22470; 22469; 22468; 6695] 0%Z [(1%Z, 1655); (1%Z, 7137); (1%Z, 6696); ((-1)%Z, 7201); ((-2)%Z, 6695)] 316912650057057350374175801344%Z 1073741824%Z;
  Lin [1654; 7136; 6695] [22467; 7200; 22466; 22465; 22464; 6694] 0%Z [(1%Z, 1654); (1%Z, 7136); (1%Z, 6695); ((-1)%Z, 7200); ((-2)%Z, 6694)] 158456325028528675187087900672%Z 2147483648%Z;
  Lin [1653; 7135; 6694] [22463; 7199; 22462; 22461; 22460; 6693] 0%Z [(1%Z, 1653); (1%Z, 7135); (1%Z, 6694); ((-1)%Z, 7199); ((-2)%Z, 6693)] 79228162514264337593543950336%Z 4294967296%Z;
  Lin [1652; 7134; 6693] [22459; 7198; 22458; 22457; 22456; 6692] 0%Z [(1%Z, 1652); (1%Z, 7134); (1%Z, 6693); ((-1)%Z, 7198); ((-2)%Z, 6692)] 39614081257132168796771975168%Z 8589934592%Z;
  Lin [1651; 7133; 6692] [22455; 7197; 22454; 22453; 22452; 6691] 0%Z [(1%Z, 1651); (1%Z, 7133); (1%Z, 6692); ((-1)%Z, 7197); ((-2)%Z, 6691)] 19807040628566084398385987584%Z 17179869184%Z;
  Lin [1650; 7132; 6691] [22451; 7196; 22450; 22449; 22448; 6690] 0%Z [(1%Z, 1650); (1%Z, 7132); (1%Z, 6691); ((-1)%Z, 7196); ((-2)%Z, 6690)] 9903520314283042199192993792%Z 34359738368%Z;
  Lin [1649; 7131; 6690] [22447; 7195; 22446; 22445; 22444; 6689] 0%Z [(1%Z, 1649); (1%Z, 7131); (1%Z, 6690); ((-1)%Z, 7195); ((-2)%Z, 6689)] 4951760157141521099596496896%Z 68719476736%Z;
  Lin [1648; 7130; 6689] [22443; 7194; 22442; 22441; 22440; 6688] 0%Z [(1%Z, 1648); (1%Z, 7130); (1%Z, 6689); ((-1)%Z, 7194); ((-2)%Z, 6688)] 2475880078570760549798248448%Z 137438953472%Z;
  Lin [1647; 7129; 6688] [22439; 7193; 22438; 22437; 22436; 6687] 0%Z [(1%Z, 1647); (1%Z, 7129); (1%Z, 6688); ((-1)%Z, 7193); ((-2)%Z, 6687)] 1237940039285380274899124224%Z 274877906944%Z;
  Lin [1646; 7128; 6687] [22435; 7192; 22434; 22433; 22432; 6686] 0%Z [(1%Z, 1646); (1%Z, 7128); (1%Z, 6687); ((-1)%Z, 7192); ((-2)%Z, 6686)] 618970019642690137449562112%Z 549755813888%Z;
  Lin [1645; 7127; 6686] [22431; 7191; 22430; 22429; 22428; 6685] 0%Z [(1%Z, 1645); (1%Z, 7127); (1%Z, 6686); ((-1)%Z, 7191); ((-2)%Z, 6685)] 309485009821345068724781056%Z 1099511627776%Z;
  Lin [1644; 7126; 6685] [22427; 7190; 22426; 22425; 22424; 6684] 0%Z [(1%Z, 1644); (1%Z, 7126); (1%Z, 6685); ((-1)%Z, 7190); ((-2)%Z, 6684)] 154742504910672534362390528%Z 2199023255552%Z;
  Lin [1643; 7125; 6684] [22423; 7189; 22422; 22421; 22420; 6683] 0%Z [(1%Z, 1643); (1%Z, 7125); (1%Z, 6684); ((-1)%Z, 7189); ((-2)%Z, 6683)] 77371252455336267181195264%Z 4398046511104%Z;
  Lin [1642; 7124; 6683] [22419; 7188; 22418; 22417; 22416; 6682] 0%Z [(1%Z, 1642); (1%Z, 7124); (1%Z, 6683); ((-1)%Z, 7188); ((-2)%Z, 6682)] 38685626227668133590597632%Z 8796093022208%Z;
  Lin [1641; 7123; 6682] [22415; 7187; 22414; 22413; 22412; 6681] 0%Z [(1%Z, 1641); (1%Z, 7123); (1%Z, 6682); ((-1)%Z, 7187); ((-2)%Z, 6681)] 19342813113834066795298816%Z 17592186044416%Z;
  Lin [1640; 7122; 6681] [22411; 7186; 22410; 22409; 22408; 6680] 0%Z [(1%Z, 1640); (1%Z, 7122); (1%Z, 6681); ((-1)%Z, 7186); ((-2)%Z, 6680)] 9671406556917033397649408%Z 35184372088832%Z;
  Lin [1639; 7121; 6680] [22407; 7185; 22406; 22405; 22404; 6679] 0%Z [(1%Z, 1639); (1%Z, 7121); (1%Z, 6680); ((-1)%Z, 7185); ((-2)%Z, 6679)] 4835703278458516698824704%Z 70368744177664%Z;
  Lin [1638; 7120; 6679] [22403; 7184; 22402; 22401; 22400; 6678] 0%Z [(1%Z, 1638); (1%Z, 7120); (1%Z, 6679); ((-1)%Z, 7184); ((-2)%Z, 6678)] 2417851639229258349412352%Z 140737488355328%Z;
  Lin [1637; 7119; 6678] [22399; 7183; 22398; 22397; 22396; 6677] 0%Z [(1%Z, 1637); (1%Z, 7119); (1%Z, 6678); ((-1)%Z, 7183); ((-2)%Z, 6677)] 1208925819614629174706176%Z 281474976710656%Z;
  Lin [1636; 7118; 6677] [22395; 7182; 22394; 22393; 22392; 6676] 0%Z [(1%Z, 1636); (1%Z, 7118); (1%Z, 6677); ((-1)%Z, 7182); ((-2)%Z, 6676)] 604462909807314587353088%Z 562949953421312%Z;
  Lin [1635; 7117; 6676] [22391; 7181; 22390; 22389; 22388; 6675] 0%Z [(1%Z, 1635); (1%Z, 7117); (1%Z, 6676); ((-1)%Z, 7181); ((-2)%Z, 6675)] 302231454903657293676544%Z 1125899906842624%Z;
  Lin [1634; 7116; 6675] [22387; 7180; 22386; 22385; 22384; 6674] 0%Z [(1%Z, 1634); (1%Z, 7116); (1%Z, 6675); ((-1)%Z, 7180); ((-2)%Z, 6674)] 151115727451828646838272%Z 2251799813685248%Z;
  Lin [1633; 7115; 6674] [22383; 7179; 22382; 22381; 22380; 6673] 0%Z [(1%Z, 1633); (1%Z, 7115); (1%Z, 6674); ((-1)%Z, 7179); ((-2)%Z, 6673)] 75557863725914323419136%Z 4503599627370496%Z;
  Lin [1632; 7114; 6673] [22379; 7178; 22378; 22377; 22376; 6672] 0%Z [(1%Z, 1632); (1%Z, 7114); (1%Z, 6673); ((-1)%Z, 7178); ((-2)%Z, 6672)] 37778931862957161709568%Z 9007199254740992%Z;
  Lin [1631; 7113; 6672] [22375; 7177; 22374; 22373; 22372; 6671] 0%Z [(1%Z, 1631); (1%Z, 7113); (1%Z, 6672); ((-1)%Z, 7177); ((-2)%Z, 6671)] 18889465931478580854784%Z 18014398509481984%Z;
  Lin [1630; 7112; 6671] [22371; 7176; 22370; 22369; 22368; 6670] 0%Z [(1%Z, 1630); (1%Z, 7112); (1%Z, 6671); ((-1)%Z, 7176); ((-2)%Z, 6670)] 9444732965739290427392%Z 36028797018963968%Z;
  Lin [1629; 7111; 6670] [22367; 7175; 22366; 22365; 22364; 6669] 0%Z [(1%Z, 1629); (1%Z, 7111); (1%Z, 6670); ((-1)%Z, 7175); ((-2)%Z, 6669)] 4722366482869645213696%Z 72057594037927936%Z;
  Lin [1628; 7110; 6669] [22363; 7174; 22362; 22361; 22360; 6668] 0%Z [(1%Z, 1628); (1%Z, 7110); (1%Z, 6669); ((-1)%Z, 7174); ((-2)%Z, 6668)] 2361183241434822606848%Z 144115188075855872%Z;
  Lin [1627; 7109; 6668] [22359; 7173; 22358; 22357; 22356; 6667] 0%Z [(1%Z, 1627); (1%Z, 7109); (1%Z, 6668); ((-1)%Z, 7173); ((-2)%Z, 6667)] 1180591620717411303424%Z 288230376151711744%Z;
  Lin [1626; 7108; 6667] [22355; 7172; 22354; 22353; 22352; 6666] 0%Z [(1%Z, 1626); (1%Z, 7108); (1%Z, 6667); ((-1)%Z, 7172); ((-2)%Z, 6666)] 590295810358705651712%Z 576460752303423488%Z;
  Lin [1625; 7107; 6666] [22351; 7171; 22350; 22349; 22348; 6665] 0%Z [(1%Z, 1625); (1%Z, 7107); (1%Z, 6666); ((-1)%Z, 7171); ((-2)%Z, 6665)] 295147905179352825856%Z 1152921504606846976%Z;
  Lin [1624; 7106; 6665] [22347; 7170; 22346; 22345; 22344; 6664] 0%Z [(1%Z, 1624); (1%Z, 7106); (1%Z, 6665); ((-1)%Z, 7170); ((-2)%Z, 6664)] 147573952589676412928%Z 2305843009213693952%Z;
  Lin [1623; 7105; 6664] [22343; 7169; 22342; 22341; 22340; 6663] 0%Z [(1%Z, 1623); (1%Z, 7105); (1%Z, 6664); ((-1)%Z, 7169); ((-2)%Z, 6663)] 73786976294838206464%Z 4611686018427387904%Z;
  Lin [1622; 7104; 6663] [22339; 7168; 22338; 22337; 22336; 6662] 0%Z [(1%Z, 1622); (1%Z, 7104); (1%Z, 6663); ((-1)%Z, 7168); ((-2)%Z, 6662)] 36893488147419103232%Z 9223372036854775808%Z;
  Lin [1621; 7103; 6662] [22335; 7167; 22334; 22333; 22332; 6661] 0%Z [(1%Z, 1621); (1%Z, 7103); (1%Z, 6662); ((-1)%Z, 7167); ((-2)%Z, 6661)] 18446744073709551616%Z 18446744073709551616%Z;
  Lin [1620; 7102; 6661] [22331; 7166; 22330; 22329; 22328; 6660] 0%Z [(1%Z, 1620); (1%Z, 7102); (1%Z, 6661); ((-1)%Z, 7166); ((-2)%Z, 6660)] 9223372036854775808%Z 36893488147419103232%Z;
  Lin [1619; 7101; 6660] [22327; 7165; 22326; 22325; 22324; 6659] 0%Z [(1%Z, 1619); (1%Z, 7101); (1%Z, 6660); ((-1)%Z, 7165); ((-2)%Z, 6659)] 4611686018427387904%Z 73786976294838206464%Z;
  Lin [1618; 7100; 6659] [22323; 7164; 22322; 22321; 22320; 6658] 0%Z [(1%Z, 1618); (1%Z, 7100); (1%Z, 6659); ((-1)%Z, 7164); ((-2)%Z, 6658)] 2305843009213693952%Z 147573952589676412928%Z;
  Lin [1617; 7099; 6658] [22319; 7163; 22318; 22317; 22316; 6657] 0%Z [(1%Z, 1617); (1%Z, 7099); (1%Z, 6658); ((-1)%Z, 7163); ((-2)%Z, 6657)] 1152921504606846976%Z 295147905179352825856%Z;
  Lin [1616; 7098; 6657] [22315; 7162; 22314; 22313; 22312; 6656] 0%Z [(1%Z, 1616); (1%Z, 7098); (1%Z, 6657); ((-1)%Z, 7162); ((-2)%Z, 6656)] 576460752303423488%Z 590295810358705651712%Z;
  Lin [1615; 7097; 6656] [22311; 7161; 22310; 22309; 22308; 6655] 0%Z [(1%Z, 1615); (1%Z, 7097); (1%Z, 6656); ((-1)%Z, 7161); ((-2)%Z, 6655)] 288230376151711744%Z 1180591620717411303424%Z;
  Lin [1614; 7096; 6655] [22307; 7160; 22306; 22305; 22304; 6654] 0%Z [(1%Z, 1614); (1%Z, 7096); (1%Z, 6655); ((-1)%Z, 7160); ((-2)%Z, 6654)] 144115188075855872%Z 2361183241434822606848%Z;
  Lin [1613; 7095; 6654] [22303; 7159; 22302; 22301; 22300; 6653] 0%Z [(1%Z, 1613); (1%Z, 7095); (1%Z, 6654); ((-1)%Z, 7159); ((-2)%Z, 6653)] 72057594037927936%Z 4722366482869645213696%Z;
  Lin [1612; 7094; 6653] [22299; 7158; 22298; 22297; 22296; 6652] 0%Z [(1%Z, 1612); (1%Z, 7094); (1%Z, 6653); ((-1)%Z, 7158); ((-2)%Z, 6652)] 36028797018963968%Z 9444732965739290427392%Z;
  Lin [1611; 7093; 6652] [22295; 7157; 22294; 22293; 22292; 6651] 0%Z [(1%Z, 1611); (1%Z, 7093); (1%Z, 6652); ((-1)%Z, 7157); ((-2)%Z, 6651)] 18014398509481984%Z 18889465931478580854784%Z;
  Lin [1610; 7092; 6651] [22291; 7156; 22290; 22289; 22288; 6650] 0%Z [(1%Z, 1610); (1%Z, 7092); (1%Z, 6651); ((-1)%Z, 7156); ((-2)%Z, 6650)] 9007199254740992%Z 37778931862957161709568%Z;
  Lin [1609; 7091; 6650] [22287; 7155; 22286; 22285; 22284; 6649] 0%Z [(1%Z, 1609); (1%Z, 7091); (1%Z, 6650); ((-1)%Z, 7155); ((-2)%Z, 6649)] 4503599627370496%Z 75557863725914323419136%Z;
  Lin [1608; 7090; 6649] [22283; 7154; 22282; 22281; 22280; 6648] 0%Z [(1%Z, 1608); (1%Z, 7090); (1%Z, 6649); ((-1)%Z, 7154); ((-2)%Z, 6648)] 2251799813685248%Z 151115727451828646838272%Z;
  Lin [1607; 7089; 6648] [22279; 7153; 22278; 22277; 22276; 6647] 0%Z [(1%Z, 1607); (1%Z, 7089); (1%Z, 6648); ((-1)%Z, 7153); ((-2)%Z, 6647)] 1125899906842624%Z 302231454903657293676544%Z;
  Lin [1606; 7088; 6647] [22275; 7152; 22274; 22273; 22272; 6646] 0%Z [(1%Z, 1606); (1%Z, 7088); (1%Z, 6647); ((-1)%Z, 7152); ((-2)%Z, 6646)] 562949953421312%Z 604462909807314587353088%Z;
  Lin [1605; 7087; 6646] [22271; 7151; 22270; 22269; 22268; 6645] 0%Z [(1%Z, 1605); (1%Z, 7087); (1%Z, 6646); ((-1)%Z, 7151); ((-2)%Z, 6645)] 281474976710656%Z 1208925819614629174706176%Z;
  Lin [1604; 7086; 6645] [22267; 7150; 22266; 22265; 22264; 6644] 0%Z [(1%Z, 1604); (1%Z, 7086); (1%Z, 6645); ((-1)%Z, 7150); ((-2)%Z, 6644)] 140737488355328%Z 2417851639229258349412352%Z;
  Lin [1603; 7085; 6644] [22263; 7149; 22262; 22261; 22260; 6643] 0%Z [(1%Z, 1603); (1%Z, 7085); (1%Z, 6644); ((-1)%Z, 7149); ((-2)%Z, 6643)] 70368744177664%Z 4835703278458516698824704%Z;
  Lin [1602; 7084; 6643] [22259; 7148; 22258; 22257; 22256; 6642] 0%Z [(1%Z, 1602); (1%Z, 7084); (1%Z, 6643); ((-1)%Z, 7148); ((-2)%Z, 6642)] 35184372088832%Z 9671406556917033397649408%Z;
  Lin [1601; 7083; 6642] [22255; 7147; 22254; 22253; 22252; 6641] 0%Z [(1%Z, 1601); (1%Z, 7083); (1%Z, 6642); ((-1)%Z, 7147); ((-2)%Z, 6641)] 17592186044416%Z 19342813113834066795298816%Z;
  Lin [1600; 7082; 6641] [22251; 7146; 22250; 22249; 22248; 6640] 0%Z [(1%Z, 1600); (1%Z, 7082); (1%Z, 6641); ((-1)%Z, 7146); ((-2)%Z, 6640)] 8796093022208%Z 38685626227668133590597632%Z;
  Lin [1599; 6575; 6640] [22247; 7145; 22246; 22245; 22244; 6639] 0%Z [(1%Z, 1599); (1%Z, 6575); (1%Z, 6640); ((-1)%Z, 7145); ((-2)%Z, 6639)] 4398046511104%Z 77371252455336267181195264%Z;
  Lin [1726; 7207] [28120; 6766] 0%Z [(1%Z, 1726); (1%Z, 7207); ((-1)%Z, 28120); ((-2)%Z, 6766)] 20282409603651670423947251286016%Z 16777216%Z;
  Lin [1725; 7206; 6766] [22243; 7270; 22242; 22241; 22240; 6765] 0%Z [(1%Z, 1725); (1%Z, 7206); (1%Z, 6766); ((-1)%Z, 7270); ((-2)%Z, 6765)] 10141204801825835211973625643008%Z 33554432%Z;
  Lin [1724; 7205; 6765] [22239; 7269; 22238; 22237; 22236; 6764] 0%Z [(1%Z, 1724); (1%Z, 7205); (1%Z, 6765); ((-1)%Z, 7269); ((-2)%Z, 6764)] 5070602400912917605986812821504%Z 67108864%Z;
  Lin [1723; 7204; 6764] [22235; 7268; 22234; 22233; 22232; 6763] 0%Z [(1%Z, 1723); (1%Z, 7204); (1%Z, 6764); ((-1)%Z, 7268); ((-2)%Z, 6763)] 2535301200456458802993406410752%Z 134217728%Z;
  Lin [1722; 7203; 6763] [22231; 7267; 22230; 22229; 22228; 6762] 0%Z [(1%Z, 1722); (1%Z, 7203); (1%Z, 6763); ((-1)%Z, 7267); ((-2)%Z, 6762)] 1267650600228229401496703205376%Z 268435456%Z;
  Lin [1721; 7202; 6762] [22227; 7266; 22226; 22225; 22224; 6761] 0%Z [(1%Z, 1721); (1%Z, 7202); (1%Z, 6762); ((-1)%Z, 7266); ((-2)%Z, 6761)] 633825300114114700748351602688%Z 536870912%Z;
  Lin [1720; 7201; 6761] [22223; 7265; 22222; 22221; 22220; 6760] 0%Z [(1%Z, 1720); (1%Z, 7201); (1%Z, 6761); ((-1)%Z, 7265); ((-2)%Z, 6760)] 316912650057057350374175801344%Z 1073741824%Z;
  Lin [1719; 7200; 6760] [22219; 7264; 22218; 22217; 22216; 6759] 0%Z [(1%Z, 1719); (1%Z, 7200); (1%Z, 6760); ((-1)%Z, 7264); ((-2)%Z, 6759)] 158456325028528675187087900672%Z 2147483648%Z;
  Lin [1718; 7199; 6759] [22215; 7263; 22214; 22213; 22212; 6758] 0%Z [(1%Z, 1718); (1%Z, 7199); (1%Z, 6759); ((-1)%Z, 7263); ((-2)%Z, 6758)] 79228162514264337593543950336%Z 4294967296%Z;
  Lin [1717; 7198; 6758] [22211; 7262; 22210; 22209; 22208; 6757] 0%Z [(1%Z, 1717); (1%Z, 7198); (1%Z, 6758); ((-1)%Z, 7262); ((-2)%Z, 6757)] 39614081257132168796771975168%Z 8589934592%Z;
  Lin [1716; 7197; 6757] [22207; 7261; 22206; 22205; 22204; 6756] 0%Z [(1%Z, 1716); (1%Z, 7197); (1%Z, 6757); ((-1)%Z, 7261); ((-2)%Z, 6756)] 19807040628566084398385987584%Z 17179869184%Z;
  Lin [1715; 7196; 6756] [22203; 7260; 22202; 22201; 22200; 6755] 0%Z [(1%Z, 1715); (1%Z, 7196); (1%Z, 6756); ((-1)%Z, 7260); ((-2)%Z, 6755)] 9903520314283042199192993792%Z 34359738368%Z;
  Lin [1714; 7195; 6755] [22199; 7259; 22198; 22197; 22196; 6754] 0%Z [(1%Z, 1714); (1%Z, 7195); (1%Z, 6755); ((-1)%Z, 7259); ((-2)%Z, 6754)] 4951760157141521099596496896%Z 68719476736%Z;
  Lin [1713; 7194; 6754] [22195; 7258; 22194; 22193; 22192; 6753] 0%Z [(1%Z, 1713); (1%Z, 7194); (1%Z, 6754); ((-1)%Z, 7258); ((-2)%Z, 6753)] 2475880078570760549798248448%Z 137438953472%Z;
  Lin [1712; 7193; 6753] [22191; 7257; 22190; 22189; 22188; 6752] 0%Z [(1%Z, 1712); (1%Z, 7193); (1%Z, 6753); ((-1)%Z, 7257); ((-2)%Z, 6752)] 1237940039285380274899124224%Z 274877906944%Z;
  Lin [1711; 7192; 6752] [22187; 7256; 22186; 22185; 22184; 6751] 0%Z [(1%Z, 1711); (1%Z, 7192); (1%Z, 6752); ((-1)%Z, 7256); ((-2)%Z, 6751)] 618970019642690137449562112%Z 549755813888%Z;
  Lin [1710; 7191; 6751] [22183; 7255; 22182; 22181; 22180; 6750] 0%Z [(1%Z, 1710); (1%Z, 7191); (1%Z, 6751); ((-1)%Z, 7255); ((-2)%Z, 6750)] 309485009821345068724781056%Z 1099511627776%Z;
  Lin [1709; 7190; 6750] [22179; 7254; 22178; 22177; 22176; 6749] 0%Z [(1%Z, 1709); (1%Z, 7190); (1%Z, 6750); ((-1)%Z, 7254); ((-2)%Z, 6749)] 154742504910672534362390528%Z 2199023255552%Z;
  Lin [1708; 7189; 6749] [22175; 7253; 22174; 22173; 22172; 6748] 0%Z [(1%Z, 1708); (1%Z, 7189); (1%Z, 6749); ((-1)%Z, 7253); ((-2)%Z, 6748)] 77371252455336267181195264%Z 4398046511104%Z;
  Lin [1707; 7188; 6748] [22171; 7252; 22170; 22169; 22168; 6747] 0%Z [(1%Z, 1707); (1%Z, 7188); (1%Z, 6748); ((-1)%Z, 7252); ((-2)%Z, 6747)] 38685626227668133590597632%Z 8796093022208%Z;
  Lin [1706; 7187; 6747] [22167; 7251; 22166; 22165; 22164; 6746] 0%Z [(1%Z, 1706); (1%Z, 7187); (1%Z, 6747); ((-1)%Z, 7251); ((-2)%Z, 6746)] 19342813113834066795298816%Z 17592186044416%Z;
  Lin [1705; 7186; 6746] [22163; 7250; 22162; 22161; 22160; 6745] 0%Z [(1%Z, 1705); (1%Z, 7186); (1%Z, 6746); ((-1)%Z, 7250); ((-2)%Z, 6745)] 9671406556917033397649408%Z 35184372088832%Z;
  Lin [1704; 7185; 6745] [22159; 7249; 22158; 22157; 22156; 6744] 0%Z [(1%Z, 1704); (1%Z, 7185); (1%Z, 6745); ((-1)%Z, 7249); ((-2)%Z, 6744)] 4835703278458516698824704%Z 70368744177664%Z;
  Lin [1703; 7184; 6744] [22155; 7248; 22154; 22153; 22152; 6743] 0%Z [(1%Z, 1703); (1%Z, 7184); (1%Z, 6744); ((-1)%Z, 7248); ((-2)%Z, 6743)] 2417851639229258349412352%Z 140737488355328%Z;
  Lin [1702; 7183; 6743] [22151; 7247; 22150; 22149; 22148; 6742] 0%Z [(1%Z, 1702); (1%Z, 7183); (1%Z, 6743); ((-1)%Z, 7247); ((-2)%Z, 6742)] 1208925819614629174706176%Z 281474976710656%Z;
  Lin [1701; 7182; 6742] [22147; 7246; 22146; 22145; 22144; 6741] 0%Z [(1%Z, 1701); (1%Z, 7182); (1%Z, 6742); ((-1)%Z, 7246); ((-2)%Z, 6741)] 604462909807314587353088%Z 562949953421312%Z;
  Lin [1700; 7181; 6741] [22143; 7245; 22142; 22141; 22140; 6740] 0%Z [(1%Z, 1700); (1%Z, 7181); (1%Z, 6741); ((-1)%Z, 7245); ((-2)%Z, 6740)] 302231454903657293676544%Z 1125899906842624%Z;
  Lin [1699; 7180; 6740] [22139; 7244; 22138; 22137; 22136; 6739] 0%Z [(1%Z, 1699); (1%Z, 7180); (1%Z, 6740); ((-1)%Z, 7244); ((-2)%Z, 6739)] 151115727451828646838272%Z 2251799813685248%Z].
Definition mult2_64_facts_15 : list lin_fact := [
  Lin [1698; 7179; 6739] [22135; 7243; 22134; 22133; 22132; 6738] 0%Z [(1%Z, 1698); (1%Z, 7179); (1%Z, 6739); ((-1)%Z, 7243); ((-2)%Z, 6738)] 75557863725914323419136%Z 4503599627370496%Z;
  Lin [1697; 7178; 6738] [22131; 7242; 22130; 22129; 22128; 6737] 0%Z [(1%Z, 1697); (1%Z, 7178); (1%Z, 6738); ((-1)%Z, 7242); ((-2)%Z, 6737)] 37778931862957161709568%Z 9007199254740992%Z;
  Lin [1696; 7177; 6737] [22127; 7241; 22126; 22125; 22124; 6736] 0%Z [(1%Z, 1696); (1%Z, 7177); (1%Z, 6737); ((-1)%Z, 7241); ((-2)%Z, 6736)] 18889465931478580854784%Z 18014398509481984%Z;
  Lin [1695; 7176; 6736] [22123; 7240; 22122; 22121; 22120; 6735] 0%Z [(1%Z, 1695); (1%Z, 7176); (1%Z, 6736); ((-1)%Z, 7240); ((-2)%Z, 6735)] 9444732965739290427392%Z 36028797018963968%Z;
  Lin [1694; 7175; 6735] [22119; 7239; 22118; 22117; 22116; 6734] 0%Z [(1%Z, 1694); (1%Z, 7175); (1%Z, 6735); ((-1)%Z, 7239); ((-2)%Z, 6734)] 4722366482869645213696%Z 72057594037927936%Z;
  Lin [1693; 7174; 6734] [22115; 7238; 22114; 22113; 22112; 6733] 0%Z [(1%Z, 1693); (1%Z, 7174); (1%Z, 6734); ((-1)%Z, 7238); ((-2)%Z, 6733)] 2361183241434822606848%Z 144115188075855872%Z;
  Lin [1692; 7173; 6733] [22111; 7237; 22110; 22109; 22108; 6732] 0%Z [(1%Z, 1692); (1%Z, 7173); (1%Z, 6733); ((-1)%Z, 7237); ((-2)%Z, 6732)] 1180591620717411303424%Z 288230376151711744%Z;
  Lin [1691; 7172; 6732] [22107; 7236; 22106; 22105; 22104; 6731] 0%Z [(1%Z, 1691); (1%Z, 7172); (1%Z, 6732); ((-1)%Z, 7236); ((-2)%Z, 6731)] 590295810358705651712%Z 576460752303423488%Z;
  Lin [1690; 7171; 6731] [22103; 7235; 22102; 22101; 22100; 6730] 0%Z [(1%Z, 1690); (1%Z, 7171); (1%Z, 6731); ((-1)%Z, 7235); ((-2)%Z, 6730)] 295147905179352825856%Z 1152921504606846976%Z;
  Lin [1689; 7170; 6730] [22099; 7234; 22098; 22097; 22096; 6729] 0%Z [(1%Z, 1689); (1%Z, 7170); (1%Z, 6730); ((-1)%Z, 7234); ((-2)%Z, 6729)] 147573952589676412928%Z 2305843009213693952%Z;
  Lin [1688; 7169; 6729] [22095; 7233; 22094; 22093; 22092; 6728] 0%Z [(1%Z, 1688); (1%Z, 7169); (1%Z, 6729); ((-1)%Z, 7233); ((-2)%Z, 6728)] 73786976294838206464%Z 4611686018427387904%Z;
  Lin [1687; 7168; 6728] [22091; 7232; 22090; 22089; 22088; 6727] 0%Z [(1%Z, 1687); (1%Z, 7168); (1%Z, 6728); ((-1)%Z, 7232); ((-2)%Z, 6727)] 36893488147419103232%Z 9223372036854775808%Z;
  Lin [1686; 7167; 6727] [22087; 7231; 22086; 22085; 22084; 6726] 0%Z [(1%Z, 1686); (1%Z, 7167); (1%Z, 6727); ((-1)%Z, 7231); ((-2)%Z, 6726)] 18446744073709551616%Z 18446744073709551616%Z;
  Lin [1685; 7166; 6726] [22083; 7230; 22082; 22081; 22080; 6725] 0%Z [(1%Z, 1685); (1%Z, 7166); (1%Z, 6726); ((-1)%Z, 7230); ((-2)%Z, 6725)] 9223372036854775808%Z 36893488147419103232%Z;
  Lin [1684; 7165; 6725] [22079; 7229; 22078; 22077; 22076; 6724] 0%Z [(1%Z, 1684); (1%Z, 7165); (1%Z, 6725); ((-1)%Z, 7229); ((-2)%Z, 6724)] 4611686018427387904%Z 73786976294838206464%Z;
  Lin [1683; 7164; 6724] [22075; 7228; 22074; 22073; 22072; 6723] 0%Z [(1%Z, 1683); (1%Z, 7164); (1%Z, 6724); ((-1)%Z, 7228); ((-2)%Z, 6723)] 2305843009213693952%Z 147573952589676412928%Z;
  Lin [1682; 7163; 6723] [22071; 7227; 22070; 22069; 22068; 6722] 0%Z [(1%Z, 1682); (1%Z, 7163); (1%Z, 6723); ((-1)%Z, 7227); ((-2)%Z, 6722)] 1152921504606846976%Z 295147905179352825856%Z;
  Lin [1681; 7162; 6722] [22067; 7226; 22066; 22065; 22064; 6721] 0%Z [(1%Z, 1681); (1%Z, 7162); (1%Z, 6722); ((-1)%Z, 7226); ((-2)%Z, 6721)] 576460752303423488%Z 590295810358705651712%Z;
  Lin [1680; 7161; 6721] [22063; 7225; 22062; 22061; 22060; 6720] 0%Z [(1%Z, 1680); (1%Z, 7161); (1%Z, 6721); ((-1)%Z, 7225); ((-2)%Z, 6720)] 288230376151711744%Z 1180591620717411303424%Z;
  Lin [1679; 7160; 6720] [22059; 7224; 22058; 22057; 22056; 6719] 0%Z [(1%Z, 1679); (1%Z, 7160); (1%Z, 6720); ((-1)%Z, 7224); ((-2)%Z, 6719)] 144115188075855872%Z 2361183241434822606848%Z;
  Lin [1678; 7159; 6719] [22055; 7223; 22054; 22053; 22052; 6718] 0%Z [(1%Z, 1678); (1%Z, 7159); (1%Z, 6719); ((-1)%Z, 7223); ((-2)%Z, 6718)] 72057594037927936%Z 4722366482869645213696%Z;
  Lin [1677; 7158; 6718] [22051; 7222; 22050; 22049; 22048; 6717] 0%Z [(1%Z, 1677); (1%Z, 7158); (1%Z, 6718); ((-1)%Z, 7222); ((-2)%Z, 6717)] 36028797018963968%Z 9444732965739290427392%Z;
  Lin [1676; 7157; 6717] [22047; 7221; 22046; 22045; 22044; 6716] 0%Z [(1%Z, 1676); (1%Z, 7157); (1%Z, 6717); ((-1)%Z, 7221); ((-2)%Z, 6716)] 18014398509481984%Z 18889465931478580854784%Z;
  Lin [1675; 7156; 6716] [22043; 7220; 22042; 22041; 22040; 6715] 0%Z [(1%Z, 1675); (1%Z, 7156); (1%Z, 6716); ((-1)%Z, 7220); ((-2)%Z, 6715)] 9007199254740992%Z 37778931862957161709568%Z;
  Lin [1674; 7155; 6715] [22039; 7219; 22038; 22037; 22036; 6714] 0%Z [(1%Z, 1674); (1%Z, 7155); (1%Z, 6715); ((-1)%Z, 7219); ((-2)%Z, 6714)] 4503599627370496%Z 75557863725914323419136%Z;
  Lin [1673; 7154; 6714] [22035; 7218; 22034; 22033; 22032; 6713] 0%Z [(1%Z, 1673); (1%Z, 7154); (1%Z, 6714); ((-1)%Z, 7218); ((-2)%Z, 6713)] 2251799813685248%Z 151115727451828646838272%Z;
  Lin [1672; 7153; 6713] [22031; 7217; 22030; 22029; 22028; 6712] 0%Z [(1%Z, 1672); (1%Z, 7153); (1%Z, 6713); ((-1)%Z, 7217); ((-2)%Z, 6712)] 1125899906842624%Z 302231454903657293676544%Z;
  Lin [1671; 7152; 6712] [22027; 7216; 22026; 22025; 22024; 6711] 0%Z [(1%Z, 1671); (1%Z, 7152); (1%Z, 6712); ((-1)%Z, 7216); ((-2)%Z, 6711)] 562949953421312%Z 604462909807314587353088%Z;
  Lin [1670; 7151; 6711] [22023; 7215; 22022; 22021; 22020; 6710] 0%Z [(1%Z, 1670); (1%Z, 7151); (1%Z, 6711); ((-1)%Z, 7215); ((-2)%Z, 6710)] 281474976710656%Z 1208925819614629174706176%Z;
  Lin [1669; 7150; 6710] [22019; 7214; 22018; 22017; 22016; 6709] 0%Z [(1%Z, 1669); (1%Z, 7150); (1%Z, 6710); ((-1)%Z, 7214); ((-2)%Z, 6709)] 140737488355328%Z 2417851639229258349412352%Z;
  Lin [1668; 7149; 6709] [22015; 7213; 22014; 22013; 22012; 6708] 0%Z [(1%Z, 1668); (1%Z, 7149); (1%Z, 6709); ((-1)%Z, 7213); ((-2)%Z, 6708)] 70368744177664%Z 4835703278458516698824704%Z;
  Lin [1667; 7148; 6708] [22011; 7212; 22010; 22009; 22008; 6707] 0%Z [(1%Z, 1667); (1%Z, 7148); (1%Z, 6708); ((-1)%Z, 7212); ((-2)%Z, 6707)] 35184372088832%Z 9671406556917033397649408%Z;
  Lin [1666; 7147; 6707] [22007; 7211; 22006; 22005; 22004; 6706] 0%Z [(1%Z, 1666); (1%Z, 7147); (1%Z, 6707); ((-1)%Z, 7211); ((-2)%Z, 6706)] 17592186044416%Z 19342813113834066795298816%Z;
  Lin [1665; 7146; 6706] [22003; 7210; 22002; 22001; 22000; 6705] 0%Z [(1%Z, 1665); (1%Z, 7146); (1%Z, 6706); ((-1)%Z, 7210); ((-2)%Z, 6705)] 8796093022208%Z 38685626227668133590597632%Z;
  Lin [1664; 7145; 6705] [21999; 7209; 21998; 21997; 21996; 6704] 0%Z [(1%Z, 1664); (1%Z, 7145); (1%Z, 6705); ((-1)%Z, 7209); ((-2)%Z, 6704)] 4398046511104%Z 77371252455336267181195264%Z;
  Lin [1663; 6639; 6704] [21995; 7208; 21994; 21993; 21992; 6703] 0%Z [(1%Z, 1663); (1%Z, 6639); (1%Z, 6704); ((-1)%Z, 7208); ((-2)%Z, 6703)] 2199023255552%Z 154742504910672534362390528%Z;
  Lin [1790; 7270] [28121; 7334] 0%Z [(1%Z, 1790); (1%Z, 7270); ((-1)%Z, 28121); ((-2)%Z, 7334)] 10141204801825835211973625643008%Z 33554432%Z;
  Lin [1789; 7269; 7334] [21991; 7845; 21990; 21989; 21988; 7333] 0%Z [(1%Z, 1789); (1%Z, 7269); (1%Z, 7334); ((-1)%Z, 7845); ((-2)%Z, 7333)] 5070602400912917605986812821504%Z 67108864%Z;
  Lin [1788; 7268; 7333] [21987; 7844; 21986; 21985; 21984; 7332] 0%Z [(1%Z, 1788); (1%Z, 7268); (1%Z, 7333); ((-1)%Z, 7844); ((-2)%Z, 7332)] 2535301200456458802993406410752%Z 134217728%Z;
  Lin [1787; 7267; 7332] [21983; 7843; 21982; 21981; 21980; 7331] 0%Z [(1%Z, 1787); (1%Z, 7267); (1%Z, 7332); ((-1)%Z, 7843); ((-2)%Z, 7331)] 1267650600228229401496703205376%Z 268435456%Z;
  Lin [1786; 7266; 7331] [21979; 7842; 21978; 21977; 21976; 7330] 0%Z [(1%Z, 1786); (1%Z, 7266); (1%Z, 7331); ((-1)%Z, 7842); ((-2)%Z, 7330)] 633825300114114700748351602688%Z 536870912%Z;
  Lin [1785; 7265; 7330] [21975; 7841; 21974; 21973; 21972; 7329] 0%Z [(1%Z, 1785); (1%Z, 7265); (1%Z, 7330); ((-1)%Z, 7841); ((-2)%Z, 7329)] 316912650057057350374175801344%Z 1073741824%Z;
  Lin [1784; 7264; 7329] [21971; 7840; 21970; 21969; 21968; 7328] 0%Z [(1%Z, 1784); (1%Z, 7264); (1%Z, 7329); ((-1)%Z, 7840); ((-2)%Z, 7328)] 158456325028528675187087900672%Z 2147483648%Z;
  Lin [1783; 7263; 7328] [21967; 7839; 21966; 21965; 21964; 7327] 0%Z [(1%Z, 1783); (1%Z, 7263); (1%Z, 7328); ((-1)%Z, 7839); ((-2)%Z, 7327)] 79228162514264337593543950336%Z 4294967296%Z;
  Lin [1782; 7262; 7327] [21963; 7838; 21962; 21961; 21960; 7326] 0%Z [(1%Z, 1782); (1%Z, 7262); (1%Z, 7327); ((-1)%Z, 7838); ((-2)%Z, 7326)] 39614081257132168796771975168%Z 8589934592%Z;
  Lin [1781; 7261; 7326] [21959; 7837; 21958; 21957; 21956; 7325] 0%Z [(1%Z, 1781); (1%Z, 7261); (1%Z, 7326); ((-1)%Z, 7837); ((-2)%Z, 7325)] 19807040628566084398385987584%Z 17179869184%Z;
  Lin [1780; 7260; 7325] [21955; 7836; 21954; 21953; 21952; 7324] 0%Z [(1%Z, 1780); (1%Z, 7260); (1%Z, 7325); ((-1)%Z, 7836); ((-2)%Z, 7324)] 9903520314283042199192993792%Z 34359738368%Z;
  Lin [1779; 7259; 7324] [21951; 7835; 21950; 21949; 21948; 7323] 0%Z [(1%Z, 1779); (1%Z, 7259); (1%Z, 7324); ((-1)%Z, 7835); ((-2)%Z, 7323)] 4951760157141521099596496896%Z 68719476736%Z;
  Lin [1778; 7258; 7323] [21947; 7834; 21946; 21945; 21944; 7322] 0%Z [(1%Z, 1778); (1%Z, 7258); (1%Z, 7323); ((-1)%Z, 7834); ((-2)%Z, 7322)] 2475880078570760549798248448%Z 137438953472%Z;
  Lin [1777; 7257; 7322] [21943; 7833; 21942; 21941; 21940; 7321] 0%Z [(1%Z, 1777); (1%Z, 7257); (1%Z, 7322); ((-1)%Z, 7833); ((-2)%Z, 7321)] 1237940039285380274899124224%Z 274877906944%Z;
  Lin [1776; 7256; 7321] [21939; 7832; 21938; 21937; 21936; 7320] 0%Z [(1%Z, 1776); (1%Z, 7256); (1%Z, 7321); ((-1)%Z, 7832); ((-2)%Z, 7320)] 618970019642690137449562112%Z 549755813888%Z;
  Lin [1775; 7255; 7320] [21935; 7831; 21934; 21933; 21932; 7319] 0%Z [(1%Z, 1775); (1%Z, 7255); (1%Z, 7320); ((-1)%Z, 7831); ((-2)%Z, 7319)] 309485009821345068724781056%Z 1099511627776%Z;
  Lin [1774; 7254; 7319] [21931; 7830; 21930; 21929; 21928; 7318] 0%Z [(1%Z, 1774); (1%Z, 7254); (1%Z, 7319); ((-1)%Z, 7830); ((-2)%Z, 7318)] 154742504910672534362390528%Z 2199023255552%Z;
  Lin [1773; 7253; 7318] [21927; 7829; 21926; 21925; 21924; 7317] 0%Z [(1%Z, 1773); (1%Z, 7253); (1%Z, 7318); ((-1)%Z, 7829); ((-2)%Z, 7317)] 77371252455336267181195264%Z 4398046511104%Z;
  Lin [1772; 7252; 7317] [21923; 7828; 21922; 21921; 21920; 7316] 0%Z [(1%Z, 1772); (1%Z, 7252); (1%Z, 7317); ((-1)%Z, 7828); ((-2)%Z, 7316)] 38685626227668133590597632%Z 8796093022208%Z;
  Lin [1771; 7251; 7316] [21919; 7827; 21918; 21917; 21916; 7315] 0%Z [(1%Z, 1771); (1%Z, 7251); (1%Z, 7316); ((-1)%Z, 7827); ((-2)%Z, 7315)] 19342813113834066795298816%Z 17592186044416%Z;
  Lin [1770; 7250; 7315] [21915; 7826; 21914; 21913; 21912; 7314] 0%Z [(1%Z, 1770); (1%Z, 7250); (1%Z, 7315); ((-1)%Z, 7826); ((-2)%Z, 7314)] 9671406556917033397649408%Z 35184372088832%Z;
  Lin [1769; 7249; 7314] [21911; 7825; 21910; 21909; 21908; 7313] 0%Z [(1%Z, 1769); (1%Z, 7249); (1%Z, 7314); ((-1)%Z, 7825); ((-2)%Z, 7313)] 4835703278458516698824704%Z 70368744177664%Z;
  Lin [1768; 7248; 7313] [21907; 7824; 21906; 21905; 21904; 7312] 0%Z [(1%Z, 1768); (1%Z, 7248); (1%Z, 7313); ((-1)%Z, 7824); ((-2)%Z, 7312)] 2417851639229258349412352%Z 140737488355328%Z;
  Lin [1767; 7247; 7312] [21903; 7823; 21902; 21901; 21900; 7311] 0%Z [(1%Z, 1767); (1%Z, 7247); (1%Z, 7312); ((-1)%Z, 7823); ((-2)%Z, 7311)] 1208925819614629174706176%Z 281474976710656%Z;
  Lin [1766; 7246; 7311] [21899; 7822; 21898; 21897; 21896; 7310] 0%Z [(1%Z, 1766); (1%Z, 7246); (1%Z, 7311); ((-1)%Z, 7822); ((-2)%Z, 7310)] 604462909807314587353088%Z 562949953421312%Z;
  Lin [1765; 7245; 7310] [21895; 7821; 21894; 21893; 21892; 7309] 0%Z [(1%Z, 1765); (1%Z, 7245); (1%Z, 7310); ((-1)%Z, 7821); ((-2)%Z, 7309)] 302231454903657293676544%Z 1125899906842624%Z;
  Lin [1764; 7244; 7309] [21891; 7820; 21890; 21889; 21888; 7308] 0%Z [(1%Z, 1764); (1%Z, 7244); (1%Z, 7309); ((-1)%Z, 7820); ((-2)%Z, 7308)] 151115727451828646838272%Z 2251799813685248%Z;
  Lin [1763; 7243; 7308] [21887; 7819; 21886; 21885; 21884; 7307] 0%Z [(1%Z, 1763); (1%Z, 7243); (1%Z, 7308); ((-1)%Z, 7819); ((-2)%Z, 7307)] 75557863725914323419136%Z 4503599627370496%Z;
  Lin [1762; 7242; 7307] [21883; 7818; 21882; 21881; 21880; 7306] 0%Z [(1%Z, 1762); (1%Z, 7242); (1%Z, 7307); ((-1)%Z, 7818); ((-2)%Z, 7306)] 37778931862957161709568%Z 9007199254740992%Z;
  Lin [1761; 7241; 7306] [21879; 7817; 21878; 21877; 21876; 7305] 0%Z [(1%Z, 1761); (1%Z, 7241); (1%Z, 7306); ((-1)%Z, 7817); ((-2)%Z, 7305)] 18889465931478580854784%Z 18014398509481984%Z;
  Lin [1760; 7240; 7305] [21875; 7816; 21874; 21873; 21872; 7304] 0%Z [(1%Z, 1760); (1%Z, 7240); (1%Z, 7305); ((-1)%Z, 7816); ((-2)%Z, 7304)] 9444732965739290427392%Z 36028797018963968%Z;
  Lin [1759; 7239; 7304] [21871; 7815; 21870; 21869; 21868; 7303] 0%Z [(1%Z, 1759); (1%Z, 7239); (1%Z, 7304); ((-1)%Z, 7815); ((-2)%Z, 7303)] 4722366482869645213696%Z 72057594037927936%Z;
  Lin [1758; 7238; 7303] [21867; 7814; 21866; 21865; 21864; 7302] 0%Z [(1%Z, 1758); (1%Z, 7238); (1%Z, 7303); ((-1)%Z, 7814); ((-2)%Z, 7302)] 2361183241434822606848%Z 144115188075855872%Z;
  Lin [1757; 7237; 7302] [21863; 7813; 21862; 21861; 21860; 7301] 0%Z [(1%Z, 1757); (1%Z, 7237); (1%Z, 7302); ((-1)%Z, 7813); ((-2)%Z, 7301)] 1180591620717411303424%Z 288230376151711744%Z;
  Lin [1756; 7236; 7301] [21859; 7812; 21858; 21857; 21856; 7300] 0%Z [(1%Z, 1756); (1%Z, 7236); (1%Z, 7301); ((-1)%Z, 7812); ((-2)%Z, 7300)] 590295810358705651712%Z 576460752303423488%Z;
  Lin [1755; 7235; 7300] [21855; 7811; 21854; 21853; 21852; 7299] 0%Z [(1%Z, 1755); (1%Z, 7235); (1%Z, 7300); ((-1)%Z, 7811); ((-2)%Z, 7299)] 295147905179352825856%Z 1152921504606846976%Z;
  Lin [1754; 7234; 7299] [21851; 7810; 21850; 21849; 21848; 7298] 0%Z [(1%Z, 1754); (1%Z, 7234); (1%Z, 7299); ((-1)%Z, 7810); ((-2)%Z, 7298)] 147573952589676412928%Z 2305843009213693952%Z;
  Lin [1753; 7233; 7298] [21847; 7809; 21846; 21845; 21844; 7297] 0%Z [(1%Z, 1753); (1%Z, 7233); (1%Z, 7298); ((-1)%Z, 7809); ((-2)%Z, 7297)] 73786976294838206464%Z 4611686018427387904%Z;
  Lin [1752; 7232; 7297] [21843; 7808; 21842; 21841; 21840; 7296] 0%Z [(1%Z, 1752); (1%Z, 7232); (1%Z, 7297); ((-1)%Z, 7808); ((-2)%Z, 7296)] 36893488147419103232%Z 9223372036854775808%Z;
  Lin [1751; 7231; 7296] [21839; 7807; 21838; 21837; 21836; 7295] 0%Z [(1%Z, 1751); (1%Z, 7231); (1%Z, 7296); ((-1)%Z, 7807); ((-2)%Z, 7295)] 18446744073709551616%Z 18446744073709551616%Z;
  Lin [1750; 7230; 7295] [21835; 7806; 21834; 21833; 21832; 7294] 0%Z [(1%Z, 1750); (1%Z, 7230); (1%Z, 7295); ((-1)%Z, 7806); ((-2)%Z, 7294)] 9223372036854775808%Z 36893488147419103232%Z;
  Lin [1749; 7229; 7294] [21831; 7805; 21830; 21829; 21828; 7293] 0%Z [(1%Z, 1749); (1%Z, 7229); (1%Z, 7294); ((-1)%Z, 7805); ((-2)%Z, 7293)] 4611686018427387904%Z 73786976294838206464%Z;
  Lin [1748; 7228; 7293] [21827; 7804; 21826; 21825; 21824; 7292] 0%Z [(1%Z, 1748); (1%Z, 7228); (1%Z, 7293); ((-1)%Z, 7804); ((-2)%Z, 7292)] 2305843009213693952%Z 147573952589676412928%Z;
  Lin [1747; 7227; 7292] [21823; 7803; 21822; 21821; 21820; 7291] 0%Z [(1%Z, 1747); (1%Z, 7227); (1%Z, 7292); ((-1)%Z, 7803); ((-2)%Z, 7291)] 1152921504606846976%Z 295147905179352825856%Z;
  Lin [1746; 7226; 7291] [21819; 7802; 21818; 21817; 21816; 7290] 0%Z [(1%Z, 1746); (1%Z, 7226); (1%Z, 7291); ((-1)%Z, 7802); ((-2)%Z, 7290)] 576460752303423488%Z 590295810358705651712%Z;
  Lin [1745; 7225; 7290] [21815; 7801; 21814; 21813; 21812; 7289] 0%Z [(1%Z, 1745); (1%Z, 7225); (1%Z, 7290); ((-1)%Z, 7801); ((-2)%Z, 7289)] 288230376151711744%Z 1180591620717411303424%Z;
  Lin [1744; 7224; 7289] [21811; 7800; 21810; 21809; 21808; 7288] 0%Z [(1%Z, 1744); (1%Z, 7224); (1%Z, 7289); ((-1)%Z, 7800); ((-2)%Z, 7288)] 144115188075855872%Z 2361183241434822606848%Z;
  Lin [1743; 7223; 7288] [21807; 7799; 21806; 21805; 21804; 7287] 0%Z [(1%Z, 1743); (1%Z, 7223); (1%Z, 7288); ((-1)%Z, 7799); ((-2)%Z, 7287)] 72057594037927936%Z 4722366482869645213696%Z;
  Lin [1742; 7222; 7287] [21803; 7798; 21802; 21801; 21800; 7286] 0%Z [(1%Z, 1742); (1%Z, 7222); (1%Z, 7287); ((-1)%Z, 7798); ((-2)%Z, 7286)] 36028797018963968%Z 9444732965739290427392%Z;
  Lin [1741; 7221; 7286] [21799; 7797; 21798; 21797; 21796; 7285] 0%Z [(1%Z, 1741); (1%Z, 7221); (1%Z, 7286); ((-1)%Z, 7797); ((-2)%Z, 7285)] 18014398509481984%Z 18889465931478580854784%Z;
  Lin [1740; 7220; 7285] [21795; 7796; 21794; 21793; 21792; 7284] 0%Z [(1%Z, 1740); (1%Z, 7220); (1%Z, 7285); ((-1)%Z, 7796); ((-2)%Z, 7284)] 9007199254740992%Z 37778931862957161709568%Z;
  Lin [1739; 7219; 7284] [21791; 7795; 21790; 21789; 21788; 7283] 0%Z [(1%Z, 1739); (1%Z, 7219); (1%Z, 7284); ((-1)%Z, 7795); ((-2)%Z, 7283)] 4503599627370496%Z 75557863725914323419136%Z;
  Lin [1738; 7218; 7283] [21787; 7794; 21786; 21785; 21784; 7282] 0%Z [(1%Z, 1738); (1%Z, 7218); (1%Z, 7283); ((-1)%Z, 7794); ((-2)%Z, 7282)] 2251799813685248%Z 151115727451828646838272%Z;
  Lin [1737; 7217; 7282] [21783; 7793; 21782; 21781; 21780; 7281] 0%Z [(1%Z, 1737); (1%Z, 7217); (1%Z, 7282); ((-1)%Z, 7793); ((-2)%Z, 7281)] 1125899906842624%Z 302231454903657293676544%Z;
  Lin [1736; 7216; 7281] [21779; 7792; 21778; 21777; 21776; 7280] 0%Z [(1%Z, 1736); (1%Z, 7216); (1%Z, 7281); ((-1)%Z, 7792); ((-2)%Z, 7280)] 562949953421312%Z 604462909807314587353088%Z;
  Lin [1735; 7215; 7280] [21775; 7791; 21774; 21773; 21772; 7279] 0%Z [(1%Z, 1735); (1%Z, 7215); (1%Z, 7280); ((-1)%Z, 7791); ((-2)%Z, 7279)] 281474976710656%Z 1208925819614629174706176%Z;
  Lin [1734; 7214; 7279] [21771; 7790; 21770; 21769; 21768; 7278] 0%Z [(1%Z, 1734); (1%Z, 7214); (1%Z, 7279); ((-1)%Z, 7790); ((-2)%Z, 7278)] 140737488355328%Z 2417851639229258349412352%Z;
  Lin [1733; 7213; 7278] [21767; 7789; 21766; 21765; 21764; 7277] 0%Z [(1%Z, 1733); (1%Z, 7213); (1%Z, 7278); ((-1)%Z, 7789); ((-2)%Z, 7277)] 70368744177664%Z 4835703278458516698824704%Z;
  Lin [1732; 7212; 7277] [21763; 7788; 21762; 21761; 21760; 7276] 0%Z [(1%Z, 1732); (1%Z, 7212); (1%Z, 7277); ((-1)%Z, 7788); ((-2)%Z, 7276)] 35184372088832%Z 9671406556917033397649408%Z;
  Lin [1731; 7211; 7276] [21759; 7787; 21758; 21757; 21756; 7275] 0%Z [(1%Z, 1731); (1%Z, 7211); (1%Z, 7276); ((-1)%Z, 7787); ((-2)%Z, 7275)] 17592186044416%Z 19342813113834066795298816%Z;
  Lin [1730; 7210; 7275] [21755; 7786; 21754; 21753; 21752; 7274] 0%Z [(1%Z, 1730); (1%Z, 7210); (1%Z, 7275); ((-1)%Z, 7786); ((-2)%Z, 7274)] 8796093022208%Z 38685626227668133590597632%Z;
  Lin [1729; 7209; 7274] [21751; 7785; 21750; 21749; 21748; 7273] 0%Z [(1%Z, 1729); (1%Z, 7209); (1%Z, 7274); ((-1)%Z, 7785); ((-2)%Z, 7273)] 4398046511104%Z 77371252455336267181195264%Z;
  Lin [1728; 7208; 7273] [21747; 7784; 21746; 21745; 21744; 7272] 0%Z [(1%Z, 1728); (1%Z, 7208); (1%Z, 7273); ((-1)%Z, 7784); ((-2)%Z, 7272)] 2199023255552%Z 154742504910672534362390528%Z;
  Lin [1727; 6703; 7272] [21743; 7783; 21742; 21741; 21740; 7271] 0%Z [(1%Z, 1727); (1%Z, 6703); (1%Z, 7272); ((-1)%Z, 7783); ((-2)%Z, 7271)] 1099511627776%Z 309485009821345068724781056%Z].
Definition mult2_64_facts_16 : list lin_fact := [
  Lin [1854; 7845] [28122; 7398] 0%Z [(1%Z, 1854); (1%Z, 7845); ((-1)%Z, 28122); ((-2)%Z, 7398)] 5070602400912917605986812821504%Z 67108864%Z;
  Lin [1853; 7844; 7398] [21739; 7908; 21738; 21737; 21736; 7397] 0%Z [(1%Z, 1853); (1%Z, 7844); (1%Z, 7398); ((-1)%Z, 7908); ((-2)%Z, 7397)] 2535301200456458802993406410752%Z 134217728%Z;
  Lin [1852; 7843; 7397] [21735; 7907; 21734; 21733; 21732; 7396] 0%Z [(1%Z, 1852); (1%Z, 7843); (1%Z, 7397); ((-1)%Z, 7907); ((-2)%Z, 7396)] 1267650600228229401496703205376%Z 268435456%Z;
  Lin [1851; 7842; 7396] [21731; 7906; 21730; 21729; 21728; 7395] 0%Z [(1%Z, 1851); (1%Z, 7842); (1%Z, 7396); ((-1)%Z, 7906); ((-2)%Z, 7395)] 633825300114114700748351602688%Z 536870912%Z;
  Lin [1850; 7841; 7395] [21727; 7905; 21726; 21725; 21724; 7394] 0%Z [(1%Z, 1850); (1%Z, 7841); (1%Z, 7395); ((-1)%Z, 7905); ((-2)%Z, 7394)] 316912650057057350374175801344%Z 1073741824%Z;
  Lin [1849; 7840; 7394] [21723; 7904; 21722; 21721; 21720; 7393] 0%Z [(1%Z, 1849); (1%Z, 7840); (1%Z, 7394); ((-1)%Z, 7904); ((-2)%Z, 7393)] 158456325028528675187087900672%Z 2147483648%Z;
  Lin [1848; 7839; 7393] [21719; 7903; 21718; 21717; 21716; 7392] 0%Z [(1%Z, 1848); (1%Z, 7839); (1%Z, 7393); ((-1)%Z, 7903); ((-2)%Z, 7392)] 79228162514264337593543950336%Z 4294967296%Z;
  Lin [1847; 7838; 7392] [21715; 7902; 21714; 21713; 21712; 7391] 0%Z [(1%Z, 1847); (1%Z, 7838); (1%Z, 7392); ((-1)%Z, 7902); ((-2)%Z, 7391)] 39614081257132168796771975168%Z 8589934592%Z;
  Lin [1846; 7837; 7391] [21711; 7901; 21710; 21709; 21708; 7390] 0%Z [(1%Z, 1846); (1%Z, 7837); (1%Z, 7391); ((-1)%Z, 7901); ((-2)%Z, 7390)] 19807040628566084398385987584%Z 17179869184%Z;
  Lin [1845; 7836; 7390] [21707; 7900; 21706; 21705; 21704; 7389] 0%Z [(1%Z, 1845); (1%Z, 7836); (1%Z, 7390); ((-1)%Z, 7900); ((-2)%Z, 7389)] 9903520314283042199192993792%Z 34359738368%Z;
  Lin [1844; 7835; 7389] [21703; 7899; 21702; 21701; 21700; 7388] 0%Z [(1%Z, 1844); (1%Z, 7835); (1%Z, 7389); ((-1)%Z, 7899); ((-2)%Z, 7388)] 4951760157141521099596496896%Z 68719476736%Z;
  Lin [1843; 7834; 7388] [21699; 7898; 21698; 21697; 21696; 7387] 0%Z [(1%Z, 1843); (1%Z, 7834); (1%Z, 7388); ((-1)%Z, 7898); ((-2)%Z, 7387)] 2475880078570760549798248448%Z 137438953472%Z;
  Lin [1842; 7833; 7387] [21695; 7897; 21694; 21693; 21692; 7386] 0%Z [(1%Z, 1842); (1%Z, 7833); (1%Z, 7387); ((-1)%Z, 7897); ((-2)%Z, 7386)] 1237940039285380274899124224%Z 274877906944%Z;
  Lin [1841; 7832; 7386] [21691; 7896; 21690; 21689; 21688; 7385] 0%Z [(1%Z, 1841); (1%Z, 7832); (1%Z, 7386); ((-1)%Z, 7896); ((-2)%Z, 7385)] 618970019642690137449562112%Z 549755813888%Z;
  Lin [1840; 7831; 7385] [21687; 7895; 21686; 21685; 21684; 7384] 0%Z [(1%Z, 1840); (1%Z, 7831); (1%Z, 7385); ((-1)%Z, 7895); ((-2)%Z, 7384)] 309485009821345068724781056%Z 1099511627776%Z;
  Lin [1839; 7830; 7384] [21683; 7894; 21682; 21681; 21680; 7383] 0%Z [(1%Z, 1839); (1%Z, 7830); (1%Z, 7384); ((-1)%Z, 7894); ((-2)%Z, 7383)] 154742504910672534362390528%Z 2199023255552%Z;
  Lin [1838; 7829; 7383] [21679; 7893; 21678; 21677; 21676; 7382] 0%Z [(1%Z, 1838); (1%Z, 7829); (1%Z, 7383); ((-1)%Z, 7893); ((-2)%Z, 7382)] 77371252455336267181195264%Z 4398046511104%Z;
  Lin [1837; 7828; 7382] [21675; 7892; 21674; 21673; 21672; 7381] 0%Z [(1%Z, 1837); (1%Z, 7828); (1%Z, 7382); ((-1)%Z, 7892); ((-2)%Z, 7381)] 38685626227668133590597632%Z 8796093022208%Z;
  Lin [1836; 7827; 7381] [21671; 7891; 21670; 21669; 21668; 7380] 0%Z [(1%Z, 1836); (1%Z, 7827); (1%Z, 7381); ((-1)%Z, 7891); ((-2)%Z, 7380)] 19342813113834066795298816%Z 17592186044416%Z;
  Lin [1835; 7826; 7380] [21667; 7890; 21666; 21665; 21664; 7379] 0%Z [(1%Z, 1835); (1%Z, 7826); (1%Z, 7380); ((-1)%Z, 7890); ((-2)%Z, 7379)] 9671406556917033397649408%Z 35184372088832%Z;
  Lin [1834; 7825; 7379] [21663; 7889; 21662; 21661; 21660; 7378] 0%Z [(1%Z, 1834); (1%Z, 7825); (1%Z, 7379); ((-1)%Z, 7889); ((-2)%Z, 7378)] 4835703278458516698824704%Z 70368744177664%Z;
  Lin [1833; 7824; 7378] [21659; 7888; 21658; 21657; 21656; 7377] 0%Z [(1%Z, 1833); (1%Z, 7824); (1%Z, 7378); ((-1)%Z, 7888); ((-2)%Z, 7377)] 2417851639229258349412352%Z 140737488355328%Z;
  Lin [1832; 7823; 7377] [21655; 7887; 21654; 21653; 21652; 7376] 0%Z [(1%Z, 1832); (1%Z, 7823); (1%Z, 7377); ((-1)%Z, 7887); ((-2)%Z, 7376)] 1208925819614629174706176%Z 281474976710656%Z;
  Lin [1831; 7822; 7376] [21651; 7886; 21650; 21649; 21648; 7375] 0%Z [(1%Z, 1831); (1%Z, 7822); (1%Z, 7376); ((-1)%Z, 7886); ((-2)%Z, 7375)] 604462909807314587353088%Z 562949953421312%Z;
  Lin [1830; 7821; 7375] [21647; 7885; 21646; 21645; 21644; 7374] 0%Z [(1%Z, 1830); (1%Z, 7821); (1%Z, 7375); ((-1)%Z, 7885); ((-2)%Z, 7374)] 302231454903657293676544%Z 1125899906842624%Z;
  Lin [1829; 7820; 7374] [21643; 7884; 21642; 21641; 21640; 7373] 0%Z [(1%Z, 1829); (1%Z, 7820); (1%Z, 7374); ((-1)%Z, 7884); ((-2)%Z, 7373)] 151115727451828646838272%Z 2251799813685248%Z;
  Lin [1828; 7819; 7373] [21639; 7883; 21638; 21637; 21636; 7372] 0%Z [(1%Z, 1828); (1%Z, 7819); (1%Z, 7373); ((-1)%Z, 7883); ((-2)%Z, 7372)] 75557863725914323419136%Z 4503599627370496%Z;
  Lin [1827; 7818; 7372] [21635; 7882; 21634; 21633; 21632; 7371] 0%Z [(1%Z, 1827); (1%Z, 7818); (1%Z, 7372); ((-1)%Z, 7882); ((-2)%Z, 7371)] 37778931862957161709568%Z 9007199254740992%Z;
  Lin [1826; 7817; 7371] [21631; 7881; 21630; 21629; 21628; 7370] 0%Z [(1%Z, 1826); (1%Z, 7817); (1%Z, 7371); ((-1)%Z, 7881); ((-2)%Z, 7370)] 18889465931478580854784%Z 18014398509481984%Z;
  Lin [1825; 7816; 7370] [21627; 7880; 21626; 21625; 21624; 7369] 0%Z [(1%Z, 1825); (1%Z, 7816); (1%Z, 7370); ((-1)%Z, 7880); ((-2)%Z, 7369)] 9444732965739290427392%Z 36028797018963968%Z;
  Lin [1824; 7815; 7369] [21623; 7879; 21622; 21621; 21620; 7368] 0%Z [(1%Z, 1824); (1%Z, 7815); (1%Z, 7369); ((-1)%Z, 7879); ((-2)%Z, 7368)] 4722366482869645213696%Z 72057594037927936%Z;
  Lin [1823; 7814; 7368] [21619; 7878; 21618; 21617; 21616; 7367] 0%Z [(1%Z, 1823); (1%Z, 7814); (1%Z, 7368); ((-1)%Z, 7878); ((-2)%Z, 7367)] 2361183241434822606848%Z 144115188075855872%Z;
  Lin [1822; 7813; 7367] [21615; 7877; 21614; 21613; 21612; 7366] 0%Z [(1%Z, 1822); (1%Z, 7813); (1%Z, 7367); ((-1)%Z, 7877); ((-2)%Z, 7366)] 1180591620717411303424%Z 288230376151711744%Z;
  Lin [1821; 7812; 7366] [21611; 7876; 21610; 21609; 21608; 7365] 0%Z [(1%Z, 1821); (1%Z, 7812); (1%Z, 7366); ((-1)%Z, 7876); ((-2)%Z, 7365)] 590295810358705651712%Z 576460752303423488%Z;
  Lin [1820; 7811; 7365] [21607; 7875; 21606; 21605; 21604; 7364] 0%Z [(1%Z, 1820); (1%Z, 7811); (1%Z, 7365); ((-1)%Z, 7875); ((-2)%Z, 7364)] 295147905179352825856%Z 1152921504606846976%Z;
  Lin [1819; 7810; 7364] [21603; 7874; 21602; 21601; 21600; 7363] 0%Z [(1%Z, 1819); (1%Z, 7810); (1%Z, 7364); ((-1)%Z, 7874); ((-2)%Z, 7363)] 147573952589676412928%Z 2305843009213693952%Z;
  Lin [1818; 7809; 7363] [21599; 7873; 21598; 21597; 21596; 7362] 0%Z [(1%Z, 1818); (1%Z, 7809); (1%Z, 7363); ((-1)%Z, 7873); ((-2)%Z, 7362)] 73786976294838206464%Z 4611686018427387904%Z;
  Lin [1817; 7808; 7362] [21595; 7872; 21594; 21593; 21592; 7361] 0%Z [(1%Z, 1817); (1%Z, 7808); (1%Z, 7362); ((-1)%Z, 7872); ((-2)%Z, 7361)] 36893488147419103232%Z 9223372036854775808%Z;
  Lin [1816; 7807; 7361] [21591; 7871; 21590; 21589; 21588; 7360] 0%Z [(1%Z, 1816); (1%Z, 7807); (1%Z, 7361); ((-1)%Z, 7871); ((-2)%Z, 7360)] 18446744073709551616%Z 18446744073709551616%Z;
  Lin [1815; 7806; 7360] [21587; 7870; 21586; 21585; 21584; 7359] 0%Z [(1%Z, 1815); (1%Z, 7806); (1%Z, 7360); ((-1)%Z, 7870); ((-2)%Z, 7359)] 9223372036854775808%Z 36893488147419103232%Z;
  Lin [1814; 7805; 7359] [21583; 7869; 21582; 21581; 21580; 7358] 0%Z [(1%Z, 1814); (1%Z, 7805); (1%Z, 7359); ((-1)%Z, 7869); ((-2)%Z, 7358)] 4611686018427387904%Z 73786976294838206464%Z;
  Lin [1813; 7804; 7358] [21579; 7868; 21578; 21577; 21576; 7357] 0%Z [(1%Z, 1813); (1%Z, 7804); (1%Z, 7358); ((-1)%Z, 7868); ((-2)%Z, 7357)] 2305843009213693952%Z 147573952589676412928%Z;
  Lin [1812; 7803; 7357] [21575; 7867; 21574; 21573; 21572; 7356] 0%Z [(1%Z, 1812); (1%Z, 7803); (1%Z, 7357); ((-1)%Z, 7867); ((-2)%Z, 7356)] 1152921504606846976%Z 295147905179352825856%Z;
  Lin [1811; 7802; 7356] [21571; 7866; 21570; 21569; 21568; 7355] 0%Z [(1%Z, 1811); (1%Z, 7802); (1%Z, 7356); ((-1)%Z, 7866); ((-2)%Z, 7355)] 576460752303423488%Z 590295810358705651712%Z;
  Lin [1810; 7801; 7355] [21567; 7865; 21566; 21565; 21564; 7354] 0%Z [(1%Z, 1810); (1%Z, 7801); (1%Z, 7355); ((-1)%Z, 7865); ((-2)%Z, 7354)] 288230376151711744%Z 1180591620717411303424%Z;
  Lin [1809; 7800; 7354] [21563; 7864; 21562; 21561; 21560; 7353] 0%Z [(1%Z, 1809); (1%Z, 7800); (1%Z, 7354); ((-1)%Z, 7864); ((-2)%Z, 7353)] 144115188075855872%Z 2361183241434822606848%Z;
  Lin [1808; 7799; 7353] [21559; 7863; 21558; 21557; 21556; 7352] 0%Z [(1%Z, 1808); (1%Z, 7799); (1%Z, 7353); ((-1)%Z, 7863); ((-2)%Z, 7352)] 72057594037927936%Z 4722366482869645213696%Z;
  Lin [1807; 7798; 7352] [21555; 7862; 21554; 21553; 21552; 7351] 0%Z [(1%Z, 1807); (1%Z, 7798); (1%Z, 7352); ((-1)%Z, 7862); ((-2)%Z, 7351)] 36028797018963968%Z 9444732965739290427392%Z;
  Lin [1806; 7797; 7351] [21551; 7861; 21550; 21549; 21548; 7350] 0%Z [(1%Z, 1806); (1%Z, 7797); (1%Z, 7351); ((-1)%Z, 7861); ((-2)%Z, 7350)] 18014398509481984%Z 18889465931478580854784%Z;
  Lin [1805; 7796; 7350] [21547; 7860; 21546; 21545; 21544; 7349] 0%Z [(1%Z, 1805); (1%Z, 7796); (1%Z, 7350); ((-1)%Z, 7860); ((-2)%Z, 7349)] 9007199254740992%Z 37778931862957161709568%Z;
  Lin [1804; 7795; 7349] [21543; 7859; 21542; 21541; 21540; 7348] 0%Z [(1%Z, 1804); (1%Z, 7795); (1%Z, 7349); ((-1)%Z, 7859); ((-2)%Z, 7348)] 4503599627370496%Z 75557863725914323419136%Z;
  Lin [1803; 7794; 7348] [21539; 7858; 21538; 21537; 21536; 7347] 0%Z [(1%Z, 1803); (1%Z, 7794); (1%Z, 7348); ((-1)%Z, 7858); ((-2)%Z, 7347)] 2251799813685248%Z 151115727451828646838272%Z;
  Lin [1802; 7793; 7347] [21535; 7857; 21534; 21533; 21532; 7346] 0%Z [(1%Z, 1802); (1%Z, 7793); (1%Z, 7347); ((-1)%Z, 7857); ((-2)%Z, 7346)] 1125899906842624%Z 302231454903657293676544%Z;
  Lin [1801; 7792; 7346] [21531; 7856; 21530; 21529; 21528; 7345] 0%Z [(1%Z, 1801); (1%Z, 7792); (1%Z, 7346); ((-1)%Z, 7856); ((-2)%Z, 7345)] 562949953421312%Z 604462909807314587353088%Z;
  Lin [1800; 7791; 7345] [21527; 7855; 21526; 21525; 21524; 7344] 0%Z [(1%Z, 1800); (1%Z, 7791); (1%Z, 7345); ((-1)%Z, 7855); ((-2)%Z, 7344)] 281474976710656%Z 1208925819614629174706176%Z;
  Lin [1799; 7790; 7344] [21523; 7854; 21522; 21521; 21520; 7343] 0%Z [(1%Z, 1799); (1%Z, 7790); (1%Z, 7344); ((-1)%Z, 7854); ((-2)%Z, 7343)] 140737488355328%Z 2417851639229258349412352%Z;
  Lin [1798; 7789; 7343] [21519; 7853; 21518; 21517; 21516; 7342] 0%Z [(1%Z, 1798); (1%Z, 7789); (1%Z, 7343); ((-1)%Z, 7853); ((-2)%Z, 7342)] 70368744177664%Z 4835703278458516698824704%Z;
  Lin [1797; 7788; 7342] [21515; 7852; 21514; 21513; 21512; 7341] 0%Z [(1%Z, 1797); (1%Z, 7788); (1%Z, 7342); ((-1)%Z, 7852); ((-2)%Z, 7341)] 35184372088832%Z 9671406556917033397649408%Z;
  Lin [1796; 7787; 7341] [21511; 7851; 21510; 21509; 21508; 7340] 0%Z [(1%Z, 1796); (1%Z, 7787); (1%Z, 7341); ((-1)%Z, 7851); ((-2)%Z, 7340)] 17592186044416%Z 19342813113834066795298816%Z;
  Lin [1795; 7786; 7340] [21507; 7850; 21506; 21505; 21504; 7339] 0%Z [(1%Z, 1795); (1%Z, 7786); (1%Z, 7340); ((-1)%Z, 7850); ((-2)%Z, 7339)] 8796093022208%Z 38685626227668133590597632%Z;
  Lin [1794; 7785; 7339] [21503; 7849; 21502; 21501; 21500; 7338] 0%Z [(1%Z, 1794); (1%Z, 7785); (1%Z, 7339); ((-1)%Z, 7849); ((-2)%Z, 7338)] 4398046511104%Z 77371252455336267181195264%Z;
  Lin [1793; 7784; 7338] [21499; 7848; 21498; 21497; 21496; 7337] 0%Z [(1%Z, 1793); (1%Z, 7784); (1%Z, 7338); ((-1)%Z, 7848); ((-2)%Z, 7337)] 2199023255552%Z 154742504910672534362390528%Z;
  Lin [1792; 7783; 7337] [21495; 7847; 21494; 21493; 21492; 7336] 0%Z [(1%Z, 1792); (1%Z, 7783); (1%Z, 7337); ((-1)%Z, 7847); ((-2)%Z, 7336)] 1099511627776%Z 309485009821345068724781056%Z;
  Lin [1791; 7271; 7336] [21491; 7846; 21490; 21489; 21488; 7335] 0%Z [(1%Z, 1791); (1%Z, 7271); (1%Z, 7336); ((-1)%Z, 7846); ((-2)%Z, 7335)] 549755813888%Z 618970019642690137449562112%Z;
  Lin [1918; 7908] [28123; 7462] 0%Z [(1%Z, 1918); (1%Z, 7908); ((-1)%Z, 28123); ((-2)%Z, 7462)] 2535301200456458802993406410752%Z 134217728%Z;
  Lin [1917; 7907; 7462] [21487; 7971; 21486; 21485; 21484; 7461] 0%Z [(1%Z, 1917); (1%Z, 7907); (1%Z, 7462); ((-1)%Z, 7971); ((-2)%Z, 7461)] 1267650600228229401496703205376%Z 268435456%Z;
  Lin [1916; 7906; 7461] [21483; 7970; 21482; 21481; 21480; 7460] 0%Z [(1%Z, 1916); (1%Z, 7906); (1%Z, 7461); ((-1)%Z, 7970); ((-2)%Z, 7460)] 633825300114114700748351602688%Z 536870912%Z;
  Lin [1915; 7905; 7460] [21479; 7969; 21478; 21477; 21476; 7459] 0%Z [(1%Z, 1915); (1%Z, 7905); (1%Z, 7460); ((-1)%Z, 7969); ((-2)%Z, 7459)] 316912650057057350374175801344%Z 1073741824%Z;
  Lin [1914; 7904; 7459] [21475; 7968; 21474; 21473; 21472; 7458] 0%Z [(1%Z, 1914); (1%Z, 7904); (1%Z, 7459); ((-1)%Z, 7968); ((-2)%Z, 7458)] 158456325028528675187087900672%Z 2147483648%Z;
  Lin [1913; 7903; 7458] [21471; 7967; 21470; 21469; 21468; 7457] 0%Z [(1%Z, 1913); (1%Z, 7903); (1%Z, 7458); ((-1)%Z, 7967); ((-2)%Z, 7457)] 79228162514264337593543950336%Z 4294967296%Z;
  Lin [1912; 7902; 7457] [21467; 7966; 21466; 21465; 21464; 7456] 0%Z [(1%Z, 1912); (1%Z, 7902); (1%Z, 7457); ((-1)%Z, 7966); ((-2)%Z, 7456)] 39614081257132168796771975168%Z 8589934592%Z;
  Lin [1911; 7901; 7456] [21463; 7965; 21462; 21461; 21460; 7455] 0%Z [(1%Z, 1911); (1%Z, 7901); (1%Z, 7456); ((-1)%Z, 7965); ((-2)%Z, 7455)] 19807040628566084398385987584%Z 17179869184%Z;
  Lin [1910; 7900; 7455] [21459; 7964; 21458; 21457; 21456; 7454] 0%Z [(1%Z, 1910); (1%Z, 7900); (1%Z, 7455); ((-1)%Z, 7964); ((-2)%Z, 7454)] 9903520314283042199192993792%Z 34359738368%Z;
  Lin [1909; 7899; 7454] [21455; 7963; 21454; 21453; 21452; 7453] 0%Z [(1%Z, 1909); (1%Z, 7899); (1%Z, 7454); ((-1)%Z, 7963); ((-2)%Z, 7453)] 4951760157141521099596496896%Z 68719476736%Z;
  Lin [1908; 7898; 7453] [21451; 7962; 21450; 21449; 21448; 7452] 0%Z [(1%Z, 1908); (1%Z, 7898); (1%Z, 7453); ((-1)%Z, 7962); ((-2)%Z, 7452)] 2475880078570760549798248448%Z 137438953472%Z;
  Lin [1907; 7897; 7452] [21447; 7961; 21446; 21445; 21444; 7451] 0%Z [(1%Z, 1907); (1%Z, 7897); (1%Z, 7452); ((-1)%Z, 7961); ((-2)%Z, 7451)] 1237940039285380274899124224%Z 274877906944%Z;
  Lin [1906; 7896; 7451] [21443; 7960; 21442; 21441; 21440; 7450] 0%Z [(1%Z, 1906); (1%Z, 7896); (1%Z, 7451); ((-1)%Z, 7960); ((-2)%Z, 7450)] 618970019642690137449562112%Z 549755813888%Z;
  Lin [1905; 7895; 7450] [21439; 7959; 21438; 21437; 21436; 7449] 0%Z [(1%Z, 1905); (1%Z, 7895); (1%Z, 7450); ((-1)%Z, 7959); ((-2)%Z, 7449)] 309485009821345068724781056%Z 1099511627776%Z;
  Lin [1904; 7894; 7449] [21435; 7958; 21434; 21433; 21432; 7448] 0%Z [(1%Z, 1904); (1%Z, 7894); (1%Z, 7449); ((-1)%Z, 7958); ((-2)%Z, 7448)] 154742504910672534362390528%Z 2199023255552%Z;
  Lin [1903; 7893; 7448] [21431; 7957; 21430; 21429; 21428; 7447] 0%Z [(1%Z, 1903); (1%Z, 7893); (1%Z, 7448); ((-1)%Z, 7957); ((-2)%Z, 7447)] 77371252455336267181195264%Z 4398046511104%Z;
  Lin [1902; 7892; 7447] [21427; 7956; 21426; 21425; 21424; 7446] 0%Z [(1%Z, 1902); (1%Z, 7892); (1%Z, 7447); ((-1)%Z, 7956); ((-2)%Z, 7446)] 38685626227668133590597632%Z 8796093022208%Z;
  Lin [1901; 7891; 7446] [21423; 7955; 21422; 21421; 21420; 7445] 0%Z [(1%Z, 1901); (1%Z, 7891); (1%Z, 7446); ((-1)%Z, 7955); ((-2)%Z, 7445)] 19342813113834066795298816%Z 17592186044416%Z;
  Lin [1900; 7890; 7445] [21419; 7954; 21418; 21417; 21416; 7444] 0%Z [(1%Z, 1900); (1%Z, 7890); (1%Z, 7445); ((-1)%Z, 7954); ((-2)%Z, 7444)] 9671406556917033397649408%Z 35184372088832%Z;
  Lin [1899; 7889; 7444] [21415; 7953; 21414; 21413; 21412; 7443] 0%Z [(1%Z, 1899); (1%Z, 7889); (1%Z, 7444); ((-1)%Z, 7953); ((-2)%Z, 7443)] 4835703278458516698824704%Z 70368744177664%Z;
  Lin [1898; 7888; 7443] [21411; 7952; 21410; 21409; 21408; 7442] 0%Z [(1%Z, 1898); (1%Z, 7888); (1%Z, 7443); ((-1)%Z, 7952); ((-2)%Z, 7442)] 2417851639229258349412352%Z 140737488355328%Z;
  Lin [1897; 7887; 7442] [21407; 7951; 21406; 21405; 21404; 7441] 0%Z [(1%Z, 1897); (1%Z, 7887); (1%Z, 7442); ((-1)%Z, 7951); ((-2)%Z, 7441)] 1208925819614629174706176%Z 281474976710656%Z;
  Lin [1896; 7886; 7441] [21403; 7950; 21402; 21401; 21400; 7440] 0%Z [(1%Z, 1896); (1%Z, 7886); (1%Z, 7441); ((-1)%Z, 7950); ((-2)%Z, 7440)] 604462909807314587353088%Z 562949953421312%Z;
  Lin [1895; 7885; 7440] [21399; 7949; 21398; 21397; 21396; 7439] 0%Z [(1%Z, 1895); (1%Z, 7885); (1%Z, 7440); ((-1)%Z, 7949); ((-2)%Z, 7439)] 302231454903657293676544%Z 1125899906842624%Z;
  Lin [1894; 7884; 7439] [21395; 7948; 21394; 21393; 21392; 7438] 0%Z [(1%Z, 1894); (1%Z, 7884); (1%Z, 7439); ((-1)%Z, 7948); ((-2)%Z, 7438)] 151115727451828646838272%Z 2251799813685248%Z;
  Lin [1893; 7883; 7438] [21391; 7947; 21390; 21389; 21388; 7437] 0%Z [(1%Z, 1893); (1%Z, 7883); (1%Z, 7438); ((-1)%Z, 7947); ((-2)%Z, 7437)] 75557863725914323419136%Z 4503599627370496%Z;
  Lin [1892; 7882; 7437] [21387; 7946; 21386; 21385; 21384; 7436] 0%Z [(1%Z, 1892); (1%Z, 7882); (1%Z, 7437); ((-1)%Z, 7946); ((-2)%Z, 7436)] 37778931862957161709568%Z 9007199254740992%Z;
  Lin [1891; 7881; 7436] [21383; 7945; 21382; 21381; 21380; 7435] 0%Z [(1%Z, 1891); (1%Z, 7881); (1%Z, 7436); ((-1)%Z, 7945); ((-2)%Z, 7435)] 18889465931478580854784%Z 18014398509481984%Z;
  Lin [1890; 7880; 7435] [21379; 7944; 21378; 21377; 21376; 7434] 0%Z [(1%Z, 1890); (1%Z, 7880); (1%Z, 7435); ((-1)%Z, 7944); ((-2)%Z, 7434)] 9444732965739290427392%Z 36028797018963968%Z;
  Lin [1889; 7879; 7434] [21375; 7943; 21374; 21373; 21372; 7433] 0%Z [(1%Z, 1889); (1%Z, 7879); (1%Z, 7434); ((-1)%Z, 7943); ((-2)%Z, 7433)] 4722366482869645213696%Z 72057594037927936%Z;
  Lin [1888; 7878; 7433] [21371; 7942; 21370; 21369; 21368; 7432] 0%Z [(1%Z, 1888); (1%Z, 7878); (1%Z, 7433); ((-1)%Z, 7942); ((-2)%Z, 7432)] 2361183241434822606848%Z 144115188075855872%Z;
  Lin [1887; 7877; 7432] [21367; 7941; 21366; 21365; 21364; 7431] 0%Z [(1%Z, 1887); (1%Z, 7877); (1%Z, 7432); ((-1)%Z, 7941); ((-2)%Z, 7431)] 1180591620717411303424%Z 288230376151711744%Z;
  Lin [1886; 7876; 7431] [21363; 7940; 21362; 21361; 21360; 7430] 0%Z [(1%Z, 1886); (1%Z, 7876); (1%Z, 7431); ((-1)%Z, 7940); ((-2)%Z, 7430)] 590295810358705651712%Z 576460752303423488%Z;
  Lin [1885; 7875; 7430] [21359; 7939; 21358; 21357; 21356; 7429] 0%Z [(1%Z, 1885); (1%Z, 7875); (1%Z, 7430); ((-1)%Z, 7939); ((-2)%Z, 7429)] 295147905179352825856%Z 1152921504606846976%Z;
  Lin [1884; 7874; 7429] [21355; 7938; 21354; 21353; 21352; 7428] 0%Z [(1%Z, 1884); (1%Z, 7874); (1%Z, 7429); ((-1)%Z, 7938); ((-2)%Z, 7428)] 147573952589676412928%Z 2305843009213693952%Z;
  Lin [1883; 7873; 7428] [21351; 7937; 21350; 21349; 21348; 7427] 0%Z [(1%Z, 1883); (1%Z, 7873); (1%Z, 7428); ((-1)%Z, 7937); ((-2)%Z, 7427)] 73786976294838206464%Z 4611686018427387904%Z].
Definition mult2_64_facts_17 : list lin_fact := [
  Lin [1882; 7872; 7427] [21347; 7936; 21346; 21345; 21344; 7426] 0%Z [(1%Z, 1882); (1%Z, 7872); (1%Z, 7427); ((-1)%Z, 7936); ((-2)%Z, 7426)] 36893488147419103232%Z 9223372036854775808%Z;
  Lin [1881; 7871; 7426] [21343; 7935; 21342; 21341; 21340; 7425] 0%Z [(1%Z, 1881); (1%Z, 7871); (1%Z, 7426); ((-1)%Z, 7935); ((-2)%Z, 7425)] 18446744073709551616%Z 18446744073709551616%Z;
  Lin [1880; 7870; 7425] [21339; 7934; 21338; 21337; 21336; 7424] 0%Z [(1%Z, 1880); (1%Z, 7870); (1%Z, 7425); ((-1)%Z, 7934); ((-2)%Z, 7424)] 9223372036854775808%Z 36893488147419103232%Z;
  Lin [1879; 7869; 7424] [21335; 7933; 21334; 21333; 21332; 7423] 0%Z [(1%Z, 1879); (1%Z, 7869); (1%Z, 7424); ((-1)%Z, 7933); ((-2)%Z, 7423)] 4611686018427387904%Z 73786976294838206464%Z;
  Lin [1878; 7868; 7423] [21331; 7932; 21330; 21329; 21328; 7422] 0%Z [(1%Z, 1878); (1%Z, 7868); (1%Z, 7423); ((-1)%Z, 7932); ((-2)%Z, 7422)] 2305843009213693952%Z 147573952589676412928%Z;
  Lin [1877; 7867; 7422] [21327; 7931; 21326; 21325; 21324; 7421] 0%Z [(1%Z, 1877); (1%Z, 7867); (1%Z, 7422); ((-1)%Z, 7931); ((-2)%Z, 7421)] 1152921504606846976%Z 295147905179352825856%Z;
  Lin [1876; 7866; 7421] [21323; 7930; 21322; 21321; 21320; 7420] 0%Z [(1%Z, 1876); (1%Z, 7866); (1%Z, 7421); ((-1)%Z, 7930); ((-2)%Z, 7420)] 576460752303423488%Z 590295810358705651712%Z;
  Lin [1875; 7865; 7420] [21319; 7929; 21318; 21317; 21316; 7419] 0%Z [(1%Z, 1875); (1%Z, 7865); (1%Z, 7420); ((-1)%Z, 7929); ((-2)%Z, 7419)] 288230376151711744%Z 1180591620717411303424%Z;
  Lin [1874; 7864; 7419] [21315; 7928; 21314; 21313; 21312; 7418] 0%Z [(1%Z, 1874); (1%Z, 7864); (1%Z, 7419); ((-1)%Z, 7928); ((-2)%Z, 7418)] 144115188075855872%Z 2361183241434822606848%Z;
  Lin [1873; 7863; 7418] [21311; 7927; 21310; 21309; 21308; 7417] 0%Z [(1%Z, 1873); (1%Z, 7863); (1%Z, 7418); ((-1)%Z, 7927); ((-2)%Z, 7417)] 72057594037927936%Z 4722366482869645213696%Z;
  Lin [1872; 7862; 7417] [21307; 7926; 21306; 21305; 21304; 7416] 0%Z [(1%Z, 1872); (1%Z, 7862); (1%Z, 7417); ((-1)%Z, 7926); ((-2)%Z, 7416)] 36028797018963968%Z 9444732965739290427392%Z;
  Lin [1871; 7861; 7416] [21303; 7925; 21302; 21301; 21300; 7415] 0%Z [(1%Z, 1871); (1%Z, 7861); (1%Z, 7416); ((-1)%Z, 7925); ((-2)%Z, 7415)] 18014398509481984%Z 18889465931478580854784%Z;
  Lin [1870; 7860; 7415] [21299; 7924; 21298; 21297; 21296; 7414] 0%Z [(1%Z, 1870); (1%Z, 7860); (1%Z, 7415); ((-1)%Z, 7924); ((-2)%Z, 7414)] 9007199254740992%Z 37778931862957161709568%Z;
  Lin [1869; 7859; 7414] [21295; 7923; 21294; 21293; 21292; 7413] 0%Z [(1%Z, 1869); (1%Z, 7859); (1%Z, 7414); ((-1)%Z, 7923); ((-2)%Z, 7413)] 4503599627370496%Z 75557863725914323419136%Z;
  Lin [1868; 7858; 7413] [21291; 7922; 21290; 21289; 21288; 7412] 0%Z [(1%Z, 1868); (1%Z, 7858); (1%Z, 7413); ((-1)%Z, 7922); ((-2)%Z, 7412)] 2251799813685248%Z 151115727451828646838272%Z;
  Lin [1867; 7857; 7412] [21287; 7921; 21286; 21285; 21284; 7411] 0%Z [(1%Z, 1867); (1%Z, 7857); (1%Z, 7412); ((-1)%Z, 7921); ((-2)%Z, 7411)] 1125899906842624%Z 302231454903657293676544%Z;
  Lin [1866; 7856; 7411] [21283; 7920; 21282; 21281; 21280; 7410] 0%Z [(1%Z, 1866); (1%Z, 7856); (1%Z, 7411); ((-1)%Z, 7920); ((-2)%Z, 7410)] 562949953421312%Z 604462909807314587353088%Z;
  Lin [1865; 7855; 7410] [21279; 7919; 21278; 21277; 21276; 7409] 0%Z [(1%Z, 1865); (1%Z, 7855); (1%Z, 7410); ((-1)%Z, 7919); ((-2)%Z, 7409)] 281474976710656%Z 1208925819614629174706176%Z;
  Lin [1864; 7854; 7409] [21275; 7918; 21274; 21273; 21272; 7408] 0%Z [(1%Z, 1864); (1%Z, 7854); (1%Z, 7409); ((-1)%Z, 7918); ((-2)%Z, 7408)] 140737488355328%Z 2417851639229258349412352%Z;
  Lin [1863; 7853; 7408] [21271; 7917; 21270; 21269; 21268; 7407] 0%Z [(1%Z, 1863); (1%Z, 7853); (1%Z, 7408); ((-1)%Z, 7917); ((-2)%Z, 7407)] 70368744177664%Z 4835703278458516698824704%Z;
  Lin [1862; 7852; 7407] [21267; 7916; 21266; 21265; 21264; 7406] 0%Z [(1%Z, 1862); (1%Z, 7852); (1%Z, 7407); ((-1)%Z, 7916); ((-2)%Z, 7406)] 35184372088832%Z 9671406556917033397649408%Z;
  Lin [1861; 7851; 7406] [21263; 7915; 21262; 21261; 21260; 7405] 0%Z [(1%Z, 1861); (1%Z, 7851); (1%Z, 7406); ((-1)%Z, 7915); ((-2)%Z, 7405)] 17592186044416%Z 19342813113834066795298816%Z;
  Lin [1860; 7850; 7405] [21259; 7914; 21258; 21257; 21256; 7404] 0%Z [(1%Z, 1860); (1%Z, 7850); (1%Z, 7405); ((-1)%Z, 7914); ((-2)%Z, 7404)] 8796093022208%Z 38685626227668133590597632%Z;
  Lin [1859; 7849; 7404] [21255; 7913; 21254; 21253; 21252; 7403] 0%Z [(1%Z, 1859); (1%Z, 7849); (1%Z, 7404); ((-1)%Z, 7913); ((-2)%Z, 7403)] 4398046511104%Z 77371252455336267181195264%Z;
  Lin [1858; 7848; 7403] [21251; 7912; 21250; 21249; 21248; 7402] 0%Z [(1%Z, 1858); (1%Z, 7848); (1%Z, 7403); ((-1)%Z, 7912); ((-2)%Z, 7402)] 2199023255552%Z 154742504910672534362390528%Z;
  Lin [1857; 7847; 7402] [21247; 7911; 21246; 21245; 21244; 7401] 0%Z [(1%Z, 1857); (1%Z, 7847); (1%Z, 7402); ((-1)%Z, 7911); ((-2)%Z, 7401)] 1099511627776%Z 309485009821345068724781056%Z;
  Lin [1856; 7846; 7401] [21243; 7910; 21242; 21241; 21240; 7400] 0%Z [(1%Z, 1856); (1%Z, 7846); (1%Z, 7401); ((-1)%Z, 7910); ((-2)%Z, 7400)] 549755813888%Z 618970019642690137449562112%Z;
  Lin [1855; 7335; 7400] [21239; 7909; 21238; 21237; 21236; 7399] 0%Z [(1%Z, 1855); (1%Z, 7335); (1%Z, 7400); ((-1)%Z, 7909); ((-2)%Z, 7399)] 274877906944%Z 1237940039285380274899124224%Z;
  Lin [1982; 7971] [28124; 7526] 0%Z [(1%Z, 1982); (1%Z, 7971); ((-1)%Z, 28124); ((-2)%Z, 7526)] 1267650600228229401496703205376%Z 268435456%Z;
  Lin [1981; 7970; 7526] [21235; 8034; 21234; 21233; 21232; 7525] 0%Z [(1%Z, 1981); (1%Z, 7970); (1%Z, 7526); ((-1)%Z, 8034); ((-2)%Z, 7525)] 633825300114114700748351602688%Z 536870912%Z;
  Lin [1980; 7969; 7525] [21231; 8033; 21230; 21229; 21228; 7524] 0%Z [(1%Z, 1980); (1%Z, 7969); (1%Z, 7525); ((-1)%Z, 8033); ((-2)%Z, 7524)] 316912650057057350374175801344%Z 1073741824%Z;
  Lin [1979; 7968; 7524] [21227; 8032; 21226; 21225; 21224; 7523] 0%Z [(1%Z, 1979); (1%Z, 7968); (1%Z, 7524); ((-1)%Z, 8032); ((-2)%Z, 7523)] 158456325028528675187087900672%Z 2147483648%Z;
  Lin [1978; 7967; 7523] [21223; 8031; 21222; 21221; 21220; 7522] 0%Z [(1%Z, 1978); (1%Z, 7967); (1%Z, 7523); ((-1)%Z, 8031); ((-2)%Z, 7522)] 79228162514264337593543950336%Z 4294967296%Z;
  Lin [1977; 7966; 7522] [21219; 8030; 21218; 21217; 21216; 7521] 0%Z [(1%Z, 1977); (1%Z, 7966); (1%Z, 7522); ((-1)%Z, 8030); ((-2)%Z, 7521)] 39614081257132168796771975168%Z 8589934592%Z;
  Lin [1976; 7965; 7521] [21215; 8029; 21214; 21213; 21212; 7520] 0%Z [(1%Z, 1976); (1%Z, 7965); (1%Z, 7521); ((-1)%Z, 8029); ((-2)%Z, 7520)] 19807040628566084398385987584%Z 17179869184%Z;
  Lin [1975; 7964; 7520] [21211; 8028; 21210; 21209; 21208; 7519] 0%Z [(1%Z, 1975); (1%Z, 7964); (1%Z, 7520); ((-1)%Z, 8028); ((-2)%Z, 7519)] 9903520314283042199192993792%Z 34359738368%Z;
  Lin [1974; 7963; 7519] [21207; 8027; 21206; 21205; 21204; 7518] 0%Z [(1%Z, 1974); (1%Z, 7963); (1%Z, 7519); ((-1)%Z, 8027); ((-2)%Z, 7518)] 4951760157141521099596496896%Z 68719476736%Z;
  Lin [1973; 7962; 7518] [21203; 8026; 21202; 21201; 21200; 7517] 0%Z [(1%Z, 1973); (1%Z, 7962); (1%Z, 7518); ((-1)%Z, 8026); ((-2)%Z, 7517)] 2475880078570760549798248448%Z 137438953472%Z;
  Lin [1972; 7961; 7517] [21199; 8025; 21198; 21197; 21196; 7516] 0%Z [(1%Z, 1972); (1%Z, 7961); (1%Z, 7517); ((-1)%Z, 8025); ((-2)%Z, 7516)] 1237940039285380274899124224%Z 274877906944%Z;
  Lin [1971; 7960; 7516] [21195; 8024; 21194; 21193; 21192; 7515] 0%Z [(1%Z, 1971); (1%Z, 7960); (1%Z, 7516); ((-1)%Z, 8024); ((-2)%Z, 7515)] 618970019642690137449562112%Z 549755813888%Z;
  Lin [1970; 7959; 7515] [21191; 8023; 21190; 21189; 21188; 7514] 0%Z [(1%Z, 1970); (1%Z, 7959); (1%Z, 7515); ((-1)%Z, 8023); ((-2)%Z, 7514)] 309485009821345068724781056%Z 1099511627776%Z;
  Lin [1969; 7958; 7514] [21187; 8022; 21186; 21185; 21184; 7513] 0%Z [(1%Z, 1969); (1%Z, 7958); (1%Z, 7514); ((-1)%Z, 8022); ((-2)%Z, 7513)] 154742504910672534362390528%Z 2199023255552%Z;
  Lin [1968; 7957; 7513] [21183; 8021; 21182; 21181; 21180; 7512] 0%Z [(1%Z, 1968); (1%Z, 7957); (1%Z, 7513); ((-1)%Z, 8021); ((-2)%Z, 7512)] 77371252455336267181195264%Z 4398046511104%Z;
  Lin [1967; 7956; 7512] [21179; 8020; 21178; 21177; 21176; 7511] 0%Z [(1%Z, 1967); (1%Z, 7956); (1%Z, 7512); ((-1)%Z, 8020); ((-2)%Z, 7511)] 38685626227668133590597632%Z 8796093022208%Z;
  Lin [1966; 7955; 7511] [21175; 8019; 21174; 21173; 21172; 7510] 0%Z [(1%Z, 1966); (1%Z, 7955); (1%Z, 7511); ((-1)%Z, 8019); ((-2)%Z, 7510)] 19342813113834066795298816%Z 17592186044416%Z;
  Lin [1965; 7954; 7510] [21171; 8018; 21170; 21169; 21168; 7509] 0%Z [(1%Z, 1965); (1%Z, 7954); (1%Z, 7510); ((-1)%Z, 8018); ((-2)%Z, 7509)] 9671406556917033397649408%Z 35184372088832%Z;
  Lin [1964; 7953; 7509] [21167; 8017; 21166; 21165; 21164; 7508] 0%Z [(1%Z, 1964); (1%Z, 7953); (1%Z, 7509); ((-1)%Z, 8017); ((-2)%Z, 7508)] 4835703278458516698824704%Z 70368744177664%Z;
  Lin [1963; 7952; 7508] [21163; 8016; 21162; 21161; 21160; 7507] 0%Z [(1%Z, 1963); (1%Z, 7952); (1%Z, 7508); ((-1)%Z, 8016); ((-2)%Z, 7507)] 2417851639229258349412352%Z 140737488355328%Z;
  Lin [1962; 7951; 7507] [21159; 8015; 21158; 21157; 21156; 7506] 0%Z [(1%Z, 1962); (1%Z, 7951); (1%Z, 7507); ((-1)%Z, 8015); ((-2)%Z, 7506)] 1208925819614629174706176%Z 281474976710656%Z;
  Lin [1961; 7950; 7506] [21155; 8014; 21154; 21153; 21152; 7505] 0%Z [(1%Z, 1961); (1%Z, 7950); (1%Z, 7506); ((-1)%Z, 8014); ((-2)%Z, 7505)] 604462909807314587353088%Z 562949953421312%Z;
  Lin [1960; 7949; 7505] [21151; 8013; 21150; 21149; 21148; 7504] 0%Z [(1%Z, 1960); (1%Z, 7949); (1%Z, 7505); ((-1)%Z, 8013); ((-2)%Z, 7504)] 302231454903657293676544%Z 1125899906842624%Z;
  Lin [1959; 7948; 7504] [21147; 8012; 21146; 21145; 21144; 7503] 0%Z [(1%Z, 1959); (1%Z, 7948); (1%Z, 7504); ((-1)%Z, 8012); ((-2)%Z, 7503)] 151115727451828646838272%Z 2251799813685248%Z;
  Lin [1958; 7947; 7503] [21143; 8011; 21142; 21141; 21140; 7502] 0%Z [(1%Z, 1958); (1%Z, 7947); (1%Z, 7503); ((-1)%Z, 8011); ((-2)%Z, 7502)] 75557863725914323419136%Z 4503599627370496%Z;
  Lin [1957; 7946; 7502] [21139; 8010; 21138; 21137; 21136; 7501] 0%Z [(1%Z, 1957); (1%Z, 7946); (1%Z, 7502); ((-1)%Z, 8010); ((-2)%Z, 7501)] 37778931862957161709568%Z 9007199254740992%Z;
  Lin [1956; 7945; 7501] [21135; 8009; 21134; 21133; 21132; 7500] 0%Z [(1%Z, 1956); (1%Z, 7945); (1%Z, 7501); ((-1)%Z, 8009); ((-2)%Z, 7500)] 18889465931478580854784%Z 18014398509481984%Z;
  Lin [1955; 7944; 7500] [21131; 8008; 21130; 21129; 21128; 7499] 0%Z [(1%Z, 1955); (1%Z, 7944); (1%Z, 7500); ((-1)%Z, 8008); ((-2)%Z, 7499)] 9444732965739290427392%Z 36028797018963968%Z;
  Lin [1954; 7943; 7499] [21127; 8007; 21126; 21125; 21124; 7498] 0%Z [(1%Z, 1954); (1%Z, 7943); (1%Z, 7499); ((-1)%Z, 8007); ((-2)%Z, 7498)] 4722366482869645213696%Z 72057594037927936%Z;
  Lin [1953; 7942; 7498] [21123; 8006; 21122; 21121; 21120; 7497] 0%Z [(1%Z, 1953); (1%Z, 7942); (1%Z, 7498); ((-1)%Z, 8006); ((-2)%Z, 7497)] 2361183241434822606848%Z 144115188075855872%Z;
  Lin [1952; 7941; 7497] [21119; 8005; 21118; 21117; 21116; 7496] 0%Z [(1%Z, 1952); (1%Z, 7941); (1%Z, 7497); ((-1)%Z, 8005); ((-2)%Z, 7496)] 1180591620717411303424%Z 288230376151711744%Z;
  Lin [1951; 7940; 7496] [21115; 8004; 21114; 21113; 21112; 7495] 0%Z [(1%Z, 1951); (1%Z, 7940); (1%Z, 7496); ((-1)%Z, 8004); ((-2)%Z, 7495)] 590295810358705651712%Z 576460752303423488%Z;
  Lin [1950; 7939; 7495] [21111; 8003; 21110; 21109; 21108; 7494] 0%Z [(1%Z, 1950); (1%Z, 7939); (1%Z, 7495); ((-1)%Z, 8003); ((-2)%Z, 7494)] 295147905179352825856%Z 1152921504606846976%Z;
  Lin [1949; 7938; 7494] [21107; 8002; 21106; 21105; 21104; 7493] 0%Z [(1%Z, 1949); (1%Z, 7938); (1%Z, 7494); ((-1)%Z, 8002); ((-2)%Z, 7493)] 147573952589676412928%Z 2305843009213693952%Z;
  Lin [1948; 7937; 7493] [21103; 8001; 21102; 21101; 21100; 7492] 0%Z [(1%Z, 1948); (1%Z, 7937); (1%Z, 7493); ((-1)%Z, 8001); ((-2)%Z, 7492)] 73786976294838206464%Z 4611686018427387904%Z;
  Lin [1947; 7936; 7492] [21099; 8000; 21098; 21097; 21096; 7491] 0%Z [(1%Z, 1947); (1%Z, 7936); (1%Z, 7492); ((-1)%Z, 8000); ((-2)%Z, 7491)] 36893488147419103232%Z 9223372036854775808%Z;
  Lin [1946; 7935; 7491] [21095; 7999; 21094; 21093; 21092; 7490] 0%Z [(1%Z, 1946); (1%Z, 7935); (1%Z, 7491); ((-1)%Z, 7999); ((-2)%Z, 7490)] 18446744073709551616%Z 18446744073709551616%Z;
  Lin [1945; 7934; 7490] [21091; 7998; 21090; 21089; 21088; 7489] 0%Z [(1%Z, 1945); (1%Z, 7934); (1%Z, 7490); ((-1)%Z, 7998); ((-2)%Z, 7489)] 9223372036854775808%Z 36893488147419103232%Z;
  Lin [1944; 7933; 7489] [21087; 7997; 21086; 21085; 21084; 7488] 0%Z [(1%Z, 1944); (1%Z, 7933); (1%Z, 7489); ((-1)%Z, 7997); ((-2)%Z, 7488)] 4611686018427387904%Z 73786976294838206464%Z;
  Lin [1943; 7932; 7488] [21083; 7996; 21082; 21081; 21080; 7487] 0%Z [(1%Z, 1943); (1%Z, 7932); (1%Z, 7488); ((-1)%Z, 7996); ((-2)%Z, 7487)] 2305843009213693952%Z 147573952589676412928%Z;
  Lin [1942; 7931; 7487] [21079; 7995; 21078; 21077; 21076; 7486] 0%Z [(1%Z, 1942); (1%Z, 7931); (1%Z, 7487); ((-1)%Z, 7995); ((-2)%Z, 7486)] 1152921504606846976%Z 295147905179352825856%Z;
  Lin [1941; 7930; 7486] [21075; 7994; 21074; 21073; 21072; 7485] 0%Z [(1%Z, 1941); (1%Z, 7930); (1%Z, 7486); ((-1)%Z, 7994); ((-2)%Z, 7485)] 576460752303423488%Z 590295810358705651712%Z;
  Lin [1940; 7929; 7485] [21071; 7993; 21070; 21069; 21068; 7484] 0%Z [(1%Z, 1940); (1%Z, 7929); (1%Z, 7485); ((-1)%Z, 7993); ((-2)%Z, 7484)] 288230376151711744%Z 1180591620717411303424%Z;
  Lin [1939; 7928; 7484] [21067; 7992; 21066; 21065; 21064; 7483] 0%Z [(1%Z, 1939); (1%Z, 7928); (1%Z, 7484); ((-1)%Z, 7992); ((-2)%Z, 7483)] 144115188075855872%Z 2361183241434822606848%Z;
  Lin [1938; 7927; 7483] [21063; 7991; 21062; 21061; 21060; 7482] 0%Z [(1%Z, 1938); (1%Z, 7927); (1%Z, 7483); ((-1)%Z, 7991); ((-2)%Z, 7482)] 72057594037927936%Z 4722366482869645213696%Z;
  Lin [1937; 7926; 7482] [21059; 7990; 21058; 21057; 21056; 7481] 0%Z [(1%Z, 1937); (1%Z, 7926); (1%Z, 7482); ((-1)%Z, 7990); ((-2)%Z, 7481)] 36028797018963968%Z 9444732965739290427392%Z;
  Lin [1936; 7925; 7481] [21055; 7989; 21054; 21053; 21052; 7480] 0%Z [(1%Z, 1936); (1%Z, 7925); (1%Z, 7481); ((-1)%Z, 7989); ((-2)%Z, 7480)] 18014398509481984%Z 18889465931478580854784%Z;
  Lin [1935; 7924; 7480] [21051; 7988; 21050; 21049; 21048; 7479] 0%Z [(1%Z, 1935); (1%Z, 7924); (1%Z, 7480); ((-1)%Z, 7988); ((-2)%Z, 7479)] 9007199254740992%Z 37778931862957161709568%Z;
  Lin [1934; 7923; 7479] [21047; 7987; 21046; 21045; 21044; 7478] 0%Z [(1%Z, 1934); (1%Z, 7923); (1%Z, 7479); ((-1)%Z, 7987); ((-2)%Z, 7478)] 4503599627370496%Z 75557863725914323419136%Z;
  Lin [1933; 7922; 7478] [21043; 7986; 21042; 21041; 21040; 7477] 0%Z [(1%Z, 1933); (1%Z, 7922); (1%Z, 7478); ((-1)%Z, 7986); ((-2)%Z, 7477)] 2251799813685248%Z 151115727451828646838272%Z;
  Lin [1932; 7921; 7477] [21039; 7985; 21038; 21037; 21036; 7476] 0%Z [(1%Z, 1932); (1%Z, 7921); (1%Z, 7477); ((-1)%Z, 7985); ((-2)%Z, 7476)] 1125899906842624%Z 302231454903657293676544%Z;
  Lin [1931; 7920; 7476] [21035; 7984; 21034; 21033; 21032; 7475] 0%Z [(1%Z, 1931); (1%Z, 7920); (1%Z, 7476); ((-1)%Z, 7984); ((-2)%Z, 7475)] 562949953421312%Z 604462909807314587353088%Z;
  Lin [1930; 7919; 7475] [21031; 7983; 21030; 21029; 21028; 7474] 0%Z [(1%Z, 1930); (1%Z, 7919); (1%Z, 7475); ((-1)%Z, 7983); ((-2)%Z, 7474)] 281474976710656%Z 1208925819614629174706176%Z;
  Lin [1929; 7918; 7474] [21027; 7982; 21026; 21025; 21024; 7473] 0%Z [(1%Z, 1929); (1%Z, 7918); (1%Z, 7474); ((-1)%Z, 7982); ((-2)%Z, 7473)] 140737488355328%Z 2417851639229258349412352%Z;
  Lin [1928; 7917; 7473] [21023; 7981; 21022; 21021; 21020; 7472] 0%Z [(1%Z, 1928); (1%Z, 7917); (1%Z, 7473); ((-1)%Z, 7981); ((-2)%Z, 7472)] 70368744177664%Z 4835703278458516698824704%Z;
  Lin [1927; 7916; 7472] [21019; 7980; 21018; 21017; 21016; 7471] 0%Z [(1%Z, 1927); (1%Z, 7916); (1%Z, 7472); ((-1)%Z, 7980); ((-2)%Z, 7471)] 35184372088832%Z 9671406556917033397649408%Z;
  Lin [1926; 7915; 7471] [21015; 7979; 21014; 21013; 21012; 7470] 0%Z [(1%Z, 1926); (1%Z, 7915); (1%Z, 7471); ((-1)%Z, 7979); ((-2)%Z, 7470)] 17592186044416%Z 19342813113834066795298816%Z;
  Lin [1925; 7914; 7470] [21011; 7978; 21010; 21009; 21008; 7469] 0%Z [(1%Z, 1925); (1%Z, 7914); (1%Z, 7470); ((-1)%Z, 7978); ((-2)%Z, 7469)] 8796093022208%Z 38685626227668133590597632%Z;
  Lin [1924; 7913; 7469] [21007; 7977; 21006; 21005; 21004; 7468] 0%Z [(1%Z, 1924); (1%Z, 7913); (1%Z, 7469); ((-1)%Z, 7977); ((-2)%Z, 7468)] 4398046511104%Z 77371252455336267181195264%Z;
  Lin [1923; 7912; 7468] [21003; 7976; 21002; 21001; 21000; 7467] 0%Z [(1%Z, 1923); (1%Z, 7912); (1%Z, 7468); ((-1)%Z, 7976); ((-2)%Z, 7467)] 2199023255552%Z 154742504910672534362390528%Z;
  Lin [1922; 7911; 7467] [20999; 7975; 20998; 20997; 20996; 7466] 0%Z [(1%Z, 1922); (1%Z, 7911); (1%Z, 7467); ((-1)%Z, 7975); ((-2)%Z, 7466)] 1099511627776%Z 309485009821345068724781056%Z;
  Lin [1921; 7910; 7466] [20995; 7974; 20994; 20993; 20992; 7465] 0%Z [(1%Z, 1921); (1%Z, 7910); (1%Z, 7466); ((-1)%Z, 7974); ((-2)%Z, 7465)] 549755813888%Z 618970019642690137449562112%Z;
  Lin [1920; 7909; 7465] [20991; 7973; 20990; 20989; 20988; 7464] 0%Z [(1%Z, 1920); (1%Z, 7909); (1%Z, 7465); ((-1)%Z, 7973); ((-2)%Z, 7464)] 274877906944%Z 1237940039285380274899124224%Z;
  Lin [1919; 7399; 7464] [20987; 7972; 20986; 20985; 20984; 7463] 0%Z [(1%Z, 1919); (1%Z, 7399); (1%Z, 7464); ((-1)%Z, 7972); ((-2)%Z, 7463)] 137438953472%Z 2475880078570760549798248448%Z;
  Lin [2046; 8034] [28125; 7590] 0%Z [(1%Z, 2046); (1%Z, 8034); ((-1)%Z, 28125); ((-2)%Z, 7590)] 633825300114114700748351602688%Z 536870912%Z;
  Lin [2045; 8033; 7590] [20983; 8097; 20982; 20981; 20980; 7589] 0%Z [(1%Z, 2045); (1%Z, 8033); (1%Z, 7590); ((-1)%Z, 8097); ((-2)%Z, 7589)] 316912650057057350374175801344%Z 1073741824%Z;
  Lin [2044; 8032; 7589] [20979; 8096; 20978; 20977; 20976; 7588] 0%Z [(1%Z, 2044); (1%Z, 8032); (1%Z, 7589); ((-1)%Z, 8096); ((-2)%Z, 7588)] 158456325028528675187087900672%Z 2147483648%Z;
  Lin [2043; 8031; 7588] [20975; 8095; 20974; 20973; 20972; 7587] 0%Z [(1%Z, 2043); (1%Z, 8031); (1%Z, 7588); ((-1)%Z, 8095); ((-2)%Z, 7587)] 79228162514264337593543950336%Z 4294967296%Z;
  Lin [2042; 8030; 7587] [20971; 8094; 20970; 20969; 20968; 7586] 0%Z [(1%Z, 2042); (1%Z, 8030); (1%Z, 7587); ((-1)%Z, 8094); ((-2)%Z, 7586)] 39614081257132168796771975168%Z 8589934592%Z;
  Lin [2041; 8029; 7586] [20967; 8093; 20966; 20965; 20964; 7585] 0%Z [(1%Z, 2041); (1%Z, 8029); (1%Z, 7586); ((-1)%Z, 8093); ((-2)%Z, 7585)] 19807040628566084398385987584%Z 17179869184%Z;
  Lin [2040; 8028; 7585] [20963; 8092; 20962; 20961; 20960; 7584] 0%Z [(1%Z, 2040); (1%Z, 8028); (1%Z, 7585); ((-1)%Z, 8092); ((-2)%Z, 7584)] 9903520314283042199192993792%Z 34359738368%Z;
  Lin [2039; 8027; 7584] [20959; 8091; 20958; 20957; 20956; 7583] 0%Z [(1%Z, 2039); (1%Z, 8027); (1%Z, 7584); ((-1)%Z, 8091); ((-2)%Z, 7583)] 4951760157141521099596496896%Z 68719476736%Z].
Definition mult2_64_facts_18 : list lin_fact := [
  Lin [2038; 8026; 7583] [20955; 8090; 20954; 20953; 20952; 7582] 0%Z [(1%Z, 2038); (1%Z, 8026); (1%Z, 7583); ((-1)%Z, 8090); ((-2)%Z, 7582)] 2475880078570760549798248448%Z 137438953472%Z;
  Lin [2037; 8025; 7582] [20951; 8089; 20950; 20949; 20948; 7581] 0%Z [(1%Z, 2037); (1%Z, 8025); (1%Z, 7582); ((-1)%Z, 8089); ((-2)%Z, 7581)] 1237940039285380274899124224%Z 274877906944%Z;
  Lin [2036; 8024; 7581] [20947; 8088; 20946; 20945; 20944; 7580] 0%Z [(1%Z, 2036); (1%Z, 8024); (1%Z, 7581); ((-1)%Z, 8088); ((-2)%Z, 7580)] 618970019642690137449562112%Z 549755813888%Z;
  Lin [2035; 8023; 7580] [20943; 8087; 20942; 20941; 20940; 7579] 0%Z [(1%Z, 2035); (1%Z, 8023); (1%Z, 7580); ((-1)%Z, 8087); ((-2)%Z, 7579)] 309485009821345068724781056%Z 1099511627776%Z;
  Lin [2034; 8022; 7579] [20939; 8086; 20938; 20937; 20936; 7578] 0%Z [(1%Z, 2034); (1%Z, 8022); (1%Z, 7579); ((-1)%Z, 8086); ((-2)%Z, 7578)] 154742504910672534362390528%Z 2199023255552%Z;
  Lin [2033; 8021; 7578] [20935; 8085; 20934; 20933; 20932; 7577] 0%Z [(1%Z, 2033); (1%Z, 8021); (1%Z, 7578); ((-1)%Z, 8085); ((-2)%Z, 7577)] 77371252455336267181195264%Z 4398046511104%Z;
  Lin [2032; 8020; 7577] [20931; 8084; 20930; 20929; 20928; 7576] 0%Z [(1%Z, 2032); (1%Z, 8020); (1%Z, 7577); ((-1)%Z, 8084); ((-2)%Z, 7576)] 38685626227668133590597632%Z 8796093022208%Z;
  Lin [2031; 8019; 7576] [20927; 8083; 20926; 20925; 20924; 7575] 0%Z [(1%Z, 2031); (1%Z, 8019); (1%Z, 7576); ((-1)%Z, 8083); ((-2)%Z, 7575)] 19342813113834066795298816%Z 17592186044416%Z;
  Lin [2030; 8018; 7575] [20923; 8082; 20922; 20921; 20920; 7574] 0%Z [(1%Z, 2030); (1%Z, 8018); (1%Z, 7575); ((-1)%Z, 8082); ((-2)%Z, 7574)] 9671406556917033397649408%Z 35184372088832%Z;
  Lin [2029; 8017; 7574] [20919; 8081; 20918; 20917; 20916; 7573] 0%Z [(1%Z, 2029); (1%Z, 8017); (1%Z, 7574); ((-1)%Z, 8081); ((-2)%Z, 7573)] 4835703278458516698824704%Z 70368744177664%Z;
  Lin [2028; 8016; 7573] [20915; 8080; 20914; 20913; 20912; 7572] 0%Z [(1%Z, 2028); (1%Z, 8016); (1%Z, 7573); ((-1)%Z, 8080); ((-2)%Z, 7572)] 2417851639229258349412352%Z 140737488355328%Z;
  Lin [2027; 8015; 7572] [20911; 8079; 20910; 20909; 20908; 7571] 0%Z [(1%Z, 2027); (1%Z, 8015); (1%Z, 7572); ((-1)%Z, 8079); ((-2)%Z, 7571)] 1208925819614629174706176%Z 281474976710656%Z;
  Lin [2026; 8014; 7571] [20907; 8078; 20906; 20905; 20904; 7570] 0%Z [(1%Z, 2026); (1%Z, 8014); (1%Z, 7571); ((-1)%Z, 8078); ((-2)%Z, 7570)] 604462909807314587353088%Z 562949953421312%Z;
  Lin [2025; 8013; 7570] [20903; 8077; 20902; 20901; 20900; 7569] 0%Z [(1%Z, 2025); (1%Z, 8013); (1%Z, 7570); ((-1)%Z, 8077); ((-2)%Z, 7569)] 302231454903657293676544%Z 1125899906842624%Z;
  Lin [2024; 8012; 7569] [20899; 8076; 20898; 20897; 20896; 7568] 0%Z [(1%Z, 2024); (1%Z, 8012); (1%Z, 7569); ((-1)%Z, 8076); ((-2)%Z, 7568)] 151115727451828646838272%Z 2251799813685248%Z;
  Lin [2023; 8011; 7568] [20895; 8075; 20894; 20893; 20892; 7567] 0%Z [(1%Z, 2023); (1%Z, 8011); (1%Z, 7568); ((-1)%Z, 8075); ((-2)%Z, 7567)] 75557863725914323419136%Z 4503599627370496%Z;
  Lin [2022; 8010; 7567] [20891; 8074; 20890; 20889; 20888; 7566] 0%Z [(1%Z, 2022); (1%Z, 8010); (1%Z, 7567); ((-1)%Z, 8074); ((-2)%Z, 7566)] 37778931862957161709568%Z 9007199254740992%Z;
  Lin [2021; 8009; 7566] [20887; 8073; 20886; 20885; 20884; 7565] 0%Z [(1%Z, 2021); (1%Z, 8009); (1%Z, 7566); ((-1)%Z, 8073); ((-2)%Z, 7565)] 18889465931478580854784%Z 18014398509481984%Z;
  Lin [2020; 8008; 7565] [20883; 8072; 20882; 20881; 20880; 7564] 0%Z [(1%Z, 2020); (1%Z, 8008); (1%Z, 7565); ((-1)%Z, 8072); ((-2)%Z, 7564)] 9444732965739290427392%Z 36028797018963968%Z;
  Lin [2019; 8007; 7564] [20879; 8071; 20878; 20877; 20876; 7563] 0%Z [(1%Z, 2019); (1%Z, 8007); (1%Z, 7564); ((-1)%Z, 8071); ((-2)%Z, 7563)] 4722366482869645213696%Z 72057594037927936%Z;
  Lin [2018; 8006; 7563] [20875; 8070; 20874; 20873; 20872; 7562] 0%Z [(1%Z, 2018); (1%Z, 8006); (1%Z, 7563); ((-1)%Z, 8070); ((-2)%Z, 7562)] 2361183241434822606848%Z 144115188075855872%Z;
  Lin [2017; 8005; 7562] [20871; 8069; 20870; 20869; 20868; 7561] 0%Z [(1%Z, 2017); (1%Z, 8005); (1%Z, 7562); ((-1)%Z, 8069); ((-2)%Z, 7561)] 1180591620717411303424%Z 288230376151711744%Z;
  Lin [2016; 8004; 7561] [20867; 8068; 20866; 20865; 20864; 7560] 0%Z [(1%Z, 2016); (1%Z, 8004); (1%Z, 7561); ((-1)%Z, 8068); ((-2)%Z, 7560)] 590295810358705651712%Z 576460752303423488%Z;
  Lin [2015; 8003; 7560] [20863; 8067; 20862; 20861; 20860; 7559] 0%Z [(1%Z, 2015); (1%Z, 8003); (1%Z, 7560); ((-1)%Z, 8067); ((-2)%Z, 7559)] 295147905179352825856%Z 1152921504606846976%Z;
  Lin [2014; 8002; 7559] [20859; 8066; 20858; 20857; 20856; 7558] 0%Z [(1%Z, 2014); (1%Z, 8002); (1%Z, 7559); ((-1)%Z, 8066); ((-2)%Z, 7558)] 147573952589676412928%Z 2305843009213693952%Z;
  Lin [2013; 8001; 7558] [20855; 8065; 20854; 20853; 20852; 7557] 0%Z [(1%Z, 2013); (1%Z, 8001); (1%Z, 7558); ((-1)%Z, 8065); ((-2)%Z, 7557)] 73786976294838206464%Z 4611686018427387904%Z;
  Lin [2012; 8000; 7557] [20851; 8064; 20850; 20849; 20848; 7556] 0%Z [(1%Z, 2012); (1%Z, 8000); (1%Z, 7557); ((-1)%Z, 8064); ((-2)%Z, 7556)] 36893488147419103232%Z 9223372036854775808%Z;
  Lin [2011; 7999; 7556] [20847; 8063; 20846; 20845; 20844; 7555] 0%Z [(1%Z, 2011); (1%Z, 7999); (1%Z, 7556); ((-1)%Z, 8063); ((-2)%Z, 7555)] 18446744073709551616%Z 18446744073709551616%Z;
  Lin [2010; 7998; 7555] [20843; 8062; 20842; 20841; 20840; 7554] 0%Z [(1%Z, 2010); (1%Z, 7998); (1%Z, 7555); ((-1)%Z, 8062); ((-2)%Z, 7554)] 9223372036854775808%Z 36893488147419103232%Z;
  Lin [2009; 7997; 7554] [20839; 8061; 20838; 20837; 20836; 7553] 0%Z [(1%Z, 2009); (1%Z, 7997); (1%Z, 7554); ((-1)%Z, 8061); ((-2)%Z, 7553)] 4611686018427387904%Z 73786976294838206464%Z;
  Lin [2008; 7996; 7553] [20835; 8060; 20834; 20833; 20832; 7552] 0%Z [(1%Z, 2008); (1%Z, 7996); (1%Z, 7553); ((-1)%Z, 8060); ((-2)%Z, 7552)] 2305843009213693952%Z 147573952589676412928%Z;
  Lin [2007; 7995; 7552] [20831; 8059; 20830; 20829; 20828; 7551] 0%Z [(1%Z, 2007); (1%Z, 7995); (1%Z, 7552); ((-1)%Z, 8059); ((-2)%Z, 7551)] 1152921504606846976%Z 295147905179352825856%Z;
  Lin [2006; 7994; 7551] [20827; 8058; 20826; 20825; 20824; 7550] 0%Z [(1%Z, 2006); (1%Z, 7994); (1%Z, 7551); ((-1)%Z, 8058); ((-2)%Z, 7550)] 576460752303423488%Z 590295810358705651712%Z;
  Lin [2005; 7993; 7550] [20823; 8057; 20822; 20821; 20820; 7549] 0%Z [(1%Z, 2005); (1%Z, 7993); (1%Z, 7550); ((-1)%Z, 8057); ((-2)%Z, 7549)] 288230376151711744%Z 1180591620717411303424%Z;
  Lin [2004; 7992; 7549] [20819; 8056; 20818; 20817; 20816; 7548] 0%Z [(1%Z, 2004); (1%Z, 7992); (1%Z, 7549); ((-1)%Z, 8056); ((-2)%Z, 7548)] 144115188075855872%Z 2361183241434822606848%Z;
  Lin [2003; 7991; 7548] [20815; 8055; 20814; 20813; 20812; 7547] 0%Z [(1%Z, 2003); (1%Z, 7991); (1%Z, 7548); ((-1)%Z, 8055); ((-2)%Z, 7547)] 72057594037927936%Z 4722366482869645213696%Z;
  Lin [2002; 7990; 7547] [20811; 8054; 20810; 20809; 20808; 7546] 0%Z [(1%Z, 2002); (1%Z, 7990); (1%Z, 7547); ((-1)%Z, 8054); ((-2)%Z, 7546)] 36028797018963968%Z 9444732965739290427392%Z;
  Lin [2001; 7989; 7546] [20807; 8053; 20806; 20805; 20804; 7545] 0%Z [(1%Z, 2001); (1%Z, 7989); (1%Z, 7546); ((-1)%Z, 8053); ((-2)%Z, 7545)] 18014398509481984%Z 18889465931478580854784%Z;
  Lin [2000; 7988; 7545] [20803; 8052; 20802; 20801; 20800; 7544] 0%Z [(1%Z, 2000); (1%Z, 7988); (1%Z, 7545); ((-1)%Z, 8052); ((-2)%Z, 7544)] 9007199254740992%Z 37778931862957161709568%Z;
  Lin [1999; 7987; 7544] [20799; 8051; 20798; 20797; 20796; 7543] 0%Z [(1%Z, 1999); (1%Z, 7987); (1%Z, 7544); ((-1)%Z, 8051); ((-2)%Z, 7543)] 4503599627370496%Z 75557863725914323419136%Z;
  Lin [1998; 7986; 7543] [20795; 8050; 20794; 20793; 20792; 7542] 0%Z [(1%Z, 1998); (1%Z, 7986); (1%Z, 7543); ((-1)%Z, 8050); ((-2)%Z, 7542)] 2251799813685248%Z 151115727451828646838272%Z;
  Lin [1997; 7985; 7542] [20791; 8049; 20790; 20789; 20788; 7541] 0%Z [(1%Z, 1997); (1%Z, 7985); (1%Z, 7542); ((-1)%Z, 8049); ((-2)%Z, 7541)] 1125899906842624%Z 302231454903657293676544%Z;
  Lin [1996; 7984; 7541] [20787; 8048; 20786; 20785; 20784; 7540] 0%Z [(1%Z, 1996); (1%Z, 7984); (1%Z, 7541); ((-1)%Z, 8048); ((-2)%Z, 7540)] 562949953421312%Z 604462909807314587353088%Z;
  Lin [1995; 7983; 7540] [20783; 8047; 20782; 20781; 20780; 7539] 0%Z [(1%Z, 1995); (1%Z, 7983); (1%Z, 7540); ((-1)%Z, 8047); ((-2)%Z, 7539)] 281474976710656%Z 1208925819614629174706176%Z;
  Lin [1994; 7982; 7539] [20779; 8046; 20778; 20777; 20776; 7538] 0%Z [(1%Z, 1994); (1%Z, 7982); (1%Z, 7539); ((-1)%Z, 8046); ((-2)%Z, 7538)] 140737488355328%Z 2417851639229258349412352%Z;
  Lin [1993; 7981; 7538] [20775; 8045; 20774; 20773; 20772; 7537] 0%Z [(1%Z, 1993); (1%Z, 7981); (1%Z, 7538); ((-1)%Z, 8045); ((-2)%Z, 7537)] 70368744177664%Z 4835703278458516698824704%Z;
  Lin [1992; 7980; 7537] [20771; 8044; 20770; 20769; 20768; 7536] 0%Z [(1%Z, 1992); (1%Z, 7980); (1%Z, 7537); ((-1)%Z, 8044); ((-2)%Z, 7536)] 35184372088832%Z 9671406556917033397649408%Z;
  Lin [1991; 7979; 7536] [20767; 8043; 20766; 20765; 20764; 7535] 0%Z [(1%Z, 1991); (1%Z, 7979); (1%Z, 7536); ((-1)%Z, 8043); ((-2)%Z, 7535)] 17592186044416%Z 19342813113834066795298816%Z;
  Lin [1990; 7978; 7535] [20763; 8042; 20762; 20761; 20760; 7534] 0%Z [(1%Z, 1990); (1%Z, 7978); (1%Z, 7535); ((-1)%Z, 8042); ((-2)%Z, 7534)] 8796093022208%Z 38685626227668133590597632%Z;
  Lin [1989; 7977; 7534] [20759; 8041; 20758; 20757; 20756; 7533] 0%Z [(1%Z, 1989); (1%Z, 7977); (1%Z, 7534); ((-1)%Z, 8041); ((-2)%Z, 7533)] 4398046511104%Z 77371252455336267181195264%Z;
  Lin [1988; 7976; 7533] [20755; 8040; 20754; 20753; 20752; 7532] 0%Z [(1%Z, 1988); (1%Z, 7976); (1%Z, 7533); ((-1)%Z, 8040); ((-2)%Z, 7532)] 2199023255552%Z 154742504910672534362390528%Z;
  Lin [1987; 7975; 7532] [20751; 8039; 20750; 20749; 20748; 7531] 0%Z [(1%Z, 1987); (1%Z, 7975); (1%Z, 7532); ((-1)%Z, 8039); ((-2)%Z, 7531)] 1099511627776%Z 309485009821345068724781056%Z;
  Lin [1986; 7974; 7531] [20747; 8038; 20746; 20745; 20744; 7530] 0%Z [(1%Z, 1986); (1%Z, 7974); (1%Z, 7531); ((-1)%Z, 8038); ((-2)%Z, 7530)] 549755813888%Z 618970019642690137449562112%Z;
  Lin [1985; 7973; 7530] [20743; 8037; 20742; 20741; 20740; 7529] 0%Z [(1%Z, 1985); (1%Z, 7973); (1%Z, 7530); ((-1)%Z, 8037); ((-2)%Z, 7529)] 274877906944%Z 1237940039285380274899124224%Z;
  Lin [1984; 7972; 7529] [20739; 8036; 20738; 20737; 20736; 7528] 0%Z [(1%Z, 1984); (1%Z, 7972); (1%Z, 7529); ((-1)%Z, 8036); ((-2)%Z, 7528)] 137438953472%Z 2475880078570760549798248448%Z;
  Lin [1983; 7463; 7528] [20735; 8035; 20734; 20733; 20732; 7527] 0%Z [(1%Z, 1983); (1%Z, 7463); (1%Z, 7528); ((-1)%Z, 8035); ((-2)%Z, 7527)] 68719476736%Z 4951760157141521099596496896%Z;
  Lin [2110; 8097] [28126; 7654] 0%Z [(1%Z, 2110); (1%Z, 8097); ((-1)%Z, 28126); ((-2)%Z, 7654)] 316912650057057350374175801344%Z 1073741824%Z;
  Lin [2109; 8096; 7654] [20731; 8160; 20730; 20729; 20728; 7653] 0%Z [(1%Z, 2109); (1%Z, 8096); (1%Z, 7654); ((-1)%Z, 8160); ((-2)%Z, 7653)] 158456325028528675187087900672%Z 2147483648%Z;
  Lin [2108; 8095; 7653] [20727; 8159; 20726; 20725; 20724; 7652] 0%Z [(1%Z, 2108); (1%Z, 8095); (1%Z, 7653); ((-1)%Z, 8159); ((-2)%Z, 7652)] 79228162514264337593543950336%Z 4294967296%Z;
  Lin [2107; 8094; 7652] [20723; 8158; 20722; 20721; 20720; 7651] 0%Z [(1%Z, 2107); (1%Z, 8094); (1%Z, 7652); ((-1)%Z, 8158); ((-2)%Z, 7651)] 39614081257132168796771975168%Z 8589934592%Z;
  Lin [2106; 8093; 7651] [20719; 8157; 20718; 20717; 20716; 7650] 0%Z [(1%Z, 2106); (1%Z, 8093); (1%Z, 7651); ((-1)%Z, 8157); ((-2)%Z, 7650)] 19807040628566084398385987584%Z 17179869184%Z;
  Lin [2105; 8092; 7650] [20715; 8156; 20714; 20713; 20712; 7649] 0%Z [(1%Z, 2105); (1%Z, 8092); (1%Z, 7650); ((-1)%Z, 8156); ((-2)%Z, 7649)] 9903520314283042199192993792%Z 34359738368%Z;
  Lin [2104; 8091; 7649] [20711; 8155; 20710; 20709; 20708; 7648] 0%Z [(1%Z, 2104); (1%Z, 8091); (1%Z, 7649); ((-1)%Z, 8155); ((-2)%Z, 7648)] 4951760157141521099596496896%Z 68719476736%Z;
  Lin [2103; 8090; 7648] [20707; 8154; 20706; 20705; 20704; 7647] 0%Z [(1%Z, 2103); (1%Z, 8090); (1%Z, 7648); ((-1)%Z, 8154); ((-2)%Z, 7647)] 2475880078570760549798248448%Z 137438953472%Z;
  Lin [2102; 8089; 7647] [20703; 8153; 20702; 20701; 20700; 7646] 0%Z [(1%Z, 2102); (1%Z, 8089); (1%Z, 7647); ((-1)%Z, 8153); ((-2)%Z, 7646)] 1237940039285380274899124224%Z 274877906944%Z;
  Lin [2101; 8088; 7646] [20699; 8152; 20698; 20697; 20696; 7645] 0%Z [(1%Z, 2101); (1%Z, 8088); (1%Z, 7646); ((-1)%Z, 8152); ((-2)%Z, 7645)] 618970019642690137449562112%Z 549755813888%Z;
  Lin [2100; 8087; 7645] [20695; 8151; 20694; 20693; 20692; 7644] 0%Z [(1%Z, 2100); (1%Z, 8087); (1%Z, 7645); ((-1)%Z, 8151); ((-2)%Z, 7644)] 309485009821345068724781056%Z 1099511627776%Z;
  Lin [2099; 8086; 7644] [20691; 8150; 20690; 20689; 20688; 7643] 0%Z [(1%Z, 2099); (1%Z, 8086); (1%Z, 7644); ((-1)%Z, 8150); ((-2)%Z, 7643)] 154742504910672534362390528%Z 2199023255552%Z;
  Lin [2098; 8085; 7643] [20687; 8149; 20686; 20685; 20684; 7642] 0%Z [(1%Z, 2098); (1%Z, 8085); (1%Z, 7643); ((-1)%Z, 8149); ((-2)%Z, 7642)] 77371252455336267181195264%Z 4398046511104%Z;
  Lin [2097; 8084; 7642] [20683; 8148; 20682; 20681; 20680; 7641] 0%Z [(1%Z, 2097); (1%Z, 8084); (1%Z, 7642); ((-1)%Z, 8148); ((-2)%Z, 7641)] 38685626227668133590597632%Z 8796093022208%Z;
  Lin [2096; 8083; 7641] [20679; 8147; 20678; 20677; 20676; 7640] 0%Z [(1%Z, 2096); (1%Z, 8083); (1%Z, 7641); ((-1)%Z, 8147); ((-2)%Z, 7640)] 19342813113834066795298816%Z 17592186044416%Z;
  Lin [2095; 8082; 7640] [20675; 8146; 20674; 20673; 20672; 7639] 0%Z [(1%Z, 2095); (1%Z, 8082); (1%Z, 7640); ((-1)%Z, 8146); ((-2)%Z, 7639)] 9671406556917033397649408%Z 35184372088832%Z;
  Lin [2094; 8081; 7639] [20671; 8145; 20670; 20669; 20668; 7638] 0%Z [(1%Z, 2094); (1%Z, 8081); (1%Z, 7639); ((-1)%Z, 8145); ((-2)%Z, 7638)] 4835703278458516698824704%Z 70368744177664%Z;
  Lin [2093; 8080; 7638] [20667; 8144; 20666; 20665; 20664; 7637] 0%Z [(1%Z, 2093); (1%Z, 8080); (1%Z, 7638); ((-1)%Z, 8144); ((-2)%Z, 7637)] 2417851639229258349412352%Z 140737488355328%Z;
  Lin [2092; 8079; 7637] [20663; 8143; 20662; 20661; 20660; 7636] 0%Z [(1%Z, 2092); (1%Z, 8079); (1%Z, 7637); ((-1)%Z, 8143); ((-2)%Z, 7636)] 1208925819614629174706176%Z 281474976710656%Z;
  Lin [2091; 8078; 7636] [20659; 8142; 20658; 20657; 20656; 7635] 0%Z [(1%Z, 2091); (1%Z, 8078); (1%Z, 7636); ((-1)%Z, 8142); ((-2)%Z, 7635)] 604462909807314587353088%Z 562949953421312%Z;
  Lin [2090; 8077; 7635] [20655; 8141; 20654; 20653; 20652; 7634] 0%Z [(1%Z, 2090); (1%Z, 8077); (1%Z, 7635); ((-1)%Z, 8141); ((-2)%Z, 7634)] 302231454903657293676544%Z 1125899906842624%Z;
  Lin [2089; 8076; 7634] [20651; 8140; 20650; 20649; 20648; 7633] 0%Z [(1%Z, 2089); (1%Z, 8076); (1%Z, 7634); ((-1)%Z, 8140); ((-2)%Z, 7633)] 151115727451828646838272%Z 2251799813685248%Z;
  Lin [2088; 8075; 7633] [20647; 8139; 20646; 20645; 20644; 7632] 0%Z [(1%Z, 2088); (1%Z, 8075); (1%Z, 7633); ((-1)%Z, 8139); ((-2)%Z, 7632)] 75557863725914323419136%Z 4503599627370496%Z;
  Lin [2087; 8074; 7632] [20643; 8138; 20642; 20641; 20640; 7631] 0%Z [(1%Z, 2087); (1%Z, 8074); (1%Z, 7632); ((-1)%Z, 8138); ((-2)%Z, 7631)] 37778931862957161709568%Z 9007199254740992%Z;
  Lin [2086; 8073; 7631] [20639; 8137; 20638; 20637; 20636; 7630] 0%Z [(1%Z, 2086); (1%Z, 8073); (1%Z, 7631); ((-1)%Z, 8137); ((-2)%Z, 7630)] 18889465931478580854784%Z 18014398509481984%Z;
  Lin [2085; 8072; 7630] [20635; 8136; 20634; 20633; 20632; 7629] 0%Z [(1%Z, 2085); (1%Z, 8072); (1%Z, 7630); ((-1)%Z, 8136); ((-2)%Z, 7629)] 9444732965739290427392%Z 36028797018963968%Z;
  Lin [2084; 8071; 7629] [20631; 8135; 20630; 20629; 20628; 7628] 0%Z [(1%Z, 2084); (1%Z, 8071); (1%Z, 7629); ((-1)%Z, 8135); ((-2)%Z, 7628)] 4722366482869645213696%Z 72057594037927936%Z;
  Lin [2083; 8070; 7628] [20627; 8134; 20626; 20625; 20624; 7627] 0%Z [(1%Z, 2083); (1%Z, 8070); (1%Z, 7628); ((-1)%Z, 8134); ((-2)%Z, 7627)] 2361183241434822606848%Z 144115188075855872%Z;
  Lin [2082; 8069; 7627] [20623; 8133; 20622; 20621; 20620; 7626] 0%Z [(1%Z, 2082); (1%Z, 8069); (1%Z, 7627); ((-1)%Z, 8133); ((-2)%Z, 7626)] 1180591620717411303424%Z 288230376151711744%Z;
  Lin [2081; 8068; 7626] [20619; 8132; 20618; 20617; 20616; 7625] 0%Z [(1%Z, 2081); (1%Z, 8068); (1%Z, 7626); ((-1)%Z, 8132); ((-2)%Z, 7625)] 590295810358705651712%Z 576460752303423488%Z;
  Lin [2080; 8067; 7625] [20615; 8131; 20614; 20613; 20612; 7624] 0%Z [(1%Z, 2080); (1%Z, 8067); (1%Z, 7625); ((-1)%Z, 8131); ((-2)%Z, 7624)] 295147905179352825856%Z 1152921504606846976%Z;
  Lin [2079; 8066; 7624] [20611; 8130; 20610; 20609; 20608; 7623] 0%Z [(1%Z, 2079); (1%Z, 8066); (1%Z, 7624); ((-1)%Z, 8130); ((-2)%Z, 7623)] 147573952589676412928%Z 2305843009213693952%Z;
  Lin [2078; 8065; 7623] [20607; 8129; 20606; 20605; 20604; 7622] 0%Z [(1%Z, 2078); (1%Z, 8065); (1%Z, 7623); ((-1)%Z, 8129); ((-2)%Z, 7622)] 73786976294838206464%Z 4611686018427387904%Z;
  Lin [2077; 8064; 7622] [20603; 8128; 20602; 20601; 20600; 7621] 0%Z [(1%Z, 2077); (1%Z, 8064); (1%Z, 7622); ((-1)%Z, 8128); ((-2)%Z, 7621)] 36893488147419103232%Z 9223372036854775808%Z;
  Lin [2076; 8063; 7621] [20599; 8127; 20598; 20597; 20596; 7620] 0%Z [(1%Z, 2076); (1%Z, 8063); (1%Z, 7621); ((-1)%Z, 8127); ((-2)%Z, 7620)] 18446744073709551616%Z 18446744073709551616%Z;
  Lin [2075; 8062; 7620] [20595; 8126; 20594; 20593; 20592; 7619] 0%Z [(1%Z, 2075); (1%Z, 8062); (1%Z, 7620); ((-1)%Z, 8126); ((-2)%Z, 7619)] 9223372036854775808%Z 36893488147419103232%Z;
  Lin [2074; 8061; 7619] [20591; 8125; 20590; 20589; 20588; 7618] 0%Z [(1%Z, 2074); (1%Z, 8061); (1%Z, 7619); ((-1)%Z, 8125); ((-2)%Z, 7618)] 4611686018427387904%Z 73786976294838206464%Z;
  Lin [2073; 8060; 7618] [20587; 8124; 20586; 20585; 20584; 7617] 0%Z [(1%Z, 2073); (1%Z, 8060); (1%Z, 7618); ((-1)%Z, 8124); ((-2)%Z, 7617)] 2305843009213693952%Z 147573952589676412928%Z;
  Lin [2072; 8059; 7617] [20583; 8123; 20582; 20581; 20580; 7616] 0%Z [(1%Z, 2072); (1%Z, 8059); (1%Z, 7617); ((-1)%Z, 8123); ((-2)%Z, 7616)] 1152921504606846976%Z 295147905179352825856%Z;
  Lin [2071; 8058; 7616] [20579; 8122; 20578; 20577; 20576; 7615] 0%Z [(1%Z, 2071); (1%Z, 8058); (1%Z, 7616); ((-1)%Z, 8122); ((-2)%Z, 7615)] 576460752303423488%Z 590295810358705651712%Z;
  Lin [2070; 8057; 7615] [20575; 8121; 20574; 20573; 20572; 7614] 0%Z [(1%Z, 2070); (1%Z, 8057); (1%Z, 7615); ((-1)%Z, 8121); ((-2)%Z, 7614)] 288230376151711744%Z 1180591620717411303424%Z;
  Lin [2069; 8056; 7614] [20571; 8120; 20570; 20569; 20568; 7613] 0%Z [(1%Z, 2069); (1%Z, 8056); (1%Z, 7614); ((-1)%Z, 8120); ((-2)%Z, 7613)] 144115188075855872%Z 2361183241434822606848%Z;
  Lin [2068; 8055; 7613] [20567; 8119; 20566; 20565; 20564; 7612] 0%Z [(1%Z, 2068); (1%Z, 8055); (1%Z, 7613); ((-1)%Z, 8119); ((-2)%Z, 7612)] 72057594037927936%Z 4722366482869645213696%Z;
  Lin [2067; 8054; 7612] [20563; 8118; 20562; 20561; 20560; 7611] 0%Z [(1%Z, 2067); (1%Z, 8054); (1%Z, 7612); ((-1)%Z, 8118); ((-2)%Z, 7611)] 36028797018963968%Z 9444732965739290427392%Z].
Definition mult2_64_facts_19 : list lin_fact := [
  Lin [2066; 8053; 7611] [20559; 8117; 20558; 20557; 20556; 7610] 0%Z [(1%Z, 2066); (1%Z, 8053); (1%Z, 7611); ((-1)%Z, 8117); ((-2)%Z, 7610)] 18014398509481984%Z 18889465931478580854784%Z;
  Lin [2065; 8052; 7610] [20555; 8116; 20554; 20553; 20552; 7609] 0%Z [(1%Z, 2065); (1%Z, 8052); (1%Z, 7610); ((-1)%Z, 8116); ((-2)%Z, 7609)] 9007199254740992%Z 37778931862957161709568%Z;
  Lin [2064; 8051; 7609] [20551; 8115; 20550; 20549; 20548; 7608] 0%Z [(1%Z, 2064); (1%Z, 8051); (1%Z, 7609); ((-1)%Z, 8115); ((-2)%Z, 7608)] 4503599627370496%Z 75557863725914323419136%Z;
  Lin [2063; 8050; 7608] [20547; 8114; 20546; 20545; 20544; 7607] 0%Z [(1%Z, 2063); (1%Z, 8050); (1%Z, 7608); ((-1)%Z, 8114); ((-2)%Z, 7607)] 2251799813685248%Z 151115727451828646838272%Z;
  Lin [2062; 8049; 7607] [20543; 8113; 20542; 20541; 20540; 7606] 0%Z [(1%Z, 2062); (1%Z, 8049); (1%Z, 7607); ((-1)%Z, 8113); ((-2)%Z, 7606)] 1125899906842624%Z 302231454903657293676544%Z;
  Lin [2061; 8048; 7606] [20539; 8112; 20538; 20537; 20536; 7605] 0%Z [(1%Z, 2061); (1%Z, 8048); (1%Z, 7606); ((-1)%Z, 8112); ((-2)%Z, 7605)] 562949953421312%Z 604462909807314587353088%Z;
  Lin [2060; 8047; 7605] [20535; 8111; 20534; 20533; 20532; 7604] 0%Z [(1%Z, 2060); (1%Z, 8047); (1%Z, 7605); ((-1)%Z, 8111); ((-2)%Z, 7604)] 281474976710656%Z 1208925819614629174706176%Z;
  Lin [2059; 8046; 7604] [20531; 8110; 20530; 20529; 20528; 7603] 0%Z [(1%Z, 2059); (1%Z, 8046); (1%Z, 7604); ((-1)%Z, 8110); ((-2)%Z, 7603)] 140737488355328%Z 2417851639229258349412352%Z;
  Lin [2058; 8045; 7603] [20527; 8109; 20526; 20525; 20524; 7602] 0%Z [(1%Z, 2058); (1%Z, 8045); (1%Z, 7603); ((-1)%Z, 8109); ((-2)%Z, 7602)] 70368744177664%Z 4835703278458516698824704%Z;
  Lin [2057; 8044; 7602] [20523; 8108; 20522; 20521; 20520; 7601] 0%Z [(1%Z, 2057); (1%Z, 8044); (1%Z, 7602); ((-1)%Z, 8108); ((-2)%Z, 7601)] 35184372088832%Z 9671406556917033397649408%Z;
  Lin [2056; 8043; 7601] [20519; 8107; 20518; 20517; 20516; 7600] 0%Z [(1%Z, 2056); (1%Z, 8043); (1%Z, 7601); ((-1)%Z, 8107); ((-2)%Z, 7600)] 17592186044416%Z 19342813113834066795298816%Z;
  Lin [2055; 8042; 7600] [20515; 8106; 20514; 20513; 20512; 7599] 0%Z [(1%Z, 2055); (1%Z, 8042); (1%Z, 7600); ((-1)%Z, 8106); ((-2)%Z, 7599)] 8796093022208%Z 38685626227668133590597632%Z;
  Lin [2054; 8041; 7599] [20511; 8105; 20510; 20509; 20508; 7598] 0%Z [(1%Z, 2054); (1%Z, 8041); (1%Z, 7599); ((-1)%Z, 8105); ((-2)%Z, 7598)] 4398046511104%Z 77371252455336267181195264%Z;
  Lin [2053; 8040; 7598] [20507; 8104; 20506; 20505; 20504; 7597] 0%Z [(1%Z, 2053); (1%Z, 8040); (1%Z, 7598); ((-1)%Z, 8104); ((-2)%Z, 7597)] 2199023255552%Z 154742504910672534362390528%Z;
  Lin [2052; 8039; 7597] [20503; 8103; 20502; 20501; 20500; 7596] 0%Z [(1%Z, 2052); (1%Z, 8039); (1%Z, 7597); ((-1)%Z, 8103); ((-2)%Z, 7596)] 1099511627776%Z 309485009821345068724781056%Z;
  Lin [2051; 8038; 7596] [20499; 8102; 20498; 20497; 20496; 7595] 0%Z [(1%Z, 2051); (1%Z, 8038); (1%Z, 7596); ((-1)%Z, 8102); ((-2)%Z, 7595)] 549755813888%Z 618970019642690137449562112%Z;
  Lin [2050; 8037; 7595] [20495; 8101; 20494; 20493; 20492; 7594] 0%Z [(1%Z, 2050); (1%Z, 8037); (1%Z, 7595); ((-1)%Z, 8101); ((-2)%Z, 7594)] 274877906944%Z 1237940039285380274899124224%Z;
  Lin [2049; 8036; 7594] [20491; 8100; 20490; 20489; 20488; 7593] 0%Z [(1%Z, 2049); (1%Z, 8036); (1%Z, 7594); ((-1)%Z, 8100); ((-2)%Z, 7593)] 137438953472%Z 2475880078570760549798248448%Z;
  Lin [2048; 8035; 7593] [20487; 8099; 20486; 20485; 20484; 7592] 0%Z [(1%Z, 2048); (1%Z, 8035); (1%Z, 7593); ((-1)%Z, 8099); ((-2)%Z, 7592)] 68719476736%Z 4951760157141521099596496896%Z;
  Lin [2047; 7527; 7592] [20483; 8098; 20482; 20481; 20480; 7591] 0%Z [(1%Z, 2047); (1%Z, 7527); (1%Z, 7592); ((-1)%Z, 8098); ((-2)%Z, 7591)] 34359738368%Z 9903520314283042199192993792%Z;
  Lin [2174; 8160] [28127; 7718] 0%Z [(1%Z, 2174); (1%Z, 8160); ((-1)%Z, 28127); ((-2)%Z, 7718)] 158456325028528675187087900672%Z 2147483648%Z;
  Lin [2173; 8159; 7718] [20479; 8223; 20478; 20477; 20476; 7717] 0%Z [(1%Z, 2173); (1%Z, 8159); (1%Z, 7718); ((-1)%Z, 8223); ((-2)%Z, 7717)] 79228162514264337593543950336%Z 4294967296%Z;
  Lin [2172; 8158; 7717] [20475; 8222; 20474; 20473; 20472; 7716] 0%Z [(1%Z, 2172); (1%Z, 8158); (1%Z, 7717); ((-1)%Z, 8222); ((-2)%Z, 7716)] 39614081257132168796771975168%Z 8589934592%Z;
  Lin [2171; 8157; 7716] [20471; 8221; 20470; 20469; 20468; 7715] 0%Z [(1%Z, 2171); (1%Z, 8157); (1%Z, 7716); ((-1)%Z, 8221); ((-2)%Z, 7715)] 19807040628566084398385987584%Z 17179869184%Z;
  Lin [2170; 8156; 7715] [20467; 8220; 20466; 20465; 20464; 7714] 0%Z [(1%Z, 2170); (1%Z, 8156); (1%Z, 7715); ((-1)%Z, 8220); ((-2)%Z, 7714)] 9903520314283042199192993792%Z 34359738368%Z;
  Lin [2169; 8155; 7714] [20463; 8219; 20462; 20461; 20460; 7713] 0%Z [(1%Z, 2169); (1%Z, 8155); (1%Z, 7714); ((-1)%Z, 8219); ((-2)%Z, 7713)] 4951760157141521099596496896%Z 68719476736%Z;
  Lin [2168; 8154; 7713] [20459; 8218; 20458; 20457; 20456; 7712] 0%Z [(1%Z, 2168); (1%Z, 8154); (1%Z, 7713); ((-1)%Z, 8218); ((-2)%Z, 7712)] 2475880078570760549798248448%Z 137438953472%Z;
  Lin [2167; 8153; 7712] [20455; 8217; 20454; 20453; 20452; 7711] 0%Z [(1%Z, 2167); (1%Z, 8153); (1%Z, 7712); ((-1)%Z, 8217); ((-2)%Z, 7711)] 1237940039285380274899124224%Z 274877906944%Z;
  Lin [2166; 8152; 7711] [20451; 8216; 20450; 20449; 20448; 7710] 0%Z [(1%Z, 2166); (1%Z, 8152); (1%Z, 7711); ((-1)%Z, 8216); ((-2)%Z, 7710)] 618970019642690137449562112%Z 549755813888%Z;
  Lin [2165; 8151; 7710] [20447; 8215; 20446; 20445; 20444; 7709] 0%Z [(1%Z, 2165); (1%Z, 8151); (1%Z, 7710); ((-1)%Z, 8215); ((-2)%Z, 7709)] 309485009821345068724781056%Z 1099511627776%Z;
  Lin [2164; 8150; 7709] [20443; 8214; 20442; 20441; 20440; 7708] 0%Z [(1%Z, 2164); (1%Z, 8150); (1%Z, 7709); ((-1)%Z, 8214); ((-2)%Z, 7708)] 154742504910672534362390528%Z 2199023255552%Z;
  Lin [2163; 8149; 7708] [20439; 8213; 20438; 20437; 20436; 7707] 0%Z [(1%Z, 2163); (1%Z, 8149); (1%Z, 7708); ((-1)%Z, 8213); ((-2)%Z, 7707)] 77371252455336267181195264%Z 4398046511104%Z;
  Lin [2162; 8148; 7707] [20435; 8212; 20434; 20433; 20432; 7706] 0%Z [(1%Z, 2162); (1%Z, 8148); (1%Z, 7707); ((-1)%Z, 8212); ((-2)%Z, 7706)] 38685626227668133590597632%Z 8796093022208%Z;
  Lin [2161; 8147; 7706] [20431; 8211; 20430; 20429; 20428; 7705] 0%Z [(1%Z, 2161); (1%Z, 8147); (1%Z, 7706); ((-1)%Z, 8211); ((-2)%Z, 7705)] 19342813113834066795298816%Z 17592186044416%Z;
  Lin [2160; 8146; 7705] [20427; 8210; 20426; 20425; 20424; 7704] 0%Z [(1%Z, 2160); (1%Z, 8146); (1%Z, 7705); ((-1)%Z, 8210); ((-2)%Z, 7704)] 9671406556917033397649408%Z 35184372088832%Z;
  Lin [2159; 8145; 7704] [20423; 8209; 20422; 20421; 20420; 7703] 0%Z [(1%Z, 2159); (1%Z, 8145); (1%Z, 7704); ((-1)%Z, 8209); ((-2)%Z, 7703)] 4835703278458516698824704%Z 70368744177664%Z;
  Lin [2158; 8144; 7703] [20419; 8208; 20418; 20417; 20416; 7702] 0%Z [(1%Z, 2158); (1%Z, 8144); (1%Z, 7703); ((-1)%Z, 8208); ((-2)%Z, 7702)] 2417851639229258349412352%Z 140737488355328%Z;
  Lin [2157; 8143; 7702] [20415; 8207; 20414; 20413; 20412; 7701] 0%Z [(1%Z, 2157); (1%Z, 8143); (1%Z, 7702); ((-1)%Z, 8207); ((-2)%Z, 7701)] 1208925819614629174706176%Z 281474976710656%Z;
  Lin [2156; 8142; 7701] [20411; 8206; 20410; 20409; 20408; 7700] 0%Z [(1%Z, 2156); (1%Z, 8142); (1%Z, 7701); ((-1)%Z, 8206); ((-2)%Z, 7700)] 604462909807314587353088%Z 562949953421312%Z;
  Lin [2155; 8141; 7700] [20407; 8205; 20406; 20405; 20404; 7699] 0%Z [(1%Z, 2155); (1%Z, 8141); (1%Z, 7700); ((-1)%Z, 8205); ((-2)%Z, 7699)] 302231454903657293676544%Z 1125899906842624%Z;
  Lin [2154; 8140; 7699] [20403; 8204; 20402; 20401; 20400; 7698] 0%Z [(1%Z, 2154); (1%Z, 8140); (1%Z, 7699); ((-1)%Z, 8204); ((-2)%Z, 7698)] 151115727451828646838272%Z 2251799813685248%Z;
  Lin [2153; 8139; 7698] [20399; 8203; 20398; 20397; 20396; 7697] 0%Z [(1%Z, 2153); (1%Z, 8139); (1%Z, 7698); ((-1)%Z, 8203); ((-2)%Z, 7697)] 75557863725914323419136%Z 4503599627370496%Z;
  Lin [2152; 8138; 7697] [20395; 8202; 20394; 20393; 20392; 7696] 0%Z [(1%Z, 2152); (1%Z, 8138); (1%Z, 7697); ((-1)%Z, 8202); ((-2)%Z, 7696)] 37778931862957161709568%Z 9007199254740992%Z;
  Lin [2151; 8137; 7696] [20391; 8201; 20390; 20389; 20388; 7695] 0%Z [(1%Z, 2151); (1%Z, 8137); (1%Z, 7696); ((-1)%Z, 8201); ((-2)%Z, 7695)] 18889465931478580854784%Z 18014398509481984%Z;
  Lin [2150; 8136; 7695] [20387; 8200; 20386; 20385; 20384; 7694] 0%Z [(1%Z, 2150); (1%Z, 8136); (1%Z, 7695); ((-1)%Z, 8200); ((-2)%Z, 7694)] 9444732965739290427392%Z 36028797018963968%Z;
  Lin [2149; 8135; 7694] [20383; 8199; 20382; 20381; 20380; 7693] 0%Z [(1%Z, 2149); (1%Z, 8135); (1%Z, 7694); ((-1)%Z, 8199); ((-2)%Z, 7693)] 4722366482869645213696%Z 72057594037927936%Z;
  Lin [2148; 8134; 7693] [20379; 8198; 20378; 20377; 20376; 7692] 0%Z [(1%Z, 2148); (1%Z, 8134); (1%Z, 7693); ((-1)%Z, 8198); ((-2)%Z, 7692)] 2361183241434822606848%Z 144115188075855872%Z;
  Lin [2147; 8133; 7692] [20375; 8197; 20374; 20373; 20372; 7691] 0%Z [(1%Z, 2147); (1%Z, 8133); (1%Z, 7692); ((-1)%Z, 8197); ((-2)%Z, 7691)] 1180591620717411303424%Z 288230376151711744%Z;
  Lin [2146; 8132; 7691] [20371; 8196; 20370; 20369; 20368; 7690] 0%Z [(1%Z, 2146); (1%Z, 8132); (1%Z, 7691); ((-1)%Z, 8196); ((-2)%Z, 7690)] 590295810358705651712%Z 576460752303423488%Z;
  Lin [2145; 8131; 7690] [20367; 8195; 20366; 20365; 20364; 7689] 0%Z [(1%Z, 2145); (1%Z, 8131); (1%Z, 7690); ((-1)%Z, 8195); ((-2)%Z, 7689)] 295147905179352825856%Z 1152921504606846976%Z;
  Lin [2144; 8130; 7689] [20363; 8194; 20362; 20361; 20360; 7688] 0%Z [(1%Z, 2144); (1%Z, 8130); (1%Z, 7689); ((-1)%Z, 8194); ((-2)%Z, 7688)] 147573952589676412928%Z 2305843009213693952%Z;
  Lin [2143; 8129; 7688] [20359; 8193; 20358; 20357; 20356; 7687] 0%Z [(1%Z, 2143); (1%Z, 8129); (1%Z, 7688); ((-1)%Z, 8193); ((-2)%Z, 7687)] 73786976294838206464%Z 4611686018427387904%Z;
  Lin [2142; 8128; 7687] [20355; 8192; 20354; 20353; 20352; 7686] 0%Z [(1%Z, 2142); (1%Z, 8128); (1%Z, 7687); ((-1)%Z, 8192); ((-2)%Z, 7686)] 36893488147419103232%Z 9223372036854775808%Z;
  Lin [2141; 8127; 7686] [20351; 8191; 20350; 20349; 20348; 7685] 0%Z [(1%Z, 2141); (1%Z, 8127); (1%Z, 7686); ((-1)%Z, 8191); ((-2)%Z, 7685)] 18446744073709551616%Z 18446744073709551616%Z;
  Lin [2140; 8126; 7685] [20347; 8190; 20346; 20345; 20344; 7684] 0%Z [(1%Z, 2140); (1%Z, 8126); (1%Z, 7685); ((-1)%Z, 8190); ((-2)%Z, 7684)] 9223372036854775808%Z 36893488147419103232%Z;
  Lin [2139; 8125; 7684] [20343; 8189; 20342; 20341; 20340; 7683] 0%Z [(1%Z, 2139); (1%Z, 8125); (1%Z, 7684); ((-1)%Z, 8189); ((-2)%Z, 7683)] 4611686018427387904%Z 73786976294838206464%Z;
  Lin [2138; 8124; 7683] [20339; 8188; 20338; 20337; 20336; 7682] 0%Z [(1%Z, 2138); (1%Z, 8124); (1%Z, 7683); ((-1)%Z, 8188); ((-2)%Z, 7682)] 2305843009213693952%Z 147573952589676412928%Z;
  Lin [2137; 8123; 7682] [20335; 8187; 20334; 20333; 20332; 7681] 0%Z [(1%Z, 2137); (1%Z, 8123); (1%Z, 7682); ((-1)%Z, 8187); ((-2)%Z, 7681)] 1152921504606846976%Z 295147905179352825856%Z;
  Lin [2136; 8122; 7681] [20331; 8186; 20330; 20329; 20328; 7680] 0%Z [(1%Z, 2136); (1%Z, 8122); (1%Z, 7681); ((-1)%Z, 8186); ((-2)%Z, 7680)] 576460752303423488%Z 590295810358705651712%Z;
  Lin [2135; 8121; 7680] [20327; 8185; 20326; 20325; 20324; 7679] 0%Z [(1%Z, 2135); (1%Z, 8121); (1%Z, 7680); ((-1)%Z, 8185); ((-2)%Z, 7679)] 288230376151711744%Z 1180591620717411303424%Z;
  Lin [2134; 8120; 7679] [20323; 8184; 20322; 20321; 20320; 7678] 0%Z [(1%Z, 2134); (1%Z, 8120); (1%Z, 7679); ((-1)%Z, 8184); ((-2)%Z, 7678)] 144115188075855872%Z 2361183241434822606848%Z;
  Lin [2133; 8119; 7678] [20319; 8183; 20318; 20317; 20316; 7677] 0%Z [(1%Z, 2133); (1%Z, 8119); (1%Z, 7678); ((-1)%Z, 8183); ((-2)%Z, 7677)] 72057594037927936%Z 4722366482869645213696%Z;
  Lin [2132; 8118; 7677] [20315; 8182; 20314; 20313; 20312; 7676] 0%Z [(1%Z, 2132); (1%Z, 8118); (1%Z, 7677); ((-1)%Z, 8182); ((-2)%Z, 7676)] 36028797018963968%Z 9444732965739290427392%Z;
  Lin [2131; 8117; 7676] [20311; 8181; 20310; 20309; 20308; 7675] 0%Z [(1%Z, 2131); (1%Z, 8117); (1%Z, 7676); ((-1)%Z, 8181); ((-2)%Z, 7675)] 18014398509481984%Z 18889465931478580854784%Z;
  Lin [2130; 8116; 7675] [20307; 8180; 20306; 20305; 20304; 7674] 0%Z [(1%Z, 2130); (1%Z, 8116); (1%Z, 7675); ((-1)%Z, 8180); ((-2)%Z, 7674)] 9007199254740992%Z 37778931862957161709568%Z;
  Lin [2129; 8115; 7674] [20303; 8179; 20302; 20301; 20300; 7673] 0%Z [(1%Z, 2129); (1%Z, 8115); (1%Z, 7674); ((-1)%Z, 8179); ((-2)%Z, 7673)] 4503599627370496%Z 75557863725914323419136%Z;
  Lin [2128; 8114; 7673] [20299; 8178; 20298; 20297; 20296; 7672] 0%Z [(1%Z, 2128); (1%Z, 8114); (1%Z, 7673); ((-1)%Z, 8178); ((-2)%Z, 7672)] 2251799813685248%Z 151115727451828646838272%Z;
  Lin [2127; 8113; 7672] [20295; 8177; 20294; 20293; 20292; 7671] 0%Z [(1%Z, 2127); (1%Z, 8113); (1%Z, 7672); ((-1)%Z, 8177); ((-2)%Z, 7671)] 1125899906842624%Z 302231454903657293676544%Z;
  Lin [2126; 8112; 7671] [20291; 8176; 20290; 20289; 20288; 7670] 0%Z [(1%Z, 2126); (1%Z, 8112); (1%Z, 7671); ((-1)%Z, 8176); ((-2)%Z, 7670)] 562949953421312%Z 604462909807314587353088%Z;
  Lin [2125; 8111; 7670] [20287; 8175; 20286; 20285; 20284; 7669] 0%Z [(1%Z, 2125); (1%Z, 8111); (1%Z, 7670); ((-1)%Z, 8175); ((-2)%Z, 7669)] 281474976710656%Z 1208925819614629174706176%Z;
  Lin [2124; 8110; 7669] [20283; 8174; 20282; 20281; 20280; 7668] 0%Z [(1%Z, 2124); (1%Z, 8110); (1%Z, 7669); ((-1)%Z, 8174); ((-2)%Z, 7668)] 140737488355328%Z 2417851639229258349412352%Z;
  Lin [2123; 8109; 7668] [20279; 8173; 20278; 20277; 20276; 7667] 0%Z [(1%Z, 2123); (1%Z, 8109); (1%Z, 7668); ((-1)%Z, 8173); ((-2)%Z, 7667)] 70368744177664%Z 4835703278458516698824704%Z;
  Lin [2122; 8108; 7667] [20275; 8172; 20274; 20273; 20272; 7666] 0%Z [(1%Z, 2122); (1%Z, 8108); (1%Z, 7667); ((-1)%Z, 8172); ((-2)%Z, 7666)] 35184372088832%Z 9671406556917033397649408%Z;
  Lin [2121; 8107; 7666] [20271; 8171; 20270; 20269; 20268; 7665] 0%Z [(1%Z, 2121); (1%Z, 8107); (1%Z, 7666); ((-1)%Z, 8171); ((-2)%Z, 7665)] 17592186044416%Z 19342813113834066795298816%Z;
  Lin [2120; 8106; 7665] [20267; 8170; 20266; 20265; 20264; 7664] 0%Z [(1%Z, 2120); (1%Z, 8106); (1%Z, 7665); ((-1)%Z, 8170); ((-2)%Z, 7664)] 8796093022208%Z 38685626227668133590597632%Z;
  Lin [2119; 8105; 7664] [20263; 8169; 20262; 20261; 20260; 7663] 0%Z [(1%Z, 2119); (1%Z, 8105); (1%Z, 7664); ((-1)%Z, 8169); ((-2)%Z, 7663)] 4398046511104%Z 77371252455336267181195264%Z;
  Lin [2118; 8104; 7663] [20259; 8168; 20258; 20257; 20256; 7662] 0%Z [(1%Z, 2118); (1%Z, 8104); (1%Z, 7663); ((-1)%Z, 8168); ((-2)%Z, 7662)] 2199023255552%Z 154742504910672534362390528%Z;
  Lin [2117; 8103; 7662] [20255; 8167; 20254; 20253; 20252; 7661] 0%Z [(1%Z, 2117); (1%Z, 8103); (1%Z, 7662); ((-1)%Z, 8167); ((-2)%Z, 7661)] 1099511627776%Z 309485009821345068724781056%Z;
  Lin [2116; 8102; 7661] [20251; 8166; 20250; 20249; 20248; 7660] 0%Z [(1%Z, 2116); (1%Z, 8102); (1%Z, 7661); ((-1)%Z, 8166); ((-2)%Z, 7660)] 549755813888%Z 618970019642690137449562112%Z;
  Lin [2115; 8101; 7660] [20247; 8165; 20246; 20245; 20244; 7659] 0%Z [(1%Z, 2115); (1%Z, 8101); (1%Z, 7660); ((-1)%Z, 8165); ((-2)%Z, 7659)] 274877906944%Z 1237940039285380274899124224%Z;
  Lin [2114; 8100; 7659] [20243; 8164; 20242; 20241; 20240; 7658] 0%Z [(1%Z, 2114); (1%Z, 8100); (1%Z, 7659); ((-1)%Z, 8164); ((-2)%Z, 7658)] 137438953472%Z 2475880078570760549798248448%Z;
  Lin [2113; 8099; 7658] [20239; 8163; 20238; 20237; 20236; 7657] 0%Z [(1%Z, 2113); (1%Z, 8099); (1%Z, 7658); ((-1)%Z, 8163); ((-2)%Z, 7657)] 68719476736%Z 4951760157141521099596496896%Z;
  Lin [2112; 8098; 7657] [20235; 8162; 20234; 20233; 20232; 7656] 0%Z [(1%Z, 2112); (1%Z, 8098); (1%Z, 7657); ((-1)%Z, 8162); ((-2)%Z, 7656)] 34359738368%Z 9903520314283042199192993792%Z;
  Lin [2111; 7591; 7656] [20231; 8161; 20230; 20229; 20228; 7655] 0%Z [(1%Z, 2111); (1%Z, 7591); (1%Z, 7656); ((-1)%Z, 8161); ((-2)%Z, 7655)] 17179869184%Z 19807040628566084398385987584%Z;
  Lin [2238; 8223] [28128; 7782] 0%Z [(1%Z, 2238); (1%Z, 8223); ((-1)%Z, 28128); ((-2)%Z, 7782)] 79228162514264337593543950336%Z 4294967296%Z;
  Lin [2237; 8222; 7782] [20227; 8286; 20226; 20225; 20224; 7781] 0%Z [(1%Z, 2237); (1%Z, 8222); (1%Z, 7782); ((-1)%Z, 8286); ((-2)%Z, 7781)] 39614081257132168796771975168%Z 8589934592%Z;
  Lin [2236; 8221; 7781] [20223; 8285; 20222; 20221; 20220; 7780] 0%Z [(1%Z, 2236); (1%Z, 8221); (1%Z, 7781); ((-1)%Z, 8285); ((-2)%Z, 7780)] 19807040628566084398385987584%Z 17179869184%Z;
  Lin [2235; 8220; 7780] [20219; 8284; 20218; 20217; 20216; 7779] 0%Z [(1%Z, 2235); (1%Z, 8220); (1%Z, 7780); ((-1)%Z, 8284); ((-2)%Z, 7779)] 9903520314283042199192993792%Z 34359738368%Z;
  Lin [2234; 8219; 7779] [20215; 8283; 20214; 20213; 20212; 7778] 0%Z [(1%Z, 2234); (1%Z, 8219); (1%Z, 7779); ((-1)%Z, 8283); ((-2)%Z, 7778)] 4951760157141521099596496896%Z 68719476736%Z;
  Lin [2233; 8218; 7778] [20211; 8282; 20210; 20209; 20208; 7777] 0%Z [(1%Z, 2233); (1%Z, 8218); (1%Z, 7778); ((-1)%Z, 8282); ((-2)%Z, 7777)] 2475880078570760549798248448%Z 137438953472%Z;
  Lin [2232; 8217; 7777] [20207; 8281; 20206; 20205; 20204; 7776] 0%Z [(1%Z, 2232); (1%Z, 8217); (1%Z, 7777); ((-1)%Z, 8281); ((-2)%Z, 7776)] 1237940039285380274899124224%Z 274877906944%Z;
  Lin [2231; 8216; 7776] [20203; 8280; 20202; 20201; 20200; 7775] 0%Z [(1%Z, 2231); (1%Z, 8216); (1%Z, 7776); ((-1)%Z, 8280); ((-2)%Z, 7775)] 618970019642690137449562112%Z 549755813888%Z;
  Lin [2230; 8215; 7775] [20199; 8279; 20198; 20197; 20196; 7774] 0%Z [(1%Z, 2230); (1%Z, 8215); (1%Z, 7775); ((-1)%Z, 8279); ((-2)%Z, 7774)] 309485009821345068724781056%Z 1099511627776%Z;
  Lin [2229; 8214; 7774] [20195; 8278; 20194; 20193; 20192; 7773] 0%Z [(1%Z, 2229); (1%Z, 8214); (1%Z, 7774); ((-1)%Z, 8278); ((-2)%Z, 7773)] 154742504910672534362390528%Z 2199023255552%Z;
  Lin [2228; 8213; 7773] [20191; 8277; 20190; 20189; 20188; 7772] 0%Z [(1%Z, 2228); (1%Z, 8213); (1%Z, 7773); ((-1)%Z, 8277); ((-2)%Z, 7772)] 77371252455336267181195264%Z 4398046511104%Z;
  Lin [2227; 8212; 7772] [20187; 8276; 20186; 20185; 20184; 7771] 0%Z [(1%Z, 2227); (1%Z, 8212); (1%Z, 7772); ((-1)%Z, 8276); ((-2)%Z, 7771)] 38685626227668133590597632%Z 8796093022208%Z;
  Lin [2226; 8211; 7771] [20183; 8275; 20182; 20181; 20180; 7770] 0%Z [(1%Z, 2226); (1%Z, 8211); (1%Z, 7771); ((-1)%Z, 8275); ((-2)%Z, 7770)] 19342813113834066795298816%Z 17592186044416%Z;
  Lin [2225; 8210; 7770] [20179; 8274; 20178; 20177; 20176; 7769] 0%Z [(1%Z, 2225); (1%Z, 8210); (1%Z, 7770); ((-1)%Z, 8274); ((-2)%Z, 7769)] 9671406556917033397649408%Z 35184372088832%Z;
  Lin [2224; 8209; 7769] [20175; 8273; 20174; 20173; 20172; 7768] 0%Z [(1%Z, 2224); (1%Z, 8209); (1%Z, 7769); ((-1)%Z, 8273); ((-2)%Z, 7768)] 4835703278458516698824704%Z 70368744177664%Z;
  Lin [2223; 8208; 7768] [20171; 8272; 20170; 20169; 20168; 7767] 0%Z [(1%Z, 2223); (1%Z, 8208); (1%Z, 7768); ((-1)%Z, 8272); ((-2)%Z, 7767)] 2417851639229258349412352%Z 140737488355328%Z].
Definition mult2_64_facts_20 : list lin_fact := [
  Lin [2222; 8207; 7767] [20167; 8271; 20166; 20165; 20164; 7766] 0%Z [(1%Z, 2222); (1%Z, 8207); (1%Z, 7767); ((-1)%Z, 8271); ((-2)%Z, 7766)] 1208925819614629174706176%Z 281474976710656%Z;
  Lin [2221; 8206; 7766] [20163; 8270; 20162; 20161; 20160; 7765] 0%Z [(1%Z, 2221); (1%Z, 8206); (1%Z, 7766); ((-1)%Z, 8270); ((-2)%Z, 7765)] 604462909807314587353088%Z 562949953421312%Z;
  Lin [2220; 8205; 7765] [20159; 8269; 20158; 20157; 20156; 7764] 0%Z [(1%Z, 2220); (1%Z, 8205); (1%Z, 7765); ((-1)%Z, 8269); ((-2)%Z, 7764)] 302231454903657293676544%Z 1125899906842624%Z;
  Lin [2219; 8204; 7764] [20155; 8268; 20154; 20153; 20152; 7763] 0%Z [(1%Z, 2219); (1%Z, 8204); (1%Z, 7764); ((-1)%Z, 8268); ((-2)%Z, 7763)] 151115727451828646838272%Z 2251799813685248%Z;
  Lin [2218; 8203; 7763] [20151; 8267; 20150; 20149; 20148; 7762] 0%Z [(1%Z, 2218); (1%Z, 8203); (1%Z, 7763); ((-1)%Z, 8267); ((-2)%Z, 7762)] 75557863725914323419136%Z 4503599627370496%Z;
  Lin [2217; 8202; 7762] [20147; 8266; 20146; 20145; 20144; 7761] 0%Z [(1%Z, 2217); (1%Z, 8202); (1%Z, 7762); ((-1)%Z, 8266); ((-2)%Z, 7761)] 37778931862957161709568%Z 9007199254740992%Z;
  Lin [2216; 8201; 7761] [20143; 8265; 20142; 20141; 20140; 7760] 0%Z [(1%Z, 2216); (1%Z, 8201); (1%Z, 7761); ((-1)%Z, 8265); ((-2)%Z, 7760)] 18889465931478580854784%Z 18014398509481984%Z;
  Lin [2215; 8200; 7760] [20139; 8264; 20138; 20137; 20136; 7759] 0%Z [(1%Z, 2215); (1%Z, 8200); (1%Z, 7760); ((-1)%Z, 8264); ((-2)%Z, 7759)] 9444732965739290427392%Z 36028797018963968%Z;
  Lin [2214; 8199; 7759] [20135; 8263; 20134; 20133; 20132; 7758] 0%Z [(1%Z, 2214); (1%Z, 8199); (1%Z, 7759); ((-1)%Z, 8263); ((-2)%Z, 7758)] 4722366482869645213696%Z 72057594037927936%Z;
  Lin [2213; 8198; 7758] [20131; 8262; 20130; 20129; 20128; 7757] 0%Z [(1%Z, 2213); (1%Z, 8198); (1%Z, 7758); ((-1)%Z, 8262); ((-2)%Z, 7757)] 2361183241434822606848%Z 144115188075855872%Z;
  Lin [2212; 8197; 7757] [20127; 8261; 20126; 20125; 20124; 7756] 0%Z [(1%Z, 2212); (1%Z, 8197); (1%Z, 7757); ((-1)%Z, 8261); ((-2)%Z, 7756)] 1180591620717411303424%Z 288230376151711744%Z;
  Lin [2211; 8196; 7756] [20123; 8260; 20122; 20121; 20120; 7755] 0%Z [(1%Z, 2211); (1%Z, 8196); (1%Z, 7756); ((-1)%Z, 8260); ((-2)%Z, 7755)] 590295810358705651712%Z 576460752303423488%Z;
  Lin [2210; 8195; 7755] [20119; 8259; 20118; 20117; 20116; 7754] 0%Z [(1%Z, 2210); (1%Z, 8195); (1%Z, 7755); ((-1)%Z, 8259); ((-2)%Z, 7754)] 295147905179352825856%Z 1152921504606846976%Z;
  Lin [2209; 8194; 7754] [20115; 8258; 20114; 20113; 20112; 7753] 0%Z [(1%Z, 2209); (1%Z, 8194); (1%Z, 7754); ((-1)%Z, 8258); ((-2)%Z, 7753)] 147573952589676412928%Z 2305843009213693952%Z;
  Lin [2208; 8193; 7753] [20111; 8257; 20110; 20109; 20108; 7752] 0%Z [(1%Z, 2208); (1%Z, 8193); (1%Z, 7753); ((-1)%Z, 8257); ((-2)%Z, 7752)] 73786976294838206464%Z 4611686018427387904%Z;
  Lin [2207; 8192; 7752] [20107; 8256; 20106; 20105; 20104; 7751] 0%Z [(1%Z, 2207); (1%Z, 8192); (1%Z, 7752); ((-1)%Z, 8256); ((-2)%Z, 7751)] 36893488147419103232%Z 9223372036854775808%Z;
  Lin [2206; 8191; 7751] [20103; 8255; 20102; 20101; 20100; 7750] 0%Z [(1%Z, 2206); (1%Z, 8191); (1%Z, 7751); ((-1)%Z, 8255); ((-2)%Z, 7750)] 18446744073709551616%Z 18446744073709551616%Z;
  Lin [2205; 8190; 7750] [20099; 8254; 20098; 20097; 20096; 7749] 0%Z [(1%Z, 2205); (1%Z, 8190); (1%Z, 7750); ((-1)%Z, 8254); ((-2)%Z, 7749)] 9223372036854775808%Z 36893488147419103232%Z;
  Lin [2204; 8189; 7749] [20095; 8253; 20094; 20093; 20092; 7748] 0%Z [(1%Z, 2204); (1%Z, 8189); (1%Z, 7749); ((-1)%Z, 8253); ((-2)%Z, 7748)] 4611686018427387904%Z 73786976294838206464%Z;
  Lin [2203; 8188; 7748] [20091; 8252; 20090; 20089; 20088; 7747] 0%Z [(1%Z, 2203); (1%Z, 8188); (1%Z, 7748); ((-1)%Z, 8252); ((-2)%Z, 7747)] 2305843009213693952%Z 147573952589676412928%Z;
  Lin [2202; 8187; 7747] [20087; 8251; 20086; 20085; 20084; 7746] 0%Z [(1%Z, 2202); (1%Z, 8187); (1%Z, 7747); ((-1)%Z, 8251); ((-2)%Z, 7746)] 1152921504606846976%Z 295147905179352825856%Z;
  Lin [2201; 8186; 7746] [20083; 8250; 20082; 20081; 20080; 7745] 0%Z [(1%Z, 2201); (1%Z, 8186); (1%Z, 7746); ((-1)%Z, 8250); ((-2)%Z, 7745)] 576460752303423488%Z 590295810358705651712%Z;
  Lin [2200; 8185; 7745] [20079; 8249; 20078; 20077; 20076; 7744] 0%Z [(1%Z, 2200); (1%Z, 8185); (1%Z, 7745); ((-1)%Z, 8249); ((-2)%Z, 7744)] 288230376151711744%Z 1180591620717411303424%Z;
  Lin [2199; 8184; 7744] [20075; 8248; 20074; 20073; 20072; 7743] 0%Z [(1%Z, 2199); (1%Z, 8184); (1%Z, 7744); ((-1)%Z, 8248); ((-2)%Z, 7743)] 144115188075855872%Z 2361183241434822606848%Z;
  Lin [2198; 8183; 7743] [20071; 8247; 20070; 20069; 20068; 7742] 0%Z [(1%Z, 2198); (1%Z, 8183); (1%Z, 7743); ((-1)%Z, 8247); ((-2)%Z, 7742)] 72057594037927936%Z 4722366482869645213696%Z;
  Lin [2197; 8182; 7742] [20067; 8246; 20066; 20065; 20064; 7741] 0%Z [(1%Z, 2197); (1%Z, 8182); (1%Z, 7742); ((-1)%Z, 8246); ((-2)%Z, 7741)] 36028797018963968%Z 9444732965739290427392%Z;
  Lin [2196; 8181; 7741] [20063; 8245; 20062; 20061; 20060; 7740] 0%Z [(1%Z, 2196); (1%Z, 8181); (1%Z, 7741); ((-1)%Z, 8245); ((-2)%Z, 7740)] 18014398509481984%Z 18889465931478580854784%Z;
  Lin [2195; 8180; 7740] [20059; 8244; 20058; 20057; 20056; 7739] 0%Z [(1%Z, 2195); (1%Z, 8180); (1%Z, 7740); ((-1)%Z, 8244); ((-2)%Z, 7739)] 9007199254740992%Z 37778931862957161709568%Z;
  Lin [2194; 8179; 7739] [20055; 8243; 20054; 20053; 20052; 7738] 0%Z [(1%Z, 2194); (1%Z, 8179); (1%Z, 7739); ((-1)%Z, 8243); ((-2)%Z, 7738)] 4503599627370496%Z 75557863725914323419136%Z;
  Lin [2193; 8178; 7738] [20051; 8242; 20050; 20049; 20048; 7737] 0%Z [(1%Z, 2193); (1%Z, 8178); (1%Z, 7738); ((-1)%Z, 8242); ((-2)%Z, 7737)] 2251799813685248%Z 151115727451828646838272%Z;
  Lin [2192; 8177; 7737] [20047; 8241; 20046; 20045; 20044; 7736] 0%Z [(1%Z, 2192); (1%Z, 8177); (1%Z, 7737); ((-1)%Z, 8241); ((-2)%Z, 7736)] 1125899906842624%Z 302231454903657293676544%Z;
  Lin [2191; 8176; 7736] [20043; 8240; 20042; 20041; 20040; 7735] 0%Z [(1%Z, 2191); (1%Z, 8176); (1%Z, 7736); ((-1)%Z, 8240); ((-2)%Z, 7735)] 562949953421312%Z 604462909807314587353088%Z;
  Lin [2190; 8175; 7735] [20039; 8239; 20038; 20037; 20036; 7734] 0%Z [(1%Z, 2190); (1%Z, 8175); (1%Z, 7735); ((-1)%Z, 8239); ((-2)%Z, 7734)] 281474976710656%Z 1208925819614629174706176%Z;
  Lin [2189; 8174; 7734] [20035; 8238; 20034; 20033; 20032; 7733] 0%Z [(1%Z, 2189); (1%Z, 8174); (1%Z, 7734); ((-1)%Z, 8238); ((-2)%Z, 7733)] 140737488355328%Z 2417851639229258349412352%Z;
  Lin [2188; 8173; 7733] [20031; 8237; 20030; 20029; 20028; 7732] 0%Z [(1%Z, 2188); (1%Z, 8173); (1%Z, 7733); ((-1)%Z, 8237); ((-2)%Z, 7732)] 70368744177664%Z 4835703278458516698824704%Z;
  Lin [2187; 8172; 7732] [20027; 8236; 20026; 20025; 20024; 7731] 0%Z [(1%Z, 2187); (1%Z, 8172); (1%Z, 7732); ((-1)%Z, 8236); ((-2)%Z, 7731)] 35184372088832%Z 9671406556917033397649408%Z;
  Lin [2186; 8171; 7731] [20023; 8235; 20022; 20021; 20020; 7730] 0%Z [(1%Z, 2186); (1%Z, 8171); (1%Z, 7731); ((-1)%Z, 8235); ((-2)%Z, 7730)] 17592186044416%Z 19342813113834066795298816%Z;
  Lin [2185; 8170; 7730] [20019; 8234; 20018; 20017; 20016; 7729] 0%Z [(1%Z, 2185); (1%Z, 8170); (1%Z, 7730); ((-1)%Z, 8234); ((-2)%Z, 7729)] 8796093022208%Z 38685626227668133590597632%Z;
  Lin [2184; 8169; 7729] [20015; 8233; 20014; 20013; 20012; 7728] 0%Z [(1%Z, 2184); (1%Z, 8169); (1%Z, 7729); ((-1)%Z, 8233); ((-2)%Z, 7728)] 4398046511104%Z 77371252455336267181195264%Z;
  Lin [2183; 8168; 7728] [20011; 8232; 20010; 20009; 20008; 7727] 0%Z [(1%Z, 2183); (1%Z, 8168); (1%Z, 7728); ((-1)%Z, 8232); ((-2)%Z, 7727)] 2199023255552%Z 154742504910672534362390528%Z;
  Lin [2182; 8167; 7727] [20007; 8231; 20006; 20005; 20004; 7726] 0%Z [(1%Z, 2182); (1%Z, 8167); (1%Z, 7727); ((-1)%Z, 8231); ((-2)%Z, 7726)] 1099511627776%Z 309485009821345068724781056%Z;
  Lin [2181; 8166; 7726] [20003; 8230; 20002; 20001; 20000; 7725] 0%Z [(1%Z, 2181); (1%Z, 8166); (1%Z, 7726); ((-1)%Z, 8230); ((-2)%Z, 7725)] 549755813888%Z 618970019642690137449562112%Z;
  Lin [2180; 8165; 7725] [19999; 8229; 19998; 19997; 19996; 7724] 0%Z [(1%Z, 2180); (1%Z, 8165); (1%Z, 7725); ((-1)%Z, 8229); ((-2)%Z, 7724)] 274877906944%Z 1237940039285380274899124224%Z;
  Lin [2179; 8164; 7724] [19995; 8228; 19994; 19993; 19992; 7723] 0%Z [(1%Z, 2179); (1%Z, 8164); (1%Z, 7724); ((-1)%Z, 8228); ((-2)%Z, 7723)] 137438953472%Z 2475880078570760549798248448%Z;
  Lin [2178; 8163; 7723] [19991; 8227; 19990; 19989; 19988; 7722] 0%Z [(1%Z, 2178); (1%Z, 8163); (1%Z, 7723); ((-1)%Z, 8227); ((-2)%Z, 7722)] 68719476736%Z 4951760157141521099596496896%Z;
  Lin [2177; 8162; 7722] [19987; 8226; 19986; 19985; 19984; 7721] 0%Z [(1%Z, 2177); (1%Z, 8162); (1%Z, 7722); ((-1)%Z, 8226); ((-2)%Z, 7721)] 34359738368%Z 9903520314283042199192993792%Z;
  Lin [2176; 8161; 7721] [19983; 8225; 19982; 19981; 19980; 7720] 0%Z [(1%Z, 2176); (1%Z, 8161); (1%Z, 7721); ((-1)%Z, 8225); ((-2)%Z, 7720)] 17179869184%Z 19807040628566084398385987584%Z;
  Lin [2175; 7655; 7720] [19979; 8224; 19978; 19977; 19976; 7719] 0%Z [(1%Z, 2175); (1%Z, 7655); (1%Z, 7720); ((-1)%Z, 8224); ((-2)%Z, 7719)] 8589934592%Z 39614081257132168796771975168%Z;
  Lin [2302; 8286] [28129; 8350] 0%Z [(1%Z, 2302); (1%Z, 8286); ((-1)%Z, 28129); ((-2)%Z, 8350)] 39614081257132168796771975168%Z 8589934592%Z;
  Lin [2301; 8285; 8350] [19975; 8861; 19974; 19973; 19972; 8349] 0%Z [(1%Z, 2301); (1%Z, 8285); (1%Z, 8350); ((-1)%Z, 8861); ((-2)%Z, 8349)] 19807040628566084398385987584%Z 17179869184%Z;
  Lin [2300; 8284; 8349] [19971; 8860; 19970; 19969; 19968; 8348] 0%Z [(1%Z, 2300); (1%Z, 8284); (1%Z, 8349); ((-1)%Z, 8860); ((-2)%Z, 8348)] 9903520314283042199192993792%Z 34359738368%Z;
  Lin [2299; 8283; 8348] [19967; 8859; 19966; 19965; 19964; 8347] 0%Z [(1%Z, 2299); (1%Z, 8283); (1%Z, 8348); ((-1)%Z, 8859); ((-2)%Z, 8347)] 4951760157141521099596496896%Z 68719476736%Z;
  Lin [2298; 8282; 8347] [19963; 8858; 19962; 19961; 19960; 8346] 0%Z [(1%Z, 2298); (1%Z, 8282); (1%Z, 8347); ((-1)%Z, 8858); ((-2)%Z, 8346)] 2475880078570760549798248448%Z 137438953472%Z;
  Lin [2297; 8281; 8346] [19959; 8857; 19958; 19957; 19956; 8345] 0%Z [(1%Z, 2297); (1%Z, 8281); (1%Z, 8346); ((-1)%Z, 8857); ((-2)%Z, 8345)] 1237940039285380274899124224%Z 274877906944%Z;
  Lin [2296; 8280; 8345] [19955; 8856; 19954; 19953; 19952; 8344] 0%Z [(1%Z, 2296); (1%Z, 8280); (1%Z, 8345); ((-1)%Z, 8856); ((-2)%Z, 8344)] 618970019642690137449562112%Z 549755813888%Z;
  Lin [2295; 8279; 8344] [19951; 8855; 19950; 19949; 19948; 8343] 0%Z [(1%Z, 2295); (1%Z, 8279); (1%Z, 8344); ((-1)%Z, 8855); ((-2)%Z, 8343)] 309485009821345068724781056%Z 1099511627776%Z;
  Lin [2294; 8278; 8343] [19947; 8854; 19946; 19945; 19944; 8342] 0%Z [(1%Z, 2294); (1%Z, 8278); (1%Z, 8343); ((-1)%Z, 8854); ((-2)%Z, 8342)] 154742504910672534362390528%Z 2199023255552%Z;
  Lin [2293; 8277; 8342] [19943; 8853; 19942; 19941; 19940; 8341] 0%Z [(1%Z, 2293); (1%Z, 8277); (1%Z, 8342); ((-1)%Z, 8853); ((-2)%Z, 8341)] 77371252455336267181195264%Z 4398046511104%Z;
  Lin [2292; 8276; 8341] [19939; 8852; 19938; 19937; 19936; 8340] 0%Z [(1%Z, 2292); (1%Z, 8276); (1%Z, 8341); ((-1)%Z, 8852); ((-2)%Z, 8340)] 38685626227668133590597632%Z 8796093022208%Z;
  Lin [2291; 8275; 8340] [19935; 8851; 19934; 19933; 19932; 8339] 0%Z [(1%Z, 2291); (1%Z, 8275); (1%Z, 8340); ((-1)%Z, 8851); ((-2)%Z, 8339)] 19342813113834066795298816%Z 17592186044416%Z;
  Lin [2290; 8274; 8339] [19931; 8850; 19930; 19929; 19928; 8338] 0%Z [(1%Z, 2290); (1%Z, 8274); (1%Z, 8339); ((-1)%Z, 8850); ((-2)%Z, 8338)] 9671406556917033397649408%Z 35184372088832%Z;
  Lin [2289; 8273; 8338] [19927; 8849; 19926; 19925; 19924; 8337] 0%Z [(1%Z, 2289); (1%Z, 8273); (1%Z, 8338); ((-1)%Z, 8849); ((-2)%Z, 8337)] 4835703278458516698824704%Z 70368744177664%Z;
  Lin [2288; 8272; 8337] [19923; 8848; 19922; 19921; 19920; 8336] 0%Z [(1%Z, 2288); (1%Z, 8272); (1%Z, 8337); ((-1)%Z, 8848); ((-2)%Z, 8336)] 2417851639229258349412352%Z 140737488355328%Z;
  Lin [2287; 8271; 8336] [19919; 8847; 19918; 19917; 19916; 8335] 0%Z [(1%Z, 2287); (1%Z, 8271); (1%Z, 8336); ((-1)%Z, 8847); ((-2)%Z, 8335)] 1208925819614629174706176%Z 281474976710656%Z;
  Lin [2286; 8270; 8335] [19915; 8846; 19914; 19913; 19912; 8334] 0%Z [(1%Z, 2286); (1%Z, 8270); (1%Z, 8335); ((-1)%Z, 8846); ((-2)%Z, 8334)] 604462909807314587353088%Z 562949953421312%Z;
  Lin [2285; 8269; 8334] [19911; 8845; 19910; 19909; 19908; 8333] 0%Z [(1%Z, 2285); (1%Z, 8269); (1%Z, 8334); ((-1)%Z, 8845); ((-2)%Z, 8333)] 302231454903657293676544%Z 1125899906842624%Z;
  Lin [2284; 8268; 8333] [19907; 8844; 19906; 19905; 19904; 8332] 0%Z [(1%Z, 2284); (1%Z, 8268); (1%Z, 8333); ((-1)%Z, 8844); ((-2)%Z, 8332)] 151115727451828646838272%Z 2251799813685248%Z;
  Lin [2283; 8267; 8332] [19903; 8843; 19902; 19901; 19900; 8331] 0%Z [(1%Z, 2283); (1%Z, 8267); (1%Z, 8332); ((-1)%Z, 8843); ((-2)%Z, 8331)] 75557863725914323419136%Z 4503599627370496%Z;
  Lin [2282; 8266; 8331] [19899; 8842; 19898; 19897; 19896; 8330] 0%Z [(1%Z, 2282); (1%Z, 8266); (1%Z, 8331); ((-1)%Z, 8842); ((-2)%Z, 8330)] 37778931862957161709568%Z 9007199254740992%Z;
  Lin [2281; 8265; 8330] [19895; 8841; 19894; 19893; 19892; 8329] 0%Z [(1%Z, 2281); (1%Z, 8265); (1%Z, 8330); ((-1)%Z, 8841); ((-2)%Z, 8329)] 18889465931478580854784%Z 18014398509481984%Z;
  Lin [2280; 8264; 8329] [19891; 8840; 19890; 19889; 19888; 8328] 0%Z [(1%Z, 2280); (1%Z, 8264); (1%Z, 8329); ((-1)%Z, 8840); ((-2)%Z, 8328)] 9444732965739290427392%Z 36028797018963968%Z;
  Lin [2279; 8263; 8328] [19887; 8839; 19886; 19885; 19884; 8327] 0%Z [(1%Z, 2279); (1%Z, 8263); (1%Z, 8328); ((-1)%Z, 8839); ((-2)%Z, 8327)] 4722366482869645213696%Z 72057594037927936%Z;
  Lin [2278; 8262; 8327] [19883; 8838; 19882; 19881; 19880; 8326] 0%Z [(1%Z, 2278); (1%Z, 8262); (1%Z, 8327); ((-1)%Z, 8838); ((-2)%Z, 8326)] 2361183241434822606848%Z 144115188075855872%Z;
  Lin [2277; 8261; 8326] [19879; 8837; 19878; 19877; 19876; 8325] 0%Z [(1%Z, 2277); (1%Z, 8261); (1%Z, 8326); ((-1)%Z, 8837); ((-2)%Z, 8325)] 1180591620717411303424%Z 288230376151711744%Z;
  Lin [2276; 8260; 8325] [19875; 8836; 19874; 19873; 19872; 8324] 0%Z [(1%Z, 2276); (1%Z, 8260); (1%Z, 8325); ((-1)%Z, 8836); ((-2)%Z, 8324)] 590295810358705651712%Z 576460752303423488%Z;
  Lin [2275; 8259; 8324] [19871; 8835; 19870; 19869; 19868; 8323] 0%Z [(1%Z, 2275); (1%Z, 8259); (1%Z, 8324); ((-1)%Z, 8835); ((-2)%Z, 8323)] 295147905179352825856%Z 1152921504606846976%Z;
  Lin [2274; 8258; 8323] [19867; 8834; 19866; 19865; 19864; 8322] 0%Z [(1%Z, 2274); (1%Z, 8258); (1%Z, 8323); ((-1)%Z, 8834); ((-2)%Z, 8322)] 147573952589676412928%Z 2305843009213693952%Z;
  Lin [2273; 8257; 8322] [19863; 8833; 19862; 19861; 19860; 8321] 0%Z [(1%Z, 2273); (1%Z, 8257); (1%Z, 8322); ((-1)%Z, 8833); ((-2)%Z, 8321)] 73786976294838206464%Z 4611686018427387904%Z;
  Lin [2272; 8256; 8321] [19859; 8832; 19858; 19857; 19856; 8320] 0%Z [(1%Z, 2272); (1%Z, 8256); (1%Z, 8321); ((-1)%Z, 8832); ((-2)%Z, 8320)] 36893488147419103232%Z 9223372036854775808%Z;
  Lin [2271; 8255; 8320] [19855; 8831; 19854; 19853; 19852; 8319] 0%Z [(1%Z, 2271); (1%Z, 8255); (1%Z, 8320); ((-1)%Z, 8831); ((-2)%Z, 8319)] 18446744073709551616%Z 18446744073709551616%Z;
  Lin [2270; 8254; 8319] [19851; 8830; 19850; 19849; 19848; 8318] 0%Z [(1%Z, 2270); (1%Z, 8254); (1%Z, 8319); ((-1)%Z, 8830); ((-2)%Z, 8318)] 9223372036854775808%Z 36893488147419103232%Z;
  Lin [2269; 8253; 8318] [19847; 8829; 19846; 19845; 19844; 8317] 0%Z [(1%Z, 2269); (1%Z, 8253); (1%Z, 8318); ((-1)%Z, 8829); ((-2)%Z, 8317)] 4611686018427387904%Z 73786976294838206464%Z;
  Lin [2268; 8252; 8317] [19843; 8828; 19842; 19841; 19840; 8316] 0%Z [(1%Z, 2268); (1%Z, 8252); (1%Z, 8317); ((-1)%Z, 8828); ((-2)%Z, 8316)] 2305843009213693952%Z 147573952589676412928%Z;
  Lin [2267; 8251; 8316] [19839; 8827; 19838; 19837; 19836; 8315] 0%Z [(1%Z, 2267); (1%Z, 8251); (1%Z, 8316); ((-1)%Z, 8827); ((-2)%Z, 8315)] 1152921504606846976%Z 295147905179352825856%Z;
  Lin [2266; 8250; 8315] [19835; 8826; 19834; 19833; 19832; 8314] 0%Z [(1%Z, 2266); (1%Z, 8250); (1%Z, 8315); ((-1)%Z, 8826); ((-2)%Z, 8314)] 576460752303423488%Z 590295810358705651712%Z;
  Lin [2265; 8249; 8314] [19831; 8825; 19830; 19829; 19828; 8313] 0%Z [(1%Z, 2265); (1%Z, 8249); (1%Z, 8314); ((-1)%Z, 8825); ((-2)%Z, 8313)] 288230376151711744%Z 1180591620717411303424%Z;
  Lin [2264; 8248; 8313] [19827; 8824; 19826; 19825; 19824; 8312] 0%Z [(1%Z, 2264); (1%Z, 8248); (1%Z, 8313); ((-1)%Z, 8824); ((-2)%Z, 8312)] 144115188075855872%Z 2361183241434822606848%Z;
  Lin [2263; 8247; 8312] [19823; 8823; 19822; 19821; 19820; 8311] 0%Z [(1%Z, 2263); (1%Z, 8247); (1%Z, 8312); ((-1)%Z, 8823); ((-2)%Z, 8311)] 72057594037927936%Z 4722366482869645213696%Z;
  Lin [2262; 8246; 8311] [19819; 8822; 19818; 19817; 19816; 8310] 0%Z [(1%Z, 2262); (1%Z, 8246); (1%Z, 8311); ((-1)%Z, 8822); ((-2)%Z, 8310)] 36028797018963968%Z 9444732965739290427392%Z;
  Lin [2261; 8245; 8310] [19815; 8821; 19814; 19813; 19812; 8309] 0%Z [(1%Z, 2261); (1%Z, 8245); (1%Z, 8310); ((-1)%Z, 8821); ((-2)%Z, 8309)] 18014398509481984%Z 18889465931478580854784%Z;
  Lin [2260; 8244; 8309] [19811; 8820; 19810; 19809; 19808; 8308] 0%Z [(1%Z, 2260); (1%Z, 8244); (1%Z, 8309); ((-1)%Z, 8820); ((-2)%Z, 8308)] 9007199254740992%Z 37778931862957161709568%Z;
  Lin [2259; 8243; 8308] [19807; 8819; 19806; 19805; 19804; 8307] 0%Z [(1%Z, 2259); (1%Z, 8243); (1%Z, 8308); ((-1)%Z, 8819); ((-2)%Z, 8307)] 4503599627370496%Z 75557863725914323419136%Z;
  Lin [2258; 8242; 8307] [19803; 8818; 19802; 19801; 19800; 8306] 0%Z [(1%Z, 2258); (1%Z, 8242); (1%Z, 8307); ((-1)%Z, 8818); ((-2)%Z, 8306)] 2251799813685248%Z 151115727451828646838272%Z;
  Lin [2257; 8241; 8306] [19799; 8817; 19798; 19797; 19796; 8305] 0%Z [(1%Z, 2257); (1%Z, 8241); (1%Z, 8306); ((-1)%Z, 8817); ((-2)%Z, 8305)] 1125899906842624%Z 302231454903657293676544%Z;
  Lin [2256; 8240; 8305] [19795; 8816; 19794; 19793; 19792; 8304] 0%Z [(1%Z, 2256); (1%Z, 8240); (1%Z, 8305); ((-1)%Z, 8816); ((-2)%Z, 8304)] 562949953421312%Z 604462909807314587353088%Z;
  Lin [2255; 8239; 8304] [19791; 8815; 19790; 19789; 19788; 8303] 0%Z [(1%Z, 2255); (1%Z, 8239); (1%Z, 8304); ((-1)%Z, 8815); ((-2)%Z, 8303)] 281474976710656%Z 1208925819614629174706176%Z;
  Lin [2254; 8238; 8303] [19787; 8814; 19786; 19785; 19784; 8302] 0%Z [(1%Z, 2254); (1%Z, 8238); (1%Z, 8303); ((-1)%Z, 8814); ((-2)%Z, 8302)] 140737488355328%Z 2417851639229258349412352%Z;
  Lin [2253; 8237; 8302] [19783; 8813; 19782; 19781; 19780; 8301] 0%Z [(1%Z, 2253); (1%Z, 8237); (1%Z, 8302); ((-1)%Z, 8813); ((-2)%Z, 8301)] 70368744177664%Z 4835703278458516698824704%Z;
  Lin [2252; 8236; 8301] [19779; 8812; 19778; 19777; 19776; 8300] 0%Z [(1%Z, 2252); (1%Z, 8236); (1%Z, 8301); ((-1)%Z, 8812); ((-2)%Z, 8300)] 35184372088832%Z 9671406556917033397649408%Z;
  Lin [2251; 8235; 8300] [19775; 8811; 19774; 19773; 19772; 8299] 0%Z [(1%Z, 2251); (1%Z, 8235); (1%Z, 8300); ((-1)%Z, 8811); ((-2)%Z, 8299)] 17592186044416%Z 19342813113834066795298816%Z].
Definition mult2_64_facts_21 : list lin_fact := [
  Lin [2250; 8234; 8299] [19771; 8810; 19770; 19769; 19768; 8298] 0%Z [(1%Z, 2250); (1%Z, 8234); (1%Z, 8299); ((-1)%Z, 8810); ((-2)%Z, 8298)] 8796093022208%Z 38685626227668133590597632%Z;
  Lin [2249; 8233; 8298] [19767; 8809; 19766; 19765; 19764; 8297] 0%Z [(1%Z, 2249); (1%Z, 8233); (1%Z, 8298); ((-1)%Z, 8809); ((-2)%Z, 8297)] 4398046511104%Z 77371252455336267181195264%Z;
  Lin [2248; 8232; 8297] [19763; 8808; 19762; 19761; 19760; 8296] 0%Z [(1%Z, 2248); (1%Z, 8232); (1%Z, 8297); ((-1)%Z, 8808); ((-2)%Z, 8296)] 2199023255552%Z 154742504910672534362390528%Z;
  Lin [2247; 8231; 8296] [19759; 8807; 19758; 19757; 19756; 8295] 0%Z [(1%Z, 2247); (1%Z, 8231); (1%Z, 8296); ((-1)%Z, 8807); ((-2)%Z, 8295)] 1099511627776%Z 309485009821345068724781056%Z;
  Lin [2246; 8230; 8295] [19755; 8806; 19754; 19753; 19752; 8294] 0%Z [(1%Z, 2246); (1%Z, 8230); (1%Z, 8295); ((-1)%Z, 8806); ((-2)%Z, 8294)] 549755813888%Z 618970019642690137449562112%Z;
  Lin [2245; 8229; 8294] [19751; 8805; 19750; 19749; 19748; 8293] 0%Z [(1%Z, 2245); (1%Z, 8229); (1%Z, 8294); ((-1)%Z, 8805); ((-2)%Z, 8293)] 274877906944%Z 1237940039285380274899124224%Z;
  Lin [2244; 8228; 8293] [19747; 8804; 19746; 19745; 19744; 8292] 0%Z [(1%Z, 2244); (1%Z, 8228); (1%Z, 8293); ((-1)%Z, 8804); ((-2)%Z, 8292)] 137438953472%Z 2475880078570760549798248448%Z;
  Lin [2243; 8227; 8292] [19743; 8803; 19742; 19741; 19740; 8291] 0%Z [(1%Z, 2243); (1%Z, 8227); (1%Z, 8292); ((-1)%Z, 8803); ((-2)%Z, 8291)] 68719476736%Z 4951760157141521099596496896%Z;
  Lin [2242; 8226; 8291] [19739; 8802; 19738; 19737; 19736; 8290] 0%Z [(1%Z, 2242); (1%Z, 8226); (1%Z, 8291); ((-1)%Z, 8802); ((-2)%Z, 8290)] 34359738368%Z 9903520314283042199192993792%Z;
  Lin [2241; 8225; 8290] [19735; 8801; 19734; 19733; 19732; 8289] 0%Z [(1%Z, 2241); (1%Z, 8225); (1%Z, 8290); ((-1)%Z, 8801); ((-2)%Z, 8289)] 17179869184%Z 19807040628566084398385987584%Z;
  Lin [2240; 8224; 8289] [19731; 8800; 19730; 19729; 19728; 8288] 0%Z [(1%Z, 2240); (1%Z, 8224); (1%Z, 8289); ((-1)%Z, 8800); ((-2)%Z, 8288)] 8589934592%Z 39614081257132168796771975168%Z;
  Lin [2239; 7719; 8288] [19727; 8799; 19726; 19725; 19724; 8287] 0%Z [(1%Z, 2239); (1%Z, 7719); (1%Z, 8288); ((-1)%Z, 8799); ((-2)%Z, 8287)] 4294967296%Z 79228162514264337593543950336%Z;
  Lin [2366; 8861] [28130; 8414] 0%Z [(1%Z, 2366); (1%Z, 8861); ((-1)%Z, 28130); ((-2)%Z, 8414)] 19807040628566084398385987584%Z 17179869184%Z;
  Lin [2365; 8860; 8414] [19723; 8924; 19722; 19721; 19720; 8413] 0%Z [(1%Z, 2365); (1%Z, 8860); (1%Z, 8414); ((-1)%Z, 8924); ((-2)%Z, 8413)] 9903520314283042199192993792%Z 34359738368%Z;
  Lin [2364; 8859; 8413] [19719; 8923; 19718; 19717; 19716; 8412] 0%Z [(1%Z, 2364); (1%Z, 8859); (1%Z, 8413); ((-1)%Z, 8923); ((-2)%Z, 8412)] 4951760157141521099596496896%Z 68719476736%Z;
  Lin [2363; 8858; 8412] [19715; 8922; 19714; 19713; 19712; 8411] 0%Z [(1%Z, 2363); (1%Z, 8858); (1%Z, 8412); ((-1)%Z, 8922); ((-2)%Z, 8411)] 2475880078570760549798248448%Z 137438953472%Z;
  Lin [2362; 8857; 8411] [19711; 8921; 19710; 19709; 19708; 8410] 0%Z [(1%Z, 2362); (1%Z, 8857); (1%Z, 8411); ((-1)%Z, 8921); ((-2)%Z, 8410)] 1237940039285380274899124224%Z 274877906944%Z;
  Lin [2361; 8856; 8410] [19707; 8920; 19706; 19705; 19704; 8409] 0%Z [(1%Z, 2361); (1%Z, 8856); (1%Z, 8410); ((-1)%Z, 8920); ((-2)%Z, 8409)] 618970019642690137449562112%Z 549755813888%Z;
  Lin [2360; 8855; 8409] [19703; 8919; 19702; 19701; 19700; 8408] 0%Z [(1%Z, 2360); (1%Z, 8855); (1%Z, 8409); ((-1)%Z, 8919); ((-2)%Z, 8408)] 309485009821345068724781056%Z 1099511627776%Z;
  Lin [2359; 8854; 8408] [19699; 8918; 19698; 19697; 19696; 8407] 0%Z [(1%Z, 2359); (1%Z, 8854); (1%Z, 8408); ((-1)%Z, 8918); ((-2)%Z, 8407)] 154742504910672534362390528%Z 2199023255552%Z;
  Lin [2358; 8853; 8407] [19695; 8917; 19694; 19693; 19692; 8406] 0%Z [(1%Z, 2358); (1%Z, 8853); (1%Z, 8407); ((-1)%Z, 8917); ((-2)%Z, 8406)] 77371252455336267181195264%Z 4398046511104%Z;
  Lin [2357; 8852; 8406] [19691; 8916; 19690; 19689; 19688; 8405] 0%Z [(1%Z, 2357); (1%Z, 8852); (1%Z, 8406); ((-1)%Z, 8916); ((-2)%Z, 8405)] 38685626227668133590597632%Z 8796093022208%Z;
  Lin [2356; 8851; 8405] [19687; 8915; 19686; 19685; 19684; 8404] 0%Z [(1%Z, 2356); (1%Z, 8851); (1%Z, 8405); ((-1)%Z, 8915); ((-2)%Z, 8404)] 19342813113834066795298816%Z 17592186044416%Z;
  Lin [2355; 8850; 8404] [19683; 8914; 19682; 19681; 19680; 8403] 0%Z [(1%Z, 2355); (1%Z, 8850); (1%Z, 8404); ((-1)%Z, 8914); ((-2)%Z, 8403)] 9671406556917033397649408%Z 35184372088832%Z;
  Lin [2354; 8849; 8403] [19679; 8913; 19678; 19677; 19676; 8402] 0%Z [(1%Z, 2354); (1%Z, 8849); (1%Z, 8403); ((-1)%Z, 8913); ((-2)%Z, 8402)] 4835703278458516698824704%Z 70368744177664%Z;
  Lin [2353; 8848; 8402] [19675; 8912; 19674; 19673; 19672; 8401] 0%Z [(1%Z, 2353); (1%Z, 8848); (1%Z, 8402); ((-1)%Z, 8912); ((-2)%Z, 8401)] 2417851639229258349412352%Z 140737488355328%Z;
  Lin [2352; 8847; 8401] [19671; 8911; 19670; 19669; 19668; 8400] 0%Z [(1%Z, 2352); (1%Z, 8847); (1%Z, 8401); ((-1)%Z, 8911); ((-2)%Z, 8400)] 1208925819614629174706176%Z 281474976710656%Z;
  Lin [2351; 8846; 8400] [19667; 8910; 19666; 19665; 19664; 8399] 0%Z [(1%Z, 2351); (1%Z, 8846); (1%Z, 8400); ((-1)%Z, 8910); ((-2)%Z, 8399)] 604462909807314587353088%Z 562949953421312%Z;
  Lin [2350; 8845; 8399] [19663; 8909; 19662; 19661; 19660; 8398] 0%Z [(1%Z, 2350); (1%Z, 8845); (1%Z, 8399); ((-1)%Z, 8909); ((-2)%Z, 8398)] 302231454903657293676544%Z 1125899906842624%Z;
  Lin [2349; 8844; 8398] [19659; 8908; 19658; 19657; 19656; 8397] 0%Z [(1%Z, 2349); (1%Z, 8844); (1%Z, 8398); ((-1)%Z, 8908); ((-2)%Z, 8397)] 151115727451828646838272%Z 2251799813685248%Z;
  Lin [2348; 8843; 8397] [19655; 8907; 19654; 19653; 19652; 8396] 0%Z [(1%Z, 2348); (1%Z, 8843); (1%Z, 8397); ((-1)%Z, 8907); ((-2)%Z, 8396)] 75557863725914323419136%Z 4503599627370496%Z;
  Lin [2347; 8842; 8396] [19651; 8906; 19650; 19649; 19648; 8395] 0%Z [(1%Z, 2347); (1%Z, 8842); (1%Z, 8396); ((-1)%Z, 8906); ((-2)%Z, 8395)] 37778931862957161709568%Z 9007199254740992%Z;
  Lin [2346; 8841; 8395] [19647; 8905; 19646; 19645; 19644; 8394] 0%Z [(1%Z, 2346); (1%Z, 8841); (1%Z, 8395); ((-1)%Z, 8905); ((-2)%Z, 8394)] 18889465931478580854784%Z 18014398509481984%Z;
  Lin [2345; 8840; 8394] [19643; 8904; 19642; 19641; 19640; 8393] 0%Z [(1%Z, 2345); (1%Z, 8840); (1%Z, 8394); ((-1)%Z, 8904); ((-2)%Z, 8393)] 9444732965739290427392%Z 36028797018963968%Z;
  Lin [2344; 8839; 8393] [19639; 8903; 19638; 19637; 19636; 8392] 0%Z [(1%Z, 2344); (1%Z, 8839); (1%Z, 8393); ((-1)%Z, 8903); ((-2)%Z, 8392)] 4722366482869645213696%Z 72057594037927936%Z;
  Lin [2343; 8838; 8392] [19635; 8902; 19634; 19633; 19632; 8391] 0%Z [(1%Z, 2343); (1%Z, 8838); (1%Z, 8392); ((-1)%Z, 8902); ((-2)%Z, 8391)] 2361183241434822606848%Z 144115188075855872%Z;
  Lin [2342; 8837; 8391] [19631; 8901; 19630; 19629; 19628; 8390] 0%Z [(1%Z, 2342); (1%Z, 8837); (1%Z, 8391); ((-1)%Z, 8901); ((-2)%Z, 8390)] 1180591620717411303424%Z 288230376151711744%Z;
  Lin [2341; 8836; 8390] [19627; 8900; 19626; 19625; 19624; 8389] 0%Z [(1%Z, 2341); (1%Z, 8836); (1%Z, 8390); ((-1)%Z, 8900); ((-2)%Z, 8389)] 590295810358705651712%Z 576460752303423488%Z;
  Lin [2340; 8835; 8389] [19623; 8899; 19622; 19621; 19620; 8388] 0%Z [(1%Z, 2340); (1%Z, 8835); (1%Z, 8389); ((-1)%Z, 8899); ((-2)%Z, 8388)] 295147905179352825856%Z 1152921504606846976%Z;
  Lin [2339; 8834; 8388] [19619; 8898; 19618; 19617; 19616; 8387] 0%Z [(1%Z, 2339); (1%Z, 8834); (1%Z, 8388); ((-1)%Z, 8898); ((-2)%Z, 8387)] 147573952589676412928%Z 2305843009213693952%Z;
  Lin [2338; 8833; 8387] [19615; 8897; 19614; 19613; 19612; 8386] 0%Z [(1%Z, 2338); (1%Z, 8833); (1%Z, 8387); ((-1)%Z, 8897); ((-2)%Z, 8386)] 73786976294838206464%Z 4611686018427387904%Z;
  Lin [2337; 8832; 8386] [19611; 8896; 19610; 19609; 19608; 8385] 0%Z [(1%Z, 2337); (1%Z, 8832); (1%Z, 8386); ((-1)%Z, 8896); ((-2)%Z, 8385)] 36893488147419103232%Z 9223372036854775808%Z;
  Lin [2336; 8831; 8385] [19607; 8895; 19606; 19605; 19604; 8384] 0%Z [(1%Z, 2336); (1%Z, 8831); (1%Z, 8385); ((-1)%Z, 8895); ((-2)%Z, 8384)] 18446744073709551616%Z 18446744073709551616%Z;
  Lin [2335; 8830; 8384] [19603; 8894; 19602; 19601; 19600; 8383] 0%Z [(1%Z, 2335); (1%Z, 8830); (1%Z, 8384); ((-1)%Z, 8894); ((-2)%Z, 8383)] 9223372036854775808%Z 36893488147419103232%Z;
  Lin [2334; 8829; 8383] [19599; 8893; 19598; 19597; 19596; 8382] 0%Z [(1%Z, 2334); (1%Z, 8829); (1%Z, 8383); ((-1)%Z, 8893); ((-2)%Z, 8382)] 4611686018427387904%Z 73786976294838206464%Z;
  Lin [2333; 8828; 8382] [19595; 8892; 19594; 19593; 19592; 8381] 0%Z [(1%Z, 2333); (1%Z, 8828); (1%Z, 8382); ((-1)%Z, 8892); ((-2)%Z, 8381)] 2305843009213693952%Z 147573952589676412928%Z;
  Lin [2332; 8827; 8381] [19591; 8891; 19590; 19589; 19588; 8380] 0%Z [(1%Z, 2332); (1%Z, 8827); (1%Z, 8381); ((-1)%Z, 8891); ((-2)%Z, 8380)] 1152921504606846976%Z 295147905179352825856%Z;
  Lin [2331; 8826; 8380] [19587; 8890; 19586; 19585; 19584; 8379] 0%Z [(1%Z, 2331); (1%Z, 8826); (1%Z, 8380); ((-1)%Z, 8890); ((-2)%Z, 8379)] 576460752303423488%Z 590295810358705651712%Z;
  Lin [2330; 8825; 8379] [19583; 8889; 19582; 19581; 19580; 8378] 0%Z [(1%Z, 2330); (1%Z, 8825); (1%Z, 8379); ((-1)%Z, 8889); ((-2)%Z, 8378)] 288230376151711744%Z 1180591620717411303424%Z;
  Lin [2329; 8824; 8378] [19579; 8888; 19578; 19577; 19576; 8377] 0%Z [(1%Z, 2329); (1%Z, 8824); (1%Z, 8378); ((-1)%Z, 8888); ((-2)%Z, 8377)] 144115188075855872%Z 2361183241434822606848%Z;
  Lin [2328; 8823; 8377] [19575; 8887; 19574; 19573; 19572; 8376] 0%Z [(1%Z, 2328); (1%Z, 8823); (1%Z, 8377); ((-1)%Z, 8887); ((-2)%Z, 8376)] 72057594037927936%Z 4722366482869645213696%Z;
  Lin [2327; 8822; 8376] [19571; 8886; 19570; 19569; 19568; 8375] 0%Z [(1%Z, 2327); (1%Z, 8822); (1%Z, 8376); ((-1)%Z, 8886); ((-2)%Z, 8375)] 36028797018963968%Z 9444732965739290427392%Z;
  Lin [2326; 8821; 8375] [19567; 8885; 19566; 19565; 19564; 8374] 0%Z [(1%Z, 2326); (1%Z, 8821); (1%Z, 8375); ((-1)%Z, 8885); ((-2)%Z, 8374)] 18014398509481984%Z 18889465931478580854784%Z;
  Lin [2325; 8820; 8374] [19563; 8884; 19562; 19561; 19560; 8373] 0%Z [(1%Z, 2325); (1%Z, 8820); (1%Z, 8374); ((-1)%Z, 8884); ((-2)%Z, 8373)] 9007199254740992%Z 37778931862957161709568%Z;
  Lin [2324; 8819; 8373] [19559; 8883; 19558; 19557; 19556; 8372] 0%Z [(1%Z, 2324); (1%Z, 8819); (1%Z, 8373); ((-1)%Z, 8883); ((-2)%Z, 8372)] 4503599627370496%Z 75557863725914323419136%Z;
  Lin [2323; 8818; 8372] [19555; 8882; 19554; 19553; 19552; 8371] 0%Z [(1%Z, 2323); (1%Z, 8818); (1%Z, 8372); ((-1)%Z, 8882); ((-2)%Z, 8371)] 2251799813685248%Z 151115727451828646838272%Z;
  Lin [2322; 8817; 8371] [19551; 8881; 19550; 19549; 19548; 8370] 0%Z [(1%Z, 2322); (1%Z, 8817); (1%Z, 8371); ((-1)%Z, 8881); ((-2)%Z, 8370)] 1125899906842624%Z 302231454903657293676544%Z;
  Lin [2321; 8816; 8370] [19547; 8880; 19546; 19545; 19544; 8369] 0%Z [(1%Z, 2321); (1%Z, 8816); (1%Z, 8370); ((-1)%Z, 8880); ((-2)%Z, 8369)] 562949953421312%Z 604462909807314587353088%Z;
  Lin [2320; 8815; 8369] [19543; 8879; 19542; 19541; 19540; 8368] 0%Z [(1%Z, 2320); (1%Z, 8815); (1%Z, 8369); ((-1)%Z, 8879); ((-2)%Z, 8368)] 281474976710656%Z 1208925819614629174706176%Z;
  Lin [2319; 8814; 8368] [19539; 8878; 19538; 19537; 19536; 8367] 0%Z [(1%Z, 2319); (1%Z, 8814); (1%Z, 8368); ((-1)%Z, 8878); ((-2)%Z, 8367)] 140737488355328%Z 2417851639229258349412352%Z;
  Lin [2318; 8813; 8367] [19535; 8877; 19534; 19533; 19532; 8366] 0%Z [(1%Z, 2318); (1%Z, 8813); (1%Z, 8367); ((-1)%Z, 8877); ((-2)%Z, 8366)] 70368744177664%Z 4835703278458516698824704%Z;
  Lin [2317; 8812; 8366] [19531; 8876; 19530; 19529; 19528; 8365] 0%Z [(1%Z, 2317); (1%Z, 8812); (1%Z, 8366); ((-1)%Z, 8876); ((-2)%Z, 8365)] 35184372088832%Z 9671406556917033397649408%Z;
  Lin [2316; 8811; 8365] [19527; 8875; 19526; 19525; 19524; 8364] 0%Z [(1%Z, 2316); (1%Z, 8811); (1%Z, 8365); ((-1)%Z, 8875); ((-2)%Z, 8364)] 17592186044416%Z 19342813113834066795298816%Z;
  Lin [2315; 8810; 8364] [19523; 8874; 19522; 19521; 19520; 8363] 0%Z [(1%Z, 2315); (1%Z, 8810); (1%Z, 8364); ((-1)%Z, 8874); ((-2)%Z, 8363)] 8796093022208%Z 38685626227668133590597632%Z;
  Lin [2314; 8809; 8363] [19519; 8873; 19518; 19517; 19516; 8362] 0%Z [(1%Z, 2314); (1%Z, 8809); (1%Z, 8363); ((-1)%Z, 8873); ((-2)%Z, 8362)] 4398046511104%Z 77371252455336267181195264%Z;
  Lin [2313; 8808; 8362] [19515; 8872; 19514; 19513; 19512; 8361] 0%Z [(1%Z, 2313); (1%Z, 8808); (1%Z, 8362); ((-1)%Z, 8872); ((-2)%Z, 8361)] 2199023255552%Z 154742504910672534362390528%Z;
  Lin [2312; 8807; 8361] [19511; 8871; 19510; 19509; 19508; 8360] 0%Z [(1%Z, 2312); (1%Z, 8807); (1%Z, 8361); ((-1)%Z, 8871); ((-2)%Z, 8360)] 1099511627776%Z 309485009821345068724781056%Z;
  Lin [2311; 8806; 8360] [19507; 8870; 19506; 19505; 19504; 8359] 0%Z [(1%Z, 2311); (1%Z, 8806); (1%Z, 8360); ((-1)%Z, 8870); ((-2)%Z, 8359)] 549755813888%Z 618970019642690137449562112%Z;
  Lin [2310; 8805; 8359] [19503; 8869; 19502; 19501; 19500; 8358] 0%Z [(1%Z, 2310); (1%Z, 8805); (1%Z, 8359); ((-1)%Z, 8869); ((-2)%Z, 8358)] 274877906944%Z 1237940039285380274899124224%Z;
  Lin [2309; 8804; 8358] [19499; 8868; 19498; 19497; 19496; 8357] 0%Z [(1%Z, 2309); (1%Z, 8804); (1%Z, 8358); ((-1)%Z, 8868); ((-2)%Z, 8357)] 137438953472%Z 2475880078570760549798248448%Z;
  Lin [2308; 8803; 8357] [19495; 8867; 19494; 19493; 19492; 8356] 0%Z [(1%Z, 2308); (1%Z, 8803); (1%Z, 8357); ((-1)%Z, 8867); ((-2)%Z, 8356)] 68719476736%Z 4951760157141521099596496896%Z;
  Lin [2307; 8802; 8356] [19491; 8866; 19490; 19489; 19488; 8355] 0%Z [(1%Z, 2307); (1%Z, 8802); (1%Z, 8356); ((-1)%Z, 8866); ((-2)%Z, 8355)] 34359738368%Z 9903520314283042199192993792%Z;
  Lin [2306; 8801; 8355] [19487; 8865; 19486; 19485; 19484; 8354] 0%Z [(1%Z, 2306); (1%Z, 8801); (1%Z, 8355); ((-1)%Z, 8865); ((-2)%Z, 8354)] 17179869184%Z 19807040628566084398385987584%Z;
  Lin [2305; 8800; 8354] [19483; 8864; 19482; 19481; 19480; 8353] 0%Z [(1%Z, 2305); (1%Z, 8800); (1%Z, 8354); ((-1)%Z, 8864); ((-2)%Z, 8353)] 8589934592%Z 39614081257132168796771975168%Z;
  Lin [2304; 8799; 8353] [19479; 8863; 19478; 19477; 19476; 8352] 0%Z [(1%Z, 2304); (1%Z, 8799); (1%Z, 8353); ((-1)%Z, 8863); ((-2)%Z, 8352)] 4294967296%Z 79228162514264337593543950336%Z;
  Lin [2303; 8287; 8352] [19475; 8862; 19474; 19473; 19472; 8351] 0%Z [(1%Z, 2303); (1%Z, 8287); (1%Z, 8352); ((-1)%Z, 8862); ((-2)%Z, 8351)] 2147483648%Z 158456325028528675187087900672%Z;
  Lin [2430; 8924] [28131; 8478] 0%Z [(1%Z, 2430); (1%Z, 8924); ((-1)%Z, 28131); ((-2)%Z, 8478)] 9903520314283042199192993792%Z 34359738368%Z;
  Lin [2429; 8923; 8478] [19471; 8987; 19470; 19469; 19468; 8477] 0%Z [(1%Z, 2429); (1%Z, 8923); (1%Z, 8478); ((-1)%Z, 8987); ((-2)%Z, 8477)] 4951760157141521099596496896%Z 68719476736%Z;
  Lin [2428; 8922; 8477] [19467; 8986; 19466; 19465; 19464; 8476] 0%Z [(1%Z, 2428); (1%Z, 8922); (1%Z, 8477); ((-1)%Z, 8986); ((-2)%Z, 8476)] 2475880078570760549798248448%Z 137438953472%Z;
  Lin [2427; 8921; 8476] [19463; 8985; 19462; 19461; 19460; 8475] 0%Z [(1%Z, 2427); (1%Z, 8921); (1%Z, 8476); ((-1)%Z, 8985); ((-2)%Z, 8475)] 1237940039285380274899124224%Z 274877906944%Z;
  Lin [2426; 8920; 8475] [19459; 8984; 19458; 19457; 19456; 8474] 0%Z [(1%Z, 2426); (1%Z, 8920); (1%Z, 8475); ((-1)%Z, 8984); ((-2)%Z, 8474)] 618970019642690137449562112%Z 549755813888%Z;
  Lin [2425; 8919; 8474] [19455; 8983; 19454; 19453; 19452; 8473] 0%Z [(1%Z, 2425); (1%Z, 8919); (1%Z, 8474); ((-1)%Z, 8983); ((-2)%Z, 8473)] 309485009821345068724781056%Z 1099511627776%Z;
  Lin [2424; 8918; 8473] [19451; 8982; 19450; 19449; 19448; 8472] 0%Z [(1%Z, 2424); (1%Z, 8918); (1%Z, 8473); ((-1)%Z, 8982); ((-2)%Z, 8472)] 154742504910672534362390528%Z 2199023255552%Z;
  Lin [2423; 8917; 8472] [19447; 8981; 19446; 19445; 19444; 8471] 0%Z [(1%Z, 2423); (1%Z, 8917); (1%Z, 8472); ((-1)%Z, 8981); ((-2)%Z, 8471)] 77371252455336267181195264%Z 4398046511104%Z;
  Lin [2422; 8916; 8471] [19443; 8980; 19442; 19441; 19440; 8470] 0%Z [(1%Z, 2422); (1%Z, 8916); (1%Z, 8471); ((-1)%Z, 8980); ((-2)%Z, 8470)] 38685626227668133590597632%Z 8796093022208%Z;
  Lin [2421; 8915; 8470] [19439; 8979; 19438; 19437; 19436; 8469] 0%Z [(1%Z, 2421); (1%Z, 8915); (1%Z, 8470); ((-1)%Z, 8979); ((-2)%Z, 8469)] 19342813113834066795298816%Z 17592186044416%Z;
  Lin [2420; 8914; 8469] [19435; 8978; 19434; 19433; 19432; 8468] 0%Z [(1%Z, 2420); (1%Z, 8914); (1%Z, 8469); ((-1)%Z, 8978); ((-2)%Z, 8468)] 9671406556917033397649408%Z 35184372088832%Z;
  Lin [2419; 8913; 8468] [19431; 8977; 19430; 19429; 19428; 8467] 0%Z [(1%Z, 2419); (1%Z, 8913); (1%Z, 8468); ((-1)%Z, 8977); ((-2)%Z, 8467)] 4835703278458516698824704%Z 70368744177664%Z;
  Lin [2418; 8912; 8467] [19427; 8976; 19426; 19425; 19424; 8466] 0%Z [(1%Z, 2418); (1%Z, 8912); (1%Z, 8467); ((-1)%Z, 8976); ((-2)%Z, 8466)] 2417851639229258349412352%Z 140737488355328%Z;
  Lin [2417; 8911; 8466] [19423; 8975; 19422; 19421; 19420; 8465] 0%Z [(1%Z, 2417); (1%Z, 8911); (1%Z, 8466); ((-1)%Z, 8975); ((-2)%Z, 8465)] 1208925819614629174706176%Z 281474976710656%Z;
  Lin [2416; 8910; 8465] [19419; 8974; 19418; 19417; 19416; 8464] 0%Z [(1%Z, 2416); (1%Z, 8910); (1%Z, 8465); ((-1)%Z, 8974); ((-2)%Z, 8464)] 604462909807314587353088%Z 562949953421312%Z;
  Lin [2415; 8909; 8464] [19415; 8973; 19414; 19413; 19412; 8463] 0%Z [(1%Z, 2415); (1%Z, 8909); (1%Z, 8464); ((-1)%Z, 8973); ((-2)%Z, 8463)] 302231454903657293676544%Z 1125899906842624%Z;
  Lin [2414; 8908; 8463] [19411; 8972; 19410; 19409; 19408; 8462] 0%Z [(1%Z, 2414); (1%Z, 8908); (1%Z, 8463); ((-1)%Z, 8972); ((-2)%Z, 8462)] 151115727451828646838272%Z 2251799813685248%Z;
  Lin [2413; 8907; 8462] [19407; 8971; 19406; 19405; 19404; 8461] 0%Z [(1%Z, 2413); (1%Z, 8907); (1%Z, 8462); ((-1)%Z, 8971); ((-2)%Z, 8461)] 75557863725914323419136%Z 4503599627370496%Z;
  Lin [2412; 8906; 8461] [19403; 8970; 19402; 19401; 19400; 8460] 0%Z [(1%Z, 2412); (1%Z, 8906); (1%Z, 8461); ((-1)%Z, 8970); ((-2)%Z, 8460)] 37778931862957161709568%Z 9007199254740992%Z;
  Lin [2411; 8905; 8460] [19399; 8969; 19398; 19397; 19396; 8459] 0%Z [(1%Z, 2411); (1%Z, 8905); (1%Z, 8460); ((-1)%Z, 8969); ((-2)%Z, 8459)] 18889465931478580854784%Z 18014398509481984%Z;
  Lin [2410; 8904; 8459] [19395; 8968; 19394; 19393; 19392; 8458] 0%Z [(1%Z, 2410); (1%Z, 8904); (1%Z, 8459); ((-1)%Z, 8968); ((-2)%Z, 8458)] 9444732965739290427392%Z 36028797018963968%Z;
  Lin [2409; 8903; 8458] [19391; 8967; 19390; 19389; 19388; 8457] 0%Z [(1%Z, 2409); (1%Z, 8903); (1%Z, 8458); ((-1)%Z, 8967); ((-2)%Z, 8457)] 4722366482869645213696%Z 72057594037927936%Z;
  Lin [2408; 8902; 8457] [19387; 8966; 19386; 19385; 19384; 8456] 0%Z [(1%Z, 2408); (1%Z, 8902); (1%Z, 8457); ((-1)%Z, 8966); ((-2)%Z, 8456)] 2361183241434822606848%Z 144115188075855872%Z;
  Lin [2407; 8901; 8456] [19383; 8965; 19382; 19381; 19380; 8455] 0%Z [(1%Z, 2407); (1%Z, 8901); (1%Z, 8456); ((-1)%Z, 8965); ((-2)%Z, 8455)] 1180591620717411303424%Z 288230376151711744%Z].
Definition mult2_64_facts_22 : list lin_fact := [
  Lin [2406; 8900; 8455] [19379; 8964; 19378; 19377; 19376; 8454] 0%Z [(1%Z, 2406); (1%Z, 8900); (1%Z, 8455); ((-1)%Z, 8964); ((-2)%Z, 8454)] 590295810358705651712%Z 576460752303423488%Z;
  Lin [2405; 8899; 8454] [19375; 8963; 19374; 19373; 19372; 8453] 0%Z [(1%Z, 2405); (1%Z, 8899); (1%Z, 8454); ((-1)%Z, 8963); ((-2)%Z, 8453)] 295147905179352825856%Z 1152921504606846976%Z;
  Lin [2404; 8898; 8453] [19371; 8962; 19370; 19369; 19368; 8452] 0%Z [(1%Z, 2404); (1%Z, 8898); (1%Z, 8453); ((-1)%Z, 8962); ((-2)%Z, 8452)] 147573952589676412928%Z 2305843009213693952%Z;
  Lin [2403; 8897; 8452] [19367; 8961; 19366; 19365; 19364; 8451] 0%Z [(1%Z, 2403); (1%Z, 8897); (1%Z, 8452); ((-1)%Z, 8961); ((-2)%Z, 8451)] 73786976294838206464%Z 4611686018427387904%Z;
  Lin [2402; 8896; 8451] [19363; 8960; 19362; 19361; 19360; 8450] 0%Z [(1%Z, 2402); (1%Z, 8896); (1%Z, 8451); ((-1)%Z, 8960); ((-2)%Z, 8450)] 36893488147419103232%Z 9223372036854775808%Z;
  Lin [2401; 8895; 8450] [19359; 8959; 19358; 19357; 19356; 8449] 0%Z [(1%Z, 2401); (1%Z, 8895); (1%Z, 8450); ((-1)%Z, 8959); ((-2)%Z, 8449)] 18446744073709551616%Z 18446744073709551616%Z;
  Lin [2400; 8894; 8449] [19355; 8958; 19354; 19353; 19352; 8448] 0%Z [(1%Z, 2400); (1%Z, 8894); (1%Z, 8449); ((-1)%Z, 8958); ((-2)%Z, 8448)] 9223372036854775808%Z 36893488147419103232%Z;
  Lin [2399; 8893; 8448] [19351; 8957; 19350; 19349; 19348; 8447] 0%Z [(1%Z, 2399); (1%Z, 8893); (1%Z, 8448); ((-1)%Z, 8957); ((-2)%Z, 8447)] 4611686018427387904%Z 73786976294838206464%Z;
  Lin [2398; 8892; 8447] [19347; 8956; 19346; 19345; 19344; 8446] 0%Z [(1%Z, 2398); (1%Z, 8892); (1%Z, 8447); ((-1)%Z, 8956); ((-2)%Z, 8446)] 2305843009213693952%Z 147573952589676412928%Z;
  Lin [2397; 8891; 8446] [19343; 8955; 19342; 19341; 19340; 8445] 0%Z [(1%Z, 2397); (1%Z, 8891); (1%Z, 8446); ((-1)%Z, 8955); ((-2)%Z, 8445)] 1152921504606846976%Z 295147905179352825856%Z;
  Lin [2396; 8890; 8445] [19339; 8954; 19338; 19337; 19336; 8444] 0%Z [(1%Z, 2396); (1%Z, 8890); (1%Z, 8445); ((-1)%Z, 8954); ((-2)%Z, 8444)] 576460752303423488%Z 590295810358705651712%Z;
  Lin [2395; 8889; 8444] [19335; 8953; 19334; 19333; 19332; 8443] 0%Z [(1%Z, 2395); (1%Z, 8889); (1%Z, 8444); ((-1)%Z, 8953); ((-2)%Z, 8443)] 288230376151711744%Z 1180591620717411303424%Z;
  Lin [2394; 8888; 8443] [19331; 8952; 19330; 19329; 19328; 8442] 0%Z [(1%Z, 2394); (1%Z, 8888); (1%Z, 8443); ((-1)%Z, 8952); ((-2)%Z, 8442)] 144115188075855872%Z 2361183241434822606848%Z;
  Lin [2393; 8887; 8442] [19327; 8951; 19326; 19325; 19324; 8441] 0%Z [(1%Z, 2393); (1%Z, 8887); (1%Z, 8442); ((-1)%Z, 8951); ((-2)%Z, 8441)] 72057594037927936%Z 4722366482869645213696%Z;
  Lin [2392; 8886; 8441] [19323; 8950; 19322; 19321; 19320; 8440] 0%Z [(1%Z, 2392); (1%Z, 8886); (1%Z, 8441); ((-1)%Z, 8950); ((-2)%Z, 8440)] 36028797018963968%Z 9444732965739290427392%Z;
  Lin [2391; 8885; 8440] [19319; 8949; 19318; 19317; 19316; 8439] 0%Z [(1%Z, 2391); (1%Z, 8885); (1%Z, 8440); ((-1)%Z, 8949); ((-2)%Z, 8439)] 18014398509481984%Z 18889465931478580854784%Z;
  Lin [2390; 8884; 8439] [19315; 8948; 19314; 19313; 19312; 8438] 0%Z [(1%Z, 2390); (1%Z, 8884); (1%Z, 8439); ((-1)%Z, 8948); ((-2)%Z, 8438)] 9007199254740992%Z 37778931862957161709568%Z;
  Lin [2389; 8883; 8438] [19311; 8947; 19310; 19309; 19308; 8437] 0%Z [(1%Z, 2389); (1%Z, 8883); (1%Z, 8438); ((-1)%Z, 8947); ((-2)%Z, 8437)] 4503599627370496%Z 75557863725914323419136%Z;
  Lin [2388; 8882; 8437] [19307; 8946; 19306; 19305; 19304; 8436] 0%Z [(1%Z, 2388); (1%Z, 8882); (1%Z, 8437); ((-1)%Z, 8946); ((-2)%Z, 8436)] 2251799813685248%Z 151115727451828646838272%Z;
  Lin [2387; 8881; 8436] [19303; 8945; 19302; 19301; 19300; 8435] 0%Z [(1%Z, 2387); (1%Z, 8881); (1%Z, 8436); ((-1)%Z, 8945); ((-2)%Z, 8435)] 1125899906842624%Z 302231454903657293676544%Z;
  Lin [2386; 8880; 8435] [19299; 8944; 19298; 19297; 19296; 8434] 0%Z [(1%Z, 2386); (1%Z, 8880); (1%Z, 8435); ((-1)%Z, 8944); ((-2)%Z, 8434)] 562949953421312%Z 604462909807314587353088%Z;
  Lin [2385; 8879; 8434] [19295; 8943; 19294; 19293; 19292; 8433] 0%Z [(1%Z, 2385); (1%Z, 8879); (1%Z, 8434); ((-1)%Z, 8943); ((-2)%Z, 8433)] 281474976710656%Z 1208925819614629174706176%Z;
  Lin [2384; 8878; 8433] [19291; 8942; 19290; 19289; 19288; 8432] 0%Z [(1%Z, 2384); (1%Z, 8878); (1%Z, 8433); ((-1)%Z, 8942); ((-2)%Z, 8432)] 140737488355328%Z 2417851639229258349412352%Z;
  Lin [2383; 8877; 8432] [19287; 8941; 19286; 19285; 19284; 8431] 0%Z [(1%Z, 2383); (1%Z, 8877); (1%Z, 8432); ((-1)%Z, 8941); ((-2)%Z, 8431)] 70368744177664%Z 4835703278458516698824704%Z;
  Lin [2382; 8876; 8431] [19283; 8940; 19282; 19281; 19280; 8430] 0%Z [(1%Z, 2382); (1%Z, 8876); (1%Z, 8431); ((-1)%Z, 8940); ((-2)%Z, 8430)] 35184372088832%Z 9671406556917033397649408%Z;
  Lin [2381; 8875; 8430] [19279; 8939; 19278; 19277; 19276; 8429] 0%Z [(1%Z, 2381); (1%Z, 8875); (1%Z, 8430); ((-1)%Z, 8939); ((-2)%Z, 8429)] 17592186044416%Z 19342813113834066795298816%Z;
  Lin [2380; 8874; 8429] [19275; 8938; 19274; 19273; 19272; 8428] 0%Z [(1%Z, 2380); (1%Z, 8874); (1%Z, 8429); ((-1)%Z, 8938); ((-2)%Z, 8428)] 8796093022208%Z 38685626227668133590597632%Z;
  Lin [2379; 8873; 8428] [19271; 8937; 19270; 19269; 19268; 8427] 0%Z [(1%Z, 2379); (1%Z, 8873); (1%Z, 8428); ((-1)%Z, 8937); ((-2)%Z, 8427)] 4398046511104%Z 77371252455336267181195264%Z;
  Lin [2378; 8872; 8427] [19267; 8936; 19266; 19265; 19264; 8426] 0%Z [(1%Z, 2378); (1%Z, 8872); (1%Z, 8427); ((-1)%Z, 8936); ((-2)%Z, 8426)] 2199023255552%Z 154742504910672534362390528%Z;
  Lin [2377; 8871; 8426] [19263; 8935; 19262; 19261; 19260; 8425] 0%Z [(1%Z, 2377); (1%Z, 8871); (1%Z, 8426); ((-1)%Z, 8935); ((-2)%Z, 8425)] 1099511627776%Z 309485009821345068724781056%Z;
  Lin [2376; 8870; 8425] [19259; 8934; 19258; 19257; 19256; 8424] 0%Z [(1%Z, 2376); (1%Z, 8870); (1%Z, 8425); ((-1)%Z, 8934); ((-2)%Z, 8424)] 549755813888%Z 618970019642690137449562112%Z;
  Lin [2375; 8869; 8424] [19255; 8933; 19254; 19253; 19252; 8423] 0%Z [(1%Z, 2375); (1%Z, 8869); (1%Z, 8424); ((-1)%Z, 8933); ((-2)%Z, 8423)] 274877906944%Z 1237940039285380274899124224%Z;
  Lin [2374; 8868; 8423] [19251; 8932; 19250; 19249; 19248; 8422] 0%Z [(1%Z, 2374); (1%Z, 8868); (1%Z, 8423); ((-1)%Z, 8932); ((-2)%Z, 8422)] 137438953472%Z 2475880078570760549798248448%Z;
  Lin [2373; 8867; 8422] [19247; 8931; 19246; 19245; 19244; 8421] 0%Z [(1%Z, 2373); (1%Z, 8867); (1%Z, 8422); ((-1)%Z, 8931); ((-2)%Z, 8421)] 68719476736%Z 4951760157141521099596496896%Z;
  Lin [2372; 8866; 8421] [19243; 8930; 19242; 19241; 19240; 8420] 0%Z [(1%Z, 2372); (1%Z, 8866); (1%Z, 8421); ((-1)%Z, 8930); ((-2)%Z, 8420)] 34359738368%Z 9903520314283042199192993792%Z;
  Lin [2371; 8865; 8420] [19239; 8929; 19238; 19237; 19236; 8419] 0%Z [(1%Z, 2371); (1%Z, 8865); (1%Z, 8420); ((-1)%Z, 8929); ((-2)%Z, 8419)] 17179869184%Z 19807040628566084398385987584%Z;
  Lin [2370; 8864; 8419] [19235; 8928; 19234; 19233; 19232; 8418] 0%Z [(1%Z, 2370); (1%Z, 8864); (1%Z, 8419); ((-1)%Z, 8928); ((-2)%Z, 8418)] 8589934592%Z 39614081257132168796771975168%Z;
  Lin [2369; 8863; 8418] [19231; 8927; 19230; 19229; 19228; 8417] 0%Z [(1%Z, 2369); (1%Z, 8863); (1%Z, 8418); ((-1)%Z, 8927); ((-2)%Z, 8417)] 4294967296%Z 79228162514264337593543950336%Z;
  Lin [2368; 8862; 8417] [19227; 8926; 19226; 19225; 19224; 8416] 0%Z [(1%Z, 2368); (1%Z, 8862); (1%Z, 8417); ((-1)%Z, 8926); ((-2)%Z, 8416)] 2147483648%Z 158456325028528675187087900672%Z;
  Lin [2367; 8351; 8416] [19223; 8925; 19222; 19221; 19220; 8415] 0%Z [(1%Z, 2367); (1%Z, 8351); (1%Z, 8416); ((-1)%Z, 8925); ((-2)%Z, 8415)] 1073741824%Z 316912650057057350374175801344%Z;
  Lin [2494; 8987] [28132; 8542] 0%Z [(1%Z, 2494); (1%Z, 8987); ((-1)%Z, 28132); ((-2)%Z, 8542)] 4951760157141521099596496896%Z 68719476736%Z;
  Lin [2493; 8986; 8542] [19219; 9050; 19218; 19217; 19216; 8541] 0%Z [(1%Z, 2493); (1%Z, 8986); (1%Z, 8542); ((-1)%Z, 9050); ((-2)%Z, 8541)] 2475880078570760549798248448%Z 137438953472%Z;
  Lin [2492; 8985; 8541] [19215; 9049; 19214; 19213; 19212; 8540] 0%Z [(1%Z, 2492); (1%Z, 8985); (1%Z, 8541); ((-1)%Z, 9049); ((-2)%Z, 8540)] 1237940039285380274899124224%Z 274877906944%Z;
  Lin [2491; 8984; 8540] [19211; 9048; 19210; 19209; 19208; 8539] 0%Z [(1%Z, 2491); (1%Z, 8984); (1%Z, 8540); ((-1)%Z, 9048); ((-2)%Z, 8539)] 618970019642690137449562112%Z 549755813888%Z;
  Lin [2490; 8983; 8539] [19207; 9047; 19206; 19205; 19204; 8538] 0%Z [(1%Z, 2490); (1%Z, 8983); (1%Z, 8539); ((-1)%Z, 9047); ((-2)%Z, 8538)] 309485009821345068724781056%Z 1099511627776%Z;
  Lin [2489; 8982; 8538] [19203; 9046; 19202; 19201; 19200; 8537] 0%Z [(1%Z, 2489); (1%Z, 8982); (1%Z, 8538); ((-1)%Z, 9046); ((-2)%Z, 8537)] 154742504910672534362390528%Z 2199023255552%Z;
  Lin [2488; 8981; 8537] [19199; 9045; 19198; 19197; 19196; 8536] 0%Z [(1%Z, 2488); (1%Z, 8981); (1%Z, 8537); ((-1)%Z, 9045); ((-2)%Z, 8536)] 77371252455336267181195264%Z 4398046511104%Z;
  Lin [2487; 8980; 8536] [19195; 9044; 19194; 19193; 19192; 8535] 0%Z [(1%Z, 2487); (1%Z, 8980); (1%Z, 8536); ((-1)%Z, 9044); ((-2)%Z, 8535)] 38685626227668133590597632%Z 8796093022208%Z;
  Lin [2486; 8979; 8535] [19191; 9043; 19190; 19189; 19188; 8534] 0%Z [(1%Z, 2486); (1%Z, 8979); (1%Z, 8535); ((-1)%Z, 9043); ((-2)%Z, 8534)] 19342813113834066795298816%Z 17592186044416%Z;
  Lin [2485; 8978; 8534] [19187; 9042; 19186; 19185; 19184; 8533] 0%Z [(1%Z, 2485); (1%Z, 8978); (1%Z, 8534); ((-1)%Z, 9042); ((-2)%Z, 8533)] 9671406556917033397649408%Z 35184372088832%Z;
  Lin [2484; 8977; 8533] [19183; 9041; 19182; 19181; 19180; 8532] 0%Z [(1%Z, 2484); (1%Z, 8977); (1%Z, 8533); ((-1)%Z, 9041); ((-2)%Z, 8532)] 4835703278458516698824704%Z 70368744177664%Z;
  Lin [2483; 8976; 8532] [19179; 9040; 19178; 19177; 19176; 8531] 0%Z [(1%Z, 2483); (1%Z, 8976); (1%Z, 8532); ((-1)%Z, 9040); ((-2)%Z, 8531)] 2417851639229258349412352%Z 140737488355328%Z;
  Lin [2482; 8975; 8531] [19175; 9039; 19174; 19173; 19172; 8530] 0%Z [(1%Z, 2482); (1%Z, 8975); (1%Z, 8531); ((-1)%Z, 9039); ((-2)%Z, 8530)] 1208925819614629174706176%Z 281474976710656%Z;
  Lin [2481; 8974; 8530] [19171; 9038; 19170; 19169; 19168; 8529] 0%Z [(1%Z, 2481); (1%Z, 8974); (1%Z, 8530); ((-1)%Z, 9038); ((-2)%Z, 8529)] 604462909807314587353088%Z 562949953421312%Z;
  Lin [2480; 8973; 8529] [19167; 9037; 19166; 19165; 19164; 8528] 0%Z [(1%Z, 2480); (1%Z, 8973); (1%Z, 8529); ((-1)%Z, 9037); ((-2)%Z, 8528)] 302231454903657293676544%Z 1125899906842624%Z;
  Lin [2479; 8972; 8528] [19163; 9036; 19162; 19161; 19160; 8527] 0%Z [(1%Z, 2479); (1%Z, 8972); (1%Z, 8528); ((-1)%Z, 9036); ((-2)%Z, 8527)] 151115727451828646838272%Z 2251799813685248%Z;
  Lin [2478; 8971; 8527] [19159; 9035; 19158; 19157; 19156; 8526] 0%Z [(1%Z, 2478); (1%Z, 8971); (1%Z, 8527); ((-1)%Z, 9035); ((-2)%Z, 8526)] 75557863725914323419136%Z 4503599627370496%Z;
  Lin [2477; 8970; 8526] [19155; 9034; 19154; 19153; 19152; 8525] 0%Z [(1%Z, 2477); (1%Z, 8970); (1%Z, 8526); ((-1)%Z, 9034); ((-2)%Z, 8525)] 37778931862957161709568%Z 9007199254740992%Z;
  Lin [2476; 8969; 8525] [19151; 9033; 19150; 19149; 19148; 8524] 0%Z [(1%Z, 2476); (1%Z, 8969); (1%Z, 8525); ((-1)%Z, 9033); ((-2)%Z, 8524)] 18889465931478580854784%Z 18014398509481984%Z;
  Lin [2475; 8968; 8524] [19147; 9032; 19146; 19145; 19144; 8523] 0%Z [(1%Z, 2475); (1%Z, 8968); (1%Z, 8524); ((-1)%Z, 9032); ((-2)%Z, 8523)] 9444732965739290427392%Z 36028797018963968%Z;
  Lin [2474; 8967; 8523] [19143; 9031; 19142; 19141; 19140; 8522] 0%Z [(1%Z, 2474); (1%Z, 8967); (1%Z, 8523); ((-1)%Z, 9031); ((-2)%Z, 8522)] 4722366482869645213696%Z 72057594037927936%Z;
  Lin [2473; 8966; 8522] [19139; 9030; 19138; 19137; 19136; 8521] 0%Z [(1%Z, 2473); (1%Z, 8966); (1%Z, 8522); ((-1)%Z, 9030); ((-2)%Z, 8521)] 2361183241434822606848%Z 144115188075855872%Z;
  Lin [2472; 8965; 8521] [19135; 9029; 19134; 19133; 19132; 8520] 0%Z [(1%Z, 2472); (1%Z, 8965); (1%Z, 8521); ((-1)%Z, 9029); ((-2)%Z, 8520)] 1180591620717411303424%Z 288230376151711744%Z;
  Lin [2471; 8964; 8520] [19131; 9028; 19130; 19129; 19128; 8519] 0%Z [(1%Z, 2471); (1%Z, 8964); (1%Z, 8520); ((-1)%Z, 9028); ((-2)%Z, 8519)] 590295810358705651712%Z 576460752303423488%Z;
  Lin [2470; 8963; 8519] [19127; 9027; 19126; 19125; 19124; 8518] 0%Z [(1%Z, 2470); (1%Z, 8963); (1%Z, 8519); ((-1)%Z, 9027); ((-2)%Z, 8518)] 295147905179352825856%Z 1152921504606846976%Z;
  Lin [2469; 8962; 8518] [19123; 9026; 19122; 19121; 19120; 8517] 0%Z [(1%Z, 2469); (1%Z, 8962); (1%Z, 8518); ((-1)%Z, 9026); ((-2)%Z, 8517)] 147573952589676412928%Z 2305843009213693952%Z;
  Lin [2468; 8961; 8517] [19119; 9025; 19118; 19117; 19116; 8516] 0%Z [(1%Z, 2468); (1%Z, 8961); (1%Z, 8517); ((-1)%Z, 9025); ((-2)%Z, 8516)] 73786976294838206464%Z 4611686018427387904%Z;
  Lin [2467; 8960; 8516] [19115; 9024; 19114; 19113; 19112; 8515] 0%Z [(1%Z, 2467); (1%Z, 8960); (1%Z, 8516); ((-1)%Z, 9024); ((-2)%Z, 8515)] 36893488147419103232%Z 9223372036854775808%Z;
  Lin [2466; 8959; 8515] [19111; 9023; 19110; 19109; 19108; 8514] 0%Z [(1%Z, 2466); (1%Z, 8959); (1%Z, 8515); ((-1)%Z, 9023); ((-2)%Z, 8514)] 18446744073709551616%Z 18446744073709551616%Z;
  Lin [2465; 8958; 8514] [19107; 9022; 19106; 19105; 19104; 8513] 0%Z [(1%Z, 2465); (1%Z, 8958); (1%Z, 8514); ((-1)%Z, 9022); ((-2)%Z, 8513)] 9223372036854775808%Z 36893488147419103232%Z;
  Lin [2464; 8957; 8513] [19103; 9021; 19102; 19101; 19100; 8512] 0%Z [(1%Z, 2464); (1%Z, 8957); (1%Z, 8513); ((-1)%Z, 9021); ((-2)%Z, 8512)] 4611686018427387904%Z 73786976294838206464%Z;
  Lin [2463; 8956; 8512] [19099; 9020; 19098; 19097; 19096; 8511] 0%Z [(1%Z, 2463); (1%Z, 8956); (1%Z, 8512); ((-1)%Z, 9020); ((-2)%Z, 8511)] 2305843009213693952%Z 147573952589676412928%Z;
  Lin [2462; 8955; 8511] [19095; 9019; 19094; 19093; 19092; 8510] 0%Z [(1%Z, 2462); (1%Z, 8955); (1%Z, 8511); ((-1)%Z, 9019); ((-2)%Z, 8510)] 1152921504606846976%Z 295147905179352825856%Z;
  Lin [2461; 8954; 8510] [19091; 9018; 19090; 19089; 19088; 8509] 0%Z [(1%Z, 2461); (1%Z, 8954); (1%Z, 8510); ((-1)%Z, 9018); ((-2)%Z, 8509)] 576460752303423488%Z 590295810358705651712%Z;
  Lin [2460; 8953; 8509] [19087; 9017; 19086; 19085; 19084; 8508] 0%Z [(1%Z, 2460); (1%Z, 8953); (1%Z, 8509); ((-1)%Z, 9017); ((-2)%Z, 8508)] 288230376151711744%Z 1180591620717411303424%Z;
  Lin [2459; 8952; 8508] [19083; 9016; 19082; 19081; 19080; 8507] 0%Z [(1%Z, 2459); (1%Z, 8952); (1%Z, 8508); ((-1)%Z, 9016); ((-2)%Z, 8507)] 144115188075855872%Z 2361183241434822606848%Z;
  Lin [2458; 8951; 8507] [19079; 9015; 19078; 19077; 19076; 8506] 0%Z [(1%Z, 2458); (1%Z, 8951); (1%Z, 8507); ((-1)%Z, 9015); ((-2)%Z, 8506)] 72057594037927936%Z 4722366482869645213696%Z;
  Lin [2457; 8950; 8506] [19075; 9014; 19074; 19073; 19072; 8505] 0%Z [(1%Z, 2457); (1%Z, 8950); (1%Z, 8506); ((-1)%Z, 9014); ((-2)%Z, 8505)] 36028797018963968%Z 9444732965739290427392%Z;
  Lin [2456; 8949; 8505] [19071; 9013; 19070; 19069; 19068; 8504] 0%Z [(1%Z, 2456); (1%Z, 8949); (1%Z, 8505); ((-1)%Z, 9013); ((-2)%Z, 8504)] 18014398509481984%Z 18889465931478580854784%Z;
  Lin [2455; 8948; 8504] [19067; 9012; 19066; 19065; 19064; 8503] 0%Z [(1%Z, 2455); (1%Z, 8948); (1%Z, 8504); ((-1)%Z, 9012); ((-2)%Z, 8503)] 9007199254740992%Z 37778931862957161709568%Z;
  Lin [2454; 8947; 8503] [19063; 9011; 19062; 19061; 19060; 8502] 0%Z [(1%Z, 2454); (1%Z, 8947); (1%Z, 8503); ((-1)%Z, 9011); ((-2)%Z, 8502)] 4503599627370496%Z 75557863725914323419136%Z;
  Lin [2453; 8946; 8502] [19059; 9010; 19058; 19057; 19056; 8501] 0%Z [(1%Z, 2453); (1%Z, 8946); (1%Z, 8502); ((-1)%Z, 9010); ((-2)%Z, 8501)] 2251799813685248%Z 151115727451828646838272%Z;
  Lin [2452; 8945; 8501] [19055; 9009; 19054; 19053; 19052; 8500] 0%Z [(1%Z, 2452); (1%Z, 8945); (1%Z, 8501); ((-1)%Z, 9009); ((-2)%Z, 8500)] 1125899906842624%Z 302231454903657293676544%Z;
  Lin [2451; 8944; 8500] [19051; 9008; 19050; 19049; 19048; 8499] 0%Z [(1%Z, 2451); (1%Z, 8944); (1%Z, 8500); ((-1)%Z, 9008); ((-2)%Z, 8499)] 562949953421312%Z 604462909807314587353088%Z;
  Lin [2450; 8943; 8499] [19047; 9007; 19046; 19045; 19044; 8498] 0%Z [(1%Z, 2450); (1%Z, 8943); (1%Z, 8499); ((-1)%Z, 9007); ((-2)%Z, 8498)] 281474976710656%Z 1208925819614629174706176%Z;
  Lin [2449; 8942; 8498] [19043; 9006; 19042; 19041; 19040; 8497] 0%Z [(1%Z, 2449); (1%Z, 8942); (1%Z, 8498); ((-1)%Z, 9006); ((-2)%Z, 8497)] 140737488355328%Z 2417851639229258349412352%Z;
  Lin [2448; 8941; 8497] [19039; 9005; 19038; 19037; 19036; 8496] 0%Z [(1%Z, 2448); (1%Z, 8941); (1%Z, 8497); ((-1)%Z, 9005); ((-2)%Z, 8496)] 70368744177664%Z 4835703278458516698824704%Z;
  Lin [2447; 8940; 8496] [19035; 9004; 19034; 19033; 19032; 8495] 0%Z [(1%Z, 2447); (1%Z, 8940); (1%Z, 8496); ((-1)%Z, 9004); ((-2)%Z, 8495)] 35184372088832%Z 9671406556917033397649408%Z;
  Lin [2446; 8939; 8495] [19031; 9003; 19030; 19029; 19028; 8494] 0%Z [(1%Z, 2446); (1%Z, 8939); (1%Z, 8495); ((-1)%Z, 9003); ((-2)%Z, 8494)] 17592186044416%Z 19342813113834066795298816%Z;
  Lin [2445; 8938; 8494] [19027; 9002; 19026; 19025; 19024; 8493] 0%Z [(1%Z, 2445); (1%Z, 8938); (1%Z, 8494); ((-1)%Z, 9002); ((-2)%Z, 8493)] 8796093022208%Z 38685626227668133590597632%Z;
  Lin [2444; 8937; 8493] [19023; 9001; 19022; 19021; 19020; 8492] 0%Z [(1%Z, 2444); (1%Z, 8937); (1%Z, 8493); ((-1)%Z, 9001); ((-2)%Z, 8492)] 4398046511104%Z 77371252455336267181195264%Z;
  Lin [2443; 8936; 8492] [19019; 9000; 19018; 19017; 19016; 8491] 0%Z [(1%Z, 2443); (1%Z, 8936); (1%Z, 8492); ((-1)%Z, 9000); ((-2)%Z, 8491)] 2199023255552%Z 154742504910672534362390528%Z;
  Lin [2442; 8935; 8491] [19015; 8999; 19014; 19013; 19012; 8490] 0%Z [(1%Z, 2442); (1%Z, 8935); (1%Z, 8491); ((-1)%Z, 8999); ((-2)%Z, 8490)] 1099511627776%Z 309485009821345068724781056%Z;
  Lin [2441; 8934; 8490] [19011; 8998; 19010; 19009; 19008; 8489] 0%Z [(1%Z, 2441); (1%Z, 8934); (1%Z, 8490); ((-1)%Z, 8998); ((-2)%Z, 8489)] 549755813888%Z 618970019642690137449562112%Z;
  Lin [2440; 8933; 8489] [19007; 8997; 19006; 19005; 19004; 8488] 0%Z [(1%Z, 2440); (1%Z, 8933); (1%Z, 8489); ((-1)%Z, 8997); ((-2)%Z, 8488)] 274877906944%Z 1237940039285380274899124224%Z;
  Lin [2439; 8932; 8488] [19003; 8996; 19002; 19001; 19000; 8487] 0%Z [(1%Z, 2439); (1%Z, 8932); (1%Z, 8488); ((-1)%Z, 8996); ((-2)%Z, 8487)] 137438953472%Z 2475880078570760549798248448%Z;
  Lin [2438; 8931; 8487] [18999; 8995; 18998; 18997; 18996; 8486] 0%Z [(1%Z, 2438); (1%Z, 8931); (1%Z, 8487); ((-1)%Z, 8995); ((-2)%Z, 8486)] 68719476736%Z 4951760157141521099596496896%Z;
  Lin [2437; 8930; 8486] [18995; 8994; 18994; 18993; 18992; 8485] 0%Z [(1%Z, 2437); (1%Z, 8930); (1%Z, 8486); ((-1)%Z, 8994); ((-2)%Z, 8485)] 34359738368%Z 9903520314283042199192993792%Z;
  Lin [2436; 8929; 8485] [18991; 8993; 18990; 18989; 18988; 8484] 0%Z [(1%Z, 2436); (1%Z, 8929); (1%Z, 8485); ((-1)%Z, 8993); ((-2)%Z, 8484)] 17179869184%Z 19807040628566084398385987584%Z;
  Lin [2435; 8928; 8484] [18987; 8992; 18986; 18985; 18984; 8483] 0%Z [(1%Z, 2435); (1%Z, 8928); (1%Z, 8484); ((-1)%Z, 8992); ((-2)%Z, 8483)] 8589934592%Z 39614081257132168796771975168%Z].
Definition mult2_64_facts_23 : list lin_fact := [
  Lin [2434; 8927; 8483] [18983; 8991; 18982; 18981; 18980; 8482] 0%Z [(1%Z, 2434); (1%Z, 8927); (1%Z, 8483); ((-1)%Z, 8991); ((-2)%Z, 8482)] 4294967296%Z 79228162514264337593543950336%Z;
  Lin [2433; 8926; 8482] [18979; 8990; 18978; 18977; 18976; 8481] 0%Z [(1%Z, 2433); (1%Z, 8926); (1%Z, 8482); ((-1)%Z, 8990); ((-2)%Z, 8481)] 2147483648%Z 158456325028528675187087900672%Z;
  Lin [2432; 8925; 8481] [18975; 8989; 18974; 18973; 18972; 8480] 0%Z [(1%Z, 2432); (1%Z, 8925); (1%Z, 8481); ((-1)%Z, 8989); ((-2)%Z, 8480)] 1073741824%Z 316912650057057350374175801344%Z;
  Lin [2431; 8415; 8480] [18971; 8988; 18970; 18969; 18968; 8479] 0%Z [(1%Z, 2431); (1%Z, 8415); (1%Z, 8480); ((-1)%Z, 8988); ((-2)%Z, 8479)] 536870912%Z 633825300114114700748351602688%Z;
  Lin [2558; 9050] [28133; 8606] 0%Z [(1%Z, 2558); (1%Z, 9050); ((-1)%Z, 28133); ((-2)%Z, 8606)] 2475880078570760549798248448%Z 137438953472%Z;
  Lin [2557; 9049; 8606] [18967; 9113; 18966; 18965; 18964; 8605] 0%Z [(1%Z, 2557); (1%Z, 9049); (1%Z, 8606); ((-1)%Z, 9113); ((-2)%Z, 8605)] 1237940039285380274899124224%Z 274877906944%Z;
  Lin [2556; 9048; 8605] [18963; 9112; 18962; 18961; 18960; 8604] 0%Z [(1%Z, 2556); (1%Z, 9048); (1%Z, 8605); ((-1)%Z, 9112); ((-2)%Z, 8604)] 618970019642690137449562112%Z 549755813888%Z;
  Lin [2555; 9047; 8604] [18959; 9111; 18958; 18957; 18956; 8603] 0%Z [(1%Z, 2555); (1%Z, 9047); (1%Z, 8604); ((-1)%Z, 9111); ((-2)%Z, 8603)] 309485009821345068724781056%Z 1099511627776%Z;
  Lin [2554; 9046; 8603] [18955; 9110; 18954; 18953; 18952; 8602] 0%Z [(1%Z, 2554); (1%Z, 9046); (1%Z, 8603); ((-1)%Z, 9110); ((-2)%Z, 8602)] 154742504910672534362390528%Z 2199023255552%Z;
  Lin [2553; 9045; 8602] [18951; 9109; 18950; 18949; 18948; 8601] 0%Z [(1%Z, 2553); (1%Z, 9045); (1%Z, 8602); ((-1)%Z, 9109); ((-2)%Z, 8601)] 77371252455336267181195264%Z 4398046511104%Z;
  Lin [2552; 9044; 8601] [18947; 9108; 18946; 18945; 18944; 8600] 0%Z [(1%Z, 2552); (1%Z, 9044); (1%Z, 8601); ((-1)%Z, 9108); ((-2)%Z, 8600)] 38685626227668133590597632%Z 8796093022208%Z;
  Lin [2551; 9043; 8600] [18943; 9107; 18942; 18941; 18940; 8599] 0%Z [(1%Z, 2551); (1%Z, 9043); (1%Z, 8600); ((-1)%Z, 9107); ((-2)%Z, 8599)] 19342813113834066795298816%Z 17592186044416%Z;
  Lin [2550; 9042; 8599] [18939; 9106; 18938; 18937; 18936; 8598] 0%Z [(1%Z, 2550); (1%Z, 9042); (1%Z, 8599); ((-1)%Z, 9106); ((-2)%Z, 8598)] 9671406556917033397649408%Z 35184372088832%Z;
  Lin [2549; 9041; 8598] [18935; 9105; 18934; 18933; 18932; 8597] 0%Z [(1%Z, 2549); (1%Z, 9041); (1%Z, 8598); ((-1)%Z, 9105); ((-2)%Z, 8597)] 4835703278458516698824704%Z 70368744177664%Z;
  Lin [2548; 9040; 8597] [18931; 9104; 18930; 18929; 18928; 8596] 0%Z [(1%Z, 2548); (1%Z, 9040); (1%Z, 8597); ((-1)%Z, 9104); ((-2)%Z, 8596)] 2417851639229258349412352%Z 140737488355328%Z;
  Lin [2547; 9039; 8596] [18927; 9103; 18926; 18925; 18924; 8595] 0%Z [(1%Z, 2547); (1%Z, 9039); (1%Z, 8596); ((-1)%Z, 9103); ((-2)%Z, 8595)] 1208925819614629174706176%Z 281474976710656%Z;
  Lin [2546; 9038; 8595] [18923; 9102; 18922; 18921; 18920; 8594] 0%Z [(1%Z, 2546); (1%Z, 9038); (1%Z, 8595); ((-1)%Z, 9102); ((-2)%Z, 8594)] 604462909807314587353088%Z 562949953421312%Z;
  Lin [2545; 9037; 8594] [18919; 9101; 18918; 18917; 18916; 8593] 0%Z [(1%Z, 2545); (1%Z, 9037); (1%Z, 8594); ((-1)%Z, 9101); ((-2)%Z, 8593)] 302231454903657293676544%Z 1125899906842624%Z;
  Lin [2544; 9036; 8593] [18915; 9100; 18914; 18913; 18912; 8592] 0%Z [(1%Z, 2544); (1%Z, 9036); (1%Z, 8593); ((-1)%Z, 9100); ((-2)%Z, 8592)] 151115727451828646838272%Z 2251799813685248%Z;
  Lin [2543; 9035; 8592] [18911; 9099; 18910; 18909; 18908; 8591] 0%Z [(1%Z, 2543); (1%Z, 9035); (1%Z, 8592); ((-1)%Z, 9099); ((-2)%Z, 8591)] 75557863725914323419136%Z 4503599627370496%Z;
  Lin [2542; 9034; 8591] [18907; 9098; 18906; 18905; 18904; 8590] 0%Z [(1%Z, 2542); (1%Z, 9034); (1%Z, 8591); ((-1)%Z, 9098); ((-2)%Z, 8590)] 37778931862957161709568%Z 9007199254740992%Z;
  Lin [2541; 9033; 8590] [18903; 9097; 18902; 18901; 18900; 8589] 0%Z [(1%Z, 2541); (1%Z, 9033); (1%Z, 8590); ((-1)%Z, 9097); ((-2)%Z, 8589)] 18889465931478580854784%Z 18014398509481984%Z;
  Lin [2540; 9032; 8589] [18899; 9096; 18898; 18897; 18896; 8588] 0%Z [(1%Z, 2540); (1%Z, 9032); (1%Z, 8589); ((-1)%Z, 9096); ((-2)%Z, 8588)] 9444732965739290427392%Z 36028797018963968%Z;
  Lin [2539; 9031; 8588] [18895; 9095; 18894; 18893; 18892; 8587] 0%Z [(1%Z, 2539); (1%Z, 9031); (1%Z, 8588); ((-1)%Z, 9095); ((-2)%Z, 8587)] 4722366482869645213696%Z 72057594037927936%Z;
  Lin [2538; 9030; 8587] [18891; 9094; 18890; 18889; 18888; 8586] 0%Z [(1%Z, 2538); (1%Z, 9030); (1%Z, 8587); ((-1)%Z, 9094); ((-2)%Z, 8586)] 2361183241434822606848%Z 144115188075855872%Z;
  Lin [2537; 9029; 8586] [18887; 9093; 18886; 18885; 18884; 8585] 0%Z [(1%Z, 2537); (1%Z, 9029); (1%Z, 8586); ((-1)%Z, 9093); ((-2)%Z, 8585)] 1180591620717411303424%Z 288230376151711744%Z;
  Lin [2536; 9028; 8585] [18883; 9092; 18882; 18881; 18880; 8584] 0%Z [(1%Z, 2536); (1%Z, 9028); (1%Z, 8585); ((-1)%Z, 9092); ((-2)%Z, 8584)] 590295810358705651712%Z 576460752303423488%Z;
  Lin [2535; 9027; 8584] [18879; 9091; 18878; 18877; 18876; 8583] 0%Z [(1%Z, 2535); (1%Z, 9027); (1%Z, 8584); ((-1)%Z, 9091); ((-2)%Z, 8583)] 295147905179352825856%Z 1152921504606846976%Z;
  Lin [2534; 9026; 8583] [18875; 9090; 18874; 18873; 18872; 8582] 0%Z [(1%Z, 2534); (1%Z, 9026); (1%Z, 8583); ((-1)%Z, 9090); ((-2)%Z, 8582)] 147573952589676412928%Z 2305843009213693952%Z;
  Lin [2533; 9025; 8582] [18871; 9089; 18870; 18869; 18868; 8581] 0%Z [(1%Z, 2533); (1%Z, 9025); (1%Z, 8582); ((-1)%Z, 9089); ((-2)%Z, 8581)] 73786976294838206464%Z 4611686018427387904%Z;
  Lin [2532; 9024; 8581] [18867; 9088; 18866; 18865; 18864; 8580] 0%Z [(1%Z, 2532); (1%Z, 9024); (1%Z, 8581); ((-1)%Z, 9088); ((-2)%Z, 8580)] 36893488147419103232%Z 9223372036854775808%Z;
  Lin [2531; 9023; 8580] [18863; 9087; 18862; 18861; 18860; 8579] 0%Z [(1%Z, 2531); (1%Z, 9023); (1%Z, 8580); ((-1)%Z, 9087); ((-2)%Z, 8579)] 18446744073709551616%Z 18446744073709551616%Z;
  Lin [2530; 9022; 8579] [18859; 9086; 18858; 18857; 18856; 8578] 0%Z [(1%Z, 2530); (1%Z, 9022); (1%Z, 8579); ((-1)%Z, 9086); ((-2)%Z, 8578)] 9223372036854775808%Z 36893488147419103232%Z;
  Lin [2529; 9021; 8578] [18855; 9085; 18854; 18853; 18852; 8577] 0%Z [(1%Z, 2529); (1%Z, 9021); (1%Z, 8578); ((-1)%Z, 9085); ((-2)%Z, 8577)] 4611686018427387904%Z 73786976294838206464%Z;
  Lin [2528; 9020; 8577] [18851; 9084; 18850; 18849; 18848; 8576] 0%Z [(1%Z, 2528); (1%Z, 9020); (1%Z, 8577); ((-1)%Z, 9084); ((-2)%Z, 8576)] 2305843009213693952%Z 147573952589676412928%Z;
  Lin [2527; 9019; 8576] [18847; 9083; 18846; 18845; 18844; 8575] 0%Z [(1%Z, 2527); (1%Z, 9019); (1%Z, 8576); ((-1)%Z, 9083); ((-2)%Z, 8575)] 1152921504606846976%Z 295147905179352825856%Z;
  Lin [2526; 9018; 8575] [18843; 9082; 18842; 18841; 18840; 8574] 0%Z [(1%Z, 2526); (1%Z, 9018); (1%Z, 8575); ((-1)%Z, 9082); ((-2)%Z, 8574)] 576460752303423488%Z 590295810358705651712%Z;
  Lin [2525; 9017; 8574] [18839; 9081; 18838; 18837; 18836; 8573] 0%Z [(1%Z, 2525); (1%Z, 9017); (1%Z, 8574); ((-1)%Z, 9081); ((-2)%Z, 8573)] 288230376151711744%Z 1180591620717411303424%Z;
  Lin [2524; 9016; 8573] [18835; 9080; 18834; 18833; 18832; 8572] 0%Z [(1%Z, 2524); (1%Z, 9016); (1%Z, 8573); ((-1)%Z, 9080); ((-2)%Z, 8572)] 144115188075855872%Z 2361183241434822606848%Z;
  Lin [2523; 9015; 8572] [18831; 9079; 18830; 18829; 18828; 8571] 0%Z [(1%Z, 2523); (1%Z, 9015); (1%Z, 8572); ((-1)%Z, 9079); ((-2)%Z, 8571)] 72057594037927936%Z 4722366482869645213696%Z;
  Lin [2522; 9014; 8571] [18827; 9078; 18826; 18825; 18824; 8570] 0%Z [(1%Z, 2522); (1%Z, 9014); (1%Z, 8571); ((-1)%Z, 9078); ((-2)%Z, 8570)] 36028797018963968%Z 9444732965739290427392%Z;
  Lin [2521; 9013; 8570] [18823; 9077; 18822; 18821; 18820; 8569] 0%Z [(1%Z, 2521); (1%Z, 9013); (1%Z, 8570); ((-1)%Z, 9077); ((-2)%Z, 8569)] 18014398509481984%Z 18889465931478580854784%Z;
  Lin [2520; 9012; 8569] [18819; 9076; 18818; 18817; 18816; 8568] 0%Z [(1%Z, 2520); (1%Z, 9012); (1%Z, 8569); ((-1)%Z, 9076); ((-2)%Z, 8568)] 9007199254740992%Z 37778931862957161709568%Z;
  Lin [2519; 9011; 8568] [18815; 9075; 18814; 18813; 18812; 8567] 0%Z [(1%Z, 2519); (1%Z, 9011); (1%Z, 8568); ((-1)%Z, 9075); ((-2)%Z, 8567)] 4503599627370496%Z 75557863725914323419136%Z;
  Lin [2518; 9010; 8567] [18811; 9074; 18810; 18809; 18808; 8566] 0%Z [(1%Z, 2518); (1%Z, 9010); (1%Z, 8567); ((-1)%Z, 9074); ((-2)%Z, 8566)] 2251799813685248%Z 151115727451828646838272%Z;
  Lin [2517; 9009; 8566] [18807; 9073; 18806; 18805; 18804; 8565] 0%Z [(1%Z, 2517); (1%Z, 9009); (1%Z, 8566); ((-1)%Z, 9073); ((-2)%Z, 8565)] 1125899906842624%Z 302231454903657293676544%Z;
  Lin [2516; 9008; 8565] [18803; 9072; 18802; 18801; 18800; 8564] 0%Z [(1%Z, 2516); (1%Z, 9008); (1%Z, 8565); ((-1)%Z, 9072); ((-2)%Z, 8564)] 562949953421312%Z 604462909807314587353088%Z;
  Lin [2515; 9007; 8564] [18799; 9071; 18798; 18797; 18796; 8563] 0%Z [(1%Z, 2515); (1%Z, 9007); (1%Z, 8564); ((-1)%Z, 9071); ((-2)%Z, 8563)] 281474976710656%Z 1208925819614629174706176%Z;
  Lin [2514; 9006; 8563] [18795; 9070; 18794; 18793; 18792; 8562] 0%Z [(1%Z, 2514); (1%Z, 9006); (1%Z, 8563); ((-1)%Z, 9070); ((-2)%Z, 8562)] 140737488355328%Z 2417851639229258349412352%Z;
  Lin [2513; 9005; 8562] [18791; 9069; 18790; 18789; 18788; 8561] 0%Z [(1%Z, 2513); (1%Z, 9005); (1%Z, 8562); ((-1)%Z, 9069); ((-2)%Z, 8561)] 70368744177664%Z 4835703278458516698824704%Z;
  Lin [2512; 9004; 8561] [18787; 9068; 18786; 18785; 18784; 8560] 0%Z [(1%Z, 2512); (1%Z, 9004); (1%Z, 8561); ((-1)%Z, 9068); ((-2)%Z, 8560)] 35184372088832%Z 9671406556917033397649408%Z;
  Lin [2511; 9003; 8560] [18783; 9067; 18782; 18781; 18780; 8559] 0%Z [(1%Z, 2511); (1%Z, 9003); (1%Z, 8560); ((-1)%Z, 9067); ((-2)%Z, 8559)] 17592186044416%Z 19342813113834066795298816%Z;
  Lin [2510; 9002; 8559] [18779; 9066; 18778; 18777; 18776; 8558] 0%Z [(1%Z, 2510); (1%Z, 9002); (1%Z, 8559); ((-1)%Z, 9066); ((-2)%Z, 8558)] 8796093022208%Z 38685626227668133590597632%Z;
  Lin [2509; 9001; 8558] [18775; 9065; 18774; 18773; 18772; 8557] 0%Z [(1%Z, 2509); (1%Z, 9001); (1%Z, 8558); ((-1)%Z, 9065); ((-2)%Z, 8557)] 4398046511104%Z 77371252455336267181195264%Z;
  Lin [2508; 9000; 8557] [18771; 9064; 18770; 18769; 18768; 8556] 0%Z [(1%Z, 2508); (1%Z, 9000); (1%Z, 8557); ((-1)%Z, 9064); ((-2)%Z, 8556)] 2199023255552%Z 154742504910672534362390528%Z;
  Lin [2507; 8999; 8556] [18767; 9063; 18766; 18765; 18764; 8555] 0%Z [(1%Z, 2507); (1%Z, 8999); (1%Z, 8556); ((-1)%Z, 9063); ((-2)%Z, 8555)] 1099511627776%Z 309485009821345068724781056%Z;
  Lin [2506; 8998; 8555] [18763; 9062; 18762; 18761; 18760; 8554] 0%Z [(1%Z, 2506); (1%Z, 8998); (1%Z, 8555); ((-1)%Z, 9062); ((-2)%Z, 8554)] 549755813888%Z 618970019642690137449562112%Z;
  Lin [2505; 8997; 8554] [18759; 9061; 18758; 18757; 18756; 8553] 0%Z [(1%Z, 2505); (1%Z, 8997); (1%Z, 8554); ((-1)%Z, 9061); ((-2)%Z, 8553)] 274877906944%Z 1237940039285380274899124224%Z;
  Lin [2504; 8996; 8553] [18755; 9060; 18754; 18753; 18752; 8552] 0%Z [(1%Z, 2504); (1%Z, 8996); (1%Z, 8553); ((-1)%Z, 9060); ((-2)%Z, 8552)] 137438953472%Z 2475880078570760549798248448%Z;
  Lin [2503; 8995; 8552] [18751; 9059; 18750; 18749; 18748; 8551] 0%Z [(1%Z, 2503); (1%Z, 8995); (1%Z, 8552); ((-1)%Z, 9059); ((-2)%Z, 8551)] 68719476736%Z 4951760157141521099596496896%Z;
  Lin [2502; 8994; 8551] [18747; 9058; 18746; 18745; 18744; 8550] 0%Z [(1%Z, 2502); (1%Z, 8994); (1%Z, 8551); ((-1)%Z, 9058); ((-2)%Z, 8550)] 34359738368%Z 9903520314283042199192993792%Z;
  Lin [2501; 8993; 8550] [18743; 9057; 18742; 18741; 18740; 8549] 0%Z [(1%Z, 2501); (1%Z, 8993); (1%Z, 8550); ((-1)%Z, 9057); ((-2)%Z, 8549)] 17179869184%Z 19807040628566084398385987584%Z;
  Lin [2500; 8992; 8549] [18739; 9056; 18738; 18737; 18736; 8548] 0%Z [(1%Z, 2500); (1%Z, 8992); (1%Z, 8549); ((-1)%Z, 9056); ((-2)%Z, 8548)] 8589934592%Z 39614081257132168796771975168%Z;
  Lin [2499; 8991; 8548] [18735; 9055; 18734; 18733; 18732; 8547] 0%Z [(1%Z, 2499); (1%Z, 8991); (1%Z, 8548); ((-1)%Z, 9055); ((-2)%Z, 8547)] 4294967296%Z 79228162514264337593543950336%Z;
  Lin [2498; 8990; 8547] [18731; 9054; 18730; 18729; 18728; 8546] 0%Z [(1%Z, 2498); (1%Z, 8990); (1%Z, 8547); ((-1)%Z, 9054); ((-2)%Z, 8546)] 2147483648%Z 158456325028528675187087900672%Z;
  Lin [2497; 8989; 8546] [18727; 9053; 18726; 18725; 18724; 8545] 0%Z [(1%Z, 2497); (1%Z, 8989); (1%Z, 8546); ((-1)%Z, 9053); ((-2)%Z, 8545)] 1073741824%Z 316912650057057350374175801344%Z;
  Lin [2496; 8988; 8545] [18723; 9052; 18722; 18721; 18720; 8544] 0%Z [(1%Z, 2496); (1%Z, 8988); (1%Z, 8545); ((-1)%Z, 9052); ((-2)%Z, 8544)] 536870912%Z 633825300114114700748351602688%Z;
  Lin [2495; 8479; 8544] [18719; 9051; 18718; 18717; 18716; 8543] 0%Z [(1%Z, 2495); (1%Z, 8479); (1%Z, 8544); ((-1)%Z, 9051); ((-2)%Z, 8543)] 268435456%Z 1267650600228229401496703205376%Z;
  Lin [2622; 9113] [28134; 8670] 0%Z [(1%Z, 2622); (1%Z, 9113); ((-1)%Z, 28134); ((-2)%Z, 8670)] 1237940039285380274899124224%Z 274877906944%Z;
  Lin [2621; 9112; 8670] [18715; 9176; 18714; 18713; 18712; 8669] 0%Z [(1%Z, 2621); (1%Z, 9112); (1%Z, 8670); ((-1)%Z, 9176); ((-2)%Z, 8669)] 618970019642690137449562112%Z 549755813888%Z;
  Lin [2686; 9176] [28135; 8734] 0%Z [(1%Z, 2686); (1%Z, 9176); ((-1)%Z, 28135); ((-2)%Z, 8734)] 618970019642690137449562112%Z 549755813888%Z;
  Lin [2620; 9111; 8669] [18711; 9175; 18710; 18709; 18708; 8668] 0%Z [(1%Z, 2620); (1%Z, 9111); (1%Z, 8669); ((-1)%Z, 9175); ((-2)%Z, 8668)] 309485009821345068724781056%Z 1099511627776%Z;
  Lin [2685; 9175; 8734] [18463; 9239; 18462; 18461; 18460; 8733] 0%Z [(1%Z, 2685); (1%Z, 9175); (1%Z, 8734); ((-1)%Z, 9239); ((-2)%Z, 8733)] 309485009821345068724781056%Z 1099511627776%Z;
  Lin [2619; 9110; 8668] [18707; 9174; 18706; 18705; 18704; 8667] 0%Z [(1%Z, 2619); (1%Z, 9110); (1%Z, 8668); ((-1)%Z, 9174); ((-2)%Z, 8667)] 154742504910672534362390528%Z 2199023255552%Z;
  Lin [2684; 9174; 8733] [18459; 9238; 18458; 18457; 18456; 8732] 0%Z [(1%Z, 2684); (1%Z, 9174); (1%Z, 8733); ((-1)%Z, 9238); ((-2)%Z, 8732)] 154742504910672534362390528%Z 2199023255552%Z;
  Lin [2618; 9109; 8667] [18703; 9173; 18702; 18701; 18700; 8666] 0%Z [(1%Z, 2618); (1%Z, 9109); (1%Z, 8667); ((-1)%Z, 9173); ((-2)%Z, 8666)] 77371252455336267181195264%Z 4398046511104%Z;
  Lin [2683; 9173; 8732] [18455; 9237; 18454; 18453; 18452; 8731] 0%Z [(1%Z, 2683); (1%Z, 9173); (1%Z, 8732); ((-1)%Z, 9237); ((-2)%Z, 8731)] 77371252455336267181195264%Z 4398046511104%Z;
  Lin [2617; 9108; 8666] [18699; 9172; 18698; 18697; 18696; 8665] 0%Z [(1%Z, 2617); (1%Z, 9108); (1%Z, 8666); ((-1)%Z, 9172); ((-2)%Z, 8665)] 38685626227668133590597632%Z 8796093022208%Z;
  Lin [2682; 9172; 8731] [18451; 9236; 18450; 18449; 18448; 8730] 0%Z [(1%Z, 2682); (1%Z, 9172); (1%Z, 8731); ((-1)%Z, 9236); ((-2)%Z, 8730)] 38685626227668133590597632%Z 8796093022208%Z;
  Lin [2616; 9107; 8665] [18695; 9171; 18694; 18693; 18692; 8664] 0%Z [(1%Z, 2616); (1%Z, 9107); (1%Z, 8665); ((-1)%Z, 9171); ((-2)%Z, 8664)] 19342813113834066795298816%Z 17592186044416%Z;
  Lin [2615; 9106; 8664] [18691; 9170; 18690; 18689; 18688; 8663] 0%Z [(1%Z, 2615); (1%Z, 9106); (1%Z, 8664); ((-1)%Z, 9170); ((-2)%Z, 8663)] 9671406556917033397649408%Z 35184372088832%Z;
  Lin [2614; 9105; 8663] [18687; 9169; 18686; 18685; 18684; 8662] 0%Z [(1%Z, 2614); (1%Z, 9105); (1%Z, 8663); ((-1)%Z, 9169); ((-2)%Z, 8662)] 4835703278458516698824704%Z 70368744177664%Z;
  Lin [2681; 9171; 8730] [18447; 9235; 18446; 18445; 18444; 8729] 0%Z [(1%Z, 2681); (1%Z, 9171); (1%Z, 8730); ((-1)%Z, 9235); ((-2)%Z, 8729)] 19342813113834066795298816%Z 17592186044416%Z;
  Lin [2680; 9170; 8729] [18443; 9234; 18442; 18441; 18440; 8728] 0%Z [(1%Z, 2680); (1%Z, 9170); (1%Z, 8729); ((-1)%Z, 9234); ((-2)%Z, 8728)] 9671406556917033397649408%Z 35184372088832%Z;
  Lin [2679; 9169; 8728] [18439; 9233; 18438; 18437; 18436; 8727] 0%Z [(1%Z, 2679); (1%Z, 9169); (1%Z, 8728); ((-1)%Z, 9233); ((-2)%Z, 8727)] 4835703278458516698824704%Z 70368744177664%Z;
  Lin [2613; 9104; 8662] [18683; 9168; 18682; 18681; 18680; 8661] 0%Z [(1%Z, 2613); (1%Z, 9104); (1%Z, 8662); ((-1)%Z, 9168); ((-2)%Z, 8661)] 2417851639229258349412352%Z 140737488355328%Z;
  Lin [2612; 9103; 8661] [18679; 9167; 18678; 18677; 18676; 8660] 0%Z [(1%Z, 2612); (1%Z, 9103); (1%Z, 8661); ((-1)%Z, 9167); ((-2)%Z, 8660)] 1208925819614629174706176%Z 281474976710656%Z;
  Lin [2611; 9102; 8660] [18675; 9166; 18674; 18673; 18672; 8659] 0%Z [(1%Z, 2611); (1%Z, 9102); (1%Z, 8660); ((-1)%Z, 9166); ((-2)%Z, 8659)] 604462909807314587353088%Z 562949953421312%Z;
  Lin [2678; 9168; 8727] [18435; 9232; 18434; 18433; 18432; 8726] 0%Z [(1%Z, 2678); (1%Z, 9168); (1%Z, 8727); ((-1)%Z, 9232); ((-2)%Z, 8726)] 2417851639229258349412352%Z 140737488355328%Z;
  Lin [2677; 9167; 8726] [18431; 9231; 18430; 18429; 18428; 8725] 0%Z [(1%Z, 2677); (1%Z, 9167); (1%Z, 8726); ((-1)%Z, 9231); ((-2)%Z, 8725)] 1208925819614629174706176%Z 281474976710656%Z;
  Lin [2676; 9166; 8725] [18427; 9230; 18426; 18425; 18424; 8724] 0%Z [(1%Z, 2676); (1%Z, 9166); (1%Z, 8725); ((-1)%Z, 9230); ((-2)%Z, 8724)] 604462909807314587353088%Z 562949953421312%Z;
  Lin [2610; 9101; 8659] [18671; 9165; 18670; 18669; 18668; 8658] 0%Z [(1%Z, 2610); (1%Z, 9101); (1%Z, 8659); ((-1)%Z, 9165); ((-2)%Z, 8658)] 302231454903657293676544%Z 1125899906842624%Z;
  Lin [2609; 9100; 8658] [18667; 9164; 18666; 18665; 18664; 8657] 0%Z [(1%Z, 2609); (1%Z, 9100); (1%Z, 8658); ((-1)%Z, 9164); ((-2)%Z, 8657)] 151115727451828646838272%Z 2251799813685248%Z;
  Lin [2608; 9099; 8657] [18663; 9163; 18662; 18661; 18660; 8656] 0%Z [(1%Z, 2608); (1%Z, 9099); (1%Z, 8657); ((-1)%Z, 9163); ((-2)%Z, 8656)] 75557863725914323419136%Z 4503599627370496%Z;
  Lin [2607; 9098; 8656] [18659; 9162; 18658; 18657; 18656; 8655] 0%Z [(1%Z, 2607); (1%Z, 9098); (1%Z, 8656); ((-1)%Z, 9162); ((-2)%Z, 8655)] 37778931862957161709568%Z 9007199254740992%Z;
  Lin [2606; 9097; 8655] [18655; 9161; 18654; 18653; 18652; 8654] 0%Z [(1%Z, 2606); (1%Z, 9097); (1%Z, 8655); ((-1)%Z, 9161); ((-2)%Z, 8654)] 18889465931478580854784%Z 18014398509481984%Z;
  Lin [2675; 9165; 8724] [18423; 9229; 18422; 18421; 18420; 8723] 0%Z [(1%Z, 2675); (1%Z, 9165); (1%Z, 8724); ((-1)%Z, 9229); ((-2)%Z, 8723)] 302231454903657293676544%Z 1125899906842624%Z;
  Lin [2674; 9164; 8723] [18419; 9228; 18418; 18417; 18416; 8722] 0%Z [(1%Z, 2674); (1%Z, 9164); (1%Z, 8723); ((-1)%Z, 9228); ((-2)%Z, 8722)] 151115727451828646838272%Z 2251799813685248%Z;
  Lin [2673; 9163; 8722] [18415; 9227; 18414; 18413; 18412; 8721] 0%Z [(1%Z, 2673); (1%Z, 9163); (1%Z, 8722); ((-1)%Z, 9227); ((-2)%Z, 8721)] 75557863725914323419136%Z 4503599627370496%Z;
  Lin [2672; 9162; 8721] [18411; 9226; 18410; 18409; 18408; 8720] 0%Z [(1%Z, 2672); (1%Z, 9162); (1%Z, 8721); ((-1)%Z, 9226); ((-2)%Z, 8720)] 37778931862957161709568%Z 9007199254740992%Z].
Definition mult2_64_facts_24 : list lin_fact := [
  Lin [2671; 9161; 8720] [18407; 9225; 18406; 18405; 18404; 8719] 0%Z [(1%Z, 2671); (1%Z, 9161); (1%Z, 8720); ((-1)%Z, 9225); ((-2)%Z, 8719)] 18889465931478580854784%Z 18014398509481984%Z;
  Lin [2605; 9096; 8654] [18651; 9160; 18650; 18649; 18648; 8653] 0%Z [(1%Z, 2605); (1%Z, 9096); (1%Z, 8654); ((-1)%Z, 9160); ((-2)%Z, 8653)] 9444732965739290427392%Z 36028797018963968%Z;
  Lin [2604; 9095; 8653] [18647; 9159; 18646; 18645; 18644; 8652] 0%Z [(1%Z, 2604); (1%Z, 9095); (1%Z, 8653); ((-1)%Z, 9159); ((-2)%Z, 8652)] 4722366482869645213696%Z 72057594037927936%Z;
  Lin [2603; 9094; 8652] [18643; 9158; 18642; 18641; 18640; 8651] 0%Z [(1%Z, 2603); (1%Z, 9094); (1%Z, 8652); ((-1)%Z, 9158); ((-2)%Z, 8651)] 2361183241434822606848%Z 144115188075855872%Z;
  Lin [2602; 9093; 8651] [18639; 9157; 18638; 18637; 18636; 8650] 0%Z [(1%Z, 2602); (1%Z, 9093); (1%Z, 8651); ((-1)%Z, 9157); ((-2)%Z, 8650)] 1180591620717411303424%Z 288230376151711744%Z;
  Lin [2601; 9092; 8650] [18635; 9156; 18634; 18633; 18632; 8649] 0%Z [(1%Z, 2601); (1%Z, 9092); (1%Z, 8650); ((-1)%Z, 9156); ((-2)%Z, 8649)] 590295810358705651712%Z 576460752303423488%Z;
  Lin [2670; 9160; 8719] [18403; 9224; 18402; 18401; 18400; 8718] 0%Z [(1%Z, 2670); (1%Z, 9160); (1%Z, 8719); ((-1)%Z, 9224); ((-2)%Z, 8718)] 9444732965739290427392%Z 36028797018963968%Z;
  Lin [2669; 9159; 8718] [18399; 9223; 18398; 18397; 18396; 8717] 0%Z [(1%Z, 2669); (1%Z, 9159); (1%Z, 8718); ((-1)%Z, 9223); ((-2)%Z, 8717)] 4722366482869645213696%Z 72057594037927936%Z;
  Lin [2668; 9158; 8717] [18395; 9222; 18394; 18393; 18392; 8716] 0%Z [(1%Z, 2668); (1%Z, 9158); (1%Z, 8717); ((-1)%Z, 9222); ((-2)%Z, 8716)] 2361183241434822606848%Z 144115188075855872%Z;
  Lin [2667; 9157; 8716] [18391; 9221; 18390; 18389; 18388; 8715] 0%Z [(1%Z, 2667); (1%Z, 9157); (1%Z, 8716); ((-1)%Z, 9221); ((-2)%Z, 8715)] 1180591620717411303424%Z 288230376151711744%Z;
  Lin [2666; 9156; 8715] [18387; 9220; 18386; 18385; 18384; 8714] 0%Z [(1%Z, 2666); (1%Z, 9156); (1%Z, 8715); ((-1)%Z, 9220); ((-2)%Z, 8714)] 590295810358705651712%Z 576460752303423488%Z;
  Lin [2600; 9091; 8649] [18631; 9155; 18630; 18629; 18628; 8648] 0%Z [(1%Z, 2600); (1%Z, 9091); (1%Z, 8649); ((-1)%Z, 9155); ((-2)%Z, 8648)] 295147905179352825856%Z 1152921504606846976%Z;
  Lin [2599; 9090; 8648] [18627; 9154; 18626; 18625; 18624; 8647] 0%Z [(1%Z, 2599); (1%Z, 9090); (1%Z, 8648); ((-1)%Z, 9154); ((-2)%Z, 8647)] 147573952589676412928%Z 2305843009213693952%Z;
  Lin [2598; 9089; 8647] [18623; 9153; 18622; 18621; 18620; 8646] 0%Z [(1%Z, 2598); (1%Z, 9089); (1%Z, 8647); ((-1)%Z, 9153); ((-2)%Z, 8646)] 73786976294838206464%Z 4611686018427387904%Z;
  Lin [2597; 9088; 8646] [18619; 9152; 18618; 18617; 18616; 8645] 0%Z [(1%Z, 2597); (1%Z, 9088); (1%Z, 8646); ((-1)%Z, 9152); ((-2)%Z, 8645)] 36893488147419103232%Z 9223372036854775808%Z;
  Lin [2596; 9087; 8645] [18615; 9151; 18614; 18613; 18612; 8644] 0%Z [(1%Z, 2596); (1%Z, 9087); (1%Z, 8645); ((-1)%Z, 9151); ((-2)%Z, 8644)] 18446744073709551616%Z 18446744073709551616%Z;
  Lin [2595; 9086; 8644] [18611; 9150; 18610; 18609; 18608; 8643] 0%Z [(1%Z, 2595); (1%Z, 9086); (1%Z, 8644); ((-1)%Z, 9150); ((-2)%Z, 8643)] 9223372036854775808%Z 36893488147419103232%Z;
  Lin [2594; 9085; 8643] [18607; 9149; 18606; 18605; 18604; 8642] 0%Z [(1%Z, 2594); (1%Z, 9085); (1%Z, 8643); ((-1)%Z, 9149); ((-2)%Z, 8642)] 4611686018427387904%Z 73786976294838206464%Z;
  Lin [2665; 9155; 8714] [18383; 9219; 18382; 18381; 18380; 8713] 0%Z [(1%Z, 2665); (1%Z, 9155); (1%Z, 8714); ((-1)%Z, 9219); ((-2)%Z, 8713)] 295147905179352825856%Z 1152921504606846976%Z;
  Lin [2664; 9154; 8713] [18379; 9218; 18378; 18377; 18376; 8712] 0%Z [(1%Z, 2664); (1%Z, 9154); (1%Z, 8713); ((-1)%Z, 9218); ((-2)%Z, 8712)] 147573952589676412928%Z 2305843009213693952%Z;
  Lin [2663; 9153; 8712] [18375; 9217; 18374; 18373; 18372; 8711] 0%Z [(1%Z, 2663); (1%Z, 9153); (1%Z, 8712); ((-1)%Z, 9217); ((-2)%Z, 8711)] 73786976294838206464%Z 4611686018427387904%Z;
  Lin [2662; 9152; 8711] [18371; 9216; 18370; 18369; 18368; 8710] 0%Z [(1%Z, 2662); (1%Z, 9152); (1%Z, 8711); ((-1)%Z, 9216); ((-2)%Z, 8710)] 36893488147419103232%Z 9223372036854775808%Z;
  Lin [2661; 9151; 8710] [18367; 9215; 18366; 18365; 18364; 8709] 0%Z [(1%Z, 2661); (1%Z, 9151); (1%Z, 8710); ((-1)%Z, 9215); ((-2)%Z, 8709)] 18446744073709551616%Z 18446744073709551616%Z;
  Lin [2660; 9150; 8709] [18363; 9214; 18362; 18361; 18360; 8708] 0%Z [(1%Z, 2660); (1%Z, 9150); (1%Z, 8709); ((-1)%Z, 9214); ((-2)%Z, 8708)] 9223372036854775808%Z 36893488147419103232%Z;
  Lin [2659; 9149; 8708] [18359; 9213; 18358; 18357; 18356; 8707] 0%Z [(1%Z, 2659); (1%Z, 9149); (1%Z, 8708); ((-1)%Z, 9213); ((-2)%Z, 8707)] 4611686018427387904%Z 73786976294838206464%Z;
  Lin [2593; 9084; 8642] [18603; 9148; 18602; 18601; 18600; 8641] 0%Z [(1%Z, 2593); (1%Z, 9084); (1%Z, 8642); ((-1)%Z, 9148); ((-2)%Z, 8641)] 2305843009213693952%Z 147573952589676412928%Z;
  Lin [2592; 9083; 8641] [18599; 9147; 18598; 18597; 18596; 8640] 0%Z [(1%Z, 2592); (1%Z, 9083); (1%Z, 8641); ((-1)%Z, 9147); ((-2)%Z, 8640)] 1152921504606846976%Z 295147905179352825856%Z;
  Lin [2591; 9082; 8640] [18595; 9146; 18594; 18593; 18592; 8639] 0%Z [(1%Z, 2591); (1%Z, 9082); (1%Z, 8640); ((-1)%Z, 9146); ((-2)%Z, 8639)] 576460752303423488%Z 590295810358705651712%Z;
  Lin [2590; 9081; 8639] [18591; 9145; 18590; 18589; 18588; 8638] 0%Z [(1%Z, 2590); (1%Z, 9081); (1%Z, 8639); ((-1)%Z, 9145); ((-2)%Z, 8638)] 288230376151711744%Z 1180591620717411303424%Z;
  Lin [2589; 9080; 8638] [18587; 9144; 18586; 18585; 18584; 8637] 0%Z [(1%Z, 2589); (1%Z, 9080); (1%Z, 8638); ((-1)%Z, 9144); ((-2)%Z, 8637)] 144115188075855872%Z 2361183241434822606848%Z;
  Lin [2588; 9079; 8637] [18583; 9143; 18582; 18581; 18580; 8636] 0%Z [(1%Z, 2588); (1%Z, 9079); (1%Z, 8637); ((-1)%Z, 9143); ((-2)%Z, 8636)] 72057594037927936%Z 4722366482869645213696%Z;
  Lin [2587; 9078; 8636] [18579; 9142; 18578; 18577; 18576; 8635] 0%Z [(1%Z, 2587); (1%Z, 9078); (1%Z, 8636); ((-1)%Z, 9142); ((-2)%Z, 8635)] 36028797018963968%Z 9444732965739290427392%Z;
  Lin [2658; 9148; 8707] [18355; 9212; 18354; 18353; 18352; 8706] 0%Z [(1%Z, 2658); (1%Z, 9148); (1%Z, 8707); ((-1)%Z, 9212); ((-2)%Z, 8706)] 2305843009213693952%Z 147573952589676412928%Z;
  Lin [2657; 9147; 8706] [18351; 9211; 18350; 18349; 18348; 8705] 0%Z [(1%Z, 2657); (1%Z, 9147); (1%Z, 8706); ((-1)%Z, 9211); ((-2)%Z, 8705)] 1152921504606846976%Z 295147905179352825856%Z;
  Lin [2656; 9146; 8705] [18347; 9210; 18346; 18345; 18344; 8704] 0%Z [(1%Z, 2656); (1%Z, 9146); (1%Z, 8705); ((-1)%Z, 9210); ((-2)%Z, 8704)] 576460752303423488%Z 590295810358705651712%Z;
  Lin [2655; 9145; 8704] [18343; 9209; 18342; 18341; 18340; 8703] 0%Z [(1%Z, 2655); (1%Z, 9145); (1%Z, 8704); ((-1)%Z, 9209); ((-2)%Z, 8703)] 288230376151711744%Z 1180591620717411303424%Z;
  Lin [2654; 9144; 8703] [18339; 9208; 18338; 18337; 18336; 8702] 0%Z [(1%Z, 2654); (1%Z, 9144); (1%Z, 8703); ((-1)%Z, 9208); ((-2)%Z, 8702)] 144115188075855872%Z 2361183241434822606848%Z;
  Lin [2653; 9143; 8702] [18335; 9207; 18334; 18333; 18332; 8701] 0%Z [(1%Z, 2653); (1%Z, 9143); (1%Z, 8702); ((-1)%Z, 9207); ((-2)%Z, 8701)] 72057594037927936%Z 4722366482869645213696%Z;
  Lin [2652; 9142; 8701] [18331; 9206; 18330; 18329; 18328; 8700] 0%Z [(1%Z, 2652); (1%Z, 9142); (1%Z, 8701); ((-1)%Z, 9206); ((-2)%Z, 8700)] 36028797018963968%Z 9444732965739290427392%Z;
  Lin [2586; 9077; 8635] [18575; 9141; 18574; 18573; 18572; 8634] 0%Z [(1%Z, 2586); (1%Z, 9077); (1%Z, 8635); ((-1)%Z, 9141); ((-2)%Z, 8634)] 18014398509481984%Z 18889465931478580854784%Z;
  Lin [2585; 9076; 8634] [18571; 9140; 18570; 18569; 18568; 8633] 0%Z [(1%Z, 2585); (1%Z, 9076); (1%Z, 8634); ((-1)%Z, 9140); ((-2)%Z, 8633)] 9007199254740992%Z 37778931862957161709568%Z;
  Lin [2584; 9075; 8633] [18567; 9139; 18566; 18565; 18564; 8632] 0%Z [(1%Z, 2584); (1%Z, 9075); (1%Z, 8633); ((-1)%Z, 9139); ((-2)%Z, 8632)] 4503599627370496%Z 75557863725914323419136%Z;
  Lin [2583; 9074; 8632] [18563; 9138; 18562; 18561; 18560; 8631] 0%Z [(1%Z, 2583); (1%Z, 9074); (1%Z, 8632); ((-1)%Z, 9138); ((-2)%Z, 8631)] 2251799813685248%Z 151115727451828646838272%Z;
  Lin [2582; 9073; 8631] [18559; 9137; 18558; 18557; 18556; 8630] 0%Z [(1%Z, 2582); (1%Z, 9073); (1%Z, 8631); ((-1)%Z, 9137); ((-2)%Z, 8630)] 1125899906842624%Z 302231454903657293676544%Z;
  Lin [2581; 9072; 8630] [18555; 9136; 18554; 18553; 18552; 8629] 0%Z [(1%Z, 2581); (1%Z, 9072); (1%Z, 8630); ((-1)%Z, 9136); ((-2)%Z, 8629)] 562949953421312%Z 604462909807314587353088%Z;
  Lin [2580; 9071; 8629] [18551; 9135; 18550; 18549; 18548; 8628] 0%Z [(1%Z, 2580); (1%Z, 9071); (1%Z, 8629); ((-1)%Z, 9135); ((-2)%Z, 8628)] 281474976710656%Z 1208925819614629174706176%Z;
  Lin [2579; 9070; 8628] [18547; 9134; 18546; 18545; 18544; 8627] 0%Z [(1%Z, 2579); (1%Z, 9070); (1%Z, 8628); ((-1)%Z, 9134); ((-2)%Z, 8627)] 140737488355328%Z 2417851639229258349412352%Z;
  Lin [2578; 9069; 8627] [18543; 9133; 18542; 18541; 18540; 8626] 0%Z [(1%Z, 2578); (1%Z, 9069); (1%Z, 8627); ((-1)%Z, 9133); ((-2)%Z, 8626)] 70368744177664%Z 4835703278458516698824704%Z;
  Lin [2577; 9068; 8626] [18539; 9132; 18538; 18537; 18536; 8625] 0%Z [(1%Z, 2577); (1%Z, 9068); (1%Z, 8626); ((-1)%Z, 9132); ((-2)%Z, 8625)] 35184372088832%Z 9671406556917033397649408%Z;
  Lin [2576; 9067; 8625] [18535; 9131; 18534; 18533; 18532; 8624] 0%Z [(1%Z, 2576); (1%Z, 9067); (1%Z, 8625); ((-1)%Z, 9131); ((-2)%Z, 8624)] 17592186044416%Z 19342813113834066795298816%Z;
  Lin [2575; 9066; 8624] [18531; 9130; 18530; 18529; 18528; 8623] 0%Z [(1%Z, 2575); (1%Z, 9066); (1%Z, 8624); ((-1)%Z, 9130); ((-2)%Z, 8623)] 8796093022208%Z 38685626227668133590597632%Z;
  Lin [2574; 9065; 8623] [18527; 9129; 18526; 18525; 18524; 8622] 0%Z [(1%Z, 2574); (1%Z, 9065); (1%Z, 8623); ((-1)%Z, 9129); ((-2)%Z, 8622)] 4398046511104%Z 77371252455336267181195264%Z;
  Lin [2573; 9064; 8622] [18523; 9128; 18522; 18521; 18520; 8621] 0%Z [(1%Z, 2573); (1%Z, 9064); (1%Z, 8622); ((-1)%Z, 9128); ((-2)%Z, 8621)] 2199023255552%Z 154742504910672534362390528%Z;
  Lin [2572; 9063; 8621] [18519; 9127; 18518; 18517; 18516; 8620] 0%Z [(1%Z, 2572); (1%Z, 9063); (1%Z, 8621); ((-1)%Z, 9127); ((-2)%Z, 8620)] 1099511627776%Z 309485009821345068724781056%Z;
  Lin [2571; 9062; 8620] [18515; 9126; 18514; 18513; 18512; 8619] 0%Z [(1%Z, 2571); (1%Z, 9062); (1%Z, 8620); ((-1)%Z, 9126); ((-2)%Z, 8619)] 549755813888%Z 618970019642690137449562112%Z;
  Lin [2570; 9061; 8619] [18511; 9125; 18510; 18509; 18508; 8618] 0%Z [(1%Z, 2570); (1%Z, 9061); (1%Z, 8619); ((-1)%Z, 9125); ((-2)%Z, 8618)] 274877906944%Z 1237940039285380274899124224%Z;
  Lin [2569; 9060; 8618] [18507; 9124; 18506; 18505; 18504; 8617] 0%Z [(1%Z, 2569); (1%Z, 9060); (1%Z, 8618); ((-1)%Z, 9124); ((-2)%Z, 8617)] 137438953472%Z 2475880078570760549798248448%Z;
  Lin [2651; 9141; 8700] [18327; 9205; 18326; 18325; 18324; 8699] 0%Z [(1%Z, 2651); (1%Z, 9141); (1%Z, 8700); ((-1)%Z, 9205); ((-2)%Z, 8699)] 18014398509481984%Z 18889465931478580854784%Z;
  Lin [2650; 9140; 8699] [18323; 9204; 18322; 18321; 18320; 8698] 0%Z [(1%Z, 2650); (1%Z, 9140); (1%Z, 8699); ((-1)%Z, 9204); ((-2)%Z, 8698)] 9007199254740992%Z 37778931862957161709568%Z;
  Lin [2649; 9139; 8698] [18319; 9203; 18318; 18317; 18316; 8697] 0%Z [(1%Z, 2649); (1%Z, 9139); (1%Z, 8698); ((-1)%Z, 9203); ((-2)%Z, 8697)] 4503599627370496%Z 75557863725914323419136%Z;
  Lin [2648; 9138; 8697] [18315; 9202; 18314; 18313; 18312; 8696] 0%Z [(1%Z, 2648); (1%Z, 9138); (1%Z, 8697); ((-1)%Z, 9202); ((-2)%Z, 8696)] 2251799813685248%Z 151115727451828646838272%Z;
  Lin [2647; 9137; 8696] [18311; 9201; 18310; 18309; 18308; 8695] 0%Z [(1%Z, 2647); (1%Z, 9137); (1%Z, 8696); ((-1)%Z, 9201); ((-2)%Z, 8695)] 1125899906842624%Z 302231454903657293676544%Z;
  Lin [2646; 9136; 8695] [18307; 9200; 18306; 18305; 18304; 8694] 0%Z [(1%Z, 2646); (1%Z, 9136); (1%Z, 8695); ((-1)%Z, 9200); ((-2)%Z, 8694)] 562949953421312%Z 604462909807314587353088%Z;
  Lin [2645; 9135; 8694] [18303; 9199; 18302; 18301; 18300; 8693] 0%Z [(1%Z, 2645); (1%Z, 9135); (1%Z, 8694); ((-1)%Z, 9199); ((-2)%Z, 8693)] 281474976710656%Z 1208925819614629174706176%Z;
  Lin [2644; 9134; 8693] [18299; 9198; 18298; 18297; 18296; 8692] 0%Z [(1%Z, 2644); (1%Z, 9134); (1%Z, 8693); ((-1)%Z, 9198); ((-2)%Z, 8692)] 140737488355328%Z 2417851639229258349412352%Z;
  Lin [2643; 9133; 8692] [18295; 9197; 18294; 18293; 18292; 8691] 0%Z [(1%Z, 2643); (1%Z, 9133); (1%Z, 8692); ((-1)%Z, 9197); ((-2)%Z, 8691)] 70368744177664%Z 4835703278458516698824704%Z;
  Lin [2642; 9132; 8691] [18291; 9196; 18290; 18289; 18288; 8690] 0%Z [(1%Z, 2642); (1%Z, 9132); (1%Z, 8691); ((-1)%Z, 9196); ((-2)%Z, 8690)] 35184372088832%Z 9671406556917033397649408%Z;
  Lin [2641; 9131; 8690] [18287; 9195; 18286; 18285; 18284; 8689] 0%Z [(1%Z, 2641); (1%Z, 9131); (1%Z, 8690); ((-1)%Z, 9195); ((-2)%Z, 8689)] 17592186044416%Z 19342813113834066795298816%Z;
  Lin [2640; 9130; 8689] [18283; 9194; 18282; 18281; 18280; 8688] 0%Z [(1%Z, 2640); (1%Z, 9130); (1%Z, 8689); ((-1)%Z, 9194); ((-2)%Z, 8688)] 8796093022208%Z 38685626227668133590597632%Z;
  Lin [2639; 9129; 8688] [18279; 9193; 18278; 18277; 18276; 8687] 0%Z [(1%Z, 2639); (1%Z, 9129); (1%Z, 8688); ((-1)%Z, 9193); ((-2)%Z, 8687)] 4398046511104%Z 77371252455336267181195264%Z;
  Lin [2638; 9128; 8687] [18275; 9192; 18274; 18273; 18272; 8686] 0%Z [(1%Z, 2638); (1%Z, 9128); (1%Z, 8687); ((-1)%Z, 9192); ((-2)%Z, 8686)] 2199023255552%Z 154742504910672534362390528%Z;
  Lin [2637; 9127; 8686] [18271; 9191; 18270; 18269; 18268; 8685] 0%Z [(1%Z, 2637); (1%Z, 9127); (1%Z, 8686); ((-1)%Z, 9191); ((-2)%Z, 8685)] 1099511627776%Z 309485009821345068724781056%Z;
  Lin [2636; 9126; 8685] [18267; 9190; 18266; 18265; 18264; 8684] 0%Z [(1%Z, 2636); (1%Z, 9126); (1%Z, 8685); ((-1)%Z, 9190); ((-2)%Z, 8684)] 549755813888%Z 618970019642690137449562112%Z;
  Lin [2635; 9125; 8684] [18263; 9189; 18262; 18261; 18260; 8683] 0%Z [(1%Z, 2635); (1%Z, 9125); (1%Z, 8684); ((-1)%Z, 9189); ((-2)%Z, 8683)] 274877906944%Z 1237940039285380274899124224%Z;
  Lin [2634; 9124; 8683] [18259; 9188; 18258; 18257; 18256; 8682] 0%Z [(1%Z, 2634); (1%Z, 9124); (1%Z, 8683); ((-1)%Z, 9188); ((-2)%Z, 8682)] 137438953472%Z 2475880078570760549798248448%Z;
  Lin [2568; 9059; 8617] [18503; 9123; 18502; 18501; 18500; 8616] 0%Z [(1%Z, 2568); (1%Z, 9059); (1%Z, 8617); ((-1)%Z, 9123); ((-2)%Z, 8616)] 68719476736%Z 4951760157141521099596496896%Z;
  Lin [2633; 9123; 8682] [18255; 9187; 18254; 18253; 18252; 8681] 0%Z [(1%Z, 2633); (1%Z, 9123); (1%Z, 8682); ((-1)%Z, 9187); ((-2)%Z, 8681)] 68719476736%Z 4951760157141521099596496896%Z;
  Lin [2567; 9058; 8616] [18499; 9122; 18498; 18497; 18496; 8615] 0%Z [(1%Z, 2567); (1%Z, 9058); (1%Z, 8616); ((-1)%Z, 9122); ((-2)%Z, 8615)] 34359738368%Z 9903520314283042199192993792%Z;
  Lin [2632; 9122; 8681] [18251; 9186; 18250; 18249; 18248; 8680] 0%Z [(1%Z, 2632); (1%Z, 9122); (1%Z, 8681); ((-1)%Z, 9186); ((-2)%Z, 8680)] 34359738368%Z 9903520314283042199192993792%Z;
  Lin [2566; 9057; 8615] [18495; 9121; 18494; 18493; 18492; 8614] 0%Z [(1%Z, 2566); (1%Z, 9057); (1%Z, 8615); ((-1)%Z, 9121); ((-2)%Z, 8614)] 17179869184%Z 19807040628566084398385987584%Z;
  Lin [2631; 9121; 8680] [18247; 9185; 18246; 18245; 18244; 8679] 0%Z [(1%Z, 2631); (1%Z, 9121); (1%Z, 8680); ((-1)%Z, 9185); ((-2)%Z, 8679)] 17179869184%Z 19807040628566084398385987584%Z;
  Lin [2565; 9056; 8614] [18491; 9120; 18490; 18489; 18488; 8613] 0%Z [(1%Z, 2565); (1%Z, 9056); (1%Z, 8614); ((-1)%Z, 9120); ((-2)%Z, 8613)] 8589934592%Z 39614081257132168796771975168%Z;
  Lin [2630; 9120; 8679] [18243; 9184; 18242; 18241; 18240; 8678] 0%Z [(1%Z, 2630); (1%Z, 9120); (1%Z, 8679); ((-1)%Z, 9184); ((-2)%Z, 8678)] 8589934592%Z 39614081257132168796771975168%Z;
  Lin [2564; 9055; 8613] [18487; 9119; 18486; 18485; 18484; 8612] 0%Z [(1%Z, 2564); (1%Z, 9055); (1%Z, 8613); ((-1)%Z, 9119); ((-2)%Z, 8612)] 4294967296%Z 79228162514264337593543950336%Z;
  Lin [2629; 9119; 8678] [18239; 9183; 18238; 18237; 18236; 8677] 0%Z [(1%Z, 2629); (1%Z, 9119); (1%Z, 8678); ((-1)%Z, 9183); ((-2)%Z, 8677)] 4294967296%Z 79228162514264337593543950336%Z;
  Lin [2563; 9054; 8612] [18483; 9118; 18482; 18481; 18480; 8611] 0%Z [(1%Z, 2563); (1%Z, 9054); (1%Z, 8612); ((-1)%Z, 9118); ((-2)%Z, 8611)] 2147483648%Z 158456325028528675187087900672%Z;
  Lin [2628; 9118; 8677] [18235; 9182; 18234; 18233; 18232; 8676] 0%Z [(1%Z, 2628); (1%Z, 9118); (1%Z, 8677); ((-1)%Z, 9182); ((-2)%Z, 8676)] 2147483648%Z 158456325028528675187087900672%Z;
  Lin [2562; 9053; 8611] [18479; 9117; 18478; 18477; 18476; 8610] 0%Z [(1%Z, 2562); (1%Z, 9053); (1%Z, 8611); ((-1)%Z, 9117); ((-2)%Z, 8610)] 1073741824%Z 316912650057057350374175801344%Z;
  Lin [2627; 9117; 8676] [18231; 9181; 18230; 18229; 18228; 8675] 0%Z [(1%Z, 2627); (1%Z, 9117); (1%Z, 8676); ((-1)%Z, 9181); ((-2)%Z, 8675)] 1073741824%Z 316912650057057350374175801344%Z;
  Lin [2561; 9052; 8610] [18475; 9116; 18474; 18473; 18472; 8609] 0%Z [(1%Z, 2561); (1%Z, 9052); (1%Z, 8610); ((-1)%Z, 9116); ((-2)%Z, 8609)] 536870912%Z 633825300114114700748351602688%Z;
  Lin [2560; 9051; 8609] [18471; 9115; 18470; 18469; 18468; 8608] 0%Z [(1%Z, 2560); (1%Z, 9051); (1%Z, 8609); ((-1)%Z, 9115); ((-2)%Z, 8608)] 268435456%Z 1267650600228229401496703205376%Z;
  Lin [2559; 8543; 8608] [18467; 9114; 18466; 18465; 18464; 8607] 0%Z [(1%Z, 2559); (1%Z, 8543); (1%Z, 8608); ((-1)%Z, 9114); ((-2)%Z, 8607)] 134217728%Z 2535301200456458802993406410752%Z;
  Lin [2626; 9116; 8675] [18227; 9180; 18226; 18225; 18224; 8674] 0%Z [(1%Z, 2626); (1%Z, 9116); (1%Z, 8675); ((-1)%Z, 9180); ((-2)%Z, 8674)] 536870912%Z 633825300114114700748351602688%Z;
  Lin [2625; 9115; 8674] [18223; 9179; 18222; 18221; 18220; 8673] 0%Z [(1%Z, 2625); (1%Z, 9115); (1%Z, 8674); ((-1)%Z, 9179); ((-2)%Z, 8673)] 268435456%Z 1267650600228229401496703205376%Z;
  Lin [2624; 9114; 8673] [18219; 9178; 18218; 18217; 18216; 8672] 0%Z [(1%Z, 2624); (1%Z, 9114); (1%Z, 8673); ((-1)%Z, 9178); ((-2)%Z, 8672)] 134217728%Z 2535301200456458802993406410752%Z;
  Lin [2623; 8607; 8672] [18215; 9177; 18214; 18213; 18212; 8671] 0%Z [(1%Z, 2623); (1%Z, 8607); (1%Z, 8672); ((-1)%Z, 9177); ((-2)%Z, 8671)] 67108864%Z 5070602400912917605986812821504%Z;
  Lin [2750; 9239] [28136; 8798] 0%Z [(1%Z, 2750); (1%Z, 9239); ((-1)%Z, 28136); ((-2)%Z, 8798)] 309485009821345068724781056%Z 1099511627776%Z;
  Lin [2749; 9238; 8798] [18211; 9302; 18210; 18209; 18208; 8797] 0%Z [(1%Z, 2749); (1%Z, 9238); (1%Z, 8798); ((-1)%Z, 9302); ((-2)%Z, 8797)] 154742504910672534362390528%Z 2199023255552%Z;
  Lin [2748; 9237; 8797] [18207; 9301; 18206; 18205; 18204; 8796] 0%Z [(1%Z, 2748); (1%Z, 9237); (1%Z, 8797); ((-1)%Z, 9301); ((-2)%Z, 8796)] 77371252455336267181195264%Z 4398046511104%Z;
  Lin [2747; 9236; 8796] [18203; 9300; 18202; 18201; 18200; 8795] 0%Z [(1%Z, 2747); (1%Z, 9236); (1%Z, 8796); ((-1)%Z, 9300); ((-2)%Z, 8795)] 38685626227668133590597632%Z 8796093022208%Z].
Definition mult2_64_facts_25 : list lin_fact := [
  Lin [2746; 9235; 8795] [18199; 9299; 18198; 18197; 18196; 8794] 0%Z [(1%Z, 2746); (1%Z, 9235); (1%Z, 8795); ((-1)%Z, 9299); ((-2)%Z, 8794)] 19342813113834066795298816%Z 17592186044416%Z;
  Lin [2745; 9234; 8794] [18195; 9298; 18194; 18193; 18192; 8793] 0%Z [(1%Z, 2745); (1%Z, 9234); (1%Z, 8794); ((-1)%Z, 9298); ((-2)%Z, 8793)] 9671406556917033397649408%Z 35184372088832%Z;
  Lin [2744; 9233; 8793] [18191; 9297; 18190; 18189; 18188; 8792] 0%Z [(1%Z, 2744); (1%Z, 9233); (1%Z, 8793); ((-1)%Z, 9297); ((-2)%Z, 8792)] 4835703278458516698824704%Z 70368744177664%Z;
  Lin [2743; 9232; 8792] [18187; 9296; 18186; 18185; 18184; 8791] 0%Z [(1%Z, 2743); (1%Z, 9232); (1%Z, 8792); ((-1)%Z, 9296); ((-2)%Z, 8791)] 2417851639229258349412352%Z 140737488355328%Z;
  Lin [2742; 9231; 8791] [18183; 9295; 18182; 18181; 18180; 8790] 0%Z [(1%Z, 2742); (1%Z, 9231); (1%Z, 8791); ((-1)%Z, 9295); ((-2)%Z, 8790)] 1208925819614629174706176%Z 281474976710656%Z;
  Lin [2741; 9230; 8790] [18179; 9294; 18178; 18177; 18176; 8789] 0%Z [(1%Z, 2741); (1%Z, 9230); (1%Z, 8790); ((-1)%Z, 9294); ((-2)%Z, 8789)] 604462909807314587353088%Z 562949953421312%Z;
  Lin [2740; 9229; 8789] [18175; 9293; 18174; 18173; 18172; 8788] 0%Z [(1%Z, 2740); (1%Z, 9229); (1%Z, 8789); ((-1)%Z, 9293); ((-2)%Z, 8788)] 302231454903657293676544%Z 1125899906842624%Z;
  Lin [2739; 9228; 8788] [18171; 9292; 18170; 18169; 18168; 8787] 0%Z [(1%Z, 2739); (1%Z, 9228); (1%Z, 8788); ((-1)%Z, 9292); ((-2)%Z, 8787)] 151115727451828646838272%Z 2251799813685248%Z;
  Lin [2738; 9227; 8787] [18167; 9291; 18166; 18165; 18164; 8786] 0%Z [(1%Z, 2738); (1%Z, 9227); (1%Z, 8787); ((-1)%Z, 9291); ((-2)%Z, 8786)] 75557863725914323419136%Z 4503599627370496%Z;
  Lin [2737; 9226; 8786] [18163; 9290; 18162; 18161; 18160; 8785] 0%Z [(1%Z, 2737); (1%Z, 9226); (1%Z, 8786); ((-1)%Z, 9290); ((-2)%Z, 8785)] 37778931862957161709568%Z 9007199254740992%Z;
  Lin [2736; 9225; 8785] [18159; 9289; 18158; 18157; 18156; 8784] 0%Z [(1%Z, 2736); (1%Z, 9225); (1%Z, 8785); ((-1)%Z, 9289); ((-2)%Z, 8784)] 18889465931478580854784%Z 18014398509481984%Z;
  Lin [2735; 9224; 8784] [18155; 9288; 18154; 18153; 18152; 8783] 0%Z [(1%Z, 2735); (1%Z, 9224); (1%Z, 8784); ((-1)%Z, 9288); ((-2)%Z, 8783)] 9444732965739290427392%Z 36028797018963968%Z;
  Lin [2734; 9223; 8783] [18151; 9287; 18150; 18149; 18148; 8782] 0%Z [(1%Z, 2734); (1%Z, 9223); (1%Z, 8783); ((-1)%Z, 9287); ((-2)%Z, 8782)] 4722366482869645213696%Z 72057594037927936%Z;
  Lin [2733; 9222; 8782] [18147; 9286; 18146; 18145; 18144; 8781] 0%Z [(1%Z, 2733); (1%Z, 9222); (1%Z, 8782); ((-1)%Z, 9286); ((-2)%Z, 8781)] 2361183241434822606848%Z 144115188075855872%Z;
  Lin [2732; 9221; 8781] [18143; 9285; 18142; 18141; 18140; 8780] 0%Z [(1%Z, 2732); (1%Z, 9221); (1%Z, 8781); ((-1)%Z, 9285); ((-2)%Z, 8780)] 1180591620717411303424%Z 288230376151711744%Z;
  Lin [2731; 9220; 8780] [18139; 9284; 18138; 18137; 18136; 8779] 0%Z [(1%Z, 2731); (1%Z, 9220); (1%Z, 8780); ((-1)%Z, 9284); ((-2)%Z, 8779)] 590295810358705651712%Z 576460752303423488%Z;
  Lin [2730; 9219; 8779] [18135; 9283; 18134; 18133; 18132; 8778] 0%Z [(1%Z, 2730); (1%Z, 9219); (1%Z, 8779); ((-1)%Z, 9283); ((-2)%Z, 8778)] 295147905179352825856%Z 1152921504606846976%Z;
  Lin [2729; 9218; 8778] [18131; 9282; 18130; 18129; 18128; 8777] 0%Z [(1%Z, 2729); (1%Z, 9218); (1%Z, 8778); ((-1)%Z, 9282); ((-2)%Z, 8777)] 147573952589676412928%Z 2305843009213693952%Z;
  Lin [2728; 9217; 8777] [18127; 9281; 18126; 18125; 18124; 8776] 0%Z [(1%Z, 2728); (1%Z, 9217); (1%Z, 8777); ((-1)%Z, 9281); ((-2)%Z, 8776)] 73786976294838206464%Z 4611686018427387904%Z;
  Lin [2727; 9216; 8776] [18123; 9280; 18122; 18121; 18120; 8775] 0%Z [(1%Z, 2727); (1%Z, 9216); (1%Z, 8776); ((-1)%Z, 9280); ((-2)%Z, 8775)] 36893488147419103232%Z 9223372036854775808%Z;
  Lin [2726; 9215; 8775] [18119; 9279; 18118; 18117; 18116; 8774] 0%Z [(1%Z, 2726); (1%Z, 9215); (1%Z, 8775); ((-1)%Z, 9279); ((-2)%Z, 8774)] 18446744073709551616%Z 18446744073709551616%Z;
  Lin [2725; 9214; 8774] [18115; 9278; 18114; 18113; 18112; 8773] 0%Z [(1%Z, 2725); (1%Z, 9214); (1%Z, 8774); ((-1)%Z, 9278); ((-2)%Z, 8773)] 9223372036854775808%Z 36893488147419103232%Z;
  Lin [2724; 9213; 8773] [18111; 9277; 18110; 18109; 18108; 8772] 0%Z [(1%Z, 2724); (1%Z, 9213); (1%Z, 8773); ((-1)%Z, 9277); ((-2)%Z, 8772)] 4611686018427387904%Z 73786976294838206464%Z;
  Lin [2723; 9212; 8772] [18107; 9276; 18106; 18105; 18104; 8771] 0%Z [(1%Z, 2723); (1%Z, 9212); (1%Z, 8772); ((-1)%Z, 9276); ((-2)%Z, 8771)] 2305843009213693952%Z 147573952589676412928%Z;
  Lin [2722; 9211; 8771] [18103; 9275; 18102; 18101; 18100; 8770] 0%Z [(1%Z, 2722); (1%Z, 9211); (1%Z, 8771); ((-1)%Z, 9275); ((-2)%Z, 8770)] 1152921504606846976%Z 295147905179352825856%Z;
  Lin [2721; 9210; 8770] [18099; 9274; 18098; 18097; 18096; 8769] 0%Z [(1%Z, 2721); (1%Z, 9210); (1%Z, 8770); ((-1)%Z, 9274); ((-2)%Z, 8769)] 576460752303423488%Z 590295810358705651712%Z;
  Lin [2720; 9209; 8769] [18095; 9273; 18094; 18093; 18092; 8768] 0%Z [(1%Z, 2720); (1%Z, 9209); (1%Z, 8769); ((-1)%Z, 9273); ((-2)%Z, 8768)] 288230376151711744%Z 1180591620717411303424%Z;
  Lin [2719; 9208; 8768] [18091; 9272; 18090; 18089; 18088; 8767] 0%Z [(1%Z, 2719); (1%Z, 9208); (1%Z, 8768); ((-1)%Z, 9272); ((-2)%Z, 8767)] 144115188075855872%Z 2361183241434822606848%Z;
  Lin [2718; 9207; 8767] [18087; 9271; 18086; 18085; 18084; 8766] 0%Z [(1%Z, 2718); (1%Z, 9207); (1%Z, 8767); ((-1)%Z, 9271); ((-2)%Z, 8766)] 72057594037927936%Z 4722366482869645213696%Z;
  Lin [2717; 9206; 8766] [18083; 9270; 18082; 18081; 18080; 8765] 0%Z [(1%Z, 2717); (1%Z, 9206); (1%Z, 8766); ((-1)%Z, 9270); ((-2)%Z, 8765)] 36028797018963968%Z 9444732965739290427392%Z;
  Lin [2716; 9205; 8765] [18079; 9269; 18078; 18077; 18076; 8764] 0%Z [(1%Z, 2716); (1%Z, 9205); (1%Z, 8765); ((-1)%Z, 9269); ((-2)%Z, 8764)] 18014398509481984%Z 18889465931478580854784%Z;
  Lin [2715; 9204; 8764] [18075; 9268; 18074; 18073; 18072; 8763] 0%Z [(1%Z, 2715); (1%Z, 9204); (1%Z, 8764); ((-1)%Z, 9268); ((-2)%Z, 8763)] 9007199254740992%Z 37778931862957161709568%Z;
  Lin [2714; 9203; 8763] [18071; 9267; 18070; 18069; 18068; 8762] 0%Z [(1%Z, 2714); (1%Z, 9203); (1%Z, 8763); ((-1)%Z, 9267); ((-2)%Z, 8762)] 4503599627370496%Z 75557863725914323419136%Z;
  Lin [2713; 9202; 8762] [18067; 9266; 18066; 18065; 18064; 8761] 0%Z [(1%Z, 2713); (1%Z, 9202); (1%Z, 8762); ((-1)%Z, 9266); ((-2)%Z, 8761)] 2251799813685248%Z 151115727451828646838272%Z;
  Lin [2712; 9201; 8761] [18063; 9265; 18062; 18061; 18060; 8760] 0%Z [(1%Z, 2712); (1%Z, 9201); (1%Z, 8761); ((-1)%Z, 9265); ((-2)%Z, 8760)] 1125899906842624%Z 302231454903657293676544%Z;
  Lin [2711; 9200; 8760] [18059; 9264; 18058; 18057; 18056; 8759] 0%Z [(1%Z, 2711); (1%Z, 9200); (1%Z, 8760); ((-1)%Z, 9264); ((-2)%Z, 8759)] 562949953421312%Z 604462909807314587353088%Z;
  Lin [2710; 9199; 8759] [18055; 9263; 18054; 18053; 18052; 8758] 0%Z [(1%Z, 2710); (1%Z, 9199); (1%Z, 8759); ((-1)%Z, 9263); ((-2)%Z, 8758)] 281474976710656%Z 1208925819614629174706176%Z;
  Lin [2709; 9198; 8758] [18051; 9262; 18050; 18049; 18048; 8757] 0%Z [(1%Z, 2709); (1%Z, 9198); (1%Z, 8758); ((-1)%Z, 9262); ((-2)%Z, 8757)] 140737488355328%Z 2417851639229258349412352%Z;
  Lin [2708; 9197; 8757] [18047; 9261; 18046; 18045; 18044; 8756] 0%Z [(1%Z, 2708); (1%Z, 9197); (1%Z, 8757); ((-1)%Z, 9261); ((-2)%Z, 8756)] 70368744177664%Z 4835703278458516698824704%Z;
  Lin [2707; 9196; 8756] [18043; 9260; 18042; 18041; 18040; 8755] 0%Z [(1%Z, 2707); (1%Z, 9196); (1%Z, 8756); ((-1)%Z, 9260); ((-2)%Z, 8755)] 35184372088832%Z 9671406556917033397649408%Z;
  Lin [2706; 9195; 8755] [18039; 9259; 18038; 18037; 18036; 8754] 0%Z [(1%Z, 2706); (1%Z, 9195); (1%Z, 8755); ((-1)%Z, 9259); ((-2)%Z, 8754)] 17592186044416%Z 19342813113834066795298816%Z;
  Lin [2705; 9194; 8754] [18035; 9258; 18034; 18033; 18032; 8753] 0%Z [(1%Z, 2705); (1%Z, 9194); (1%Z, 8754); ((-1)%Z, 9258); ((-2)%Z, 8753)] 8796093022208%Z 38685626227668133590597632%Z;
  Lin [2704; 9193; 8753] [18031; 9257; 18030; 18029; 18028; 8752] 0%Z [(1%Z, 2704); (1%Z, 9193); (1%Z, 8753); ((-1)%Z, 9257); ((-2)%Z, 8752)] 4398046511104%Z 77371252455336267181195264%Z;
  Lin [2703; 9192; 8752] [18027; 9256; 18026; 18025; 18024; 8751] 0%Z [(1%Z, 2703); (1%Z, 9192); (1%Z, 8752); ((-1)%Z, 9256); ((-2)%Z, 8751)] 2199023255552%Z 154742504910672534362390528%Z;
  Lin [2702; 9191; 8751] [18023; 9255; 18022; 18021; 18020; 8750] 0%Z [(1%Z, 2702); (1%Z, 9191); (1%Z, 8751); ((-1)%Z, 9255); ((-2)%Z, 8750)] 1099511627776%Z 309485009821345068724781056%Z;
  Lin [2701; 9190; 8750] [18019; 9254; 18018; 18017; 18016; 8749] 0%Z [(1%Z, 2701); (1%Z, 9190); (1%Z, 8750); ((-1)%Z, 9254); ((-2)%Z, 8749)] 549755813888%Z 618970019642690137449562112%Z;
  Lin [2700; 9189; 8749] [18015; 9253; 18014; 18013; 18012; 8748] 0%Z [(1%Z, 2700); (1%Z, 9189); (1%Z, 8749); ((-1)%Z, 9253); ((-2)%Z, 8748)] 274877906944%Z 1237940039285380274899124224%Z;
  Lin [2699; 9188; 8748] [18011; 9252; 18010; 18009; 18008; 8747] 0%Z [(1%Z, 2699); (1%Z, 9188); (1%Z, 8748); ((-1)%Z, 9252); ((-2)%Z, 8747)] 137438953472%Z 2475880078570760549798248448%Z;
  Lin [2698; 9187; 8747] [18007; 9251; 18006; 18005; 18004; 8746] 0%Z [(1%Z, 2698); (1%Z, 9187); (1%Z, 8747); ((-1)%Z, 9251); ((-2)%Z, 8746)] 68719476736%Z 4951760157141521099596496896%Z;
  Lin [2697; 9186; 8746] [18003; 9250; 18002; 18001; 18000; 8745] 0%Z [(1%Z, 2697); (1%Z, 9186); (1%Z, 8746); ((-1)%Z, 9250); ((-2)%Z, 8745)] 34359738368%Z 9903520314283042199192993792%Z;
  Lin [2696; 9185; 8745] [17999; 9249; 17998; 17997; 17996; 8744] 0%Z [(1%Z, 2696); (1%Z, 9185); (1%Z, 8745); ((-1)%Z, 9249); ((-2)%Z, 8744)] 17179869184%Z 19807040628566084398385987584%Z;
  Lin [2695; 9184; 8744] [17995; 9248; 17994; 17993; 17992; 8743] 0%Z [(1%Z, 2695); (1%Z, 9184); (1%Z, 8744); ((-1)%Z, 9248); ((-2)%Z, 8743)] 8589934592%Z 39614081257132168796771975168%Z;
  Lin [2694; 9183; 8743] [17991; 9247; 17990; 17989; 17988; 8742] 0%Z [(1%Z, 2694); (1%Z, 9183); (1%Z, 8743); ((-1)%Z, 9247); ((-2)%Z, 8742)] 4294967296%Z 79228162514264337593543950336%Z;
  Lin [2693; 9182; 8742] [17987; 9246; 17986; 17985; 17984; 8741] 0%Z [(1%Z, 2693); (1%Z, 9182); (1%Z, 8742); ((-1)%Z, 9246); ((-2)%Z, 8741)] 2147483648%Z 158456325028528675187087900672%Z;
  Lin [2692; 9181; 8741] [17983; 9245; 17982; 17981; 17980; 8740] 0%Z [(1%Z, 2692); (1%Z, 9181); (1%Z, 8741); ((-1)%Z, 9245); ((-2)%Z, 8740)] 1073741824%Z 316912650057057350374175801344%Z;
  Lin [2691; 9180; 8740] [17979; 9244; 17978; 17977; 17976; 8739] 0%Z [(1%Z, 2691); (1%Z, 9180); (1%Z, 8740); ((-1)%Z, 9244); ((-2)%Z, 8739)] 536870912%Z 633825300114114700748351602688%Z;
  Lin [2690; 9179; 8739] [17975; 9243; 17974; 17973; 17972; 8738] 0%Z [(1%Z, 2690); (1%Z, 9179); (1%Z, 8739); ((-1)%Z, 9243); ((-2)%Z, 8738)] 268435456%Z 1267650600228229401496703205376%Z;
  Lin [2689; 9178; 8738] [17971; 9242; 17970; 17969; 17968; 8737] 0%Z [(1%Z, 2689); (1%Z, 9178); (1%Z, 8738); ((-1)%Z, 9242); ((-2)%Z, 8737)] 134217728%Z 2535301200456458802993406410752%Z;
  Lin [2688; 9177; 8737] [17967; 9241; 17966; 17965; 17964; 8736] 0%Z [(1%Z, 2688); (1%Z, 9177); (1%Z, 8737); ((-1)%Z, 9241); ((-2)%Z, 8736)] 67108864%Z 5070602400912917605986812821504%Z;
  Lin [2687; 8671; 8736] [17963; 9240; 17962; 17961; 17960; 8735] 0%Z [(1%Z, 2687); (1%Z, 8671); (1%Z, 8736); ((-1)%Z, 9240); ((-2)%Z, 8735)] 33554432%Z 10141204801825835211973625643008%Z;
  Lin [2814; 9302] [28137; 9366] 0%Z [(1%Z, 2814); (1%Z, 9302); ((-1)%Z, 28137); ((-2)%Z, 9366)] 154742504910672534362390528%Z 2199023255552%Z;
  Lin [2813; 9301; 9366] [17959; 9877; 17958; 17957; 17956; 9365] 0%Z [(1%Z, 2813); (1%Z, 9301); (1%Z, 9366); ((-1)%Z, 9877); ((-2)%Z, 9365)] 77371252455336267181195264%Z 4398046511104%Z;
  Lin [2812; 9300; 9365] [17955; 9876; 17954; 17953; 17952; 9364] 0%Z [(1%Z, 2812); (1%Z, 9300); (1%Z, 9365); ((-1)%Z, 9876); ((-2)%Z, 9364)] 38685626227668133590597632%Z 8796093022208%Z;
  Lin [2811; 9299; 9364] [17951; 9875; 17950; 17949; 17948; 9363] 0%Z [(1%Z, 2811); (1%Z, 9299); (1%Z, 9364); ((-1)%Z, 9875); ((-2)%Z, 9363)] 19342813113834066795298816%Z 17592186044416%Z;
  Lin [2810; 9298; 9363] [17947; 9874; 17946; 17945; 17944; 9362] 0%Z [(1%Z, 2810); (1%Z, 9298); (1%Z, 9363); ((-1)%Z, 9874); ((-2)%Z, 9362)] 9671406556917033397649408%Z 35184372088832%Z;
  Lin [2809; 9297; 9362] [17943; 9873; 17942; 17941; 17940; 9361] 0%Z [(1%Z, 2809); (1%Z, 9297); (1%Z, 9362); ((-1)%Z, 9873); ((-2)%Z, 9361)] 4835703278458516698824704%Z 70368744177664%Z;
  Lin [2808; 9296; 9361] [17939; 9872; 17938; 17937; 17936; 9360] 0%Z [(1%Z, 2808); (1%Z, 9296); (1%Z, 9361); ((-1)%Z, 9872); ((-2)%Z, 9360)] 2417851639229258349412352%Z 140737488355328%Z;
  Lin [2807; 9295; 9360] [17935; 9871; 17934; 17933; 17932; 9359] 0%Z [(1%Z, 2807); (1%Z, 9295); (1%Z, 9360); ((-1)%Z, 9871); ((-2)%Z, 9359)] 1208925819614629174706176%Z 281474976710656%Z;
  Lin [2806; 9294; 9359] [17931; 9870; 17930; 17929; 17928; 9358] 0%Z [(1%Z, 2806); (1%Z, 9294); (1%Z, 9359); ((-1)%Z, 9870); ((-2)%Z, 9358)] 604462909807314587353088%Z 562949953421312%Z;
  Lin [2805; 9293; 9358] [17927; 9869; 17926; 17925; 17924; 9357] 0%Z [(1%Z, 2805); (1%Z, 9293); (1%Z, 9358); ((-1)%Z, 9869); ((-2)%Z, 9357)] 302231454903657293676544%Z 1125899906842624%Z;
  Lin [2804; 9292; 9357] [17923; 9868; 17922; 17921; 17920; 9356] 0%Z [(1%Z, 2804); (1%Z, 9292); (1%Z, 9357); ((-1)%Z, 9868); ((-2)%Z, 9356)] 151115727451828646838272%Z 2251799813685248%Z;
  Lin [2803; 9291; 9356] [17919; 9867; 17918; 17917; 17916; 9355] 0%Z [(1%Z, 2803); (1%Z, 9291); (1%Z, 9356); ((-1)%Z, 9867); ((-2)%Z, 9355)] 75557863725914323419136%Z 4503599627370496%Z;
  Lin [2802; 9290; 9355] [17915; 9866; 17914; 17913; 17912; 9354] 0%Z [(1%Z, 2802); (1%Z, 9290); (1%Z, 9355); ((-1)%Z, 9866); ((-2)%Z, 9354)] 37778931862957161709568%Z 9007199254740992%Z;
  Lin [2801; 9289; 9354] [17911; 9865; 17910; 17909; 17908; 9353] 0%Z [(1%Z, 2801); (1%Z, 9289); (1%Z, 9354); ((-1)%Z, 9865); ((-2)%Z, 9353)] 18889465931478580854784%Z 18014398509481984%Z;
  Lin [2800; 9288; 9353] [17907; 9864; 17906; 17905; 17904; 9352] 0%Z [(1%Z, 2800); (1%Z, 9288); (1%Z, 9353); ((-1)%Z, 9864); ((-2)%Z, 9352)] 9444732965739290427392%Z 36028797018963968%Z;
  Lin [2799; 9287; 9352] [17903; 9863; 17902; 17901; 17900; 9351] 0%Z [(1%Z, 2799); (1%Z, 9287); (1%Z, 9352); ((-1)%Z, 9863); ((-2)%Z, 9351)] 4722366482869645213696%Z 72057594037927936%Z;
  Lin [2798; 9286; 9351] [17899; 9862; 17898; 17897; 17896; 9350] 0%Z [(1%Z, 2798); (1%Z, 9286); (1%Z, 9351); ((-1)%Z, 9862); ((-2)%Z, 9350)] 2361183241434822606848%Z 144115188075855872%Z;
  Lin [2797; 9285; 9350] [17895; 9861; 17894; 17893; 17892; 9349] 0%Z [(1%Z, 2797); (1%Z, 9285); (1%Z, 9350); ((-1)%Z, 9861); ((-2)%Z, 9349)] 1180591620717411303424%Z 288230376151711744%Z;
  Lin [2796; 9284; 9349] [17891; 9860; 17890; 17889; 17888; 9348] 0%Z [(1%Z, 2796); (1%Z, 9284); (1%Z, 9349); ((-1)%Z, 9860); ((-2)%Z, 9348)] 590295810358705651712%Z 576460752303423488%Z;
  Lin [2795; 9283; 9348] [17887; 9859; 17886; 17885; 17884; 9347] 0%Z [(1%Z, 2795); (1%Z, 9283); (1%Z, 9348); ((-1)%Z, 9859); ((-2)%Z, 9347)] 295147905179352825856%Z 1152921504606846976%Z;
  Lin [2794; 9282; 9347] [17883; 9858; 17882; 17881; 17880; 9346] 0%Z [(1%Z, 2794); (1%Z, 9282); (1%Z, 9347); ((-1)%Z, 9858); ((-2)%Z, 9346)] 147573952589676412928%Z 2305843009213693952%Z;
  Lin [2793; 9281; 9346] [17879; 9857; 17878; 17877; 17876; 9345] 0%Z [(1%Z, 2793); (1%Z, 9281); (1%Z, 9346); ((-1)%Z, 9857); ((-2)%Z, 9345)] 73786976294838206464%Z 4611686018427387904%Z;
  Lin [2792; 9280; 9345] [17875; 9856; 17874; 17873; 17872; 9344] 0%Z [(1%Z, 2792); (1%Z, 9280); (1%Z, 9345); ((-1)%Z, 9856); ((-2)%Z, 9344)] 36893488147419103232%Z 9223372036854775808%Z;
  Lin [2791; 9279; 9344] [17871; 9855; 17870; 17869; 17868; 9343] 0%Z [(1%Z, 2791); (1%Z, 9279); (1%Z, 9344); ((-1)%Z, 9855); ((-2)%Z, 9343)] 18446744073709551616%Z 18446744073709551616%Z;
  Lin [2790; 9278; 9343] [17867; 9854; 17866; 17865; 17864; 9342] 0%Z [(1%Z, 2790); (1%Z, 9278); (1%Z, 9343); ((-1)%Z, 9854); ((-2)%Z, 9342)] 9223372036854775808%Z 36893488147419103232%Z;
  Lin [2789; 9277; 9342] [17863; 9853; 17862; 17861; 17860; 9341] 0%Z [(1%Z, 2789); (1%Z, 9277); (1%Z, 9342); ((-1)%Z, 9853); ((-2)%Z, 9341)] 4611686018427387904%Z 73786976294838206464%Z;
  Lin [2788; 9276; 9341] [17859; 9852; 17858; 17857; 17856; 9340] 0%Z [(1%Z, 2788); (1%Z, 9276); (1%Z, 9341); ((-1)%Z, 9852); ((-2)%Z, 9340)] 2305843009213693952%Z 147573952589676412928%Z;
  Lin [2787; 9275; 9340] [17855; 9851; 17854; 17853; 17852; 9339] 0%Z [(1%Z, 2787); (1%Z, 9275); (1%Z, 9340); ((-1)%Z, 9851); ((-2)%Z, 9339)] 1152921504606846976%Z 295147905179352825856%Z;
  Lin [2786; 9274; 9339] [17851; 9850; 17850; 17849; 17848; 9338] 0%Z [(1%Z, 2786); (1%Z, 9274); (1%Z, 9339); ((-1)%Z, 9850); ((-2)%Z, 9338)] 576460752303423488%Z 590295810358705651712%Z;
  Lin [2785; 9273; 9338] [17847; 9849; 17846; 17845; 17844; 9337] 0%Z [(1%Z, 2785); (1%Z, 9273); (1%Z, 9338); ((-1)%Z, 9849); ((-2)%Z, 9337)] 288230376151711744%Z 1180591620717411303424%Z;
  Lin [2784; 9272; 9337] [17843; 9848; 17842; 17841; 17840; 9336] 0%Z [(1%Z, 2784); (1%Z, 9272); (1%Z, 9337); ((-1)%Z, 9848); ((-2)%Z, 9336)] 144115188075855872%Z 2361183241434822606848%Z;
  Lin [2783; 9271; 9336] [17839; 9847; 17838; 17837; 17836; 9335] 0%Z [(1%Z, 2783); (1%Z, 9271); (1%Z, 9336); ((-1)%Z, 9847); ((-2)%Z, 9335)] 72057594037927936%Z 4722366482869645213696%Z;
  Lin [2782; 9270; 9335] [17835; 9846; 17834; 17833; 17832; 9334] 0%Z [(1%Z, 2782); (1%Z, 9270); (1%Z, 9335); ((-1)%Z, 9846); ((-2)%Z, 9334)] 36028797018963968%Z 9444732965739290427392%Z;
  Lin [2781; 9269; 9334] [17831; 9845; 17830; 17829; 17828; 9333] 0%Z [(1%Z, 2781); (1%Z, 9269); (1%Z, 9334); ((-1)%Z, 9845); ((-2)%Z, 9333)] 18014398509481984%Z 18889465931478580854784%Z;
  Lin [2780; 9268; 9333] [17827; 9844; 17826; 17825; 17824; 9332] 0%Z [(1%Z, 2780); (1%Z, 9268); (1%Z, 9333); ((-1)%Z, 9844); ((-2)%Z, 9332)] 9007199254740992%Z 37778931862957161709568%Z;
  Lin [2779; 9267; 9332] [17823; 9843; 17822; 17821; 17820; 9331] 0%Z [(1%Z, 2779); (1%Z, 9267); (1%Z, 9332); ((-1)%Z, 9843); ((-2)%Z, 9331)] 4503599627370496%Z 75557863725914323419136%Z;
  Lin [2778; 9266; 9331] [17819; 9842; 17818; 17817; 17816; 9330] 0%Z [(1%Z, 2778); (1%Z, 9266); (1%Z, 9331); ((-1)%Z, 9842); ((-2)%Z, 9330)] 2251799813685248%Z 151115727451828646838272%Z;
  Lin [2777; 9265; 9330] [17815; 9841; 17814; 17813; 17812; 9329] 0%Z [(1%Z, 2777); (1%Z, 9265); (1%Z, 9330); ((-1)%Z, 9841); ((-2)%Z, 9329)] 1125899906842624%Z 302231454903657293676544%Z;
  Lin [2776; 9264; 9329] [17811; 9840; 17810; 17809; 17808; 9328] 0%Z [(1%Z, 2776); (1%Z, 9264); (1%Z, 9329); ((-1)%Z, 9840); ((-2)%Z, 9328)] 562949953421312%Z 604462909807314587353088%Z;
  Lin [2775; 9263; 9328] [17807; 9839; 17806; 17805; 17804; 9327] 0%Z [(1%Z, 2775); (1%Z, 9263); (1%Z, 9328); ((-1)%Z, 9839); ((-2)%Z, 9327)] 281474976710656%Z 1208925819614629174706176%Z].
Definition mult2_64_facts_26 : list lin_fact := [
  Lin [2774; 9262; 9327] [17803; 9838; 17802; 17801; 17800; 9326] 0%Z [(1%Z, 2774); (1%Z, 9262); (1%Z, 9327); ((-1)%Z, 9838); ((-2)%Z, 9326)] 140737488355328%Z 2417851639229258349412352%Z;
  Lin [2773; 9261; 9326] [17799; 9837; 17798; 17797; 17796; 9325] 0%Z [(1%Z, 2773); (1%Z, 9261); (1%Z, 9326); ((-1)%Z, 9837); ((-2)%Z, 9325)] 70368744177664%Z 4835703278458516698824704%Z;
  Lin [2772; 9260; 9325] [17795; 9836; 17794; 17793; 17792; 9324] 0%Z [(1%Z, 2772); (1%Z, 9260); (1%Z, 9325); ((-1)%Z, 9836); ((-2)%Z, 9324)] 35184372088832%Z 9671406556917033397649408%Z;
  Lin [2771; 9259; 9324] [17791; 9835; 17790; 17789; 17788; 9323] 0%Z [(1%Z, 2771); (1%Z, 9259); (1%Z, 9324); ((-1)%Z, 9835); ((-2)%Z, 9323)] 17592186044416%Z 19342813113834066795298816%Z;
  Lin [2770; 9258; 9323] [17787; 9834; 17786; 17785; 17784; 9322] 0%Z [(1%Z, 2770); (1%Z, 9258); (1%Z, 9323); ((-1)%Z, 9834); ((-2)%Z, 9322)] 8796093022208%Z 38685626227668133590597632%Z;
  Lin [2769; 9257; 9322] [17783; 9833; 17782; 17781; 17780; 9321] 0%Z [(1%Z, 2769); (1%Z, 9257); (1%Z, 9322); ((-1)%Z, 9833); ((-2)%Z, 9321)] 4398046511104%Z 77371252455336267181195264%Z;
  Lin [2768; 9256; 9321] [17779; 9832; 17778; 17777; 17776; 9320] 0%Z [(1%Z, 2768); (1%Z, 9256); (1%Z, 9321); ((-1)%Z, 9832); ((-2)%Z, 9320)] 2199023255552%Z 154742504910672534362390528%Z;
  Lin [2767; 9255; 9320] [17775; 9831; 17774; 17773; 17772; 9319] 0%Z [(1%Z, 2767); (1%Z, 9255); (1%Z, 9320); ((-1)%Z, 9831); ((-2)%Z, 9319)] 1099511627776%Z 309485009821345068724781056%Z;
  Lin [2766; 9254; 9319] [17771; 9830; 17770; 17769; 17768; 9318] 0%Z [(1%Z, 2766); (1%Z, 9254); (1%Z, 9319); ((-1)%Z, 9830); ((-2)%Z, 9318)] 549755813888%Z 618970019642690137449562112%Z;
  Lin [2765; 9253; 9318] [17767; 9829; 17766; 17765; 17764; 9317] 0%Z [(1%Z, 2765); (1%Z, 9253); (1%Z, 9318); ((-1)%Z, 9829); ((-2)%Z, 9317)] 274877906944%Z 1237940039285380274899124224%Z;
  Lin [2764; 9252; 9317] [17763; 9828; 17762; 17761; 17760; 9316] 0%Z [(1%Z, 2764); (1%Z, 9252); (1%Z, 9317); ((-1)%Z, 9828); ((-2)%Z, 9316)] 137438953472%Z 2475880078570760549798248448%Z;
  Lin [2763; 9251; 9316] [17759; 9827; 17758; 17757; 17756; 9315] 0%Z [(1%Z, 2763); (1%Z, 9251); (1%Z, 9316); ((-1)%Z, 9827); ((-2)%Z, 9315)] 68719476736%Z 4951760157141521099596496896%Z;
  Lin [2762; 9250; 9315] [17755; 9826; 17754; 17753; 17752; 9314] 0%Z [(1%Z, 2762); (1%Z, 9250); (1%Z, 9315); ((-1)%Z, 9826); ((-2)%Z, 9314)] 34359738368%Z 9903520314283042199192993792%Z;
  Lin [2761; 9249; 9314] [17751; 9825; 17750; 17749; 17748; 9313] 0%Z [(1%Z, 2761); (1%Z, 9249); (1%Z, 9314); ((-1)%Z, 9825); ((-2)%Z, 9313)] 17179869184%Z 19807040628566084398385987584%Z;
  Lin [2760; 9248; 9313] [17747; 9824; 17746; 17745; 17744; 9312] 0%Z [(1%Z, 2760); (1%Z, 9248); (1%Z, 9313); ((-1)%Z, 9824); ((-2)%Z, 9312)] 8589934592%Z 39614081257132168796771975168%Z;
  Lin [2759; 9247; 9312] [17743; 9823; 17742; 17741; 17740; 9311] 0%Z [(1%Z, 2759); (1%Z, 9247); (1%Z, 9312); ((-1)%Z, 9823); ((-2)%Z, 9311)] 4294967296%Z 79228162514264337593543950336%Z;
  Lin [2758; 9246; 9311] [17739; 9822; 17738; 17737; 17736; 9310] 0%Z [(1%Z, 2758); (1%Z, 9246); (1%Z, 9311); ((-1)%Z, 9822); ((-2)%Z, 9310)] 2147483648%Z 158456325028528675187087900672%Z;
  Lin [2757; 9245; 9310] [17735; 9821; 17734; 17733; 17732; 9309] 0%Z [(1%Z, 2757); (1%Z, 9245); (1%Z, 9310); ((-1)%Z, 9821); ((-2)%Z, 9309)] 1073741824%Z 316912650057057350374175801344%Z;
  Lin [2756; 9244; 9309] [17731; 9820; 17730; 17729; 17728; 9308] 0%Z [(1%Z, 2756); (1%Z, 9244); (1%Z, 9309); ((-1)%Z, 9820); ((-2)%Z, 9308)] 536870912%Z 633825300114114700748351602688%Z;
  Lin [2755; 9243; 9308] [17727; 9819; 17726; 17725; 17724; 9307] 0%Z [(1%Z, 2755); (1%Z, 9243); (1%Z, 9308); ((-1)%Z, 9819); ((-2)%Z, 9307)] 268435456%Z 1267650600228229401496703205376%Z;
  Lin [2754; 9242; 9307] [17723; 9818; 17722; 17721; 17720; 9306] 0%Z [(1%Z, 2754); (1%Z, 9242); (1%Z, 9307); ((-1)%Z, 9818); ((-2)%Z, 9306)] 134217728%Z 2535301200456458802993406410752%Z;
  Lin [2753; 9241; 9306] [17719; 9817; 17718; 17717; 17716; 9305] 0%Z [(1%Z, 2753); (1%Z, 9241); (1%Z, 9306); ((-1)%Z, 9817); ((-2)%Z, 9305)] 67108864%Z 5070602400912917605986812821504%Z;
  Lin [2752; 9240; 9305] [17715; 9816; 17714; 17713; 17712; 9304] 0%Z [(1%Z, 2752); (1%Z, 9240); (1%Z, 9305); ((-1)%Z, 9816); ((-2)%Z, 9304)] 33554432%Z 10141204801825835211973625643008%Z;
  Lin [2751; 8735; 9304] [17711; 9815; 17710; 17709; 17708; 9303] 0%Z [(1%Z, 2751); (1%Z, 8735); (1%Z, 9304); ((-1)%Z, 9815); ((-2)%Z, 9303)] 16777216%Z 20282409603651670423947251286016%Z;
  Lin [2878; 9877] [28138; 9430] 0%Z [(1%Z, 2878); (1%Z, 9877); ((-1)%Z, 28138); ((-2)%Z, 9430)] 77371252455336267181195264%Z 4398046511104%Z;
  Lin [2877; 9876; 9430] [17707; 9940; 17706; 17705; 17704; 9429] 0%Z [(1%Z, 2877); (1%Z, 9876); (1%Z, 9430); ((-1)%Z, 9940); ((-2)%Z, 9429)] 38685626227668133590597632%Z 8796093022208%Z;
  Lin [2876; 9875; 9429] [17703; 9939; 17702; 17701; 17700; 9428] 0%Z [(1%Z, 2876); (1%Z, 9875); (1%Z, 9429); ((-1)%Z, 9939); ((-2)%Z, 9428)] 19342813113834066795298816%Z 17592186044416%Z;
  Lin [2875; 9874; 9428] [17699; 9938; 17698; 17697; 17696; 9427] 0%Z [(1%Z, 2875); (1%Z, 9874); (1%Z, 9428); ((-1)%Z, 9938); ((-2)%Z, 9427)] 9671406556917033397649408%Z 35184372088832%Z;
  Lin [2874; 9873; 9427] [17695; 9937; 17694; 17693; 17692; 9426] 0%Z [(1%Z, 2874); (1%Z, 9873); (1%Z, 9427); ((-1)%Z, 9937); ((-2)%Z, 9426)] 4835703278458516698824704%Z 70368744177664%Z;
  Lin [2873; 9872; 9426] [17691; 9936; 17690; 17689; 17688; 9425] 0%Z [(1%Z, 2873); (1%Z, 9872); (1%Z, 9426); ((-1)%Z, 9936); ((-2)%Z, 9425)] 2417851639229258349412352%Z 140737488355328%Z;
  Lin [2872; 9871; 9425] [17687; 9935; 17686; 17685; 17684; 9424] 0%Z [(1%Z, 2872); (1%Z, 9871); (1%Z, 9425); ((-1)%Z, 9935); ((-2)%Z, 9424)] 1208925819614629174706176%Z 281474976710656%Z;
  Lin [2871; 9870; 9424] [17683; 9934; 17682; 17681; 17680; 9423] 0%Z [(1%Z, 2871); (1%Z, 9870); (1%Z, 9424); ((-1)%Z, 9934); ((-2)%Z, 9423)] 604462909807314587353088%Z 562949953421312%Z;
  Lin [2870; 9869; 9423] [17679; 9933; 17678; 17677; 17676; 9422] 0%Z [(1%Z, 2870); (1%Z, 9869); (1%Z, 9423); ((-1)%Z, 9933); ((-2)%Z, 9422)] 302231454903657293676544%Z 1125899906842624%Z;
  Lin [2869; 9868; 9422] [17675; 9932; 17674; 17673; 17672; 9421] 0%Z [(1%Z, 2869); (1%Z, 9868); (1%Z, 9422); ((-1)%Z, 9932); ((-2)%Z, 9421)] 151115727451828646838272%Z 2251799813685248%Z;
  Lin [2868; 9867; 9421] [17671; 9931; 17670; 17669; 17668; 9420] 0%Z [(1%Z, 2868); (1%Z, 9867); (1%Z, 9421); ((-1)%Z, 9931); ((-2)%Z, 9420)] 75557863725914323419136%Z 4503599627370496%Z;
  Lin [2867; 9866; 9420] [17667; 9930; 17666; 17665; 17664; 9419] 0%Z [(1%Z, 2867); (1%Z, 9866); (1%Z, 9420); ((-1)%Z, 9930); ((-2)%Z, 9419)] 37778931862957161709568%Z 9007199254740992%Z;
  Lin [2866; 9865; 9419] [17663; 9929; 17662; 17661; 17660; 9418] 0%Z [(1%Z, 2866); (1%Z, 9865); (1%Z, 9419); ((-1)%Z, 9929); ((-2)%Z, 9418)] 18889465931478580854784%Z 18014398509481984%Z;
  Lin [2865; 9864; 9418] [17659; 9928; 17658; 17657; 17656; 9417] 0%Z [(1%Z, 2865); (1%Z, 9864); (1%Z, 9418); ((-1)%Z, 9928); ((-2)%Z, 9417)] 9444732965739290427392%Z 36028797018963968%Z;
  Lin [2864; 9863; 9417] [17655; 9927; 17654; 17653; 17652; 9416] 0%Z [(1%Z, 2864); (1%Z, 9863); (1%Z, 9417); ((-1)%Z, 9927); ((-2)%Z, 9416)] 4722366482869645213696%Z 72057594037927936%Z;
  Lin [2863; 9862; 9416] [17651; 9926; 17650; 17649; 17648; 9415] 0%Z [(1%Z, 2863); (1%Z, 9862); (1%Z, 9416); ((-1)%Z, 9926); ((-2)%Z, 9415)] 2361183241434822606848%Z 144115188075855872%Z;
  Lin [2862; 9861; 9415] [17647; 9925; 17646; 17645; 17644; 9414] 0%Z [(1%Z, 2862); (1%Z, 9861); (1%Z, 9415); ((-1)%Z, 9925); ((-2)%Z, 9414)] 1180591620717411303424%Z 288230376151711744%Z;
  Lin [2861; 9860; 9414] [17643; 9924; 17642; 17641; 17640; 9413] 0%Z [(1%Z, 2861); (1%Z, 9860); (1%Z, 9414); ((-1)%Z, 9924); ((-2)%Z, 9413)] 590295810358705651712%Z 576460752303423488%Z;
  Lin [2860; 9859; 9413] [17639; 9923; 17638; 17637; 17636; 9412] 0%Z [(1%Z, 2860); (1%Z, 9859); (1%Z, 9413); ((-1)%Z, 9923); ((-2)%Z, 9412)] 295147905179352825856%Z 1152921504606846976%Z;
  Lin [2859; 9858; 9412] [17635; 9922; 17634; 17633; 17632; 9411] 0%Z [(1%Z, 2859); (1%Z, 9858); (1%Z, 9412); ((-1)%Z, 9922); ((-2)%Z, 9411)] 147573952589676412928%Z 2305843009213693952%Z;
  Lin [2858; 9857; 9411] [17631; 9921; 17630; 17629; 17628; 9410] 0%Z [(1%Z, 2858); (1%Z, 9857); (1%Z, 9411); ((-1)%Z, 9921); ((-2)%Z, 9410)] 73786976294838206464%Z 4611686018427387904%Z;
  Lin [2857; 9856; 9410] [17627; 9920; 17626; 17625; 17624; 9409] 0%Z [(1%Z, 2857); (1%Z, 9856); (1%Z, 9410); ((-1)%Z, 9920); ((-2)%Z, 9409)] 36893488147419103232%Z 9223372036854775808%Z;
  Lin [2856; 9855; 9409] [17623; 9919; 17622; 17621; 17620; 9408] 0%Z [(1%Z, 2856); (1%Z, 9855); (1%Z, 9409); ((-1)%Z, 9919); ((-2)%Z, 9408)] 18446744073709551616%Z 18446744073709551616%Z;
  Lin [2855; 9854; 9408] [17619; 9918; 17618; 17617; 17616; 9407] 0%Z [(1%Z, 2855); (1%Z, 9854); (1%Z, 9408); ((-1)%Z, 9918); ((-2)%Z, 9407)] 9223372036854775808%Z 36893488147419103232%Z;
  Lin [2854; 9853; 9407] [17615; 9917; 17614; 17613; 17612; 9406] 0%Z [(1%Z, 2854); (1%Z, 9853); (1%Z, 9407); ((-1)%Z, 9917); ((-2)%Z, 9406)] 4611686018427387904%Z 73786976294838206464%Z;
  Lin [2853; 9852; 9406] [17611; 9916; 17610; 17609; 17608; 9405] 0%Z [(1%Z, 2853); (1%Z, 9852); (1%Z, 9406); ((-1)%Z, 9916); ((-2)%Z, 9405)] 2305843009213693952%Z 147573952589676412928%Z;
  Lin [2852; 9851; 9405] [17607; 9915; 17606; 17605; 17604; 9404] 0%Z [(1%Z, 2852); (1%Z, 9851); (1%Z, 9405); ((-1)%Z, 9915); ((-2)%Z, 9404)] 1152921504606846976%Z 295147905179352825856%Z;
  Lin [2851; 9850; 9404] [17603; 9914; 17602; 17601; 17600; 9403] 0%Z [(1%Z, 2851); (1%Z, 9850); (1%Z, 9404); ((-1)%Z, 9914); ((-2)%Z, 9403)] 576460752303423488%Z 590295810358705651712%Z;
  Lin [2850; 9849; 9403] [17599; 9913; 17598; 17597; 17596; 9402] 0%Z [(1%Z, 2850); (1%Z, 9849); (1%Z, 9403); ((-1)%Z, 9913); ((-2)%Z, 9402)] 288230376151711744%Z 1180591620717411303424%Z;
  Lin [2849; 9848; 9402] [17595; 9912; 17594; 17593; 17592; 9401] 0%Z [(1%Z, 2849); (1%Z, 9848); (1%Z, 9402); ((-1)%Z, 9912); ((-2)%Z, 9401)] 144115188075855872%Z 2361183241434822606848%Z;
  Lin [2848; 9847; 9401] [17591; 9911; 17590; 17589; 17588; 9400] 0%Z [(1%Z, 2848); (1%Z, 9847); (1%Z, 9401); ((-1)%Z, 9911); ((-2)%Z, 9400)] 72057594037927936%Z 4722366482869645213696%Z;
  Lin [2847; 9846; 9400] [17587; 9910; 17586; 17585; 17584; 9399] 0%Z [(1%Z, 2847); (1%Z, 9846); (1%Z, 9400); ((-1)%Z, 9910); ((-2)%Z, 9399)] 36028797018963968%Z 9444732965739290427392%Z;
  Lin [2846; 9845; 9399] [17583; 9909; 17582; 17581; 17580; 9398] 0%Z [(1%Z, 2846); (1%Z, 9845); (1%Z, 9399); ((-1)%Z, 9909); ((-2)%Z, 9398)] 18014398509481984%Z 18889465931478580854784%Z;
  Lin [2845; 9844; 9398] [17579; 9908; 17578; 17577; 17576; 9397] 0%Z [(1%Z, 2845); (1%Z, 9844); (1%Z, 9398); ((-1)%Z, 9908); ((-2)%Z, 9397)] 9007199254740992%Z 37778931862957161709568%Z;
  Lin [2844; 9843; 9397] [17575; 9907; 17574; 17573; 17572; 9396] 0%Z [(1%Z, 2844); (1%Z, 9843); (1%Z, 9397); ((-1)%Z, 9907); ((-2)%Z, 9396)] 4503599627370496%Z 75557863725914323419136%Z;
  Lin [2843; 9842; 9396] [17571; 9906; 17570; 17569; 17568; 9395] 0%Z [(1%Z, 2843); (1%Z, 9842); (1%Z, 9396); ((-1)%Z, 9906); ((-2)%Z, 9395)] 2251799813685248%Z 151115727451828646838272%Z;
  Lin [2842; 9841; 9395] [17567; 9905; 17566; 17565; 17564; 9394] 0%Z [(1%Z, 2842); (1%Z, 9841); (1%Z, 9395); ((-1)%Z, 9905); ((-2)%Z, 9394)] 1125899906842624%Z 302231454903657293676544%Z;
  Lin [2841; 9840; 9394] [17563; 9904; 17562; 17561; 17560; 9393] 0%Z [(1%Z, 2841); (1%Z, 9840); (1%Z, 9394); ((-1)%Z, 9904); ((-2)%Z, 9393)] 562949953421312%Z 604462909807314587353088%Z;
  Lin [2840; 9839; 9393] [17559; 9903; 17558; 17557; 17556; 9392] 0%Z [(1%Z, 2840); (1%Z, 9839); (1%Z, 9393); ((-1)%Z, 9903); ((-2)%Z, 9392)] 281474976710656%Z 1208925819614629174706176%Z;
  Lin [2839; 9838; 9392] [17555; 9902; 17554; 17553; 17552; 9391] 0%Z [(1%Z, 2839); (1%Z, 9838); (1%Z, 9392); ((-1)%Z, 9902); ((-2)%Z, 9391)] 140737488355328%Z 2417851639229258349412352%Z;
  Lin [2838; 9837; 9391] [17551; 9901; 17550; 17549; 17548; 9390] 0%Z [(1%Z, 2838); (1%Z, 9837); (1%Z, 9391); ((-1)%Z, 9901); ((-2)%Z, 9390)] 70368744177664%Z 4835703278458516698824704%Z;
  Lin [2837; 9836; 9390] [17547; 9900; 17546; 17545; 17544; 9389] 0%Z [(1%Z, 2837); (1%Z, 9836); (1%Z, 9390); ((-1)%Z, 9900); ((-2)%Z, 9389)] 35184372088832%Z 9671406556917033397649408%Z;
  Lin [2836; 9835; 9389] [17543; 9899; 17542; 17541; 17540; 9388] 0%Z [(1%Z, 2836); (1%Z, 9835); (1%Z, 9389); ((-1)%Z, 9899); ((-2)%Z, 9388)] 17592186044416%Z 19342813113834066795298816%Z;
  Lin [2835; 9834; 9388] [17539; 9898; 17538; 17537; 17536; 9387] 0%Z [(1%Z, 2835); (1%Z, 9834); (1%Z, 9388); ((-1)%Z, 9898); ((-2)%Z, 9387)] 8796093022208%Z 38685626227668133590597632%Z;
  Lin [2834; 9833; 9387] [17535; 9897; 17534; 17533; 17532; 9386] 0%Z [(1%Z, 2834); (1%Z, 9833); (1%Z, 9387); ((-1)%Z, 9897); ((-2)%Z, 9386)] 4398046511104%Z 77371252455336267181195264%Z;
  Lin [2833; 9832; 9386] [17531; 9896; 17530; 17529; 17528; 9385] 0%Z [(1%Z, 2833); (1%Z, 9832); (1%Z, 9386); ((-1)%Z, 9896); ((-2)%Z, 9385)] 2199023255552%Z 154742504910672534362390528%Z;
  Lin [2832; 9831; 9385] [17527; 9895; 17526; 17525; 17524; 9384] 0%Z [(1%Z, 2832); (1%Z, 9831); (1%Z, 9385); ((-1)%Z, 9895); ((-2)%Z, 9384)] 1099511627776%Z 309485009821345068724781056%Z;
  Lin [2831; 9830; 9384] [17523; 9894; 17522; 17521; 17520; 9383] 0%Z [(1%Z, 2831); (1%Z, 9830); (1%Z, 9384); ((-1)%Z, 9894); ((-2)%Z, 9383)] 549755813888%Z 618970019642690137449562112%Z;
  Lin [2830; 9829; 9383] [17519; 9893; 17518; 17517; 17516; 9382] 0%Z [(1%Z, 2830); (1%Z, 9829); (1%Z, 9383); ((-1)%Z, 9893); ((-2)%Z, 9382)] 274877906944%Z 1237940039285380274899124224%Z;
  Lin [2829; 9828; 9382] [17515; 9892; 17514; 17513; 17512; 9381] 0%Z [(1%Z, 2829); (1%Z, 9828); (1%Z, 9382); ((-1)%Z, 9892); ((-2)%Z, 9381)] 137438953472%Z 2475880078570760549798248448%Z;
  Lin [2828; 9827; 9381] [17511; 9891; 17510; 17509; 17508; 9380] 0%Z [(1%Z, 2828); (1%Z, 9827); (1%Z, 9381); ((-1)%Z, 9891); ((-2)%Z, 9380)] 68719476736%Z 4951760157141521099596496896%Z;
  Lin [2827; 9826; 9380] [17507; 9890; 17506; 17505; 17504; 9379] 0%Z [(1%Z, 2827); (1%Z, 9826); (1%Z, 9380); ((-1)%Z, 9890); ((-2)%Z, 9379)] 34359738368%Z 9903520314283042199192993792%Z;
  Lin [2826; 9825; 9379] [17503; 9889; 17502; 17501; 17500; 9378] 0%Z [(1%Z, 2826); (1%Z, 9825); (1%Z, 9379); ((-1)%Z, 9889); ((-2)%Z, 9378)] 17179869184%Z 19807040628566084398385987584%Z;
  Lin [2825; 9824; 9378] [17499; 9888; 17498; 17497; 17496; 9377] 0%Z [(1%Z, 2825); (1%Z, 9824); (1%Z, 9378); ((-1)%Z, 9888); ((-2)%Z, 9377)] 8589934592%Z 39614081257132168796771975168%Z;
  Lin [2824; 9823; 9377] [17495; 9887; 17494; 17493; 17492; 9376] 0%Z [(1%Z, 2824); (1%Z, 9823); (1%Z, 9377); ((-1)%Z, 9887); ((-2)%Z, 9376)] 4294967296%Z 79228162514264337593543950336%Z;
  Lin [2823; 9822; 9376] [17491; 9886; 17490; 17489; 17488; 9375] 0%Z [(1%Z, 2823); (1%Z, 9822); (1%Z, 9376); ((-1)%Z, 9886); ((-2)%Z, 9375)] 2147483648%Z 158456325028528675187087900672%Z;
  Lin [2822; 9821; 9375] [17487; 9885; 17486; 17485; 17484; 9374] 0%Z [(1%Z, 2822); (1%Z, 9821); (1%Z, 9375); ((-1)%Z, 9885); ((-2)%Z, 9374)] 1073741824%Z 316912650057057350374175801344%Z;
  Lin [2821; 9820; 9374] [17483; 9884; 17482; 17481; 17480; 9373] 0%Z [(1%Z, 2821); (1%Z, 9820); (1%Z, 9374); ((-1)%Z, 9884); ((-2)%Z, 9373)] 536870912%Z 633825300114114700748351602688%Z;
  Lin [2820; 9819; 9373] [17479; 9883; 17478; 17477; 17476; 9372] 0%Z [(1%Z, 2820); (1%Z, 9819); (1%Z, 9373); ((-1)%Z, 9883); ((-2)%Z, 9372)] 268435456%Z 1267650600228229401496703205376%Z;
  Lin [2819; 9818; 9372] [17475; 9882; 17474; 17473; 17472; 9371] 0%Z [(1%Z, 2819); (1%Z, 9818); (1%Z, 9372); ((-1)%Z, 9882); ((-2)%Z, 9371)] 134217728%Z 2535301200456458802993406410752%Z;
  Lin [2818; 9817; 9371] [17471; 9881; 17470; 17469; 17468; 9370] 0%Z [(1%Z, 2818); (1%Z, 9817); (1%Z, 9371); ((-1)%Z, 9881); ((-2)%Z, 9370)] 67108864%Z 5070602400912917605986812821504%Z;
  Lin [2817; 9816; 9370] [17467; 9880; 17466; 17465; 17464; 9369] 0%Z [(1%Z, 2817); (1%Z, 9816); (1%Z, 9370); ((-1)%Z, 9880); ((-2)%Z, 9369)] 33554432%Z 10141204801825835211973625643008%Z;
  Lin [2816; 9815; 9369] [17463; 9879; 17462; 17461; 17460; 9368] 0%Z [(1%Z, 2816); (1%Z, 9815); (1%Z, 9369); ((-1)%Z, 9879); ((-2)%Z, 9368)] 16777216%Z 20282409603651670423947251286016%Z;
  Lin [2815; 9303; 9368] [17459; 9878; 17458; 17457; 17456; 9367] 0%Z [(1%Z, 2815); (1%Z, 9303); (1%Z, 9368); ((-1)%Z, 9878); ((-2)%Z, 9367)] 8388608%Z 40564819207303340847894502572032%Z;
  Lin [2942; 9940] [28139; 9494] 0%Z [(1%Z, 2942); (1%Z, 9940); ((-1)%Z, 28139); ((-2)%Z, 9494)] 38685626227668133590597632%Z 8796093022208%Z;
  Lin [2941; 9939; 9494] [17455; 10003; 17454; 17453; 17452; 9493] 0%Z [(1%Z, 2941); (1%Z, 9939); (1%Z, 9494); ((-1)%Z, 10003); ((-2)%Z, 9493)] 19342813113834066795298816%Z 17592186044416%Z;
  Lin [2940; 9938; 9493] [17451; 10002; 17450; 17449; 17448; 9492] 0%Z [(1%Z, 2940); (1%Z, 9938); (1%Z, 9493); ((-1)%Z, 10002); ((-2)%Z, 9492)] 9671406556917033397649408%Z 35184372088832%Z;
  Lin [2939; 9937; 9492] [17447; 10001; 17446; 17445; 17444; 9491] 0%Z [(1%Z, 2939); (1%Z, 9937); (1%Z, 9492); ((-1)%Z, 10001); ((-2)%Z, 9491)] 4835703278458516698824704%Z 70368744177664%Z;
  Lin [2938; 9936; 9491] [17443; 10000; 17442; 17441; 17440; 9490] 0%Z [(1%Z, 2938); (1%Z, 9936); (1%Z, 9491); ((-1)%Z, 10000); ((-2)%Z, 9490)] 2417851639229258349412352%Z 140737488355328%Z;
  Lin [2937; 9935; 9490] [17439; 9999; 17438; 17437; 17436; 9489] 0%Z [(1%Z, 2937); (1%Z, 9935); (1%Z, 9490); ((-1)%Z, 9999); ((-2)%Z, 9489)] 1208925819614629174706176%Z 281474976710656%Z;
  Lin [2936; 9934; 9489] [17435; 9998; 17434; 17433; 17432; 9488] 0%Z [(1%Z, 2936); (1%Z, 9934); (1%Z, 9489); ((-1)%Z, 9998); ((-2)%Z, 9488)] 604462909807314587353088%Z 562949953421312%Z;
  Lin [2935; 9933; 9488] [17431; 9997; 17430; 17429; 17428; 9487] 0%Z [(1%Z, 2935); (1%Z, 9933); (1%Z, 9488); ((-1)%Z, 9997); ((-2)%Z, 9487)] 302231454903657293676544%Z 1125899906842624%Z;
  Lin [2934; 9932; 9487] [17427; 9996; 17426; 17425; 17424; 9486] 0%Z [(1%Z, 2934); (1%Z, 9932); (1%Z, 9487); ((-1)%Z, 9996); ((-2)%Z, 9486)] 151115727451828646838272%Z 2251799813685248%Z;
  Lin [2933; 9931; 9486] [17423; 9995; 17422; 17421; 17420; 9485] 0%Z [(1%Z, 2933); (1%Z, 9931); (1%Z, 9486); ((-1)%Z, 9995); ((-2)%Z, 9485)] 75557863725914323419136%Z 4503599627370496%Z;
  Lin [2932; 9930; 9485] [17419; 9994; 17418; 17417; 17416; 9484] 0%Z [(1%Z, 2932); (1%Z, 9930); (1%Z, 9485); ((-1)%Z, 9994); ((-2)%Z, 9484)] 37778931862957161709568%Z 9007199254740992%Z;
  Lin [2931; 9929; 9484] [17415; 9993; 17414; 17413; 17412; 9483] 0%Z [(1%Z, 2931); (1%Z, 9929); (1%Z, 9484); ((-1)%Z, 9993); ((-2)%Z, 9483)] 18889465931478580854784%Z 18014398509481984%Z].
Definition mult2_64_facts_27 : list lin_fact := [
  Lin [2930; 9928; 9483] [17411; 9992; 17410; 17409; 17408; 9482] 0%Z [(1%Z, 2930); (1%Z, 9928); (1%Z, 9483); ((-1)%Z, 9992); ((-2)%Z, 9482)] 9444732965739290427392%Z 36028797018963968%Z;
  Lin [2929; 9927; 9482] [17407; 9991; 17406; 17405; 17404; 9481] 0%Z [(1%Z, 2929); (1%Z, 9927); (1%Z, 9482); ((-1)%Z, 9991); ((-2)%Z, 9481)] 4722366482869645213696%Z 72057594037927936%Z;
  Lin [2928; 9926; 9481] [17403; 9990; 17402; 17401; 17400; 9480] 0%Z [(1%Z, 2928); (1%Z, 9926); (1%Z, 9481); ((-1)%Z, 9990); ((-2)%Z, 9480)] 2361183241434822606848%Z 144115188075855872%Z;
  Lin [2927; 9925; 9480] [17399; 9989; 17398; 17397; 17396; 9479] 0%Z [(1%Z, 2927); (1%Z, 9925); (1%Z, 9480); ((-1)%Z, 9989); ((-2)%Z, 9479)] 1180591620717411303424%Z 288230376151711744%Z;
  Lin [2926; 9924; 9479] [17395; 9988; 17394; 17393; 17392; 9478] 0%Z [(1%Z, 2926); (1%Z, 9924); (1%Z, 9479); ((-1)%Z, 9988); ((-2)%Z, 9478)] 590295810358705651712%Z 576460752303423488%Z;
  Lin [2925; 9923; 9478] [17391; 9987; 17390; 17389; 17388; 9477] 0%Z [(1%Z, 2925); (1%Z, 9923); (1%Z, 9478); ((-1)%Z, 9987); ((-2)%Z, 9477)] 295147905179352825856%Z 1152921504606846976%Z;
  Lin [2924; 9922; 9477] [17387; 9986; 17386; 17385; 17384; 9476] 0%Z [(1%Z, 2924); (1%Z, 9922); (1%Z, 9477); ((-1)%Z, 9986); ((-2)%Z, 9476)] 147573952589676412928%Z 2305843009213693952%Z;
  Lin [2923; 9921; 9476] [17383; 9985; 17382; 17381; 17380; 9475] 0%Z [(1%Z, 2923); (1%Z, 9921); (1%Z, 9476); ((-1)%Z, 9985); ((-2)%Z, 9475)] 73786976294838206464%Z 4611686018427387904%Z;
  Lin [2922; 9920; 9475] [17379; 9984; 17378; 17377; 17376; 9474] 0%Z [(1%Z, 2922); (1%Z, 9920); (1%Z, 9475); ((-1)%Z, 9984); ((-2)%Z, 9474)] 36893488147419103232%Z 9223372036854775808%Z;
  Lin [2921; 9919; 9474] [17375; 9983; 17374; 17373; 17372; 9473] 0%Z [(1%Z, 2921); (1%Z, 9919); (1%Z, 9474); ((-1)%Z, 9983); ((-2)%Z, 9473)] 18446744073709551616%Z 18446744073709551616%Z;
  Lin [2920; 9918; 9473] [17371; 9982; 17370; 17369; 17368; 9472] 0%Z [(1%Z, 2920); (1%Z, 9918); (1%Z, 9473); ((-1)%Z, 9982); ((-2)%Z, 9472)] 9223372036854775808%Z 36893488147419103232%Z;
  Lin [2919; 9917; 9472] [17367; 9981; 17366; 17365; 17364; 9471] 0%Z [(1%Z, 2919); (1%Z, 9917); (1%Z, 9472); ((-1)%Z, 9981); ((-2)%Z, 9471)] 4611686018427387904%Z 73786976294838206464%Z;
  Lin [2918; 9916; 9471] [17363; 9980; 17362; 17361; 17360; 9470] 0%Z [(1%Z, 2918); (1%Z, 9916); (1%Z, 9471); ((-1)%Z, 9980); ((-2)%Z, 9470)] 2305843009213693952%Z 147573952589676412928%Z;
  Lin [2917; 9915; 9470] [17359; 9979; 17358; 17357; 17356; 9469] 0%Z [(1%Z, 2917); (1%Z, 9915); (1%Z, 9470); ((-1)%Z, 9979); ((-2)%Z, 9469)] 1152921504606846976%Z 295147905179352825856%Z;
  Lin [2916; 9914; 9469] [17355; 9978; 17354; 17353; 17352; 9468] 0%Z [(1%Z, 2916); (1%Z, 9914); (1%Z, 9469); ((-1)%Z, 9978); ((-2)%Z, 9468)] 576460752303423488%Z 590295810358705651712%Z;
  Lin [2915; 9913; 9468] [17351; 9977; 17350; 17349; 17348; 9467] 0%Z [(1%Z, 2915); (1%Z, 9913); (1%Z, 9468); ((-1)%Z, 9977); ((-2)%Z, 9467)] 288230376151711744%Z 1180591620717411303424%Z;
  Lin [2914; 9912; 9467] [17347; 9976; 17346; 17345; 17344; 9466] 0%Z [(1%Z, 2914); (1%Z, 9912); (1%Z, 9467); ((-1)%Z, 9976); ((-2)%Z, 9466)] 144115188075855872%Z 2361183241434822606848%Z;
  Lin [2913; 9911; 9466] [17343; 9975; 17342; 17341; 17340; 9465] 0%Z [(1%Z, 2913); (1%Z, 9911); (1%Z, 9466); ((-1)%Z, 9975); ((-2)%Z, 9465)] 72057594037927936%Z 4722366482869645213696%Z;
  Lin [2912; 9910; 9465] [17339; 9974; 17338; 17337; 17336; 9464] 0%Z [(1%Z, 2912); (1%Z, 9910); (1%Z, 9465); ((-1)%Z, 9974); ((-2)%Z, 9464)] 36028797018963968%Z 9444732965739290427392%Z;
  Lin [2911; 9909; 9464] [17335; 9973; 17334; 17333; 17332; 9463] 0%Z [(1%Z, 2911); (1%Z, 9909); (1%Z, 9464); ((-1)%Z, 9973); ((-2)%Z, 9463)] 18014398509481984%Z 18889465931478580854784%Z;
  Lin [2910; 9908; 9463] [17331; 9972; 17330; 17329; 17328; 9462] 0%Z [(1%Z, 2910); (1%Z, 9908); (1%Z, 9463); ((-1)%Z, 9972); ((-2)%Z, 9462)] 9007199254740992%Z 37778931862957161709568%Z;
  Lin [2909; 9907; 9462] [17327; 9971; 17326; 17325; 17324; 9461] 0%Z [(1%Z, 2909); (1%Z, 9907); (1%Z, 9462); ((-1)%Z, 9971); ((-2)%Z, 9461)] 4503599627370496%Z 75557863725914323419136%Z;
  Lin [2908; 9906; 9461] [17323; 9970; 17322; 17321; 17320; 9460] 0%Z [(1%Z, 2908); (1%Z, 9906); (1%Z, 9461); ((-1)%Z, 9970); ((-2)%Z, 9460)] 2251799813685248%Z 151115727451828646838272%Z;
  Lin [2907; 9905; 9460] [17319; 9969; 17318; 17317; 17316; 9459] 0%Z [(1%Z, 2907); (1%Z, 9905); (1%Z, 9460); ((-1)%Z, 9969); ((-2)%Z, 9459)] 1125899906842624%Z 302231454903657293676544%Z;
  Lin [2906; 9904; 9459] [17315; 9968; 17314; 17313; 17312; 9458] 0%Z [(1%Z, 2906); (1%Z, 9904); (1%Z, 9459); ((-1)%Z, 9968); ((-2)%Z, 9458)] 562949953421312%Z 604462909807314587353088%Z;
  Lin [2905; 9903; 9458] [17311; 9967; 17310; 17309; 17308; 9457] 0%Z [(1%Z, 2905); (1%Z, 9903); (1%Z, 9458); ((-1)%Z, 9967); ((-2)%Z, 9457)] 281474976710656%Z 1208925819614629174706176%Z;
  Lin [2904; 9902; 9457] [17307; 9966; 17306; 17305; 17304; 9456] 0%Z [(1%Z, 2904); (1%Z, 9902); (1%Z, 9457); ((-1)%Z, 9966); ((-2)%Z, 9456)] 140737488355328%Z 2417851639229258349412352%Z;
  Lin [2903; 9901; 9456] [17303; 9965; 17302; 17301; 17300; 9455] 0%Z [(1%Z, 2903); (1%Z, 9901); (1%Z, 9456); ((-1)%Z, 9965); ((-2)%Z, 9455)] 70368744177664%Z 4835703278458516698824704%Z;
  Lin [2902; 9900; 9455] [17299; 9964; 17298; 17297; 17296; 9454] 0%Z [(1%Z, 2902); (1%Z, 9900); (1%Z, 9455); ((-1)%Z, 9964); ((-2)%Z, 9454)] 35184372088832%Z 9671406556917033397649408%Z;
  Lin [2901; 9899; 9454] [17295; 9963; 17294; 17293; 17292; 9453] 0%Z [(1%Z, 2901); (1%Z, 9899); (1%Z, 9454); ((-1)%Z, 9963); ((-2)%Z, 9453)] 17592186044416%Z 19342813113834066795298816%Z;
  Lin [2900; 9898; 9453] [17291; 9962; 17290; 17289; 17288; 9452] 0%Z [(1%Z, 2900); (1%Z, 9898); (1%Z, 9453); ((-1)%Z, 9962); ((-2)%Z, 9452)] 8796093022208%Z 38685626227668133590597632%Z;
  Lin [2899; 9897; 9452] [17287; 9961; 17286; 17285; 17284; 9451] 0%Z [(1%Z, 2899); (1%Z, 9897); (1%Z, 9452); ((-1)%Z, 9961); ((-2)%Z, 9451)] 4398046511104%Z 77371252455336267181195264%Z;
  Lin [2898; 9896; 9451] [17283; 9960; 17282; 17281; 17280; 9450] 0%Z [(1%Z, 2898); (1%Z, 9896); (1%Z, 9451); ((-1)%Z, 9960); ((-2)%Z, 9450)] 2199023255552%Z 154742504910672534362390528%Z;
  Lin [2897; 9895; 9450] [17279; 9959; 17278; 17277; 17276; 9449] 0%Z [(1%Z, 2897); (1%Z, 9895); (1%Z, 9450); ((-1)%Z, 9959); ((-2)%Z, 9449)] 1099511627776%Z 309485009821345068724781056%Z;
  Lin [2896; 9894; 9449] [17275; 9958; 17274; 17273; 17272; 9448] 0%Z [(1%Z, 2896); (1%Z, 9894); (1%Z, 9449); ((-1)%Z, 9958); ((-2)%Z, 9448)] 549755813888%Z 618970019642690137449562112%Z;
  Lin [2895; 9893; 9448] [17271; 9957; 17270; 17269; 17268; 9447] 0%Z [(1%Z, 2895); (1%Z, 9893); (1%Z, 9448); ((-1)%Z, 9957); ((-2)%Z, 9447)] 274877906944%Z 1237940039285380274899124224%Z;
  Lin [2894; 9892; 9447] [17267; 9956; 17266; 17265; 17264; 9446] 0%Z [(1%Z, 2894); (1%Z, 9892); (1%Z, 9447); ((-1)%Z, 9956); ((-2)%Z, 9446)] 137438953472%Z 2475880078570760549798248448%Z;
  Lin [2893; 9891; 9446] [17263; 9955; 17262; 17261; 17260; 9445] 0%Z [(1%Z, 2893); (1%Z, 9891); (1%Z, 9446); ((-1)%Z, 9955); ((-2)%Z, 9445)] 68719476736%Z 4951760157141521099596496896%Z;
  Lin [2892; 9890; 9445] [17259; 9954; 17258; 17257; 17256; 9444] 0%Z [(1%Z, 2892); (1%Z, 9890); (1%Z, 9445); ((-1)%Z, 9954); ((-2)%Z, 9444)] 34359738368%Z 9903520314283042199192993792%Z;
  Lin [2891; 9889; 9444] [17255; 9953; 17254; 17253; 17252; 9443] 0%Z [(1%Z, 2891); (1%Z, 9889); (1%Z, 9444); ((-1)%Z, 9953); ((-2)%Z, 9443)] 17179869184%Z 19807040628566084398385987584%Z;
  Lin [2890; 9888; 9443] [17251; 9952; 17250; 17249; 17248; 9442] 0%Z [(1%Z, 2890); (1%Z, 9888); (1%Z, 9443); ((-1)%Z, 9952); ((-2)%Z, 9442)] 8589934592%Z 39614081257132168796771975168%Z;
  Lin [2889; 9887; 9442] [17247; 9951; 17246; 17245; 17244; 9441] 0%Z [(1%Z, 2889); (1%Z, 9887); (1%Z, 9442); ((-1)%Z, 9951); ((-2)%Z, 9441)] 4294967296%Z 79228162514264337593543950336%Z;
  Lin [2888; 9886; 9441] [17243; 9950; 17242; 17241; 17240; 9440] 0%Z [(1%Z, 2888); (1%Z, 9886); (1%Z, 9441); ((-1)%Z, 9950); ((-2)%Z, 9440)] 2147483648%Z 158456325028528675187087900672%Z;
  Lin [2887; 9885; 9440] [17239; 9949; 17238; 17237; 17236; 9439] 0%Z [(1%Z, 2887); (1%Z, 9885); (1%Z, 9440); ((-1)%Z, 9949); ((-2)%Z, 9439)] 1073741824%Z 316912650057057350374175801344%Z;
  Lin [2886; 9884; 9439] [17235; 9948; 17234; 17233; 17232; 9438] 0%Z [(1%Z, 2886); (1%Z, 9884); (1%Z, 9439); ((-1)%Z, 9948); ((-2)%Z, 9438)] 536870912%Z 633825300114114700748351602688%Z;
  Lin [2885; 9883; 9438] [17231; 9947; 17230; 17229; 17228; 9437] 0%Z [(1%Z, 2885); (1%Z, 9883); (1%Z, 9438); ((-1)%Z, 9947); ((-2)%Z, 9437)] 268435456%Z 1267650600228229401496703205376%Z;
  Lin [2884; 9882; 9437] [17227; 9946; 17226; 17225; 17224; 9436] 0%Z [(1%Z, 2884); (1%Z, 9882); (1%Z, 9437); ((-1)%Z, 9946); ((-2)%Z, 9436)] 134217728%Z 2535301200456458802993406410752%Z;
  Lin [2883; 9881; 9436] [17223; 9945; 17222; 17221; 17220; 9435] 0%Z [(1%Z, 2883); (1%Z, 9881); (1%Z, 9436); ((-1)%Z, 9945); ((-2)%Z, 9435)] 67108864%Z 5070602400912917605986812821504%Z;
  Lin [2882; 9880; 9435] [17219; 9944; 17218; 17217; 17216; 9434] 0%Z [(1%Z, 2882); (1%Z, 9880); (1%Z, 9435); ((-1)%Z, 9944); ((-2)%Z, 9434)] 33554432%Z 10141204801825835211973625643008%Z;
  Lin [2881; 9879; 9434] [17215; 9943; 17214; 17213; 17212; 9433] 0%Z [(1%Z, 2881); (1%Z, 9879); (1%Z, 9434); ((-1)%Z, 9943); ((-2)%Z, 9433)] 16777216%Z 20282409603651670423947251286016%Z;
  Lin [2880; 9878; 9433] [17211; 9942; 17210; 17209; 17208; 9432] 0%Z [(1%Z, 2880); (1%Z, 9878); (1%Z, 9433); ((-1)%Z, 9942); ((-2)%Z, 9432)] 8388608%Z 40564819207303340847894502572032%Z;
  Lin [2879; 9367; 9432] [17207; 9941; 17206; 17205; 17204; 9431] 0%Z [(1%Z, 2879); (1%Z, 9367); (1%Z, 9432); ((-1)%Z, 9941); ((-2)%Z, 9431)] 4194304%Z 81129638414606681695789005144064%Z;
  Lin [3006; 10003] [28140; 9558] 0%Z [(1%Z, 3006); (1%Z, 10003); ((-1)%Z, 28140); ((-2)%Z, 9558)] 19342813113834066795298816%Z 17592186044416%Z;
  Lin [3005; 10002; 9558] [17203; 10066; 17202; 17201; 17200; 9557] 0%Z [(1%Z, 3005); (1%Z, 10002); (1%Z, 9558); ((-1)%Z, 10066); ((-2)%Z, 9557)] 9671406556917033397649408%Z 35184372088832%Z;
  Lin [3004; 10001; 9557] [17199; 10065; 17198; 17197; 17196; 9556] 0%Z [(1%Z, 3004); (1%Z, 10001); (1%Z, 9557); ((-1)%Z, 10065); ((-2)%Z, 9556)] 4835703278458516698824704%Z 70368744177664%Z;
  Lin [3003; 10000; 9556] [17195; 10064; 17194; 17193; 17192; 9555] 0%Z [(1%Z, 3003); (1%Z, 10000); (1%Z, 9556); ((-1)%Z, 10064); ((-2)%Z, 9555)] 2417851639229258349412352%Z 140737488355328%Z;
  Lin [3002; 9999; 9555] [17191; 10063; 17190; 17189; 17188; 9554] 0%Z [(1%Z, 3002); (1%Z, 9999); (1%Z, 9555); ((-1)%Z, 10063); ((-2)%Z, 9554)] 1208925819614629174706176%Z 281474976710656%Z;
  Lin [3001; 9998; 9554] [17187; 10062; 17186; 17185; 17184; 9553] 0%Z [(1%Z, 3001); (1%Z, 9998); (1%Z, 9554); ((-1)%Z, 10062); ((-2)%Z, 9553)] 604462909807314587353088%Z 562949953421312%Z;
  Lin [3000; 9997; 9553] [17183; 10061; 17182; 17181; 17180; 9552] 0%Z [(1%Z, 3000); (1%Z, 9997); (1%Z, 9553); ((-1)%Z, 10061); ((-2)%Z, 9552)] 302231454903657293676544%Z 1125899906842624%Z;
  Lin [2999; 9996; 9552] [17179; 10060; 17178; 17177; 17176; 9551] 0%Z [(1%Z, 2999); (1%Z, 9996); (1%Z, 9552); ((-1)%Z, 10060); ((-2)%Z, 9551)] 151115727451828646838272%Z 2251799813685248%Z;
  Lin [2998; 9995; 9551] [17175; 10059; 17174; 17173; 17172; 9550] 0%Z [(1%Z, 2998); (1%Z, 9995); (1%Z, 9551); ((-1)%Z, 10059); ((-2)%Z, 9550)] 75557863725914323419136%Z 4503599627370496%Z;
  Lin [2997; 9994; 9550] [17171; 10058; 17170; 17169; 17168; 9549] 0%Z [(1%Z, 2997); (1%Z, 9994); (1%Z, 9550); ((-1)%Z, 10058); ((-2)%Z, 9549)] 37778931862957161709568%Z 9007199254740992%Z;
  Lin [2996; 9993; 9549] [17167; 10057; 17166; 17165; 17164; 9548] 0%Z [(1%Z, 2996); (1%Z, 9993); (1%Z, 9549); ((-1)%Z, 10057); ((-2)%Z, 9548)] 18889465931478580854784%Z 18014398509481984%Z;
  Lin [2995; 9992; 9548] [17163; 10056; 17162; 17161; 17160; 9547] 0%Z [(1%Z, 2995); (1%Z, 9992); (1%Z, 9548); ((-1)%Z, 10056); ((-2)%Z, 9547)] 9444732965739290427392%Z 36028797018963968%Z;
  Lin [2994; 9991; 9547] [17159; 10055; 17158; 17157; 17156; 9546] 0%Z [(1%Z, 2994); (1%Z, 9991); (1%Z, 9547); ((-1)%Z, 10055); ((-2)%Z, 9546)] 4722366482869645213696%Z 72057594037927936%Z;
  Lin [2993; 9990; 9546] [17155; 10054; 17154; 17153; 17152; 9545] 0%Z [(1%Z, 2993); (1%Z, 9990); (1%Z, 9546); ((-1)%Z, 10054); ((-2)%Z, 9545)] 2361183241434822606848%Z 144115188075855872%Z;
  Lin [2992; 9989; 9545] [17151; 10053; 17150; 17149; 17148; 9544] 0%Z [(1%Z, 2992); (1%Z, 9989); (1%Z, 9545); ((-1)%Z, 10053); ((-2)%Z, 9544)] 1180591620717411303424%Z 288230376151711744%Z;
  Lin [2991; 9988; 9544] [17147; 10052; 17146; 17145; 17144; 9543] 0%Z [(1%Z, 2991); (1%Z, 9988); (1%Z, 9544); ((-1)%Z, 10052); ((-2)%Z, 9543)] 590295810358705651712%Z 576460752303423488%Z;
  Lin [2990; 9987; 9543] [17143; 10051; 17142; 17141; 17140; 9542] 0%Z [(1%Z, 2990); (1%Z, 9987); (1%Z, 9543); ((-1)%Z, 10051); ((-2)%Z, 9542)] 295147905179352825856%Z 1152921504606846976%Z;
  Lin [2989; 9986; 9542] [17139; 10050; 17138; 17137; 17136; 9541] 0%Z [(1%Z, 2989); (1%Z, 9986); (1%Z, 9542); ((-1)%Z, 10050); ((-2)%Z, 9541)] 147573952589676412928%Z 2305843009213693952%Z;
  Lin [2988; 9985; 9541] [17135; 10049; 17134; 17133; 17132; 9540] 0%Z [(1%Z, 2988); (1%Z, 9985); (1%Z, 9541); ((-1)%Z, 10049); ((-2)%Z, 9540)] 73786976294838206464%Z 4611686018427387904%Z;
  Lin [2987; 9984; 9540] [17131; 10048; 17130; 17129; 17128; 9539] 0%Z [(1%Z, 2987); (1%Z, 9984); (1%Z, 9540); ((-1)%Z, 10048); ((-2)%Z, 9539)] 36893488147419103232%Z 9223372036854775808%Z;
  Lin [2986; 9983; 9539] [17127; 10047; 17126; 17125; 17124; 9538] 0%Z [(1%Z, 2986); (1%Z, 9983); (1%Z, 9539); ((-1)%Z, 10047); ((-2)%Z, 9538)] 18446744073709551616%Z 18446744073709551616%Z;
  Lin [2985; 9982; 9538] [17123; 10046; 17122; 17121; 17120; 9537] 0%Z [(1%Z, 2985); (1%Z, 9982); (1%Z, 9538); ((-1)%Z, 10046); ((-2)%Z, 9537)] 9223372036854775808%Z 36893488147419103232%Z;
  Lin [2984; 9981; 9537] [17119; 10045; 17118; 17117; 17116; 9536] 0%Z [(1%Z, 2984); (1%Z, 9981); (1%Z, 9537); ((-1)%Z, 10045); ((-2)%Z, 9536)] 4611686018427387904%Z 73786976294838206464%Z;
  Lin [2983; 9980; 9536] [17115; 10044; 17114; 17113; 17112; 9535] 0%Z [(1%Z, 2983); (1%Z, 9980); (1%Z, 9536); ((-1)%Z, 10044); ((-2)%Z, 9535)] 2305843009213693952%Z 147573952589676412928%Z;
  Lin [2982; 9979; 9535] [17111; 10043; 17110; 17109; 17108; 9534] 0%Z [(1%Z, 2982); (1%Z, 9979); (1%Z, 9535); ((-1)%Z, 10043); ((-2)%Z, 9534)] 1152921504606846976%Z 295147905179352825856%Z;
  Lin [2981; 9978; 9534] [17107; 10042; 17106; 17105; 17104; 9533] 0%Z [(1%Z, 2981); (1%Z, 9978); (1%Z, 9534); ((-1)%Z, 10042); ((-2)%Z, 9533)] 576460752303423488%Z 590295810358705651712%Z;
  Lin [2980; 9977; 9533] [17103; 10041; 17102; 17101; 17100; 9532] 0%Z [(1%Z, 2980); (1%Z, 9977); (1%Z, 9533); ((-1)%Z, 10041); ((-2)%Z, 9532)] 288230376151711744%Z 1180591620717411303424%Z;
  Lin [2979; 9976; 9532] [17099; 10040; 17098; 17097; 17096; 9531] 0%Z [(1%Z, 2979); (1%Z, 9976); (1%Z, 9532); ((-1)%Z, 10040); ((-2)%Z, 9531)] 144115188075855872%Z 2361183241434822606848%Z;
  Lin [2978; 9975; 9531] [17095; 10039; 17094; 17093; 17092; 9530] 0%Z [(1%Z, 2978); (1%Z, 9975); (1%Z, 9531); ((-1)%Z, 10039); ((-2)%Z, 9530)] 72057594037927936%Z 4722366482869645213696%Z;
  Lin [2977; 9974; 9530] [17091; 10038; 17090; 17089; 17088; 9529] 0%Z [(1%Z, 2977); (1%Z, 9974); (1%Z, 9530); ((-1)%Z, 10038); ((-2)%Z, 9529)] 36028797018963968%Z 9444732965739290427392%Z;
  Lin [2976; 9973; 9529] [17087; 10037; 17086; 17085; 17084; 9528] 0%Z [(1%Z, 2976); (1%Z, 9973); (1%Z, 9529); ((-1)%Z, 10037); ((-2)%Z, 9528)] 18014398509481984%Z 18889465931478580854784%Z;
  Lin [2975; 9972; 9528] [17083; 10036; 17082; 17081; 17080; 9527] 0%Z [(1%Z, 2975); (1%Z, 9972); (1%Z, 9528); ((-1)%Z, 10036); ((-2)%Z, 9527)] 9007199254740992%Z 37778931862957161709568%Z;
  Lin [2974; 9971; 9527] [17079; 10035; 17078; 17077; 17076; 9526] 0%Z [(1%Z, 2974); (1%Z, 9971); (1%Z, 9527); ((-1)%Z, 10035); ((-2)%Z, 9526)] 4503599627370496%Z 75557863725914323419136%Z;
  Lin [2973; 9970; 9526] [17075; 10034; 17074; 17073; 17072; 9525] 0%Z [(1%Z, 2973); (1%Z, 9970); (1%Z, 9526); ((-1)%Z, 10034); ((-2)%Z, 9525)] 2251799813685248%Z 151115727451828646838272%Z;
  Lin [2972; 9969; 9525] [17071; 10033; 17070; 17069; 17068; 9524] 0%Z [(1%Z, 2972); (1%Z, 9969); (1%Z, 9525); ((-1)%Z, 10033); ((-2)%Z, 9524)] 1125899906842624%Z 302231454903657293676544%Z;
  Lin [2971; 9968; 9524] [17067; 10032; 17066; 17065; 17064; 9523] 0%Z [(1%Z, 2971); (1%Z, 9968); (1%Z, 9524); ((-1)%Z, 10032); ((-2)%Z, 9523)] 562949953421312%Z 604462909807314587353088%Z;
  Lin [2970; 9967; 9523] [17063; 10031; 17062; 17061; 17060; 9522] 0%Z [(1%Z, 2970); (1%Z, 9967); (1%Z, 9523); ((-1)%Z, 10031); ((-2)%Z, 9522)] 281474976710656%Z 1208925819614629174706176%Z;
  Lin [2969; 9966; 9522] [17059; 10030; 17058; 17057; 17056; 9521] 0%Z [(1%Z, 2969); (1%Z, 9966); (1%Z, 9522); ((-1)%Z, 10030); ((-2)%Z, 9521)] 140737488355328%Z 2417851639229258349412352%Z;
  Lin [2968; 9965; 9521] [17055; 10029; 17054; 17053; 17052; 9520] 0%Z [(1%Z, 2968); (1%Z, 9965); (1%Z, 9521); ((-1)%Z, 10029); ((-2)%Z, 9520)] 70368744177664%Z 4835703278458516698824704%Z;
  Lin [2967; 9964; 9520] [17051; 10028; 17050; 17049; 17048; 9519] 0%Z [(1%Z, 2967); (1%Z, 9964); (1%Z, 9520); ((-1)%Z, 10028); ((-2)%Z, 9519)] 35184372088832%Z 9671406556917033397649408%Z;
  Lin [2966; 9963; 9519] [17047; 10027; 17046; 17045; 17044; 9518] 0%Z [(1%Z, 2966); (1%Z, 9963); (1%Z, 9519); ((-1)%Z, 10027); ((-2)%Z, 9518)] 17592186044416%Z 19342813113834066795298816%Z;
  Lin [2965; 9962; 9518] [17043; 10026; 17042; 17041; 17040; 9517] 0%Z [(1%Z, 2965); (1%Z, 9962); (1%Z, 9518); ((-1)%Z, 10026); ((-2)%Z, 9517)] 8796093022208%Z 38685626227668133590597632%Z;
  Lin [2964; 9961; 9517] [17039; 10025; 17038; 17037; 17036; 9516] 0%Z [(1%Z, 2964); (1%Z, 9961); (1%Z, 9517); ((-1)%Z, 10025); ((-2)%Z, 9516)] 4398046511104%Z 77371252455336267181195264%Z;
  Lin [2963; 9960; 9516] [17035; 10024; 17034; 17033; 17032; 9515] 0%Z [(1%Z, 2963); (1%Z, 9960); (1%Z, 9516); ((-1)%Z, 10024); ((-2)%Z, 9515)] 2199023255552%Z 154742504910672534362390528%Z;
  Lin [2962; 9959; 9515] [17031; 10023; 17030; 17029; 17028; 9514] 0%Z [(1%Z, 2962); (1%Z, 9959); (1%Z, 9515); ((-1)%Z, 10023); ((-2)%Z, 9514)] 1099511627776%Z 309485009821345068724781056%Z;
  Lin [2961; 9958; 9514] [17027; 10022; 17026; 17025; 17024; 9513] 0%Z [(1%Z, 2961); (1%Z, 9958); (1%Z, 9514); ((-1)%Z, 10022); ((-2)%Z, 9513)] 549755813888%Z 618970019642690137449562112%Z;
  Lin [2960; 9957; 9513] [17023; 10021; 17022; 17021; 17020; 9512] 0%Z [(1%Z, 2960); (1%Z, 9957); (1%Z, 9513); ((-1)%Z, 10021); ((-2)%Z, 9512)] 274877906944%Z 1237940039285380274899124224%Z;
  Lin [2959; 9956; 9512] [17019; 10020; 17018; 17017; 17016; 9511] 0%Z [(1%Z, 2959); (1%Z, 9956); (1%Z, 9512); ((-1)%Z, 10020); ((-2)%Z, 9511)] 137438953472%Z 2475880078570760549798248448%Z].
Definition mult2_64_facts_28 : list lin_fact := [
  Lin [2958; 9955; 9511] [17015; 10019; 17014; 17013; 17012; 9510] 0%Z [(1%Z, 2958); (1%Z, 9955); (1%Z, 9511); ((-1)%Z, 10019); ((-2)%Z, 9510)] 68719476736%Z 4951760157141521099596496896%Z;
  Lin [2957; 9954; 9510] [17011; 10018; 17010; 17009; 17008; 9509] 0%Z [(1%Z, 2957); (1%Z, 9954); (1%Z, 9510); ((-1)%Z, 10018); ((-2)%Z, 9509)] 34359738368%Z 9903520314283042199192993792%Z;
  Lin [2956; 9953; 9509] [17007; 10017; 17006; 17005; 17004; 9508] 0%Z [(1%Z, 2956); (1%Z, 9953); (1%Z, 9509); ((-1)%Z, 10017); ((-2)%Z, 9508)] 17179869184%Z 19807040628566084398385987584%Z;
  Lin [2955; 9952; 9508] [17003; 10016; 17002; 17001; 17000; 9507] 0%Z [(1%Z, 2955); (1%Z, 9952); (1%Z, 9508); ((-1)%Z, 10016); ((-2)%Z, 9507)] 8589934592%Z 39614081257132168796771975168%Z;
  Lin [2954; 9951; 9507] [16999; 10015; 16998; 16997; 16996; 9506] 0%Z [(1%Z, 2954); (1%Z, 9951); (1%Z, 9507); ((-1)%Z, 10015); ((-2)%Z, 9506)] 4294967296%Z 79228162514264337593543950336%Z;
  Lin [2953; 9950; 9506] [16995; 10014; 16994; 16993; 16992; 9505] 0%Z [(1%Z, 2953); (1%Z, 9950); (1%Z, 9506); ((-1)%Z, 10014); ((-2)%Z, 9505)] 2147483648%Z 158456325028528675187087900672%Z;
  Lin [2952; 9949; 9505] [16991; 10013; 16990; 16989; 16988; 9504] 0%Z [(1%Z, 2952); (1%Z, 9949); (1%Z, 9505); ((-1)%Z, 10013); ((-2)%Z, 9504)] 1073741824%Z 316912650057057350374175801344%Z;
  Lin [2951; 9948; 9504] [16987; 10012; 16986; 16985; 16984; 9503] 0%Z [(1%Z, 2951); (1%Z, 9948); (1%Z, 9504); ((-1)%Z, 10012); ((-2)%Z, 9503)] 536870912%Z 633825300114114700748351602688%Z;
  Lin [2950; 9947; 9503] [16983; 10011; 16982; 16981; 16980; 9502] 0%Z [(1%Z, 2950); (1%Z, 9947); (1%Z, 9503); ((-1)%Z, 10011); ((-2)%Z, 9502)] 268435456%Z 1267650600228229401496703205376%Z;
  Lin [2949; 9946; 9502] [16979; 10010; 16978; 16977; 16976; 9501] 0%Z [(1%Z, 2949); (1%Z, 9946); (1%Z, 9502); ((-1)%Z, 10010); ((-2)%Z, 9501)] 134217728%Z 2535301200456458802993406410752%Z;
  Lin [2948; 9945; 9501] [16975; 10009; 16974; 16973; 16972; 9500] 0%Z [(1%Z, 2948); (1%Z, 9945); (1%Z, 9501); ((-1)%Z, 10009); ((-2)%Z, 9500)] 67108864%Z 5070602400912917605986812821504%Z;
  Lin [2947; 9944; 9500] [16971; 10008; 16970; 16969; 16968; 9499] 0%Z [(1%Z, 2947); (1%Z, 9944); (1%Z, 9500); ((-1)%Z, 10008); ((-2)%Z, 9499)] 33554432%Z 10141204801825835211973625643008%Z;
  Lin [2946; 9943; 9499] [16967; 10007; 16966; 16965; 16964; 9498] 0%Z [(1%Z, 2946); (1%Z, 9943); (1%Z, 9499); ((-1)%Z, 10007); ((-2)%Z, 9498)] 16777216%Z 20282409603651670423947251286016%Z;
  Lin [2945; 9942; 9498] [16963; 10006; 16962; 16961; 16960; 9497] 0%Z [(1%Z, 2945); (1%Z, 9942); (1%Z, 9498); ((-1)%Z, 10006); ((-2)%Z, 9497)] 8388608%Z 40564819207303340847894502572032%Z;
  Lin [2944; 9941; 9497] [16959; 10005; 16958; 16957; 16956; 9496] 0%Z [(1%Z, 2944); (1%Z, 9941); (1%Z, 9497); ((-1)%Z, 10005); ((-2)%Z, 9496)] 4194304%Z 81129638414606681695789005144064%Z;
  Lin [2943; 9431; 9496] [16955; 10004; 16954; 16953; 16952; 9495] 0%Z [(1%Z, 2943); (1%Z, 9431); (1%Z, 9496); ((-1)%Z, 10004); ((-2)%Z, 9495)] 2097152%Z 162259276829213363391578010288128%Z;
  Lin [3070; 10066] [28141; 9622] 0%Z [(1%Z, 3070); (1%Z, 10066); ((-1)%Z, 28141); ((-2)%Z, 9622)] 9671406556917033397649408%Z 35184372088832%Z;
  Lin [3069; 10065; 9622] [16951; 10129; 16950; 16949; 16948; 9621] 0%Z [(1%Z, 3069); (1%Z, 10065); (1%Z, 9622); ((-1)%Z, 10129); ((-2)%Z, 9621)] 4835703278458516698824704%Z 70368744177664%Z;
  Lin [3068; 10064; 9621] [16947; 10128; 16946; 16945; 16944; 9620] 0%Z [(1%Z, 3068); (1%Z, 10064); (1%Z, 9621); ((-1)%Z, 10128); ((-2)%Z, 9620)] 2417851639229258349412352%Z 140737488355328%Z;
  Lin [3067; 10063; 9620] [16943; 10127; 16942; 16941; 16940; 9619] 0%Z [(1%Z, 3067); (1%Z, 10063); (1%Z, 9620); ((-1)%Z, 10127); ((-2)%Z, 9619)] 1208925819614629174706176%Z 281474976710656%Z;
  Lin [3066; 10062; 9619] [16939; 10126; 16938; 16937; 16936; 9618] 0%Z [(1%Z, 3066); (1%Z, 10062); (1%Z, 9619); ((-1)%Z, 10126); ((-2)%Z, 9618)] 604462909807314587353088%Z 562949953421312%Z;
  Lin [3065; 10061; 9618] [16935; 10125; 16934; 16933; 16932; 9617] 0%Z [(1%Z, 3065); (1%Z, 10061); (1%Z, 9618); ((-1)%Z, 10125); ((-2)%Z, 9617)] 302231454903657293676544%Z 1125899906842624%Z;
  Lin [3064; 10060; 9617] [16931; 10124; 16930; 16929; 16928; 9616] 0%Z [(1%Z, 3064); (1%Z, 10060); (1%Z, 9617); ((-1)%Z, 10124); ((-2)%Z, 9616)] 151115727451828646838272%Z 2251799813685248%Z;
  Lin [3063; 10059; 9616] [16927; 10123; 16926; 16925; 16924; 9615] 0%Z [(1%Z, 3063); (1%Z, 10059); (1%Z, 9616); ((-1)%Z, 10123); ((-2)%Z, 9615)] 75557863725914323419136%Z 4503599627370496%Z;
  Lin [3062; 10058; 9615] [16923; 10122; 16922; 16921; 16920; 9614] 0%Z [(1%Z, 3062); (1%Z, 10058); (1%Z, 9615); ((-1)%Z, 10122); ((-2)%Z, 9614)] 37778931862957161709568%Z 9007199254740992%Z;
  Lin [3061; 10057; 9614] [16919; 10121; 16918; 16917; 16916; 9613] 0%Z [(1%Z, 3061); (1%Z, 10057); (1%Z, 9614); ((-1)%Z, 10121); ((-2)%Z, 9613)] 18889465931478580854784%Z 18014398509481984%Z;
  Lin [3060; 10056; 9613] [16915; 10120; 16914; 16913; 16912; 9612] 0%Z [(1%Z, 3060); (1%Z, 10056); (1%Z, 9613); ((-1)%Z, 10120); ((-2)%Z, 9612)] 9444732965739290427392%Z 36028797018963968%Z;
  Lin [3059; 10055; 9612] [16911; 10119; 16910; 16909; 16908; 9611] 0%Z [(1%Z, 3059); (1%Z, 10055); (1%Z, 9612); ((-1)%Z, 10119); ((-2)%Z, 9611)] 4722366482869645213696%Z 72057594037927936%Z;
  Lin [3058; 10054; 9611] [16907; 10118; 16906; 16905; 16904; 9610] 0%Z [(1%Z, 3058); (1%Z, 10054); (1%Z, 9611); ((-1)%Z, 10118); ((-2)%Z, 9610)] 2361183241434822606848%Z 144115188075855872%Z;
  Lin [3057; 10053; 9610] [16903; 10117; 16902; 16901; 16900; 9609] 0%Z [(1%Z, 3057); (1%Z, 10053); (1%Z, 9610); ((-1)%Z, 10117); ((-2)%Z, 9609)] 1180591620717411303424%Z 288230376151711744%Z;
  Lin [3056; 10052; 9609] [16899; 10116; 16898; 16897; 16896; 9608] 0%Z [(1%Z, 3056); (1%Z, 10052); (1%Z, 9609); ((-1)%Z, 10116); ((-2)%Z, 9608)] 590295810358705651712%Z 576460752303423488%Z;
  Lin [3055; 10051; 9608] [16895; 10115; 16894; 16893; 16892; 9607] 0%Z [(1%Z, 3055); (1%Z, 10051); (1%Z, 9608); ((-1)%Z, 10115); ((-2)%Z, 9607)] 295147905179352825856%Z 1152921504606846976%Z;
  Lin [3054; 10050; 9607] [16891; 10114; 16890; 16889; 16888; 9606] 0%Z [(1%Z, 3054); (1%Z, 10050); (1%Z, 9607); ((-1)%Z, 10114); ((-2)%Z, 9606)] 147573952589676412928%Z 2305843009213693952%Z;
  Lin [3053; 10049; 9606] [16887; 10113; 16886; 16885; 16884; 9605] 0%Z [(1%Z, 3053); (1%Z, 10049); (1%Z, 9606); ((-1)%Z, 10113); ((-2)%Z, 9605)] 73786976294838206464%Z 4611686018427387904%Z;
  Lin [3052; 10048; 9605] [16883; 10112; 16882; 16881; 16880; 9604] 0%Z [(1%Z, 3052); (1%Z, 10048); (1%Z, 9605); ((-1)%Z, 10112); ((-2)%Z, 9604)] 36893488147419103232%Z 9223372036854775808%Z;
  Lin [3051; 10047; 9604] [16879; 10111; 16878; 16877; 16876; 9603] 0%Z [(1%Z, 3051); (1%Z, 10047); (1%Z, 9604); ((-1)%Z, 10111); ((-2)%Z, 9603)] 18446744073709551616%Z 18446744073709551616%Z;
  Lin [3050; 10046; 9603] [16875; 10110; 16874; 16873; 16872; 9602] 0%Z [(1%Z, 3050); (1%Z, 10046); (1%Z, 9603); ((-1)%Z, 10110); ((-2)%Z, 9602)] 9223372036854775808%Z 36893488147419103232%Z;
  Lin [3049; 10045; 9602] [16871; 10109; 16870; 16869; 16868; 9601] 0%Z [(1%Z, 3049); (1%Z, 10045); (1%Z, 9602); ((-1)%Z, 10109); ((-2)%Z, 9601)] 4611686018427387904%Z 73786976294838206464%Z;
  Lin [3048; 10044; 9601] [16867; 10108; 16866; 16865; 16864; 9600] 0%Z [(1%Z, 3048); (1%Z, 10044); (1%Z, 9601); ((-1)%Z, 10108); ((-2)%Z, 9600)] 2305843009213693952%Z 147573952589676412928%Z;
  Lin [3047; 10043; 9600] [16863; 10107; 16862; 16861; 16860; 9599] 0%Z [(1%Z, 3047); (1%Z, 10043); (1%Z, 9600); ((-1)%Z, 10107); ((-2)%Z, 9599)] 1152921504606846976%Z 295147905179352825856%Z;
  Lin [3046; 10042; 9599] [16859; 10106; 16858; 16857; 16856; 9598] 0%Z [(1%Z, 3046); (1%Z, 10042); (1%Z, 9599); ((-1)%Z, 10106); ((-2)%Z, 9598)] 576460752303423488%Z 590295810358705651712%Z;
  Lin [3045; 10041; 9598] [16855; 10105; 16854; 16853; 16852; 9597] 0%Z [(1%Z, 3045); (1%Z, 10041); (1%Z, 9598); ((-1)%Z, 10105); ((-2)%Z, 9597)] 288230376151711744%Z 1180591620717411303424%Z;
  Lin [3044; 10040; 9597] [16851; 10104; 16850; 16849; 16848; 9596] 0%Z [(1%Z, 3044); (1%Z, 10040); (1%Z, 9597); ((-1)%Z, 10104); ((-2)%Z, 9596)] 144115188075855872%Z 2361183241434822606848%Z;
  Lin [3043; 10039; 9596] [16847; 10103; 16846; 16845; 16844; 9595] 0%Z [(1%Z, 3043); (1%Z, 10039); (1%Z, 9596); ((-1)%Z, 10103); ((-2)%Z, 9595)] 72057594037927936%Z 4722366482869645213696%Z;
  Lin [3042; 10038; 9595] [16843; 10102; 16842; 16841; 16840; 9594] 0%Z [(1%Z, 3042); (1%Z, 10038); (1%Z, 9595); ((-1)%Z, 10102); ((-2)%Z, 9594)] 36028797018963968%Z 9444732965739290427392%Z;
  Lin [3041; 10037; 9594] [16839; 10101; 16838; 16837; 16836; 9593] 0%Z [(1%Z, 3041); (1%Z, 10037); (1%Z, 9594); ((-1)%Z, 10101); ((-2)%Z, 9593)] 18014398509481984%Z 18889465931478580854784%Z;
  Lin [3040; 10036; 9593] [16835; 10100; 16834; 16833; 16832; 9592] 0%Z [(1%Z, 3040); (1%Z, 10036); (1%Z, 9593); ((-1)%Z, 10100); ((-2)%Z, 9592)] 9007199254740992%Z 37778931862957161709568%Z;
  Lin [3039; 10035; 9592] [16831; 10099; 16830; 16829; 16828; 9591] 0%Z [(1%Z, 3039); (1%Z, 10035); (1%Z, 9592); ((-1)%Z, 10099); ((-2)%Z, 9591)] 4503599627370496%Z 75557863725914323419136%Z;
  Lin [3038; 10034; 9591] [16827; 10098; 16826; 16825; 16824; 9590] 0%Z [(1%Z, 3038); (1%Z, 10034); (1%Z, 9591); ((-1)%Z, 10098); ((-2)%Z, 9590)] 2251799813685248%Z 151115727451828646838272%Z;
  Lin [3037; 10033; 9590] [16823; 10097; 16822; 16821; 16820; 9589] 0%Z [(1%Z, 3037); (1%Z, 10033); (1%Z, 9590); ((-1)%Z, 10097); ((-2)%Z, 9589)] 1125899906842624%Z 302231454903657293676544%Z;
  Lin [3036; 10032; 9589] [16819; 10096; 16818; 16817; 16816; 9588] 0%Z [(1%Z, 3036); (1%Z, 10032); (1%Z, 9589); ((-1)%Z, 10096); ((-2)%Z, 9588)] 562949953421312%Z 604462909807314587353088%Z;
  Lin [3035; 10031; 9588] [16815; 10095; 16814; 16813; 16812; 9587] 0%Z [(1%Z, 3035); (1%Z, 10031); (1%Z, 9588); ((-1)%Z, 10095); ((-2)%Z, 9587)] 281474976710656%Z 1208925819614629174706176%Z;
  Lin [3034; 10030; 9587] [16811; 10094; 16810; 16809; 16808; 9586] 0%Z [(1%Z, 3034); (1%Z, 10030); (1%Z, 9587); ((-1)%Z, 10094); ((-2)%Z, 9586)] 140737488355328%Z 2417851639229258349412352%Z;
  Lin [3033; 10029; 9586] [16807; 10093; 16806; 16805; 16804; 9585] 0%Z [(1%Z, 3033); (1%Z, 10029); (1%Z, 9586); ((-1)%Z, 10093); ((-2)%Z, 9585)] 70368744177664%Z 4835703278458516698824704%Z;
  Lin [3032; 10028; 9585] [16803; 10092; 16802; 16801; 16800; 9584] 0%Z [(1%Z, 3032); (1%Z, 10028); (1%Z, 9585); ((-1)%Z, 10092); ((-2)%Z, 9584)] 35184372088832%Z 9671406556917033397649408%Z;
  Lin [3031; 10027; 9584] [16799; 10091; 16798; 16797; 16796; 9583] 0%Z [(1%Z, 3031); (1%Z, 10027); (1%Z, 9584); ((-1)%Z, 10091); ((-2)%Z, 9583)] 17592186044416%Z 19342813113834066795298816%Z;
  Lin [3030; 10026; 9583] [16795; 10090; 16794; 16793; 16792; 9582] 0%Z [(1%Z, 3030); (1%Z, 10026); (1%Z, 9583); ((-1)%Z, 10090); ((-2)%Z, 9582)] 8796093022208%Z 38685626227668133590597632%Z;
  Lin [3029; 10025; 9582] [16791; 10089; 16790; 16789; 16788; 9581] 0%Z [(1%Z, 3029); (1%Z, 10025); (1%Z, 9582); ((-1)%Z, 10089); ((-2)%Z, 9581)] 4398046511104%Z 77371252455336267181195264%Z;
  Lin [3028; 10024; 9581] [16787; 10088; 16786; 16785; 16784; 9580] 0%Z [(1%Z, 3028); (1%Z, 10024); (1%Z, 9581); ((-1)%Z, 10088); ((-2)%Z, 9580)] 2199023255552%Z 154742504910672534362390528%Z;
  Lin [3027; 10023; 9580] [16783; 10087; 16782; 16781; 16780; 9579] 0%Z [(1%Z, 3027); (1%Z, 10023); (1%Z, 9580); ((-1)%Z, 10087); ((-2)%Z, 9579)] 1099511627776%Z 309485009821345068724781056%Z;
  Lin [3026; 10022; 9579] [16779; 10086; 16778; 16777; 16776; 9578] 0%Z [(1%Z, 3026); (1%Z, 10022); (1%Z, 9579); ((-1)%Z, 10086); ((-2)%Z, 9578)] 549755813888%Z 618970019642690137449562112%Z;
  Lin [3025; 10021; 9578] [16775; 10085; 16774; 16773; 16772; 9577] 0%Z [(1%Z, 3025); (1%Z, 10021); (1%Z, 9578); ((-1)%Z, 10085); ((-2)%Z, 9577)] 274877906944%Z 1237940039285380274899124224%Z;
  Lin [3024; 10020; 9577] [16771; 10084; 16770; 16769; 16768; 9576] 0%Z [(1%Z, 3024); (1%Z, 10020); (1%Z, 9577); ((-1)%Z, 10084); ((-2)%Z, 9576)] 137438953472%Z 2475880078570760549798248448%Z;
  Lin [3023; 10019; 9576] [16767; 10083; 16766; 16765; 16764; 9575] 0%Z [(1%Z, 3023); (1%Z, 10019); (1%Z, 9576); ((-1)%Z, 10083); ((-2)%Z, 9575)] 68719476736%Z 4951760157141521099596496896%Z;
  Lin [3022; 10018; 9575] [16763; 10082; 16762; 16761; 16760; 9574] 0%Z [(1%Z, 3022); (1%Z, 10018); (1%Z, 9575); ((-1)%Z, 10082); ((-2)%Z, 9574)] 34359738368%Z 9903520314283042199192993792%Z;
  Lin [3021; 10017; 9574] [16759; 10081; 16758; 16757; 16756; 9573] 0%Z [(1%Z, 3021); (1%Z, 10017); (1%Z, 9574); ((-1)%Z, 10081); ((-2)%Z, 9573)] 17179869184%Z 19807040628566084398385987584%Z;
  Lin [3020; 10016; 9573] [16755; 10080; 16754; 16753; 16752; 9572] 0%Z [(1%Z, 3020); (1%Z, 10016); (1%Z, 9573); ((-1)%Z, 10080); ((-2)%Z, 9572)] 8589934592%Z 39614081257132168796771975168%Z;
  Lin [3019; 10015; 9572] [16751; 10079; 16750; 16749; 16748; 9571] 0%Z [(1%Z, 3019); (1%Z, 10015); (1%Z, 9572); ((-1)%Z, 10079); ((-2)%Z, 9571)] 4294967296%Z 79228162514264337593543950336%Z;
  Lin [3018; 10014; 9571] [16747; 10078; 16746; 16745; 16744; 9570] 0%Z [(1%Z, 3018); (1%Z, 10014); (1%Z, 9571); ((-1)%Z, 10078); ((-2)%Z, 9570)] 2147483648%Z 158456325028528675187087900672%Z;
  Lin [3017; 10013; 9570] [16743; 10077; 16742; 16741; 16740; 9569] 0%Z [(1%Z, 3017); (1%Z, 10013); (1%Z, 9570); ((-1)%Z, 10077); ((-2)%Z, 9569)] 1073741824%Z 316912650057057350374175801344%Z;
  Lin [3016; 10012; 9569] [16739; 10076; 16738; 16737; 16736; 9568] 0%Z [(1%Z, 3016); (1%Z, 10012); (1%Z, 9569); ((-1)%Z, 10076); ((-2)%Z, 9568)] 536870912%Z 633825300114114700748351602688%Z;
  Lin [3015; 10011; 9568] [16735; 10075; 16734; 16733; 16732; 9567] 0%Z [(1%Z, 3015); (1%Z, 10011); (1%Z, 9568); ((-1)%Z, 10075); ((-2)%Z, 9567)] 268435456%Z 1267650600228229401496703205376%Z;
  Lin [3014; 10010; 9567] [16731; 10074; 16730; 16729; 16728; 9566] 0%Z [(1%Z, 3014); (1%Z, 10010); (1%Z, 9567); ((-1)%Z, 10074); ((-2)%Z, 9566)] 134217728%Z 2535301200456458802993406410752%Z;
  Lin [3013; 10009; 9566] [16727; 10073; 16726; 16725; 16724; 9565] 0%Z [(1%Z, 3013); (1%Z, 10009); (1%Z, 9566); ((-1)%Z, 10073); ((-2)%Z, 9565)] 67108864%Z 5070602400912917605986812821504%Z;
  Lin [3012; 10008; 9565] [16723; 10072; 16722; 16721; 16720; 9564] 0%Z [(1%Z, 3012); (1%Z, 10008); (1%Z, 9565); ((-1)%Z, 10072); ((-2)%Z, 9564)] 33554432%Z 10141204801825835211973625643008%Z;
  Lin [3011; 10007; 9564] [16719; 10071; 16718; 16717; 16716; 9563] 0%Z [(1%Z, 3011); (1%Z, 10007); (1%Z, 9564); ((-1)%Z, 10071); ((-2)%Z, 9563)] 16777216%Z 20282409603651670423947251286016%Z;
  Lin [3010; 10006; 9563] [16715; 10070; 16714; 16713; 16712; 9562] 0%Z [(1%Z, 3010); (1%Z, 10006); (1%Z, 9563); ((-1)%Z, 10070); ((-2)%Z, 9562)] 8388608%Z 40564819207303340847894502572032%Z;
  Lin [3009; 10005; 9562] [16711; 10069; 16710; 16709; 16708; 9561] 0%Z [(1%Z, 3009); (1%Z, 10005); (1%Z, 9562); ((-1)%Z, 10069); ((-2)%Z, 9561)] 4194304%Z 81129638414606681695789005144064%Z;
  Lin [3008; 10004; 9561] [16707; 10068; 16706; 16705; 16704; 9560] 0%Z [(1%Z, 3008); (1%Z, 10004); (1%Z, 9561); ((-1)%Z, 10068); ((-2)%Z, 9560)] 2097152%Z 162259276829213363391578010288128%Z;
  Lin [3007; 9495; 9560] [16703; 10067; 16702; 16701; 16700; 9559] 0%Z [(1%Z, 3007); (1%Z, 9495); (1%Z, 9560); ((-1)%Z, 10067); ((-2)%Z, 9559)] 1048576%Z 324518553658426726783156020576256%Z;
  Lin [3134; 10129] [28142; 9686] 0%Z [(1%Z, 3134); (1%Z, 10129); ((-1)%Z, 28142); ((-2)%Z, 9686)] 4835703278458516698824704%Z 70368744177664%Z;
  Lin [3133; 10128; 9686] [16699; 10192; 16698; 16697; 16696; 9685] 0%Z [(1%Z, 3133); (1%Z, 10128); (1%Z, 9686); ((-1)%Z, 10192); ((-2)%Z, 9685)] 2417851639229258349412352%Z 140737488355328%Z;
  Lin [3132; 10127; 9685] [16695; 10191; 16694; 16693; 16692; 9684] 0%Z [(1%Z, 3132); (1%Z, 10127); (1%Z, 9685); ((-1)%Z, 10191); ((-2)%Z, 9684)] 1208925819614629174706176%Z 281474976710656%Z;
  Lin [3131; 10126; 9684] [16691; 10190; 16690; 16689; 16688; 9683] 0%Z [(1%Z, 3131); (1%Z, 10126); (1%Z, 9684); ((-1)%Z, 10190); ((-2)%Z, 9683)] 604462909807314587353088%Z 562949953421312%Z;
  Lin [3130; 10125; 9683] [16687; 10189; 16686; 16685; 16684; 9682] 0%Z [(1%Z, 3130); (1%Z, 10125); (1%Z, 9683); ((-1)%Z, 10189); ((-2)%Z, 9682)] 302231454903657293676544%Z 1125899906842624%Z;
  Lin [3129; 10124; 9682] [16683; 10188; 16682; 16681; 16680; 9681] 0%Z [(1%Z, 3129); (1%Z, 10124); (1%Z, 9682); ((-1)%Z, 10188); ((-2)%Z, 9681)] 151115727451828646838272%Z 2251799813685248%Z;
  Lin [3128; 10123; 9681] [16679; 10187; 16678; 16677; 16676; 9680] 0%Z [(1%Z, 3128); (1%Z, 10123); (1%Z, 9681); ((-1)%Z, 10187); ((-2)%Z, 9680)] 75557863725914323419136%Z 4503599627370496%Z;
  Lin [3127; 10122; 9680] [16675; 10186; 16674; 16673; 16672; 9679] 0%Z [(1%Z, 3127); (1%Z, 10122); (1%Z, 9680); ((-1)%Z, 10186); ((-2)%Z, 9679)] 37778931862957161709568%Z 9007199254740992%Z;
  Lin [3126; 10121; 9679] [16671; 10185; 16670; 16669; 16668; 9678] 0%Z [(1%Z, 3126); (1%Z, 10121); (1%Z, 9679); ((-1)%Z, 10185); ((-2)%Z, 9678)] 18889465931478580854784%Z 18014398509481984%Z;
  Lin [3125; 10120; 9678] [16667; 10184; 16666; 16665; 16664; 9677] 0%Z [(1%Z, 3125); (1%Z, 10120); (1%Z, 9678); ((-1)%Z, 10184); ((-2)%Z, 9677)] 9444732965739290427392%Z 36028797018963968%Z;
  Lin [3124; 10119; 9677] [16663; 10183; 16662; 16661; 16660; 9676] 0%Z [(1%Z, 3124); (1%Z, 10119); (1%Z, 9677); ((-1)%Z, 10183); ((-2)%Z, 9676)] 4722366482869645213696%Z 72057594037927936%Z;
  Lin [3123; 10118; 9676] [16659; 10182; 16658; 16657; 16656; 9675] 0%Z [(1%Z, 3123); (1%Z, 10118); (1%Z, 9676); ((-1)%Z, 10182); ((-2)%Z, 9675)] 2361183241434822606848%Z 144115188075855872%Z;
  Lin [3122; 10117; 9675] [16655; 10181; 16654; 16653; 16652; 9674] 0%Z [(1%Z, 3122); (1%Z, 10117); (1%Z, 9675); ((-1)%Z, 10181); ((-2)%Z, 9674)] 1180591620717411303424%Z 288230376151711744%Z;
  Lin [3121; 10116; 9674] [16651; 10180; 16650; 16649; 16648; 9673] 0%Z [(1%Z, 3121); (1%Z, 10116); (1%Z, 9674); ((-1)%Z, 10180); ((-2)%Z, 9673)] 590295810358705651712%Z 576460752303423488%Z;
  Lin [3120; 10115; 9673] [16647; 10179; 16646; 16645; 16644; 9672] 0%Z [(1%Z, 3120); (1%Z, 10115); (1%Z, 9673); ((-1)%Z, 10179); ((-2)%Z, 9672)] 295147905179352825856%Z 1152921504606846976%Z;
  Lin [3119; 10114; 9672] [16643; 10178; 16642; 16641; 16640; 9671] 0%Z [(1%Z, 3119); (1%Z, 10114); (1%Z, 9672); ((-1)%Z, 10178); ((-2)%Z, 9671)] 147573952589676412928%Z 2305843009213693952%Z;
  Lin [3118; 10113; 9671] [16639; 10177; 16638; 16637; 16636; 9670] 0%Z [(1%Z, 3118); (1%Z, 10113); (1%Z, 9671); ((-1)%Z, 10177); ((-2)%Z, 9670)] 73786976294838206464%Z 4611686018427387904%Z;
  Lin [3117; 10112; 9670] [16635; 10176; 16634; 16633; 16632; 9669] 0%Z [(1%Z, 3117); (1%Z, 10112); (1%Z, 9670); ((-1)%Z, 10176); ((-2)%Z, 9669)] 36893488147419103232%Z 9223372036854775808%Z;
  Lin [3116; 10111; 9669] [16631; 10175; 16630; 16629; 16628; 9668] 0%Z [(1%Z, 3116); (1%Z, 10111); (1%Z, 9669); ((-1)%Z, 10175); ((-2)%Z, 9668)] 18446744073709551616%Z 18446744073709551616%Z;
  Lin [3115; 10110; 9668] [16627; 10174; 16626; 16625; 16624; 9667] 0%Z [(1%Z, 3115); (1%Z, 10110); (1%Z, 9668); ((-1)%Z, 10174); ((-2)%Z, 9667)] 9223372036854775808%Z 36893488147419103232%Z].
Definition mult2_64_facts_29 : list lin_fact := [
  Lin [3114; 10109; 9667] [16623; 10173; 16622; 16621; 16620; 9666] 0%Z [(1%Z, 3114); (1%Z, 10109); (1%Z, 9667); ((-1)%Z, 10173); ((-2)%Z, 9666)] 4611686018427387904%Z 73786976294838206464%Z;
  Lin [3113; 10108; 9666] [16619; 10172; 16618; 16617; 16616; 9665] 0%Z [(1%Z, 3113); (1%Z, 10108); (1%Z, 9666); ((-1)%Z, 10172); ((-2)%Z, 9665)] 2305843009213693952%Z 147573952589676412928%Z;
  Lin [3112; 10107; 9665] [16615; 10171; 16614; 16613; 16612; 9664] 0%Z [(1%Z, 3112); (1%Z, 10107); (1%Z, 9665); ((-1)%Z, 10171); ((-2)%Z, 9664)] 1152921504606846976%Z 295147905179352825856%Z;
  Lin [3111; 10106; 9664] [16611; 10170; 16610; 16609; 16608; 9663] 0%Z [(1%Z, 3111); (1%Z, 10106); (1%Z, 9664); ((-1)%Z, 10170); ((-2)%Z, 9663)] 576460752303423488%Z 590295810358705651712%Z;
  Lin [3110; 10105; 9663] [16607; 10169; 16606; 16605; 16604; 9662] 0%Z [(1%Z, 3110); (1%Z, 10105); (1%Z, 9663); ((-1)%Z, 10169); ((-2)%Z, 9662)] 288230376151711744%Z 1180591620717411303424%Z;
  Lin [3109; 10104; 9662] [16603; 10168; 16602; 16601; 16600; 9661] 0%Z [(1%Z, 3109); (1%Z, 10104); (1%Z, 9662); ((-1)%Z, 10168); ((-2)%Z, 9661)] 144115188075855872%Z 2361183241434822606848%Z;
  Lin [3108; 10103; 9661] [16599; 10167; 16598; 16597; 16596; 9660] 0%Z [(1%Z, 3108); (1%Z, 10103); (1%Z, 9661); ((-1)%Z, 10167); ((-2)%Z, 9660)] 72057594037927936%Z 4722366482869645213696%Z;
  Lin [3107; 10102; 9660] [16595; 10166; 16594; 16593; 16592; 9659] 0%Z [(1%Z, 3107); (1%Z, 10102); (1%Z, 9660); ((-1)%Z, 10166); ((-2)%Z, 9659)] 36028797018963968%Z 9444732965739290427392%Z;
  Lin [3106; 10101; 9659] [16591; 10165; 16590; 16589; 16588; 9658] 0%Z [(1%Z, 3106); (1%Z, 10101); (1%Z, 9659); ((-1)%Z, 10165); ((-2)%Z, 9658)] 18014398509481984%Z 18889465931478580854784%Z;
  Lin [3105; 10100; 9658] [16587; 10164; 16586; 16585; 16584; 9657] 0%Z [(1%Z, 3105); (1%Z, 10100); (1%Z, 9658); ((-1)%Z, 10164); ((-2)%Z, 9657)] 9007199254740992%Z 37778931862957161709568%Z;
  Lin [3104; 10099; 9657] [16583; 10163; 16582; 16581; 16580; 9656] 0%Z [(1%Z, 3104); (1%Z, 10099); (1%Z, 9657); ((-1)%Z, 10163); ((-2)%Z, 9656)] 4503599627370496%Z 75557863725914323419136%Z;
  Lin [3103; 10098; 9656] [16579; 10162; 16578; 16577; 16576; 9655] 0%Z [(1%Z, 3103); (1%Z, 10098); (1%Z, 9656); ((-1)%Z, 10162); ((-2)%Z, 9655)] 2251799813685248%Z 151115727451828646838272%Z;
  Lin [3102; 10097; 9655] [16575; 10161; 16574; 16573; 16572; 9654] 0%Z [(1%Z, 3102); (1%Z, 10097); (1%Z, 9655); ((-1)%Z, 10161); ((-2)%Z, 9654)] 1125899906842624%Z 302231454903657293676544%Z;
  Lin [3101; 10096; 9654] [16571; 10160; 16570; 16569; 16568; 9653] 0%Z [(1%Z, 3101); (1%Z, 10096); (1%Z, 9654); ((-1)%Z, 10160); ((-2)%Z, 9653)] 562949953421312%Z 604462909807314587353088%Z;
  Lin [3100; 10095; 9653] [16567; 10159; 16566; 16565; 16564; 9652] 0%Z [(1%Z, 3100); (1%Z, 10095); (1%Z, 9653); ((-1)%Z, 10159); ((-2)%Z, 9652)] 281474976710656%Z 1208925819614629174706176%Z;
  Lin [3099; 10094; 9652] [16563; 10158; 16562; 16561; 16560; 9651] 0%Z [(1%Z, 3099); (1%Z, 10094); (1%Z, 9652); ((-1)%Z, 10158); ((-2)%Z, 9651)] 140737488355328%Z 2417851639229258349412352%Z;
  Lin [3098; 10093; 9651] [16559; 10157; 16558; 16557; 16556; 9650] 0%Z [(1%Z, 3098); (1%Z, 10093); (1%Z, 9651); ((-1)%Z, 10157); ((-2)%Z, 9650)] 70368744177664%Z 4835703278458516698824704%Z;
  Lin [3097; 10092; 9650] [16555; 10156; 16554; 16553; 16552; 9649] 0%Z [(1%Z, 3097); (1%Z, 10092); (1%Z, 9650); ((-1)%Z, 10156); ((-2)%Z, 9649)] 35184372088832%Z 9671406556917033397649408%Z;
  Lin [3096; 10091; 9649] [16551; 10155; 16550; 16549; 16548; 9648] 0%Z [(1%Z, 3096); (1%Z, 10091); (1%Z, 9649); ((-1)%Z, 10155); ((-2)%Z, 9648)] 17592186044416%Z 19342813113834066795298816%Z;
  Lin [3095; 10090; 9648] [16547; 10154; 16546; 16545; 16544; 9647] 0%Z [(1%Z, 3095); (1%Z, 10090); (1%Z, 9648); ((-1)%Z, 10154); ((-2)%Z, 9647)] 8796093022208%Z 38685626227668133590597632%Z;
  Lin [3094; 10089; 9647] [16543; 10153; 16542; 16541; 16540; 9646] 0%Z [(1%Z, 3094); (1%Z, 10089); (1%Z, 9647); ((-1)%Z, 10153); ((-2)%Z, 9646)] 4398046511104%Z 77371252455336267181195264%Z;
  Lin [3093; 10088; 9646] [16539; 10152; 16538; 16537; 16536; 9645] 0%Z [(1%Z, 3093); (1%Z, 10088); (1%Z, 9646); ((-1)%Z, 10152); ((-2)%Z, 9645)] 2199023255552%Z 154742504910672534362390528%Z;
  Lin [3092; 10087; 9645] [16535; 10151; 16534; 16533; 16532; 9644] 0%Z [(1%Z, 3092); (1%Z, 10087); (1%Z, 9645); ((-1)%Z, 10151); ((-2)%Z, 9644)] 1099511627776%Z 309485009821345068724781056%Z;
  Lin [3091; 10086; 9644] [16531; 10150; 16530; 16529; 16528; 9643] 0%Z [(1%Z, 3091); (1%Z, 10086); (1%Z, 9644); ((-1)%Z, 10150); ((-2)%Z, 9643)] 549755813888%Z 618970019642690137449562112%Z;
  Lin [3090; 10085; 9643] [16527; 10149; 16526; 16525; 16524; 9642] 0%Z [(1%Z, 3090); (1%Z, 10085); (1%Z, 9643); ((-1)%Z, 10149); ((-2)%Z, 9642)] 274877906944%Z 1237940039285380274899124224%Z;
  Lin [3089; 10084; 9642] [16523; 10148; 16522; 16521; 16520; 9641] 0%Z [(1%Z, 3089); (1%Z, 10084); (1%Z, 9642); ((-1)%Z, 10148); ((-2)%Z, 9641)] 137438953472%Z 2475880078570760549798248448%Z;
  Lin [3088; 10083; 9641] [16519; 10147; 16518; 16517; 16516; 9640] 0%Z [(1%Z, 3088); (1%Z, 10083); (1%Z, 9641); ((-1)%Z, 10147); ((-2)%Z, 9640)] 68719476736%Z 4951760157141521099596496896%Z;
  Lin [3087; 10082; 9640] [16515; 10146; 16514; 16513; 16512; 9639] 0%Z [(1%Z, 3087); (1%Z, 10082); (1%Z, 9640); ((-1)%Z, 10146); ((-2)%Z, 9639)] 34359738368%Z 9903520314283042199192993792%Z;
  Lin [3086; 10081; 9639] [16511; 10145; 16510; 16509; 16508; 9638] 0%Z [(1%Z, 3086); (1%Z, 10081); (1%Z, 9639); ((-1)%Z, 10145); ((-2)%Z, 9638)] 17179869184%Z 19807040628566084398385987584%Z;
  Lin [3085; 10080; 9638] [16507; 10144; 16506; 16505; 16504; 9637] 0%Z [(1%Z, 3085); (1%Z, 10080); (1%Z, 9638); ((-1)%Z, 10144); ((-2)%Z, 9637)] 8589934592%Z 39614081257132168796771975168%Z;
  Lin [3084; 10079; 9637] [16503; 10143; 16502; 16501; 16500; 9636] 0%Z [(1%Z, 3084); (1%Z, 10079); (1%Z, 9637); ((-1)%Z, 10143); ((-2)%Z, 9636)] 4294967296%Z 79228162514264337593543950336%Z;
  Lin [3083; 10078; 9636] [16499; 10142; 16498; 16497; 16496; 9635] 0%Z [(1%Z, 3083); (1%Z, 10078); (1%Z, 9636); ((-1)%Z, 10142); ((-2)%Z, 9635)] 2147483648%Z 158456325028528675187087900672%Z;
  Lin [3082; 10077; 9635] [16495; 10141; 16494; 16493; 16492; 9634] 0%Z [(1%Z, 3082); (1%Z, 10077); (1%Z, 9635); ((-1)%Z, 10141); ((-2)%Z, 9634)] 1073741824%Z 316912650057057350374175801344%Z;
  Lin [3081; 10076; 9634] [16491; 10140; 16490; 16489; 16488; 9633] 0%Z [(1%Z, 3081); (1%Z, 10076); (1%Z, 9634); ((-1)%Z, 10140); ((-2)%Z, 9633)] 536870912%Z 633825300114114700748351602688%Z;
  Lin [3080; 10075; 9633] [16487; 10139; 16486; 16485; 16484; 9632] 0%Z [(1%Z, 3080); (1%Z, 10075); (1%Z, 9633); ((-1)%Z, 10139); ((-2)%Z, 9632)] 268435456%Z 1267650600228229401496703205376%Z;
  Lin [3079; 10074; 9632] [16483; 10138; 16482; 16481; 16480; 9631] 0%Z [(1%Z, 3079); (1%Z, 10074); (1%Z, 9632); ((-1)%Z, 10138); ((-2)%Z, 9631)] 134217728%Z 2535301200456458802993406410752%Z;
  Lin [3078; 10073; 9631] [16479; 10137; 16478; 16477; 16476; 9630] 0%Z [(1%Z, 3078); (1%Z, 10073); (1%Z, 9631); ((-1)%Z, 10137); ((-2)%Z, 9630)] 67108864%Z 5070602400912917605986812821504%Z;
  Lin [3077; 10072; 9630] [16475; 10136; 16474; 16473; 16472; 9629] 0%Z [(1%Z, 3077); (1%Z, 10072); (1%Z, 9630); ((-1)%Z, 10136); ((-2)%Z, 9629)] 33554432%Z 10141204801825835211973625643008%Z;
  Lin [3076; 10071; 9629] [16471; 10135; 16470; 16469; 16468; 9628] 0%Z [(1%Z, 3076); (1%Z, 10071); (1%Z, 9629); ((-1)%Z, 10135); ((-2)%Z, 9628)] 16777216%Z 20282409603651670423947251286016%Z;
  Lin [3075; 10070; 9628] [16467; 10134; 16466; 16465; 16464; 9627] 0%Z [(1%Z, 3075); (1%Z, 10070); (1%Z, 9628); ((-1)%Z, 10134); ((-2)%Z, 9627)] 8388608%Z 40564819207303340847894502572032%Z;
  Lin [3074; 10069; 9627] [16463; 10133; 16462; 16461; 16460; 9626] 0%Z [(1%Z, 3074); (1%Z, 10069); (1%Z, 9627); ((-1)%Z, 10133); ((-2)%Z, 9626)] 4194304%Z 81129638414606681695789005144064%Z;
  Lin [3073; 10068; 9626] [16459; 10132; 16458; 16457; 16456; 9625] 0%Z [(1%Z, 3073); (1%Z, 10068); (1%Z, 9626); ((-1)%Z, 10132); ((-2)%Z, 9625)] 2097152%Z 162259276829213363391578010288128%Z;
  Lin [3072; 10067; 9625] [16455; 10131; 16454; 16453; 16452; 9624] 0%Z [(1%Z, 3072); (1%Z, 10067); (1%Z, 9625); ((-1)%Z, 10131); ((-2)%Z, 9624)] 1048576%Z 324518553658426726783156020576256%Z;
  Lin [3071; 9559; 9624] [16451; 10130; 16450; 16449; 16448; 9623] 0%Z [(1%Z, 3071); (1%Z, 9559); (1%Z, 9624); ((-1)%Z, 10130); ((-2)%Z, 9623)] 524288%Z 649037107316853453566312041152512%Z;
  Lin [3198; 10192] [28143; 9750] 0%Z [(1%Z, 3198); (1%Z, 10192); ((-1)%Z, 28143); ((-2)%Z, 9750)] 2417851639229258349412352%Z 140737488355328%Z;
  Lin [3197; 10191; 9750] [16447; 10255; 16446; 16445; 16444; 9749] 0%Z [(1%Z, 3197); (1%Z, 10191); (1%Z, 9750); ((-1)%Z, 10255); ((-2)%Z, 9749)] 1208925819614629174706176%Z 281474976710656%Z;
  Lin [3196; 10190; 9749] [16443; 10254; 16442; 16441; 16440; 9748] 0%Z [(1%Z, 3196); (1%Z, 10190); (1%Z, 9749); ((-1)%Z, 10254); ((-2)%Z, 9748)] 604462909807314587353088%Z 562949953421312%Z;
  Lin [3195; 10189; 9748] [16439; 10253; 16438; 16437; 16436; 9747] 0%Z [(1%Z, 3195); (1%Z, 10189); (1%Z, 9748); ((-1)%Z, 10253); ((-2)%Z, 9747)] 302231454903657293676544%Z 1125899906842624%Z;
  Lin [3194; 10188; 9747] [16435; 10252; 16434; 16433; 16432; 9746] 0%Z [(1%Z, 3194); (1%Z, 10188); (1%Z, 9747); ((-1)%Z, 10252); ((-2)%Z, 9746)] 151115727451828646838272%Z 2251799813685248%Z;
  Lin [3193; 10187; 9746] [16431; 10251; 16430; 16429; 16428; 9745] 0%Z [(1%Z, 3193); (1%Z, 10187); (1%Z, 9746); ((-1)%Z, 10251); ((-2)%Z, 9745)] 75557863725914323419136%Z 4503599627370496%Z;
  Lin [3192; 10186; 9745] [16427; 10250; 16426; 16425; 16424; 9744] 0%Z [(1%Z, 3192); (1%Z, 10186); (1%Z, 9745); ((-1)%Z, 10250); ((-2)%Z, 9744)] 37778931862957161709568%Z 9007199254740992%Z;
  Lin [3191; 10185; 9744] [16423; 10249; 16422; 16421; 16420; 9743] 0%Z [(1%Z, 3191); (1%Z, 10185); (1%Z, 9744); ((-1)%Z, 10249); ((-2)%Z, 9743)] 18889465931478580854784%Z 18014398509481984%Z;
  Lin [3190; 10184; 9743] [16419; 10248; 16418; 16417; 16416; 9742] 0%Z [(1%Z, 3190); (1%Z, 10184); (1%Z, 9743); ((-1)%Z, 10248); ((-2)%Z, 9742)] 9444732965739290427392%Z 36028797018963968%Z;
  Lin [3189; 10183; 9742] [16415; 10247; 16414; 16413; 16412; 9741] 0%Z [(1%Z, 3189); (1%Z, 10183); (1%Z, 9742); ((-1)%Z, 10247); ((-2)%Z, 9741)] 4722366482869645213696%Z 72057594037927936%Z;
  Lin [3188; 10182; 9741] [16411; 10246; 16410; 16409; 16408; 9740] 0%Z [(1%Z, 3188); (1%Z, 10182); (1%Z, 9741); ((-1)%Z, 10246); ((-2)%Z, 9740)] 2361183241434822606848%Z 144115188075855872%Z;
  Lin [3187; 10181; 9740] [16407; 10245; 16406; 16405; 16404; 9739] 0%Z [(1%Z, 3187); (1%Z, 10181); (1%Z, 9740); ((-1)%Z, 10245); ((-2)%Z, 9739)] 1180591620717411303424%Z 288230376151711744%Z;
  Lin [3186; 10180; 9739] [16403; 10244; 16402; 16401; 16400; 9738] 0%Z [(1%Z, 3186); (1%Z, 10180); (1%Z, 9739); ((-1)%Z, 10244); ((-2)%Z, 9738)] 590295810358705651712%Z 576460752303423488%Z;
  Lin [3185; 10179; 9738] [16399; 10243; 16398; 16397; 16396; 9737] 0%Z [(1%Z, 3185); (1%Z, 10179); (1%Z, 9738); ((-1)%Z, 10243); ((-2)%Z, 9737)] 295147905179352825856%Z 1152921504606846976%Z;
  Lin [3184; 10178; 9737] [16395; 10242; 16394; 16393; 16392; 9736] 0%Z [(1%Z, 3184); (1%Z, 10178); (1%Z, 9737); ((-1)%Z, 10242); ((-2)%Z, 9736)] 147573952589676412928%Z 2305843009213693952%Z;
  Lin [3183; 10177; 9736] [16391; 10241; 16390; 16389; 16388; 9735] 0%Z [(1%Z, 3183); (1%Z, 10177); (1%Z, 9736); ((-1)%Z, 10241); ((-2)%Z, 9735)] 73786976294838206464%Z 4611686018427387904%Z;
  Lin [3182; 10176; 9735] [16387; 10240; 16386; 16385; 16384; 9734] 0%Z [(1%Z, 3182); (1%Z, 10176); (1%Z, 9735); ((-1)%Z, 10240); ((-2)%Z, 9734)] 36893488147419103232%Z 9223372036854775808%Z;
  Lin [3181; 10175; 9734] [16383; 10239; 16382; 16381; 16380; 9733] 0%Z [(1%Z, 3181); (1%Z, 10175); (1%Z, 9734); ((-1)%Z, 10239); ((-2)%Z, 9733)] 18446744073709551616%Z 18446744073709551616%Z;
  Lin [3180; 10174; 9733] [16379; 10238; 16378; 16377; 16376; 9732] 0%Z [(1%Z, 3180); (1%Z, 10174); (1%Z, 9733); ((-1)%Z, 10238); ((-2)%Z, 9732)] 9223372036854775808%Z 36893488147419103232%Z;
  Lin [3179; 10173; 9732] [16375; 10237; 16374; 16373; 16372; 9731] 0%Z [(1%Z, 3179); (1%Z, 10173); (1%Z, 9732); ((-1)%Z, 10237); ((-2)%Z, 9731)] 4611686018427387904%Z 73786976294838206464%Z;
  Lin [3178; 10172; 9731] [16371; 10236; 16370; 16369; 16368; 9730] 0%Z [(1%Z, 3178); (1%Z, 10172); (1%Z, 9731); ((-1)%Z, 10236); ((-2)%Z, 9730)] 2305843009213693952%Z 147573952589676412928%Z;
  Lin [3177; 10171; 9730] [16367; 10235; 16366; 16365; 16364; 9729] 0%Z [(1%Z, 3177); (1%Z, 10171); (1%Z, 9730); ((-1)%Z, 10235); ((-2)%Z, 9729)] 1152921504606846976%Z 295147905179352825856%Z;
  Lin [3176; 10170; 9729] [16363; 10234; 16362; 16361; 16360; 9728] 0%Z [(1%Z, 3176); (1%Z, 10170); (1%Z, 9729); ((-1)%Z, 10234); ((-2)%Z, 9728)] 576460752303423488%Z 590295810358705651712%Z;
  Lin [3175; 10169; 9728] [16359; 10233; 16358; 16357; 16356; 9727] 0%Z [(1%Z, 3175); (1%Z, 10169); (1%Z, 9728); ((-1)%Z, 10233); ((-2)%Z, 9727)] 288230376151711744%Z 1180591620717411303424%Z;
  Lin [3174; 10168; 9727] [16355; 10232; 16354; 16353; 16352; 9726] 0%Z [(1%Z, 3174); (1%Z, 10168); (1%Z, 9727); ((-1)%Z, 10232); ((-2)%Z, 9726)] 144115188075855872%Z 2361183241434822606848%Z;
  Lin [3173; 10167; 9726] [16351; 10231; 16350; 16349; 16348; 9725] 0%Z [(1%Z, 3173); (1%Z, 10167); (1%Z, 9726); ((-1)%Z, 10231); ((-2)%Z, 9725)] 72057594037927936%Z 4722366482869645213696%Z;
  Lin [3172; 10166; 9725] [16347; 10230; 16346; 16345; 16344; 9724] 0%Z [(1%Z, 3172); (1%Z, 10166); (1%Z, 9725); ((-1)%Z, 10230); ((-2)%Z, 9724)] 36028797018963968%Z 9444732965739290427392%Z;
  Lin [3171; 10165; 9724] [16343; 10229; 16342; 16341; 16340; 9723] 0%Z [(1%Z, 3171); (1%Z, 10165); (1%Z, 9724); ((-1)%Z, 10229); ((-2)%Z, 9723)] 18014398509481984%Z 18889465931478580854784%Z;
  Lin [3170; 10164; 9723] [16339; 10228; 16338; 16337; 16336; 9722] 0%Z [(1%Z, 3170); (1%Z, 10164); (1%Z, 9723); ((-1)%Z, 10228); ((-2)%Z, 9722)] 9007199254740992%Z 37778931862957161709568%Z;
  Lin [3169; 10163; 9722] [16335; 10227; 16334; 16333; 16332; 9721] 0%Z [(1%Z, 3169); (1%Z, 10163); (1%Z, 9722); ((-1)%Z, 10227); ((-2)%Z, 9721)] 4503599627370496%Z 75557863725914323419136%Z;
  Lin [3168; 10162; 9721] [16331; 10226; 16330; 16329; 16328; 9720] 0%Z [(1%Z, 3168); (1%Z, 10162); (1%Z, 9721); ((-1)%Z, 10226); ((-2)%Z, 9720)] 2251799813685248%Z 151115727451828646838272%Z;
  Lin [3167; 10161; 9720] [16327; 10225; 16326; 16325; 16324; 9719] 0%Z [(1%Z, 3167); (1%Z, 10161); (1%Z, 9720); ((-1)%Z, 10225); ((-2)%Z, 9719)] 1125899906842624%Z 302231454903657293676544%Z;
  Lin [3166; 10160; 9719] [16323; 10224; 16322; 16321; 16320; 9718] 0%Z [(1%Z, 3166); (1%Z, 10160); (1%Z, 9719); ((-1)%Z, 10224); ((-2)%Z, 9718)] 562949953421312%Z 604462909807314587353088%Z;
  Lin [3165; 10159; 9718] [16319; 10223; 16318; 16317; 16316; 9717] 0%Z [(1%Z, 3165); (1%Z, 10159); (1%Z, 9718); ((-1)%Z, 10223); ((-2)%Z, 9717)] 281474976710656%Z 1208925819614629174706176%Z;
  Lin [3164; 10158; 9717] [16315; 10222; 16314; 16313; 16312; 9716] 0%Z [(1%Z, 3164); (1%Z, 10158); (1%Z, 9717); ((-1)%Z, 10222); ((-2)%Z, 9716)] 140737488355328%Z 2417851639229258349412352%Z;
  Lin [3163; 10157; 9716] [16311; 10221; 16310; 16309; 16308; 9715] 0%Z [(1%Z, 3163); (1%Z, 10157); (1%Z, 9716); ((-1)%Z, 10221); ((-2)%Z, 9715)] 70368744177664%Z 4835703278458516698824704%Z;
  Lin [3162; 10156; 9715] [16307; 10220; 16306; 16305; 16304; 9714] 0%Z [(1%Z, 3162); (1%Z, 10156); (1%Z, 9715); ((-1)%Z, 10220); ((-2)%Z, 9714)] 35184372088832%Z 9671406556917033397649408%Z;
  Lin [3161; 10155; 9714] [16303; 10219; 16302; 16301; 16300; 9713] 0%Z [(1%Z, 3161); (1%Z, 10155); (1%Z, 9714); ((-1)%Z, 10219); ((-2)%Z, 9713)] 17592186044416%Z 19342813113834066795298816%Z;
  Lin [3160; 10154; 9713] [16299; 10218; 16298; 16297; 16296; 9712] 0%Z [(1%Z, 3160); (1%Z, 10154); (1%Z, 9713); ((-1)%Z, 10218); ((-2)%Z, 9712)] 8796093022208%Z 38685626227668133590597632%Z;
  Lin [3159; 10153; 9712] [16295; 10217; 16294; 16293; 16292; 9711] 0%Z [(1%Z, 3159); (1%Z, 10153); (1%Z, 9712); ((-1)%Z, 10217); ((-2)%Z, 9711)] 4398046511104%Z 77371252455336267181195264%Z;
  Lin [3158; 10152; 9711] [16291; 10216; 16290; 16289; 16288; 9710] 0%Z [(1%Z, 3158); (1%Z, 10152); (1%Z, 9711); ((-1)%Z, 10216); ((-2)%Z, 9710)] 2199023255552%Z 154742504910672534362390528%Z;
  Lin [3157; 10151; 9710] [16287; 10215; 16286; 16285; 16284; 9709] 0%Z [(1%Z, 3157); (1%Z, 10151); (1%Z, 9710); ((-1)%Z, 10215); ((-2)%Z, 9709)] 1099511627776%Z 309485009821345068724781056%Z;
  Lin [3156; 10150; 9709] [16283; 10214; 16282; 16281; 16280; 9708] 0%Z [(1%Z, 3156); (1%Z, 10150); (1%Z, 9709); ((-1)%Z, 10214); ((-2)%Z, 9708)] 549755813888%Z 618970019642690137449562112%Z;
  Lin [3155; 10149; 9708] [16279; 10213; 16278; 16277; 16276; 9707] 0%Z [(1%Z, 3155); (1%Z, 10149); (1%Z, 9708); ((-1)%Z, 10213); ((-2)%Z, 9707)] 274877906944%Z 1237940039285380274899124224%Z;
  Lin [3154; 10148; 9707] [16275; 10212; 16274; 16273; 16272; 9706] 0%Z [(1%Z, 3154); (1%Z, 10148); (1%Z, 9707); ((-1)%Z, 10212); ((-2)%Z, 9706)] 137438953472%Z 2475880078570760549798248448%Z;
  Lin [3153; 10147; 9706] [16271; 10211; 16270; 16269; 16268; 9705] 0%Z [(1%Z, 3153); (1%Z, 10147); (1%Z, 9706); ((-1)%Z, 10211); ((-2)%Z, 9705)] 68719476736%Z 4951760157141521099596496896%Z;
  Lin [3152; 10146; 9705] [16267; 10210; 16266; 16265; 16264; 9704] 0%Z [(1%Z, 3152); (1%Z, 10146); (1%Z, 9705); ((-1)%Z, 10210); ((-2)%Z, 9704)] 34359738368%Z 9903520314283042199192993792%Z;
  Lin [3151; 10145; 9704] [16263; 10209; 16262; 16261; 16260; 9703] 0%Z [(1%Z, 3151); (1%Z, 10145); (1%Z, 9704); ((-1)%Z, 10209); ((-2)%Z, 9703)] 17179869184%Z 19807040628566084398385987584%Z;
  Lin [3150; 10144; 9703] [16259; 10208; 16258; 16257; 16256; 9702] 0%Z [(1%Z, 3150); (1%Z, 10144); (1%Z, 9703); ((-1)%Z, 10208); ((-2)%Z, 9702)] 8589934592%Z 39614081257132168796771975168%Z;
  Lin [3149; 10143; 9702] [16255; 10207; 16254; 16253; 16252; 9701] 0%Z [(1%Z, 3149); (1%Z, 10143); (1%Z, 9702); ((-1)%Z, 10207); ((-2)%Z, 9701)] 4294967296%Z 79228162514264337593543950336%Z;
  Lin [3148; 10142; 9701] [16251; 10206; 16250; 16249; 16248; 9700] 0%Z [(1%Z, 3148); (1%Z, 10142); (1%Z, 9701); ((-1)%Z, 10206); ((-2)%Z, 9700)] 2147483648%Z 158456325028528675187087900672%Z;
  Lin [3147; 10141; 9700] [16247; 10205; 16246; 16245; 16244; 9699] 0%Z [(1%Z, 3147); (1%Z, 10141); (1%Z, 9700); ((-1)%Z, 10205); ((-2)%Z, 9699)] 1073741824%Z 316912650057057350374175801344%Z;
  Lin [3146; 10140; 9699] [16243; 10204; 16242; 16241; 16240; 9698] 0%Z [(1%Z, 3146); (1%Z, 10140); (1%Z, 9699); ((-1)%Z, 10204); ((-2)%Z, 9698)] 536870912%Z 633825300114114700748351602688%Z;
  Lin [3145; 10139; 9698] [16239; 10203; 16238; 16237; 16236; 9697] 0%Z [(1%Z, 3145); (1%Z, 10139); (1%Z, 9698); ((-1)%Z, 10203); ((-2)%Z, 9697)] 268435456%Z 1267650600228229401496703205376%Z;
  Lin [3144; 10138; 9697] [16235; 10202; 16234; 16233; 16232; 9696] 0%Z [(1%Z, 3144); (1%Z, 10138); (1%Z, 9697); ((-1)%Z, 10202); ((-2)%Z, 9696)] 134217728%Z 2535301200456458802993406410752%Z;
  Lin [3143; 10137; 9696] [16231; 10201; 16230; 16229; 16228; 9695] 0%Z [(1%Z, 3143); (1%Z, 10137); (1%Z, 9696); ((-1)%Z, 10201); ((-2)%Z, 9695)] 67108864%Z 5070602400912917605986812821504%Z].
Definition mult2_64_facts_30 : list lin_fact := [
  Lin [3142; 10136; 9695] [16227; 10200; 16226; 16225; 16224; 9694] 0%Z [(1%Z, 3142); (1%Z, 10136); (1%Z, 9695); ((-1)%Z, 10200); ((-2)%Z, 9694)] 33554432%Z 10141204801825835211973625643008%Z;
  Lin [3141; 10135; 9694] [16223; 10199; 16222; 16221; 16220; 9693] 0%Z [(1%Z, 3141); (1%Z, 10135); (1%Z, 9694); ((-1)%Z, 10199); ((-2)%Z, 9693)] 16777216%Z 20282409603651670423947251286016%Z;
  Lin [3140; 10134; 9693] [16219; 10198; 16218; 16217; 16216; 9692] 0%Z [(1%Z, 3140); (1%Z, 10134); (1%Z, 9693); ((-1)%Z, 10198); ((-2)%Z, 9692)] 8388608%Z 40564819207303340847894502572032%Z;
  Lin [3139; 10133; 9692] [16215; 10197; 16214; 16213; 16212; 9691] 0%Z [(1%Z, 3139); (1%Z, 10133); (1%Z, 9692); ((-1)%Z, 10197); ((-2)%Z, 9691)] 4194304%Z 81129638414606681695789005144064%Z;
  Lin [3138; 10132; 9691] [16211; 10196; 16210; 16209; 16208; 9690] 0%Z [(1%Z, 3138); (1%Z, 10132); (1%Z, 9691); ((-1)%Z, 10196); ((-2)%Z, 9690)] 2097152%Z 162259276829213363391578010288128%Z;
  Lin [3137; 10131; 9690] [16207; 10195; 16206; 16205; 16204; 9689] 0%Z [(1%Z, 3137); (1%Z, 10131); (1%Z, 9690); ((-1)%Z, 10195); ((-2)%Z, 9689)] 1048576%Z 324518553658426726783156020576256%Z;
  Lin [3136; 10130; 9689] [16203; 10194; 16202; 16201; 16200; 9688] 0%Z [(1%Z, 3136); (1%Z, 10130); (1%Z, 9689); ((-1)%Z, 10194); ((-2)%Z, 9688)] 524288%Z 649037107316853453566312041152512%Z;
  Lin [3135; 9623; 9688] [16199; 10193; 16198; 16197; 16196; 9687] 0%Z [(1%Z, 3135); (1%Z, 9623); (1%Z, 9688); ((-1)%Z, 10193); ((-2)%Z, 9687)] 262144%Z 1298074214633706907132624082305024%Z;
  Lin [3262; 10255] [28144; 9814] 0%Z [(1%Z, 3262); (1%Z, 10255); ((-1)%Z, 28144); ((-2)%Z, 9814)] 1208925819614629174706176%Z 281474976710656%Z;
  Lin [3261; 10254; 9814] [16195; 10318; 16194; 16193; 16192; 9813] 0%Z [(1%Z, 3261); (1%Z, 10254); (1%Z, 9814); ((-1)%Z, 10318); ((-2)%Z, 9813)] 604462909807314587353088%Z 562949953421312%Z;
  Lin [3326; 10318] [28145; 10382] 0%Z [(1%Z, 3326); (1%Z, 10318); ((-1)%Z, 28145); ((-2)%Z, 10382)] 604462909807314587353088%Z 562949953421312%Z;
  Lin [3260; 10253; 9813] [16191; 10317; 16190; 16189; 16188; 9812] 0%Z [(1%Z, 3260); (1%Z, 10253); (1%Z, 9813); ((-1)%Z, 10317); ((-2)%Z, 9812)] 302231454903657293676544%Z 1125899906842624%Z;
  Lin [3259; 10252; 9812] [16187; 10316; 16186; 16185; 16184; 9811] 0%Z [(1%Z, 3259); (1%Z, 10252); (1%Z, 9812); ((-1)%Z, 10316); ((-2)%Z, 9811)] 151115727451828646838272%Z 2251799813685248%Z;
  Lin [3258; 10251; 9811] [16183; 10315; 16182; 16181; 16180; 9810] 0%Z [(1%Z, 3258); (1%Z, 10251); (1%Z, 9811); ((-1)%Z, 10315); ((-2)%Z, 9810)] 75557863725914323419136%Z 4503599627370496%Z;
  Lin [3257; 10250; 9810] [16179; 10314; 16178; 16177; 16176; 9809] 0%Z [(1%Z, 3257); (1%Z, 10250); (1%Z, 9810); ((-1)%Z, 10314); ((-2)%Z, 9809)] 37778931862957161709568%Z 9007199254740992%Z;
  Lin [3256; 10249; 9809] [16175; 10313; 16174; 16173; 16172; 9808] 0%Z [(1%Z, 3256); (1%Z, 10249); (1%Z, 9809); ((-1)%Z, 10313); ((-2)%Z, 9808)] 18889465931478580854784%Z 18014398509481984%Z;
  Lin [3255; 10248; 9808] [16171; 10312; 16170; 16169; 16168; 9807] 0%Z [(1%Z, 3255); (1%Z, 10248); (1%Z, 9808); ((-1)%Z, 10312); ((-2)%Z, 9807)] 9444732965739290427392%Z 36028797018963968%Z;
  Lin [3254; 10247; 9807] [16167; 10311; 16166; 16165; 16164; 9806] 0%Z [(1%Z, 3254); (1%Z, 10247); (1%Z, 9807); ((-1)%Z, 10311); ((-2)%Z, 9806)] 4722366482869645213696%Z 72057594037927936%Z;
  Lin [3253; 10246; 9806] [16163; 10310; 16162; 16161; 16160; 9805] 0%Z [(1%Z, 3253); (1%Z, 10246); (1%Z, 9806); ((-1)%Z, 10310); ((-2)%Z, 9805)] 2361183241434822606848%Z 144115188075855872%Z;
  Lin [3252; 10245; 9805] [16159; 10309; 16158; 16157; 16156; 9804] 0%Z [(1%Z, 3252); (1%Z, 10245); (1%Z, 9805); ((-1)%Z, 10309); ((-2)%Z, 9804)] 1180591620717411303424%Z 288230376151711744%Z;
  Lin [3251; 10244; 9804] [16155; 10308; 16154; 16153; 16152; 9803] 0%Z [(1%Z, 3251); (1%Z, 10244); (1%Z, 9804); ((-1)%Z, 10308); ((-2)%Z, 9803)] 590295810358705651712%Z 576460752303423488%Z;
  Lin [3250; 10243; 9803] [16151; 10307; 16150; 16149; 16148; 9802] 0%Z [(1%Z, 3250); (1%Z, 10243); (1%Z, 9803); ((-1)%Z, 10307); ((-2)%Z, 9802)] 295147905179352825856%Z 1152921504606846976%Z;
  Lin [3249; 10242; 9802] [16147; 10306; 16146; 16145; 16144; 9801] 0%Z [(1%Z, 3249); (1%Z, 10242); (1%Z, 9802); ((-1)%Z, 10306); ((-2)%Z, 9801)] 147573952589676412928%Z 2305843009213693952%Z;
  Lin [3248; 10241; 9801] [16143; 10305; 16142; 16141; 16140; 9800] 0%Z [(1%Z, 3248); (1%Z, 10241); (1%Z, 9801); ((-1)%Z, 10305); ((-2)%Z, 9800)] 73786976294838206464%Z 4611686018427387904%Z;
  Lin [3247; 10240; 9800] [16139; 10304; 16138; 16137; 16136; 9799] 0%Z [(1%Z, 3247); (1%Z, 10240); (1%Z, 9800); ((-1)%Z, 10304); ((-2)%Z, 9799)] 36893488147419103232%Z 9223372036854775808%Z;
  Lin [3246; 10239; 9799] [16135; 10303; 16134; 16133; 16132; 9798] 0%Z [(1%Z, 3246); (1%Z, 10239); (1%Z, 9799); ((-1)%Z, 10303); ((-2)%Z, 9798)] 18446744073709551616%Z 18446744073709551616%Z;
  Lin [3245; 10238; 9798] [16131; 10302; 16130; 16129; 16128; 9797] 0%Z [(1%Z, 3245); (1%Z, 10238); (1%Z, 9798); ((-1)%Z, 10302); ((-2)%Z, 9797)] 9223372036854775808%Z 36893488147419103232%Z;
  Lin [3244; 10237; 9797] [16127; 10301; 16126; 16125; 16124; 9796] 0%Z [(1%Z, 3244); (1%Z, 10237); (1%Z, 9797); ((-1)%Z, 10301); ((-2)%Z, 9796)] 4611686018427387904%Z 73786976294838206464%Z;
  Lin [3243; 10236; 9796] [16123; 10300; 16122; 16121; 16120; 9795] 0%Z [(1%Z, 3243); (1%Z, 10236); (1%Z, 9796); ((-1)%Z, 10300); ((-2)%Z, 9795)] 2305843009213693952%Z 147573952589676412928%Z;
  Lin [3242; 10235; 9795] [16119; 10299; 16118; 16117; 16116; 9794] 0%Z [(1%Z, 3242); (1%Z, 10235); (1%Z, 9795); ((-1)%Z, 10299); ((-2)%Z, 9794)] 1152921504606846976%Z 295147905179352825856%Z;
  Lin [3241; 10234; 9794] [16115; 10298; 16114; 16113; 16112; 9793] 0%Z [(1%Z, 3241); (1%Z, 10234); (1%Z, 9794); ((-1)%Z, 10298); ((-2)%Z, 9793)] 576460752303423488%Z 590295810358705651712%Z;
  Lin [3240; 10233; 9793] [16111; 10297; 16110; 16109; 16108; 9792] 0%Z [(1%Z, 3240); (1%Z, 10233); (1%Z, 9793); ((-1)%Z, 10297); ((-2)%Z, 9792)] 288230376151711744%Z 1180591620717411303424%Z;
  Lin [3239; 10232; 9792] [16107; 10296; 16106; 16105; 16104; 9791] 0%Z [(1%Z, 3239); (1%Z, 10232); (1%Z, 9792); ((-1)%Z, 10296); ((-2)%Z, 9791)] 144115188075855872%Z 2361183241434822606848%Z;
  Lin [3238; 10231; 9791] [16103; 10295; 16102; 16101; 16100; 9790] 0%Z [(1%Z, 3238); (1%Z, 10231); (1%Z, 9791); ((-1)%Z, 10295); ((-2)%Z, 9790)] 72057594037927936%Z 4722366482869645213696%Z;
  Lin [3237; 10230; 9790] [16099; 10294; 16098; 16097; 16096; 9789] 0%Z [(1%Z, 3237); (1%Z, 10230); (1%Z, 9790); ((-1)%Z, 10294); ((-2)%Z, 9789)] 36028797018963968%Z 9444732965739290427392%Z;
  Lin [3236; 10229; 9789] [16095; 10293; 16094; 16093; 16092; 9788] 0%Z [(1%Z, 3236); (1%Z, 10229); (1%Z, 9789); ((-1)%Z, 10293); ((-2)%Z, 9788)] 18014398509481984%Z 18889465931478580854784%Z;
  Lin [3235; 10228; 9788] [16091; 10292; 16090; 16089; 16088; 9787] 0%Z [(1%Z, 3235); (1%Z, 10228); (1%Z, 9788); ((-1)%Z, 10292); ((-2)%Z, 9787)] 9007199254740992%Z 37778931862957161709568%Z;
  Lin [3234; 10227; 9787] [16087; 10291; 16086; 16085; 16084; 9786] 0%Z [(1%Z, 3234); (1%Z, 10227); (1%Z, 9787); ((-1)%Z, 10291); ((-2)%Z, 9786)] 4503599627370496%Z 75557863725914323419136%Z;
  Lin [3233; 10226; 9786] [16083; 10290; 16082; 16081; 16080; 9785] 0%Z [(1%Z, 3233); (1%Z, 10226); (1%Z, 9786); ((-1)%Z, 10290); ((-2)%Z, 9785)] 2251799813685248%Z 151115727451828646838272%Z;
  Lin [3232; 10225; 9785] [16079; 10289; 16078; 16077; 16076; 9784] 0%Z [(1%Z, 3232); (1%Z, 10225); (1%Z, 9785); ((-1)%Z, 10289); ((-2)%Z, 9784)] 1125899906842624%Z 302231454903657293676544%Z;
  Lin [3231; 10224; 9784] [16075; 10288; 16074; 16073; 16072; 9783] 0%Z [(1%Z, 3231); (1%Z, 10224); (1%Z, 9784); ((-1)%Z, 10288); ((-2)%Z, 9783)] 562949953421312%Z 604462909807314587353088%Z;
  Lin [3230; 10223; 9783] [16071; 10287; 16070; 16069; 16068; 9782] 0%Z [(1%Z, 3230); (1%Z, 10223); (1%Z, 9783); ((-1)%Z, 10287); ((-2)%Z, 9782)] 281474976710656%Z 1208925819614629174706176%Z;
  Lin [3229; 10222; 9782] [16067; 10286; 16066; 16065; 16064; 9781] 0%Z [(1%Z, 3229); (1%Z, 10222); (1%Z, 9782); ((-1)%Z, 10286); ((-2)%Z, 9781)] 140737488355328%Z 2417851639229258349412352%Z;
  Lin [3228; 10221; 9781] [16063; 10285; 16062; 16061; 16060; 9780] 0%Z [(1%Z, 3228); (1%Z, 10221); (1%Z, 9781); ((-1)%Z, 10285); ((-2)%Z, 9780)] 70368744177664%Z 4835703278458516698824704%Z;
  Lin [3227; 10220; 9780] [16059; 10284; 16058; 16057; 16056; 9779] 0%Z [(1%Z, 3227); (1%Z, 10220); (1%Z, 9780); ((-1)%Z, 10284); ((-2)%Z, 9779)] 35184372088832%Z 9671406556917033397649408%Z;
  Lin [3226; 10219; 9779] [16055; 10283; 16054; 16053; 16052; 9778] 0%Z [(1%Z, 3226); (1%Z, 10219); (1%Z, 9779); ((-1)%Z, 10283); ((-2)%Z, 9778)] 17592186044416%Z 19342813113834066795298816%Z;
  Lin [3225; 10218; 9778] [16051; 10282; 16050; 16049; 16048; 9777] 0%Z [(1%Z, 3225); (1%Z, 10218); (1%Z, 9778); ((-1)%Z, 10282); ((-2)%Z, 9777)] 8796093022208%Z 38685626227668133590597632%Z;
  Lin [3224; 10217; 9777] [16047; 10281; 16046; 16045; 16044; 9776] 0%Z [(1%Z, 3224); (1%Z, 10217); (1%Z, 9777); ((-1)%Z, 10281); ((-2)%Z, 9776)] 4398046511104%Z 77371252455336267181195264%Z;
  Lin [3223; 10216; 9776] [16043; 10280; 16042; 16041; 16040; 9775] 0%Z [(1%Z, 3223); (1%Z, 10216); (1%Z, 9776); ((-1)%Z, 10280); ((-2)%Z, 9775)] 2199023255552%Z 154742504910672534362390528%Z;
  Lin [3222; 10215; 9775] [16039; 10279; 16038; 16037; 16036; 9774] 0%Z [(1%Z, 3222); (1%Z, 10215); (1%Z, 9775); ((-1)%Z, 10279); ((-2)%Z, 9774)] 1099511627776%Z 309485009821345068724781056%Z;
  Lin [3221; 10214; 9774] [16035; 10278; 16034; 16033; 16032; 9773] 0%Z [(1%Z, 3221); (1%Z, 10214); (1%Z, 9774); ((-1)%Z, 10278); ((-2)%Z, 9773)] 549755813888%Z 618970019642690137449562112%Z;
  Lin [3220; 10213; 9773] [16031; 10277; 16030; 16029; 16028; 9772] 0%Z [(1%Z, 3220); (1%Z, 10213); (1%Z, 9773); ((-1)%Z, 10277); ((-2)%Z, 9772)] 274877906944%Z 1237940039285380274899124224%Z;
  Lin [3219; 10212; 9772] [16027; 10276; 16026; 16025; 16024; 9771] 0%Z [(1%Z, 3219); (1%Z, 10212); (1%Z, 9772); ((-1)%Z, 10276); ((-2)%Z, 9771)] 137438953472%Z 2475880078570760549798248448%Z;
  Lin [3218; 10211; 9771] [16023; 10275; 16022; 16021; 16020; 9770] 0%Z [(1%Z, 3218); (1%Z, 10211); (1%Z, 9771); ((-1)%Z, 10275); ((-2)%Z, 9770)] 68719476736%Z 4951760157141521099596496896%Z;
  Lin [3217; 10210; 9770] [16019; 10274; 16018; 16017; 16016; 9769] 0%Z [(1%Z, 3217); (1%Z, 10210); (1%Z, 9770); ((-1)%Z, 10274); ((-2)%Z, 9769)] 34359738368%Z 9903520314283042199192993792%Z;
  Lin [3216; 10209; 9769] [16015; 10273; 16014; 16013; 16012; 9768] 0%Z [(1%Z, 3216); (1%Z, 10209); (1%Z, 9769); ((-1)%Z, 10273); ((-2)%Z, 9768)] 17179869184%Z 19807040628566084398385987584%Z;
  Lin [3215; 10208; 9768] [16011; 10272; 16010; 16009; 16008; 9767] 0%Z [(1%Z, 3215); (1%Z, 10208); (1%Z, 9768); ((-1)%Z, 10272); ((-2)%Z, 9767)] 8589934592%Z 39614081257132168796771975168%Z;
  Lin [3214; 10207; 9767] [16007; 10271; 16006; 16005; 16004; 9766] 0%Z [(1%Z, 3214); (1%Z, 10207); (1%Z, 9767); ((-1)%Z, 10271); ((-2)%Z, 9766)] 4294967296%Z 79228162514264337593543950336%Z;
  Lin [3213; 10206; 9766] [16003; 10270; 16002; 16001; 16000; 9765] 0%Z [(1%Z, 3213); (1%Z, 10206); (1%Z, 9766); ((-1)%Z, 10270); ((-2)%Z, 9765)] 2147483648%Z 158456325028528675187087900672%Z;
  Lin [3212; 10205; 9765] [15999; 10269; 15998; 15997; 15996; 9764] 0%Z [(1%Z, 3212); (1%Z, 10205); (1%Z, 9765); ((-1)%Z, 10269); ((-2)%Z, 9764)] 1073741824%Z 316912650057057350374175801344%Z;
  Lin [3211; 10204; 9764] [15995; 10268; 15994; 15993; 15992; 9763] 0%Z [(1%Z, 3211); (1%Z, 10204); (1%Z, 9764); ((-1)%Z, 10268); ((-2)%Z, 9763)] 536870912%Z 633825300114114700748351602688%Z;
  Lin [3210; 10203; 9763] [15991; 10267; 15990; 15989; 15988; 9762] 0%Z [(1%Z, 3210); (1%Z, 10203); (1%Z, 9763); ((-1)%Z, 10267); ((-2)%Z, 9762)] 268435456%Z 1267650600228229401496703205376%Z;
  Lin [3209; 10202; 9762] [15987; 10266; 15986; 15985; 15984; 9761] 0%Z [(1%Z, 3209); (1%Z, 10202); (1%Z, 9762); ((-1)%Z, 10266); ((-2)%Z, 9761)] 134217728%Z 2535301200456458802993406410752%Z;
  Lin [3208; 10201; 9761] [15983; 10265; 15982; 15981; 15980; 9760] 0%Z [(1%Z, 3208); (1%Z, 10201); (1%Z, 9761); ((-1)%Z, 10265); ((-2)%Z, 9760)] 67108864%Z 5070602400912917605986812821504%Z;
  Lin [3207; 10200; 9760] [15979; 10264; 15978; 15977; 15976; 9759] 0%Z [(1%Z, 3207); (1%Z, 10200); (1%Z, 9760); ((-1)%Z, 10264); ((-2)%Z, 9759)] 33554432%Z 10141204801825835211973625643008%Z;
  Lin [3206; 10199; 9759] [15975; 10263; 15974; 15973; 15972; 9758] 0%Z [(1%Z, 3206); (1%Z, 10199); (1%Z, 9759); ((-1)%Z, 10263); ((-2)%Z, 9758)] 16777216%Z 20282409603651670423947251286016%Z;
  Lin [3205; 10198; 9758] [15971; 10262; 15970; 15969; 15968; 9757] 0%Z [(1%Z, 3205); (1%Z, 10198); (1%Z, 9758); ((-1)%Z, 10262); ((-2)%Z, 9757)] 8388608%Z 40564819207303340847894502572032%Z;
  Lin [3204; 10197; 9757] [15967; 10261; 15966; 15965; 15964; 9756] 0%Z [(1%Z, 3204); (1%Z, 10197); (1%Z, 9757); ((-1)%Z, 10261); ((-2)%Z, 9756)] 4194304%Z 81129638414606681695789005144064%Z;
  Lin [3203; 10196; 9756] [15963; 10260; 15962; 15961; 15960; 9755] 0%Z [(1%Z, 3203); (1%Z, 10196); (1%Z, 9756); ((-1)%Z, 10260); ((-2)%Z, 9755)] 2097152%Z 162259276829213363391578010288128%Z;
  Lin [3202; 10195; 9755] [15959; 10259; 15958; 15957; 15956; 9754] 0%Z [(1%Z, 3202); (1%Z, 10195); (1%Z, 9755); ((-1)%Z, 10259); ((-2)%Z, 9754)] 1048576%Z 324518553658426726783156020576256%Z;
  Lin [3201; 10194; 9754] [15955; 10258; 15954; 15953; 15952; 9753] 0%Z [(1%Z, 3201); (1%Z, 10194); (1%Z, 9754); ((-1)%Z, 10258); ((-2)%Z, 9753)] 524288%Z 649037107316853453566312041152512%Z;
  Lin [3200; 10193; 9753] [15951; 10257; 15950; 15949; 15948; 9752] 0%Z [(1%Z, 3200); (1%Z, 10193); (1%Z, 9753); ((-1)%Z, 10257); ((-2)%Z, 9752)] 262144%Z 1298074214633706907132624082305024%Z;
  Lin [3199; 9687; 9752] [15947; 10256; 15946; 15945; 15944; 9751] 0%Z [(1%Z, 3199); (1%Z, 9687); (1%Z, 9752); ((-1)%Z, 10256); ((-2)%Z, 9751)] 131072%Z 2596148429267413814265248164610048%Z;
  Lin [3325; 10317; 10382] [15943; 10893; 15942; 15941; 15940; 10381] 0%Z [(1%Z, 3325); (1%Z, 10317); (1%Z, 10382); ((-1)%Z, 10893); ((-2)%Z, 10381)] 302231454903657293676544%Z 1125899906842624%Z;
  Lin [3390; 10893] [28146; 10446] 0%Z [(1%Z, 3390); (1%Z, 10893); ((-1)%Z, 28146); ((-2)%Z, 10446)] 302231454903657293676544%Z 1125899906842624%Z;
  Lin [3324; 10316; 10381] [15939; 10892; 15938; 15937; 15936; 10380] 0%Z [(1%Z, 3324); (1%Z, 10316); (1%Z, 10381); ((-1)%Z, 10892); ((-2)%Z, 10380)] 151115727451828646838272%Z 2251799813685248%Z;
  Lin [3389; 10892; 10446] [15691; 10956; 15690; 15689; 15688; 10445] 0%Z [(1%Z, 3389); (1%Z, 10892); (1%Z, 10446); ((-1)%Z, 10956); ((-2)%Z, 10445)] 151115727451828646838272%Z 2251799813685248%Z;
  Lin [3454; 10956] [28147; 10510] 0%Z [(1%Z, 3454); (1%Z, 10956); ((-1)%Z, 28147); ((-2)%Z, 10510)] 151115727451828646838272%Z 2251799813685248%Z;
  Lin [3323; 10315; 10380] [15935; 10891; 15934; 15933; 15932; 10379] 0%Z [(1%Z, 3323); (1%Z, 10315); (1%Z, 10380); ((-1)%Z, 10891); ((-2)%Z, 10379)] 75557863725914323419136%Z 4503599627370496%Z;
  Lin [3388; 10891; 10445] [15687; 10955; 15686; 15685; 15684; 10444] 0%Z [(1%Z, 3388); (1%Z, 10891); (1%Z, 10445); ((-1)%Z, 10955); ((-2)%Z, 10444)] 75557863725914323419136%Z 4503599627370496%Z;
  Lin [3453; 10955; 10510] [15439; 11019; 15438; 15437; 15436; 10509] 0%Z [(1%Z, 3453); (1%Z, 10955); (1%Z, 10510); ((-1)%Z, 11019); ((-2)%Z, 10509)] 75557863725914323419136%Z 4503599627370496%Z;
  Lin [3518; 11019] [28148; 10574] 0%Z [(1%Z, 3518); (1%Z, 11019); ((-1)%Z, 28148); ((-2)%Z, 10574)] 75557863725914323419136%Z 4503599627370496%Z;
  Lin [3322; 10314; 10379] [15931; 10890; 15930; 15929; 15928; 10378] 0%Z [(1%Z, 3322); (1%Z, 10314); (1%Z, 10379); ((-1)%Z, 10890); ((-2)%Z, 10378)] 37778931862957161709568%Z 9007199254740992%Z;
  Lin [3387; 10890; 10444] [15683; 10954; 15682; 15681; 15680; 10443] 0%Z [(1%Z, 3387); (1%Z, 10890); (1%Z, 10444); ((-1)%Z, 10954); ((-2)%Z, 10443)] 37778931862957161709568%Z 9007199254740992%Z;
  Lin [3452; 10954; 10509] [15435; 11018; 15434; 15433; 15432; 10508] 0%Z [(1%Z, 3452); (1%Z, 10954); (1%Z, 10509); ((-1)%Z, 11018); ((-2)%Z, 10508)] 37778931862957161709568%Z 9007199254740992%Z;
  Lin [3517; 11018; 10574] [15187; 11082; 15186; 15185; 15184; 10573] 0%Z [(1%Z, 3517); (1%Z, 11018); (1%Z, 10574); ((-1)%Z, 11082); ((-2)%Z, 10573)] 37778931862957161709568%Z 9007199254740992%Z;
  Lin [3582; 11082] [28149; 10638] 0%Z [(1%Z, 3582); (1%Z, 11082); ((-1)%Z, 28149); ((-2)%Z, 10638)] 37778931862957161709568%Z 9007199254740992%Z;
  Lin [3321; 10313; 10378] [15927; 10889; 15926; 15925; 15924; 10377] 0%Z [(1%Z, 3321); (1%Z, 10313); (1%Z, 10378); ((-1)%Z, 10889); ((-2)%Z, 10377)] 18889465931478580854784%Z 18014398509481984%Z;
  Lin [3386; 10889; 10443] [15679; 10953; 15678; 15677; 15676; 10442] 0%Z [(1%Z, 3386); (1%Z, 10889); (1%Z, 10443); ((-1)%Z, 10953); ((-2)%Z, 10442)] 18889465931478580854784%Z 18014398509481984%Z;
  Lin [3451; 10953; 10508] [15431; 11017; 15430; 15429; 15428; 10507] 0%Z [(1%Z, 3451); (1%Z, 10953); (1%Z, 10508); ((-1)%Z, 11017); ((-2)%Z, 10507)] 18889465931478580854784%Z 18014398509481984%Z;
  Lin [3516; 11017; 10573] [15183; 11081; 15182; 15181; 15180; 10572] 0%Z [(1%Z, 3516); (1%Z, 11017); (1%Z, 10573); ((-1)%Z, 11081); ((-2)%Z, 10572)] 18889465931478580854784%Z 18014398509481984%Z;
  Lin [3581; 11081; 10638] [14935; 11145; 14934; 14933; 14932; 10637] 0%Z [(1%Z, 3581); (1%Z, 11081); (1%Z, 10638); ((-1)%Z, 11145); ((-2)%Z, 10637)] 18889465931478580854784%Z 18014398509481984%Z;
  Lin [3646; 11145] [28150; 10702] 0%Z [(1%Z, 3646); (1%Z, 11145); ((-1)%Z, 28150); ((-2)%Z, 10702)] 18889465931478580854784%Z 18014398509481984%Z;
  Lin [3320; 10312; 10377] [15923; 10888; 15922; 15921; 15920; 10376] 0%Z [(1%Z, 3320); (1%Z, 10312); (1%Z, 10377); ((-1)%Z, 10888); ((-2)%Z, 10376)] 9444732965739290427392%Z 36028797018963968%Z;
  Lin [3319; 10311; 10376] [15919; 10887; 15918; 15917; 15916; 10375] 0%Z [(1%Z, 3319); (1%Z, 10311); (1%Z, 10376); ((-1)%Z, 10887); ((-2)%Z, 10375)] 4722366482869645213696%Z 72057594037927936%Z;
  Lin [3318; 10310; 10375] [15915; 10886; 15914; 15913; 15912; 10374] 0%Z [(1%Z, 3318); (1%Z, 10310); (1%Z, 10375); ((-1)%Z, 10886); ((-2)%Z, 10374)] 2361183241434822606848%Z 144115188075855872%Z;
  Lin [3317; 10309; 10374] [15911; 10885; 15910; 15909; 15908; 10373] 0%Z [(1%Z, 3317); (1%Z, 10309); (1%Z, 10374); ((-1)%Z, 10885); ((-2)%Z, 10373)] 1180591620717411303424%Z 288230376151711744%Z;
  Lin [3316; 10308; 10373] [15907; 10884; 15906; 15905; 15904; 10372] 0%Z [(1%Z, 3316); (1%Z, 10308); (1%Z, 10373); ((-1)%Z, 10884); ((-2)%Z, 10372)] 590295810358705651712%Z 576460752303423488%Z;
  Lin [3315; 10307; 10372] [15903; 10883; 15902; 15901; 15900; 10371] 0%Z [(1%Z, 3315); (1%Z, 10307); (1%Z, 10372); ((-1)%Z, 10883); ((-2)%Z, 10371)] 295147905179352825856%Z 1152921504606846976%Z;
  Lin [3314; 10306; 10371] [15899; 10882; 15898; 15897; 15896; 10370] 0%Z [(1%Z, 3314); (1%Z, 10306); (1%Z, 10371); ((-1)%Z, 10882); ((-2)%Z, 10370)] 147573952589676412928%Z 2305843009213693952%Z].
Definition mult2_64_facts_31 : list lin_fact := [
  Lin [3313; 10305; 10370] [15895; 10881; 15894; 15893; 15892; 10369] 0%Z [(1%Z, 3313); (1%Z, 10305); (1%Z, 10370); ((-1)%Z, 10881); ((-2)%Z, 10369)] 73786976294838206464%Z 4611686018427387904%Z;
  Lin [3312; 10304; 10369] [15891; 10880; 15890; 15889; 15888; 10368] 0%Z [(1%Z, 3312); (1%Z, 10304); (1%Z, 10369); ((-1)%Z, 10880); ((-2)%Z, 10368)] 36893488147419103232%Z 9223372036854775808%Z;
  Lin [3311; 10303; 10368] [15887; 10879; 15886; 15885; 15884; 10367] 0%Z [(1%Z, 3311); (1%Z, 10303); (1%Z, 10368); ((-1)%Z, 10879); ((-2)%Z, 10367)] 18446744073709551616%Z 18446744073709551616%Z;
  Lin [3310; 10302; 10367] [15883; 10878; 15882; 15881; 15880; 10366] 0%Z [(1%Z, 3310); (1%Z, 10302); (1%Z, 10367); ((-1)%Z, 10878); ((-2)%Z, 10366)] 9223372036854775808%Z 36893488147419103232%Z;
  Lin [3309; 10301; 10366] [15879; 10877; 15878; 15877; 15876; 10365] 0%Z [(1%Z, 3309); (1%Z, 10301); (1%Z, 10366); ((-1)%Z, 10877); ((-2)%Z, 10365)] 4611686018427387904%Z 73786976294838206464%Z;
  Lin [3308; 10300; 10365] [15875; 10876; 15874; 15873; 15872; 10364] 0%Z [(1%Z, 3308); (1%Z, 10300); (1%Z, 10365); ((-1)%Z, 10876); ((-2)%Z, 10364)] 2305843009213693952%Z 147573952589676412928%Z;
  Lin [3307; 10299; 10364] [15871; 10875; 15870; 15869; 15868; 10363] 0%Z [(1%Z, 3307); (1%Z, 10299); (1%Z, 10364); ((-1)%Z, 10875); ((-2)%Z, 10363)] 1152921504606846976%Z 295147905179352825856%Z;
  Lin [3306; 10298; 10363] [15867; 10874; 15866; 15865; 15864; 10362] 0%Z [(1%Z, 3306); (1%Z, 10298); (1%Z, 10363); ((-1)%Z, 10874); ((-2)%Z, 10362)] 576460752303423488%Z 590295810358705651712%Z;
  Lin [3305; 10297; 10362] [15863; 10873; 15862; 15861; 15860; 10361] 0%Z [(1%Z, 3305); (1%Z, 10297); (1%Z, 10362); ((-1)%Z, 10873); ((-2)%Z, 10361)] 288230376151711744%Z 1180591620717411303424%Z;
  Lin [3304; 10296; 10361] [15859; 10872; 15858; 15857; 15856; 10360] 0%Z [(1%Z, 3304); (1%Z, 10296); (1%Z, 10361); ((-1)%Z, 10872); ((-2)%Z, 10360)] 144115188075855872%Z 2361183241434822606848%Z;
  Lin [3303; 10295; 10360] [15855; 10871; 15854; 15853; 15852; 10359] 0%Z [(1%Z, 3303); (1%Z, 10295); (1%Z, 10360); ((-1)%Z, 10871); ((-2)%Z, 10359)] 72057594037927936%Z 4722366482869645213696%Z;
  Lin [3302; 10294; 10359] [15851; 10870; 15850; 15849; 15848; 10358] 0%Z [(1%Z, 3302); (1%Z, 10294); (1%Z, 10359); ((-1)%Z, 10870); ((-2)%Z, 10358)] 36028797018963968%Z 9444732965739290427392%Z;
  Lin [3301; 10293; 10358] [15847; 10869; 15846; 15845; 15844; 10357] 0%Z [(1%Z, 3301); (1%Z, 10293); (1%Z, 10358); ((-1)%Z, 10869); ((-2)%Z, 10357)] 18014398509481984%Z 18889465931478580854784%Z;
  Lin [3300; 10292; 10357] [15843; 10868; 15842; 15841; 15840; 10356] 0%Z [(1%Z, 3300); (1%Z, 10292); (1%Z, 10357); ((-1)%Z, 10868); ((-2)%Z, 10356)] 9007199254740992%Z 37778931862957161709568%Z;
  Lin [3299; 10291; 10356] [15839; 10867; 15838; 15837; 15836; 10355] 0%Z [(1%Z, 3299); (1%Z, 10291); (1%Z, 10356); ((-1)%Z, 10867); ((-2)%Z, 10355)] 4503599627370496%Z 75557863725914323419136%Z;
  Lin [3298; 10290; 10355] [15835; 10866; 15834; 15833; 15832; 10354] 0%Z [(1%Z, 3298); (1%Z, 10290); (1%Z, 10355); ((-1)%Z, 10866); ((-2)%Z, 10354)] 2251799813685248%Z 151115727451828646838272%Z;
  Lin [3297; 10289; 10354] [15831; 10865; 15830; 15829; 15828; 10353] 0%Z [(1%Z, 3297); (1%Z, 10289); (1%Z, 10354); ((-1)%Z, 10865); ((-2)%Z, 10353)] 1125899906842624%Z 302231454903657293676544%Z;
  Lin [3296; 10288; 10353] [15827; 10864; 15826; 15825; 15824; 10352] 0%Z [(1%Z, 3296); (1%Z, 10288); (1%Z, 10353); ((-1)%Z, 10864); ((-2)%Z, 10352)] 562949953421312%Z 604462909807314587353088%Z;
  Lin [3295; 10287; 10352] [15823; 10863; 15822; 15821; 15820; 10351] 0%Z [(1%Z, 3295); (1%Z, 10287); (1%Z, 10352); ((-1)%Z, 10863); ((-2)%Z, 10351)] 281474976710656%Z 1208925819614629174706176%Z;
  Lin [3294; 10286; 10351] [15819; 10862; 15818; 15817; 15816; 10350] 0%Z [(1%Z, 3294); (1%Z, 10286); (1%Z, 10351); ((-1)%Z, 10862); ((-2)%Z, 10350)] 140737488355328%Z 2417851639229258349412352%Z;
  Lin [3293; 10285; 10350] [15815; 10861; 15814; 15813; 15812; 10349] 0%Z [(1%Z, 3293); (1%Z, 10285); (1%Z, 10350); ((-1)%Z, 10861); ((-2)%Z, 10349)] 70368744177664%Z 4835703278458516698824704%Z;
  Lin [3292; 10284; 10349] [15811; 10860; 15810; 15809; 15808; 10348] 0%Z [(1%Z, 3292); (1%Z, 10284); (1%Z, 10349); ((-1)%Z, 10860); ((-2)%Z, 10348)] 35184372088832%Z 9671406556917033397649408%Z;
  Lin [3291; 10283; 10348] [15807; 10859; 15806; 15805; 15804; 10347] 0%Z [(1%Z, 3291); (1%Z, 10283); (1%Z, 10348); ((-1)%Z, 10859); ((-2)%Z, 10347)] 17592186044416%Z 19342813113834066795298816%Z;
  Lin [3290; 10282; 10347] [15803; 10858; 15802; 15801; 15800; 10346] 0%Z [(1%Z, 3290); (1%Z, 10282); (1%Z, 10347); ((-1)%Z, 10858); ((-2)%Z, 10346)] 8796093022208%Z 38685626227668133590597632%Z;
  Lin [3289; 10281; 10346] [15799; 10857; 15798; 15797; 15796; 10345] 0%Z [(1%Z, 3289); (1%Z, 10281); (1%Z, 10346); ((-1)%Z, 10857); ((-2)%Z, 10345)] 4398046511104%Z 77371252455336267181195264%Z;
  Lin [3288; 10280; 10345] [15795; 10856; 15794; 15793; 15792; 10344] 0%Z [(1%Z, 3288); (1%Z, 10280); (1%Z, 10345); ((-1)%Z, 10856); ((-2)%Z, 10344)] 2199023255552%Z 154742504910672534362390528%Z;
  Lin [3287; 10279; 10344] [15791; 10855; 15790; 15789; 15788; 10343] 0%Z [(1%Z, 3287); (1%Z, 10279); (1%Z, 10344); ((-1)%Z, 10855); ((-2)%Z, 10343)] 1099511627776%Z 309485009821345068724781056%Z;
  Lin [3286; 10278; 10343] [15787; 10854; 15786; 15785; 15784; 10342] 0%Z [(1%Z, 3286); (1%Z, 10278); (1%Z, 10343); ((-1)%Z, 10854); ((-2)%Z, 10342)] 549755813888%Z 618970019642690137449562112%Z;
  Lin [3285; 10277; 10342] [15783; 10853; 15782; 15781; 15780; 10341] 0%Z [(1%Z, 3285); (1%Z, 10277); (1%Z, 10342); ((-1)%Z, 10853); ((-2)%Z, 10341)] 274877906944%Z 1237940039285380274899124224%Z;
  Lin [3284; 10276; 10341] [15779; 10852; 15778; 15777; 15776; 10340] 0%Z [(1%Z, 3284); (1%Z, 10276); (1%Z, 10341); ((-1)%Z, 10852); ((-2)%Z, 10340)] 137438953472%Z 2475880078570760549798248448%Z;
  Lin [3283; 10275; 10340] [15775; 10851; 15774; 15773; 15772; 10339] 0%Z [(1%Z, 3283); (1%Z, 10275); (1%Z, 10340); ((-1)%Z, 10851); ((-2)%Z, 10339)] 68719476736%Z 4951760157141521099596496896%Z;
  Lin [3282; 10274; 10339] [15771; 10850; 15770; 15769; 15768; 10338] 0%Z [(1%Z, 3282); (1%Z, 10274); (1%Z, 10339); ((-1)%Z, 10850); ((-2)%Z, 10338)] 34359738368%Z 9903520314283042199192993792%Z;
  Lin [3281; 10273; 10338] [15767; 10849; 15766; 15765; 15764; 10337] 0%Z [(1%Z, 3281); (1%Z, 10273); (1%Z, 10338); ((-1)%Z, 10849); ((-2)%Z, 10337)] 17179869184%Z 19807040628566084398385987584%Z;
  Lin [3280; 10272; 10337] [15763; 10848; 15762; 15761; 15760; 10336] 0%Z [(1%Z, 3280); (1%Z, 10272); (1%Z, 10337); ((-1)%Z, 10848); ((-2)%Z, 10336)] 8589934592%Z 39614081257132168796771975168%Z;
  Lin [3279; 10271; 10336] [15759; 10847; 15758; 15757; 15756; 10335] 0%Z [(1%Z, 3279); (1%Z, 10271); (1%Z, 10336); ((-1)%Z, 10847); ((-2)%Z, 10335)] 4294967296%Z 79228162514264337593543950336%Z;
  Lin [3278; 10270; 10335] [15755; 10846; 15754; 15753; 15752; 10334] 0%Z [(1%Z, 3278); (1%Z, 10270); (1%Z, 10335); ((-1)%Z, 10846); ((-2)%Z, 10334)] 2147483648%Z 158456325028528675187087900672%Z;
  Lin [3277; 10269; 10334] [15751; 10845; 15750; 15749; 15748; 10333] 0%Z [(1%Z, 3277); (1%Z, 10269); (1%Z, 10334); ((-1)%Z, 10845); ((-2)%Z, 10333)] 1073741824%Z 316912650057057350374175801344%Z;
  Lin [3276; 10268; 10333] [15747; 10844; 15746; 15745; 15744; 10332] 0%Z [(1%Z, 3276); (1%Z, 10268); (1%Z, 10333); ((-1)%Z, 10844); ((-2)%Z, 10332)] 536870912%Z 633825300114114700748351602688%Z;
  Lin [3275; 10267; 10332] [15743; 10843; 15742; 15741; 15740; 10331] 0%Z [(1%Z, 3275); (1%Z, 10267); (1%Z, 10332); ((-1)%Z, 10843); ((-2)%Z, 10331)] 268435456%Z 1267650600228229401496703205376%Z;
  Lin [3274; 10266; 10331] [15739; 10842; 15738; 15737; 15736; 10330] 0%Z [(1%Z, 3274); (1%Z, 10266); (1%Z, 10331); ((-1)%Z, 10842); ((-2)%Z, 10330)] 134217728%Z 2535301200456458802993406410752%Z;
  Lin [3273; 10265; 10330] [15735; 10841; 15734; 15733; 15732; 10329] 0%Z [(1%Z, 3273); (1%Z, 10265); (1%Z, 10330); ((-1)%Z, 10841); ((-2)%Z, 10329)] 67108864%Z 5070602400912917605986812821504%Z;
  Lin [3272; 10264; 10329] [15731; 10840; 15730; 15729; 15728; 10328] 0%Z [(1%Z, 3272); (1%Z, 10264); (1%Z, 10329); ((-1)%Z, 10840); ((-2)%Z, 10328)] 33554432%Z 10141204801825835211973625643008%Z;
  Lin [3271; 10263; 10328] [15727; 10839; 15726; 15725; 15724; 10327] 0%Z [(1%Z, 3271); (1%Z, 10263); (1%Z, 10328); ((-1)%Z, 10839); ((-2)%Z, 10327)] 16777216%Z 20282409603651670423947251286016%Z;
  Lin [3270; 10262; 10327] [15723; 10838; 15722; 15721; 15720; 10326] 0%Z [(1%Z, 3270); (1%Z, 10262); (1%Z, 10327); ((-1)%Z, 10838); ((-2)%Z, 10326)] 8388608%Z 40564819207303340847894502572032%Z;
  Lin [3269; 10261; 10326] [15719; 10837; 15718; 15717; 15716; 10325] 0%Z [(1%Z, 3269); (1%Z, 10261); (1%Z, 10326); ((-1)%Z, 10837); ((-2)%Z, 10325)] 4194304%Z 81129638414606681695789005144064%Z;
  Lin [3268; 10260; 10325] [15715; 10836; 15714; 15713; 15712; 10324] 0%Z [(1%Z, 3268); (1%Z, 10260); (1%Z, 10325); ((-1)%Z, 10836); ((-2)%Z, 10324)] 2097152%Z 162259276829213363391578010288128%Z;
  Lin [3267; 10259; 10324] [15711; 10835; 15710; 15709; 15708; 10323] 0%Z [(1%Z, 3267); (1%Z, 10259); (1%Z, 10324); ((-1)%Z, 10835); ((-2)%Z, 10323)] 1048576%Z 324518553658426726783156020576256%Z;
  Lin [3266; 10258; 10323] [15707; 10834; 15706; 15705; 15704; 10322] 0%Z [(1%Z, 3266); (1%Z, 10258); (1%Z, 10323); ((-1)%Z, 10834); ((-2)%Z, 10322)] 524288%Z 649037107316853453566312041152512%Z;
  Lin [3265; 10257; 10322] [15703; 10833; 15702; 15701; 15700; 10321] 0%Z [(1%Z, 3265); (1%Z, 10257); (1%Z, 10322); ((-1)%Z, 10833); ((-2)%Z, 10321)] 262144%Z 1298074214633706907132624082305024%Z;
  Lin [3264; 10256; 10321] [15699; 10832; 15698; 15697; 15696; 10320] 0%Z [(1%Z, 3264); (1%Z, 10256); (1%Z, 10321); ((-1)%Z, 10832); ((-2)%Z, 10320)] 131072%Z 2596148429267413814265248164610048%Z;
  Lin [3263; 9751; 10320] [15695; 10831; 15694; 15693; 15692; 10319] 0%Z [(1%Z, 3263); (1%Z, 9751); (1%Z, 10320); ((-1)%Z, 10831); ((-2)%Z, 10319)] 65536%Z 5192296858534827628530496329220096%Z;
  Lin [3385; 10888; 10442] [15675; 10952; 15674; 15673; 15672; 10441] 0%Z [(1%Z, 3385); (1%Z, 10888); (1%Z, 10442); ((-1)%Z, 10952); ((-2)%Z, 10441)] 9444732965739290427392%Z 36028797018963968%Z;
  Lin [3450; 10952; 10507] [15427; 11016; 15426; 15425; 15424; 10506] 0%Z [(1%Z, 3450); (1%Z, 10952); (1%Z, 10507); ((-1)%Z, 11016); ((-2)%Z, 10506)] 9444732965739290427392%Z 36028797018963968%Z;
  Lin [3515; 11016; 10572] [15179; 11080; 15178; 15177; 15176; 10571] 0%Z [(1%Z, 3515); (1%Z, 11016); (1%Z, 10572); ((-1)%Z, 11080); ((-2)%Z, 10571)] 9444732965739290427392%Z 36028797018963968%Z;
  Lin [3580; 11080; 10637] [14931; 11144; 14930; 14929; 14928; 10636] 0%Z [(1%Z, 3580); (1%Z, 11080); (1%Z, 10637); ((-1)%Z, 11144); ((-2)%Z, 10636)] 9444732965739290427392%Z 36028797018963968%Z;
  Lin [3645; 11144; 10702] [14683; 11208; 14682; 14681; 14680; 10701] 0%Z [(1%Z, 3645); (1%Z, 11144); (1%Z, 10702); ((-1)%Z, 11208); ((-2)%Z, 10701)] 9444732965739290427392%Z 36028797018963968%Z;
  Lin [3710; 11208] [28151; 10766] 0%Z [(1%Z, 3710); (1%Z, 11208); ((-1)%Z, 28151); ((-2)%Z, 10766)] 9444732965739290427392%Z 36028797018963968%Z;
  Lin [3384; 10887; 10441] [15671; 10951; 15670; 15669; 15668; 10440] 0%Z [(1%Z, 3384); (1%Z, 10887); (1%Z, 10441); ((-1)%Z, 10951); ((-2)%Z, 10440)] 4722366482869645213696%Z 72057594037927936%Z;
  Lin [3449; 10951; 10506] [15423; 11015; 15422; 15421; 15420; 10505] 0%Z [(1%Z, 3449); (1%Z, 10951); (1%Z, 10506); ((-1)%Z, 11015); ((-2)%Z, 10505)] 4722366482869645213696%Z 72057594037927936%Z;
  Lin [3514; 11015; 10571] [15175; 11079; 15174; 15173; 15172; 10570] 0%Z [(1%Z, 3514); (1%Z, 11015); (1%Z, 10571); ((-1)%Z, 11079); ((-2)%Z, 10570)] 4722366482869645213696%Z 72057594037927936%Z;
  Lin [3579; 11079; 10636] [14927; 11143; 14926; 14925; 14924; 10635] 0%Z [(1%Z, 3579); (1%Z, 11079); (1%Z, 10636); ((-1)%Z, 11143); ((-2)%Z, 10635)] 4722366482869645213696%Z 72057594037927936%Z;
  Lin [3644; 11143; 10701] [14679; 11207; 14678; 14677; 14676; 10700] 0%Z [(1%Z, 3644); (1%Z, 11143); (1%Z, 10701); ((-1)%Z, 11207); ((-2)%Z, 10700)] 4722366482869645213696%Z 72057594037927936%Z;
  Lin [3709; 11207; 10766] [14431; 11271; 14430; 14429; 14428; 10765] 0%Z [(1%Z, 3709); (1%Z, 11207); (1%Z, 10766); ((-1)%Z, 11271); ((-2)%Z, 10765)] 4722366482869645213696%Z 72057594037927936%Z;
  Lin [3774; 11271] [28152; 10830] 0%Z [(1%Z, 3774); (1%Z, 11271); ((-1)%Z, 28152); ((-2)%Z, 10830)] 4722366482869645213696%Z 72057594037927936%Z;
  Lin [3383; 10886; 10440] [15667; 10950; 15666; 15665; 15664; 10439] 0%Z [(1%Z, 3383); (1%Z, 10886); (1%Z, 10440); ((-1)%Z, 10950); ((-2)%Z, 10439)] 2361183241434822606848%Z 144115188075855872%Z;
  Lin [3448; 10950; 10505] [15419; 11014; 15418; 15417; 15416; 10504] 0%Z [(1%Z, 3448); (1%Z, 10950); (1%Z, 10505); ((-1)%Z, 11014); ((-2)%Z, 10504)] 2361183241434822606848%Z 144115188075855872%Z;
  Lin [3513; 11014; 10570] [15171; 11078; 15170; 15169; 15168; 10569] 0%Z [(1%Z, 3513); (1%Z, 11014); (1%Z, 10570); ((-1)%Z, 11078); ((-2)%Z, 10569)] 2361183241434822606848%Z 144115188075855872%Z;
  Lin [3578; 11078; 10635] [14923; 11142; 14922; 14921; 14920; 10634] 0%Z [(1%Z, 3578); (1%Z, 11078); (1%Z, 10635); ((-1)%Z, 11142); ((-2)%Z, 10634)] 2361183241434822606848%Z 144115188075855872%Z;
  Lin [3643; 11142; 10700] [14675; 11206; 14674; 14673; 14672; 10699] 0%Z [(1%Z, 3643); (1%Z, 11142); (1%Z, 10700); ((-1)%Z, 11206); ((-2)%Z, 10699)] 2361183241434822606848%Z 144115188075855872%Z;
  Lin [3708; 11206; 10765] [14427; 11270; 14426; 14425; 14424; 10764] 0%Z [(1%Z, 3708); (1%Z, 11206); (1%Z, 10765); ((-1)%Z, 11270); ((-2)%Z, 10764)] 2361183241434822606848%Z 144115188075855872%Z;
  Lin [3773; 11270; 10830] [14179; 11334; 14178; 14177; 14176; 10829] 0%Z [(1%Z, 3773); (1%Z, 11270); (1%Z, 10830); ((-1)%Z, 11334); ((-2)%Z, 10829)] 2361183241434822606848%Z 144115188075855872%Z;
  Lin [3838; 11334] [28153; 11398] 0%Z [(1%Z, 3838); (1%Z, 11334); ((-1)%Z, 28153); ((-2)%Z, 11398)] 2361183241434822606848%Z 144115188075855872%Z;
  Lin [3382; 10885; 10439] [15663; 10949; 15662; 15661; 15660; 10438] 0%Z [(1%Z, 3382); (1%Z, 10885); (1%Z, 10439); ((-1)%Z, 10949); ((-2)%Z, 10438)] 1180591620717411303424%Z 288230376151711744%Z;
  Lin [3447; 10949; 10504] [15415; 11013; 15414; 15413; 15412; 10503] 0%Z [(1%Z, 3447); (1%Z, 10949); (1%Z, 10504); ((-1)%Z, 11013); ((-2)%Z, 10503)] 1180591620717411303424%Z 288230376151711744%Z;
  Lin [3512; 11013; 10569] [15167; 11077; 15166; 15165; 15164; 10568] 0%Z [(1%Z, 3512); (1%Z, 11013); (1%Z, 10569); ((-1)%Z, 11077); ((-2)%Z, 10568)] 1180591620717411303424%Z 288230376151711744%Z;
  Lin [3577; 11077; 10634] [14919; 11141; 14918; 14917; 14916; 10633] 0%Z [(1%Z, 3577); (1%Z, 11077); (1%Z, 10634); ((-1)%Z, 11141); ((-2)%Z, 10633)] 1180591620717411303424%Z 288230376151711744%Z;
  Lin [3642; 11141; 10699] [14671; 11205; 14670; 14669; 14668; 10698] 0%Z [(1%Z, 3642); (1%Z, 11141); (1%Z, 10699); ((-1)%Z, 11205); ((-2)%Z, 10698)] 1180591620717411303424%Z 288230376151711744%Z;
  Lin [3707; 11205; 10764] [14423; 11269; 14422; 14421; 14420; 10763] 0%Z [(1%Z, 3707); (1%Z, 11205); (1%Z, 10764); ((-1)%Z, 11269); ((-2)%Z, 10763)] 1180591620717411303424%Z 288230376151711744%Z;
  Lin [3772; 11269; 10829] [14175; 11333; 14174; 14173; 14172; 10828] 0%Z [(1%Z, 3772); (1%Z, 11269); (1%Z, 10829); ((-1)%Z, 11333); ((-2)%Z, 10828)] 1180591620717411303424%Z 288230376151711744%Z;
  Lin [3837; 11333; 11398] [13927; 11844; 13926; 13925; 13924; 11397] 0%Z [(1%Z, 3837); (1%Z, 11333); (1%Z, 11398); ((-1)%Z, 11844); ((-2)%Z, 11397)] 1180591620717411303424%Z 288230376151711744%Z;
  Lin [3902; 11844] [28154; 11462] 0%Z [(1%Z, 3902); (1%Z, 11844); ((-1)%Z, 28154); ((-2)%Z, 11462)] 1180591620717411303424%Z 288230376151711744%Z;
  Lin [3381; 10884; 10438] [15659; 10948; 15658; 15657; 15656; 10437] 0%Z [(1%Z, 3381); (1%Z, 10884); (1%Z, 10438); ((-1)%Z, 10948); ((-2)%Z, 10437)] 590295810358705651712%Z 576460752303423488%Z;
  Lin [3380; 10883; 10437] [15655; 10947; 15654; 15653; 15652; 10436] 0%Z [(1%Z, 3380); (1%Z, 10883); (1%Z, 10437); ((-1)%Z, 10947); ((-2)%Z, 10436)] 295147905179352825856%Z 1152921504606846976%Z;
  Lin [3379; 10882; 10436] [15651; 10946; 15650; 15649; 15648; 10435] 0%Z [(1%Z, 3379); (1%Z, 10882); (1%Z, 10436); ((-1)%Z, 10946); ((-2)%Z, 10435)] 147573952589676412928%Z 2305843009213693952%Z;
  Lin [3378; 10881; 10435] [15647; 10945; 15646; 15645; 15644; 10434] 0%Z [(1%Z, 3378); (1%Z, 10881); (1%Z, 10435); ((-1)%Z, 10945); ((-2)%Z, 10434)] 73786976294838206464%Z 4611686018427387904%Z;
  Lin [3377; 10880; 10434] [15643; 10944; 15642; 15641; 15640; 10433] 0%Z [(1%Z, 3377); (1%Z, 10880); (1%Z, 10434); ((-1)%Z, 10944); ((-2)%Z, 10433)] 36893488147419103232%Z 9223372036854775808%Z;
  Lin [3376; 10879; 10433] [15639; 10943; 15638; 15637; 15636; 10432] 0%Z [(1%Z, 3376); (1%Z, 10879); (1%Z, 10433); ((-1)%Z, 10943); ((-2)%Z, 10432)] 18446744073709551616%Z 18446744073709551616%Z;
  Lin [3375; 10878; 10432] [15635; 10942; 15634; 15633; 15632; 10431] 0%Z [(1%Z, 3375); (1%Z, 10878); (1%Z, 10432); ((-1)%Z, 10942); ((-2)%Z, 10431)] 9223372036854775808%Z 36893488147419103232%Z;
  Lin [3374; 10877; 10431] [15631; 10941; 15630; 15629; 15628; 10430] 0%Z [(1%Z, 3374); (1%Z, 10877); (1%Z, 10431); ((-1)%Z, 10941); ((-2)%Z, 10430)] 4611686018427387904%Z 73786976294838206464%Z;
  Lin [3373; 10876; 10430] [15627; 10940; 15626; 15625; 15624; 10429] 0%Z [(1%Z, 3373); (1%Z, 10876); (1%Z, 10430); ((-1)%Z, 10940); ((-2)%Z, 10429)] 2305843009213693952%Z 147573952589676412928%Z;
  Lin [3372; 10875; 10429] [15623; 10939; 15622; 15621; 15620; 10428] 0%Z [(1%Z, 3372); (1%Z, 10875); (1%Z, 10429); ((-1)%Z, 10939); ((-2)%Z, 10428)] 1152921504606846976%Z 295147905179352825856%Z;
  Lin [3371; 10874; 10428] [15619; 10938; 15618; 15617; 15616; 10427] 0%Z [(1%Z, 3371); (1%Z, 10874); (1%Z, 10428); ((-1)%Z, 10938); ((-2)%Z, 10427)] 576460752303423488%Z 590295810358705651712%Z;
  Lin [3370; 10873; 10427] [15615; 10937; 15614; 15613; 15612; 10426] 0%Z [(1%Z, 3370); (1%Z, 10873); (1%Z, 10427); ((-1)%Z, 10937); ((-2)%Z, 10426)] 288230376151711744%Z 1180591620717411303424%Z;
  Lin [3369; 10872; 10426] [15611; 10936; 15610; 15609; 15608; 10425] 0%Z [(1%Z, 3369); (1%Z, 10872); (1%Z, 10426); ((-1)%Z, 10936); ((-2)%Z, 10425)] 144115188075855872%Z 2361183241434822606848%Z;
  Lin [3368; 10871; 10425] [15607; 10935; 15606; 15605; 15604; 10424] 0%Z [(1%Z, 3368); (1%Z, 10871); (1%Z, 10425); ((-1)%Z, 10935); ((-2)%Z, 10424)] 72057594037927936%Z 4722366482869645213696%Z;
  Lin [3367; 10870; 10424] [15603; 10934; 15602; 15601; 15600; 10423] 0%Z [(1%Z, 3367); (1%Z, 10870); (1%Z, 10424); ((-1)%Z, 10934); ((-2)%Z, 10423)] 36028797018963968%Z 9444732965739290427392%Z;
  Lin [3366; 10869; 10423] [15599; 10933; 15598; 15597; 15596; 10422] 0%Z [(1%Z, 3366); (1%Z, 10869); (1%Z, 10423); ((-1)%Z, 10933); ((-2)%Z, 10422)] 18014398509481984%Z 18889465931478580854784%Z;
  Lin [3365; 10868; 10422] [15595; 10932; 15594; 15593; 15592; 10421] 0%Z [(1%Z, 3365); (1%Z, 10868); (1%Z, 10422); ((-1)%Z, 10932); ((-2)%Z, 10421)] 9007199254740992%Z 37778931862957161709568%Z;
  Lin [3364; 10867; 10421] [15591; 10931; 15590; 15589; 15588; 10420] 0%Z [(1%Z, 3364); (1%Z, 10867); (1%Z, 10421); ((-1)%Z, 10931); ((-2)%Z, 10420)] 4503599627370496%Z 75557863725914323419136%Z;
  Lin [3363; 10866; 10420] [15587; 10930; 15586; 15585; 15584; 10419] 0%Z [(1%Z, 3363); (1%Z, 10866); (1%Z, 10420); ((-1)%Z, 10930); ((-2)%Z, 10419)] 2251799813685248%Z 151115727451828646838272%Z].
Definition mult2_64_facts_32 : list lin_fact := [
  Lin [3362; 10865; 10419] [15583; 10929; 15582; 15581; 15580; 10418] 0%Z [(1%Z, 3362); (1%Z, 10865); (1%Z, 10419); ((-1)%Z, 10929); ((-2)%Z, 10418)] 1125899906842624%Z 302231454903657293676544%Z;
  Lin [3361; 10864; 10418] [15579; 10928; 15578; 15577; 15576; 10417] 0%Z [(1%Z, 3361); (1%Z, 10864); (1%Z, 10418); ((-1)%Z, 10928); ((-2)%Z, 10417)] 562949953421312%Z 604462909807314587353088%Z;
  Lin [3360; 10863; 10417] [15575; 10927; 15574; 15573; 15572; 10416] 0%Z [(1%Z, 3360); (1%Z, 10863); (1%Z, 10417); ((-1)%Z, 10927); ((-2)%Z, 10416)] 281474976710656%Z 1208925819614629174706176%Z;
  Lin [3359; 10862; 10416] [15571; 10926; 15570; 15569; 15568; 10415] 0%Z [(1%Z, 3359); (1%Z, 10862); (1%Z, 10416); ((-1)%Z, 10926); ((-2)%Z, 10415)] 140737488355328%Z 2417851639229258349412352%Z;
  Lin [3358; 10861; 10415] [15567; 10925; 15566; 15565; 15564; 10414] 0%Z [(1%Z, 3358); (1%Z, 10861); (1%Z, 10415); ((-1)%Z, 10925); ((-2)%Z, 10414)] 70368744177664%Z 4835703278458516698824704%Z;
  Lin [3357; 10860; 10414] [15563; 10924; 15562; 15561; 15560; 10413] 0%Z [(1%Z, 3357); (1%Z, 10860); (1%Z, 10414); ((-1)%Z, 10924); ((-2)%Z, 10413)] 35184372088832%Z 9671406556917033397649408%Z;
  Lin [3356; 10859; 10413] [15559; 10923; 15558; 15557; 15556; 10412] 0%Z [(1%Z, 3356); (1%Z, 10859); (1%Z, 10413); ((-1)%Z, 10923); ((-2)%Z, 10412)] 17592186044416%Z 19342813113834066795298816%Z;
  Lin [3355; 10858; 10412] [15555; 10922; 15554; 15553; 15552; 10411] 0%Z [(1%Z, 3355); (1%Z, 10858); (1%Z, 10412); ((-1)%Z, 10922); ((-2)%Z, 10411)] 8796093022208%Z 38685626227668133590597632%Z;
  Lin [3354; 10857; 10411] [15551; 10921; 15550; 15549; 15548; 10410] 0%Z [(1%Z, 3354); (1%Z, 10857); (1%Z, 10411); ((-1)%Z, 10921); ((-2)%Z, 10410)] 4398046511104%Z 77371252455336267181195264%Z;
  Lin [3353; 10856; 10410] [15547; 10920; 15546; 15545; 15544; 10409] 0%Z [(1%Z, 3353); (1%Z, 10856); (1%Z, 10410); ((-1)%Z, 10920); ((-2)%Z, 10409)] 2199023255552%Z 154742504910672534362390528%Z;
  Lin [3352; 10855; 10409] [15543; 10919; 15542; 15541; 15540; 10408] 0%Z [(1%Z, 3352); (1%Z, 10855); (1%Z, 10409); ((-1)%Z, 10919); ((-2)%Z, 10408)] 1099511627776%Z 309485009821345068724781056%Z;
  Lin [3351; 10854; 10408] [15539; 10918; 15538; 15537; 15536; 10407] 0%Z [(1%Z, 3351); (1%Z, 10854); (1%Z, 10408); ((-1)%Z, 10918); ((-2)%Z, 10407)] 549755813888%Z 618970019642690137449562112%Z;
  Lin [3350; 10853; 10407] [15535; 10917; 15534; 15533; 15532; 10406] 0%Z [(1%Z, 3350); (1%Z, 10853); (1%Z, 10407); ((-1)%Z, 10917); ((-2)%Z, 10406)] 274877906944%Z 1237940039285380274899124224%Z;
  Lin [3349; 10852; 10406] [15531; 10916; 15530; 15529; 15528; 10405] 0%Z [(1%Z, 3349); (1%Z, 10852); (1%Z, 10406); ((-1)%Z, 10916); ((-2)%Z, 10405)] 137438953472%Z 2475880078570760549798248448%Z;
  Lin [3348; 10851; 10405] [15527; 10915; 15526; 15525; 15524; 10404] 0%Z [(1%Z, 3348); (1%Z, 10851); (1%Z, 10405); ((-1)%Z, 10915); ((-2)%Z, 10404)] 68719476736%Z 4951760157141521099596496896%Z;
  Lin [3347; 10850; 10404] [15523; 10914; 15522; 15521; 15520; 10403] 0%Z [(1%Z, 3347); (1%Z, 10850); (1%Z, 10404); ((-1)%Z, 10914); ((-2)%Z, 10403)] 34359738368%Z 9903520314283042199192993792%Z;
  Lin [3346; 10849; 10403] [15519; 10913; 15518; 15517; 15516; 10402] 0%Z [(1%Z, 3346); (1%Z, 10849); (1%Z, 10403); ((-1)%Z, 10913); ((-2)%Z, 10402)] 17179869184%Z 19807040628566084398385987584%Z;
  Lin [3345; 10848; 10402] [15515; 10912; 15514; 15513; 15512; 10401] 0%Z [(1%Z, 3345); (1%Z, 10848); (1%Z, 10402); ((-1)%Z, 10912); ((-2)%Z, 10401)] 8589934592%Z 39614081257132168796771975168%Z;
  Lin [3344; 10847; 10401] [15511; 10911; 15510; 15509; 15508; 10400] 0%Z [(1%Z, 3344); (1%Z, 10847); (1%Z, 10401); ((-1)%Z, 10911); ((-2)%Z, 10400)] 4294967296%Z 79228162514264337593543950336%Z;
  Lin [3343; 10846; 10400] [15507; 10910; 15506; 15505; 15504; 10399] 0%Z [(1%Z, 3343); (1%Z, 10846); (1%Z, 10400); ((-1)%Z, 10910); ((-2)%Z, 10399)] 2147483648%Z 158456325028528675187087900672%Z;
  Lin [3342; 10845; 10399] [15503; 10909; 15502; 15501; 15500; 10398] 0%Z [(1%Z, 3342); (1%Z, 10845); (1%Z, 10399); ((-1)%Z, 10909); ((-2)%Z, 10398)] 1073741824%Z 316912650057057350374175801344%Z;
  Lin [3341; 10844; 10398] [15499; 10908; 15498; 15497; 15496; 10397] 0%Z [(1%Z, 3341); (1%Z, 10844); (1%Z, 10398); ((-1)%Z, 10908); ((-2)%Z, 10397)] 536870912%Z 633825300114114700748351602688%Z;
  Lin [3340; 10843; 10397] [15495; 10907; 15494; 15493; 15492; 10396] 0%Z [(1%Z, 3340); (1%Z, 10843); (1%Z, 10397); ((-1)%Z, 10907); ((-2)%Z, 10396)] 268435456%Z 1267650600228229401496703205376%Z;
  Lin [3339; 10842; 10396] [15491; 10906; 15490; 15489; 15488; 10395] 0%Z [(1%Z, 3339); (1%Z, 10842); (1%Z, 10396); ((-1)%Z, 10906); ((-2)%Z, 10395)] 134217728%Z 2535301200456458802993406410752%Z;
  Lin [3338; 10841; 10395] [15487; 10905; 15486; 15485; 15484; 10394] 0%Z [(1%Z, 3338); (1%Z, 10841); (1%Z, 10395); ((-1)%Z, 10905); ((-2)%Z, 10394)] 67108864%Z 5070602400912917605986812821504%Z;
  Lin [3337; 10840; 10394] [15483; 10904; 15482; 15481; 15480; 10393] 0%Z [(1%Z, 3337); (1%Z, 10840); (1%Z, 10394); ((-1)%Z, 10904); ((-2)%Z, 10393)] 33554432%Z 10141204801825835211973625643008%Z;
  Lin [3336; 10839; 10393] [15479; 10903; 15478; 15477; 15476; 10392] 0%Z [(1%Z, 3336); (1%Z, 10839); (1%Z, 10393); ((-1)%Z, 10903); ((-2)%Z, 10392)] 16777216%Z 20282409603651670423947251286016%Z;
  Lin [3335; 10838; 10392] [15475; 10902; 15474; 15473; 15472; 10391] 0%Z [(1%Z, 3335); (1%Z, 10838); (1%Z, 10392); ((-1)%Z, 10902); ((-2)%Z, 10391)] 8388608%Z 40564819207303340847894502572032%Z;
  Lin [3334; 10837; 10391] [15471; 10901; 15470; 15469; 15468; 10390] 0%Z [(1%Z, 3334); (1%Z, 10837); (1%Z, 10391); ((-1)%Z, 10901); ((-2)%Z, 10390)] 4194304%Z 81129638414606681695789005144064%Z;
  Lin [3333; 10836; 10390] [15467; 10900; 15466; 15465; 15464; 10389] 0%Z [(1%Z, 3333); (1%Z, 10836); (1%Z, 10390); ((-1)%Z, 10900); ((-2)%Z, 10389)] 2097152%Z 162259276829213363391578010288128%Z;
  Lin [3332; 10835; 10389] [15463; 10899; 15462; 15461; 15460; 10388] 0%Z [(1%Z, 3332); (1%Z, 10835); (1%Z, 10389); ((-1)%Z, 10899); ((-2)%Z, 10388)] 1048576%Z 324518553658426726783156020576256%Z;
  Lin [3331; 10834; 10388] [15459; 10898; 15458; 15457; 15456; 10387] 0%Z [(1%Z, 3331); (1%Z, 10834); (1%Z, 10388); ((-1)%Z, 10898); ((-2)%Z, 10387)] 524288%Z 649037107316853453566312041152512%Z;
  Lin [3330; 10833; 10387] [15455; 10897; 15454; 15453; 15452; 10386] 0%Z [(1%Z, 3330); (1%Z, 10833); (1%Z, 10387); ((-1)%Z, 10897); ((-2)%Z, 10386)] 262144%Z 1298074214633706907132624082305024%Z;
  Lin [3329; 10832; 10386] [15451; 10896; 15450; 15449; 15448; 10385] 0%Z [(1%Z, 3329); (1%Z, 10832); (1%Z, 10386); ((-1)%Z, 10896); ((-2)%Z, 10385)] 131072%Z 2596148429267413814265248164610048%Z;
  Lin [3328; 10831; 10385] [15447; 10895; 15446; 15445; 15444; 10384] 0%Z [(1%Z, 3328); (1%Z, 10831); (1%Z, 10385); ((-1)%Z, 10895); ((-2)%Z, 10384)] 65536%Z 5192296858534827628530496329220096%Z;
  Lin [3327; 10319; 10384] [15443; 10894; 15442; 15441; 15440; 10383] 0%Z [(1%Z, 3327); (1%Z, 10319); (1%Z, 10384); ((-1)%Z, 10894); ((-2)%Z, 10383)] 32768%Z 10384593717069655257060992658440192%Z;
  Lin [3446; 10948; 10503] [15411; 11012; 15410; 15409; 15408; 10502] 0%Z [(1%Z, 3446); (1%Z, 10948); (1%Z, 10503); ((-1)%Z, 11012); ((-2)%Z, 10502)] 590295810358705651712%Z 576460752303423488%Z;
  Lin [3511; 11012; 10568] [15163; 11076; 15162; 15161; 15160; 10567] 0%Z [(1%Z, 3511); (1%Z, 11012); (1%Z, 10568); ((-1)%Z, 11076); ((-2)%Z, 10567)] 590295810358705651712%Z 576460752303423488%Z;
  Lin [3576; 11076; 10633] [14915; 11140; 14914; 14913; 14912; 10632] 0%Z [(1%Z, 3576); (1%Z, 11076); (1%Z, 10633); ((-1)%Z, 11140); ((-2)%Z, 10632)] 590295810358705651712%Z 576460752303423488%Z;
  Lin [3641; 11140; 10698] [14667; 11204; 14666; 14665; 14664; 10697] 0%Z [(1%Z, 3641); (1%Z, 11140); (1%Z, 10698); ((-1)%Z, 11204); ((-2)%Z, 10697)] 590295810358705651712%Z 576460752303423488%Z;
  Lin [3706; 11204; 10763] [14419; 11268; 14418; 14417; 14416; 10762] 0%Z [(1%Z, 3706); (1%Z, 11204); (1%Z, 10763); ((-1)%Z, 11268); ((-2)%Z, 10762)] 590295810358705651712%Z 576460752303423488%Z;
  Lin [3771; 11268; 10828] [14171; 11332; 14170; 14169; 14168; 10827] 0%Z [(1%Z, 3771); (1%Z, 11268); (1%Z, 10828); ((-1)%Z, 11332); ((-2)%Z, 10827)] 590295810358705651712%Z 576460752303423488%Z;
  Lin [3836; 11332; 11397] [13923; 11843; 13922; 13921; 13920; 11396] 0%Z [(1%Z, 3836); (1%Z, 11332); (1%Z, 11397); ((-1)%Z, 11843); ((-2)%Z, 11396)] 590295810358705651712%Z 576460752303423488%Z;
  Lin [3901; 11843; 11462] [13675; 11907; 13674; 13673; 13672; 11461] 0%Z [(1%Z, 3901); (1%Z, 11843); (1%Z, 11462); ((-1)%Z, 11907); ((-2)%Z, 11461)] 590295810358705651712%Z 576460752303423488%Z;
  Lin [3966; 11907] [28155; 11526] 0%Z [(1%Z, 3966); (1%Z, 11907); ((-1)%Z, 28155); ((-2)%Z, 11526)] 590295810358705651712%Z 576460752303423488%Z;
  Lin [3445; 10947; 10502] [15407; 11011; 15406; 15405; 15404; 10501] 0%Z [(1%Z, 3445); (1%Z, 10947); (1%Z, 10502); ((-1)%Z, 11011); ((-2)%Z, 10501)] 295147905179352825856%Z 1152921504606846976%Z;
  Lin [3444; 10946; 10501] [15403; 11010; 15402; 15401; 15400; 10500] 0%Z [(1%Z, 3444); (1%Z, 10946); (1%Z, 10501); ((-1)%Z, 11010); ((-2)%Z, 10500)] 147573952589676412928%Z 2305843009213693952%Z;
  Lin [3443; 10945; 10500] [15399; 11009; 15398; 15397; 15396; 10499] 0%Z [(1%Z, 3443); (1%Z, 10945); (1%Z, 10500); ((-1)%Z, 11009); ((-2)%Z, 10499)] 73786976294838206464%Z 4611686018427387904%Z;
  Lin [3442; 10944; 10499] [15395; 11008; 15394; 15393; 15392; 10498] 0%Z [(1%Z, 3442); (1%Z, 10944); (1%Z, 10499); ((-1)%Z, 11008); ((-2)%Z, 10498)] 36893488147419103232%Z 9223372036854775808%Z;
  Lin [3441; 10943; 10498] [15391; 11007; 15390; 15389; 15388; 10497] 0%Z [(1%Z, 3441); (1%Z, 10943); (1%Z, 10498); ((-1)%Z, 11007); ((-2)%Z, 10497)] 18446744073709551616%Z 18446744073709551616%Z;
  Lin [3440; 10942; 10497] [15387; 11006; 15386; 15385; 15384; 10496] 0%Z [(1%Z, 3440); (1%Z, 10942); (1%Z, 10497); ((-1)%Z, 11006); ((-2)%Z, 10496)] 9223372036854775808%Z 36893488147419103232%Z;
  Lin [3439; 10941; 10496] [15383; 11005; 15382; 15381; 15380; 10495] 0%Z [(1%Z, 3439); (1%Z, 10941); (1%Z, 10496); ((-1)%Z, 11005); ((-2)%Z, 10495)] 4611686018427387904%Z 73786976294838206464%Z;
  Lin [3438; 10940; 10495] [15379; 11004; 15378; 15377; 15376; 10494] 0%Z [(1%Z, 3438); (1%Z, 10940); (1%Z, 10495); ((-1)%Z, 11004); ((-2)%Z, 10494)] 2305843009213693952%Z 147573952589676412928%Z;
  Lin [3437; 10939; 10494] [15375; 11003; 15374; 15373; 15372; 10493] 0%Z [(1%Z, 3437); (1%Z, 10939); (1%Z, 10494); ((-1)%Z, 11003); ((-2)%Z, 10493)] 1152921504606846976%Z 295147905179352825856%Z;
  Lin [3436; 10938; 10493] [15371; 11002; 15370; 15369; 15368; 10492] 0%Z [(1%Z, 3436); (1%Z, 10938); (1%Z, 10493); ((-1)%Z, 11002); ((-2)%Z, 10492)] 576460752303423488%Z 590295810358705651712%Z;
  Lin [3435; 10937; 10492] [15367; 11001; 15366; 15365; 15364; 10491] 0%Z [(1%Z, 3435); (1%Z, 10937); (1%Z, 10492); ((-1)%Z, 11001); ((-2)%Z, 10491)] 288230376151711744%Z 1180591620717411303424%Z;
  Lin [3434; 10936; 10491] [15363; 11000; 15362; 15361; 15360; 10490] 0%Z [(1%Z, 3434); (1%Z, 10936); (1%Z, 10491); ((-1)%Z, 11000); ((-2)%Z, 10490)] 144115188075855872%Z 2361183241434822606848%Z;
  Lin [3433; 10935; 10490] [15359; 10999; 15358; 15357; 15356; 10489] 0%Z [(1%Z, 3433); (1%Z, 10935); (1%Z, 10490); ((-1)%Z, 10999); ((-2)%Z, 10489)] 72057594037927936%Z 4722366482869645213696%Z;
  Lin [3432; 10934; 10489] [15355; 10998; 15354; 15353; 15352; 10488] 0%Z [(1%Z, 3432); (1%Z, 10934); (1%Z, 10489); ((-1)%Z, 10998); ((-2)%Z, 10488)] 36028797018963968%Z 9444732965739290427392%Z;
  Lin [3431; 10933; 10488] [15351; 10997; 15350; 15349; 15348; 10487] 0%Z [(1%Z, 3431); (1%Z, 10933); (1%Z, 10488); ((-1)%Z, 10997); ((-2)%Z, 10487)] 18014398509481984%Z 18889465931478580854784%Z;
  Lin [3430; 10932; 10487] [15347; 10996; 15346; 15345; 15344; 10486] 0%Z [(1%Z, 3430); (1%Z, 10932); (1%Z, 10487); ((-1)%Z, 10996); ((-2)%Z, 10486)] 9007199254740992%Z 37778931862957161709568%Z;
  Lin [3429; 10931; 10486] [15343; 10995; 15342; 15341; 15340; 10485] 0%Z [(1%Z, 3429); (1%Z, 10931); (1%Z, 10486); ((-1)%Z, 10995); ((-2)%Z, 10485)] 4503599627370496%Z 75557863725914323419136%Z;
  Lin [3428; 10930; 10485] [15339; 10994; 15338; 15337; 15336; 10484] 0%Z [(1%Z, 3428); (1%Z, 10930); (1%Z, 10485); ((-1)%Z, 10994); ((-2)%Z, 10484)] 2251799813685248%Z 151115727451828646838272%Z;
  Lin [3427; 10929; 10484] [15335; 10993; 15334; 15333; 15332; 10483] 0%Z [(1%Z, 3427); (1%Z, 10929); (1%Z, 10484); ((-1)%Z, 10993); ((-2)%Z, 10483)] 1125899906842624%Z 302231454903657293676544%Z;
  Lin [3426; 10928; 10483] [15331; 10992; 15330; 15329; 15328; 10482] 0%Z [(1%Z, 3426); (1%Z, 10928); (1%Z, 10483); ((-1)%Z, 10992); ((-2)%Z, 10482)] 562949953421312%Z 604462909807314587353088%Z;
  Lin [3425; 10927; 10482] [15327; 10991; 15326; 15325; 15324; 10481] 0%Z [(1%Z, 3425); (1%Z, 10927); (1%Z, 10482); ((-1)%Z, 10991); ((-2)%Z, 10481)] 281474976710656%Z 1208925819614629174706176%Z;
  Lin [3424; 10926; 10481] [15323; 10990; 15322; 15321; 15320; 10480] 0%Z [(1%Z, 3424); (1%Z, 10926); (1%Z, 10481); ((-1)%Z, 10990); ((-2)%Z, 10480)] 140737488355328%Z 2417851639229258349412352%Z;
  Lin [3423; 10925; 10480] [15319; 10989; 15318; 15317; 15316; 10479] 0%Z [(1%Z, 3423); (1%Z, 10925); (1%Z, 10480); ((-1)%Z, 10989); ((-2)%Z, 10479)] 70368744177664%Z 4835703278458516698824704%Z;
  Lin [3422; 10924; 10479] [15315; 10988; 15314; 15313; 15312; 10478] 0%Z [(1%Z, 3422); (1%Z, 10924); (1%Z, 10479); ((-1)%Z, 10988); ((-2)%Z, 10478)] 35184372088832%Z 9671406556917033397649408%Z;
  Lin [3421; 10923; 10478] [15311; 10987; 15310; 15309; 15308; 10477] 0%Z [(1%Z, 3421); (1%Z, 10923); (1%Z, 10478); ((-1)%Z, 10987); ((-2)%Z, 10477)] 17592186044416%Z 19342813113834066795298816%Z;
  Lin [3420; 10922; 10477] [15307; 10986; 15306; 15305; 15304; 10476] 0%Z [(1%Z, 3420); (1%Z, 10922); (1%Z, 10477); ((-1)%Z, 10986); ((-2)%Z, 10476)] 8796093022208%Z 38685626227668133590597632%Z;
  Lin [3419; 10921; 10476] [15303; 10985; 15302; 15301; 15300; 10475] 0%Z [(1%Z, 3419); (1%Z, 10921); (1%Z, 10476); ((-1)%Z, 10985); ((-2)%Z, 10475)] 4398046511104%Z 77371252455336267181195264%Z;
  Lin [3418; 10920; 10475] [15299; 10984; 15298; 15297; 15296; 10474] 0%Z [(1%Z, 3418); (1%Z, 10920); (1%Z, 10475); ((-1)%Z, 10984); ((-2)%Z, 10474)] 2199023255552%Z 154742504910672534362390528%Z;
  Lin [3417; 10919; 10474] [15295; 10983; 15294; 15293; 15292; 10473] 0%Z [(1%Z, 3417); (1%Z, 10919); (1%Z, 10474); ((-1)%Z, 10983); ((-2)%Z, 10473)] 1099511627776%Z 309485009821345068724781056%Z;
  Lin [3416; 10918; 10473] [15291; 10982; 15290; 15289; 15288; 10472] 0%Z [(1%Z, 3416); (1%Z, 10918); (1%Z, 10473); ((-1)%Z, 10982); ((-2)%Z, 10472)] 549755813888%Z 618970019642690137449562112%Z;
  Lin [3415; 10917; 10472] [15287; 10981; 15286; 15285; 15284; 10471] 0%Z [(1%Z, 3415); (1%Z, 10917); (1%Z, 10472); ((-1)%Z, 10981); ((-2)%Z, 10471)] 274877906944%Z 1237940039285380274899124224%Z;
  Lin [3414; 10916; 10471] [15283; 10980; 15282; 15281; 15280; 10470] 0%Z [(1%Z, 3414); (1%Z, 10916); (1%Z, 10471); ((-1)%Z, 10980); ((-2)%Z, 10470)] 137438953472%Z 2475880078570760549798248448%Z;
  Lin [3413; 10915; 10470] [15279; 10979; 15278; 15277; 15276; 10469] 0%Z [(1%Z, 3413); (1%Z, 10915); (1%Z, 10470); ((-1)%Z, 10979); ((-2)%Z, 10469)] 68719476736%Z 4951760157141521099596496896%Z;
  Lin [3412; 10914; 10469] [15275; 10978; 15274; 15273; 15272; 10468] 0%Z [(1%Z, 3412); (1%Z, 10914); (1%Z, 10469); ((-1)%Z, 10978); ((-2)%Z, 10468)] 34359738368%Z 9903520314283042199192993792%Z;
  Lin [3411; 10913; 10468] [15271; 10977; 15270; 15269; 15268; 10467] 0%Z [(1%Z, 3411); (1%Z, 10913); (1%Z, 10468); ((-1)%Z, 10977); ((-2)%Z, 10467)] 17179869184%Z 19807040628566084398385987584%Z;
  Lin [3410; 10912; 10467] [15267; 10976; 15266; 15265; 15264; 10466] 0%Z [(1%Z, 3410); (1%Z, 10912); (1%Z, 10467); ((-1)%Z, 10976); ((-2)%Z, 10466)] 8589934592%Z 39614081257132168796771975168%Z;
  Lin [3409; 10911; 10466] [15263; 10975; 15262; 15261; 15260; 10465] 0%Z [(1%Z, 3409); (1%Z, 10911); (1%Z, 10466); ((-1)%Z, 10975); ((-2)%Z, 10465)] 4294967296%Z 79228162514264337593543950336%Z;
  Lin [3408; 10910; 10465] [15259; 10974; 15258; 15257; 15256; 10464] 0%Z [(1%Z, 3408); (1%Z, 10910); (1%Z, 10465); ((-1)%Z, 10974); ((-2)%Z, 10464)] 2147483648%Z 158456325028528675187087900672%Z;
  Lin [3407; 10909; 10464] [15255; 10973; 15254; 15253; 15252; 10463] 0%Z [(1%Z, 3407); (1%Z, 10909); (1%Z, 10464); ((-1)%Z, 10973); ((-2)%Z, 10463)] 1073741824%Z 316912650057057350374175801344%Z;
  Lin [3406; 10908; 10463] [15251; 10972; 15250; 15249; 15248; 10462] 0%Z [(1%Z, 3406); (1%Z, 10908); (1%Z, 10463); ((-1)%Z, 10972); ((-2)%Z, 10462)] 536870912%Z 633825300114114700748351602688%Z;
  Lin [3405; 10907; 10462] [15247; 10971; 15246; 15245; 15244; 10461] 0%Z [(1%Z, 3405); (1%Z, 10907); (1%Z, 10462); ((-1)%Z, 10971); ((-2)%Z, 10461)] 268435456%Z 1267650600228229401496703205376%Z;
  Lin [3404; 10906; 10461] [15243; 10970; 15242; 15241; 15240; 10460] 0%Z [(1%Z, 3404); (1%Z, 10906); (1%Z, 10461); ((-1)%Z, 10970); ((-2)%Z, 10460)] 134217728%Z 2535301200456458802993406410752%Z;
  Lin [3403; 10905; 10460] [15239; 10969; 15238; 15237; 15236; 10459] 0%Z [(1%Z, 3403); (1%Z, 10905); (1%Z, 10460); ((-1)%Z, 10969); ((-2)%Z, 10459)] 67108864%Z 5070602400912917605986812821504%Z;
  Lin [3402; 10904; 10459] [15235; 10968; 15234; 15233; 15232; 10458] 0%Z [(1%Z, 3402); (1%Z, 10904); (1%Z, 10459); ((-1)%Z, 10968); ((-2)%Z, 10458)] 33554432%Z 10141204801825835211973625643008%Z;
  Lin [3401; 10903; 10458] [15231; 10967; 15230; 15229; 15228; 10457] 0%Z [(1%Z, 3401); (1%Z, 10903); (1%Z, 10458); ((-1)%Z, 10967); ((-2)%Z, 10457)] 16777216%Z 20282409603651670423947251286016%Z;
  Lin [3400; 10902; 10457] [15227; 10966; 15226; 15225; 15224; 10456] 0%Z [(1%Z, 3400); (1%Z, 10902); (1%Z, 10457); ((-1)%Z, 10966); ((-2)%Z, 10456)] 8388608%Z 40564819207303340847894502572032%Z;
  Lin [3399; 10901; 10456] [15223; 10965; 15222; 15221; 15220; 10455] 0%Z [(1%Z, 3399); (1%Z, 10901); (1%Z, 10456); ((-1)%Z, 10965); ((-2)%Z, 10455)] 4194304%Z 81129638414606681695789005144064%Z;
  Lin [3398; 10900; 10455] [15219; 10964; 15218; 15217; 15216; 10454] 0%Z [(1%Z, 3398); (1%Z, 10900); (1%Z, 10455); ((-1)%Z, 10964); ((-2)%Z, 10454)] 2097152%Z 162259276829213363391578010288128%Z;
  Lin [3397; 10899; 10454] [15215; 10963; 15214; 15213; 15212; 10453] 0%Z [(1%Z, 3397); (1%Z, 10899); (1%Z, 10454); ((-1)%Z, 10963); ((-2)%Z, 10453)] 1048576%Z 324518553658426726783156020576256%Z;
  Lin [3396; 10898; 10453] [15211; 10962; 15210; 15209; 15208; 10452] 0%Z [(1%Z, 3396); (1%Z, 10898); (1%Z, 10453); ((-1)%Z, 10962); ((-2)%Z, 10452)] 524288%Z 649037107316853453566312041152512%Z;
  Lin [3395; 10897; 10452] [15207; 10961; 15206; 15205; 15204; 10451] 0%Z [(1%Z, 3395); (1%Z, 10897); (1%Z, 10452); ((-1)%Z, 10961); ((-2)%Z, 10451)] 262144%Z 1298074214633706907132624082305024%Z;
  Lin [3394; 10896; 10451] [15203; 10960; 15202; 15201; 15200; 10450] 0%Z [(1%Z, 3394); (1%Z, 10896); (1%Z, 10451); ((-1)%Z, 10960); ((-2)%Z, 10450)] 131072%Z 2596148429267413814265248164610048%Z;
  Lin [3393; 10895; 10450] [15199; 10959; 15198; 15197; 15196; 10449] 0%Z [(1%Z, 3393); (1%Z, 10895); (1%Z, 10450); ((-1)%Z, 10959); ((-2)%Z, 10449)] 65536%Z 5192296858534827628530496329220096%Z;
  Lin [3392; 10894; 10449] [15195; 10958; 15194; 15193; 15192; 10448] 0%Z [(1%Z, 3392); (1%Z, 10894); (1%Z, 10449); ((-1)%Z, 10958); ((-2)%Z, 10448)] 32768%Z 10384593717069655257060992658440192%Z;
  Lin [3391; 10383; 10448] [15191; 10957; 15190; 15189; 15188; 10447] 0%Z [(1%Z, 3391); (1%Z, 10383); (1%Z, 10448); ((-1)%Z, 10957); ((-2)%Z, 10447)] 16384%Z 20769187434139310514121985316880384%Z].
Definition mult2_64_facts_33 : list lin_fact := [
  Lin [3510; 11011; 10567] [15159; 11075; 15158; 15157; 15156; 10566] 0%Z [(1%Z, 3510); (1%Z, 11011); (1%Z, 10567); ((-1)%Z, 11075); ((-2)%Z, 10566)] 295147905179352825856%Z 1152921504606846976%Z;
  Lin [3575; 11075; 10632] [14911; 11139; 14910; 14909; 14908; 10631] 0%Z [(1%Z, 3575); (1%Z, 11075); (1%Z, 10632); ((-1)%Z, 11139); ((-2)%Z, 10631)] 295147905179352825856%Z 1152921504606846976%Z;
  Lin [3640; 11139; 10697] [14663; 11203; 14662; 14661; 14660; 10696] 0%Z [(1%Z, 3640); (1%Z, 11139); (1%Z, 10697); ((-1)%Z, 11203); ((-2)%Z, 10696)] 295147905179352825856%Z 1152921504606846976%Z;
  Lin [3705; 11203; 10762] [14415; 11267; 14414; 14413; 14412; 10761] 0%Z [(1%Z, 3705); (1%Z, 11203); (1%Z, 10762); ((-1)%Z, 11267); ((-2)%Z, 10761)] 295147905179352825856%Z 1152921504606846976%Z;
  Lin [3770; 11267; 10827] [14167; 11331; 14166; 14165; 14164; 10826] 0%Z [(1%Z, 3770); (1%Z, 11267); (1%Z, 10827); ((-1)%Z, 11331); ((-2)%Z, 10826)] 295147905179352825856%Z 1152921504606846976%Z;
  Lin [3835; 11331; 11396] [13919; 11842; 13918; 13917; 13916; 11395] 0%Z [(1%Z, 3835); (1%Z, 11331); (1%Z, 11396); ((-1)%Z, 11842); ((-2)%Z, 11395)] 295147905179352825856%Z 1152921504606846976%Z;
  Lin [3900; 11842; 11461] [13671; 11906; 13670; 13669; 13668; 11460] 0%Z [(1%Z, 3900); (1%Z, 11842); (1%Z, 11461); ((-1)%Z, 11906); ((-2)%Z, 11460)] 295147905179352825856%Z 1152921504606846976%Z;
  Lin [3965; 11906; 11526] [13423; 11970; 13422; 13421; 13420; 11525] 0%Z [(1%Z, 3965); (1%Z, 11906); (1%Z, 11526); ((-1)%Z, 11970); ((-2)%Z, 11525)] 295147905179352825856%Z 1152921504606846976%Z;
  Lin [4030; 11970] [28156; 11590] 0%Z [(1%Z, 4030); (1%Z, 11970); ((-1)%Z, 28156); ((-2)%Z, 11590)] 295147905179352825856%Z 1152921504606846976%Z;
  Lin [3509; 11010; 10566] [15155; 11074; 15154; 15153; 15152; 10565] 0%Z [(1%Z, 3509); (1%Z, 11010); (1%Z, 10566); ((-1)%Z, 11074); ((-2)%Z, 10565)] 147573952589676412928%Z 2305843009213693952%Z;
  Lin [3574; 11074; 10631] [14907; 11138; 14906; 14905; 14904; 10630] 0%Z [(1%Z, 3574); (1%Z, 11074); (1%Z, 10631); ((-1)%Z, 11138); ((-2)%Z, 10630)] 147573952589676412928%Z 2305843009213693952%Z;
  Lin [3639; 11138; 10696] [14659; 11202; 14658; 14657; 14656; 10695] 0%Z [(1%Z, 3639); (1%Z, 11138); (1%Z, 10696); ((-1)%Z, 11202); ((-2)%Z, 10695)] 147573952589676412928%Z 2305843009213693952%Z;
  Lin [3704; 11202; 10761] [14411; 11266; 14410; 14409; 14408; 10760] 0%Z [(1%Z, 3704); (1%Z, 11202); (1%Z, 10761); ((-1)%Z, 11266); ((-2)%Z, 10760)] 147573952589676412928%Z 2305843009213693952%Z;
  Lin [3769; 11266; 10826] [14163; 11330; 14162; 14161; 14160; 10825] 0%Z [(1%Z, 3769); (1%Z, 11266); (1%Z, 10826); ((-1)%Z, 11330); ((-2)%Z, 10825)] 147573952589676412928%Z 2305843009213693952%Z;
  Lin [3834; 11330; 11395] [13915; 11841; 13914; 13913; 13912; 11394] 0%Z [(1%Z, 3834); (1%Z, 11330); (1%Z, 11395); ((-1)%Z, 11841); ((-2)%Z, 11394)] 147573952589676412928%Z 2305843009213693952%Z;
  Lin [3899; 11841; 11460] [13667; 11905; 13666; 13665; 13664; 11459] 0%Z [(1%Z, 3899); (1%Z, 11841); (1%Z, 11460); ((-1)%Z, 11905); ((-2)%Z, 11459)] 147573952589676412928%Z 2305843009213693952%Z;
  Lin [3964; 11905; 11525] [13419; 11969; 13418; 13417; 13416; 11524] 0%Z [(1%Z, 3964); (1%Z, 11905); (1%Z, 11525); ((-1)%Z, 11969); ((-2)%Z, 11524)] 147573952589676412928%Z 2305843009213693952%Z;
  Lin [4029; 11969; 11590] [13171; 12033; 13170; 13169; 13168; 11589] 0%Z [(1%Z, 4029); (1%Z, 11969); (1%Z, 11590); ((-1)%Z, 12033); ((-2)%Z, 11589)] 147573952589676412928%Z 2305843009213693952%Z;
  Lin [4094; 12033] [28157; 11654] 0%Z [(1%Z, 4094); (1%Z, 12033); ((-1)%Z, 28157); ((-2)%Z, 11654)] 147573952589676412928%Z 2305843009213693952%Z;
  Lin [3508; 11009; 10565] [15151; 11073; 15150; 15149; 15148; 10564] 0%Z [(1%Z, 3508); (1%Z, 11009); (1%Z, 10565); ((-1)%Z, 11073); ((-2)%Z, 10564)] 73786976294838206464%Z 4611686018427387904%Z;
  Lin [3507; 11008; 10564] [15147; 11072; 15146; 15145; 15144; 10563] 0%Z [(1%Z, 3507); (1%Z, 11008); (1%Z, 10564); ((-1)%Z, 11072); ((-2)%Z, 10563)] 36893488147419103232%Z 9223372036854775808%Z;
  Lin [3506; 11007; 10563] [15143; 11071; 15142; 15141; 15140; 10562] 0%Z [(1%Z, 3506); (1%Z, 11007); (1%Z, 10563); ((-1)%Z, 11071); ((-2)%Z, 10562)] 18446744073709551616%Z 18446744073709551616%Z;
  Lin [3505; 11006; 10562] [15139; 11070; 15138; 15137; 15136; 10561] 0%Z [(1%Z, 3505); (1%Z, 11006); (1%Z, 10562); ((-1)%Z, 11070); ((-2)%Z, 10561)] 9223372036854775808%Z 36893488147419103232%Z;
  Lin [3504; 11005; 10561] [15135; 11069; 15134; 15133; 15132; 10560] 0%Z [(1%Z, 3504); (1%Z, 11005); (1%Z, 10561); ((-1)%Z, 11069); ((-2)%Z, 10560)] 4611686018427387904%Z 73786976294838206464%Z;
  Lin [3503; 11004; 10560] [15131; 11068; 15130; 15129; 15128; 10559] 0%Z [(1%Z, 3503); (1%Z, 11004); (1%Z, 10560); ((-1)%Z, 11068); ((-2)%Z, 10559)] 2305843009213693952%Z 147573952589676412928%Z;
  Lin [3502; 11003; 10559] [15127; 11067; 15126; 15125; 15124; 10558] 0%Z [(1%Z, 3502); (1%Z, 11003); (1%Z, 10559); ((-1)%Z, 11067); ((-2)%Z, 10558)] 1152921504606846976%Z 295147905179352825856%Z;
  Lin [3501; 11002; 10558] [15123; 11066; 15122; 15121; 15120; 10557] 0%Z [(1%Z, 3501); (1%Z, 11002); (1%Z, 10558); ((-1)%Z, 11066); ((-2)%Z, 10557)] 576460752303423488%Z 590295810358705651712%Z;
  Lin [3500; 11001; 10557] [15119; 11065; 15118; 15117; 15116; 10556] 0%Z [(1%Z, 3500); (1%Z, 11001); (1%Z, 10557); ((-1)%Z, 11065); ((-2)%Z, 10556)] 288230376151711744%Z 1180591620717411303424%Z;
  Lin [3499; 11000; 10556] [15115; 11064; 15114; 15113; 15112; 10555] 0%Z [(1%Z, 3499); (1%Z, 11000); (1%Z, 10556); ((-1)%Z, 11064); ((-2)%Z, 10555)] 144115188075855872%Z 2361183241434822606848%Z;
  Lin [3498; 10999; 10555] [15111; 11063; 15110; 15109; 15108; 10554] 0%Z [(1%Z, 3498); (1%Z, 10999); (1%Z, 10555); ((-1)%Z, 11063); ((-2)%Z, 10554)] 72057594037927936%Z 4722366482869645213696%Z;
  Lin [3497; 10998; 10554] [15107; 11062; 15106; 15105; 15104; 10553] 0%Z [(1%Z, 3497); (1%Z, 10998); (1%Z, 10554); ((-1)%Z, 11062); ((-2)%Z, 10553)] 36028797018963968%Z 9444732965739290427392%Z;
  Lin [3496; 10997; 10553] [15103; 11061; 15102; 15101; 15100; 10552] 0%Z [(1%Z, 3496); (1%Z, 10997); (1%Z, 10553); ((-1)%Z, 11061); ((-2)%Z, 10552)] 18014398509481984%Z 18889465931478580854784%Z;
  Lin [3495; 10996; 10552] [15099; 11060; 15098; 15097; 15096; 10551] 0%Z [(1%Z, 3495); (1%Z, 10996); (1%Z, 10552); ((-1)%Z, 11060); ((-2)%Z, 10551)] 9007199254740992%Z 37778931862957161709568%Z;
  Lin [3494; 10995; 10551] [15095; 11059; 15094; 15093; 15092; 10550] 0%Z [(1%Z, 3494); (1%Z, 10995); (1%Z, 10551); ((-1)%Z, 11059); ((-2)%Z, 10550)] 4503599627370496%Z 75557863725914323419136%Z;
  Lin [3493; 10994; 10550] [15091; 11058; 15090; 15089; 15088; 10549] 0%Z [(1%Z, 3493); (1%Z, 10994); (1%Z, 10550); ((-1)%Z, 11058); ((-2)%Z, 10549)] 2251799813685248%Z 151115727451828646838272%Z;
  Lin [3492; 10993; 10549] [15087; 11057; 15086; 15085; 15084; 10548] 0%Z [(1%Z, 3492); (1%Z, 10993); (1%Z, 10549); ((-1)%Z, 11057); ((-2)%Z, 10548)] 1125899906842624%Z 302231454903657293676544%Z;
  Lin [3491; 10992; 10548] [15083; 11056; 15082; 15081; 15080; 10547] 0%Z [(1%Z, 3491); (1%Z, 10992); (1%Z, 10548); ((-1)%Z, 11056); ((-2)%Z, 10547)] 562949953421312%Z 604462909807314587353088%Z;
  Lin [3490; 10991; 10547] [15079; 11055; 15078; 15077; 15076; 10546] 0%Z [(1%Z, 3490); (1%Z, 10991); (1%Z, 10547); ((-1)%Z, 11055); ((-2)%Z, 10546)] 281474976710656%Z 1208925819614629174706176%Z;
  Lin [3489; 10990; 10546] [15075; 11054; 15074; 15073; 15072; 10545] 0%Z [(1%Z, 3489); (1%Z, 10990); (1%Z, 10546); ((-1)%Z, 11054); ((-2)%Z, 10545)] 140737488355328%Z 2417851639229258349412352%Z;
  Lin [3488; 10989; 10545] [15071; 11053; 15070; 15069; 15068; 10544] 0%Z [(1%Z, 3488); (1%Z, 10989); (1%Z, 10545); ((-1)%Z, 11053); ((-2)%Z, 10544)] 70368744177664%Z 4835703278458516698824704%Z;
  Lin [3487; 10988; 10544] [15067; 11052; 15066; 15065; 15064; 10543] 0%Z [(1%Z, 3487); (1%Z, 10988); (1%Z, 10544); ((-1)%Z, 11052); ((-2)%Z, 10543)] 35184372088832%Z 9671406556917033397649408%Z;
  Lin [3486; 10987; 10543] [15063; 11051; 15062; 15061; 15060; 10542] 0%Z [(1%Z, 3486); (1%Z, 10987); (1%Z, 10543); ((-1)%Z, 11051); ((-2)%Z, 10542)] 17592186044416%Z 19342813113834066795298816%Z;
  Lin [3485; 10986; 10542] [15059; 11050; 15058; 15057; 15056; 10541] 0%Z [(1%Z, 3485); (1%Z, 10986); (1%Z, 10542); ((-1)%Z, 11050); ((-2)%Z, 10541)] 8796093022208%Z 38685626227668133590597632%Z;
  Lin [3484; 10985; 10541] [15055; 11049; 15054; 15053; 15052; 10540] 0%Z [(1%Z, 3484); (1%Z, 10985); (1%Z, 10541); ((-1)%Z, 11049); ((-2)%Z, 10540)] 4398046511104%Z 77371252455336267181195264%Z;
  Lin [3483; 10984; 10540] [15051; 11048; 15050; 15049; 15048; 10539] 0%Z [(1%Z, 3483); (1%Z, 10984); (1%Z, 10540); ((-1)%Z, 11048); ((-2)%Z, 10539)] 2199023255552%Z 154742504910672534362390528%Z;
  Lin [3482; 10983; 10539] [15047; 11047; 15046; 15045; 15044; 10538] 0%Z [(1%Z, 3482); (1%Z, 10983); (1%Z, 10539); ((-1)%Z, 11047); ((-2)%Z, 10538)] 1099511627776%Z 309485009821345068724781056%Z;
  Lin [3481; 10982; 10538] [15043; 11046; 15042; 15041; 15040; 10537] 0%Z [(1%Z, 3481); (1%Z, 10982); (1%Z, 10538); ((-1)%Z, 11046); ((-2)%Z, 10537)] 549755813888%Z 618970019642690137449562112%Z;
  Lin [3480; 10981; 10537] [15039; 11045; 15038; 15037; 15036; 10536] 0%Z [(1%Z, 3480); (1%Z, 10981); (1%Z, 10537); ((-1)%Z, 11045); ((-2)%Z, 10536)] 274877906944%Z 1237940039285380274899124224%Z;
  Lin [3479; 10980; 10536] [15035; 11044; 15034; 15033; 15032; 10535] 0%Z [(1%Z, 3479); (1%Z, 10980); (1%Z, 10536); ((-1)%Z, 11044); ((-2)%Z, 10535)] 137438953472%Z 2475880078570760549798248448%Z;
  Lin [3478; 10979; 10535] [15031; 11043; 15030; 15029; 15028; 10534] 0%Z [(1%Z, 3478); (1%Z, 10979); (1%Z, 10535); ((-1)%Z, 11043); ((-2)%Z, 10534)] 68719476736%Z 4951760157141521099596496896%Z;
  Lin [3477; 10978; 10534] [15027; 11042; 15026; 15025; 15024; 10533] 0%Z [(1%Z, 3477); (1%Z, 10978); (1%Z, 10534); ((-1)%Z, 11042); ((-2)%Z, 10533)] 34359738368%Z 9903520314283042199192993792%Z;
  Lin [3476; 10977; 10533] [15023; 11041; 15022; 15021; 15020; 10532] 0%Z [(1%Z, 3476); (1%Z, 10977); (1%Z, 10533); ((-1)%Z, 11041); ((-2)%Z, 10532)] 17179869184%Z 19807040628566084398385987584%Z;
  Lin [3475; 10976; 10532] [15019; 11040; 15018; 15017; 15016; 10531] 0%Z [(1%Z, 3475); (1%Z, 10976); (1%Z, 10532); ((-1)%Z, 11040); ((-2)%Z, 10531)] 8589934592%Z 39614081257132168796771975168%Z;
  Lin [3474; 10975; 10531] [15015; 11039; 15014; 15013; 15012; 10530] 0%Z [(1%Z, 3474); (1%Z, 10975); (1%Z, 10531); ((-1)%Z, 11039); ((-2)%Z, 10530)] 4294967296%Z 79228162514264337593543950336%Z;
  Lin [3473; 10974; 10530] [15011; 11038; 15010; 15009; 15008; 10529] 0%Z [(1%Z, 3473); (1%Z, 10974); (1%Z, 10530); ((-1)%Z, 11038); ((-2)%Z, 10529)] 2147483648%Z 158456325028528675187087900672%Z;
  Lin [3472; 10973; 10529] [15007; 11037; 15006; 15005; 15004; 10528] 0%Z [(1%Z, 3472); (1%Z, 10973); (1%Z, 10529); ((-1)%Z, 11037); ((-2)%Z, 10528)] 1073741824%Z 316912650057057350374175801344%Z;
  Lin [3471; 10972; 10528] [15003; 11036; 15002; 15001; 15000; 10527] 0%Z [(1%Z, 3471); (1%Z, 10972); (1%Z, 10528); ((-1)%Z, 11036); ((-2)%Z, 10527)] 536870912%Z 633825300114114700748351602688%Z;
  Lin [3470; 10971; 10527] [14999; 11035; 14998; 14997; 14996; 10526] 0%Z [(1%Z, 3470); (1%Z, 10971); (1%Z, 10527); ((-1)%Z, 11035); ((-2)%Z, 10526)] 268435456%Z 1267650600228229401496703205376%Z;
  Lin [3469; 10970; 10526] [14995; 11034; 14994; 14993; 14992; 10525] 0%Z [(1%Z, 3469); (1%Z, 10970); (1%Z, 10526); ((-1)%Z, 11034); ((-2)%Z, 10525)] 134217728%Z 2535301200456458802993406410752%Z;
  Lin [3468; 10969; 10525] [14991; 11033; 14990; 14989; 14988; 10524] 0%Z [(1%Z, 3468); (1%Z, 10969); (1%Z, 10525); ((-1)%Z, 11033); ((-2)%Z, 10524)] 67108864%Z 5070602400912917605986812821504%Z;
  Lin [3467; 10968; 10524] [14987; 11032; 14986; 14985; 14984; 10523] 0%Z [(1%Z, 3467); (1%Z, 10968); (1%Z, 10524); ((-1)%Z, 11032); ((-2)%Z, 10523)] 33554432%Z 10141204801825835211973625643008%Z;
  Lin [3466; 10967; 10523] [14983; 11031; 14982; 14981; 14980; 10522] 0%Z [(1%Z, 3466); (1%Z, 10967); (1%Z, 10523); ((-1)%Z, 11031); ((-2)%Z, 10522)] 16777216%Z 20282409603651670423947251286016%Z;
  Lin [3465; 10966; 10522] [14979; 11030; 14978; 14977; 14976; 10521] 0%Z [(1%Z, 3465); (1%Z, 10966); (1%Z, 10522); ((-1)%Z, 11030); ((-2)%Z, 10521)] 8388608%Z 40564819207303340847894502572032%Z;
  Lin [3464; 10965; 10521] [14975; 11029; 14974; 14973; 14972; 10520] 0%Z [(1%Z, 3464); (1%Z, 10965); (1%Z, 10521); ((-1)%Z, 11029); ((-2)%Z, 10520)] 4194304%Z 81129638414606681695789005144064%Z;
  Lin [3463; 10964; 10520] [14971; 11028; 14970; 14969; 14968; 10519] 0%Z [(1%Z, 3463); (1%Z, 10964); (1%Z, 10520); ((-1)%Z, 11028); ((-2)%Z, 10519)] 2097152%Z 162259276829213363391578010288128%Z;
  Lin [3462; 10963; 10519] [14967; 11027; 14966; 14965; 14964; 10518] 0%Z [(1%Z, 3462); (1%Z, 10963); (1%Z, 10519); ((-1)%Z, 11027); ((-2)%Z, 10518)] 1048576%Z 324518553658426726783156020576256%Z;
  Lin [3461; 10962; 10518] [14963; 11026; 14962; 14961; 14960; 10517] 0%Z [(1%Z, 3461); (1%Z, 10962); (1%Z, 10518); ((-1)%Z, 11026); ((-2)%Z, 10517)] 524288%Z 649037107316853453566312041152512%Z;
  Lin [3460; 10961; 10517] [14959; 11025; 14958; 14957; 14956; 10516] 0%Z [(1%Z, 3460); (1%Z, 10961); (1%Z, 10517); ((-1)%Z, 11025); ((-2)%Z, 10516)] 262144%Z 1298074214633706907132624082305024%Z;
  Lin [3459; 10960; 10516] [14955; 11024; 14954; 14953; 14952; 10515] 0%Z [(1%Z, 3459); (1%Z, 10960); (1%Z, 10516); ((-1)%Z, 11024); ((-2)%Z, 10515)] 131072%Z 2596148429267413814265248164610048%Z;
  Lin [3458; 10959; 10515] [14951; 11023; 14950; 14949; 14948; 10514] 0%Z [(1%Z, 3458); (1%Z, 10959); (1%Z, 10515); ((-1)%Z, 11023); ((-2)%Z, 10514)] 65536%Z 5192296858534827628530496329220096%Z;
  Lin [3457; 10958; 10514] [14947; 11022; 14946; 14945; 14944; 10513] 0%Z [(1%Z, 3457); (1%Z, 10958); (1%Z, 10514); ((-1)%Z, 11022); ((-2)%Z, 10513)] 32768%Z 10384593717069655257060992658440192%Z;
  Lin [3456; 10957; 10513] [14943; 11021; 14942; 14941; 14940; 10512] 0%Z [(1%Z, 3456); (1%Z, 10957); (1%Z, 10513); ((-1)%Z, 11021); ((-2)%Z, 10512)] 16384%Z 20769187434139310514121985316880384%Z;
  Lin [3455; 10447; 10512] [14939; 11020; 14938; 14937; 14936; 10511] 0%Z [(1%Z, 3455); (1%Z, 10447); (1%Z, 10512); ((-1)%Z, 11020); ((-2)%Z, 10511)] 8192%Z 41538374868278621028243970633760768%Z;
  Lin [3573; 11073; 10630] [14903; 11137; 14902; 14901; 14900; 10629] 0%Z [(1%Z, 3573); (1%Z, 11073); (1%Z, 10630); ((-1)%Z, 11137); ((-2)%Z, 10629)] 73786976294838206464%Z 4611686018427387904%Z;
  Lin [3638; 11137; 10695] [14655; 11201; 14654; 14653; 14652; 10694] 0%Z [(1%Z, 3638); (1%Z, 11137); (1%Z, 10695); ((-1)%Z, 11201); ((-2)%Z, 10694)] 73786976294838206464%Z 4611686018427387904%Z;
  Lin [3703; 11201; 10760] [14407; 11265; 14406; 14405; 14404; 10759] 0%Z [(1%Z, 3703); (1%Z, 11201); (1%Z, 10760); ((-1)%Z, 11265); ((-2)%Z, 10759)] 73786976294838206464%Z 4611686018427387904%Z;
  Lin [3768; 11265; 10825] [14159; 11329; 14158; 14157; 14156; 10824] 0%Z [(1%Z, 3768); (1%Z, 11265); (1%Z, 10825); ((-1)%Z, 11329); ((-2)%Z, 10824)] 73786976294838206464%Z 4611686018427387904%Z;
  Lin [3833; 11329; 11394] [13911; 11840; 13910; 13909; 13908; 11393] 0%Z [(1%Z, 3833); (1%Z, 11329); (1%Z, 11394); ((-1)%Z, 11840); ((-2)%Z, 11393)] 73786976294838206464%Z 4611686018427387904%Z;
  Lin [3898; 11840; 11459] [13663; 11904; 13662; 13661; 13660; 11458] 0%Z [(1%Z, 3898); (1%Z, 11840); (1%Z, 11459); ((-1)%Z, 11904); ((-2)%Z, 11458)] 73786976294838206464%Z 4611686018427387904%Z;
  Lin [3963; 11904; 11524] [13415; 11968; 13414; 13413; 13412; 11523] 0%Z [(1%Z, 3963); (1%Z, 11904); (1%Z, 11524); ((-1)%Z, 11968); ((-2)%Z, 11523)] 73786976294838206464%Z 4611686018427387904%Z;
  Lin [4028; 11968; 11589] [13167; 12032; 13166; 13165; 13164; 11588] 0%Z [(1%Z, 4028); (1%Z, 11968); (1%Z, 11589); ((-1)%Z, 12032); ((-2)%Z, 11588)] 73786976294838206464%Z 4611686018427387904%Z;
  Lin [4093; 12032; 11654] [12919; 12096; 12918; 12917; 12916; 11653] 0%Z [(1%Z, 4093); (1%Z, 12032); (1%Z, 11654); ((-1)%Z, 12096); ((-2)%Z, 11653)] 73786976294838206464%Z 4611686018427387904%Z;
  Lin [4158; 12096] [28158; 11718] 0%Z [(1%Z, 4158); (1%Z, 12096); ((-1)%Z, 28158); ((-2)%Z, 11718)] 73786976294838206464%Z 4611686018427387904%Z;
  Lin [3572; 11072; 10629] [14899; 11136; 14898; 14897; 14896; 10628] 0%Z [(1%Z, 3572); (1%Z, 11072); (1%Z, 10629); ((-1)%Z, 11136); ((-2)%Z, 10628)] 36893488147419103232%Z 9223372036854775808%Z;
  Lin [3637; 11136; 10694] [14651; 11200; 14650; 14649; 14648; 10693] 0%Z [(1%Z, 3637); (1%Z, 11136); (1%Z, 10694); ((-1)%Z, 11200); ((-2)%Z, 10693)] 36893488147419103232%Z 9223372036854775808%Z;
  Lin [3702; 11200; 10759] [14403; 11264; 14402; 14401; 14400; 10758] 0%Z [(1%Z, 3702); (1%Z, 11200); (1%Z, 10759); ((-1)%Z, 11264); ((-2)%Z, 10758)] 36893488147419103232%Z 9223372036854775808%Z;
  Lin [3767; 11264; 10824] [14155; 11328; 14154; 14153; 14152; 10823] 0%Z [(1%Z, 3767); (1%Z, 11264); (1%Z, 10824); ((-1)%Z, 11328); ((-2)%Z, 10823)] 36893488147419103232%Z 9223372036854775808%Z;
  Lin [3832; 11328; 11393] [13907; 11839; 13906; 13905; 13904; 11392] 0%Z [(1%Z, 3832); (1%Z, 11328); (1%Z, 11393); ((-1)%Z, 11839); ((-2)%Z, 11392)] 36893488147419103232%Z 9223372036854775808%Z;
  Lin [3897; 11839; 11458] [13659; 11903; 13658; 13657; 13656; 11457] 0%Z [(1%Z, 3897); (1%Z, 11839); (1%Z, 11458); ((-1)%Z, 11903); ((-2)%Z, 11457)] 36893488147419103232%Z 9223372036854775808%Z;
  Lin [3962; 11903; 11523] [13411; 11967; 13410; 13409; 13408; 11522] 0%Z [(1%Z, 3962); (1%Z, 11903); (1%Z, 11523); ((-1)%Z, 11967); ((-2)%Z, 11522)] 36893488147419103232%Z 9223372036854775808%Z;
  Lin [4027; 11967; 11588] [13163; 12031; 13162; 13161; 13160; 11587] 0%Z [(1%Z, 4027); (1%Z, 11967); (1%Z, 11588); ((-1)%Z, 12031); ((-2)%Z, 11587)] 36893488147419103232%Z 9223372036854775808%Z;
  Lin [4092; 12031; 11653] [12915; 12095; 12914; 12913; 12912; 11652] 0%Z [(1%Z, 4092); (1%Z, 12031); (1%Z, 11653); ((-1)%Z, 12095); ((-2)%Z, 11652)] 36893488147419103232%Z 9223372036854775808%Z;
  Lin [4157; 12095; 11718] [12667; 12159; 12666; 12665; 12664; 11717] 0%Z [(1%Z, 4157); (1%Z, 12095); (1%Z, 11718); ((-1)%Z, 12159); ((-2)%Z, 11717)] 36893488147419103232%Z 9223372036854775808%Z;
  Lin [4222; 12159] [28159; 11781] 0%Z [(1%Z, 4222); (1%Z, 12159); ((-1)%Z, 28159); ((-2)%Z, 11781)] 36893488147419103232%Z 9223372036854775808%Z;
  Lin [3571; 11071; 10628] [14895; 11135; 14894; 14893; 14892; 10627] 0%Z [(1%Z, 3571); (1%Z, 11071); (1%Z, 10628); ((-1)%Z, 11135); ((-2)%Z, 10627)] 18446744073709551616%Z 18446744073709551616%Z;
  Lin [3636; 11135; 10693] [14647; 11199; 14646; 14645; 14644; 10692] 0%Z [(1%Z, 3636); (1%Z, 11135); (1%Z, 10693); ((-1)%Z, 11199); ((-2)%Z, 10692)] 18446744073709551616%Z 18446744073709551616%Z;
  Lin [3701; 11199; 10758] [14399; 11263; 14398; 14397; 14396; 10757] 0%Z [(1%Z, 3701); (1%Z, 11199); (1%Z, 10758); ((-1)%Z, 11263); ((-2)%Z, 10757)] 18446744073709551616%Z 18446744073709551616%Z;
  Lin [3766; 11263; 10823] [14151; 11327; 14150; 14149; 14148; 10822] 0%Z [(1%Z, 3766); (1%Z, 11263); (1%Z, 10823); ((-1)%Z, 11327); ((-2)%Z, 10822)] 18446744073709551616%Z 18446744073709551616%Z;
  Lin [3831; 11327; 11392] [13903; 11838; 13902; 13901; 13900; 11391] 0%Z [(1%Z, 3831); (1%Z, 11327); (1%Z, 11392); ((-1)%Z, 11838); ((-2)%Z, 11391)] 18446744073709551616%Z 18446744073709551616%Z;
  Lin [3896; 11838; 11457] [13655; 11902; 13654; 13653; 13652; 11456] 0%Z [(1%Z, 3896); (1%Z, 11838); (1%Z, 11457); ((-1)%Z, 11902); ((-2)%Z, 11456)] 18446744073709551616%Z 18446744073709551616%Z].
Definition mult2_64_facts_34 : list lin_fact := [
  Lin [3961; 11902; 11522] [13407; 11966; 13406; 13405; 13404; 11521] 0%Z [(1%Z, 3961); (1%Z, 11902); (1%Z, 11522); ((-1)%Z, 11966); ((-2)%Z, 11521)] 18446744073709551616%Z 18446744073709551616%Z;
  Lin [4026; 11966; 11587] [13159; 12030; 13158; 13157; 13156; 11586] 0%Z [(1%Z, 4026); (1%Z, 11966); (1%Z, 11587); ((-1)%Z, 12030); ((-2)%Z, 11586)] 18446744073709551616%Z 18446744073709551616%Z;
  Lin [4091; 12030; 11652] [12911; 12094; 12910; 12909; 12908; 11651] 0%Z [(1%Z, 4091); (1%Z, 12030); (1%Z, 11652); ((-1)%Z, 12094); ((-2)%Z, 11651)] 18446744073709551616%Z 18446744073709551616%Z;
  Lin [4156; 12094; 11717] [12663; 12158; 12662; 12661; 12660; 11716] 0%Z [(1%Z, 4156); (1%Z, 12094); (1%Z, 11717); ((-1)%Z, 12158); ((-2)%Z, 11716)] 18446744073709551616%Z 18446744073709551616%Z;
  Lin [4221; 12158; 11781] [12415; 28032; 12414; 12413; 12412; 11780] 0%Z [(1%Z, 4221); (1%Z, 12158); (1%Z, 11781); ((-1)%Z, 28032); ((-2)%Z, 11780)] 18446744073709551616%Z 18446744073709551616%Z;
  Lin [3570; 11070; 10627] [14891; 11134; 14890; 14889; 14888; 10626] 0%Z [(1%Z, 3570); (1%Z, 11070); (1%Z, 10627); ((-1)%Z, 11134); ((-2)%Z, 10626)] 9223372036854775808%Z 36893488147419103232%Z;
  Lin [3569; 11069; 10626] [14887; 11133; 14886; 14885; 14884; 10625] 0%Z [(1%Z, 3569); (1%Z, 11069); (1%Z, 10626); ((-1)%Z, 11133); ((-2)%Z, 10625)] 4611686018427387904%Z 73786976294838206464%Z;
  Lin [3568; 11068; 10625] [14883; 11132; 14882; 14881; 14880; 10624] 0%Z [(1%Z, 3568); (1%Z, 11068); (1%Z, 10625); ((-1)%Z, 11132); ((-2)%Z, 10624)] 2305843009213693952%Z 147573952589676412928%Z;
  Lin [3567; 11067; 10624] [14879; 11131; 14878; 14877; 14876; 10623] 0%Z [(1%Z, 3567); (1%Z, 11067); (1%Z, 10624); ((-1)%Z, 11131); ((-2)%Z, 10623)] 1152921504606846976%Z 295147905179352825856%Z;
  Lin [3566; 11066; 10623] [14875; 11130; 14874; 14873; 14872; 10622] 0%Z [(1%Z, 3566); (1%Z, 11066); (1%Z, 10623); ((-1)%Z, 11130); ((-2)%Z, 10622)] 576460752303423488%Z 590295810358705651712%Z;
  Lin [3565; 11065; 10622] [14871; 11129; 14870; 14869; 14868; 10621] 0%Z [(1%Z, 3565); (1%Z, 11065); (1%Z, 10622); ((-1)%Z, 11129); ((-2)%Z, 10621)] 288230376151711744%Z 1180591620717411303424%Z;
  Lin [3564; 11064; 10621] [14867; 11128; 14866; 14865; 14864; 10620] 0%Z [(1%Z, 3564); (1%Z, 11064); (1%Z, 10621); ((-1)%Z, 11128); ((-2)%Z, 10620)] 144115188075855872%Z 2361183241434822606848%Z;
  Lin [3563; 11063; 10620] [14863; 11127; 14862; 14861; 14860; 10619] 0%Z [(1%Z, 3563); (1%Z, 11063); (1%Z, 10620); ((-1)%Z, 11127); ((-2)%Z, 10619)] 72057594037927936%Z 4722366482869645213696%Z;
  Lin [3562; 11062; 10619] [14859; 11126; 14858; 14857; 14856; 10618] 0%Z [(1%Z, 3562); (1%Z, 11062); (1%Z, 10619); ((-1)%Z, 11126); ((-2)%Z, 10618)] 36028797018963968%Z 9444732965739290427392%Z;
  Lin [3561; 11061; 10618] [14855; 11125; 14854; 14853; 14852; 10617] 0%Z [(1%Z, 3561); (1%Z, 11061); (1%Z, 10618); ((-1)%Z, 11125); ((-2)%Z, 10617)] 18014398509481984%Z 18889465931478580854784%Z;
  Lin [3560; 11060; 10617] [14851; 11124; 14850; 14849; 14848; 10616] 0%Z [(1%Z, 3560); (1%Z, 11060); (1%Z, 10617); ((-1)%Z, 11124); ((-2)%Z, 10616)] 9007199254740992%Z 37778931862957161709568%Z;
  Lin [3559; 11059; 10616] [14847; 11123; 14846; 14845; 14844; 10615] 0%Z [(1%Z, 3559); (1%Z, 11059); (1%Z, 10616); ((-1)%Z, 11123); ((-2)%Z, 10615)] 4503599627370496%Z 75557863725914323419136%Z;
  Lin [3558; 11058; 10615] [14843; 11122; 14842; 14841; 14840; 10614] 0%Z [(1%Z, 3558); (1%Z, 11058); (1%Z, 10615); ((-1)%Z, 11122); ((-2)%Z, 10614)] 2251799813685248%Z 151115727451828646838272%Z;
  Lin [3557; 11057; 10614] [14839; 11121; 14838; 14837; 14836; 10613] 0%Z [(1%Z, 3557); (1%Z, 11057); (1%Z, 10614); ((-1)%Z, 11121); ((-2)%Z, 10613)] 1125899906842624%Z 302231454903657293676544%Z;
  Lin [3556; 11056; 10613] [14835; 11120; 14834; 14833; 14832; 10612] 0%Z [(1%Z, 3556); (1%Z, 11056); (1%Z, 10613); ((-1)%Z, 11120); ((-2)%Z, 10612)] 562949953421312%Z 604462909807314587353088%Z;
  Lin [3555; 11055; 10612] [14831; 11119; 14830; 14829; 14828; 10611] 0%Z [(1%Z, 3555); (1%Z, 11055); (1%Z, 10612); ((-1)%Z, 11119); ((-2)%Z, 10611)] 281474976710656%Z 1208925819614629174706176%Z;
  Lin [3554; 11054; 10611] [14827; 11118; 14826; 14825; 14824; 10610] 0%Z [(1%Z, 3554); (1%Z, 11054); (1%Z, 10611); ((-1)%Z, 11118); ((-2)%Z, 10610)] 140737488355328%Z 2417851639229258349412352%Z;
  Lin [3553; 11053; 10610] [14823; 11117; 14822; 14821; 14820; 10609] 0%Z [(1%Z, 3553); (1%Z, 11053); (1%Z, 10610); ((-1)%Z, 11117); ((-2)%Z, 10609)] 70368744177664%Z 4835703278458516698824704%Z;
  Lin [3552; 11052; 10609] [14819; 11116; 14818; 14817; 14816; 10608] 0%Z [(1%Z, 3552); (1%Z, 11052); (1%Z, 10609); ((-1)%Z, 11116); ((-2)%Z, 10608)] 35184372088832%Z 9671406556917033397649408%Z;
  Lin [3551; 11051; 10608] [14815; 11115; 14814; 14813; 14812; 10607] 0%Z [(1%Z, 3551); (1%Z, 11051); (1%Z, 10608); ((-1)%Z, 11115); ((-2)%Z, 10607)] 17592186044416%Z 19342813113834066795298816%Z;
  Lin [3550; 11050; 10607] [14811; 11114; 14810; 14809; 14808; 10606] 0%Z [(1%Z, 3550); (1%Z, 11050); (1%Z, 10607); ((-1)%Z, 11114); ((-2)%Z, 10606)] 8796093022208%Z 38685626227668133590597632%Z;
  Lin [3549; 11049; 10606] [14807; 11113; 14806; 14805; 14804; 10605] 0%Z [(1%Z, 3549); (1%Z, 11049); (1%Z, 10606); ((-1)%Z, 11113); ((-2)%Z, 10605)] 4398046511104%Z 77371252455336267181195264%Z;
  Lin [3548; 11048; 10605] [14803; 11112; 14802; 14801; 14800; 10604] 0%Z [(1%Z, 3548); (1%Z, 11048); (1%Z, 10605); ((-1)%Z, 11112); ((-2)%Z, 10604)] 2199023255552%Z 154742504910672534362390528%Z;
  Lin [3547; 11047; 10604] [14799; 11111; 14798; 14797; 14796; 10603] 0%Z [(1%Z, 3547); (1%Z, 11047); (1%Z, 10604); ((-1)%Z, 11111); ((-2)%Z, 10603)] 1099511627776%Z 309485009821345068724781056%Z;
  Lin [3546; 11046; 10603] [14795; 11110; 14794; 14793; 14792; 10602] 0%Z [(1%Z, 3546); (1%Z, 11046); (1%Z, 10603); ((-1)%Z, 11110); ((-2)%Z, 10602)] 549755813888%Z 618970019642690137449562112%Z;
  Lin [3545; 11045; 10602] [14791; 11109; 14790; 14789; 14788; 10601] 0%Z [(1%Z, 3545); (1%Z, 11045); (1%Z, 10602); ((-1)%Z, 11109); ((-2)%Z, 10601)] 274877906944%Z 1237940039285380274899124224%Z;
  Lin [3544; 11044; 10601] [14787; 11108; 14786; 14785; 14784; 10600] 0%Z [(1%Z, 3544); (1%Z, 11044); (1%Z, 10601); ((-1)%Z, 11108); ((-2)%Z, 10600)] 137438953472%Z 2475880078570760549798248448%Z;
  Lin [3543; 11043; 10600] [14783; 11107; 14782; 14781; 14780; 10599] 0%Z [(1%Z, 3543); (1%Z, 11043); (1%Z, 10600); ((-1)%Z, 11107); ((-2)%Z, 10599)] 68719476736%Z 4951760157141521099596496896%Z;
  Lin [3542; 11042; 10599] [14779; 11106; 14778; 14777; 14776; 10598] 0%Z [(1%Z, 3542); (1%Z, 11042); (1%Z, 10599); ((-1)%Z, 11106); ((-2)%Z, 10598)] 34359738368%Z 9903520314283042199192993792%Z;
  Lin [3541; 11041; 10598] [14775; 11105; 14774; 14773; 14772; 10597] 0%Z [(1%Z, 3541); (1%Z, 11041); (1%Z, 10598); ((-1)%Z, 11105); ((-2)%Z, 10597)] 17179869184%Z 19807040628566084398385987584%Z;
  Lin [3540; 11040; 10597] [14771; 11104; 14770; 14769; 14768; 10596] 0%Z [(1%Z, 3540); (1%Z, 11040); (1%Z, 10597); ((-1)%Z, 11104); ((-2)%Z, 10596)] 8589934592%Z 39614081257132168796771975168%Z;
  Lin [3539; 11039; 10596] [14767; 11103; 14766; 14765; 14764; 10595] 0%Z [(1%Z, 3539); (1%Z, 11039); (1%Z, 10596); ((-1)%Z, 11103); ((-2)%Z, 10595)] 4294967296%Z 79228162514264337593543950336%Z;
  Lin [3538; 11038; 10595] [14763; 11102; 14762; 14761; 14760; 10594] 0%Z [(1%Z, 3538); (1%Z, 11038); (1%Z, 10595); ((-1)%Z, 11102); ((-2)%Z, 10594)] 2147483648%Z 158456325028528675187087900672%Z;
  Lin [3537; 11037; 10594] [14759; 11101; 14758; 14757; 14756; 10593] 0%Z [(1%Z, 3537); (1%Z, 11037); (1%Z, 10594); ((-1)%Z, 11101); ((-2)%Z, 10593)] 1073741824%Z 316912650057057350374175801344%Z;
  Lin [3536; 11036; 10593] [14755; 11100; 14754; 14753; 14752; 10592] 0%Z [(1%Z, 3536); (1%Z, 11036); (1%Z, 10593); ((-1)%Z, 11100); ((-2)%Z, 10592)] 536870912%Z 633825300114114700748351602688%Z;
  Lin [3535; 11035; 10592] [14751; 11099; 14750; 14749; 14748; 10591] 0%Z [(1%Z, 3535); (1%Z, 11035); (1%Z, 10592); ((-1)%Z, 11099); ((-2)%Z, 10591)] 268435456%Z 1267650600228229401496703205376%Z;
  Lin [3534; 11034; 10591] [14747; 11098; 14746; 14745; 14744; 10590] 0%Z [(1%Z, 3534); (1%Z, 11034); (1%Z, 10591); ((-1)%Z, 11098); ((-2)%Z, 10590)] 134217728%Z 2535301200456458802993406410752%Z;
  Lin [3533; 11033; 10590] [14743; 11097; 14742; 14741; 14740; 10589] 0%Z [(1%Z, 3533); (1%Z, 11033); (1%Z, 10590); ((-1)%Z, 11097); ((-2)%Z, 10589)] 67108864%Z 5070602400912917605986812821504%Z;
  Lin [3532; 11032; 10589] [14739; 11096; 14738; 14737; 14736; 10588] 0%Z [(1%Z, 3532); (1%Z, 11032); (1%Z, 10589); ((-1)%Z, 11096); ((-2)%Z, 10588)] 33554432%Z 10141204801825835211973625643008%Z;
  Lin [3531; 11031; 10588] [14735; 11095; 14734; 14733; 14732; 10587] 0%Z [(1%Z, 3531); (1%Z, 11031); (1%Z, 10588); ((-1)%Z, 11095); ((-2)%Z, 10587)] 16777216%Z 20282409603651670423947251286016%Z;
  Lin [3530; 11030; 10587] [14731; 11094; 14730; 14729; 14728; 10586] 0%Z [(1%Z, 3530); (1%Z, 11030); (1%Z, 10587); ((-1)%Z, 11094); ((-2)%Z, 10586)] 8388608%Z 40564819207303340847894502572032%Z;
  Lin [3529; 11029; 10586] [14727; 11093; 14726; 14725; 14724; 10585] 0%Z [(1%Z, 3529); (1%Z, 11029); (1%Z, 10586); ((-1)%Z, 11093); ((-2)%Z, 10585)] 4194304%Z 81129638414606681695789005144064%Z;
  Lin [3528; 11028; 10585] [14723; 11092; 14722; 14721; 14720; 10584] 0%Z [(1%Z, 3528); (1%Z, 11028); (1%Z, 10585); ((-1)%Z, 11092); ((-2)%Z, 10584)] 2097152%Z 162259276829213363391578010288128%Z;
  Lin [3527; 11027; 10584] [14719; 11091; 14718; 14717; 14716; 10583] 0%Z [(1%Z, 3527); (1%Z, 11027); (1%Z, 10584); ((-1)%Z, 11091); ((-2)%Z, 10583)] 1048576%Z 324518553658426726783156020576256%Z;
  Lin [3526; 11026; 10583] [14715; 11090; 14714; 14713; 14712; 10582] 0%Z [(1%Z, 3526); (1%Z, 11026); (1%Z, 10583); ((-1)%Z, 11090); ((-2)%Z, 10582)] 524288%Z 649037107316853453566312041152512%Z;
  Lin [3525; 11025; 10582] [14711; 11089; 14710; 14709; 14708; 10581] 0%Z [(1%Z, 3525); (1%Z, 11025); (1%Z, 10582); ((-1)%Z, 11089); ((-2)%Z, 10581)] 262144%Z 1298074214633706907132624082305024%Z;
  Lin [3524; 11024; 10581] [14707; 11088; 14706; 14705; 14704; 10580] 0%Z [(1%Z, 3524); (1%Z, 11024); (1%Z, 10581); ((-1)%Z, 11088); ((-2)%Z, 10580)] 131072%Z 2596148429267413814265248164610048%Z;
  Lin [3523; 11023; 10580] [14703; 11087; 14702; 14701; 14700; 10579] 0%Z [(1%Z, 3523); (1%Z, 11023); (1%Z, 10580); ((-1)%Z, 11087); ((-2)%Z, 10579)] 65536%Z 5192296858534827628530496329220096%Z;
  Lin [3522; 11022; 10579] [14699; 11086; 14698; 14697; 14696; 10578] 0%Z [(1%Z, 3522); (1%Z, 11022); (1%Z, 10579); ((-1)%Z, 11086); ((-2)%Z, 10578)] 32768%Z 10384593717069655257060992658440192%Z;
  Lin [3521; 11021; 10578] [14695; 11085; 14694; 14693; 14692; 10577] 0%Z [(1%Z, 3521); (1%Z, 11021); (1%Z, 10578); ((-1)%Z, 11085); ((-2)%Z, 10577)] 16384%Z 20769187434139310514121985316880384%Z;
  Lin [3520; 11020; 10577] [14691; 11084; 14690; 14689; 14688; 10576] 0%Z [(1%Z, 3520); (1%Z, 11020); (1%Z, 10577); ((-1)%Z, 11084); ((-2)%Z, 10576)] 8192%Z 41538374868278621028243970633760768%Z;
  Lin [3519; 10511; 10576] [14687; 11083; 14686; 14685; 14684; 10575] 0%Z [(1%Z, 3519); (1%Z, 10511); (1%Z, 10576); ((-1)%Z, 11083); ((-2)%Z, 10575)] 4096%Z 83076749736557242056487941267521536%Z;
  Lin [3635; 11134; 10692] [14643; 11198; 14642; 14641; 14640; 10691] 0%Z [(1%Z, 3635); (1%Z, 11134); (1%Z, 10692); ((-1)%Z, 11198); ((-2)%Z, 10691)] 9223372036854775808%Z 36893488147419103232%Z;
  Lin [3700; 11198; 10757] [14395; 11262; 14394; 14393; 14392; 10756] 0%Z [(1%Z, 3700); (1%Z, 11198); (1%Z, 10757); ((-1)%Z, 11262); ((-2)%Z, 10756)] 9223372036854775808%Z 36893488147419103232%Z;
  Lin [3765; 11262; 10822] [14147; 11326; 14146; 14145; 14144; 10821] 0%Z [(1%Z, 3765); (1%Z, 11262); (1%Z, 10822); ((-1)%Z, 11326); ((-2)%Z, 10821)] 9223372036854775808%Z 36893488147419103232%Z;
  Lin [3830; 11326; 11391] [13899; 11837; 13898; 13897; 13896; 11390] 0%Z [(1%Z, 3830); (1%Z, 11326); (1%Z, 11391); ((-1)%Z, 11837); ((-2)%Z, 11390)] 9223372036854775808%Z 36893488147419103232%Z;
  Lin [3895; 11837; 11456] [13651; 11901; 13650; 13649; 13648; 11455] 0%Z [(1%Z, 3895); (1%Z, 11837); (1%Z, 11456); ((-1)%Z, 11901); ((-2)%Z, 11455)] 9223372036854775808%Z 36893488147419103232%Z;
  Lin [3960; 11901; 11521] [13403; 11965; 13402; 13401; 13400; 11520] 0%Z [(1%Z, 3960); (1%Z, 11901); (1%Z, 11521); ((-1)%Z, 11965); ((-2)%Z, 11520)] 9223372036854775808%Z 36893488147419103232%Z;
  Lin [4025; 11965; 11586] [13155; 12029; 13154; 13153; 13152; 11585] 0%Z [(1%Z, 4025); (1%Z, 11965); (1%Z, 11586); ((-1)%Z, 12029); ((-2)%Z, 11585)] 9223372036854775808%Z 36893488147419103232%Z;
  Lin [4090; 12029; 11651] [12907; 12093; 12906; 12905; 12904; 11650] 0%Z [(1%Z, 4090); (1%Z, 12029); (1%Z, 11651); ((-1)%Z, 12093); ((-2)%Z, 11650)] 9223372036854775808%Z 36893488147419103232%Z;
  Lin [4155; 12093; 11716] [12659; 12157; 12658; 12657; 12656; 11715] 0%Z [(1%Z, 4155); (1%Z, 12093); (1%Z, 11716); ((-1)%Z, 12157); ((-2)%Z, 11715)] 9223372036854775808%Z 36893488147419103232%Z;
  Lin [4220; 12157; 11780] [12411; 28033; 12410; 12409; 12408; 11779] 0%Z [(1%Z, 4220); (1%Z, 12157); (1%Z, 11780); ((-1)%Z, 28033); ((-2)%Z, 11779)] 9223372036854775808%Z 36893488147419103232%Z;
  Lin [3634; 11133; 10691] [14639; 11197; 14638; 14637; 14636; 10690] 0%Z [(1%Z, 3634); (1%Z, 11133); (1%Z, 10691); ((-1)%Z, 11197); ((-2)%Z, 10690)] 4611686018427387904%Z 73786976294838206464%Z;
  Lin [3699; 11197; 10756] [14391; 11261; 14390; 14389; 14388; 10755] 0%Z [(1%Z, 3699); (1%Z, 11197); (1%Z, 10756); ((-1)%Z, 11261); ((-2)%Z, 10755)] 4611686018427387904%Z 73786976294838206464%Z;
  Lin [3764; 11261; 10821] [14143; 11325; 14142; 14141; 14140; 10820] 0%Z [(1%Z, 3764); (1%Z, 11261); (1%Z, 10821); ((-1)%Z, 11325); ((-2)%Z, 10820)] 4611686018427387904%Z 73786976294838206464%Z;
  Lin [3829; 11325; 11390] [13895; 11836; 13894; 13893; 13892; 11389] 0%Z [(1%Z, 3829); (1%Z, 11325); (1%Z, 11390); ((-1)%Z, 11836); ((-2)%Z, 11389)] 4611686018427387904%Z 73786976294838206464%Z;
  Lin [3894; 11836; 11455] [13647; 11900; 13646; 13645; 13644; 11454] 0%Z [(1%Z, 3894); (1%Z, 11836); (1%Z, 11455); ((-1)%Z, 11900); ((-2)%Z, 11454)] 4611686018427387904%Z 73786976294838206464%Z;
  Lin [3959; 11900; 11520] [13399; 11964; 13398; 13397; 13396; 11519] 0%Z [(1%Z, 3959); (1%Z, 11900); (1%Z, 11520); ((-1)%Z, 11964); ((-2)%Z, 11519)] 4611686018427387904%Z 73786976294838206464%Z;
  Lin [4024; 11964; 11585] [13151; 12028; 13150; 13149; 13148; 11584] 0%Z [(1%Z, 4024); (1%Z, 11964); (1%Z, 11585); ((-1)%Z, 12028); ((-2)%Z, 11584)] 4611686018427387904%Z 73786976294838206464%Z;
  Lin [4089; 12028; 11650] [12903; 12092; 12902; 12901; 12900; 11649] 0%Z [(1%Z, 4089); (1%Z, 12028); (1%Z, 11650); ((-1)%Z, 12092); ((-2)%Z, 11649)] 4611686018427387904%Z 73786976294838206464%Z;
  Lin [4154; 12092; 11715] [12655; 12156; 12654; 12653; 12652; 11714] 0%Z [(1%Z, 4154); (1%Z, 12092); (1%Z, 11715); ((-1)%Z, 12156); ((-2)%Z, 11714)] 4611686018427387904%Z 73786976294838206464%Z;
  Lin [4219; 12156; 11779] [12407; 28034; 12406; 12405; 12404; 11778] 0%Z [(1%Z, 4219); (1%Z, 12156); (1%Z, 11779); ((-1)%Z, 28034); ((-2)%Z, 11778)] 4611686018427387904%Z 73786976294838206464%Z;
  Lin [3633; 11132; 10690] [14635; 11196; 14634; 14633; 14632; 10689] 0%Z [(1%Z, 3633); (1%Z, 11132); (1%Z, 10690); ((-1)%Z, 11196); ((-2)%Z, 10689)] 2305843009213693952%Z 147573952589676412928%Z;
  Lin [3632; 11131; 10689] [14631; 11195; 14630; 14629; 14628; 10688] 0%Z [(1%Z, 3632); (1%Z, 11131); (1%Z, 10689); ((-1)%Z, 11195); ((-2)%Z, 10688)] 1152921504606846976%Z 295147905179352825856%Z;
  Lin [3631; 11130; 10688] [14627; 11194; 14626; 14625; 14624; 10687] 0%Z [(1%Z, 3631); (1%Z, 11130); (1%Z, 10688); ((-1)%Z, 11194); ((-2)%Z, 10687)] 576460752303423488%Z 590295810358705651712%Z;
  Lin [3630; 11129; 10687] [14623; 11193; 14622; 14621; 14620; 10686] 0%Z [(1%Z, 3630); (1%Z, 11129); (1%Z, 10687); ((-1)%Z, 11193); ((-2)%Z, 10686)] 288230376151711744%Z 1180591620717411303424%Z;
  Lin [3629; 11128; 10686] [14619; 11192; 14618; 14617; 14616; 10685] 0%Z [(1%Z, 3629); (1%Z, 11128); (1%Z, 10686); ((-1)%Z, 11192); ((-2)%Z, 10685)] 144115188075855872%Z 2361183241434822606848%Z;
  Lin [3628; 11127; 10685] [14615; 11191; 14614; 14613; 14612; 10684] 0%Z [(1%Z, 3628); (1%Z, 11127); (1%Z, 10685); ((-1)%Z, 11191); ((-2)%Z, 10684)] 72057594037927936%Z 4722366482869645213696%Z;
  Lin [3627; 11126; 10684] [14611; 11190; 14610; 14609; 14608; 10683] 0%Z [(1%Z, 3627); (1%Z, 11126); (1%Z, 10684); ((-1)%Z, 11190); ((-2)%Z, 10683)] 36028797018963968%Z 9444732965739290427392%Z;
  Lin [3626; 11125; 10683] [14607; 11189; 14606; 14605; 14604; 10682] 0%Z [(1%Z, 3626); (1%Z, 11125); (1%Z, 10683); ((-1)%Z, 11189); ((-2)%Z, 10682)] 18014398509481984%Z 18889465931478580854784%Z;
  Lin [3625; 11124; 10682] [14603; 11188; 14602; 14601; 14600; 10681] 0%Z [(1%Z, 3625); (1%Z, 11124); (1%Z, 10682); ((-1)%Z, 11188); ((-2)%Z, 10681)] 9007199254740992%Z 37778931862957161709568%Z;
  Lin [3624; 11123; 10681] [14599; 11187; 14598; 14597; 14596; 10680] 0%Z [(1%Z, 3624); (1%Z, 11123); (1%Z, 10681); ((-1)%Z, 11187); ((-2)%Z, 10680)] 4503599627370496%Z 75557863725914323419136%Z;
  Lin [3623; 11122; 10680] [14595; 11186; 14594; 14593; 14592; 10679] 0%Z [(1%Z, 3623); (1%Z, 11122); (1%Z, 10680); ((-1)%Z, 11186); ((-2)%Z, 10679)] 2251799813685248%Z 151115727451828646838272%Z;
  Lin [3622; 11121; 10679] [14591; 11185; 14590; 14589; 14588; 10678] 0%Z [(1%Z, 3622); (1%Z, 11121); (1%Z, 10679); ((-1)%Z, 11185); ((-2)%Z, 10678)] 1125899906842624%Z 302231454903657293676544%Z;
  Lin [3621; 11120; 10678] [14587; 11184; 14586; 14585; 14584; 10677] 0%Z [(1%Z, 3621); (1%Z, 11120); (1%Z, 10678); ((-1)%Z, 11184); ((-2)%Z, 10677)] 562949953421312%Z 604462909807314587353088%Z;
  Lin [3620; 11119; 10677] [14583; 11183; 14582; 14581; 14580; 10676] 0%Z [(1%Z, 3620); (1%Z, 11119); (1%Z, 10677); ((-1)%Z, 11183); ((-2)%Z, 10676)] 281474976710656%Z 1208925819614629174706176%Z;
  Lin [3619; 11118; 10676] [14579; 11182; 14578; 14577; 14576; 10675] 0%Z [(1%Z, 3619); (1%Z, 11118); (1%Z, 10676); ((-1)%Z, 11182); ((-2)%Z, 10675)] 140737488355328%Z 2417851639229258349412352%Z;
  Lin [3618; 11117; 10675] [14575; 11181; 14574; 14573; 14572; 10674] 0%Z [(1%Z, 3618); (1%Z, 11117); (1%Z, 10675); ((-1)%Z, 11181); ((-2)%Z, 10674)] 70368744177664%Z 4835703278458516698824704%Z;
  Lin [3617; 11116; 10674] [14571; 11180; 14570; 14569; 14568; 10673] 0%Z [(1%Z, 3617); (1%Z, 11116); (1%Z, 10674); ((-1)%Z, 11180); ((-2)%Z, 10673)] 35184372088832%Z 9671406556917033397649408%Z;
  Lin [3616; 11115; 10673] [14567; 11179; 14566; 14565; 14564; 10672] 0%Z [(1%Z, 3616); (1%Z, 11115); (1%Z, 10673); ((-1)%Z, 11179); ((-2)%Z, 10672)] 17592186044416%Z 19342813113834066795298816%Z;
  Lin [3615; 11114; 10672] [14563; 11178; 14562; 14561; 14560; 10671] 0%Z [(1%Z, 3615); (1%Z, 11114); (1%Z, 10672); ((-1)%Z, 11178); ((-2)%Z, 10671)] 8796093022208%Z 38685626227668133590597632%Z;
  Lin [3614; 11113; 10671] [14559; 11177; 14558; 14557; 14556; 10670] 0%Z [(1%Z, 3614); (1%Z, 11113); (1%Z, 10671); ((-1)%Z, 11177); ((-2)%Z, 10670)] 4398046511104%Z 77371252455336267181195264%Z;
  Lin [3613; 11112; 10670] [14555; 11176; 14554; 14553; 14552; 10669] 0%Z [(1%Z, 3613); (1%Z, 11112); (1%Z, 10670); ((-1)%Z, 11176); ((-2)%Z, 10669)] 2199023255552%Z 154742504910672534362390528%Z;
  Lin [3612; 11111; 10669] [14551; 11175; 14550; 14549; 14548; 10668] 0%Z [(1%Z, 3612); (1%Z, 11111); (1%Z, 10669); ((-1)%Z, 11175); ((-2)%Z, 10668)] 1099511627776%Z 309485009821345068724781056%Z;
  Lin [3611; 11110; 10668] [14547; 11174; 14546; 14545; 14544; 10667] 0%Z [(1%Z, 3611); (1%Z, 11110); (1%Z, 10668); ((-1)%Z, 11174); ((-2)%Z, 10667)] 549755813888%Z 618970019642690137449562112%Z].
Definition mult2_64_facts_35 : list lin_fact := [
  Lin [3610; 11109; 10667] [14543; 11173; 14542; 14541; 14540; 10666] 0%Z [(1%Z, 3610); (1%Z, 11109); (1%Z, 10667); ((-1)%Z, 11173); ((-2)%Z, 10666)] 274877906944%Z 1237940039285380274899124224%Z;
  Lin [3609; 11108; 10666] [14539; 11172; 14538; 14537; 14536; 10665] 0%Z [(1%Z, 3609); (1%Z, 11108); (1%Z, 10666); ((-1)%Z, 11172); ((-2)%Z, 10665)] 137438953472%Z 2475880078570760549798248448%Z;
  Lin [3608; 11107; 10665] [14535; 11171; 14534; 14533; 14532; 10664] 0%Z [(1%Z, 3608); (1%Z, 11107); (1%Z, 10665); ((-1)%Z, 11171); ((-2)%Z, 10664)] 68719476736%Z 4951760157141521099596496896%Z;
  Lin [3607; 11106; 10664] [14531; 11170; 14530; 14529; 14528; 10663] 0%Z [(1%Z, 3607); (1%Z, 11106); (1%Z, 10664); ((-1)%Z, 11170); ((-2)%Z, 10663)] 34359738368%Z 9903520314283042199192993792%Z;
  Lin [3606; 11105; 10663] [14527; 11169; 14526; 14525; 14524; 10662] 0%Z [(1%Z, 3606); (1%Z, 11105); (1%Z, 10663); ((-1)%Z, 11169); ((-2)%Z, 10662)] 17179869184%Z 19807040628566084398385987584%Z;
  Lin [3605; 11104; 10662] [14523; 11168; 14522; 14521; 14520; 10661] 0%Z [(1%Z, 3605); (1%Z, 11104); (1%Z, 10662); ((-1)%Z, 11168); ((-2)%Z, 10661)] 8589934592%Z 39614081257132168796771975168%Z;
  Lin [3604; 11103; 10661] [14519; 11167; 14518; 14517; 14516; 10660] 0%Z [(1%Z, 3604); (1%Z, 11103); (1%Z, 10661); ((-1)%Z, 11167); ((-2)%Z, 10660)] 4294967296%Z 79228162514264337593543950336%Z;
  Lin [3603; 11102; 10660] [14515; 11166; 14514; 14513; 14512; 10659] 0%Z [(1%Z, 3603); (1%Z, 11102); (1%Z, 10660); ((-1)%Z, 11166); ((-2)%Z, 10659)] 2147483648%Z 158456325028528675187087900672%Z;
  Lin [3602; 11101; 10659] [14511; 11165; 14510; 14509; 14508; 10658] 0%Z [(1%Z, 3602); (1%Z, 11101); (1%Z, 10659); ((-1)%Z, 11165); ((-2)%Z, 10658)] 1073741824%Z 316912650057057350374175801344%Z;
  Lin [3601; 11100; 10658] [14507; 11164; 14506; 14505; 14504; 10657] 0%Z [(1%Z, 3601); (1%Z, 11100); (1%Z, 10658); ((-1)%Z, 11164); ((-2)%Z, 10657)] 536870912%Z 633825300114114700748351602688%Z;
  Lin [3600; 11099; 10657] [14503; 11163; 14502; 14501; 14500; 10656] 0%Z [(1%Z, 3600); (1%Z, 11099); (1%Z, 10657); ((-1)%Z, 11163); ((-2)%Z, 10656)] 268435456%Z 1267650600228229401496703205376%Z;
  Lin [3599; 11098; 10656] [14499; 11162; 14498; 14497; 14496; 10655] 0%Z [(1%Z, 3599); (1%Z, 11098); (1%Z, 10656); ((-1)%Z, 11162); ((-2)%Z, 10655)] 134217728%Z 2535301200456458802993406410752%Z;
  Lin [3598; 11097; 10655] [14495; 11161; 14494; 14493; 14492; 10654] 0%Z [(1%Z, 3598); (1%Z, 11097); (1%Z, 10655); ((-1)%Z, 11161); ((-2)%Z, 10654)] 67108864%Z 5070602400912917605986812821504%Z;
  Lin [3597; 11096; 10654] [14491; 11160; 14490; 14489; 14488; 10653] 0%Z [(1%Z, 3597); (1%Z, 11096); (1%Z, 10654); ((-1)%Z, 11160); ((-2)%Z, 10653)] 33554432%Z 10141204801825835211973625643008%Z;
  Lin [3596; 11095; 10653] [14487; 11159; 14486; 14485; 14484; 10652] 0%Z [(1%Z, 3596); (1%Z, 11095); (1%Z, 10653); ((-1)%Z, 11159); ((-2)%Z, 10652)] 16777216%Z 20282409603651670423947251286016%Z;
  Lin [3595; 11094; 10652] [14483; 11158; 14482; 14481; 14480; 10651] 0%Z [(1%Z, 3595); (1%Z, 11094); (1%Z, 10652); ((-1)%Z, 11158); ((-2)%Z, 10651)] 8388608%Z 40564819207303340847894502572032%Z;
  Lin [3594; 11093; 10651] [14479; 11157; 14478; 14477; 14476; 10650] 0%Z [(1%Z, 3594); (1%Z, 11093); (1%Z, 10651); ((-1)%Z, 11157); ((-2)%Z, 10650)] 4194304%Z 81129638414606681695789005144064%Z;
  Lin [3593; 11092; 10650] [14475; 11156; 14474; 14473; 14472; 10649] 0%Z [(1%Z, 3593); (1%Z, 11092); (1%Z, 10650); ((-1)%Z, 11156); ((-2)%Z, 10649)] 2097152%Z 162259276829213363391578010288128%Z;
  Lin [3592; 11091; 10649] [14471; 11155; 14470; 14469; 14468; 10648] 0%Z [(1%Z, 3592); (1%Z, 11091); (1%Z, 10649); ((-1)%Z, 11155); ((-2)%Z, 10648)] 1048576%Z 324518553658426726783156020576256%Z;
  Lin [3591; 11090; 10648] [14467; 11154; 14466; 14465; 14464; 10647] 0%Z [(1%Z, 3591); (1%Z, 11090); (1%Z, 10648); ((-1)%Z, 11154); ((-2)%Z, 10647)] 524288%Z 649037107316853453566312041152512%Z;
  Lin [3590; 11089; 10647] [14463; 11153; 14462; 14461; 14460; 10646] 0%Z [(1%Z, 3590); (1%Z, 11089); (1%Z, 10647); ((-1)%Z, 11153); ((-2)%Z, 10646)] 262144%Z 1298074214633706907132624082305024%Z;
  Lin [3589; 11088; 10646] [14459; 11152; 14458; 14457; 14456; 10645] 0%Z [(1%Z, 3589); (1%Z, 11088); (1%Z, 10646); ((-1)%Z, 11152); ((-2)%Z, 10645)] 131072%Z 2596148429267413814265248164610048%Z;
  Lin [3588; 11087; 10645] [14455; 11151; 14454; 14453; 14452; 10644] 0%Z [(1%Z, 3588); (1%Z, 11087); (1%Z, 10645); ((-1)%Z, 11151); ((-2)%Z, 10644)] 65536%Z 5192296858534827628530496329220096%Z;
  Lin [3587; 11086; 10644] [14451; 11150; 14450; 14449; 14448; 10643] 0%Z [(1%Z, 3587); (1%Z, 11086); (1%Z, 10644); ((-1)%Z, 11150); ((-2)%Z, 10643)] 32768%Z 10384593717069655257060992658440192%Z;
  Lin [3586; 11085; 10643] [14447; 11149; 14446; 14445; 14444; 10642] 0%Z [(1%Z, 3586); (1%Z, 11085); (1%Z, 10643); ((-1)%Z, 11149); ((-2)%Z, 10642)] 16384%Z 20769187434139310514121985316880384%Z;
  Lin [3585; 11084; 10642] [14443; 11148; 14442; 14441; 14440; 10641] 0%Z [(1%Z, 3585); (1%Z, 11084); (1%Z, 10642); ((-1)%Z, 11148); ((-2)%Z, 10641)] 8192%Z 41538374868278621028243970633760768%Z;
  Lin [3584; 11083; 10641] [14439; 11147; 14438; 14437; 14436; 10640] 0%Z [(1%Z, 3584); (1%Z, 11083); (1%Z, 10641); ((-1)%Z, 11147); ((-2)%Z, 10640)] 4096%Z 83076749736557242056487941267521536%Z;
  Lin [3583; 10575; 10640] [14435; 11146; 14434; 14433; 14432; 10639] 0%Z [(1%Z, 3583); (1%Z, 10575); (1%Z, 10640); ((-1)%Z, 11146); ((-2)%Z, 10639)] 2048%Z 166153499473114484112975882535043072%Z;
  Lin [3698; 11196; 10755] [14387; 11260; 14386; 14385; 14384; 10754] 0%Z [(1%Z, 3698); (1%Z, 11196); (1%Z, 10755); ((-1)%Z, 11260); ((-2)%Z, 10754)] 2305843009213693952%Z 147573952589676412928%Z;
  Lin [3763; 11260; 10820] [14139; 11324; 14138; 14137; 14136; 10819] 0%Z [(1%Z, 3763); (1%Z, 11260); (1%Z, 10820); ((-1)%Z, 11324); ((-2)%Z, 10819)] 2305843009213693952%Z 147573952589676412928%Z;
  Lin [3828; 11324; 11389] [13891; 11835; 13890; 13889; 13888; 11388] 0%Z [(1%Z, 3828); (1%Z, 11324); (1%Z, 11389); ((-1)%Z, 11835); ((-2)%Z, 11388)] 2305843009213693952%Z 147573952589676412928%Z;
  Lin [3893; 11835; 11454] [13643; 11899; 13642; 13641; 13640; 11453] 0%Z [(1%Z, 3893); (1%Z, 11835); (1%Z, 11454); ((-1)%Z, 11899); ((-2)%Z, 11453)] 2305843009213693952%Z 147573952589676412928%Z;
  Lin [3958; 11899; 11519] [13395; 11963; 13394; 13393; 13392; 11518] 0%Z [(1%Z, 3958); (1%Z, 11899); (1%Z, 11519); ((-1)%Z, 11963); ((-2)%Z, 11518)] 2305843009213693952%Z 147573952589676412928%Z;
  Lin [4023; 11963; 11584] [13147; 12027; 13146; 13145; 13144; 11583] 0%Z [(1%Z, 4023); (1%Z, 11963); (1%Z, 11584); ((-1)%Z, 12027); ((-2)%Z, 11583)] 2305843009213693952%Z 147573952589676412928%Z;
  Lin [4088; 12027; 11649] [12899; 12091; 12898; 12897; 12896; 11648] 0%Z [(1%Z, 4088); (1%Z, 12027); (1%Z, 11649); ((-1)%Z, 12091); ((-2)%Z, 11648)] 2305843009213693952%Z 147573952589676412928%Z;
  Lin [4153; 12091; 11714] [12651; 12155; 12650; 12649; 12648; 11713] 0%Z [(1%Z, 4153); (1%Z, 12091); (1%Z, 11714); ((-1)%Z, 12155); ((-2)%Z, 11713)] 2305843009213693952%Z 147573952589676412928%Z;
  Lin [4218; 12155; 11778] [12403; 28035; 12402; 12401; 12400; 11777] 0%Z [(1%Z, 4218); (1%Z, 12155); (1%Z, 11778); ((-1)%Z, 28035); ((-2)%Z, 11777)] 2305843009213693952%Z 147573952589676412928%Z;
  Lin [3697; 11195; 10754] [14383; 11259; 14382; 14381; 14380; 10753] 0%Z [(1%Z, 3697); (1%Z, 11195); (1%Z, 10754); ((-1)%Z, 11259); ((-2)%Z, 10753)] 1152921504606846976%Z 295147905179352825856%Z;
  Lin [3696; 11194; 10753] [14379; 11258; 14378; 14377; 14376; 10752] 0%Z [(1%Z, 3696); (1%Z, 11194); (1%Z, 10753); ((-1)%Z, 11258); ((-2)%Z, 10752)] 576460752303423488%Z 590295810358705651712%Z;
  Lin [3695; 11193; 10752] [14375; 11257; 14374; 14373; 14372; 10751] 0%Z [(1%Z, 3695); (1%Z, 11193); (1%Z, 10752); ((-1)%Z, 11257); ((-2)%Z, 10751)] 288230376151711744%Z 1180591620717411303424%Z;
  Lin [3694; 11192; 10751] [14371; 11256; 14370; 14369; 14368; 10750] 0%Z [(1%Z, 3694); (1%Z, 11192); (1%Z, 10751); ((-1)%Z, 11256); ((-2)%Z, 10750)] 144115188075855872%Z 2361183241434822606848%Z;
  Lin [3693; 11191; 10750] [14367; 11255; 14366; 14365; 14364; 10749] 0%Z [(1%Z, 3693); (1%Z, 11191); (1%Z, 10750); ((-1)%Z, 11255); ((-2)%Z, 10749)] 72057594037927936%Z 4722366482869645213696%Z;
  Lin [3692; 11190; 10749] [14363; 11254; 14362; 14361; 14360; 10748] 0%Z [(1%Z, 3692); (1%Z, 11190); (1%Z, 10749); ((-1)%Z, 11254); ((-2)%Z, 10748)] 36028797018963968%Z 9444732965739290427392%Z;
  Lin [3691; 11189; 10748] [14359; 11253; 14358; 14357; 14356; 10747] 0%Z [(1%Z, 3691); (1%Z, 11189); (1%Z, 10748); ((-1)%Z, 11253); ((-2)%Z, 10747)] 18014398509481984%Z 18889465931478580854784%Z;
  Lin [3690; 11188; 10747] [14355; 11252; 14354; 14353; 14352; 10746] 0%Z [(1%Z, 3690); (1%Z, 11188); (1%Z, 10747); ((-1)%Z, 11252); ((-2)%Z, 10746)] 9007199254740992%Z 37778931862957161709568%Z;
  Lin [3689; 11187; 10746] [14351; 11251; 14350; 14349; 14348; 10745] 0%Z [(1%Z, 3689); (1%Z, 11187); (1%Z, 10746); ((-1)%Z, 11251); ((-2)%Z, 10745)] 4503599627370496%Z 75557863725914323419136%Z;
  Lin [3688; 11186; 10745] [14347; 11250; 14346; 14345; 14344; 10744] 0%Z [(1%Z, 3688); (1%Z, 11186); (1%Z, 10745); ((-1)%Z, 11250); ((-2)%Z, 10744)] 2251799813685248%Z 151115727451828646838272%Z;
  Lin [3687; 11185; 10744] [14343; 11249; 14342; 14341; 14340; 10743] 0%Z [(1%Z, 3687); (1%Z, 11185); (1%Z, 10744); ((-1)%Z, 11249); ((-2)%Z, 10743)] 1125899906842624%Z 302231454903657293676544%Z;
  Lin [3686; 11184; 10743] [14339; 11248; 14338; 14337; 14336; 10742] 0%Z [(1%Z, 3686); (1%Z, 11184); (1%Z, 10743); ((-1)%Z, 11248); ((-2)%Z, 10742)] 562949953421312%Z 604462909807314587353088%Z;
  Lin [3685; 11183; 10742] [14335; 11247; 14334; 14333; 14332; 10741] 0%Z [(1%Z, 3685); (1%Z, 11183); (1%Z, 10742); ((-1)%Z, 11247); ((-2)%Z, 10741)] 281474976710656%Z 1208925819614629174706176%Z;
  Lin [3684; 11182; 10741] [14331; 11246; 14330; 14329; 14328; 10740] 0%Z [(1%Z, 3684); (1%Z, 11182); (1%Z, 10741); ((-1)%Z, 11246); ((-2)%Z, 10740)] 140737488355328%Z 2417851639229258349412352%Z;
  Lin [3683; 11181; 10740] [14327; 11245; 14326; 14325; 14324; 10739] 0%Z [(1%Z, 3683); (1%Z, 11181); (1%Z, 10740); ((-1)%Z, 11245); ((-2)%Z, 10739)] 70368744177664%Z 4835703278458516698824704%Z;
  Lin [3682; 11180; 10739] [14323; 11244; 14322; 14321; 14320; 10738] 0%Z [(1%Z, 3682); (1%Z, 11180); (1%Z, 10739); ((-1)%Z, 11244); ((-2)%Z, 10738)] 35184372088832%Z 9671406556917033397649408%Z;
  Lin [3681; 11179; 10738] [14319; 11243; 14318; 14317; 14316; 10737] 0%Z [(1%Z, 3681); (1%Z, 11179); (1%Z, 10738); ((-1)%Z, 11243); ((-2)%Z, 10737)] 17592186044416%Z 19342813113834066795298816%Z;
  Lin [3680; 11178; 10737] [14315; 11242; 14314; 14313; 14312; 10736] 0%Z [(1%Z, 3680); (1%Z, 11178); (1%Z, 10737); ((-1)%Z, 11242); ((-2)%Z, 10736)] 8796093022208%Z 38685626227668133590597632%Z;
  Lin [3679; 11177; 10736] [14311; 11241; 14310; 14309; 14308; 10735] 0%Z [(1%Z, 3679); (1%Z, 11177); (1%Z, 10736); ((-1)%Z, 11241); ((-2)%Z, 10735)] 4398046511104%Z 77371252455336267181195264%Z;
  Lin [3678; 11176; 10735] [14307; 11240; 14306; 14305; 14304; 10734] 0%Z [(1%Z, 3678); (1%Z, 11176); (1%Z, 10735); ((-1)%Z, 11240); ((-2)%Z, 10734)] 2199023255552%Z 154742504910672534362390528%Z;
  Lin [3677; 11175; 10734] [14303; 11239; 14302; 14301; 14300; 10733] 0%Z [(1%Z, 3677); (1%Z, 11175); (1%Z, 10734); ((-1)%Z, 11239); ((-2)%Z, 10733)] 1099511627776%Z 309485009821345068724781056%Z;
  Lin [3676; 11174; 10733] [14299; 11238; 14298; 14297; 14296; 10732] 0%Z [(1%Z, 3676); (1%Z, 11174); (1%Z, 10733); ((-1)%Z, 11238); ((-2)%Z, 10732)] 549755813888%Z 618970019642690137449562112%Z;
  Lin [3675; 11173; 10732] [14295; 11237; 14294; 14293; 14292; 10731] 0%Z [(1%Z, 3675); (1%Z, 11173); (1%Z, 10732); ((-1)%Z, 11237); ((-2)%Z, 10731)] 274877906944%Z 1237940039285380274899124224%Z;
  Lin [3674; 11172; 10731] [14291; 11236; 14290; 14289; 14288; 10730] 0%Z [(1%Z, 3674); (1%Z, 11172); (1%Z, 10731); ((-1)%Z, 11236); ((-2)%Z, 10730)] 137438953472%Z 2475880078570760549798248448%Z;
  Lin [3673; 11171; 10730] [14287; 11235; 14286; 14285; 14284; 10729] 0%Z [(1%Z, 3673); (1%Z, 11171); (1%Z, 10730); ((-1)%Z, 11235); ((-2)%Z, 10729)] 68719476736%Z 4951760157141521099596496896%Z;
  Lin [3672; 11170; 10729] [14283; 11234; 14282; 14281; 14280; 10728] 0%Z [(1%Z, 3672); (1%Z, 11170); (1%Z, 10729); ((-1)%Z, 11234); ((-2)%Z, 10728)] 34359738368%Z 9903520314283042199192993792%Z;
  Lin [3671; 11169; 10728] [14279; 11233; 14278; 14277; 14276; 10727] 0%Z [(1%Z, 3671); (1%Z, 11169); (1%Z, 10728); ((-1)%Z, 11233); ((-2)%Z, 10727)] 17179869184%Z 19807040628566084398385987584%Z;
  Lin [3670; 11168; 10727] [14275; 11232; 14274; 14273; 14272; 10726] 0%Z [(1%Z, 3670); (1%Z, 11168); (1%Z, 10727); ((-1)%Z, 11232); ((-2)%Z, 10726)] 8589934592%Z 39614081257132168796771975168%Z;
  Lin [3669; 11167; 10726] [14271; 11231; 14270; 14269; 14268; 10725] 0%Z [(1%Z, 3669); (1%Z, 11167); (1%Z, 10726); ((-1)%Z, 11231); ((-2)%Z, 10725)] 4294967296%Z 79228162514264337593543950336%Z;
  Lin [3668; 11166; 10725] [14267; 11230; 14266; 14265; 14264; 10724] 0%Z [(1%Z, 3668); (1%Z, 11166); (1%Z, 10725); ((-1)%Z, 11230); ((-2)%Z, 10724)] 2147483648%Z 158456325028528675187087900672%Z;
  Lin [3667; 11165; 10724] [14263; 11229; 14262; 14261; 14260; 10723] 0%Z [(1%Z, 3667); (1%Z, 11165); (1%Z, 10724); ((-1)%Z, 11229); ((-2)%Z, 10723)] 1073741824%Z 316912650057057350374175801344%Z;
  Lin [3666; 11164; 10723] [14259; 11228; 14258; 14257; 14256; 10722] 0%Z [(1%Z, 3666); (1%Z, 11164); (1%Z, 10723); ((-1)%Z, 11228); ((-2)%Z, 10722)] 536870912%Z 633825300114114700748351602688%Z;
  Lin [3665; 11163; 10722] [14255; 11227; 14254; 14253; 14252; 10721] 0%Z [(1%Z, 3665); (1%Z, 11163); (1%Z, 10722); ((-1)%Z, 11227); ((-2)%Z, 10721)] 268435456%Z 1267650600228229401496703205376%Z;
  Lin [3664; 11162; 10721] [14251; 11226; 14250; 14249; 14248; 10720] 0%Z [(1%Z, 3664); (1%Z, 11162); (1%Z, 10721); ((-1)%Z, 11226); ((-2)%Z, 10720)] 134217728%Z 2535301200456458802993406410752%Z;
  Lin [3663; 11161; 10720] [14247; 11225; 14246; 14245; 14244; 10719] 0%Z [(1%Z, 3663); (1%Z, 11161); (1%Z, 10720); ((-1)%Z, 11225); ((-2)%Z, 10719)] 67108864%Z 5070602400912917605986812821504%Z;
  Lin [3662; 11160; 10719] [14243; 11224; 14242; 14241; 14240; 10718] 0%Z [(1%Z, 3662); (1%Z, 11160); (1%Z, 10719); ((-1)%Z, 11224); ((-2)%Z, 10718)] 33554432%Z 10141204801825835211973625643008%Z;
  Lin [3661; 11159; 10718] [14239; 11223; 14238; 14237; 14236; 10717] 0%Z [(1%Z, 3661); (1%Z, 11159); (1%Z, 10718); ((-1)%Z, 11223); ((-2)%Z, 10717)] 16777216%Z 20282409603651670423947251286016%Z;
  Lin [3660; 11158; 10717] [14235; 11222; 14234; 14233; 14232; 10716] 0%Z [(1%Z, 3660); (1%Z, 11158); (1%Z, 10717); ((-1)%Z, 11222); ((-2)%Z, 10716)] 8388608%Z 40564819207303340847894502572032%Z;
  Lin [3659; 11157; 10716] [14231; 11221; 14230; 14229; 14228; 10715] 0%Z [(1%Z, 3659); (1%Z, 11157); (1%Z, 10716); ((-1)%Z, 11221); ((-2)%Z, 10715)] 4194304%Z 81129638414606681695789005144064%Z;
  Lin [3658; 11156; 10715] [14227; 11220; 14226; 14225; 14224; 10714] 0%Z [(1%Z, 3658); (1%Z, 11156); (1%Z, 10715); ((-1)%Z, 11220); ((-2)%Z, 10714)] 2097152%Z 162259276829213363391578010288128%Z;
  Lin [3657; 11155; 10714] [14223; 11219; 14222; 14221; 14220; 10713] 0%Z [(1%Z, 3657); (1%Z, 11155); (1%Z, 10714); ((-1)%Z, 11219); ((-2)%Z, 10713)] 1048576%Z 324518553658426726783156020576256%Z;
  Lin [3656; 11154; 10713] [14219; 11218; 14218; 14217; 14216; 10712] 0%Z [(1%Z, 3656); (1%Z, 11154); (1%Z, 10713); ((-1)%Z, 11218); ((-2)%Z, 10712)] 524288%Z 649037107316853453566312041152512%Z;
  Lin [3655; 11153; 10712] [14215; 11217; 14214; 14213; 14212; 10711] 0%Z [(1%Z, 3655); (1%Z, 11153); (1%Z, 10712); ((-1)%Z, 11217); ((-2)%Z, 10711)] 262144%Z 1298074214633706907132624082305024%Z;
  Lin [3654; 11152; 10711] [14211; 11216; 14210; 14209; 14208; 10710] 0%Z [(1%Z, 3654); (1%Z, 11152); (1%Z, 10711); ((-1)%Z, 11216); ((-2)%Z, 10710)] 131072%Z 2596148429267413814265248164610048%Z;
  Lin [3653; 11151; 10710] [14207; 11215; 14206; 14205; 14204; 10709] 0%Z [(1%Z, 3653); (1%Z, 11151); (1%Z, 10710); ((-1)%Z, 11215); ((-2)%Z, 10709)] 65536%Z 5192296858534827628530496329220096%Z;
  Lin [3652; 11150; 10709] [14203; 11214; 14202; 14201; 14200; 10708] 0%Z [(1%Z, 3652); (1%Z, 11150); (1%Z, 10709); ((-1)%Z, 11214); ((-2)%Z, 10708)] 32768%Z 10384593717069655257060992658440192%Z;
  Lin [3651; 11149; 10708] [14199; 11213; 14198; 14197; 14196; 10707] 0%Z [(1%Z, 3651); (1%Z, 11149); (1%Z, 10708); ((-1)%Z, 11213); ((-2)%Z, 10707)] 16384%Z 20769187434139310514121985316880384%Z;
  Lin [3650; 11148; 10707] [14195; 11212; 14194; 14193; 14192; 10706] 0%Z [(1%Z, 3650); (1%Z, 11148); (1%Z, 10707); ((-1)%Z, 11212); ((-2)%Z, 10706)] 8192%Z 41538374868278621028243970633760768%Z;
  Lin [3649; 11147; 10706] [14191; 11211; 14190; 14189; 14188; 10705] 0%Z [(1%Z, 3649); (1%Z, 11147); (1%Z, 10706); ((-1)%Z, 11211); ((-2)%Z, 10705)] 4096%Z 83076749736557242056487941267521536%Z;
  Lin [3648; 11146; 10705] [14187; 11210; 14186; 14185; 14184; 10704] 0%Z [(1%Z, 3648); (1%Z, 11146); (1%Z, 10705); ((-1)%Z, 11210); ((-2)%Z, 10704)] 2048%Z 166153499473114484112975882535043072%Z;
  Lin [3647; 10639; 10704] [14183; 11209; 14182; 14181; 14180; 10703] 0%Z [(1%Z, 3647); (1%Z, 10639); (1%Z, 10704); ((-1)%Z, 11209); ((-2)%Z, 10703)] 1024%Z 332306998946228968225951765070086144%Z;
  Lin [3762; 11259; 10819] [14135; 11323; 14134; 14133; 14132; 10818] 0%Z [(1%Z, 3762); (1%Z, 11259); (1%Z, 10819); ((-1)%Z, 11323); ((-2)%Z, 10818)] 1152921504606846976%Z 295147905179352825856%Z;
  Lin [3827; 11323; 11388] [13887; 11834; 13886; 13885; 13884; 11387] 0%Z [(1%Z, 3827); (1%Z, 11323); (1%Z, 11388); ((-1)%Z, 11834); ((-2)%Z, 11387)] 1152921504606846976%Z 295147905179352825856%Z;
  Lin [3892; 11834; 11453] [13639; 11898; 13638; 13637; 13636; 11452] 0%Z [(1%Z, 3892); (1%Z, 11834); (1%Z, 11453); ((-1)%Z, 11898); ((-2)%Z, 11452)] 1152921504606846976%Z 295147905179352825856%Z;
  Lin [3957; 11898; 11518] [13391; 11962; 13390; 13389; 13388; 11517] 0%Z [(1%Z, 3957); (1%Z, 11898); (1%Z, 11518); ((-1)%Z, 11962); ((-2)%Z, 11517)] 1152921504606846976%Z 295147905179352825856%Z;
  Lin [4022; 11962; 11583] [13143; 12026; 13142; 13141; 13140; 11582] 0%Z [(1%Z, 4022); (1%Z, 11962); (1%Z, 11583); ((-1)%Z, 12026); ((-2)%Z, 11582)] 1152921504606846976%Z 295147905179352825856%Z;
  Lin [4087; 12026; 11648] [12895; 12090; 12894; 12893; 12892; 11647] 0%Z [(1%Z, 4087); (1%Z, 12026); (1%Z, 11648); ((-1)%Z, 12090); ((-2)%Z, 11647)] 1152921504606846976%Z 295147905179352825856%Z;
  Lin [4152; 12090; 11713] [12647; 12154; 12646; 12645; 12644; 11712] 0%Z [(1%Z, 4152); (1%Z, 12090); (1%Z, 11713); ((-1)%Z, 12154); ((-2)%Z, 11712)] 1152921504606846976%Z 295147905179352825856%Z;
  Lin [4217; 12154; 11777] [12399; 28036; 12398; 12397; 12396; 11776] 0%Z [(1%Z, 4217); (1%Z, 12154); (1%Z, 11777); ((-1)%Z, 28036); ((-2)%Z, 11776)] 1152921504606846976%Z 295147905179352825856%Z;
  Lin [3761; 11258; 10818] [14131; 11322; 14130; 14129; 14128; 10817] 0%Z [(1%Z, 3761); (1%Z, 11258); (1%Z, 10818); ((-1)%Z, 11322); ((-2)%Z, 10817)] 576460752303423488%Z 590295810358705651712%Z;
  Lin [3826; 11322; 11387] [13883; 11833; 13882; 13881; 13880; 11386] 0%Z [(1%Z, 3826); (1%Z, 11322); (1%Z, 11387); ((-1)%Z, 11833); ((-2)%Z, 11386)] 576460752303423488%Z 590295810358705651712%Z;
  Lin [3891; 11833; 11452] [13635; 11897; 13634; 13633; 13632; 11451] 0%Z [(1%Z, 3891); (1%Z, 11833); (1%Z, 11452); ((-1)%Z, 11897); ((-2)%Z, 11451)] 576460752303423488%Z 590295810358705651712%Z;
  Lin [3956; 11897; 11517] [13387; 11961; 13386; 13385; 13384; 11516] 0%Z [(1%Z, 3956); (1%Z, 11897); (1%Z, 11517); ((-1)%Z, 11961); ((-2)%Z, 11516)] 576460752303423488%Z 590295810358705651712%Z].
Definition mult2_64_facts_36 : list lin_fact := [
  Lin [4021; 11961; 11582] [13139; 12025; 13138; 13137; 13136; 11581] 0%Z [(1%Z, 4021); (1%Z, 11961); (1%Z, 11582); ((-1)%Z, 12025); ((-2)%Z, 11581)] 576460752303423488%Z 590295810358705651712%Z;
  Lin [4086; 12025; 11647] [12891; 12089; 12890; 12889; 12888; 11646] 0%Z [(1%Z, 4086); (1%Z, 12025); (1%Z, 11647); ((-1)%Z, 12089); ((-2)%Z, 11646)] 576460752303423488%Z 590295810358705651712%Z;
  Lin [4151; 12089; 11712] [12643; 12153; 12642; 12641; 12640; 11711] 0%Z [(1%Z, 4151); (1%Z, 12089); (1%Z, 11712); ((-1)%Z, 12153); ((-2)%Z, 11711)] 576460752303423488%Z 590295810358705651712%Z;
  Lin [4216; 12153; 11776] [12395; 28037; 12394; 12393; 12392; 11775] 0%Z [(1%Z, 4216); (1%Z, 12153); (1%Z, 11776); ((-1)%Z, 28037); ((-2)%Z, 11775)] 576460752303423488%Z 590295810358705651712%Z;
  Lin [3760; 11257; 10817] [14127; 11321; 14126; 14125; 14124; 10816] 0%Z [(1%Z, 3760); (1%Z, 11257); (1%Z, 10817); ((-1)%Z, 11321); ((-2)%Z, 10816)] 288230376151711744%Z 1180591620717411303424%Z;
  Lin [3825; 11321; 11386] [13879; 11832; 13878; 13877; 13876; 11385] 0%Z [(1%Z, 3825); (1%Z, 11321); (1%Z, 11386); ((-1)%Z, 11832); ((-2)%Z, 11385)] 288230376151711744%Z 1180591620717411303424%Z;
  Lin [3890; 11832; 11451] [13631; 11896; 13630; 13629; 13628; 11450] 0%Z [(1%Z, 3890); (1%Z, 11832); (1%Z, 11451); ((-1)%Z, 11896); ((-2)%Z, 11450)] 288230376151711744%Z 1180591620717411303424%Z;
  Lin [3955; 11896; 11516] [13383; 11960; 13382; 13381; 13380; 11515] 0%Z [(1%Z, 3955); (1%Z, 11896); (1%Z, 11516); ((-1)%Z, 11960); ((-2)%Z, 11515)] 288230376151711744%Z 1180591620717411303424%Z;
  Lin [4020; 11960; 11581] [13135; 12024; 13134; 13133; 13132; 11580] 0%Z [(1%Z, 4020); (1%Z, 11960); (1%Z, 11581); ((-1)%Z, 12024); ((-2)%Z, 11580)] 288230376151711744%Z 1180591620717411303424%Z;
  Lin [4085; 12024; 11646] [12887; 12088; 12886; 12885; 12884; 11645] 0%Z [(1%Z, 4085); (1%Z, 12024); (1%Z, 11646); ((-1)%Z, 12088); ((-2)%Z, 11645)] 288230376151711744%Z 1180591620717411303424%Z;
  Lin [4150; 12088; 11711] [12639; 12152; 12638; 12637; 12636; 11710] 0%Z [(1%Z, 4150); (1%Z, 12088); (1%Z, 11711); ((-1)%Z, 12152); ((-2)%Z, 11710)] 288230376151711744%Z 1180591620717411303424%Z;
  Lin [4215; 12152; 11775] [12391; 28038; 12390; 12389; 12388; 11774] 0%Z [(1%Z, 4215); (1%Z, 12152); (1%Z, 11775); ((-1)%Z, 28038); ((-2)%Z, 11774)] 288230376151711744%Z 1180591620717411303424%Z;
  Lin [3759; 11256; 10816] [14123; 11320; 14122; 14121; 14120; 10815] 0%Z [(1%Z, 3759); (1%Z, 11256); (1%Z, 10816); ((-1)%Z, 11320); ((-2)%Z, 10815)] 144115188075855872%Z 2361183241434822606848%Z;
  Lin [3758; 11255; 10815] [14119; 11319; 14118; 14117; 14116; 10814] 0%Z [(1%Z, 3758); (1%Z, 11255); (1%Z, 10815); ((-1)%Z, 11319); ((-2)%Z, 10814)] 72057594037927936%Z 4722366482869645213696%Z;
  Lin [3757; 11254; 10814] [14115; 11318; 14114; 14113; 14112; 10813] 0%Z [(1%Z, 3757); (1%Z, 11254); (1%Z, 10814); ((-1)%Z, 11318); ((-2)%Z, 10813)] 36028797018963968%Z 9444732965739290427392%Z;
  Lin [3756; 11253; 10813] [14111; 11317; 14110; 14109; 14108; 10812] 0%Z [(1%Z, 3756); (1%Z, 11253); (1%Z, 10813); ((-1)%Z, 11317); ((-2)%Z, 10812)] 18014398509481984%Z 18889465931478580854784%Z;
  Lin [3755; 11252; 10812] [14107; 11316; 14106; 14105; 14104; 10811] 0%Z [(1%Z, 3755); (1%Z, 11252); (1%Z, 10812); ((-1)%Z, 11316); ((-2)%Z, 10811)] 9007199254740992%Z 37778931862957161709568%Z;
  Lin [3754; 11251; 10811] [14103; 11315; 14102; 14101; 14100; 10810] 0%Z [(1%Z, 3754); (1%Z, 11251); (1%Z, 10811); ((-1)%Z, 11315); ((-2)%Z, 10810)] 4503599627370496%Z 75557863725914323419136%Z;
  Lin [3753; 11250; 10810] [14099; 11314; 14098; 14097; 14096; 10809] 0%Z [(1%Z, 3753); (1%Z, 11250); (1%Z, 10810); ((-1)%Z, 11314); ((-2)%Z, 10809)] 2251799813685248%Z 151115727451828646838272%Z;
  Lin [3752; 11249; 10809] [14095; 11313; 14094; 14093; 14092; 10808] 0%Z [(1%Z, 3752); (1%Z, 11249); (1%Z, 10809); ((-1)%Z, 11313); ((-2)%Z, 10808)] 1125899906842624%Z 302231454903657293676544%Z;
  Lin [3751; 11248; 10808] [14091; 11312; 14090; 14089; 14088; 10807] 0%Z [(1%Z, 3751); (1%Z, 11248); (1%Z, 10808); ((-1)%Z, 11312); ((-2)%Z, 10807)] 562949953421312%Z 604462909807314587353088%Z;
  Lin [3750; 11247; 10807] [14087; 11311; 14086; 14085; 14084; 10806] 0%Z [(1%Z, 3750); (1%Z, 11247); (1%Z, 10807); ((-1)%Z, 11311); ((-2)%Z, 10806)] 281474976710656%Z 1208925819614629174706176%Z;
  Lin [3749; 11246; 10806] [14083; 11310; 14082; 14081; 14080; 10805] 0%Z [(1%Z, 3749); (1%Z, 11246); (1%Z, 10806); ((-1)%Z, 11310); ((-2)%Z, 10805)] 140737488355328%Z 2417851639229258349412352%Z;
  Lin [3748; 11245; 10805] [14079; 11309; 14078; 14077; 14076; 10804] 0%Z [(1%Z, 3748); (1%Z, 11245); (1%Z, 10805); ((-1)%Z, 11309); ((-2)%Z, 10804)] 70368744177664%Z 4835703278458516698824704%Z;
  Lin [3747; 11244; 10804] [14075; 11308; 14074; 14073; 14072; 10803] 0%Z [(1%Z, 3747); (1%Z, 11244); (1%Z, 10804); ((-1)%Z, 11308); ((-2)%Z, 10803)] 35184372088832%Z 9671406556917033397649408%Z;
  Lin [3746; 11243; 10803] [14071; 11307; 14070; 14069; 14068; 10802] 0%Z [(1%Z, 3746); (1%Z, 11243); (1%Z, 10803); ((-1)%Z, 11307); ((-2)%Z, 10802)] 17592186044416%Z 19342813113834066795298816%Z;
  Lin [3745; 11242; 10802] [14067; 11306; 14066; 14065; 14064; 10801] 0%Z [(1%Z, 3745); (1%Z, 11242); (1%Z, 10802); ((-1)%Z, 11306); ((-2)%Z, 10801)] 8796093022208%Z 38685626227668133590597632%Z;
  Lin [3744; 11241; 10801] [14063; 11305; 14062; 14061; 14060; 10800] 0%Z [(1%Z, 3744); (1%Z, 11241); (1%Z, 10801); ((-1)%Z, 11305); ((-2)%Z, 10800)] 4398046511104%Z 77371252455336267181195264%Z;
  Lin [3743; 11240; 10800] [14059; 11304; 14058; 14057; 14056; 10799] 0%Z [(1%Z, 3743); (1%Z, 11240); (1%Z, 10800); ((-1)%Z, 11304); ((-2)%Z, 10799)] 2199023255552%Z 154742504910672534362390528%Z;
  Lin [3742; 11239; 10799] [14055; 11303; 14054; 14053; 14052; 10798] 0%Z [(1%Z, 3742); (1%Z, 11239); (1%Z, 10799); ((-1)%Z, 11303); ((-2)%Z, 10798)] 1099511627776%Z 309485009821345068724781056%Z;
  Lin [3741; 11238; 10798] [14051; 11302; 14050; 14049; 14048; 10797] 0%Z [(1%Z, 3741); (1%Z, 11238); (1%Z, 10798); ((-1)%Z, 11302); ((-2)%Z, 10797)] 549755813888%Z 618970019642690137449562112%Z;
  Lin [3740; 11237; 10797] [14047; 11301; 14046; 14045; 14044; 10796] 0%Z [(1%Z, 3740); (1%Z, 11237); (1%Z, 10797); ((-1)%Z, 11301); ((-2)%Z, 10796)] 274877906944%Z 1237940039285380274899124224%Z;
  Lin [3739; 11236; 10796] [14043; 11300; 14042; 14041; 14040; 10795] 0%Z [(1%Z, 3739); (1%Z, 11236); (1%Z, 10796); ((-1)%Z, 11300); ((-2)%Z, 10795)] 137438953472%Z 2475880078570760549798248448%Z;
  Lin [3738; 11235; 10795] [14039; 11299; 14038; 14037; 14036; 10794] 0%Z [(1%Z, 3738); (1%Z, 11235); (1%Z, 10795); ((-1)%Z, 11299); ((-2)%Z, 10794)] 68719476736%Z 4951760157141521099596496896%Z;
  Lin [3737; 11234; 10794] [14035; 11298; 14034; 14033; 14032; 10793] 0%Z [(1%Z, 3737); (1%Z, 11234); (1%Z, 10794); ((-1)%Z, 11298); ((-2)%Z, 10793)] 34359738368%Z 9903520314283042199192993792%Z;
  Lin [3736; 11233; 10793] [14031; 11297; 14030; 14029; 14028; 10792] 0%Z [(1%Z, 3736); (1%Z, 11233); (1%Z, 10793); ((-1)%Z, 11297); ((-2)%Z, 10792)] 17179869184%Z 19807040628566084398385987584%Z;
  Lin [3735; 11232; 10792] [14027; 11296; 14026; 14025; 14024; 10791] 0%Z [(1%Z, 3735); (1%Z, 11232); (1%Z, 10792); ((-1)%Z, 11296); ((-2)%Z, 10791)] 8589934592%Z 39614081257132168796771975168%Z;
  Lin [3734; 11231; 10791] [14023; 11295; 14022; 14021; 14020; 10790] 0%Z [(1%Z, 3734); (1%Z, 11231); (1%Z, 10791); ((-1)%Z, 11295); ((-2)%Z, 10790)] 4294967296%Z 79228162514264337593543950336%Z;
  Lin [3733; 11230; 10790] [14019; 11294; 14018; 14017; 14016; 10789] 0%Z [(1%Z, 3733); (1%Z, 11230); (1%Z, 10790); ((-1)%Z, 11294); ((-2)%Z, 10789)] 2147483648%Z 158456325028528675187087900672%Z;
  Lin [3732; 11229; 10789] [14015; 11293; 14014; 14013; 14012; 10788] 0%Z [(1%Z, 3732); (1%Z, 11229); (1%Z, 10789); ((-1)%Z, 11293); ((-2)%Z, 10788)] 1073741824%Z 316912650057057350374175801344%Z;
  Lin [3731; 11228; 10788] [14011; 11292; 14010; 14009; 14008; 10787] 0%Z [(1%Z, 3731); (1%Z, 11228); (1%Z, 10788); ((-1)%Z, 11292); ((-2)%Z, 10787)] 536870912%Z 633825300114114700748351602688%Z;
  Lin [3730; 11227; 10787] [14007; 11291; 14006; 14005; 14004; 10786] 0%Z [(1%Z, 3730); (1%Z, 11227); (1%Z, 10787); ((-1)%Z, 11291); ((-2)%Z, 10786)] 268435456%Z 1267650600228229401496703205376%Z;
  Lin [3729; 11226; 10786] [14003; 11290; 14002; 14001; 14000; 10785] 0%Z [(1%Z, 3729); (1%Z, 11226); (1%Z, 10786); ((-1)%Z, 11290); ((-2)%Z, 10785)] 134217728%Z 2535301200456458802993406410752%Z;
  Lin [3728; 11225; 10785] [13999; 11289; 13998; 13997; 13996; 10784] 0%Z [(1%Z, 3728); (1%Z, 11225); (1%Z, 10785); ((-1)%Z, 11289); ((-2)%Z, 10784)] 67108864%Z 5070602400912917605986812821504%Z;
  Lin [3727; 11224; 10784] [13995; 11288; 13994; 13993; 13992; 10783] 0%Z [(1%Z, 3727); (1%Z, 11224); (1%Z, 10784); ((-1)%Z, 11288); ((-2)%Z, 10783)] 33554432%Z 10141204801825835211973625643008%Z;
  Lin [3726; 11223; 10783] [13991; 11287; 13990; 13989; 13988; 10782] 0%Z [(1%Z, 3726); (1%Z, 11223); (1%Z, 10783); ((-1)%Z, 11287); ((-2)%Z, 10782)] 16777216%Z 20282409603651670423947251286016%Z;
  Lin [3725; 11222; 10782] [13987; 11286; 13986; 13985; 13984; 10781] 0%Z [(1%Z, 3725); (1%Z, 11222); (1%Z, 10782); ((-1)%Z, 11286); ((-2)%Z, 10781)] 8388608%Z 40564819207303340847894502572032%Z;
  Lin [3724; 11221; 10781] [13983; 11285; 13982; 13981; 13980; 10780] 0%Z [(1%Z, 3724); (1%Z, 11221); (1%Z, 10781); ((-1)%Z, 11285); ((-2)%Z, 10780)] 4194304%Z 81129638414606681695789005144064%Z;
  Lin [3723; 11220; 10780] [13979; 11284; 13978; 13977; 13976; 10779] 0%Z [(1%Z, 3723); (1%Z, 11220); (1%Z, 10780); ((-1)%Z, 11284); ((-2)%Z, 10779)] 2097152%Z 162259276829213363391578010288128%Z;
  Lin [3722; 11219; 10779] [13975; 11283; 13974; 13973; 13972; 10778] 0%Z [(1%Z, 3722); (1%Z, 11219); (1%Z, 10779); ((-1)%Z, 11283); ((-2)%Z, 10778)] 1048576%Z 324518553658426726783156020576256%Z;
  Lin [3721; 11218; 10778] [13971; 11282; 13970; 13969; 13968; 10777] 0%Z [(1%Z, 3721); (1%Z, 11218); (1%Z, 10778); ((-1)%Z, 11282); ((-2)%Z, 10777)] 524288%Z 649037107316853453566312041152512%Z;
  Lin [3720; 11217; 10777] [13967; 11281; 13966; 13965; 13964; 10776] 0%Z [(1%Z, 3720); (1%Z, 11217); (1%Z, 10777); ((-1)%Z, 11281); ((-2)%Z, 10776)] 262144%Z 1298074214633706907132624082305024%Z;
  Lin [3719; 11216; 10776] [13963; 11280; 13962; 13961; 13960; 10775] 0%Z [(1%Z, 3719); (1%Z, 11216); (1%Z, 10776); ((-1)%Z, 11280); ((-2)%Z, 10775)] 131072%Z 2596148429267413814265248164610048%Z;
  Lin [3718; 11215; 10775] [13959; 11279; 13958; 13957; 13956; 10774] 0%Z [(1%Z, 3718); (1%Z, 11215); (1%Z, 10775); ((-1)%Z, 11279); ((-2)%Z, 10774)] 65536%Z 5192296858534827628530496329220096%Z;
  Lin [3717; 11214; 10774] [13955; 11278; 13954; 13953; 13952; 10773] 0%Z [(1%Z, 3717); (1%Z, 11214); (1%Z, 10774); ((-1)%Z, 11278); ((-2)%Z, 10773)] 32768%Z 10384593717069655257060992658440192%Z;
  Lin [3716; 11213; 10773] [13951; 11277; 13950; 13949; 13948; 10772] 0%Z [(1%Z, 3716); (1%Z, 11213); (1%Z, 10773); ((-1)%Z, 11277); ((-2)%Z, 10772)] 16384%Z 20769187434139310514121985316880384%Z;
  Lin [3715; 11212; 10772] [13947; 11276; 13946; 13945; 13944; 10771] 0%Z [(1%Z, 3715); (1%Z, 11212); (1%Z, 10772); ((-1)%Z, 11276); ((-2)%Z, 10771)] 8192%Z 41538374868278621028243970633760768%Z;
  Lin [3714; 11211; 10771] [13943; 11275; 13942; 13941; 13940; 10770] 0%Z [(1%Z, 3714); (1%Z, 11211); (1%Z, 10771); ((-1)%Z, 11275); ((-2)%Z, 10770)] 4096%Z 83076749736557242056487941267521536%Z;
  Lin [3713; 11210; 10770] [13939; 11274; 13938; 13937; 13936; 10769] 0%Z [(1%Z, 3713); (1%Z, 11210); (1%Z, 10770); ((-1)%Z, 11274); ((-2)%Z, 10769)] 2048%Z 166153499473114484112975882535043072%Z;
  Lin [3712; 11209; 10769] [13935; 11273; 13934; 13933; 13932; 10768] 0%Z [(1%Z, 3712); (1%Z, 11209); (1%Z, 10769); ((-1)%Z, 11273); ((-2)%Z, 10768)] 1024%Z 332306998946228968225951765070086144%Z;
  Lin [3711; 10703; 10768] [13931; 11272; 13930; 13929; 13928; 10767] 0%Z [(1%Z, 3711); (1%Z, 10703); (1%Z, 10768); ((-1)%Z, 11272); ((-2)%Z, 10767)] 512%Z 664613997892457936451903530140172288%Z;
  Lin [3824; 11320; 11385] [13875; 11831; 13874; 13873; 13872; 11384] 0%Z [(1%Z, 3824); (1%Z, 11320); (1%Z, 11385); ((-1)%Z, 11831); ((-2)%Z, 11384)] 144115188075855872%Z 2361183241434822606848%Z;
  Lin [3889; 11831; 11450] [13627; 11895; 13626; 13625; 13624; 11449] 0%Z [(1%Z, 3889); (1%Z, 11831); (1%Z, 11450); ((-1)%Z, 11895); ((-2)%Z, 11449)] 144115188075855872%Z 2361183241434822606848%Z;
  Lin [3954; 11895; 11515] [13379; 11959; 13378; 13377; 13376; 11514] 0%Z [(1%Z, 3954); (1%Z, 11895); (1%Z, 11515); ((-1)%Z, 11959); ((-2)%Z, 11514)] 144115188075855872%Z 2361183241434822606848%Z;
  Lin [4019; 11959; 11580] [13131; 12023; 13130; 13129; 13128; 11579] 0%Z [(1%Z, 4019); (1%Z, 11959); (1%Z, 11580); ((-1)%Z, 12023); ((-2)%Z, 11579)] 144115188075855872%Z 2361183241434822606848%Z;
  Lin [4084; 12023; 11645] [12883; 12087; 12882; 12881; 12880; 11644] 0%Z [(1%Z, 4084); (1%Z, 12023); (1%Z, 11645); ((-1)%Z, 12087); ((-2)%Z, 11644)] 144115188075855872%Z 2361183241434822606848%Z;
  Lin [4149; 12087; 11710] [12635; 12151; 12634; 12633; 12632; 11709] 0%Z [(1%Z, 4149); (1%Z, 12087); (1%Z, 11710); ((-1)%Z, 12151); ((-2)%Z, 11709)] 144115188075855872%Z 2361183241434822606848%Z;
  Lin [4214; 12151; 11774] [12387; 28039; 12386; 12385; 12384; 11773] 0%Z [(1%Z, 4214); (1%Z, 12151); (1%Z, 11774); ((-1)%Z, 28039); ((-2)%Z, 11773)] 144115188075855872%Z 2361183241434822606848%Z;
  Lin [3823; 11319; 11384] [13871; 11830; 13870; 13869; 13868; 11383] 0%Z [(1%Z, 3823); (1%Z, 11319); (1%Z, 11384); ((-1)%Z, 11830); ((-2)%Z, 11383)] 72057594037927936%Z 4722366482869645213696%Z;
  Lin [3888; 11830; 11449] [13623; 11894; 13622; 13621; 13620; 11448] 0%Z [(1%Z, 3888); (1%Z, 11830); (1%Z, 11449); ((-1)%Z, 11894); ((-2)%Z, 11448)] 72057594037927936%Z 4722366482869645213696%Z;
  Lin [3953; 11894; 11514] [13375; 11958; 13374; 13373; 13372; 11513] 0%Z [(1%Z, 3953); (1%Z, 11894); (1%Z, 11514); ((-1)%Z, 11958); ((-2)%Z, 11513)] 72057594037927936%Z 4722366482869645213696%Z;
  Lin [4018; 11958; 11579] [13127; 12022; 13126; 13125; 13124; 11578] 0%Z [(1%Z, 4018); (1%Z, 11958); (1%Z, 11579); ((-1)%Z, 12022); ((-2)%Z, 11578)] 72057594037927936%Z 4722366482869645213696%Z;
  Lin [4083; 12022; 11644] [12879; 12086; 12878; 12877; 12876; 11643] 0%Z [(1%Z, 4083); (1%Z, 12022); (1%Z, 11644); ((-1)%Z, 12086); ((-2)%Z, 11643)] 72057594037927936%Z 4722366482869645213696%Z;
  Lin [4148; 12086; 11709] [12631; 12150; 12630; 12629; 12628; 11708] 0%Z [(1%Z, 4148); (1%Z, 12086); (1%Z, 11709); ((-1)%Z, 12150); ((-2)%Z, 11708)] 72057594037927936%Z 4722366482869645213696%Z;
  Lin [4213; 12150; 11773] [12383; 28040; 12382; 12381; 12380; 11772] 0%Z [(1%Z, 4213); (1%Z, 12150); (1%Z, 11773); ((-1)%Z, 28040); ((-2)%Z, 11772)] 72057594037927936%Z 4722366482869645213696%Z;
  Lin [3822; 11318; 11383] [13867; 11829; 13866; 13865; 13864; 11382] 0%Z [(1%Z, 3822); (1%Z, 11318); (1%Z, 11383); ((-1)%Z, 11829); ((-2)%Z, 11382)] 36028797018963968%Z 9444732965739290427392%Z;
  Lin [3887; 11829; 11448] [13619; 11893; 13618; 13617; 13616; 11447] 0%Z [(1%Z, 3887); (1%Z, 11829); (1%Z, 11448); ((-1)%Z, 11893); ((-2)%Z, 11447)] 36028797018963968%Z 9444732965739290427392%Z;
  Lin [3952; 11893; 11513] [13371; 11957; 13370; 13369; 13368; 11512] 0%Z [(1%Z, 3952); (1%Z, 11893); (1%Z, 11513); ((-1)%Z, 11957); ((-2)%Z, 11512)] 36028797018963968%Z 9444732965739290427392%Z;
  Lin [4017; 11957; 11578] [13123; 12021; 13122; 13121; 13120; 11577] 0%Z [(1%Z, 4017); (1%Z, 11957); (1%Z, 11578); ((-1)%Z, 12021); ((-2)%Z, 11577)] 36028797018963968%Z 9444732965739290427392%Z;
  Lin [4082; 12021; 11643] [12875; 12085; 12874; 12873; 12872; 11642] 0%Z [(1%Z, 4082); (1%Z, 12021); (1%Z, 11643); ((-1)%Z, 12085); ((-2)%Z, 11642)] 36028797018963968%Z 9444732965739290427392%Z;
  Lin [4147; 12085; 11708] [12627; 12149; 12626; 12625; 12624; 11707] 0%Z [(1%Z, 4147); (1%Z, 12085); (1%Z, 11708); ((-1)%Z, 12149); ((-2)%Z, 11707)] 36028797018963968%Z 9444732965739290427392%Z;
  Lin [4212; 12149; 11772] [12379; 28041; 12378; 12377; 12376; 11771] 0%Z [(1%Z, 4212); (1%Z, 12149); (1%Z, 11772); ((-1)%Z, 28041); ((-2)%Z, 11771)] 36028797018963968%Z 9444732965739290427392%Z;
  Lin [3821; 11317; 11382] [13863; 11828; 13862; 13861; 13860; 11381] 0%Z [(1%Z, 3821); (1%Z, 11317); (1%Z, 11382); ((-1)%Z, 11828); ((-2)%Z, 11381)] 18014398509481984%Z 18889465931478580854784%Z;
  Lin [3820; 11316; 11381] [13859; 11827; 13858; 13857; 13856; 11380] 0%Z [(1%Z, 3820); (1%Z, 11316); (1%Z, 11381); ((-1)%Z, 11827); ((-2)%Z, 11380)] 9007199254740992%Z 37778931862957161709568%Z;
  Lin [3819; 11315; 11380] [13855; 11826; 13854; 13853; 13852; 11379] 0%Z [(1%Z, 3819); (1%Z, 11315); (1%Z, 11380); ((-1)%Z, 11826); ((-2)%Z, 11379)] 4503599627370496%Z 75557863725914323419136%Z;
  Lin [3818; 11314; 11379] [13851; 11825; 13850; 13849; 13848; 11378] 0%Z [(1%Z, 3818); (1%Z, 11314); (1%Z, 11379); ((-1)%Z, 11825); ((-2)%Z, 11378)] 2251799813685248%Z 151115727451828646838272%Z;
  Lin [3817; 11313; 11378] [13847; 11824; 13846; 13845; 13844; 11377] 0%Z [(1%Z, 3817); (1%Z, 11313); (1%Z, 11378); ((-1)%Z, 11824); ((-2)%Z, 11377)] 1125899906842624%Z 302231454903657293676544%Z;
  Lin [3816; 11312; 11377] [13843; 11823; 13842; 13841; 13840; 11376] 0%Z [(1%Z, 3816); (1%Z, 11312); (1%Z, 11377); ((-1)%Z, 11823); ((-2)%Z, 11376)] 562949953421312%Z 604462909807314587353088%Z;
  Lin [3815; 11311; 11376] [13839; 11822; 13838; 13837; 13836; 11375] 0%Z [(1%Z, 3815); (1%Z, 11311); (1%Z, 11376); ((-1)%Z, 11822); ((-2)%Z, 11375)] 281474976710656%Z 1208925819614629174706176%Z;
  Lin [3814; 11310; 11375] [13835; 11821; 13834; 13833; 13832; 11374] 0%Z [(1%Z, 3814); (1%Z, 11310); (1%Z, 11375); ((-1)%Z, 11821); ((-2)%Z, 11374)] 140737488355328%Z 2417851639229258349412352%Z;
  Lin [3813; 11309; 11374] [13831; 11820; 13830; 13829; 13828; 11373] 0%Z [(1%Z, 3813); (1%Z, 11309); (1%Z, 11374); ((-1)%Z, 11820); ((-2)%Z, 11373)] 70368744177664%Z 4835703278458516698824704%Z;
  Lin [3812; 11308; 11373] [13827; 11819; 13826; 13825; 13824; 11372] 0%Z [(1%Z, 3812); (1%Z, 11308); (1%Z, 11373); ((-1)%Z, 11819); ((-2)%Z, 11372)] 35184372088832%Z 9671406556917033397649408%Z;
  Lin [3811; 11307; 11372] [13823; 11818; 13822; 13821; 13820; 11371] 0%Z [(1%Z, 3811); (1%Z, 11307); (1%Z, 11372); ((-1)%Z, 11818); ((-2)%Z, 11371)] 17592186044416%Z 19342813113834066795298816%Z;
  Lin [3810; 11306; 11371] [13819; 11817; 13818; 13817; 13816; 11370] 0%Z [(1%Z, 3810); (1%Z, 11306); (1%Z, 11371); ((-1)%Z, 11817); ((-2)%Z, 11370)] 8796093022208%Z 38685626227668133590597632%Z;
  Lin [3809; 11305; 11370] [13815; 11816; 13814; 13813; 13812; 11369] 0%Z [(1%Z, 3809); (1%Z, 11305); (1%Z, 11370); ((-1)%Z, 11816); ((-2)%Z, 11369)] 4398046511104%Z 77371252455336267181195264%Z;
  Lin [3808; 11304; 11369] [13811; 11815; 13810; 13809; 13808; 11368] 0%Z [(1%Z, 3808); (1%Z, 11304); (1%Z, 11369); ((-1)%Z, 11815); ((-2)%Z, 11368)] 2199023255552%Z 154742504910672534362390528%Z;
  Lin [3807; 11303; 11368] [13807; 11814; 13806; 13805; 13804; 11367] 0%Z [(1%Z, 3807); (1%Z, 11303); (1%Z, 11368); ((-1)%Z, 11814); ((-2)%Z, 11367)] 1099511627776%Z 309485009821345068724781056%Z;
  Lin [3806; 11302; 11367] [13803; 11813; 13802; 13801; 13800; 11366] 0%Z [(1%Z, 3806); (1%Z, 11302); (1%Z, 11367); ((-1)%Z, 11813); ((-2)%Z, 11366)] 549755813888%Z 618970019642690137449562112%Z;
  Lin [3805; 11301; 11366] [13799; 11812; 13798; 13797; 13796; 11365] 0%Z [(1%Z, 3805); (1%Z, 11301); (1%Z, 11366); ((-1)%Z, 11812); ((-2)%Z, 11365)] 274877906944%Z 1237940039285380274899124224%Z;
  Lin [3804; 11300; 11365] [13795; 11811; 13794; 13793; 13792; 11364] 0%Z [(1%Z, 3804); (1%Z, 11300); (1%Z, 11365); ((-1)%Z, 11811); ((-2)%Z, 11364)] 137438953472%Z 2475880078570760549798248448%Z].
Definition mult2_64_facts_37 : list lin_fact := [
  Lin [3803; 11299; 11364] [13791; 11810; 13790; 13789; 13788; 11363] 0%Z [(1%Z, 3803); (1%Z, 11299); (1%Z, 11364); ((-1)%Z, 11810); ((-2)%Z, 11363)] 68719476736%Z 4951760157141521099596496896%Z;
  Lin [3802; 11298; 11363] [13787; 11809; 13786; 13785; 13784; 11362] 0%Z [(1%Z, 3802); (1%Z, 11298); (1%Z, 11363); ((-1)%Z, 11809); ((-2)%Z, 11362)] 34359738368%Z 9903520314283042199192993792%Z;
  Lin [3801; 11297; 11362] [13783; 11808; 13782; 13781; 13780; 11361] 0%Z [(1%Z, 3801); (1%Z, 11297); (1%Z, 11362); ((-1)%Z, 11808); ((-2)%Z, 11361)] 17179869184%Z 19807040628566084398385987584%Z;
  Lin [3800; 11296; 11361] [13779; 11807; 13778; 13777; 13776; 11360] 0%Z [(1%Z, 3800); (1%Z, 11296); (1%Z, 11361); ((-1)%Z, 11807); ((-2)%Z, 11360)] 8589934592%Z 39614081257132168796771975168%Z;
  Lin [3799; 11295; 11360] [13775; 11806; 13774; 13773; 13772; 11359] 0%Z [(1%Z, 3799); (1%Z, 11295); (1%Z, 11360); ((-1)%Z, 11806); ((-2)%Z, 11359)] 4294967296%Z 79228162514264337593543950336%Z;
  Lin [3798; 11294; 11359] [13771; 11805; 13770; 13769; 13768; 11358] 0%Z [(1%Z, 3798); (1%Z, 11294); (1%Z, 11359); ((-1)%Z, 11805); ((-2)%Z, 11358)] 2147483648%Z 158456325028528675187087900672%Z;
  Lin [3797; 11293; 11358] [13767; 11804; 13766; 13765; 13764; 11357] 0%Z [(1%Z, 3797); (1%Z, 11293); (1%Z, 11358); ((-1)%Z, 11804); ((-2)%Z, 11357)] 1073741824%Z 316912650057057350374175801344%Z;
  Lin [3796; 11292; 11357] [13763; 11803; 13762; 13761; 13760; 11356] 0%Z [(1%Z, 3796); (1%Z, 11292); (1%Z, 11357); ((-1)%Z, 11803); ((-2)%Z, 11356)] 536870912%Z 633825300114114700748351602688%Z;
  Lin [3795; 11291; 11356] [13759; 11802; 13758; 13757; 13756; 11355] 0%Z [(1%Z, 3795); (1%Z, 11291); (1%Z, 11356); ((-1)%Z, 11802); ((-2)%Z, 11355)] 268435456%Z 1267650600228229401496703205376%Z;
  Lin [3794; 11290; 11355] [13755; 11801; 13754; 13753; 13752; 11354] 0%Z [(1%Z, 3794); (1%Z, 11290); (1%Z, 11355); ((-1)%Z, 11801); ((-2)%Z, 11354)] 134217728%Z 2535301200456458802993406410752%Z;
  Lin [3793; 11289; 11354] [13751; 11800; 13750; 13749; 13748; 11353] 0%Z [(1%Z, 3793); (1%Z, 11289); (1%Z, 11354); ((-1)%Z, 11800); ((-2)%Z, 11353)] 67108864%Z 5070602400912917605986812821504%Z;
  Lin [3792; 11288; 11353] [13747; 11799; 13746; 13745; 13744; 11352] 0%Z [(1%Z, 3792); (1%Z, 11288); (1%Z, 11353); ((-1)%Z, 11799); ((-2)%Z, 11352)] 33554432%Z 10141204801825835211973625643008%Z;
  Lin [3791; 11287; 11352] [13743; 11798; 13742; 13741; 13740; 11351] 0%Z [(1%Z, 3791); (1%Z, 11287); (1%Z, 11352); ((-1)%Z, 11798); ((-2)%Z, 11351)] 16777216%Z 20282409603651670423947251286016%Z;
  Lin [3790; 11286; 11351] [13739; 11797; 13738; 13737; 13736; 11350] 0%Z [(1%Z, 3790); (1%Z, 11286); (1%Z, 11351); ((-1)%Z, 11797); ((-2)%Z, 11350)] 8388608%Z 40564819207303340847894502572032%Z;
  Lin [3789; 11285; 11350] [13735; 11796; 13734; 13733; 13732; 11349] 0%Z [(1%Z, 3789); (1%Z, 11285); (1%Z, 11350); ((-1)%Z, 11796); ((-2)%Z, 11349)] 4194304%Z 81129638414606681695789005144064%Z;
  Lin [3788; 11284; 11349] [13731; 11795; 13730; 13729; 13728; 11348] 0%Z [(1%Z, 3788); (1%Z, 11284); (1%Z, 11349); ((-1)%Z, 11795); ((-2)%Z, 11348)] 2097152%Z 162259276829213363391578010288128%Z;
  Lin [3787; 11283; 11348] [13727; 11794; 13726; 13725; 13724; 11347] 0%Z [(1%Z, 3787); (1%Z, 11283); (1%Z, 11348); ((-1)%Z, 11794); ((-2)%Z, 11347)] 1048576%Z 324518553658426726783156020576256%Z;
  Lin [3786; 11282; 11347] [13723; 11793; 13722; 13721; 13720; 11346] 0%Z [(1%Z, 3786); (1%Z, 11282); (1%Z, 11347); ((-1)%Z, 11793); ((-2)%Z, 11346)] 524288%Z 649037107316853453566312041152512%Z;
  Lin [3785; 11281; 11346] [13719; 11792; 13718; 13717; 13716; 11345] 0%Z [(1%Z, 3785); (1%Z, 11281); (1%Z, 11346); ((-1)%Z, 11792); ((-2)%Z, 11345)] 262144%Z 1298074214633706907132624082305024%Z;
  Lin [3784; 11280; 11345] [13715; 11791; 13714; 13713; 13712; 11344] 0%Z [(1%Z, 3784); (1%Z, 11280); (1%Z, 11345); ((-1)%Z, 11791); ((-2)%Z, 11344)] 131072%Z 2596148429267413814265248164610048%Z;
  Lin [3783; 11279; 11344] [13711; 11790; 13710; 13709; 13708; 11343] 0%Z [(1%Z, 3783); (1%Z, 11279); (1%Z, 11344); ((-1)%Z, 11790); ((-2)%Z, 11343)] 65536%Z 5192296858534827628530496329220096%Z;
  Lin [3782; 11278; 11343] [13707; 11789; 13706; 13705; 13704; 11342] 0%Z [(1%Z, 3782); (1%Z, 11278); (1%Z, 11343); ((-1)%Z, 11789); ((-2)%Z, 11342)] 32768%Z 10384593717069655257060992658440192%Z;
  Lin [3781; 11277; 11342] [13703; 11788; 13702; 13701; 13700; 11341] 0%Z [(1%Z, 3781); (1%Z, 11277); (1%Z, 11342); ((-1)%Z, 11788); ((-2)%Z, 11341)] 16384%Z 20769187434139310514121985316880384%Z;
  Lin [3780; 11276; 11341] [13699; 11787; 13698; 13697; 13696; 11340] 0%Z [(1%Z, 3780); (1%Z, 11276); (1%Z, 11341); ((-1)%Z, 11787); ((-2)%Z, 11340)] 8192%Z 41538374868278621028243970633760768%Z;
  Lin [3779; 11275; 11340] [13695; 11786; 13694; 13693; 13692; 11339] 0%Z [(1%Z, 3779); (1%Z, 11275); (1%Z, 11340); ((-1)%Z, 11786); ((-2)%Z, 11339)] 4096%Z 83076749736557242056487941267521536%Z;
  Lin [3778; 11274; 11339] [13691; 11785; 13690; 13689; 13688; 11338] 0%Z [(1%Z, 3778); (1%Z, 11274); (1%Z, 11339); ((-1)%Z, 11785); ((-2)%Z, 11338)] 2048%Z 166153499473114484112975882535043072%Z;
  Lin [3777; 11273; 11338] [13687; 11784; 13686; 13685; 13684; 11337] 0%Z [(1%Z, 3777); (1%Z, 11273); (1%Z, 11338); ((-1)%Z, 11784); ((-2)%Z, 11337)] 1024%Z 332306998946228968225951765070086144%Z;
  Lin [3776; 11272; 11337] [13683; 11783; 13682; 13681; 13680; 11336] 0%Z [(1%Z, 3776); (1%Z, 11272); (1%Z, 11337); ((-1)%Z, 11783); ((-2)%Z, 11336)] 512%Z 664613997892457936451903530140172288%Z;
  Lin [3775; 10767; 11336] [13679; 11782; 13678; 13677; 13676; 11335] 0%Z [(1%Z, 3775); (1%Z, 10767); (1%Z, 11336); ((-1)%Z, 11782); ((-2)%Z, 11335)] 256%Z 1329227995784915872903807060280344576%Z;
  Lin [3886; 11828; 11447] [13615; 11892; 13614; 13613; 13612; 11446] 0%Z [(1%Z, 3886); (1%Z, 11828); (1%Z, 11447); ((-1)%Z, 11892); ((-2)%Z, 11446)] 18014398509481984%Z 18889465931478580854784%Z;
  Lin [3951; 11892; 11512] [13367; 11956; 13366; 13365; 13364; 11511] 0%Z [(1%Z, 3951); (1%Z, 11892); (1%Z, 11512); ((-1)%Z, 11956); ((-2)%Z, 11511)] 18014398509481984%Z 18889465931478580854784%Z;
  Lin [3885; 11827; 11446] [13611; 11891; 13610; 13609; 13608; 11445] 0%Z [(1%Z, 3885); (1%Z, 11827); (1%Z, 11446); ((-1)%Z, 11891); ((-2)%Z, 11445)] 9007199254740992%Z 37778931862957161709568%Z;
  Lin [3884; 11826; 11445] [13607; 11890; 13606; 13605; 13604; 11444] 0%Z [(1%Z, 3884); (1%Z, 11826); (1%Z, 11445); ((-1)%Z, 11890); ((-2)%Z, 11444)] 4503599627370496%Z 75557863725914323419136%Z;
  Lin [3883; 11825; 11444] [13603; 11889; 13602; 13601; 13600; 11443] 0%Z [(1%Z, 3883); (1%Z, 11825); (1%Z, 11444); ((-1)%Z, 11889); ((-2)%Z, 11443)] 2251799813685248%Z 151115727451828646838272%Z;
  Lin [3882; 11824; 11443] [13599; 11888; 13598; 13597; 13596; 11442] 0%Z [(1%Z, 3882); (1%Z, 11824); (1%Z, 11443); ((-1)%Z, 11888); ((-2)%Z, 11442)] 1125899906842624%Z 302231454903657293676544%Z;
  Lin [3881; 11823; 11442] [13595; 11887; 13594; 13593; 13592; 11441] 0%Z [(1%Z, 3881); (1%Z, 11823); (1%Z, 11442); ((-1)%Z, 11887); ((-2)%Z, 11441)] 562949953421312%Z 604462909807314587353088%Z;
  Lin [3880; 11822; 11441] [13591; 11886; 13590; 13589; 13588; 11440] 0%Z [(1%Z, 3880); (1%Z, 11822); (1%Z, 11441); ((-1)%Z, 11886); ((-2)%Z, 11440)] 281474976710656%Z 1208925819614629174706176%Z;
  Lin [3879; 11821; 11440] [13587; 11885; 13586; 13585; 13584; 11439] 0%Z [(1%Z, 3879); (1%Z, 11821); (1%Z, 11440); ((-1)%Z, 11885); ((-2)%Z, 11439)] 140737488355328%Z 2417851639229258349412352%Z;
  Lin [3878; 11820; 11439] [13583; 11884; 13582; 13581; 13580; 11438] 0%Z [(1%Z, 3878); (1%Z, 11820); (1%Z, 11439); ((-1)%Z, 11884); ((-2)%Z, 11438)] 70368744177664%Z 4835703278458516698824704%Z;
  Lin [3877; 11819; 11438] [13579; 11883; 13578; 13577; 13576; 11437] 0%Z [(1%Z, 3877); (1%Z, 11819); (1%Z, 11438); ((-1)%Z, 11883); ((-2)%Z, 11437)] 35184372088832%Z 9671406556917033397649408%Z;
  Lin [3876; 11818; 11437] [13575; 11882; 13574; 13573; 13572; 11436] 0%Z [(1%Z, 3876); (1%Z, 11818); (1%Z, 11437); ((-1)%Z, 11882); ((-2)%Z, 11436)] 17592186044416%Z 19342813113834066795298816%Z;
  Lin [3875; 11817; 11436] [13571; 11881; 13570; 13569; 13568; 11435] 0%Z [(1%Z, 3875); (1%Z, 11817); (1%Z, 11436); ((-1)%Z, 11881); ((-2)%Z, 11435)] 8796093022208%Z 38685626227668133590597632%Z;
  Lin [3874; 11816; 11435] [13567; 11880; 13566; 13565; 13564; 11434] 0%Z [(1%Z, 3874); (1%Z, 11816); (1%Z, 11435); ((-1)%Z, 11880); ((-2)%Z, 11434)] 4398046511104%Z 77371252455336267181195264%Z;
  Lin [3873; 11815; 11434] [13563; 11879; 13562; 13561; 13560; 11433] 0%Z [(1%Z, 3873); (1%Z, 11815); (1%Z, 11434); ((-1)%Z, 11879); ((-2)%Z, 11433)] 2199023255552%Z 154742504910672534362390528%Z;
  Lin [3872; 11814; 11433] [13559; 11878; 13558; 13557; 13556; 11432] 0%Z [(1%Z, 3872); (1%Z, 11814); (1%Z, 11433); ((-1)%Z, 11878); ((-2)%Z, 11432)] 1099511627776%Z 309485009821345068724781056%Z;
  Lin [3871; 11813; 11432] [13555; 11877; 13554; 13553; 13552; 11431] 0%Z [(1%Z, 3871); (1%Z, 11813); (1%Z, 11432); ((-1)%Z, 11877); ((-2)%Z, 11431)] 549755813888%Z 618970019642690137449562112%Z;
  Lin [3870; 11812; 11431] [13551; 11876; 13550; 13549; 13548; 11430] 0%Z [(1%Z, 3870); (1%Z, 11812); (1%Z, 11431); ((-1)%Z, 11876); ((-2)%Z, 11430)] 274877906944%Z 1237940039285380274899124224%Z;
  Lin [3869; 11811; 11430] [13547; 11875; 13546; 13545; 13544; 11429] 0%Z [(1%Z, 3869); (1%Z, 11811); (1%Z, 11430); ((-1)%Z, 11875); ((-2)%Z, 11429)] 137438953472%Z 2475880078570760549798248448%Z;
  Lin [3950; 11891; 11511] [13363; 11955; 13362; 13361; 13360; 11510] 0%Z [(1%Z, 3950); (1%Z, 11891); (1%Z, 11511); ((-1)%Z, 11955); ((-2)%Z, 11510)] 9007199254740992%Z 37778931862957161709568%Z;
  Lin [3949; 11890; 11510] [13359; 11954; 13358; 13357; 13356; 11509] 0%Z [(1%Z, 3949); (1%Z, 11890); (1%Z, 11510); ((-1)%Z, 11954); ((-2)%Z, 11509)] 4503599627370496%Z 75557863725914323419136%Z;
  Lin [3948; 11889; 11509] [13355; 11953; 13354; 13353; 13352; 11508] 0%Z [(1%Z, 3948); (1%Z, 11889); (1%Z, 11509); ((-1)%Z, 11953); ((-2)%Z, 11508)] 2251799813685248%Z 151115727451828646838272%Z;
  Lin [3947; 11888; 11508] [13351; 11952; 13350; 13349; 13348; 11507] 0%Z [(1%Z, 3947); (1%Z, 11888); (1%Z, 11508); ((-1)%Z, 11952); ((-2)%Z, 11507)] 1125899906842624%Z 302231454903657293676544%Z;
  Lin [3946; 11887; 11507] [13347; 11951; 13346; 13345; 13344; 11506] 0%Z [(1%Z, 3946); (1%Z, 11887); (1%Z, 11507); ((-1)%Z, 11951); ((-2)%Z, 11506)] 562949953421312%Z 604462909807314587353088%Z;
  Lin [3945; 11886; 11506] [13343; 11950; 13342; 13341; 13340; 11505] 0%Z [(1%Z, 3945); (1%Z, 11886); (1%Z, 11506); ((-1)%Z, 11950); ((-2)%Z, 11505)] 281474976710656%Z 1208925819614629174706176%Z;
  Lin [3944; 11885; 11505] [13339; 11949; 13338; 13337; 13336; 11504] 0%Z [(1%Z, 3944); (1%Z, 11885); (1%Z, 11505); ((-1)%Z, 11949); ((-2)%Z, 11504)] 140737488355328%Z 2417851639229258349412352%Z;
  Lin [3943; 11884; 11504] [13335; 11948; 13334; 13333; 13332; 11503] 0%Z [(1%Z, 3943); (1%Z, 11884); (1%Z, 11504); ((-1)%Z, 11948); ((-2)%Z, 11503)] 70368744177664%Z 4835703278458516698824704%Z;
  Lin [3942; 11883; 11503] [13331; 11947; 13330; 13329; 13328; 11502] 0%Z [(1%Z, 3942); (1%Z, 11883); (1%Z, 11503); ((-1)%Z, 11947); ((-2)%Z, 11502)] 35184372088832%Z 9671406556917033397649408%Z;
  Lin [3941; 11882; 11502] [13327; 11946; 13326; 13325; 13324; 11501] 0%Z [(1%Z, 3941); (1%Z, 11882); (1%Z, 11502); ((-1)%Z, 11946); ((-2)%Z, 11501)] 17592186044416%Z 19342813113834066795298816%Z;
  Lin [3940; 11881; 11501] [13323; 11945; 13322; 13321; 13320; 11500] 0%Z [(1%Z, 3940); (1%Z, 11881); (1%Z, 11501); ((-1)%Z, 11945); ((-2)%Z, 11500)] 8796093022208%Z 38685626227668133590597632%Z;
  Lin [3939; 11880; 11500] [13319; 11944; 13318; 13317; 13316; 11499] 0%Z [(1%Z, 3939); (1%Z, 11880); (1%Z, 11500); ((-1)%Z, 11944); ((-2)%Z, 11499)] 4398046511104%Z 77371252455336267181195264%Z;
  Lin [3938; 11879; 11499] [13315; 11943; 13314; 13313; 13312; 11498] 0%Z [(1%Z, 3938); (1%Z, 11879); (1%Z, 11499); ((-1)%Z, 11943); ((-2)%Z, 11498)] 2199023255552%Z 154742504910672534362390528%Z;
  Lin [3937; 11878; 11498] [13311; 11942; 13310; 13309; 13308; 11497] 0%Z [(1%Z, 3937); (1%Z, 11878); (1%Z, 11498); ((-1)%Z, 11942); ((-2)%Z, 11497)] 1099511627776%Z 309485009821345068724781056%Z;
  Lin [3936; 11877; 11497] [13307; 11941; 13306; 13305; 13304; 11496] 0%Z [(1%Z, 3936); (1%Z, 11877); (1%Z, 11497); ((-1)%Z, 11941); ((-2)%Z, 11496)] 549755813888%Z 618970019642690137449562112%Z;
  Lin [3935; 11876; 11496] [13303; 11940; 13302; 13301; 13300; 11495] 0%Z [(1%Z, 3935); (1%Z, 11876); (1%Z, 11496); ((-1)%Z, 11940); ((-2)%Z, 11495)] 274877906944%Z 1237940039285380274899124224%Z;
  Lin [3934; 11875; 11495] [13299; 11939; 13298; 13297; 13296; 11494] 0%Z [(1%Z, 3934); (1%Z, 11875); (1%Z, 11495); ((-1)%Z, 11939); ((-2)%Z, 11494)] 137438953472%Z 2475880078570760549798248448%Z;
  Lin [3868; 11810; 11429] [13543; 11874; 13542; 13541; 13540; 11428] 0%Z [(1%Z, 3868); (1%Z, 11810); (1%Z, 11429); ((-1)%Z, 11874); ((-2)%Z, 11428)] 68719476736%Z 4951760157141521099596496896%Z;
  Lin [3933; 11874; 11494] [13295; 11938; 13294; 13293; 13292; 11493] 0%Z [(1%Z, 3933); (1%Z, 11874); (1%Z, 11494); ((-1)%Z, 11938); ((-2)%Z, 11493)] 68719476736%Z 4951760157141521099596496896%Z;
  Lin [3867; 11809; 11428] [13539; 11873; 13538; 13537; 13536; 11427] 0%Z [(1%Z, 3867); (1%Z, 11809); (1%Z, 11428); ((-1)%Z, 11873); ((-2)%Z, 11427)] 34359738368%Z 9903520314283042199192993792%Z;
  Lin [3932; 11873; 11493] [13291; 11937; 13290; 13289; 13288; 11492] 0%Z [(1%Z, 3932); (1%Z, 11873); (1%Z, 11493); ((-1)%Z, 11937); ((-2)%Z, 11492)] 34359738368%Z 9903520314283042199192993792%Z;
  Lin [3866; 11808; 11427] [13535; 11872; 13534; 13533; 13532; 11426] 0%Z [(1%Z, 3866); (1%Z, 11808); (1%Z, 11427); ((-1)%Z, 11872); ((-2)%Z, 11426)] 17179869184%Z 19807040628566084398385987584%Z;
  Lin [3865; 11807; 11426] [13531; 11871; 13530; 13529; 13528; 11425] 0%Z [(1%Z, 3865); (1%Z, 11807); (1%Z, 11426); ((-1)%Z, 11871); ((-2)%Z, 11425)] 8589934592%Z 39614081257132168796771975168%Z;
  Lin [3864; 11806; 11425] [13527; 11870; 13526; 13525; 13524; 11424] 0%Z [(1%Z, 3864); (1%Z, 11806); (1%Z, 11425); ((-1)%Z, 11870); ((-2)%Z, 11424)] 4294967296%Z 79228162514264337593543950336%Z;
  Lin [3931; 11872; 11492] [13287; 11936; 13286; 13285; 13284; 11491] 0%Z [(1%Z, 3931); (1%Z, 11872); (1%Z, 11492); ((-1)%Z, 11936); ((-2)%Z, 11491)] 17179869184%Z 19807040628566084398385987584%Z;
  Lin [3930; 11871; 11491] [13283; 11935; 13282; 13281; 13280; 11490] 0%Z [(1%Z, 3930); (1%Z, 11871); (1%Z, 11491); ((-1)%Z, 11935); ((-2)%Z, 11490)] 8589934592%Z 39614081257132168796771975168%Z;
  Lin [3929; 11870; 11490] [13279; 11934; 13278; 13277; 13276; 11489] 0%Z [(1%Z, 3929); (1%Z, 11870); (1%Z, 11490); ((-1)%Z, 11934); ((-2)%Z, 11489)] 4294967296%Z 79228162514264337593543950336%Z;
  Lin [3863; 11805; 11424] [13523; 11869; 13522; 13521; 13520; 11423] 0%Z [(1%Z, 3863); (1%Z, 11805); (1%Z, 11424); ((-1)%Z, 11869); ((-2)%Z, 11423)] 2147483648%Z 158456325028528675187087900672%Z;
  Lin [3862; 11804; 11423] [13519; 11868; 13518; 13517; 13516; 11422] 0%Z [(1%Z, 3862); (1%Z, 11804); (1%Z, 11423); ((-1)%Z, 11868); ((-2)%Z, 11422)] 1073741824%Z 316912650057057350374175801344%Z;
  Lin [3861; 11803; 11422] [13515; 11867; 13514; 13513; 13512; 11421] 0%Z [(1%Z, 3861); (1%Z, 11803); (1%Z, 11422); ((-1)%Z, 11867); ((-2)%Z, 11421)] 536870912%Z 633825300114114700748351602688%Z;
  Lin [3860; 11802; 11421] [13511; 11866; 13510; 13509; 13508; 11420] 0%Z [(1%Z, 3860); (1%Z, 11802); (1%Z, 11421); ((-1)%Z, 11866); ((-2)%Z, 11420)] 268435456%Z 1267650600228229401496703205376%Z;
  Lin [3859; 11801; 11420] [13507; 11865; 13506; 13505; 13504; 11419] 0%Z [(1%Z, 3859); (1%Z, 11801); (1%Z, 11420); ((-1)%Z, 11865); ((-2)%Z, 11419)] 134217728%Z 2535301200456458802993406410752%Z;
  Lin [3858; 11800; 11419] [13503; 11864; 13502; 13501; 13500; 11418] 0%Z [(1%Z, 3858); (1%Z, 11800); (1%Z, 11419); ((-1)%Z, 11864); ((-2)%Z, 11418)] 67108864%Z 5070602400912917605986812821504%Z;
  Lin [3857; 11799; 11418] [13499; 11863; 13498; 13497; 13496; 11417] 0%Z [(1%Z, 3857); (1%Z, 11799); (1%Z, 11418); ((-1)%Z, 11863); ((-2)%Z, 11417)] 33554432%Z 10141204801825835211973625643008%Z;
  Lin [3856; 11798; 11417] [13495; 11862; 13494; 13493; 13492; 11416] 0%Z [(1%Z, 3856); (1%Z, 11798); (1%Z, 11417); ((-1)%Z, 11862); ((-2)%Z, 11416)] 16777216%Z 20282409603651670423947251286016%Z;
  Lin [3855; 11797; 11416] [13491; 11861; 13490; 13489; 13488; 11415] 0%Z [(1%Z, 3855); (1%Z, 11797); (1%Z, 11416); ((-1)%Z, 11861); ((-2)%Z, 11415)] 8388608%Z 40564819207303340847894502572032%Z;
  Lin [3854; 11796; 11415] [13487; 11860; 13486; 13485; 13484; 11414] 0%Z [(1%Z, 3854); (1%Z, 11796); (1%Z, 11415); ((-1)%Z, 11860); ((-2)%Z, 11414)] 4194304%Z 81129638414606681695789005144064%Z;
  Lin [3853; 11795; 11414] [13483; 11859; 13482; 13481; 13480; 11413] 0%Z [(1%Z, 3853); (1%Z, 11795); (1%Z, 11414); ((-1)%Z, 11859); ((-2)%Z, 11413)] 2097152%Z 162259276829213363391578010288128%Z;
  Lin [3852; 11794; 11413] [13479; 11858; 13478; 13477; 13476; 11412] 0%Z [(1%Z, 3852); (1%Z, 11794); (1%Z, 11413); ((-1)%Z, 11858); ((-2)%Z, 11412)] 1048576%Z 324518553658426726783156020576256%Z;
  Lin [3851; 11793; 11412] [13475; 11857; 13474; 13473; 13472; 11411] 0%Z [(1%Z, 3851); (1%Z, 11793); (1%Z, 11412); ((-1)%Z, 11857); ((-2)%Z, 11411)] 524288%Z 649037107316853453566312041152512%Z;
  Lin [3850; 11792; 11411] [13471; 11856; 13470; 13469; 13468; 11410] 0%Z [(1%Z, 3850); (1%Z, 11792); (1%Z, 11411); ((-1)%Z, 11856); ((-2)%Z, 11410)] 262144%Z 1298074214633706907132624082305024%Z;
  Lin [3849; 11791; 11410] [13467; 11855; 13466; 13465; 13464; 11409] 0%Z [(1%Z, 3849); (1%Z, 11791); (1%Z, 11410); ((-1)%Z, 11855); ((-2)%Z, 11409)] 131072%Z 2596148429267413814265248164610048%Z;
  Lin [3848; 11790; 11409] [13463; 11854; 13462; 13461; 13460; 11408] 0%Z [(1%Z, 3848); (1%Z, 11790); (1%Z, 11409); ((-1)%Z, 11854); ((-2)%Z, 11408)] 65536%Z 5192296858534827628530496329220096%Z;
  Lin [3847; 11789; 11408] [13459; 11853; 13458; 13457; 13456; 11407] 0%Z [(1%Z, 3847); (1%Z, 11789); (1%Z, 11408); ((-1)%Z, 11853); ((-2)%Z, 11407)] 32768%Z 10384593717069655257060992658440192%Z;
  Lin [3846; 11788; 11407] [13455; 11852; 13454; 13453; 13452; 11406] 0%Z [(1%Z, 3846); (1%Z, 11788); (1%Z, 11407); ((-1)%Z, 11852); ((-2)%Z, 11406)] 16384%Z 20769187434139310514121985316880384%Z;
  Lin [3845; 11787; 11406] [13451; 11851; 13450; 13449; 13448; 11405] 0%Z [(1%Z, 3845); (1%Z, 11787); (1%Z, 11406); ((-1)%Z, 11851); ((-2)%Z, 11405)] 8192%Z 41538374868278621028243970633760768%Z;
  Lin [3844; 11786; 11405] [13447; 11850; 13446; 13445; 13444; 11404] 0%Z [(1%Z, 3844); (1%Z, 11786); (1%Z, 11405); ((-1)%Z, 11850); ((-2)%Z, 11404)] 4096%Z 83076749736557242056487941267521536%Z;
  Lin [3843; 11785; 11404] [13443; 11849; 13442; 13441; 13440; 11403] 0%Z [(1%Z, 3843); (1%Z, 11785); (1%Z, 11404); ((-1)%Z, 11849); ((-2)%Z, 11403)] 2048%Z 166153499473114484112975882535043072%Z;
  Lin [3842; 11784; 11403] [13439; 11848; 13438; 13437; 13436; 11402] 0%Z [(1%Z, 3842); (1%Z, 11784); (1%Z, 11403); ((-1)%Z, 11848); ((-2)%Z, 11402)] 1024%Z 332306998946228968225951765070086144%Z;
  Lin [3841; 11783; 11402] [13435; 11847; 13434; 13433; 13432; 11401] 0%Z [(1%Z, 3841); (1%Z, 11783); (1%Z, 11402); ((-1)%Z, 11847); ((-2)%Z, 11401)] 512%Z 664613997892457936451903530140172288%Z;
  Lin [3840; 11782; 11401] [13431; 11846; 13430; 13429; 13428; 11400] 0%Z [(1%Z, 3840); (1%Z, 11782); (1%Z, 11401); ((-1)%Z, 11846); ((-2)%Z, 11400)] 256%Z 1329227995784915872903807060280344576%Z;
  Lin [3839; 11335; 11400] [13427; 11845; 13426; 13425; 13424; 11399] 0%Z [(1%Z, 3839); (1%Z, 11335); (1%Z, 11400); ((-1)%Z, 11845); ((-2)%Z, 11399)] 128%Z 2658455991569831745807614120560689152%Z].
Definition mult2_64_facts_38 : list lin_fact := [
  Lin [4016; 11956; 11577] [13119; 12020; 13118; 13117; 13116; 11576] 0%Z [(1%Z, 4016); (1%Z, 11956); (1%Z, 11577); ((-1)%Z, 12020); ((-2)%Z, 11576)] 18014398509481984%Z 18889465931478580854784%Z;
  Lin [4081; 12020; 11642] [12871; 12084; 12870; 12869; 12868; 11641] 0%Z [(1%Z, 4081); (1%Z, 12020); (1%Z, 11642); ((-1)%Z, 12084); ((-2)%Z, 11641)] 18014398509481984%Z 18889465931478580854784%Z;
  Lin [4146; 12084; 11707] [12623; 12148; 12622; 12621; 12620; 11706] 0%Z [(1%Z, 4146); (1%Z, 12084); (1%Z, 11707); ((-1)%Z, 12148); ((-2)%Z, 11706)] 18014398509481984%Z 18889465931478580854784%Z;
  Lin [4211; 12148; 11771] [12375; 28042; 12374; 12373; 12372; 11770] 0%Z [(1%Z, 4211); (1%Z, 12148); (1%Z, 11771); ((-1)%Z, 28042); ((-2)%Z, 11770)] 18014398509481984%Z 18889465931478580854784%Z;
  Lin [4015; 11955; 11576] [13115; 12019; 13114; 13113; 13112; 11575] 0%Z [(1%Z, 4015); (1%Z, 11955); (1%Z, 11576); ((-1)%Z, 12019); ((-2)%Z, 11575)] 9007199254740992%Z 37778931862957161709568%Z;
  Lin [4014; 11954; 11575] [13111; 12018; 13110; 13109; 13108; 11574] 0%Z [(1%Z, 4014); (1%Z, 11954); (1%Z, 11575); ((-1)%Z, 12018); ((-2)%Z, 11574)] 4503599627370496%Z 75557863725914323419136%Z;
  Lin [4013; 11953; 11574] [13107; 12017; 13106; 13105; 13104; 11573] 0%Z [(1%Z, 4013); (1%Z, 11953); (1%Z, 11574); ((-1)%Z, 12017); ((-2)%Z, 11573)] 2251799813685248%Z 151115727451828646838272%Z;
  Lin [4012; 11952; 11573] [13103; 12016; 13102; 13101; 13100; 11572] 0%Z [(1%Z, 4012); (1%Z, 11952); (1%Z, 11573); ((-1)%Z, 12016); ((-2)%Z, 11572)] 1125899906842624%Z 302231454903657293676544%Z;
  Lin [4011; 11951; 11572] [13099; 12015; 13098; 13097; 13096; 11571] 0%Z [(1%Z, 4011); (1%Z, 11951); (1%Z, 11572); ((-1)%Z, 12015); ((-2)%Z, 11571)] 562949953421312%Z 604462909807314587353088%Z;
  Lin [4010; 11950; 11571] [13095; 12014; 13094; 13093; 13092; 11570] 0%Z [(1%Z, 4010); (1%Z, 11950); (1%Z, 11571); ((-1)%Z, 12014); ((-2)%Z, 11570)] 281474976710656%Z 1208925819614629174706176%Z;
  Lin [4009; 11949; 11570] [13091; 12013; 13090; 13089; 13088; 11569] 0%Z [(1%Z, 4009); (1%Z, 11949); (1%Z, 11570); ((-1)%Z, 12013); ((-2)%Z, 11569)] 140737488355328%Z 2417851639229258349412352%Z;
  Lin [4008; 11948; 11569] [13087; 12012; 13086; 13085; 13084; 11568] 0%Z [(1%Z, 4008); (1%Z, 11948); (1%Z, 11569); ((-1)%Z, 12012); ((-2)%Z, 11568)] 70368744177664%Z 4835703278458516698824704%Z;
  Lin [4007; 11947; 11568] [13083; 12011; 13082; 13081; 13080; 11567] 0%Z [(1%Z, 4007); (1%Z, 11947); (1%Z, 11568); ((-1)%Z, 12011); ((-2)%Z, 11567)] 35184372088832%Z 9671406556917033397649408%Z;
  Lin [4006; 11946; 11567] [13079; 12010; 13078; 13077; 13076; 11566] 0%Z [(1%Z, 4006); (1%Z, 11946); (1%Z, 11567); ((-1)%Z, 12010); ((-2)%Z, 11566)] 17592186044416%Z 19342813113834066795298816%Z;
  Lin [4005; 11945; 11566] [13075; 12009; 13074; 13073; 13072; 11565] 0%Z [(1%Z, 4005); (1%Z, 11945); (1%Z, 11566); ((-1)%Z, 12009); ((-2)%Z, 11565)] 8796093022208%Z 38685626227668133590597632%Z;
  Lin [4004; 11944; 11565] [13071; 12008; 13070; 13069; 13068; 11564] 0%Z [(1%Z, 4004); (1%Z, 11944); (1%Z, 11565); ((-1)%Z, 12008); ((-2)%Z, 11564)] 4398046511104%Z 77371252455336267181195264%Z;
  Lin [4003; 11943; 11564] [13067; 12007; 13066; 13065; 13064; 11563] 0%Z [(1%Z, 4003); (1%Z, 11943); (1%Z, 11564); ((-1)%Z, 12007); ((-2)%Z, 11563)] 2199023255552%Z 154742504910672534362390528%Z;
  Lin [4002; 11942; 11563] [13063; 12006; 13062; 13061; 13060; 11562] 0%Z [(1%Z, 4002); (1%Z, 11942); (1%Z, 11563); ((-1)%Z, 12006); ((-2)%Z, 11562)] 1099511627776%Z 309485009821345068724781056%Z;
  Lin [4001; 11941; 11562] [13059; 12005; 13058; 13057; 13056; 11561] 0%Z [(1%Z, 4001); (1%Z, 11941); (1%Z, 11562); ((-1)%Z, 12005); ((-2)%Z, 11561)] 549755813888%Z 618970019642690137449562112%Z;
  Lin [4000; 11940; 11561] [13055; 12004; 13054; 13053; 13052; 11560] 0%Z [(1%Z, 4000); (1%Z, 11940); (1%Z, 11561); ((-1)%Z, 12004); ((-2)%Z, 11560)] 274877906944%Z 1237940039285380274899124224%Z;
  Lin [3999; 11939; 11560] [13051; 12003; 13050; 13049; 13048; 11559] 0%Z [(1%Z, 3999); (1%Z, 11939); (1%Z, 11560); ((-1)%Z, 12003); ((-2)%Z, 11559)] 137438953472%Z 2475880078570760549798248448%Z;
  Lin [3998; 11938; 11559] [13047; 12002; 13046; 13045; 13044; 11558] 0%Z [(1%Z, 3998); (1%Z, 11938); (1%Z, 11559); ((-1)%Z, 12002); ((-2)%Z, 11558)] 68719476736%Z 4951760157141521099596496896%Z;
  Lin [3997; 11937; 11558] [13043; 12001; 13042; 13041; 13040; 11557] 0%Z [(1%Z, 3997); (1%Z, 11937); (1%Z, 11558); ((-1)%Z, 12001); ((-2)%Z, 11557)] 34359738368%Z 9903520314283042199192993792%Z;
  Lin [3996; 11936; 11557] [13039; 12000; 13038; 13037; 13036; 11556] 0%Z [(1%Z, 3996); (1%Z, 11936); (1%Z, 11557); ((-1)%Z, 12000); ((-2)%Z, 11556)] 17179869184%Z 19807040628566084398385987584%Z;
  Lin [3995; 11935; 11556] [13035; 11999; 13034; 13033; 13032; 11555] 0%Z [(1%Z, 3995); (1%Z, 11935); (1%Z, 11556); ((-1)%Z, 11999); ((-2)%Z, 11555)] 8589934592%Z 39614081257132168796771975168%Z;
  Lin [3994; 11934; 11555] [13031; 11998; 13030; 13029; 13028; 11554] 0%Z [(1%Z, 3994); (1%Z, 11934); (1%Z, 11555); ((-1)%Z, 11998); ((-2)%Z, 11554)] 4294967296%Z 79228162514264337593543950336%Z;
  Lin [3928; 11869; 11489] [13275; 11933; 13274; 13273; 13272; 11488] 0%Z [(1%Z, 3928); (1%Z, 11869); (1%Z, 11489); ((-1)%Z, 11933); ((-2)%Z, 11488)] 2147483648%Z 158456325028528675187087900672%Z;
  Lin [3993; 11933; 11554] [13027; 11997; 13026; 13025; 13024; 11553] 0%Z [(1%Z, 3993); (1%Z, 11933); (1%Z, 11554); ((-1)%Z, 11997); ((-2)%Z, 11553)] 2147483648%Z 158456325028528675187087900672%Z;
  Lin [3927; 11868; 11488] [13271; 11932; 13270; 13269; 13268; 11487] 0%Z [(1%Z, 3927); (1%Z, 11868); (1%Z, 11488); ((-1)%Z, 11932); ((-2)%Z, 11487)] 1073741824%Z 316912650057057350374175801344%Z;
  Lin [3926; 11867; 11487] [13267; 11931; 13266; 13265; 13264; 11486] 0%Z [(1%Z, 3926); (1%Z, 11867); (1%Z, 11487); ((-1)%Z, 11931); ((-2)%Z, 11486)] 536870912%Z 633825300114114700748351602688%Z;
  Lin [3925; 11866; 11486] [13263; 11930; 13262; 13261; 13260; 11485] 0%Z [(1%Z, 3925); (1%Z, 11866); (1%Z, 11486); ((-1)%Z, 11930); ((-2)%Z, 11485)] 268435456%Z 1267650600228229401496703205376%Z;
  Lin [3924; 11865; 11485] [13259; 11929; 13258; 13257; 13256; 11484] 0%Z [(1%Z, 3924); (1%Z, 11865); (1%Z, 11485); ((-1)%Z, 11929); ((-2)%Z, 11484)] 134217728%Z 2535301200456458802993406410752%Z;
  Lin [3923; 11864; 11484] [13255; 11928; 13254; 13253; 13252; 11483] 0%Z [(1%Z, 3923); (1%Z, 11864); (1%Z, 11484); ((-1)%Z, 11928); ((-2)%Z, 11483)] 67108864%Z 5070602400912917605986812821504%Z;
  Lin [3992; 11932; 11553] [13023; 11996; 13022; 13021; 13020; 11552] 0%Z [(1%Z, 3992); (1%Z, 11932); (1%Z, 11553); ((-1)%Z, 11996); ((-2)%Z, 11552)] 1073741824%Z 316912650057057350374175801344%Z;
  Lin [3991; 11931; 11552] [13019; 11995; 13018; 13017; 13016; 11551] 0%Z [(1%Z, 3991); (1%Z, 11931); (1%Z, 11552); ((-1)%Z, 11995); ((-2)%Z, 11551)] 536870912%Z 633825300114114700748351602688%Z;
  Lin [3990; 11930; 11551] [13015; 11994; 13014; 13013; 13012; 11550] 0%Z [(1%Z, 3990); (1%Z, 11930); (1%Z, 11551); ((-1)%Z, 11994); ((-2)%Z, 11550)] 268435456%Z 1267650600228229401496703205376%Z;
  Lin [3989; 11929; 11550] [13011; 11993; 13010; 13009; 13008; 11549] 0%Z [(1%Z, 3989); (1%Z, 11929); (1%Z, 11550); ((-1)%Z, 11993); ((-2)%Z, 11549)] 134217728%Z 2535301200456458802993406410752%Z;
  Lin [3988; 11928; 11549] [13007; 11992; 13006; 13005; 13004; 11548] 0%Z [(1%Z, 3988); (1%Z, 11928); (1%Z, 11549); ((-1)%Z, 11992); ((-2)%Z, 11548)] 67108864%Z 5070602400912917605986812821504%Z;
  Lin [3922; 11863; 11483] [13251; 11927; 13250; 13249; 13248; 11482] 0%Z [(1%Z, 3922); (1%Z, 11863); (1%Z, 11483); ((-1)%Z, 11927); ((-2)%Z, 11482)] 33554432%Z 10141204801825835211973625643008%Z;
  Lin [3987; 11927; 11548] [13003; 11991; 13002; 13001; 13000; 11547] 0%Z [(1%Z, 3987); (1%Z, 11927); (1%Z, 11548); ((-1)%Z, 11991); ((-2)%Z, 11547)] 33554432%Z 10141204801825835211973625643008%Z;
  Lin [3921; 11862; 11482] [13247; 11926; 13246; 13245; 13244; 11481] 0%Z [(1%Z, 3921); (1%Z, 11862); (1%Z, 11482); ((-1)%Z, 11926); ((-2)%Z, 11481)] 16777216%Z 20282409603651670423947251286016%Z;
  Lin [3986; 11926; 11547] [12999; 11990; 12998; 12997; 12996; 11546] 0%Z [(1%Z, 3986); (1%Z, 11926); (1%Z, 11547); ((-1)%Z, 11990); ((-2)%Z, 11546)] 16777216%Z 20282409603651670423947251286016%Z;
  Lin [3920; 11861; 11481] [13243; 11925; 13242; 13241; 13240; 11480] 0%Z [(1%Z, 3920); (1%Z, 11861); (1%Z, 11481); ((-1)%Z, 11925); ((-2)%Z, 11480)] 8388608%Z 40564819207303340847894502572032%Z;
  Lin [3919; 11860; 11480] [13239; 11924; 13238; 13237; 13236; 11479] 0%Z [(1%Z, 3919); (1%Z, 11860); (1%Z, 11480); ((-1)%Z, 11924); ((-2)%Z, 11479)] 4194304%Z 81129638414606681695789005144064%Z;
  Lin [3918; 11859; 11479] [13235; 11923; 13234; 13233; 13232; 11478] 0%Z [(1%Z, 3918); (1%Z, 11859); (1%Z, 11479); ((-1)%Z, 11923); ((-2)%Z, 11478)] 2097152%Z 162259276829213363391578010288128%Z;
  Lin [3917; 11858; 11478] [13231; 11922; 13230; 13229; 13228; 11477] 0%Z [(1%Z, 3917); (1%Z, 11858); (1%Z, 11478); ((-1)%Z, 11922); ((-2)%Z, 11477)] 1048576%Z 324518553658426726783156020576256%Z;
  Lin [3916; 11857; 11477] [13227; 11921; 13226; 13225; 13224; 11476] 0%Z [(1%Z, 3916); (1%Z, 11857); (1%Z, 11477); ((-1)%Z, 11921); ((-2)%Z, 11476)] 524288%Z 649037107316853453566312041152512%Z;
  Lin [3915; 11856; 11476] [13223; 11920; 13222; 13221; 13220; 11475] 0%Z [(1%Z, 3915); (1%Z, 11856); (1%Z, 11476); ((-1)%Z, 11920); ((-2)%Z, 11475)] 262144%Z 1298074214633706907132624082305024%Z;
  Lin [3914; 11855; 11475] [13219; 11919; 13218; 13217; 13216; 11474] 0%Z [(1%Z, 3914); (1%Z, 11855); (1%Z, 11475); ((-1)%Z, 11919); ((-2)%Z, 11474)] 131072%Z 2596148429267413814265248164610048%Z;
  Lin [3913; 11854; 11474] [13215; 11918; 13214; 13213; 13212; 11473] 0%Z [(1%Z, 3913); (1%Z, 11854); (1%Z, 11474); ((-1)%Z, 11918); ((-2)%Z, 11473)] 65536%Z 5192296858534827628530496329220096%Z;
  Lin [3912; 11853; 11473] [13211; 11917; 13210; 13209; 13208; 11472] 0%Z [(1%Z, 3912); (1%Z, 11853); (1%Z, 11473); ((-1)%Z, 11917); ((-2)%Z, 11472)] 32768%Z 10384593717069655257060992658440192%Z;
  Lin [3911; 11852; 11472] [13207; 11916; 13206; 13205; 13204; 11471] 0%Z [(1%Z, 3911); (1%Z, 11852); (1%Z, 11472); ((-1)%Z, 11916); ((-2)%Z, 11471)] 16384%Z 20769187434139310514121985316880384%Z;
  Lin [3910; 11851; 11471] [13203; 11915; 13202; 13201; 13200; 11470] 0%Z [(1%Z, 3910); (1%Z, 11851); (1%Z, 11471); ((-1)%Z, 11915); ((-2)%Z, 11470)] 8192%Z 41538374868278621028243970633760768%Z;
  Lin [3909; 11850; 11470] [13199; 11914; 13198; 13197; 13196; 11469] 0%Z [(1%Z, 3909); (1%Z, 11850); (1%Z, 11470); ((-1)%Z, 11914); ((-2)%Z, 11469)] 4096%Z 83076749736557242056487941267521536%Z;
  Lin [3908; 11849; 11469] [13195; 11913; 13194; 13193; 13192; 11468] 0%Z [(1%Z, 3908); (1%Z, 11849); (1%Z, 11469); ((-1)%Z, 11913); ((-2)%Z, 11468)] 2048%Z 166153499473114484112975882535043072%Z;
  Lin [3907; 11848; 11468] [13191; 11912; 13190; 13189; 13188; 11467] 0%Z [(1%Z, 3907); (1%Z, 11848); (1%Z, 11468); ((-1)%Z, 11912); ((-2)%Z, 11467)] 1024%Z 332306998946228968225951765070086144%Z;
  Lin [3906; 11847; 11467] [13187; 11911; 13186; 13185; 13184; 11466] 0%Z [(1%Z, 3906); (1%Z, 11847); (1%Z, 11467); ((-1)%Z, 11911); ((-2)%Z, 11466)] 512%Z 664613997892457936451903530140172288%Z;
  Lin [3905; 11846; 11466] [13183; 11910; 13182; 13181; 13180; 11465] 0%Z [(1%Z, 3905); (1%Z, 11846); (1%Z, 11466); ((-1)%Z, 11910); ((-2)%Z, 11465)] 256%Z 1329227995784915872903807060280344576%Z;
  Lin [3904; 11845; 11465] [13179; 11909; 13178; 13177; 13176; 11464] 0%Z [(1%Z, 3904); (1%Z, 11845); (1%Z, 11465); ((-1)%Z, 11909); ((-2)%Z, 11464)] 128%Z 2658455991569831745807614120560689152%Z;
  Lin [3903; 11399; 11464] [13175; 11908; 13174; 13173; 13172; 11463] 0%Z [(1%Z, 3903); (1%Z, 11399); (1%Z, 11464); ((-1)%Z, 11908); ((-2)%Z, 11463)] 64%Z 5316911983139663491615228241121378304%Z;
  Lin [4080; 12019; 11641] [12867; 12083; 12866; 12865; 12864; 11640] 0%Z [(1%Z, 4080); (1%Z, 12019); (1%Z, 11641); ((-1)%Z, 12083); ((-2)%Z, 11640)] 9007199254740992%Z 37778931862957161709568%Z;
  Lin [4145; 12083; 11706] [12619; 12147; 12618; 12617; 12616; 11705] 0%Z [(1%Z, 4145); (1%Z, 12083); (1%Z, 11706); ((-1)%Z, 12147); ((-2)%Z, 11705)] 9007199254740992%Z 37778931862957161709568%Z;
  Lin [4210; 12147; 11770] [12371; 28043; 12370; 12369; 12368; 11769] 0%Z [(1%Z, 4210); (1%Z, 12147); (1%Z, 11770); ((-1)%Z, 28043); ((-2)%Z, 11769)] 9007199254740992%Z 37778931862957161709568%Z;
  Lin [4079; 12018; 11640] [12863; 12082; 12862; 12861; 12860; 11639] 0%Z [(1%Z, 4079); (1%Z, 12018); (1%Z, 11640); ((-1)%Z, 12082); ((-2)%Z, 11639)] 4503599627370496%Z 75557863725914323419136%Z;
  Lin [4144; 12082; 11705] [12615; 12146; 12614; 12613; 12612; 11704] 0%Z [(1%Z, 4144); (1%Z, 12082); (1%Z, 11705); ((-1)%Z, 12146); ((-2)%Z, 11704)] 4503599627370496%Z 75557863725914323419136%Z;
  Lin [4209; 12146; 11769] [12367; 28044; 12366; 12365; 12364; 11768] 0%Z [(1%Z, 4209); (1%Z, 12146); (1%Z, 11769); ((-1)%Z, 28044); ((-2)%Z, 11768)] 4503599627370496%Z 75557863725914323419136%Z;
  Lin [4078; 12017; 11639] [12859; 12081; 12858; 12857; 12856; 11638] 0%Z [(1%Z, 4078); (1%Z, 12017); (1%Z, 11639); ((-1)%Z, 12081); ((-2)%Z, 11638)] 2251799813685248%Z 151115727451828646838272%Z;
  Lin [4143; 12081; 11704] [12611; 12145; 12610; 12609; 12608; 11703] 0%Z [(1%Z, 4143); (1%Z, 12081); (1%Z, 11704); ((-1)%Z, 12145); ((-2)%Z, 11703)] 2251799813685248%Z 151115727451828646838272%Z;
  Lin [4077; 12016; 11638] [12855; 12080; 12854; 12853; 12852; 11637] 0%Z [(1%Z, 4077); (1%Z, 12016); (1%Z, 11638); ((-1)%Z, 12080); ((-2)%Z, 11637)] 1125899906842624%Z 302231454903657293676544%Z;
  Lin [4142; 12080; 11703] [12607; 12144; 12606; 12605; 12604; 11702] 0%Z [(1%Z, 4142); (1%Z, 12080); (1%Z, 11703); ((-1)%Z, 12144); ((-2)%Z, 11702)] 1125899906842624%Z 302231454903657293676544%Z;
  Lin [4076; 12015; 11637] [12851; 12079; 12850; 12849; 12848; 11636] 0%Z [(1%Z, 4076); (1%Z, 12015); (1%Z, 11637); ((-1)%Z, 12079); ((-2)%Z, 11636)] 562949953421312%Z 604462909807314587353088%Z;
  Lin [4141; 12079; 11702] [12603; 12143; 12602; 12601; 12600; 11701] 0%Z [(1%Z, 4141); (1%Z, 12079); (1%Z, 11702); ((-1)%Z, 12143); ((-2)%Z, 11701)] 562949953421312%Z 604462909807314587353088%Z;
  Lin [4075; 12014; 11636] [12847; 12078; 12846; 12845; 12844; 11635] 0%Z [(1%Z, 4075); (1%Z, 12014); (1%Z, 11636); ((-1)%Z, 12078); ((-2)%Z, 11635)] 281474976710656%Z 1208925819614629174706176%Z;
  Lin [4140; 12078; 11701] [12599; 12142; 12598; 12597; 12596; 11700] 0%Z [(1%Z, 4140); (1%Z, 12078); (1%Z, 11701); ((-1)%Z, 12142); ((-2)%Z, 11700)] 281474976710656%Z 1208925819614629174706176%Z;
  Lin [4074; 12013; 11635] [12843; 12077; 12842; 12841; 12840; 11634] 0%Z [(1%Z, 4074); (1%Z, 12013); (1%Z, 11635); ((-1)%Z, 12077); ((-2)%Z, 11634)] 140737488355328%Z 2417851639229258349412352%Z;
  Lin [4139; 12077; 11700] [12595; 12141; 12594; 12593; 12592; 11699] 0%Z [(1%Z, 4139); (1%Z, 12077); (1%Z, 11700); ((-1)%Z, 12141); ((-2)%Z, 11699)] 140737488355328%Z 2417851639229258349412352%Z;
  Lin [4073; 12012; 11634] [12839; 12076; 12838; 12837; 12836; 11633] 0%Z [(1%Z, 4073); (1%Z, 12012); (1%Z, 11634); ((-1)%Z, 12076); ((-2)%Z, 11633)] 70368744177664%Z 4835703278458516698824704%Z;
  Lin [4138; 12076; 11699] [12591; 12140; 12590; 12589; 12588; 11698] 0%Z [(1%Z, 4138); (1%Z, 12076); (1%Z, 11699); ((-1)%Z, 12140); ((-2)%Z, 11698)] 70368744177664%Z 4835703278458516698824704%Z;
  Lin [4072; 12011; 11633] [12835; 12075; 12834; 12833; 12832; 11632] 0%Z [(1%Z, 4072); (1%Z, 12011); (1%Z, 11633); ((-1)%Z, 12075); ((-2)%Z, 11632)] 35184372088832%Z 9671406556917033397649408%Z;
  Lin [4137; 12075; 11698] [12587; 12139; 12586; 12585; 12584; 11697] 0%Z [(1%Z, 4137); (1%Z, 12075); (1%Z, 11698); ((-1)%Z, 12139); ((-2)%Z, 11697)] 35184372088832%Z 9671406556917033397649408%Z;
  Lin [4071; 12010; 11632] [12831; 12074; 12830; 12829; 12828; 11631] 0%Z [(1%Z, 4071); (1%Z, 12010); (1%Z, 11632); ((-1)%Z, 12074); ((-2)%Z, 11631)] 17592186044416%Z 19342813113834066795298816%Z;
  Lin [4136; 12074; 11697] [12583; 12138; 12582; 12581; 12580; 11696] 0%Z [(1%Z, 4136); (1%Z, 12074); (1%Z, 11697); ((-1)%Z, 12138); ((-2)%Z, 11696)] 17592186044416%Z 19342813113834066795298816%Z;
  Lin [4070; 12009; 11631] [12827; 12073; 12826; 12825; 12824; 11630] 0%Z [(1%Z, 4070); (1%Z, 12009); (1%Z, 11631); ((-1)%Z, 12073); ((-2)%Z, 11630)] 8796093022208%Z 38685626227668133590597632%Z;
  Lin [4069; 12008; 11630] [12823; 12072; 12822; 12821; 12820; 11629] 0%Z [(1%Z, 4069); (1%Z, 12008); (1%Z, 11630); ((-1)%Z, 12072); ((-2)%Z, 11629)] 4398046511104%Z 77371252455336267181195264%Z;
  Lin [4068; 12007; 11629] [12819; 12071; 12818; 12817; 12816; 11628] 0%Z [(1%Z, 4068); (1%Z, 12007); (1%Z, 11629); ((-1)%Z, 12071); ((-2)%Z, 11628)] 2199023255552%Z 154742504910672534362390528%Z;
  Lin [4135; 12073; 11696] [12579; 12137; 12578; 12577; 12576; 11695] 0%Z [(1%Z, 4135); (1%Z, 12073); (1%Z, 11696); ((-1)%Z, 12137); ((-2)%Z, 11695)] 8796093022208%Z 38685626227668133590597632%Z;
  Lin [4134; 12072; 11695] [12575; 12136; 12574; 12573; 12572; 11694] 0%Z [(1%Z, 4134); (1%Z, 12072); (1%Z, 11695); ((-1)%Z, 12136); ((-2)%Z, 11694)] 4398046511104%Z 77371252455336267181195264%Z;
  Lin [4133; 12071; 11694] [12571; 12135; 12570; 12569; 12568; 11693] 0%Z [(1%Z, 4133); (1%Z, 12071); (1%Z, 11694); ((-1)%Z, 12135); ((-2)%Z, 11693)] 2199023255552%Z 154742504910672534362390528%Z;
  Lin [4067; 12006; 11628] [12815; 12070; 12814; 12813; 12812; 11627] 0%Z [(1%Z, 4067); (1%Z, 12006); (1%Z, 11628); ((-1)%Z, 12070); ((-2)%Z, 11627)] 1099511627776%Z 309485009821345068724781056%Z;
  Lin [4066; 12005; 11627] [12811; 12069; 12810; 12809; 12808; 11626] 0%Z [(1%Z, 4066); (1%Z, 12005); (1%Z, 11627); ((-1)%Z, 12069); ((-2)%Z, 11626)] 549755813888%Z 618970019642690137449562112%Z;
  Lin [4065; 12004; 11626] [12807; 12068; 12806; 12805; 12804; 11625] 0%Z [(1%Z, 4065); (1%Z, 12004); (1%Z, 11626); ((-1)%Z, 12068); ((-2)%Z, 11625)] 274877906944%Z 1237940039285380274899124224%Z;
  Lin [4064; 12003; 11625] [12803; 12067; 12802; 12801; 12800; 11624] 0%Z [(1%Z, 4064); (1%Z, 12003); (1%Z, 11625); ((-1)%Z, 12067); ((-2)%Z, 11624)] 137438953472%Z 2475880078570760549798248448%Z;
  Lin [4063; 12002; 11624] [12799; 12066; 12798; 12797; 12796; 11623] 0%Z [(1%Z, 4063); (1%Z, 12002); (1%Z, 11624); ((-1)%Z, 12066); ((-2)%Z, 11623)] 68719476736%Z 4951760157141521099596496896%Z;
  Lin [4062; 12001; 11623] [12795; 12065; 12794; 12793; 12792; 11622] 0%Z [(1%Z, 4062); (1%Z, 12001); (1%Z, 11623); ((-1)%Z, 12065); ((-2)%Z, 11622)] 34359738368%Z 9903520314283042199192993792%Z;
  Lin [4061; 12000; 11622] [12791; 12064; 12790; 12789; 12788; 11621] 0%Z [(1%Z, 4061); (1%Z, 12000); (1%Z, 11622); ((-1)%Z, 12064); ((-2)%Z, 11621)] 17179869184%Z 19807040628566084398385987584%Z;
  Lin [4060; 11999; 11621] [12787; 12063; 12786; 12785; 12784; 11620] 0%Z [(1%Z, 4060); (1%Z, 11999); (1%Z, 11621); ((-1)%Z, 12063); ((-2)%Z, 11620)] 8589934592%Z 39614081257132168796771975168%Z;
  Lin [4059; 11998; 11620] [12783; 12062; 12782; 12781; 12780; 11619] 0%Z [(1%Z, 4059); (1%Z, 11998); (1%Z, 11620); ((-1)%Z, 12062); ((-2)%Z, 11619)] 4294967296%Z 79228162514264337593543950336%Z;
  Lin [4058; 11997; 11619] [12779; 12061; 12778; 12777; 12776; 11618] 0%Z [(1%Z, 4058); (1%Z, 11997); (1%Z, 11619); ((-1)%Z, 12061); ((-2)%Z, 11618)] 2147483648%Z 158456325028528675187087900672%Z;
  Lin [4057; 11996; 11618] [12775; 12060; 12774; 12773; 12772; 11617] 0%Z [(1%Z, 4057); (1%Z, 11996); (1%Z, 11618); ((-1)%Z, 12060); ((-2)%Z, 11617)] 1073741824%Z 316912650057057350374175801344%Z;
  Lin [4056; 11995; 11617] [12771; 12059; 12770; 12769; 12768; 11616] 0%Z [(1%Z, 4056); (1%Z, 11995); (1%Z, 11617); ((-1)%Z, 12059); ((-2)%Z, 11616)] 536870912%Z 633825300114114700748351602688%Z].
Definition mult2_64_facts_39 : list lin_fact := [
  Lin [4055; 11994; 11616] [12767; 12058; 12766; 12765; 12764; 11615] 0%Z [(1%Z, 4055); (1%Z, 11994); (1%Z, 11616); ((-1)%Z, 12058); ((-2)%Z, 11615)] 268435456%Z 1267650600228229401496703205376%Z;
  Lin [4054; 11993; 11615] [12763; 12057; 12762; 12761; 12760; 11614] 0%Z [(1%Z, 4054); (1%Z, 11993); (1%Z, 11615); ((-1)%Z, 12057); ((-2)%Z, 11614)] 134217728%Z 2535301200456458802993406410752%Z;
  Lin [4053; 11992; 11614] [12759; 12056; 12758; 12757; 12756; 11613] 0%Z [(1%Z, 4053); (1%Z, 11992); (1%Z, 11614); ((-1)%Z, 12056); ((-2)%Z, 11613)] 67108864%Z 5070602400912917605986812821504%Z;
  Lin [4052; 11991; 11613] [12755; 12055; 12754; 12753; 12752; 11612] 0%Z [(1%Z, 4052); (1%Z, 11991); (1%Z, 11613); ((-1)%Z, 12055); ((-2)%Z, 11612)] 33554432%Z 10141204801825835211973625643008%Z;
  Lin [3985; 11925; 11546] [12995; 11989; 12994; 12993; 12992; 11545] 0%Z [(1%Z, 3985); (1%Z, 11925); (1%Z, 11546); ((-1)%Z, 11989); ((-2)%Z, 11545)] 8388608%Z 40564819207303340847894502572032%Z;
  Lin [3984; 11924; 11545] [12991; 11988; 12990; 12989; 12988; 11544] 0%Z [(1%Z, 3984); (1%Z, 11924); (1%Z, 11545); ((-1)%Z, 11988); ((-2)%Z, 11544)] 4194304%Z 81129638414606681695789005144064%Z;
  Lin [4051; 11990; 11612] [12751; 12054; 12750; 12749; 12748; 11611] 0%Z [(1%Z, 4051); (1%Z, 11990); (1%Z, 11612); ((-1)%Z, 12054); ((-2)%Z, 11611)] 16777216%Z 20282409603651670423947251286016%Z;
  Lin [4050; 11989; 11611] [12747; 12053; 12746; 12745; 12744; 11610] 0%Z [(1%Z, 4050); (1%Z, 11989); (1%Z, 11611); ((-1)%Z, 12053); ((-2)%Z, 11610)] 8388608%Z 40564819207303340847894502572032%Z;
  Lin [4049; 11988; 11610] [12743; 12052; 12742; 12741; 12740; 11609] 0%Z [(1%Z, 4049); (1%Z, 11988); (1%Z, 11610); ((-1)%Z, 12052); ((-2)%Z, 11609)] 4194304%Z 81129638414606681695789005144064%Z;
  Lin [3983; 11923; 11544] [12987; 11987; 12986; 12985; 12984; 11543] 0%Z [(1%Z, 3983); (1%Z, 11923); (1%Z, 11544); ((-1)%Z, 11987); ((-2)%Z, 11543)] 2097152%Z 162259276829213363391578010288128%Z;
  Lin [4048; 11987; 11609] [12739; 12051; 12738; 12737; 12736; 11608] 0%Z [(1%Z, 4048); (1%Z, 11987); (1%Z, 11609); ((-1)%Z, 12051); ((-2)%Z, 11608)] 2097152%Z 162259276829213363391578010288128%Z;
  Lin [3982; 11922; 11543] [12983; 11986; 12982; 12981; 12980; 11542] 0%Z [(1%Z, 3982); (1%Z, 11922); (1%Z, 11543); ((-1)%Z, 11986); ((-2)%Z, 11542)] 1048576%Z 324518553658426726783156020576256%Z;
  Lin [4047; 11986; 11608] [12735; 12050; 12734; 12733; 12732; 11607] 0%Z [(1%Z, 4047); (1%Z, 11986); (1%Z, 11608); ((-1)%Z, 12050); ((-2)%Z, 11607)] 1048576%Z 324518553658426726783156020576256%Z;
  Lin [3981; 11921; 11542] [12979; 11985; 12978; 12977; 12976; 11541] 0%Z [(1%Z, 3981); (1%Z, 11921); (1%Z, 11542); ((-1)%Z, 11985); ((-2)%Z, 11541)] 524288%Z 649037107316853453566312041152512%Z;
  Lin [4046; 11985; 11607] [12731; 12049; 12730; 12729; 12728; 11606] 0%Z [(1%Z, 4046); (1%Z, 11985); (1%Z, 11607); ((-1)%Z, 12049); ((-2)%Z, 11606)] 524288%Z 649037107316853453566312041152512%Z;
  Lin [3980; 11920; 11541] [12975; 11984; 12974; 12973; 12972; 11540] 0%Z [(1%Z, 3980); (1%Z, 11920); (1%Z, 11541); ((-1)%Z, 11984); ((-2)%Z, 11540)] 262144%Z 1298074214633706907132624082305024%Z;
  Lin [4045; 11984; 11606] [12727; 12048; 12726; 12725; 12724; 11605] 0%Z [(1%Z, 4045); (1%Z, 11984); (1%Z, 11606); ((-1)%Z, 12048); ((-2)%Z, 11605)] 262144%Z 1298074214633706907132624082305024%Z;
  Lin [3979; 11919; 11540] [12971; 11983; 12970; 12969; 12968; 11539] 0%Z [(1%Z, 3979); (1%Z, 11919); (1%Z, 11540); ((-1)%Z, 11983); ((-2)%Z, 11539)] 131072%Z 2596148429267413814265248164610048%Z;
  Lin [4044; 11983; 11605] [12723; 12047; 12722; 12721; 12720; 11604] 0%Z [(1%Z, 4044); (1%Z, 11983); (1%Z, 11605); ((-1)%Z, 12047); ((-2)%Z, 11604)] 131072%Z 2596148429267413814265248164610048%Z;
  Lin [3978; 11918; 11539] [12967; 11982; 12966; 12965; 12964; 11538] 0%Z [(1%Z, 3978); (1%Z, 11918); (1%Z, 11539); ((-1)%Z, 11982); ((-2)%Z, 11538)] 65536%Z 5192296858534827628530496329220096%Z;
  Lin [3977; 11917; 11538] [12963; 11981; 12962; 12961; 12960; 11537] 0%Z [(1%Z, 3977); (1%Z, 11917); (1%Z, 11538); ((-1)%Z, 11981); ((-2)%Z, 11537)] 32768%Z 10384593717069655257060992658440192%Z;
  Lin [3976; 11916; 11537] [12959; 11980; 12958; 12957; 12956; 11536] 0%Z [(1%Z, 3976); (1%Z, 11916); (1%Z, 11537); ((-1)%Z, 11980); ((-2)%Z, 11536)] 16384%Z 20769187434139310514121985316880384%Z;
  Lin [3975; 11915; 11536] [12955; 11979; 12954; 12953; 12952; 11535] 0%Z [(1%Z, 3975); (1%Z, 11915); (1%Z, 11536); ((-1)%Z, 11979); ((-2)%Z, 11535)] 8192%Z 41538374868278621028243970633760768%Z;
  Lin [3974; 11914; 11535] [12951; 11978; 12950; 12949; 12948; 11534] 0%Z [(1%Z, 3974); (1%Z, 11914); (1%Z, 11535); ((-1)%Z, 11978); ((-2)%Z, 11534)] 4096%Z 83076749736557242056487941267521536%Z;
  Lin [3973; 11913; 11534] [12947; 11977; 12946; 12945; 12944; 11533] 0%Z [(1%Z, 3973); (1%Z, 11913); (1%Z, 11534); ((-1)%Z, 11977); ((-2)%Z, 11533)] 2048%Z 166153499473114484112975882535043072%Z;
  Lin [3972; 11912; 11533] [12943; 11976; 12942; 12941; 12940; 11532] 0%Z [(1%Z, 3972); (1%Z, 11912); (1%Z, 11533); ((-1)%Z, 11976); ((-2)%Z, 11532)] 1024%Z 332306998946228968225951765070086144%Z;
  Lin [3971; 11911; 11532] [12939; 11975; 12938; 12937; 12936; 11531] 0%Z [(1%Z, 3971); (1%Z, 11911); (1%Z, 11532); ((-1)%Z, 11975); ((-2)%Z, 11531)] 512%Z 664613997892457936451903530140172288%Z;
  Lin [3970; 11910; 11531] [12935; 11974; 12934; 12933; 12932; 11530] 0%Z [(1%Z, 3970); (1%Z, 11910); (1%Z, 11531); ((-1)%Z, 11974); ((-2)%Z, 11530)] 256%Z 1329227995784915872903807060280344576%Z;
  Lin [3969; 11909; 11530] [12931; 11973; 12930; 12929; 12928; 11529] 0%Z [(1%Z, 3969); (1%Z, 11909); (1%Z, 11530); ((-1)%Z, 11973); ((-2)%Z, 11529)] 128%Z 2658455991569831745807614120560689152%Z;
  Lin [3968; 11908; 11529] [12927; 11972; 12926; 12925; 12924; 11528] 0%Z [(1%Z, 3968); (1%Z, 11908); (1%Z, 11529); ((-1)%Z, 11972); ((-2)%Z, 11528)] 64%Z 5316911983139663491615228241121378304%Z;
  Lin [3967; 11463; 11528] [12923; 11971; 12922; 12921; 12920; 11527] 0%Z [(1%Z, 3967); (1%Z, 11463); (1%Z, 11528); ((-1)%Z, 11971); ((-2)%Z, 11527)] 32%Z 10633823966279326983230456482242756608%Z;
  Lin [4208; 12145; 11768] [12363; 28045; 12362; 12361; 12360; 11767] 0%Z [(1%Z, 4208); (1%Z, 12145); (1%Z, 11768); ((-1)%Z, 28045); ((-2)%Z, 11767)] 2251799813685248%Z 151115727451828646838272%Z;
  Lin [4207; 12144; 11767] [12359; 28046; 12358; 12357; 12356; 11766] 0%Z [(1%Z, 4207); (1%Z, 12144); (1%Z, 11767); ((-1)%Z, 28046); ((-2)%Z, 11766)] 1125899906842624%Z 302231454903657293676544%Z;
  Lin [4206; 12143; 11766] [12355; 28047; 12354; 12353; 12352; 11765] 0%Z [(1%Z, 4206); (1%Z, 12143); (1%Z, 11766); ((-1)%Z, 28047); ((-2)%Z, 11765)] 562949953421312%Z 604462909807314587353088%Z;
  Lin [4205; 12142; 11765] [12351; 28048; 12350; 12349; 12348; 11764] 0%Z [(1%Z, 4205); (1%Z, 12142); (1%Z, 11765); ((-1)%Z, 28048); ((-2)%Z, 11764)] 281474976710656%Z 1208925819614629174706176%Z;
  Lin [4204; 12141; 11764] [12347; 28049; 12346; 12345; 12344; 11763] 0%Z [(1%Z, 4204); (1%Z, 12141); (1%Z, 11764); ((-1)%Z, 28049); ((-2)%Z, 11763)] 140737488355328%Z 2417851639229258349412352%Z;
  Lin [4203; 12140; 11763] [12343; 28050; 12342; 12341; 12340; 11762] 0%Z [(1%Z, 4203); (1%Z, 12140); (1%Z, 11763); ((-1)%Z, 28050); ((-2)%Z, 11762)] 70368744177664%Z 4835703278458516698824704%Z;
  Lin [4202; 12139; 11762] [12339; 28051; 12338; 12337; 12336; 11761] 0%Z [(1%Z, 4202); (1%Z, 12139); (1%Z, 11762); ((-1)%Z, 28051); ((-2)%Z, 11761)] 35184372088832%Z 9671406556917033397649408%Z;
  Lin [4201; 12138; 11761] [12335; 28052; 12334; 12333; 12332; 11760] 0%Z [(1%Z, 4201); (1%Z, 12138); (1%Z, 11761); ((-1)%Z, 28052); ((-2)%Z, 11760)] 17592186044416%Z 19342813113834066795298816%Z;
  Lin [4200; 12137; 11760] [12331; 28053; 12330; 12329; 12328; 11759] 0%Z [(1%Z, 4200); (1%Z, 12137); (1%Z, 11760); ((-1)%Z, 28053); ((-2)%Z, 11759)] 8796093022208%Z 38685626227668133590597632%Z;
  Lin [4199; 12136; 11759] [12327; 28054; 12326; 12325; 12324; 11758] 0%Z [(1%Z, 4199); (1%Z, 12136); (1%Z, 11759); ((-1)%Z, 28054); ((-2)%Z, 11758)] 4398046511104%Z 77371252455336267181195264%Z;
  Lin [4132; 12070; 11693] [12567; 12134; 12566; 12565; 12564; 11692] 0%Z [(1%Z, 4132); (1%Z, 12070); (1%Z, 11693); ((-1)%Z, 12134); ((-2)%Z, 11692)] 1099511627776%Z 309485009821345068724781056%Z;
  Lin [4198; 12135; 11758] [12323; 28055; 12322; 12321; 12320; 11757] 0%Z [(1%Z, 4198); (1%Z, 12135); (1%Z, 11758); ((-1)%Z, 28055); ((-2)%Z, 11757)] 2199023255552%Z 154742504910672534362390528%Z;
  Lin [4197; 12134; 11757] [12319; 28056; 12318; 12317; 12316; 11756] 0%Z [(1%Z, 4197); (1%Z, 12134); (1%Z, 11757); ((-1)%Z, 28056); ((-2)%Z, 11756)] 1099511627776%Z 309485009821345068724781056%Z;
  Lin [4131; 12069; 11692] [12563; 12133; 12562; 12561; 12560; 11691] 0%Z [(1%Z, 4131); (1%Z, 12069); (1%Z, 11692); ((-1)%Z, 12133); ((-2)%Z, 11691)] 549755813888%Z 618970019642690137449562112%Z;
  Lin [4196; 12133; 11756] [12315; 28057; 12314; 12313; 12312; 11755] 0%Z [(1%Z, 4196); (1%Z, 12133); (1%Z, 11756); ((-1)%Z, 28057); ((-2)%Z, 11755)] 549755813888%Z 618970019642690137449562112%Z;
  Lin [4130; 12068; 11691] [12559; 12132; 12558; 12557; 12556; 11690] 0%Z [(1%Z, 4130); (1%Z, 12068); (1%Z, 11691); ((-1)%Z, 12132); ((-2)%Z, 11690)] 274877906944%Z 1237940039285380274899124224%Z;
  Lin [4129; 12067; 11690] [12555; 12131; 12554; 12553; 12552; 11689] 0%Z [(1%Z, 4129); (1%Z, 12067); (1%Z, 11690); ((-1)%Z, 12131); ((-2)%Z, 11689)] 137438953472%Z 2475880078570760549798248448%Z;
  Lin [4195; 12132; 11755] [12311; 28058; 12310; 12309; 12308; 11754] 0%Z [(1%Z, 4195); (1%Z, 12132); (1%Z, 11755); ((-1)%Z, 28058); ((-2)%Z, 11754)] 274877906944%Z 1237940039285380274899124224%Z;
  Lin [4194; 12131; 11754] [12307; 28059; 12306; 12305; 12304; 11753] 0%Z [(1%Z, 4194); (1%Z, 12131); (1%Z, 11754); ((-1)%Z, 28059); ((-2)%Z, 11753)] 137438953472%Z 2475880078570760549798248448%Z;
  Lin [4128; 12066; 11689] [12551; 12130; 12550; 12549; 12548; 11688] 0%Z [(1%Z, 4128); (1%Z, 12066); (1%Z, 11689); ((-1)%Z, 12130); ((-2)%Z, 11688)] 68719476736%Z 4951760157141521099596496896%Z;
  Lin [4193; 12130; 11753] [12303; 28060; 12302; 12301; 12300; 11752] 0%Z [(1%Z, 4193); (1%Z, 12130); (1%Z, 11753); ((-1)%Z, 28060); ((-2)%Z, 11752)] 68719476736%Z 4951760157141521099596496896%Z;
  Lin [4127; 12065; 11688] [12547; 12129; 12546; 12545; 12544; 11687] 0%Z [(1%Z, 4127); (1%Z, 12065); (1%Z, 11688); ((-1)%Z, 12129); ((-2)%Z, 11687)] 34359738368%Z 9903520314283042199192993792%Z;
  Lin [4126; 12064; 11687] [12543; 12128; 12542; 12541; 12540; 11686] 0%Z [(1%Z, 4126); (1%Z, 12064); (1%Z, 11687); ((-1)%Z, 12128); ((-2)%Z, 11686)] 17179869184%Z 19807040628566084398385987584%Z;
  Lin [4125; 12063; 11686] [12539; 12127; 12538; 12537; 12536; 11685] 0%Z [(1%Z, 4125); (1%Z, 12063); (1%Z, 11686); ((-1)%Z, 12127); ((-2)%Z, 11685)] 8589934592%Z 39614081257132168796771975168%Z;
  Lin [4124; 12062; 11685] [12535; 12126; 12534; 12533; 12532; 11684] 0%Z [(1%Z, 4124); (1%Z, 12062); (1%Z, 11685); ((-1)%Z, 12126); ((-2)%Z, 11684)] 4294967296%Z 79228162514264337593543950336%Z;
  Lin [4123; 12061; 11684] [12531; 12125; 12530; 12529; 12528; 11683] 0%Z [(1%Z, 4123); (1%Z, 12061); (1%Z, 11684); ((-1)%Z, 12125); ((-2)%Z, 11683)] 2147483648%Z 158456325028528675187087900672%Z;
  Lin [4122; 12060; 11683] [12527; 12124; 12526; 12525; 12524; 11682] 0%Z [(1%Z, 4122); (1%Z, 12060); (1%Z, 11683); ((-1)%Z, 12124); ((-2)%Z, 11682)] 1073741824%Z 316912650057057350374175801344%Z;
  Lin [4121; 12059; 11682] [12523; 12123; 12522; 12521; 12520; 11681] 0%Z [(1%Z, 4121); (1%Z, 12059); (1%Z, 11682); ((-1)%Z, 12123); ((-2)%Z, 11681)] 536870912%Z 633825300114114700748351602688%Z;
  Lin [4120; 12058; 11681] [12519; 12122; 12518; 12517; 12516; 11680] 0%Z [(1%Z, 4120); (1%Z, 12058); (1%Z, 11681); ((-1)%Z, 12122); ((-2)%Z, 11680)] 268435456%Z 1267650600228229401496703205376%Z;
  Lin [4119; 12057; 11680] [12515; 12121; 12514; 12513; 12512; 11679] 0%Z [(1%Z, 4119); (1%Z, 12057); (1%Z, 11680); ((-1)%Z, 12121); ((-2)%Z, 11679)] 134217728%Z 2535301200456458802993406410752%Z;
  Lin [4118; 12056; 11679] [12511; 12120; 12510; 12509; 12508; 11678] 0%Z [(1%Z, 4118); (1%Z, 12056); (1%Z, 11679); ((-1)%Z, 12120); ((-2)%Z, 11678)] 67108864%Z 5070602400912917605986812821504%Z;
  Lin [4117; 12055; 11678] [12507; 12119; 12506; 12505; 12504; 11677] 0%Z [(1%Z, 4117); (1%Z, 12055); (1%Z, 11678); ((-1)%Z, 12119); ((-2)%Z, 11677)] 33554432%Z 10141204801825835211973625643008%Z;
  Lin [4116; 12054; 11677] [12503; 12118; 12502; 12501; 12500; 11676] 0%Z [(1%Z, 4116); (1%Z, 12054); (1%Z, 11677); ((-1)%Z, 12118); ((-2)%Z, 11676)] 16777216%Z 20282409603651670423947251286016%Z;
  Lin [4115; 12053; 11676] [12499; 12117; 12498; 12497; 12496; 11675] 0%Z [(1%Z, 4115); (1%Z, 12053); (1%Z, 11676); ((-1)%Z, 12117); ((-2)%Z, 11675)] 8388608%Z 40564819207303340847894502572032%Z;
  Lin [4114; 12052; 11675] [12495; 12116; 12494; 12493; 12492; 11674] 0%Z [(1%Z, 4114); (1%Z, 12052); (1%Z, 11675); ((-1)%Z, 12116); ((-2)%Z, 11674)] 4194304%Z 81129638414606681695789005144064%Z;
  Lin [4043; 11982; 11604] [12719; 12046; 12718; 12717; 12716; 11603] 0%Z [(1%Z, 4043); (1%Z, 11982); (1%Z, 11604); ((-1)%Z, 12046); ((-2)%Z, 11603)] 65536%Z 5192296858534827628530496329220096%Z;
  Lin [4042; 11981; 11603] [12715; 12045; 12714; 12713; 12712; 11602] 0%Z [(1%Z, 4042); (1%Z, 11981); (1%Z, 11603); ((-1)%Z, 12045); ((-2)%Z, 11602)] 32768%Z 10384593717069655257060992658440192%Z;
  Lin [4041; 11980; 11602] [12711; 12044; 12710; 12709; 12708; 11601] 0%Z [(1%Z, 4041); (1%Z, 11980); (1%Z, 11602); ((-1)%Z, 12044); ((-2)%Z, 11601)] 16384%Z 20769187434139310514121985316880384%Z;
  Lin [4040; 11979; 11601] [12707; 12043; 12706; 12705; 12704; 11600] 0%Z [(1%Z, 4040); (1%Z, 11979); (1%Z, 11601); ((-1)%Z, 12043); ((-2)%Z, 11600)] 8192%Z 41538374868278621028243970633760768%Z;
  Lin [4039; 11978; 11600] [12703; 12042; 12702; 12701; 12700; 11599] 0%Z [(1%Z, 4039); (1%Z, 11978); (1%Z, 11600); ((-1)%Z, 12042); ((-2)%Z, 11599)] 4096%Z 83076749736557242056487941267521536%Z;
  Lin [4038; 11977; 11599] [12699; 12041; 12698; 12697; 12696; 11598] 0%Z [(1%Z, 4038); (1%Z, 11977); (1%Z, 11599); ((-1)%Z, 12041); ((-2)%Z, 11598)] 2048%Z 166153499473114484112975882535043072%Z;
  Lin [4113; 12051; 11674] [12491; 12115; 12490; 12489; 12488; 11673] 0%Z [(1%Z, 4113); (1%Z, 12051); (1%Z, 11674); ((-1)%Z, 12115); ((-2)%Z, 11673)] 2097152%Z 162259276829213363391578010288128%Z;
  Lin [4112; 12050; 11673] [12487; 12114; 12486; 12485; 12484; 11672] 0%Z [(1%Z, 4112); (1%Z, 12050); (1%Z, 11673); ((-1)%Z, 12114); ((-2)%Z, 11672)] 1048576%Z 324518553658426726783156020576256%Z;
  Lin [4111; 12049; 11672] [12483; 12113; 12482; 12481; 12480; 11671] 0%Z [(1%Z, 4111); (1%Z, 12049); (1%Z, 11672); ((-1)%Z, 12113); ((-2)%Z, 11671)] 524288%Z 649037107316853453566312041152512%Z;
  Lin [4110; 12048; 11671] [12479; 12112; 12478; 12477; 12476; 11670] 0%Z [(1%Z, 4110); (1%Z, 12048); (1%Z, 11671); ((-1)%Z, 12112); ((-2)%Z, 11670)] 262144%Z 1298074214633706907132624082305024%Z;
  Lin [4109; 12047; 11670] [12475; 12111; 12474; 12473; 12472; 11669] 0%Z [(1%Z, 4109); (1%Z, 12047); (1%Z, 11670); ((-1)%Z, 12111); ((-2)%Z, 11669)] 131072%Z 2596148429267413814265248164610048%Z;
  Lin [4108; 12046; 11669] [12471; 12110; 12470; 12469; 12468; 11668] 0%Z [(1%Z, 4108); (1%Z, 12046); (1%Z, 11669); ((-1)%Z, 12110); ((-2)%Z, 11668)] 65536%Z 5192296858534827628530496329220096%Z;
  Lin [4107; 12045; 11668] [12467; 12109; 12466; 12465; 12464; 11667] 0%Z [(1%Z, 4107); (1%Z, 12045); (1%Z, 11668); ((-1)%Z, 12109); ((-2)%Z, 11667)] 32768%Z 10384593717069655257060992658440192%Z;
  Lin [4106; 12044; 11667] [12463; 12108; 12462; 12461; 12460; 11666] 0%Z [(1%Z, 4106); (1%Z, 12044); (1%Z, 11667); ((-1)%Z, 12108); ((-2)%Z, 11666)] 16384%Z 20769187434139310514121985316880384%Z;
  Lin [4105; 12043; 11666] [12459; 12107; 12458; 12457; 12456; 11665] 0%Z [(1%Z, 4105); (1%Z, 12043); (1%Z, 11666); ((-1)%Z, 12107); ((-2)%Z, 11665)] 8192%Z 41538374868278621028243970633760768%Z;
  Lin [4104; 12042; 11665] [12455; 12106; 12454; 12453; 12452; 11664] 0%Z [(1%Z, 4104); (1%Z, 12042); (1%Z, 11665); ((-1)%Z, 12106); ((-2)%Z, 11664)] 4096%Z 83076749736557242056487941267521536%Z;
  Lin [4103; 12041; 11664] [12451; 12105; 12450; 12449; 12448; 11663] 0%Z [(1%Z, 4103); (1%Z, 12041); (1%Z, 11664); ((-1)%Z, 12105); ((-2)%Z, 11663)] 2048%Z 166153499473114484112975882535043072%Z;
  Lin [4037; 11976; 11598] [12695; 12040; 12694; 12693; 12692; 11597] 0%Z [(1%Z, 4037); (1%Z, 11976); (1%Z, 11598); ((-1)%Z, 12040); ((-2)%Z, 11597)] 1024%Z 332306998946228968225951765070086144%Z;
  Lin [4102; 12040; 11663] [12447; 12104; 12446; 12445; 12444; 11662] 0%Z [(1%Z, 4102); (1%Z, 12040); (1%Z, 11663); ((-1)%Z, 12104); ((-2)%Z, 11662)] 1024%Z 332306998946228968225951765070086144%Z;
  Lin [4036; 11975; 11597] [12691; 12039; 12690; 12689; 12688; 11596] 0%Z [(1%Z, 4036); (1%Z, 11975); (1%Z, 11597); ((-1)%Z, 12039); ((-2)%Z, 11596)] 512%Z 664613997892457936451903530140172288%Z;
  Lin [4035; 11974; 11596] [12687; 12038; 12686; 12685; 12684; 11595] 0%Z [(1%Z, 4035); (1%Z, 11974); (1%Z, 11596); ((-1)%Z, 12038); ((-2)%Z, 11595)] 256%Z 1329227995784915872903807060280344576%Z;
  Lin [4034; 11973; 11595] [12683; 12037; 12682; 12681; 12680; 11594] 0%Z [(1%Z, 4034); (1%Z, 11973); (1%Z, 11595); ((-1)%Z, 12037); ((-2)%Z, 11594)] 128%Z 2658455991569831745807614120560689152%Z;
  Lin [4033; 11972; 11594] [12679; 12036; 12678; 12677; 12676; 11593] 0%Z [(1%Z, 4033); (1%Z, 11972); (1%Z, 11594); ((-1)%Z, 12036); ((-2)%Z, 11593)] 64%Z 5316911983139663491615228241121378304%Z;
  Lin [4032; 11971; 11593] [12675; 12035; 12674; 12673; 12672; 11592] 0%Z [(1%Z, 4032); (1%Z, 11971); (1%Z, 11593); ((-1)%Z, 12035); ((-2)%Z, 11592)] 32%Z 10633823966279326983230456482242756608%Z;
  Lin [4101; 12039; 11662] [12443; 12103; 12442; 12441; 12440; 11661] 0%Z [(1%Z, 4101); (1%Z, 12039); (1%Z, 11662); ((-1)%Z, 12103); ((-2)%Z, 11661)] 512%Z 664613997892457936451903530140172288%Z;
  Lin [4031; 11527; 11592] [12671; 12034; 12670; 12669; 12668; 11591] 0%Z [(1%Z, 4031); (1%Z, 11527); (1%Z, 11592); ((-1)%Z, 12034); ((-2)%Z, 11591)] 16%Z 21267647932558653966460912964485513216%Z;
  Lin [4100; 12038; 11661] [12439; 12102; 12438; 12437; 12436; 11660] 0%Z [(1%Z, 4100); (1%Z, 12038); (1%Z, 11661); ((-1)%Z, 12102); ((-2)%Z, 11660)] 256%Z 1329227995784915872903807060280344576%Z;
  Lin [4099; 12037; 11660] [12435; 12101; 12434; 12433; 12432; 11659] 0%Z [(1%Z, 4099); (1%Z, 12037); (1%Z, 11660); ((-1)%Z, 12101); ((-2)%Z, 11659)] 128%Z 2658455991569831745807614120560689152%Z;
  Lin [4098; 12036; 11659] [12431; 12100; 12430; 12429; 12428; 11658] 0%Z [(1%Z, 4098); (1%Z, 12036); (1%Z, 11659); ((-1)%Z, 12100); ((-2)%Z, 11658)] 64%Z 5316911983139663491615228241121378304%Z;
  Lin [4097; 12035; 11658] [12427; 12099; 12426; 12425; 12424; 11657] 0%Z [(1%Z, 4097); (1%Z, 12035); (1%Z, 11658); ((-1)%Z, 12099); ((-2)%Z, 11657)] 32%Z 10633823966279326983230456482242756608%Z;
  Lin [4096; 12034; 11657] [12423; 12098; 12422; 12421; 12420; 11656] 0%Z [(1%Z, 4096); (1%Z, 12034); (1%Z, 11657); ((-1)%Z, 12098); ((-2)%Z, 11656)] 16%Z 21267647932558653966460912964485513216%Z;
  Lin [4095; 11591; 11656] [12419; 12097; 12418; 12417; 12416; 11655] 0%Z [(1%Z, 4095); (1%Z, 11591); (1%Z, 11656); ((-1)%Z, 12097); ((-2)%Z, 11655)] 8%Z 42535295865117307932921825928971026432%Z;
  Lin [4192; 12129; 11752] [12299; 28061; 12298; 12297; 12296; 11751] 0%Z [(1%Z, 4192); (1%Z, 12129); (1%Z, 11752); ((-1)%Z, 28061); ((-2)%Z, 11751)] 34359738368%Z 9903520314283042199192993792%Z;
  Lin [4191; 12128; 11751] [12295; 28062; 12294; 12293; 12292; 11750] 0%Z [(1%Z, 4191); (1%Z, 12128); (1%Z, 11751); ((-1)%Z, 28062); ((-2)%Z, 11750)] 17179869184%Z 19807040628566084398385987584%Z].
Definition mult2_64_facts_40 : list lin_fact := [
  Lin [4190; 12127; 11750] [12291; 28063; 12290; 12289; 12288; 11749] 0%Z [(1%Z, 4190); (1%Z, 12127); (1%Z, 11750); ((-1)%Z, 28063); ((-2)%Z, 11749)] 8589934592%Z 39614081257132168796771975168%Z;
  Lin [4189; 12126; 11749] [12287; 28064; 12286; 12285; 12284; 11748] 0%Z [(1%Z, 4189); (1%Z, 12126); (1%Z, 11749); ((-1)%Z, 28064); ((-2)%Z, 11748)] 4294967296%Z 79228162514264337593543950336%Z;
  Lin [4188; 12125; 11748] [12283; 28065; 12282; 12281; 12280; 11747] 0%Z [(1%Z, 4188); (1%Z, 12125); (1%Z, 11748); ((-1)%Z, 28065); ((-2)%Z, 11747)] 2147483648%Z 158456325028528675187087900672%Z;
  Lin [4187; 12124; 11747] [12279; 28066; 12278; 12277; 12276; 11746] 0%Z [(1%Z, 4187); (1%Z, 12124); (1%Z, 11747); ((-1)%Z, 28066); ((-2)%Z, 11746)] 1073741824%Z 316912650057057350374175801344%Z;
  Lin [4186; 12123; 11746] [12275; 28067; 12274; 12273; 12272; 11745] 0%Z [(1%Z, 4186); (1%Z, 12123); (1%Z, 11746); ((-1)%Z, 28067); ((-2)%Z, 11745)] 536870912%Z 633825300114114700748351602688%Z;
  Lin [4185; 12122; 11745] [12271; 28068; 12270; 12269; 12268; 11744] 0%Z [(1%Z, 4185); (1%Z, 12122); (1%Z, 11745); ((-1)%Z, 28068); ((-2)%Z, 11744)] 268435456%Z 1267650600228229401496703205376%Z;
  Lin [4184; 12121; 11744] [12267; 28069; 12266; 12265; 12264; 11743] 0%Z [(1%Z, 4184); (1%Z, 12121); (1%Z, 11744); ((-1)%Z, 28069); ((-2)%Z, 11743)] 134217728%Z 2535301200456458802993406410752%Z;
  Lin [4183; 12120; 11743] [12263; 28070; 12262; 12261; 12260; 11742] 0%Z [(1%Z, 4183); (1%Z, 12120); (1%Z, 11743); ((-1)%Z, 28070); ((-2)%Z, 11742)] 67108864%Z 5070602400912917605986812821504%Z;
  Lin [4182; 12119; 11742] [12259; 28071; 12258; 12257; 12256; 11741] 0%Z [(1%Z, 4182); (1%Z, 12119); (1%Z, 11742); ((-1)%Z, 28071); ((-2)%Z, 11741)] 33554432%Z 10141204801825835211973625643008%Z;
  Lin [4181; 12118; 11741] [12255; 28072; 12254; 12253; 12252; 11740] 0%Z [(1%Z, 4181); (1%Z, 12118); (1%Z, 11741); ((-1)%Z, 28072); ((-2)%Z, 11740)] 16777216%Z 20282409603651670423947251286016%Z;
  Lin [4180; 12117; 11740] [12251; 28073; 12250; 12249; 12248; 11739] 0%Z [(1%Z, 4180); (1%Z, 12117); (1%Z, 11740); ((-1)%Z, 28073); ((-2)%Z, 11739)] 8388608%Z 40564819207303340847894502572032%Z;
  Lin [4179; 12116; 11739] [12247; 28074; 12246; 12245; 12244; 11738] 0%Z [(1%Z, 4179); (1%Z, 12116); (1%Z, 11739); ((-1)%Z, 28074); ((-2)%Z, 11738)] 4194304%Z 81129638414606681695789005144064%Z;
  Lin [4178; 12115; 11738] [12243; 28075; 12242; 12241; 12240; 11737] 0%Z [(1%Z, 4178); (1%Z, 12115); (1%Z, 11738); ((-1)%Z, 28075); ((-2)%Z, 11737)] 2097152%Z 162259276829213363391578010288128%Z;
  Lin [4177; 12114; 11737] [12239; 28076; 12238; 12237; 12236; 11736] 0%Z [(1%Z, 4177); (1%Z, 12114); (1%Z, 11737); ((-1)%Z, 28076); ((-2)%Z, 11736)] 1048576%Z 324518553658426726783156020576256%Z;
  Lin [4176; 12113; 11736] [12235; 28077; 12234; 12233; 12232; 11735] 0%Z [(1%Z, 4176); (1%Z, 12113); (1%Z, 11736); ((-1)%Z, 28077); ((-2)%Z, 11735)] 524288%Z 649037107316853453566312041152512%Z;
  Lin [4175; 12112; 11735] [12231; 28078; 12230; 12229; 12228; 11734] 0%Z [(1%Z, 4175); (1%Z, 12112); (1%Z, 11735); ((-1)%Z, 28078); ((-2)%Z, 11734)] 262144%Z 1298074214633706907132624082305024%Z;
  Lin [4174; 12111; 11734] [12227; 28079; 12226; 12225; 12224; 11733] 0%Z [(1%Z, 4174); (1%Z, 12111); (1%Z, 11734); ((-1)%Z, 28079); ((-2)%Z, 11733)] 131072%Z 2596148429267413814265248164610048%Z;
  Lin [4173; 12110; 11733] [12223; 28080; 12222; 12221; 12220; 11732] 0%Z [(1%Z, 4173); (1%Z, 12110); (1%Z, 11733); ((-1)%Z, 28080); ((-2)%Z, 11732)] 65536%Z 5192296858534827628530496329220096%Z;
  Lin [4172; 12109; 11732] [12219; 28081; 12218; 12217; 12216; 11731] 0%Z [(1%Z, 4172); (1%Z, 12109); (1%Z, 11732); ((-1)%Z, 28081); ((-2)%Z, 11731)] 32768%Z 10384593717069655257060992658440192%Z;
  Lin [4171; 12108; 11731] [12215; 28082; 12214; 12213; 12212; 11730] 0%Z [(1%Z, 4171); (1%Z, 12108); (1%Z, 11731); ((-1)%Z, 28082); ((-2)%Z, 11730)] 16384%Z 20769187434139310514121985316880384%Z;
  Lin [4170; 12107; 11730] [12211; 28083; 12210; 12209; 12208; 11729] 0%Z [(1%Z, 4170); (1%Z, 12107); (1%Z, 11730); ((-1)%Z, 28083); ((-2)%Z, 11729)] 8192%Z 41538374868278621028243970633760768%Z;
  Lin [4169; 12106; 11729] [12207; 28084; 12206; 12205; 12204; 11728] 0%Z [(1%Z, 4169); (1%Z, 12106); (1%Z, 11729); ((-1)%Z, 28084); ((-2)%Z, 11728)] 4096%Z 83076749736557242056487941267521536%Z;
  Lin [4168; 12105; 11728] [12203; 28085; 12202; 12201; 12200; 11727] 0%Z [(1%Z, 4168); (1%Z, 12105); (1%Z, 11728); ((-1)%Z, 28085); ((-2)%Z, 11727)] 2048%Z 166153499473114484112975882535043072%Z;
  Lin [4167; 12104; 11727] [12199; 28086; 12198; 12197; 12196; 11726] 0%Z [(1%Z, 4167); (1%Z, 12104); (1%Z, 11727); ((-1)%Z, 28086); ((-2)%Z, 11726)] 1024%Z 332306998946228968225951765070086144%Z;
  Lin [4166; 12103; 11726] [12195; 28087; 12194; 12193; 12192; 11725] 0%Z [(1%Z, 4166); (1%Z, 12103); (1%Z, 11726); ((-1)%Z, 28087); ((-2)%Z, 11725)] 512%Z 664613997892457936451903530140172288%Z;
  Lin [4165; 12102; 11725] [12191; 28088; 12190; 12189; 12188; 11724] 0%Z [(1%Z, 4165); (1%Z, 12102); (1%Z, 11725); ((-1)%Z, 28088); ((-2)%Z, 11724)] 256%Z 1329227995784915872903807060280344576%Z;
  Lin [4164; 12101; 11724] [12187; 28089; 12186; 12185; 12184; 11723] 0%Z [(1%Z, 4164); (1%Z, 12101); (1%Z, 11724); ((-1)%Z, 28089); ((-2)%Z, 11723)] 128%Z 2658455991569831745807614120560689152%Z;
  Lin [4163; 12100; 11723] [12183; 28090; 12182; 12181; 12180; 11722] 0%Z [(1%Z, 4163); (1%Z, 12100); (1%Z, 11723); ((-1)%Z, 28090); ((-2)%Z, 11722)] 64%Z 5316911983139663491615228241121378304%Z;
  Lin [4162; 12099; 11722] [12179; 28091; 12178; 12177; 12176; 11721] 0%Z [(1%Z, 4162); (1%Z, 12099); (1%Z, 11722); ((-1)%Z, 28091); ((-2)%Z, 11721)] 32%Z 10633823966279326983230456482242756608%Z;
  Lin [4161; 12098; 11721] [12175; 28092; 12174; 12173; 12172; 11720] 0%Z [(1%Z, 4161); (1%Z, 12098); (1%Z, 11721); ((-1)%Z, 28092); ((-2)%Z, 11720)] 16%Z 21267647932558653966460912964485513216%Z;
  Lin [4160; 12097; 11720] [12171; 28093; 12170; 12169; 12168; 11719] 0%Z [(1%Z, 4160); (1%Z, 12097); (1%Z, 11720); ((-1)%Z, 28093); ((-2)%Z, 11719)] 8%Z 42535295865117307932921825928971026432%Z;
  Lin [4159; 11655; 11719] [12167; 28094; 12166; 12165; 12164; 28095] 0%Z [(1%Z, 4159); (1%Z, 11655); (1%Z, 11719); ((-1)%Z, 28094); ((-2)%Z, 28095)] 4%Z 85070591730234615865843651857942052864%Z].
Definition mult2_64_facts : list lin_fact := concat [mult2_64_facts_0; mult2_64_facts_1; mult2_64_facts_2; mult2_64_facts_3; mult2_64_facts_4; mult2_64_facts_5; mult2_64_facts_6; mult2_64_facts_7; mult2_64_facts_8; mult2_64_facts_9; mult2_64_facts_10; mult2_64_facts_11; mult2_64_facts_12; mult2_64_facts_13; mult2_64_facts_14; mult2_64_facts_15; mult2_64_facts_16; mult2_64_facts_17; mult2_64_facts_18; mult2_64_facts_19; mult2_64_facts_20; mult2_64_facts_21; mult2_64_facts_22; mult2_64_facts_23; mult2_64_facts_24; mult2_64_facts_25; mult2_64_facts_26; mult2_64_facts_27; mult2_64_facts_28; mult2_64_facts_29; mult2_64_facts_30; mult2_64_facts_31; mult2_64_facts_32; mult2_64_facts_33; mult2_64_facts_34; mult2_64_facts_35; mult2_64_facts_36; mult2_64_facts_37; mult2_64_facts_38; mult2_64_facts_39; mult2_64_facts_40].
Definition mult2_64_pp : list (list N) := [
  [28096; 190; 189; 188; 187; 186; 185; 184; 183; 182; 181; 180; 179; 178; 177; 176; 175; 174; 173; 172; 171; 170; 169; 168; 167; 166; 165; 164; 163; 162; 161; 160; 159; 158; 157; 156; 155; 154; 153; 152; 151; 150; 149; 148; 147; 146; 145; 144; 143; 142; 141; 140; 139; 138; 137; 136; 135; 134; 133; 132; 131; 130; 129; 128];
  [254; 253; 252; 251; 250; 249; 248; 247; 246; 245; 244; 243; 242; 241; 240; 239; 238; 237; 236; 235; 234; 233; 232; 231; 230; 229; 228; 227; 226; 225; 224; 223; 222; 221; 220; 219; 218; 217; 216; 215; 214; 213; 212; 211; 210; 209; 208; 207; 206; 205; 204; 203; 202; 201; 200; 199; 198; 197; 196; 195; 194; 193; 192; 191];
  [318; 317; 316; 315; 314; 313; 312; 311; 310; 309; 308; 307; 306; 305; 304; 303; 302; 301; 300; 299; 298; 297; 296; 295; 294; 293; 292; 291; 290; 289; 288; 287; 286; 285; 284; 283; 282; 281; 280; 279; 278; 277; 276; 275; 274; 273; 272; 271; 270; 269; 268; 267; 266; 265; 264; 263; 262; 261; 260; 259; 258; 257; 256; 255];
  [382; 381; 380; 379; 378; 377; 376; 375; 374; 373; 372; 371; 370; 369; 368; 367; 366; 365; 364; 363; 362; 361; 360; 359; 358; 357; 356; 355; 354; 353; 352; 351; 350; 349; 348; 347; 346; 345; 344; 343; 342; 341; 340; 339; 338; 337; 336; 335; 334; 333; 332; 331; 330; 329; 328; 327; 326; 325; 324; 323; 322; 321; 320; 319];
  [446; 445; 444; 443; 442; 441; 440; 439; 438; 437; 436; 435; 434; 433; 432; 431; 430; 429; 428; 427; 426; 425; 424; 423; 422; 421; 420; 419; 418; 417; 416; 415; 414; 413; 412; 411; 410; 409; 408; 407; 406; 405; 404; 403; 402; 401; 400; 399; 398; 397; 396; 395; 394; 393; 392; 391; 390; 389; 388; 387; 386; 385; 384; 383];
  [510; 509; 508; 507; 506; 505; 504; 503; 502; 501; 500; 499; 498; 497; 496; 495; 494; 493; 492; 491; 490; 489; 488; 487; 486; 485; 484; 483; 482; 481; 480; 479; 478; 477; 476; 475; 474; 473; 472; 471; 470; 469; 468; 467; 466; 465; 464; 463; 462; 461; 460; 459; 458; 457; 456; 455; 454; 453; 452; 451; 450; 449; 448; 447];
  [574; 573; 572; 571; 570; 569; 568; 567; 566; 565; 564; 563; 562; 561; 560; 559; 558; 557; 556; 555; 554; 553; 552; 551; 550; 549; 548; 547; 546; 545; 544; 543; 542; 541; 540; 539; 538; 537; 536; 535; 534; 533; 532; 531; 530; 529; 528; 527; 526; 525; 524; 523; 522; 521; 520; 519; 518; 517; 516; 515; 514; 513; 512; 511];
  [638; 637; 636; 635; 634; 633; 632; 631; 630; 629; 628; 627; 626; 625; 624; 623; 622; 621; 620; 619; 618; 617; 616; 615; 614; 613; 612; 611; 610; 609; 608; 607; 606; 605; 604; 603; 602; 601; 600; 599; 598; 597; 596; 595; 594; 593; 592; 591; 590; 589; 588; 587; 586; 585; 584; 583; 582; 581; 580; 579; 578; 577; 576; 575];
  [702; 701; 700; 699; 698; 697; 696; 695; 694; 693; 692; 691; 690; 689; 688; 687; 686; 685; 684; 683; 682; 681; 680; 679; 678; 677; 676; 675; 674; 673; 672; 671; 670; 669; 668; 667; 666; 665; 664; 663; 662; 661; 660; 659; 658; 657; 656; 655; 654; 653; 652; 651; 650; 649; 648; 647; 646; 645; 644; 643; 642; 641; 640; 639];
  [766; 765; 764; 763; 762; 761; 760; 759; 758; 757; 756; 755; 754; 753; 752; 751; 750; 749; 748; 747; 746; 745; 744; 743; 742; 741; 740; 739; 738; 737; 736; 735; 734; 733; 732; 731; 730; 729; 728; 727; 726; 725; 724; 723; 722; 721; 720; 719; 718; 717; 716; 715; 714; 713; 712; 711; 710; 709; 708; 707; 706; 705; 704; 703];
  [830; 829; 828; 827; 826; 825; 824; 823; 822; 821; 820; 819; 818; 817; 816; 815; 814; 813; 812; 811; 810; 809; 808; 807; 806; 805; 804; 803; 802; 801; 800; 799; 798; 797; 796; 795; 794; 793; 792; 791; 790; 789; 788; 787; 786; 785; 784; 783; 782; 781; 780; 779; 778; 777; 776; 775; 774; 773; 772; 771; 770; 769; 768; 767];
  [894; 893; 892; 891; 890; 889; 888; 887; 886; 885; 884; 883; 882; 881; 880; 879; 878; 877; 876; 875; 874; 873; 872; 871; 870; 869; 868; 867; 866; 865; 864; 863; 862; 861; 860; 859; 858; 857; 856; 855; 854; 853; 852; 851; 850; 849; 848; 847; 846; 845; 844; 843; 842; 841; 840; 839; 838; 837; 836; 835; 834; 833; 832; 831];
  [958; 957; 956; 955; 954; 953; 952; 951; 950; 949; 948; 947; 946; 945; 944; 943; 942; 941; 940; 939; 938; 937; 936; 935; 934; 933; 932; 931; 930; 929; 928; 927; 926; 925; 924; 923; 922; 921; 920; 919; 918; 917; 916; 915; 914; 913; 912; 911; 910; 909; 908; 907; 906; 905; 904; 903; 902; 901; 900; 899; 898; 897; 896; 895];
  [1022; 1021; 1020; 1019; 1018; 1017; 1016; 1015; 1014; 1013; 1012; 1011; 1010; 1009; 1008; 1007; 1006; 1005; 1004; 1003; 1002; 1001; 1000; 999; 998; 997; 996; 995; 994; 993; 992; 991; 990; 989; 988; 987; 986; 985; 984; 983; 982; 981; 980; 979; 978; 977; 976; 975; 974; 973; 972; 971; 970; 969; 968; 967; 966; 965; 964; 963; 962; 961; 960; 959];
  [1086; 1085; 1084; 1083; 1082; 1081; 1080; 1079; 1078; 1077; 1076; 1075; 1074; 1073; 1072; 1071; 1070; 1069; 1068; 1067; 1066; 1065; 1064; 1063; 1062; 1061; 1060; 1059; 1058; 1057; 1056; 1055; 1054; 1053; 1052; 1051; 1050; 1049; 1048; 1047; 1046; 1045; 1044; 1043; 1042; 1041; 1040; 1039; 1038; 1037; 1036; 1035; 1034; 1033; 1032; 1031; 1030; 1029; 1028; 1027; 1026; 1025; 1024; 1023];
  [1150; 1149; 1148; 1147; 1146; 1145; 1144; 1143; 1142; 1141; 1140; 1139; 1138; 1137; 1136; 1135; 1134; 1133; 1132; 1131; 1130; 1129; 1128; 1127; 1126; 1125; 1124; 1123; 1122; 1121; 1120; 1119; 1118; 1117; 1116; 1115; 1114; 1113; 1112; 1111; 1110; 1109; 1108; 1107; 1106; 1105; 1104; 1103; 1102; 1101; 1100; 1099; 1098; 1097; 1096; 1095; 1094; 1093; 1092; 1091; 1090; 1089; 1088; 1087];
  [1214; 1213; 1212; 1211; 1210; 1209; 1208; 1207; 1206; 1205; 1204; 1203; 1202; 1201; 1200; 1199; 1198; 1197; 1196; 1195; 1194; 1193; 1192; 1191; 1190; 1189; 1188; 1187; 1186; 1185; 1184; 1183; 1182; 1181; 1180; 1179; 1178; 1177; 1176; 1175; 1174; 1173; 1172; 1171; 1170; 1169; 1168; 1167; 1166; 1165; 1164; 1163; 1162; 1161; 1160; 1159; 1158; 1157; 1156; 1155; 1154; 1153; 1152; 1151];
  [1278; 1277; 1276; 1275; 1274; 1273; 1272; 1271; 1270; 1269; 1268; 1267; 1266; 1265; 1264; 1263; 1262; 1261; 1260; 1259; 1258; 1257; 1256; 1255; 1254; 1253; 1252; 1251; 1250; 1249; 1248; 1247; 1246; 1245; 1244; 1243; 1242; 1241; 1240; 1239; 1238; 1237; 1236; 1235; 1234; 1233; 1232; 1231; 1230; 1229; 1228; 1227; 1226; 1225; 1224; 1223; 1222; 1221; 1220; 1219; 1218; 1217; 1216; 1215];
  [1342; 1341; 1340; 1339; 1338; 1337; 1336; 1335; 1334; 1333; 1332; 1331; 1330; 1329; 1328; 1327; 1326; 1325; 1324; 1323; 1322; 1321; 1320; 1319; 1318; 1317; 1316; 1315; 1314; 1313; 1312; 1311; 1310; 1309; 1308; 1307; 1306; 1305; 1304; 1303; 1302; 1301; 1300; 1299; 1298; 1297; 1296; 1295; 1294; 1293; 1292; 1291; 1290; 1289; 1288; 1287; 1286; 1285; 1284; 1283; 1282; 1281; 1280; 1279];
  [1406; 1405; 1404; 1403; 1402; 1401; 1400; 1399; 1398; 1397; 1396; 1395; 1394; 1393; 1392; 1391; 1390; 1389; 1388; 1387; 1386; 1385; 1384; 1383; 1382; 1381; 1380; 1379; 1378; 1377; 1376; 1375; 1374; 1373; 1372; 1371; 1370; 1369; 1368; 1367; 1366; 1365; 1364; 1363; 1362; 1361; 1360; 1359; 1358; 1357; 1356; 1355; 1354; 1353; 1352; 1351; 1350; 1349; 1348; 1347; 1346; 1345; 1344; 1343];
  [1470; 1469; 1468; 1467; 1466; 1465; 1464; 1463; 1462; 1461; 1460; 1459; 1458; 1457; 1456; 1455; 1454; 1453; 1452; 1451; 1450; 1449; 1448; 1447; 1446; 1445; 1444; 1443; 1442; 1441; 1440; 1439; 1438; 1437; 1436; 1435; 1434; 1433; 1432; 1431; 1430; 1429; 1428; 1427; 1426; 1425; 1424; 1423; 1422; 1421; 1420; 1419; 1418; 1417; 1416; 1415; 1414; 1413; 1412; 1411; 1410; 1409; 1408; 1407];
  [1534; 1533; 1532; 1531; 1530; 1529; 1528; 1527; 1526; 1525; 1524; 1523; 1522; 1521; 1520; 1519; 1518; 1517; 1516; 1515; 1514; 1513; 1512; 1511; 1510; 1509; 1508; 1507; 1506; 1505; 1504; 1503; 1502; 1501; 1500; 1499; 1498; 1497; 1496; 1495; 1494; 1493; 1492; 1491; 1490; 1489; 1488; 1487; 1486; 1485; 1484; 1483; 1482; 1481; 1480; 1479; 1478; 1477; 1476; 1475; 1474; 1473; 1472; 1471];
  [1598; 1597; 1596; 1595; 1594; 1593; 1592; 1591; 1590; 1589; 1588; 1587; 1586; 1585; 1584; 1583; 1582; 1581; 1580; 1579; 1578; 1577; 1576; 1575; 1574; 1573; 1572; 1571; 1570; 1569; 1568; 1567; 1566; 1565; 1564; 1563; 1562; 1561; 1560; 1559; 1558; 1557; 1556; 1555; 1554; 1553; 1552; 1551; 1550; 1549; 1548; 1547; 1546; 1545; 1544; 1543; 1542; 1541; 1540; 1539; 1538; 1537; 1536; 1535];
  [1662; 1661; 1660; 1659; 1658; 1657; 1656; 1655; 1654; 1653; 1652; 1651; 1650; 1649; 1648; 1647; 1646; 1645; 1644; 1643; 1642; 1641; 1640; 1639; 1638; 1637; 1636; 1635; 1634; 1633; 1632; 1631; 1630; 1629; 1628; 1627; 1626; 1625; 1624; 1623; 1622; 1621; 1620; 1619; 1618; 1617; 1616; 1615; 1614; 1613; 1612; 1611; 1610; 1609; 1608; 1607; 1606; 1605; 1604; 1603; 1602; 1601; 1600; 1599];
  [1726; 1725; 1724; 1723; 1722; 1721; 1720; 1719; 1718; 1717; 1716; 1715; 1714; 1713; 1712; 1711; 1710; 1709; 1708; 1707; 1706; 1705; 1704; 1703; 1702; 1701; 1700; 1699; 1698; 1697; 1696; 1695; 1694; 1693; 1692; 1691; 1690; 1689; 1688; 1687; 1686; 1685; 1684; 1683; 1682; 1681; 1680; 1679; 1678; 1677; 1676; 1675; 1674; 1673; 1672; 1671; 1670; 1669; 1668; 1667; 1666; 1665; 1664; 1663];
  [1790; 1789; 1788; 1787; 1786; 1785; 1784; 1783; 1782; 1781; 1780; 1779; 1778; 1777; 1776; 1775; 1774; 1773; 1772; 1771; 1770; 1769; 1768; 1767; 1766; 1765; 1764; 1763; 1762; 1761; 1760; 1759; 1758; 1757; 1756; 1755; 1754; 1753; 1752; 1751; 1750; 1749; 1748; 1747; 1746; 1745; 1744; 1743; 1742; 1741; 1740; 1739; 1738; 1737; 1736; 1735; 1734; 1733; 1732; 1731; 1730; 1729; 1728; 1727];
  [1854; 1853; 1852; 1851; 1850; 1849; 1848; 1847; 1846; 1845; 1844; 1843; 1842; 1841; 1840; 1839; 1838; 1837; 1836; 1835; 1834; 1833; 1832; 1831; 1830; 1829; 1828; 1827; 1826; 1825; 1824; 1823; 1822; 1821; 1820; 1819; 1818; 1817; 1816; 1815; 1814; 1813; 1812; 1811; 1810; 1809; 1808; 1807; 1806; 1805; 1804; 1803; 1802; 1801; 1800; 1799; 1798; 1797; 1796; 1795; 1794; 1793; 1792; 1791];
  [1918; 1917; 1916; 1915; 1914; 1913; 1912; 1911; 1910; 1909; 1908; 1907; 1906; 1905; 1904; 1903; 1902; 1901; 1900; 1899; 1898; 1897; 1896; 1895; 1894; 1893; 1892; 1891; 1890; 1889; 1888; 1887; 1886; 1885; 1884; 1883; 1882; 1881; 1880; 1879; 1878; 1877; 1876; 1875; 1874; 1873; 1872; 1871; 1870; 1869; 1868; 1867; 1866; 1865; 1864; 1863; 1862; 1861; 1860; 1859; 1858; 1857; 1856; 1855];
  [1982; 1981; 1980; 1979; 1978; 1977; 1976; 1975; 1974; 1973; 1972; 1971; 1970; 1969; 1968; 1967; 1966; 1965; 1964; 1963; 1962; 1961; 1960; 1959; 1958; 1957; 1956; 1955; 1954; 1953; 1952; 1951; 1950; 1949; 1948; 1947; 1946; 1945; 1944; 1943; 1942; 1941; 1940; 1939; 1938; 1937; 1936; 1935; 1934; 1933; 1932; 1931; 1930; 1929; 1928; 1927; 1926; 1925; 1924; 1923; 1922; 1921; 1920; 1919];
  [2046; 2045; 2044; 2043; 2042; 2041; 2040; 2039; 2038; 2037; 2036; 2035; 2034; 2033; 2032; 2031; 2030; 2029; 2028; 2027; 2026; 2025; 2024; 2023; 2022; 2021; 2020; 2019; 2018; 2017; 2016; 2015; 2014; 2013; 2012; 2011; 2010; 2009; 2008; 2007; 2006; 2005; 2004; 2003; 2002; 2001; 2000; 1999; 1998; 1997; 1996; 1995; 1994; 1993; 1992; 1991; 1990; 1989; 1988; 1987; 1986; 1985; 1984; 1983];
  [2110; 2109; 2108; 2107; 2106; 2105; 2104; 2103; 2102; 2101; 2100; 2099; 2098; 2097; 2096; 2095; 2094; 2093; 2092; 2091; 2090; 2089; 2088; 2087; 2086; 2085; 2084; 2083; 2082; 2081; 2080; 2079; 2078; 2077; 2076; 2075; 2074; 2073; 2072; 2071; 2070; 2069; 2068; 2067; 2066; 2065; 2064; 2063; 2062; 2061; 2060; 2059; 2058; 2057; 2056; 2055; 2054; 2053; 2052; 2051; 2050; 2049; 2048; 2047];
  [2174; 2173; 2172; 2171; 2170; 2169; 2168; 2167; 2166; 2165; 2164; 2163; 2162; 2161; 2160; 2159; 2158; 2157; 2156; 2155; 2154; 2153; 2152; 2151; 2150; 2149; 2148; 2147; 2146; 2145; 2144; 2143; 2142; 2141; 2140; 2139; 2138; 2137; 2136; 2135; 2134; 2133; 2132; 2131; 2130; 2129; 2128; 2127; 2126; 2125; 2124; 2123; 2122; 2121; 2120; 2119; 2118; 2117; 2116; 2115; 2114; 2113; 2112; 2111];
  [2238; 2237; 2236; 2235; 2234; 2233; 2232; 2231; 2230; 2229; 2228; 2227; 2226; 2225; 2224; 2223; 2222; 2221; 2220; 2219; 2218; 2217; 2216; 2215; 2214; 2213; 2212; 2211; 2210; 2209; 2208; 2207; 2206; 2205; 2204; 2203; 2202; 2201; 2200; 2199; 2198; 2197; 2196; 2195; 2194; 2193; 2192; 2191; 2190; 2189; 2188; 2187; 2186; 2185; 2184; 2183; 2182; 2181; 2180; 2179; 2178; 2177; 2176; 2175];
  [2302; 2301; 2300; 2299; 2298; 2297; 2296; 2295; 2294; 2293; 2292; 2291; 2290; 2289; 2288; 2287; 2286; 2285; 2284; 2283; 2282; 2281; 2280; 2279; 2278; 2277; 2276; 2275; 2274; 2273; 2272; 2271; 2270; 2269; 2268; 2267; 2266; 2265; 2264; 2263; 2262; 2261; 2260; 2259; 2258; 2257; 2256; 2255; 2254; 2253; 2252; 2251; 2250; 2249; 2248; 2247; 2246; 2245; 2244; 2243; 2242; 2241; 2240; 2239];
  [2366; 2365; 2364; 2363; 2362; 2361; 2360; 2359; 2358; 2357; 2356; 2355; 2354; 2353; 2352; 2351; 2350; 2349; 2348; 2347; 2346; 2345; 2344; 2343; 2342; 2341; 2340; 2339; 2338; 2337; 2336; 2335; 2334; 2333; 2332; 2331; 2330; 2329; 2328; 2327; 2326; 2325; 2324; 2323; 2322; 2321; 2320; 2319; 2318; 2317; 2316; 2315; 2314; 2313; 2312; 2311; 2310; 2309; 2308; 2307; 2306; 2305; 2304; 2303];
  [2430; 2429; 2428; 2427; 2426; 2425; 2424; 2423; 2422; 2421; 2420; 2419; 2418; 2417; 2416; 2415; 2414; 2413; 2412; 2411; 2410; 2409; 2408; 2407; 2406; 2405; 2404; 2403; 2402; 2401; 2400; 2399; 2398; 2397; 2396; 2395; 2394; 2393; 2392; 2391; 2390; 2389; 2388; 2387; 2386; 2385; 2384; 2383; 2382; 2381; 2380; 2379; 2378; 2377; 2376; 2375; 2374; 2373; 2372; 2371; 2370; 2369; 2368; 2367];
  [2494; 2493; 2492; 2491; 2490; 2489; 2488; 2487; 2486; 2485; 2484; 2483; 2482; 2481; 2480; 2479; 2478; 2477; 2476; 2475; 2474; 2473; 2472; 2471; 2470; 2469; 2468; 2467; 2466; 2465; 2464; 2463; 2462; 2461; 2460; 2459; 2458; 2457; 2456; 2455; 2454; 2453; 2452; 2451; 2450; 2449; 2448; 2447; 2446; 2445; 2444; 2443; 2442; 2441; 2440; 2439; 2438; 2437; 2436; 2435; 2434; 2433; 2432; 2431];
  [2558; 2557; 2556; 2555; 2554; 2553; 2552; 2551; 2550; 2549; 2548; 2547; 2546; 2545; 2544; 2543; 2542; 2541; 2540; 2539; 2538; 2537; 2536; 2535; 2534; 2533; 2532; 2531; 2530; 2529; 2528; 2527; 2526; 2525; 2524; 2523; 2522; 2521; 2520; 2519; 2518; 2517; 2516; 2515; 2514; 2513; 2512; 2511; 2510; 2509; 2508; 2507; 2506; 2505; 2504; 2503; 2502; 2501; 2500; 2499; 2498; 2497; 2496; 2495];
  [2622; 2621; 2620; 2619; 2618; 2617; 2616; 2615; 2614; 2613; 2612; 2611; 2610; 2609; 2608; 2607; 2606; 2605; 2604; 2603; 2602; 2601; 2600; 2599; 2598; 2597; 2596; 2595; 2594; 2593; 2592; 2591; 2590; 2589; 2588; 2587; 2586; 2585; 2584; 2583; 2582; 2581; 2580; 2579; 2578; 2577; 2576; 2575; 2574; 2573; 2572; 2571; 2570; 2569; 2568; 2567; 2566; 2565; 2564; 2563; 2562; 2561; 2560; 2559];
  [2686; 2685; 2684; 2683; 2682; 2681; 2680; 2679; 2678; 2677; 2676; 2675; 2674; 2673; 2672; 2671; 2670; 2669; 2668; 2667; 2666; 2665; 2664; 2663; 2662; 2661; 2660; 2659; 2658; 2657; 2656; 2655; 2654; 2653; 2652; 2651; 2650; 2649; 2648; 2647; 2646; 2645; 2644; 2643; 2642; 2641; 2640; 2639; 2638; 2637; 2636; 2635; 2634; 2633; 2632; 2631; 2630; 2629; 2628; 2627; 2626; 2625; 2624; 2623];
  [2750; 2749; 2748; 2747; 2746; 2745; 2744; 2743; 2742; 2741; 2740; 2739; 2738; 2737; 2736; 2735; 2734; 2733; 2732; 2731; 2730; 2729; 2728; 2727; 2726; 2725; 2724; 2723; 2722; 2721; 2720; 2719; 2718; 2717; 2716; 2715; 2714; 2713; 2712; 2711; 2710; 2709; 2708; 2707; 2706; 2705; 2704; 2703; 2702; 2701; 2700; 2699; 2698; 2697; 2696; 2695; 2694; 2693; 2692; 2691; 2690; 2689; 2688; 2687];
  [2814; 2813; 2812; 2811; 2810; 2809; 2808; 2807; 2806; 2805; 2804; 2803; 2802; 2801; 2800; 2799; 2798; 2797; 2796; 2795; 2794; 2793; 2792; 2791; 2790; 2789; 2788; 2787; 2786; 2785; 2784; 2783; 2782; 2781; 2780; 2779; 2778; 2777; 2776; 2775; 2774; 2773; 2772; 2771; 2770; 2769; 2768; 2767; 2766; 2765; 2764; 2763; 2762; 2761; 2760; 2759; 2758; 2757; 2756; 2755; 2754; 2753; 2752; 2751];
  [2878; 2877; 2876; 2875; 2874; 2873; 2872; 2871; 2870; 2869; 2868; 2867; 2866; 2865; 2864; 2863; 2862; 2861; 2860; 2859; 2858; 2857; 2856; 2855; 2854; 2853; 2852; 2851; 2850; 2849; 2848; 2847; 2846; 2845; 2844; 2843; 2842; 2841; 2840; 2839; 2838; 2837; 2836; 2835; 2834; 2833; 2832; 2831; 2830; 2829; 2828; 2827; 2826; 2825; 2824; 2823; 2822; 2821; 2820; 2819; 2818; 2817; 2816; 2815];
  [2942; 2941; 2940; 2939; 2938; 2937; 2936; 2935; 2934; 2933; 2932; 2931; 2930; 2929; 2928; 2927; 2926; 2925; 2924; 2923; 2922; 2921; 2920; 2919; 2918; 2917; 2916; 2915; 2914; 2913; 2912; 2911; 2910; 2909; 2908; 2907; 2906; 2905; 2904; 2903; 2902; 2901; 2900; 2899; 2898; 2897; 2896; 2895; 2894; 2893; 2892; 2891; 2890; 2889; 2888; 2887; 2886; 2885; 2884; 2883; 2882; 2881; 2880; 2879];
  [3006; 3005; 3004; 3003; 3002; 3001; 3000; 2999; 2998; 2997; 2996; 2995; 2994; 2993; 2992; 2991; 2990; 2989; 2988; 2987; 2986; 2985; 2984; 2983; 2982; 2981; 2980; 2979; 2978; 2977; 2976; 2975; 2974; 2973; 2972; 2971; 2970; 2969; 2968; 2967; 2966; 2965; 2964; 2963; 2962; 2961; 2960; 2959; 2958; 2957; 2956; 2955; 2954; 2953; 2952; 2951; 2950; 2949; 2948; 2947; 2946; 2945; 2944; 2943];
  [3070; 3069; 3068; 3067; 3066; 3065; 3064; 3063; 3062; 3061; 3060; 3059; 3058; 3057; 3056; 3055; 3054; 3053; 3052; 3051; 3050; 3049; 3048; 3047; 3046; 3045; 3044; 3043; 3042; 3041; 3040; 3039; 3038; 3037; 3036; 3035; 3034; 3033; 3032; 3031; 3030; 3029; 3028; 3027; 3026; 3025; 3024; 3023; 3022; 3021; 3020; 3019; 3018; 3017; 3016; 3015; 3014; 3013; 3012; 3011; 3010; 3009; 3008; 3007];
  [3134; 3133; 3132; 3131; 3130; 3129; 3128; 3127; 3126; 3125; 3124; 3123; 3122; 3121; 3120; 3119; 3118; 3117; 3116; 3115; 3114; 3113; 3112; 3111; 3110; 3109; 3108; 3107; 3106; 3105; 3104; 3103; 3102; 3101; 3100; 3099; 3098; 3097; 3096; 3095; 3094; 3093; 3092; 3091; 3090; 3089; 3088; 3087; 3086; 3085; 3084; 3083; 3082; 3081; 3080; 3079; 3078; 3077; 3076; 3075; 3074; 3073; 3072; 3071];
  [3198; 3197; 3196; 3195; 3194; 3193; 3192; 3191; 3190; 3189; 3188; 3187; 3186; 3185; 3184; 3183; 3182; 3181; 3180; 3179; 3178; 3177; 3176; 3175; 3174; 3173; 3172; 3171; 3170; 3169; 3168; 3167; 3166; 3165; 3164; 3163; 3162; 3161; 3160; 3159; 3158; 3157; 3156; 3155; 3154; 3153; 3152; 3151; 3150; 3149; 3148; 3147; 3146; 3145; 3144; 3143; 3142; 3141; 3140; 3139; 3138; 3137; 3136; 3135];
  [3262; 3261; 3260; 3259; 3258; 3257; 3256; 3255; 3254; 3253; 3252; 3251; 3250; 3249; 3248; 3247; 3246; 3245; 3244; 3243; 3242; 3241; 3240; 3239; 3238; 3237; 3236; 3235; 3234; 3233; 3232; 3231; 3230; 3229; 3228; 3227; 3226; 3225; 3224; 3223; 3222; 3221; 3220; 3219; 3218; 3217; 3216; 3215; 3214; 3213; 3212; 3211; 3210; 3209; 3208; 3207; 3206; 3205; 3204; 3203; 3202; 3201; 3200; 3199];
  [3326; 3325; 3324; 3323; 3322; 3321; 3320; 3319; 3318; 3317; 3316; 3315; 3314; 3313; 3312; 3311; 3310; 3309; 3308; 3307; 3306; 3305; 3304; 3303; 3302; 3301; 3300; 3299; 3298; 3297; 3296; 3295; 3294; 3293; 3292; 3291; 3290; 3289; 3288; 3287; 3286; 3285; 3284; 3283; 3282; 3281; 3280; 3279; 3278; 3277; 3276; 3275; 3274; 3273; 3272; 3271; 3270; 3269; 3268; 3267; 3266; 3265; 3264; 3263];
  [3390; 3389; 3388; 3387; 3386; 3385; 3384; 3383; 3382; 3381; 3380; 3379; 3378; 3377; 3376; 3375; 3374; 3373; 3372; 3371; 3370; 3369; 3368; 3367; 3366; 3365; 3364; 3363; 3362; 3361; 3360; 3359; 3358; 3357; 3356; 3355; 3354; 3353; 3352; 3351; 3350; 3349; 3348; 3347; 3346; 3345; 3344; 3343; 3342; 3341; 3340; 3339; 3338; 3337; 3336; 3335; 3334; 3333; 3332; 3331; 3330; 3329; 3328; 3327];
  [3454; 3453; 3452; 3451; 3450; 3449; 3448; 3447; 3446; 3445; 3444; 3443; 3442; 3441; 3440; 3439; 3438; 3437; 3436; 3435; 3434; 3433; 3432; 3431; 3430; 3429; 3428; 3427; 3426; 3425; 3424; 3423; 3422; 3421; 3420; 3419; 3418; 3417; 3416; 3415; 3414; 3413; 3412; 3411; 3410; 3409; 3408; 3407; 3406; 3405; 3404; 3403; 3402; 3401; 3400; 3399; 3398; 3397; 3396; 3395; 3394; 3393; 3392; 3391];
  [3518; 3517; 3516; 3515; 3514; 3513; 3512; 3511; 3510; 3509; 3508; 3507; 3506; 3505; 3504; 3503; 3502; 3501; 3500; 3499; 3498; 3497; 3496; 3495; 3494; 3493; 3492; 3491; 3490; 3489; 3488; 3487; 3486; 3485; 3484; 3483; 3482; 3481; 3480; 3479; 3478; 3477; 3476; 3475; 3474; 3473; 3472; 3471; 3470; 3469; 3468; 3467; 3466; 3465; 3464; 3463; 3462; 3461; 3460; 3459; 3458; 3457; 3456; 3455];
  [3582; 3581; 3580; 3579; 3578; 3577; 3576; 3575; 3574; 3573; 3572; 3571; 3570; 3569; 3568; 3567; 3566; 3565; 3564; 3563; 3562; 3561; 3560; 3559; 3558; 3557; 3556; 3555; 3554; 3553; 3552; 3551; 3550; 3549; 3548; 3547; 3546; 3545; 3544; 3543; 3542; 3541; 3540; 3539; 3538; 3537; 3536; 3535; 3534; 3533; 3532; 3531; 3530; 3529; 3528; 3527; 3526; 3525; 3524; 3523; 3522; 3521; 3520; 3519];
  [3646; 3645; 3644; 3643; 3642; 3641; 3640; 3639; 3638; 3637; 3636; 3635; 3634; 3633; 3632; 3631; 3630; 3629; 3628; 3627; 3626; 3625; 3624; 3623; 3622; 3621; 3620; 3619; 3618; 3617; 3616; 3615; 3614; 3613; 3612; 3611; 3610; 3609; 3608; 3607; 3606; 3605; 3604; 3603; 3602; 3601; 3600; 3599; 3598; 3597; 3596; 3595; 3594; 3593; 3592; 3591; 3590; 3589; 3588; 3587; 3586; 3585; 3584; 3583];
  [3710; 3709; 3708; 3707; 3706; 3705; 3704; 3703; 3702; 3701; 3700; 3699; 3698; 3697; 3696; 3695; 3694; 3693; 3692; 3691; 3690; 3689; 3688; 3687; 3686; 3685; 3684; 3683; 3682; 3681; 3680; 3679; 3678; 3677; 3676; 3675; 3674; 3673; 3672; 3671; 3670; 3669; 3668; 3667; 3666; 3665; 3664; 3663; 3662; 3661; 3660; 3659; 3658; 3657; 3656; 3655; 3654; 3653; 3652; 3651; 3650; 3649; 3648; 3647];
  [3774; 3773; 3772; 3771; 3770; 3769; 3768; 3767; 3766; 3765; 3764; 3763; 3762; 3761; 3760; 3759; 3758; 3757; 3756; 3755; 3754; 3753; 3752; 3751; 3750; 3749; 3748; 3747; 3746; 3745; 3744; 3743; 3742; 3741; 3740; 3739; 3738; 3737; 3736; 3735; 3734; 3733; 3732; 3731; 3730; 3729; 3728; 3727; 3726; 3725; 3724; 3723; 3722; 3721; 3720; 3719; 3718; 3717; 3716; 3715; 3714; 3713; 3712; 3711];
  [3838; 3837; 3836; 3835; 3834; 3833; 3832; 3831; 3830; 3829; 3828; 3827; 3826; 3825; 3824; 3823; 3822; 3821; 3820; 3819; 3818; 3817; 3816; 3815; 3814; 3813; 3812; 3811; 3810; 3809; 3808; 3807; 3806; 3805; 3804; 3803; 3802; 3801; 3800; 3799; 3798; 3797; 3796; 3795; 3794; 3793; 3792; 3791; 3790; 3789; 3788; 3787; 3786; 3785; 3784; 3783; 3782; 3781; 3780; 3779; 3778; 3777; 3776; 3775];
  [3902; 3901; 3900; 3899; 3898; 3897; 3896; 3895; 3894; 3893; 3892; 3891; 3890; 3889; 3888; 3887; 3886; 3885; 3884; 3883; 3882; 3881; 3880; 3879; 3878; 3877; 3876; 3875; 3874; 3873; 3872; 3871; 3870; 3869; 3868; 3867; 3866; 3865; 3864; 3863; 3862; 3861; 3860; 3859; 3858; 3857; 3856; 3855; 3854; 3853; 3852; 3851; 3850; 3849; 3848; 3847; 3846; 3845; 3844; 3843; 3842; 3841; 3840; 3839];
  [3966; 3965; 3964; 3963; 3962; 3961; 3960; 3959; 3958; 3957; 3956; 3955; 3954; 3953; 3952; 3951; 3950; 3949; 3948; 3947; 3946; 3945; 3944; 3943; 3942; 3941; 3940; 3939; 3938; 3937; 3936; 3935; 3934; 3933; 3932; 3931; 3930; 3929; 3928; 3927; 3926; 3925; 3924; 3923; 3922; 3921; 3920; 3919; 3918; 3917; 3916; 3915; 3914; 3913; 3912; 3911; 3910; 3909; 3908; 3907; 3906; 3905; 3904; 3903];
  [4030; 4029; 4028; 4027; 4026; 4025; 4024; 4023; 4022; 4021; 4020; 4019; 4018; 4017; 4016; 4015; 4014; 4013; 4012; 4011; 4010; 4009; 4008; 4007; 4006; 4005; 4004; 4003; 4002; 4001; 4000; 3999; 3998; 3997; 3996; 3995; 3994; 3993; 3992; 3991; 3990; 3989; 3988; 3987; 3986; 3985; 3984; 3983; 3982; 3981; 3980; 3979; 3978; 3977; 3976; 3975; 3974; 3973; 3972; 3971; 3970; 3969; 3968; 3967];
  [4094; 4093; 4092; 4091; 4090; 4089; 4088; 4087; 4086; 4085; 4084; 4083; 4082; 4081; 4080; 4079; 4078; 4077; 4076; 4075; 4074; 4073; 4072; 4071; 4070; 4069; 4068; 4067; 4066; 4065; 4064; 4063; 4062; 4061; 4060; 4059; 4058; 4057; 4056; 4055; 4054; 4053; 4052; 4051; 4050; 4049; 4048; 4047; 4046; 4045; 4044; 4043; 4042; 4041; 4040; 4039; 4038; 4037; 4036; 4035; 4034; 4033; 4032; 4031];
  [4158; 4157; 4156; 4155; 4154; 4153; 4152; 4151; 4150; 4149; 4148; 4147; 4146; 4145; 4144; 4143; 4142; 4141; 4140; 4139; 4138; 4137; 4136; 4135; 4134; 4133; 4132; 4131; 4130; 4129; 4128; 4127; 4126; 4125; 4124; 4123; 4122; 4121; 4120; 4119; 4118; 4117; 4116; 4115; 4114; 4113; 4112; 4111; 4110; 4109; 4108; 4107; 4106; 4105; 4104; 4103; 4102; 4101; 4100; 4099; 4098; 4097; 4096; 4095];
  [4222; 4221; 4220; 4219; 4218; 4217; 4216; 4215; 4214; 4213; 4212; 4211; 4210; 4209; 4208; 4207; 4206; 4205; 4204; 4203; 4202; 4201; 4200; 4199; 4198; 4197; 4196; 4195; 4194; 4193; 4192; 4191; 4190; 4189; 4188; 4187; 4186; 4185; 4184; 4183; 4182; 4181; 4180; 4179; 4178; 4177; 4176; 4175; 4174; 4173; 4172; 4171; 4170; 4169; 4168; 4167; 4166; 4165; 4164; 4163; 4162; 4161; 4160; 4159]].
