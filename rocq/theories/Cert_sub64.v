(** Generated by /verif/tools/gen_netlists.py: a certificate for the netlist sub64, checked in Coq. *)
From Verif Require Import Cuts.
Open Scope N_scope.
Open Scope list_scope.

Definition sub64_facts_0 : list lin_fact := [
  Lin [0; 64] [503; 314; 440] 0%Z [(1%Z, 0); ((-1)%Z, 64); ((-1)%Z, 503); (2%Z, 440)] 18446744073709551616%Z 1%Z;
  Lin [1; 65; 440] [377; 504; 315; 128; 129; 130; 441] 0%Z [(1%Z, 1); ((-1)%Z, 65); ((-1)%Z, 440); ((-1)%Z, 504); (2%Z, 441)] 9223372036854775808%Z 2%Z;
  Lin [2; 66; 441] [378; 505; 316; 131; 132; 133; 442] 0%Z [(1%Z, 2); ((-1)%Z, 66); ((-1)%Z, 441); ((-1)%Z, 505); (2%Z, 442)] 4611686018427387904%Z 4%Z;
  Lin [3; 67; 442] [379; 506; 317; 134; 135; 136; 443] 0%Z [(1%Z, 3); ((-1)%Z, 67); ((-1)%Z, 442); ((-1)%Z, 506); (2%Z, 443)] 2305843009213693952%Z 8%Z;
  Lin [4; 68; 443] [380; 507; 318; 137; 138; 139; 444] 0%Z [(1%Z, 4); ((-1)%Z, 68); ((-1)%Z, 443); ((-1)%Z, 507); (2%Z, 444)] 1152921504606846976%Z 16%Z;
  Lin [5; 69; 444] [381; 508; 319; 140; 141; 142; 445] 0%Z [(1%Z, 5); ((-1)%Z, 69); ((-1)%Z, 444); ((-1)%Z, 508); (2%Z, 445)] 576460752303423488%Z 32%Z;
  Lin [6; 70; 445] [382; 509; 320; 143; 144; 145; 446] 0%Z [(1%Z, 6); ((-1)%Z, 70); ((-1)%Z, 445); ((-1)%Z, 509); (2%Z, 446)] 288230376151711744%Z 64%Z;
  Lin [7; 71; 446] [383; 510; 321; 146; 147; 148; 447] 0%Z [(1%Z, 7); ((-1)%Z, 71); ((-1)%Z, 446); ((-1)%Z, 510); (2%Z, 447)] 144115188075855872%Z 128%Z;
  Lin [8; 72; 447] [384; 511; 322; 149; 150; 151; 448] 0%Z [(1%Z, 8); ((-1)%Z, 72); ((-1)%Z, 447); ((-1)%Z, 511); (2%Z, 448)] 72057594037927936%Z 256%Z;
  Lin [9; 73; 448] [385; 512; 323; 152; 153; 154; 449] 0%Z [(1%Z, 9); ((-1)%Z, 73); ((-1)%Z, 448); ((-1)%Z, 512); (2%Z, 449)] 36028797018963968%Z 512%Z;
  Lin [10; 74; 449] [386; 513; 324; 155; 156; 157; 450] 0%Z [(1%Z, 10); ((-1)%Z, 74); ((-1)%Z, 449); ((-1)%Z, 513); (2%Z, 450)] 18014398509481984%Z 1024%Z;
  Lin [11; 75; 450] [387; 514; 325; 158; 159; 160; 451] 0%Z [(1%Z, 11); ((-1)%Z, 75); ((-1)%Z, 450); ((-1)%Z, 514); (2%Z, 451)] 9007199254740992%Z 2048%Z;
  Lin [12; 76; 451] [388; 515; 326; 161; 162; 163; 452] 0%Z [(1%Z, 12); ((-1)%Z, 76); ((-1)%Z, 451); ((-1)%Z, 515); (2%Z, 452)] 4503599627370496%Z 4096%Z;
  Lin [13; 77; 452] [389; 516; 327; 164; 165; 166; 453] 0%Z [(1%Z, 13); ((-1)%Z, 77); ((-1)%Z, 452); ((-1)%Z, 516); (2%Z, 453)] 2251799813685248%Z 8192%Z;
  Lin [14; 78; 453] [390; 517; 328; 167; 168; 169; 454] 0%Z [(1%Z, 14); ((-1)%Z, 78); ((-1)%Z, 453); ((-1)%Z, 517); (2%Z, 454)] 1125899906842624%Z 16384%Z;
  Lin [15; 79; 454] [391; 518; 329; 170; 171; 172; 455] 0%Z [(1%Z, 15); ((-1)%Z, 79); ((-1)%Z, 454); ((-1)%Z, 518); (2%Z, 455)] 562949953421312%Z 32768%Z;
  Lin [16; 80; 455] [392; 519; 330; 173; 174; 175; 456] 0%Z [(1%Z, 16); ((-1)%Z, 80); ((-1)%Z, 455); ((-1)%Z, 519); (2%Z, 456)] 281474976710656%Z 65536%Z;
  Lin [17; 81; 456] [393; 520; 331; 176; 177; 178; 457] 0%Z [(1%Z, 17); ((-1)%Z, 81); ((-1)%Z, 456); ((-1)%Z, 520); (2%Z, 457)] 140737488355328%Z 131072%Z;
  Lin [18; 82; 457] [394; 521; 332; 179; 180; 181; 458] 0%Z [(1%Z, 18); ((-1)%Z, 82); ((-1)%Z, 457); ((-1)%Z, 521); (2%Z, 458)] 70368744177664%Z 262144%Z;
  Lin [19; 83; 458] [395; 522; 333; 182; 183; 184; 459] 0%Z [(1%Z, 19); ((-1)%Z, 83); ((-1)%Z, 458); ((-1)%Z, 522); (2%Z, 459)] 35184372088832%Z 524288%Z;
  Lin [20; 84; 459] [396; 523; 334; 185; 186; 187; 460] 0%Z [(1%Z, 20); ((-1)%Z, 84); ((-1)%Z, 459); ((-1)%Z, 523); (2%Z, 460)] 17592186044416%Z 1048576%Z;
  Lin [21; 85; 460] [397; 524; 335; 188; 189; 190; 461] 0%Z [(1%Z, 21); ((-1)%Z, 85); ((-1)%Z, 460); ((-1)%Z, 524); (2%Z, 461)] 8796093022208%Z 2097152%Z;
  Lin [22; 86; 461] [398; 525; 336; 191; 192; 193; 462] 0%Z [(1%Z, 22); ((-1)%Z, 86); ((-1)%Z, 461); ((-1)%Z, 525); (2%Z, 462)] 4398046511104%Z 4194304%Z;
  Lin [23; 87; 462] [399; 526; 337; 194; 195; 196; 463] 0%Z [(1%Z, 23); ((-1)%Z, 87); ((-1)%Z, 462); ((-1)%Z, 526); (2%Z, 463)] 2199023255552%Z 8388608%Z;
  Lin [24; 88; 463] [400; 527; 338; 197; 198; 199; 464] 0%Z [(1%Z, 24); ((-1)%Z, 88); ((-1)%Z, 463); ((-1)%Z, 527); (2%Z, 464)] 1099511627776%Z 16777216%Z;
  Lin [25; 89; 464] [401; 528; 339; 200; 201; 202; 465] 0%Z [(1%Z, 25); ((-1)%Z, 89); ((-1)%Z, 464); ((-1)%Z, 528); (2%Z, 465)] 549755813888%Z 33554432%Z;
  Lin [26; 90; 465] [402; 529; 340; 203; 204; 205; 466] 0%Z [(1%Z, 26); ((-1)%Z, 90); ((-1)%Z, 465); ((-1)%Z, 529); (2%Z, 466)] 274877906944%Z 67108864%Z;
  Lin [27; 91; 466] [403; 530; 341; 206; 207; 208; 467] 0%Z [(1%Z, 27); ((-1)%Z, 91); ((-1)%Z, 466); ((-1)%Z, 530); (2%Z, 467)] 137438953472%Z 134217728%Z;
  Lin [28; 92; 467] [404; 531; 342; 209; 210; 211; 468] 0%Z [(1%Z, 28); ((-1)%Z, 92); ((-1)%Z, 467); ((-1)%Z, 531); (2%Z, 468)] 68719476736%Z 268435456%Z;
  Lin [29; 93; 468] [405; 532; 343; 212; 213; 214; 469] 0%Z [(1%Z, 29); ((-1)%Z, 93); ((-1)%Z, 468); ((-1)%Z, 532); (2%Z, 469)] 34359738368%Z 536870912%Z;
  Lin [30; 94; 469] [406; 533; 344; 215; 216; 217; 470] 0%Z [(1%Z, 30); ((-1)%Z, 94); ((-1)%Z, 469); ((-1)%Z, 533); (2%Z, 470)] 17179869184%Z 1073741824%Z;
  Lin [31; 95; 470] [407; 534; 345; 218; 219; 220; 471] 0%Z [(1%Z, 31); ((-1)%Z, 95); ((-1)%Z, 470); ((-1)%Z, 534); (2%Z, 471)] 8589934592%Z 2147483648%Z;
  Lin [32; 96; 471] [408; 535; 346; 221; 222; 223; 472] 0%Z [(1%Z, 32); ((-1)%Z, 96); ((-1)%Z, 471); ((-1)%Z, 535); (2%Z, 472)] 4294967296%Z 4294967296%Z;
  Lin [33; 97; 472] [409; 536; 347; 224; 225; 226; 473] 0%Z [(1%Z, 33); ((-1)%Z, 97); ((-1)%Z, 472); ((-1)%Z, 536); (2%Z, 473)] 2147483648%Z 8589934592%Z;
  Lin [34; 98; 473] [410; 537; 348; 227; 228; 229; 474] 0%Z [(1%Z, 34); ((-1)%Z, 98); ((-1)%Z, 473); ((-1)%Z, 537); (2%Z, 474)] 1073741824%Z 17179869184%Z;
  Lin [35; 99; 474] [411; 538; 349; 230; 231; 232; 475] 0%Z [(1%Z, 35); ((-1)%Z, 99); ((-1)%Z, 474); ((-1)%Z, 538); (2%Z, 475)] 536870912%Z 34359738368%Z;
  Lin [36; 100; 475] [412; 539; 350; 233; 234; 235; 476] 0%Z [(1%Z, 36); ((-1)%Z, 100); ((-1)%Z, 475); ((-1)%Z, 539); (2%Z, 476)] 268435456%Z 68719476736%Z;
  Lin [37; 101; 476] [413; 540; 351; 236; 237; 238; 477] 0%Z [(1%Z, 37); ((-1)%Z, 101); ((-1)%Z, 476); ((-1)%Z, 540); (2%Z, 477)] 134217728%Z 137438953472%Z;
  Lin [38; 102; 477] [414; 541; 352; 239; 240; 241; 478] 0%Z [(1%Z, 38); ((-1)%Z, 102); ((-1)%Z, 477); ((-1)%Z, 541); (2%Z, 478)] 67108864%Z 274877906944%Z;
  Lin [39; 103; 478] [415; 542; 353; 242; 243; 244; 479] 0%Z [(1%Z, 39); ((-1)%Z, 103); ((-1)%Z, 478); ((-1)%Z, 542); (2%Z, 479)] 33554432%Z 549755813888%Z;
  Lin [40; 104; 479] [416; 543; 354; 245; 246; 247; 480] 0%Z [(1%Z, 40); ((-1)%Z, 104); ((-1)%Z, 479); ((-1)%Z, 543); (2%Z, 480)] 16777216%Z 1099511627776%Z;
  Lin [41; 105; 480] [417; 544; 355; 248; 249; 250; 481] 0%Z [(1%Z, 41); ((-1)%Z, 105); ((-1)%Z, 480); ((-1)%Z, 544); (2%Z, 481)] 8388608%Z 2199023255552%Z;
  Lin [42; 106; 481] [418; 545; 356; 251; 252; 253; 482] 0%Z [(1%Z, 42); ((-1)%Z, 106); ((-1)%Z, 481); ((-1)%Z, 545); (2%Z, 482)] 4194304%Z 4398046511104%Z;
  Lin [43; 107; 482] [419; 546; 357; 254; 255; 256; 483] 0%Z [(1%Z, 43); ((-1)%Z, 107); ((-1)%Z, 482); ((-1)%Z, 546); (2%Z, 483)] 2097152%Z 8796093022208%Z;
  Lin [44; 108; 483] [420; 547; 358; 257; 258; 259; 484] 0%Z [(1%Z, 44); ((-1)%Z, 108); ((-1)%Z, 483); ((-1)%Z, 547); (2%Z, 484)] 1048576%Z 17592186044416%Z;
  Lin [45; 109; 484] [421; 548; 359; 260; 261; 262; 485] 0%Z [(1%Z, 45); ((-1)%Z, 109); ((-1)%Z, 484); ((-1)%Z, 548); (2%Z, 485)] 524288%Z 35184372088832%Z;
  Lin [46; 110; 485] [422; 549; 360; 263; 264; 265; 486] 0%Z [(1%Z, 46); ((-1)%Z, 110); ((-1)%Z, 485); ((-1)%Z, 549); (2%Z, 486)] 262144%Z 70368744177664%Z;
  Lin [47; 111; 486] [423; 550; 361; 266; 267; 268; 487] 0%Z [(1%Z, 47); ((-1)%Z, 111); ((-1)%Z, 486); ((-1)%Z, 550); (2%Z, 487)] 131072%Z 140737488355328%Z;
  Lin [48; 112; 487] [424; 551; 362; 269; 270; 271; 488] 0%Z [(1%Z, 48); ((-1)%Z, 112); ((-1)%Z, 487); ((-1)%Z, 551); (2%Z, 488)] 65536%Z 281474976710656%Z;
  Lin [49; 113; 488] [425; 552; 363; 272; 273; 274; 489] 0%Z [(1%Z, 49); ((-1)%Z, 113); ((-1)%Z, 488); ((-1)%Z, 552); (2%Z, 489)] 32768%Z 562949953421312%Z;
  Lin [50; 114; 489] [426; 553; 364; 275; 276; 277; 490] 0%Z [(1%Z, 50); ((-1)%Z, 114); ((-1)%Z, 489); ((-1)%Z, 553); (2%Z, 490)] 16384%Z 1125899906842624%Z;
  Lin [51; 115; 490] [427; 554; 365; 278; 279; 280; 491] 0%Z [(1%Z, 51); ((-1)%Z, 115); ((-1)%Z, 490); ((-1)%Z, 554); (2%Z, 491)] 8192%Z 2251799813685248%Z;
  Lin [52; 116; 491] [428; 555; 366; 281; 282; 283; 492] 0%Z [(1%Z, 52); ((-1)%Z, 116); ((-1)%Z, 491); ((-1)%Z, 555); (2%Z, 492)] 4096%Z 4503599627370496%Z;
  Lin [53; 117; 492] [429; 556; 367; 284; 285; 286; 493] 0%Z [(1%Z, 53); ((-1)%Z, 117); ((-1)%Z, 492); ((-1)%Z, 556); (2%Z, 493)] 2048%Z 9007199254740992%Z;
  Lin [54; 118; 493] [430; 557; 368; 287; 288; 289; 494] 0%Z [(1%Z, 54); ((-1)%Z, 118); ((-1)%Z, 493); ((-1)%Z, 557); (2%Z, 494)] 1024%Z 18014398509481984%Z;
  Lin [55; 119; 494] [431; 558; 369; 290; 291; 292; 495] 0%Z [(1%Z, 55); ((-1)%Z, 119); ((-1)%Z, 494); ((-1)%Z, 558); (2%Z, 495)] 512%Z 36028797018963968%Z;
  Lin [56; 120; 495] [432; 559; 370; 293; 294; 295; 496] 0%Z [(1%Z, 56); ((-1)%Z, 120); ((-1)%Z, 495); ((-1)%Z, 559); (2%Z, 496)] 256%Z 72057594037927936%Z;
  Lin [57; 121; 496] [433; 560; 371; 296; 297; 298; 497] 0%Z [(1%Z, 57); ((-1)%Z, 121); ((-1)%Z, 496); ((-1)%Z, 560); (2%Z, 497)] 128%Z 144115188075855872%Z;
  Lin [58; 122; 497] [434; 561; 372; 299; 300; 301; 498] 0%Z [(1%Z, 58); ((-1)%Z, 122); ((-1)%Z, 497); ((-1)%Z, 561); (2%Z, 498)] 64%Z 288230376151711744%Z;
  Lin [59; 123; 498] [435; 562; 373; 302; 303; 304; 499] 0%Z [(1%Z, 59); ((-1)%Z, 123); ((-1)%Z, 498); ((-1)%Z, 562); (2%Z, 499)] 32%Z 576460752303423488%Z;
  Lin [60; 124; 499] [436; 563; 374; 305; 306; 307; 500] 0%Z [(1%Z, 60); ((-1)%Z, 124); ((-1)%Z, 499); ((-1)%Z, 563); (2%Z, 500)] 16%Z 1152921504606846976%Z;
  Lin [61; 125; 500] [437; 564; 375; 308; 309; 310; 501] 0%Z [(1%Z, 61); ((-1)%Z, 125); ((-1)%Z, 500); ((-1)%Z, 564); (2%Z, 501)] 8%Z 2305843009213693952%Z;
  Lin [62; 126; 501] [438; 565; 376; 311; 312; 313; 502] 0%Z [(1%Z, 62); ((-1)%Z, 126); ((-1)%Z, 501); ((-1)%Z, 565); (2%Z, 502)] 4%Z 4611686018427387904%Z;
  Lin [63; 127; 502] [439; 566] 0%Z [(1%Z, 63); ((-1)%Z, 127); ((-1)%Z, 502); ((-1)%Z, 566)] 2%Z 9223372036854775808%Z].
Definition sub64_facts : list lin_fact := concat [sub64_facts_0].
