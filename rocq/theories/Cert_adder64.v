(** Generated by /verif/tools/gen_netlists.py: a certificate for the netlist adder64, checked in Coq. *)
From Verif Require Import Cuts.
Open Scope N_scope.
Open Scope list_scope.

Definition adder64_facts_0 : list lin_fact := [
  Lin [0; 64] [440; 377] 0%Z [(1%Z, 0); (1%Z, 64); ((-1)%Z, 440); ((-2)%Z, 377)] 18446744073709551616%Z 1%Z;
  Lin [1; 65; 377] [314; 441; 128; 129; 130; 378] 0%Z [(1%Z, 1); (1%Z, 65); (1%Z, 377); ((-1)%Z, 441); ((-2)%Z, 378)] 9223372036854775808%Z 2%Z;
  Lin [2; 66; 378] [315; 442; 131; 132; 133; 379] 0%Z [(1%Z, 2); (1%Z, 66); (1%Z, 378); ((-1)%Z, 442); ((-2)%Z, 379)] 4611686018427387904%Z 4%Z;
  Lin [3; 67; 379] [316; 443; 134; 135; 136; 380] 0%Z [(1%Z, 3); (1%Z, 67); (1%Z, 379); ((-1)%Z, 443); ((-2)%Z, 380)] 2305843009213693952%Z 8%Z;
  Lin [4; 68; 380] [317; 444; 137; 138; 139; 381] 0%Z [(1%Z, 4); (1%Z, 68); (1%Z, 380); ((-1)%Z, 444); ((-2)%Z, 381)] 1152921504606846976%Z 16%Z;
  Lin [5; 69; 381] [318; 445; 140; 141; 142; 382] 0%Z [(1%Z, 5); (1%Z, 69); (1%Z, 381); ((-1)%Z, 445); ((-2)%Z, 382)] 576460752303423488%Z 32%Z;
  Lin [6; 70; 382] [319; 446; 143; 144; 145; 383] 0%Z [(1%Z, 6); (1%Z, 70); (1%Z, 382); ((-1)%Z, 446); ((-2)%Z, 383)] 288230376151711744%Z 64%Z;
  Lin [7; 71; 383] [320; 447; 146; 147; 148; 384] 0%Z [(1%Z, 7); (1%Z, 71); (1%Z, 383); ((-1)%Z, 447); ((-2)%Z, 384)] 144115188075855872%Z 128%Z;
  Lin [8; 72; 384] [321; 448; 149; 150; 151; 385] 0%Z [(1%Z, 8); (1%Z, 72); (1%Z, 384); ((-1)%Z, 448); ((-2)%Z, 385)] 72057594037927936%Z 256%Z;
  Lin [9; 73; 385] [322; 449; 152; 153; 154; 386] 0%Z [(1%Z, 9); (1%Z, 73); (1%Z, 385); ((-1)%Z, 449); ((-2)%Z, 386)] 36028797018963968%Z 512%Z;
  Lin [10; 74; 386] [323; 450; 155; 156; 157; 387] 0%Z [(1%Z, 10); (1%Z, 74); (1%Z, 386); ((-1)%Z, 450); ((-2)%Z, 387)] 18014398509481984%Z 1024%Z;
  Lin [11; 75; 387] [324; 451; 158; 159; 160; 388] 0%Z [(1%Z, 11); (1%Z, 75); (1%Z, 387); ((-1)%Z, 451); ((-2)%Z, 388)] 9007199254740992%Z 2048%Z;
  Lin [12; 76; 388] [325; 452; 161; 162; 163; 389] 0%Z [(1%Z, 12); (1%Z, 76); (1%Z, 388); ((-1)%Z, 452); ((-2)%Z, 389)] 4503599627370496%Z 4096%Z;
  Lin [13; 77; 389] [326; 453; 164; 165; 166; 390] 0%Z [(1%Z, 13); (1%Z, 77); (1%Z, 389); ((-1)%Z, 453); ((-2)%Z, 390)] 2251799813685248%Z 8192%Z;
  Lin [14; 78; 390] [327; 454; 167; 168; 169; 391] 0%Z [(1%Z, 14); (1%Z, 78); (1%Z, 390); ((-1)%Z, 454); ((-2)%Z, 391)] 1125899906842624%Z 16384%Z;
  Lin [15; 79; 391] [328; 455; 170; 171; 172; 392] 0%Z [(1%Z, 15); (1%Z, 79); (1%Z, 391); ((-1)%Z, 455); ((-2)%Z, 392)] 562949953421312%Z 32768%Z;
  Lin [16; 80; 392] [329; 456; 173; 174; 175; 393] 0%Z [(1%Z, 16); (1%Z, 80); (1%Z, 392); ((-1)%Z, 456); ((-2)%Z, 393)] 281474976710656%Z 65536%Z;
  Lin [17; 81; 393] [330; 457; 176; 177; 178; 394] 0%Z [(1%Z, 17); (1%Z, 81); (1%Z, 393); ((-1)%Z, 457); ((-2)%Z, 394)] 140737488355328%Z 131072%Z;
  Lin [18; 82; 394] [331; 458; 179; 180; 181; 395] 0%Z [(1%Z, 18); (1%Z, 82); (1%Z, 394); ((-1)%Z, 458); ((-2)%Z, 395)] 70368744177664%Z 262144%Z;
  Lin [19; 83; 395] [332; 459; 182; 183; 184; 396] 0%Z [(1%Z, 19); (1%Z, 83); (1%Z, 395); ((-1)%Z, 459); ((-2)%Z, 396)] 35184372088832%Z 524288%Z;
  Lin [20; 84; 396] [333; 460; 185; 186; 187; 397] 0%Z [(1%Z, 20); (1%Z, 84); (1%Z, 396); ((-1)%Z, 460); ((-2)%Z, 397)] 17592186044416%Z 1048576%Z;
  Lin [21; 85; 397] [334; 461; 188; 189; 190; 398] 0%Z [(1%Z, 21); (1%Z, 85); (1%Z, 397); ((-1)%Z, 461); ((-2)%Z, 398)] 8796093022208%Z 2097152%Z;
  Lin [22; 86; 398] [335; 462; 191; 192; 193; 399] 0%Z [(1%Z, 22); (1%Z, 86); (1%Z, 398); ((-1)%Z, 462); ((-2)%Z, 399)] 4398046511104%Z 4194304%Z;
  Lin [23; 87; 399] [336; 463; 194; 195; 196; 400] 0%Z [(1%Z, 23); (1%Z, 87); (1%Z, 399); ((-1)%Z, 463); ((-2)%Z, 400)] 2199023255552%Z 8388608%Z;
  Lin [24; 88; 400] [337; 464; 197; 198; 199; 401] 0%Z [(1%Z, 24); (1%Z, 88); (1%Z, 400); ((-1)%Z, 464); ((-2)%Z, 401)] 1099511627776%Z 16777216%Z;
  Lin [25; 89; 401] [338; 465; 200; 201; 202; 402] 0%Z [(1%Z, 25); (1%Z, 89); (1%Z, 401); ((-1)%Z, 465); ((-2)%Z, 402)] 549755813888%Z 33554432%Z;
  Lin [26; 90; 402] [339; 466; 203; 204; 205; 403] 0%Z [(1%Z, 26); (1%Z, 90); (1%Z, 402); ((-1)%Z, 466); ((-2)%Z, 403)] 274877906944%Z 67108864%Z;
  Lin [27; 91; 403] [340; 467; 206; 207; 208; 404] 0%Z [(1%Z, 27); (1%Z, 91); (1%Z, 403); ((-1)%Z, 467); ((-2)%Z, 404)] 137438953472%Z 134217728%Z;
  Lin [28; 92; 404] [341; 468; 209; 210; 211; 405] 0%Z [(1%Z, 28); (1%Z, 92); (1%Z, 404); ((-1)%Z, 468); ((-2)%Z, 405)] 68719476736%Z 268435456%Z;
  Lin [29; 93; 405] [342; 469; 212; 213; 214; 406] 0%Z [(1%Z, 29); (1%Z, 93); (1%Z, 405); ((-1)%Z, 469); ((-2)%Z, 406)] 34359738368%Z 536870912%Z;
  Lin [30; 94; 406] [343; 470; 215; 216; 217; 407] 0%Z [(1%Z, 30); (1%Z, 94); (1%Z, 406); ((-1)%Z, 470); ((-2)%Z, 407)] 17179869184%Z 1073741824%Z;
  Lin [31; 95; 407] [344; 471; 218; 219; 220; 408] 0%Z [(1%Z, 31); (1%Z, 95); (1%Z, 407); ((-1)%Z, 471); ((-2)%Z, 408)] 8589934592%Z 2147483648%Z;
  Lin [32; 96; 408] [345; 472; 221; 222; 223; 409] 0%Z [(1%Z, 32); (1%Z, 96); (1%Z, 408); ((-1)%Z, 472); ((-2)%Z, 409)] 4294967296%Z 4294967296%Z;
  Lin [33; 97; 409] [346; 473; 224; 225; 226; 410] 0%Z [(1%Z, 33); (1%Z, 97); (1%Z, 409); ((-1)%Z, 473); ((-2)%Z, 410)] 2147483648%Z 8589934592%Z;
  Lin [34; 98; 410] [347; 474; 227; 228; 229; 411] 0%Z [(1%Z, 34); (1%Z, 98); (1%Z, 410); ((-1)%Z, 474); ((-2)%Z, 411)] 1073741824%Z 17179869184%Z;
  Lin [35; 99; 411] [348; 475; 230; 231; 232; 412] 0%Z [(1%Z, 35); (1%Z, 99); (1%Z, 411); ((-1)%Z, 475); ((-2)%Z, 412)] 536870912%Z 34359738368%Z;
  Lin [36; 100; 412] [349; 476; 233; 234; 235; 413] 0%Z [(1%Z, 36); (1%Z, 100); (1%Z, 412); ((-1)%Z, 476); ((-2)%Z, 413)] 268435456%Z 68719476736%Z;
  Lin [37; 101; 413] [350; 477; 236; 237; 238; 414] 0%Z [(1%Z, 37); (1%Z, 101); (1%Z, 413); ((-1)%Z, 477); ((-2)%Z, 414)] 134217728%Z 137438953472%Z;
  Lin [38; 102; 414] [351; 478; 239; 240; 241; 415] 0%Z [(1%Z, 38); (1%Z, 102); (1%Z, 414); ((-1)%Z, 478); ((-2)%Z, 415)] 67108864%Z 274877906944%Z;
  Lin [39; 103; 415] [352; 479; 242; 243; 244; 416] 0%Z [(1%Z, 39); (1%Z, 103); (1%Z, 415); ((-1)%Z, 479); ((-2)%Z, 416)] 33554432%Z 549755813888%Z;
  Lin [40; 104; 416] [353; 480; 245; 246; 247; 417] 0%Z [(1%Z, 40); (1%Z, 104); (1%Z, 416); ((-1)%Z, 480); ((-2)%Z, 417)] 16777216%Z 1099511627776%Z;
  Lin [41; 105; 417] [354; 481; 248; 249; 250; 418] 0%Z [(1%Z, 41); (1%Z, 105); (1%Z, 417); ((-1)%Z, 481); ((-2)%Z, 418)] 8388608%Z 2199023255552%Z;
  Lin [42; 106; 418] [355; 482; 251; 252; 253; 419] 0%Z [(1%Z, 42); (1%Z, 106); (1%Z, 418); ((-1)%Z, 482); ((-2)%Z, 419)] 4194304%Z 4398046511104%Z;
  Lin [43; 107; 419] [356; 483; 254; 255; 256; 420] 0%Z [(1%Z, 43); (1%Z, 107); (1%Z, 419); ((-1)%Z, 483); ((-2)%Z, 420)] 2097152%Z 8796093022208%Z;
  Lin [44; 108; 420] [357; 484; 257; 258; 259; 421] 0%Z [(1%Z, 44); (1%Z, 108); (1%Z, 420); ((-1)%Z, 484); ((-2)%Z, 421)] 1048576%Z 17592186044416%Z;
  Lin [45; 109; 421] [358; 485; 260; 261; 262; 422] 0%Z [(1%Z, 45); (1%Z, 109); (1%Z, 421); ((-1)%Z, 485); ((-2)%Z, 422)] 524288%Z 35184372088832%Z;
  Lin [46; 110; 422] [359; 486; 263; 264; 265; 423] 0%Z [(1%Z, 46); (1%Z, 110); (1%Z, 422); ((-1)%Z, 486); ((-2)%Z, 423)] 262144%Z 70368744177664%Z;
  Lin [47; 111; 423] [360; 487; 266; 267; 268; 424] 0%Z [(1%Z, 47); (1%Z, 111); (1%Z, 423); ((-1)%Z, 487); ((-2)%Z, 424)] 131072%Z 140737488355328%Z;
  Lin [48; 112; 424] [361; 488; 269; 270; 271; 425] 0%Z [(1%Z, 48); (1%Z, 112); (1%Z, 424); ((-1)%Z, 488); ((-2)%Z, 425)] 65536%Z 281474976710656%Z;
  Lin [49; 113; 425] [362; 489; 272; 273; 274; 426] 0%Z [(1%Z, 49); (1%Z, 113); (1%Z, 425); ((-1)%Z, 489); ((-2)%Z, 426)] 32768%Z 562949953421312%Z;
  Lin [50; 114; 426] [363; 490; 275; 276; 277; 427] 0%Z [(1%Z, 50); (1%Z, 114); (1%Z, 426); ((-1)%Z, 490); ((-2)%Z, 427)] 16384%Z 1125899906842624%Z;
  Lin [51; 115; 427] [364; 491; 278; 279; 280; 428] 0%Z [(1%Z, 51); (1%Z, 115); (1%Z, 427); ((-1)%Z, 491); ((-2)%Z, 428)] 8192%Z 2251799813685248%Z;
  Lin [52; 116; 428] [365; 492; 281; 282; 283; 429] 0%Z [(1%Z, 52); (1%Z, 116); (1%Z, 428); ((-1)%Z, 492); ((-2)%Z, 429)] 4096%Z 4503599627370496%Z;
  Lin [53; 117; 429] [366; 493; 284; 285; 286; 430] 0%Z [(1%Z, 53); (1%Z, 117); (1%Z, 429); ((-1)%Z, 493); ((-2)%Z, 430)] 2048%Z 9007199254740992%Z;
  Lin [54; 118; 430] [367; 494; 287; 288; 289; 431] 0%Z [(1%Z, 54); (1%Z, 118); (1%Z, 430); ((-1)%Z, 494); ((-2)%Z, 431)] 1024%Z 18014398509481984%Z;
  Lin [55; 119; 431] [368; 495; 290; 291; 292; 432] 0%Z [(1%Z, 55); (1%Z, 119); (1%Z, 431); ((-1)%Z, 495); ((-2)%Z, 432)] 512%Z 36028797018963968%Z;
  Lin [56; 120; 432] [369; 496; 293; 294; 295; 433] 0%Z [(1%Z, 56); (1%Z, 120); (1%Z, 432); ((-1)%Z, 496); ((-2)%Z, 433)] 256%Z 72057594037927936%Z;
  Lin [57; 121; 433] [370; 497; 296; 297; 298; 434] 0%Z [(1%Z, 57); (1%Z, 121); (1%Z, 433); ((-1)%Z, 497); ((-2)%Z, 434)] 128%Z 144115188075855872%Z;
  Lin [58; 122; 434] [371; 498; 299; 300; 301; 435] 0%Z [(1%Z, 58); (1%Z, 122); (1%Z, 434); ((-1)%Z, 498); ((-2)%Z, 435)] 64%Z 288230376151711744%Z;
  Lin [59; 123; 435] [372; 499; 302; 303; 304; 436] 0%Z [(1%Z, 59); (1%Z, 123); (1%Z, 435); ((-1)%Z, 499); ((-2)%Z, 436)] 32%Z 576460752303423488%Z;
  Lin [60; 124; 436] [373; 500; 305; 306; 307; 437] 0%Z [(1%Z, 60); (1%Z, 124); (1%Z, 436); ((-1)%Z, 500); ((-2)%Z, 437)] 16%Z 1152921504606846976%Z;
  Lin [61; 125; 437] [374; 501; 308; 309; 310; 438] 0%Z [(1%Z, 61); (1%Z, 125); (1%Z, 437); ((-1)%Z, 501); ((-2)%Z, 438)] 8%Z 2305843009213693952%Z;
  Lin [62; 126; 438] [375; 502; 311; 312; 313; 439] 0%Z [(1%Z, 62); (1%Z, 126); (1%Z, 438); ((-1)%Z, 502); ((-2)%Z, 439)] 4%Z 4611686018427387904%Z;
  Lin [63; 127; 439] [376; 503] 0%Z [(1%Z, 63); (1%Z, 127); (1%Z, 439); ((-1)%Z, 503)] 2%Z 9223372036854775808%Z].
Definition adder64_facts : list lin_fact := concat [adder64_facts_0].
