(** Generated by /verif/tools/gen_netlists.py: a certificate for the netlist udivide64, checked in Coq. *)
From Verif Require Import Rows.
Open Scope N_scope.
Open Scope list_scope.

Definition udivide64_stage_0 : ustage := UStage
   [Cell ([63; 64], [314; 315]) (Some (LW 314)) (Some (LW 315))]
   ([315; 313], [317; 316; 318]) 318 322
   [321]
   [([318; 63; 314], [319; 320; 321])].
Definition udivide64_stage_1 : ustage := UStage
   [Cell ([62; 64], [323; 324]) (Some (LW 323)) (Some (LW 324));
    Cell ([321; 65; 324], [325; 327; 326; 328; 329]) (Some (LW 327)) (Some (LW 329))]
   ([329; 310], [331; 330; 332]) 332 339
   [335; 338]
   [([332; 62; 323], [333; 334; 335]); ([332; 321; 327], [336; 337; 338])].
Definition udivide64_stage_2 : ustage := UStage
   [Cell ([61; 64], [340; 341]) (Some (LW 340)) (Some (LW 341));
    Cell ([335; 65; 341], [342; 344; 343; 345; 346]) (Some (LW 344)) (Some (LW 346));
    Cell ([338; 66; 346], [347; 349; 348; 350; 351]) (Some (LW 349)) (Some (LW 351))]
   ([351; 307], [353; 352; 354]) 354 364
   [357; 360; 363]
   [([354; 61; 340], [355; 356; 357]); ([354; 335; 344], [358; 359; 360]); ([354; 338; 349], [361; 362; 363])].
Definition udivide64_stage_3 : ustage := UStage
   [Cell ([60; 64], [365; 366]) (Some (LW 365)) (Some (LW 366));
    Cell ([357; 65; 366], [367; 369; 368; 370; 371]) (Some (LW 369)) (Some (LW 371));
    Cell ([360; 66; 371], [372; 374; 373; 375; 376]) (Some (LW 374)) (Some (LW 376));
    Cell ([363; 67; 376], [377; 379; 378; 380; 381]) (Some (LW 379)) (Some (LW 381))]
   ([381; 304], [383; 382; 384]) 384 397
   [387; 390; 393; 396]
   [([384; 60; 365], [385; 386; 387]); ([384; 357; 369], [388; 389; 390]); ([384; 360; 374], [391; 392; 393]); ([384; 363; 379], [394; 395; 396])].
Definition udivide64_stage_4 : ustage := UStage
   [Cell ([59; 64], [398; 399]) (Some (LW 398)) (Some (LW 399));
    Cell ([387; 65; 399], [400; 402; 401; 403; 404]) (Some (LW 402)) (Some (LW 404));
    Cell ([390; 66; 404], [405; 407; 406; 408; 409]) (Some (LW 407)) (Some (LW 409));
    Cell ([393; 67; 409], [410; 412; 411; 413; 414]) (Some (LW 412)) (Some (LW 414));
    Cell ([396; 68; 414], [415; 417; 416; 418; 419]) (Some (LW 417)) (Some (LW 419))]
   ([419; 301], [421; 420; 422]) 422 438
   [425; 428; 431; 434; 437]
   [([422; 59; 398], [423; 424; 425]); ([422; 387; 402], [426; 427; 428]); ([422; 390; 407], [429; 430; 431]); ([422; 393; 412], [432; 433; 434]); ([422; 396; 417], [435; 436; 437])].
Definition udivide64_stage_5 : ustage := UStage
   [Cell ([58; 64], [439; 440]) (Some (LW 439)) (Some (LW 440));
    Cell ([425; 65; 440], [441; 443; 442; 444; 445]) (Some (LW 443)) (Some (LW 445));
    Cell ([428; 66; 445], [446; 448; 447; 449; 450]) (Some (LW 448)) (Some (LW 450));
    Cell ([431; 67; 450], [451; 453; 452; 454; 455]) (Some (LW 453)) (Some (LW 455));
    Cell ([434; 68; 455], [456; 458; 457; 459; 460]) (Some (LW 458)) (Some (LW 460));
    Cell ([437; 69; 460], [461; 463; 462; 464; 465]) (Some (LW 463)) (Some (LW 465))]
   ([465; 298], [467; 466; 468]) 468 487
   [471; 474; 477; 480; 483; 486]
   [([468; 58; 439], [469; 470; 471]); ([468; 425; 443], [472; 473; 474]); ([468; 428; 448], [475; 476; 477]); ([468; 431; 453], [478; 479; 480]); ([468; 434; 458], [481; 482; 483]); ([468; 437; 463], [484; 485; 486])].
Definition udivide64_stage_6 : ustage := UStage
   [Cell ([57; 64], [488; 489]) (Some (LW 488)) (Some (LW 489));
    Cell ([471; 65; 489], [490; 492; 491; 493; 494]) (Some (LW 492)) (Some (LW 494));
    Cell ([474; 66; 494], [495; 497; 496; 498; 499]) (Some (LW 497)) (Some (LW 499));
    Cell ([477; 67; 499], [500; 502; 501; 503; 504]) (Some (LW 502)) (Some (LW 504));
    Cell ([480; 68; 504], [505; 507; 506; 508; 509]) (Some (LW 507)) (Some (LW 509));
    Cell ([483; 69; 509], [510; 512; 511; 513; 514]) (Some (LW 512)) (Some (LW 514));
    Cell ([486; 70; 514], [515; 517; 516; 518; 519]) (Some (LW 517)) (Some (LW 519))]
   ([519; 295], [521; 520; 522]) 522 544
   [525; 528; 531; 534; 537; 540; 543]
   [([522; 57; 488], [523; 524; 525]); ([522; 471; 492], [526; 527; 528]); ([522; 474; 497], [529; 530; 531]); ([522; 477; 502], [532; 533; 534]); ([522; 480; 507], [535; 536; 537]); ([522; 483; 512], [538; 539; 540]); ([522; 486; 517], [541; 542; 543])].
Definition udivide64_stage_7 : ustage := UStage
   [Cell ([56; 64], [545; 546]) (Some (LW 545)) (Some (LW 546));
    Cell ([525; 65; 546], [547; 549; 548; 550; 551]) (Some (LW 549)) (Some (LW 551));
    Cell ([528; 66; 551], [552; 554; 553; 555; 556]) (Some (LW 554)) (Some (LW 556));
    Cell ([531; 67; 556], [557; 559; 558; 560; 561]) (Some (LW 559)) (Some (LW 561));
    Cell ([534; 68; 561], [562; 564; 563; 565; 566]) (Some (LW 564)) (Some (LW 566));
    Cell ([537; 69; 566], [567; 569; 568; 570; 571]) (Some (LW 569)) (Some (LW 571));
    Cell ([540; 70; 571], [572; 574; 573; 575; 576]) (Some (LW 574)) (Some (LW 576));
    Cell ([543; 71; 576], [577; 579; 578; 580; 581]) (Some (LW 579)) (Some (LW 581))]
   ([581; 292], [583; 582; 584]) 584 609
   [587; 590; 593; 596; 599; 602; 605; 608]
   [([584; 56; 545], [585; 586; 587]); ([584; 525; 549], [588; 589; 590]); ([584; 528; 554], [591; 592; 593]); ([584; 531; 559], [594; 595; 596]); ([584; 534; 564], [597; 598; 599]); ([584; 537; 569], [600; 601; 602]); ([584; 540; 574], [603; 604; 605]); ([584; 543; 579], [606; 607; 608])].
Definition udivide64_stage_8 : ustage := UStage
   [Cell ([55; 64], [610; 611]) (Some (LW 610)) (Some (LW 611));
    Cell ([587; 65; 611], [612; 614; 613; 615; 616]) (Some (LW 614)) (Some (LW 616));
    Cell ([590; 66; 616], [617; 619; 618; 620; 621]) (Some (LW 619)) (Some (LW 621));
    Cell ([593; 67; 621], [622; 624; 623; 625; 626]) (Some (LW 624)) (Some (LW 626));
    Cell ([596; 68; 626], [627; 629; 628; 630; 631]) (Some (LW 629)) (Some (LW 631));
    Cell ([599; 69; 631], [632; 634; 633; 635; 636]) (Some (LW 634)) (Some (LW 636));
    Cell ([602; 70; 636], [637; 639; 638; 640; 641]) (Some (LW 639)) (Some (LW 641));
    Cell ([605; 71; 641], [642; 644; 643; 645; 646]) (Some (LW 644)) (Some (LW 646));
    Cell ([608; 72; 646], [647; 649; 648; 650; 651]) (Some (LW 649)) (Some (LW 651))]
   ([651; 289], [653; 652; 654]) 654 682
   [657; 660; 663; 666; 669; 672; 675; 678; 681]
   [([654; 55; 610], [655; 656; 657]); ([654; 587; 614], [658; 659; 660]); ([654; 590; 619], [661; 662; 663]); ([654; 593; 624], [664; 665; 666]); ([654; 596; 629], [667; 668; 669]); ([654; 599; 634], [670; 671; 672]); ([654; 602; 639], [673; 674; 675]); ([654; 605; 644], [676; 677; 678]); ([654; 608; 649], [679; 680; 681])].
Definition udivide64_stage_9 : ustage := UStage
   [Cell ([54; 64], [683; 684]) (Some (LW 683)) (Some (LW 684));
    Cell ([657; 65; 684], [685; 687; 686; 688; 689]) (Some (LW 687)) (Some (LW 689));
    Cell ([660; 66; 689], [690; 692; 691; 693; 694]) (Some (LW 692)) (Some (LW 694));
    Cell ([663; 67; 694], [695; 697; 696; 698; 699]) (Some (LW 697)) (Some (LW 699));
    Cell ([666; 68; 699], [700; 702; 701; 703; 704]) (Some (LW 702)) (Some (LW 704));
    Cell ([669; 69; 704], [705; 707; 706; 708; 709]) (Some (LW 707)) (Some (LW 709));
    Cell ([672; 70; 709], [710; 712; 711; 713; 714]) (Some (LW 712)) (Some (LW 714));
    Cell ([675; 71; 714], [715; 717; 716; 718; 719]) (Some (LW 717)) (Some (LW 719));
    Cell ([678; 72; 719], [720; 722; 721; 723; 724]) (Some (LW 722)) (Some (LW 724));
    Cell ([681; 73; 724], [725; 727; 726; 728; 729]) (Some (LW 727)) (Some (LW 729))]
   ([729; 286], [731; 730; 732]) 732 763
   [735; 738; 741; 744; 747; 750; 753; 756; 759; 762]
   [([732; 54; 683], [733; 734; 735]); ([732; 657; 687], [736; 737; 738]); ([732; 660; 692], [739; 740; 741]); ([732; 663; 697], [742; 743; 744]); ([732; 666; 702], [745; 746; 747]); ([732; 669; 707], [748; 749; 750]); ([732; 672; 712], [751; 752; 753]); ([732; 675; 717], [754; 755; 756]); ([732; 678; 722], [757; 758; 759]); ([732; 681; 727], [760; 761; 762])].
Definition udivide64_stage_10 : ustage := UStage
   [Cell ([53; 64], [764; 765]) (Some (LW 764)) (Some (LW 765));
    Cell ([735; 65; 765], [766; 768; 767; 769; 770]) (Some (LW 768)) (Some (LW 770));
    Cell ([738; 66; 770], [771; 773; 772; 774; 775]) (Some (LW 773)) (Some (LW 775));
    Cell ([741; 67; 775], [776; 778; 777; 779; 780]) (Some (LW 778)) (Some (LW 780));
    Cell ([744; 68; 780], [781; 783; 782; 784; 785]) (Some (LW 783)) (Some (LW 785));
    Cell ([747; 69; 785], [786; 788; 787; 789; 790]) (Some (LW 788)) (Some (LW 790));
    Cell ([750; 70; 790], [791; 793; 792; 794; 795]) (Some (LW 793)) (Some (LW 795));
    Cell ([753; 71; 795], [796; 798; 797; 799; 800]) (Some (LW 798)) (Some (LW 800));
    Cell ([756; 72; 800], [801; 803; 802; 804; 805]) (Some (LW 803)) (Some (LW 805));
    Cell ([759; 73; 805], [806; 808; 807; 809; 810]) (Some (LW 808)) (Some (LW 810));
    Cell ([762; 74; 810], [811; 813; 812; 814; 815]) (Some (LW 813)) (Some (LW 815))]
   ([815; 283], [817; 816; 818]) 818 852
   [821; 824; 827; 830; 833; 836; 839; 842; 845; 848; 851]
   [([818; 53; 764], [819; 820; 821]); ([818; 735; 768], [822; 823; 824]); ([818; 738; 773], [825; 826; 827]); ([818; 741; 778], [828; 829; 830]); ([818; 744; 783], [831; 832; 833]); ([818; 747; 788], [834; 835; 836]); ([818; 750; 793], [837; 838; 839]); ([818; 753; 798], [840; 841; 842]); ([818; 756; 803], [843; 844; 845]); ([818; 759; 808], [846; 847; 848]); ([818; 762; 813], [849; 850; 851])].
Definition udivide64_stage_11 : ustage := UStage
   [Cell ([52; 64], [853; 854]) (Some (LW 853)) (Some (LW 854));
    Cell ([821; 65; 854], [855; 857; 856; 858; 859]) (Some (LW 857)) (Some (LW 859));
    Cell ([824; 66; 859], [860; 862; 861; 863; 864]) (Some (LW 862)) (Some (LW 864));
    Cell ([827; 67; 864], [865; 867; 866; 868; 869]) (Some (LW 867)) (Some (LW 869));
    Cell ([830; 68; 869], [870; 872; 871; 873; 874]) (Some (LW 872)) (Some (LW 874));
    Cell ([833; 69; 874], [875; 877; 876; 878; 879]) (Some (LW 877)) (Some (LW 879));
    Cell ([836; 70; 879], [880; 882; 881; 883; 884]) (Some (LW 882)) (Some (LW 884));
    Cell ([839; 71; 884], [885; 887; 886; 888; 889]) (Some (LW 887)) (Some (LW 889));
    Cell ([842; 72; 889], [890; 892; 891; 893; 894]) (Some (LW 892)) (Some (LW 894));
    Cell ([845; 73; 894], [895; 897; 896; 898; 899]) (Some (LW 897)) (Some (LW 899));
    Cell ([848; 74; 899], [900; 902; 901; 903; 904]) (Some (LW 902)) (Some (LW 904));
    Cell ([851; 75; 904], [905; 907; 906; 908; 909]) (Some (LW 907)) (Some (LW 909))]
   ([909; 280], [911; 910; 912]) 912 949
   [915; 918; 921; 924; 927; 930; 933; 936; 939; 942; 945; 948]
   [([912; 52; 853], [913; 914; 915]); ([912; 821; 857], [916; 917; 918]); ([912; 824; 862], [919; 920; 921]); ([912; 827; 867], [922; 923; 924]); ([912; 830; 872], [925; 926; 927]); ([912; 833; 877], [928; 929; 930]); ([912; 836; 882], [931; 932; 933]); ([912; 839; 887], [934; 935; 936]); ([912; 842; 892], [937; 938; 939]); ([912; 845; 897], [940; 941; 942]); ([912; 848; 902], [943; 944; 945]); ([912; 851; 907], [946; 947; 948])].
Definition udivide64_stage_12 : ustage := UStage
   [Cell ([51; 64], [950; 951]) (Some (LW 950)) (Some (LW 951));
    Cell ([915; 65; 951], [952; 954; 953; 955; 956]) (Some (LW 954)) (Some (LW 956));
    Cell ([918; 66; 956], [957; 959; 958; 960; 961]) (Some (LW 959)) (Some (LW 961));
    Cell ([921; 67; 961], [962; 964; 963; 965; 966]) (Some (LW 964)) (Some (LW 966));
    Cell ([924; 68; 966], [967; 969; 968; 970; 971]) (Some (LW 969)) (Some (LW 971));
    Cell ([927; 69; 971], [972; 974; 973; 975; 976]) (Some (LW 974)) (Some (LW 976));
    Cell ([930; 70; 976], [977; 979; 978; 980; 981]) (Some (LW 979)) (Some (LW 981));
    Cell ([933; 71; 981], [982; 984; 983; 985; 986]) (Some (LW 984)) (Some (LW 986));
    Cell ([936; 72; 986], [987; 989; 988; 990; 991]) (Some (LW 989)) (Some (LW 991));
    Cell ([939; 73; 991], [992; 994; 993; 995; 996]) (Some (LW 994)) (Some (LW 996));
    Cell ([942; 74; 996], [997; 999; 998; 1000; 1001]) (Some (LW 999)) (Some (LW 1001));
    Cell ([945; 75; 1001], [1002; 1004; 1003; 1005; 1006]) (Some (LW 1004)) (Some (LW 1006));
    Cell ([948; 76; 1006], [1007; 1009; 1008; 1010; 1011]) (Some (LW 1009)) (Some (LW 1011))]
   ([1011; 277], [1013; 1012; 1014]) 1014 1054
   [1017; 1020; 1023; 1026; 1029; 1032; 1035; 1038; 1041; 1044; 1047; 1050; 1053]
   [([1014; 51; 950], [1015; 1016; 1017]); ([1014; 915; 954], [1018; 1019; 1020]); ([1014; 918; 959], [1021; 1022; 1023]); ([1014; 921; 964], [1024; 1025; 1026]); ([1014; 924; 969], [1027; 1028; 1029]); ([1014; 927; 974], [1030; 1031; 1032]); ([1014; 930; 979], [1033; 1034; 1035]); ([1014; 933; 984], [1036; 1037; 1038]); ([1014; 936; 989], [1039; 1040; 1041]); ([1014; 939; 994], [1042; 1043; 1044]); ([1014; 942; 999], [1045; 1046; 1047]); ([1014; 945; 1004], [1048; 1049; 1050]); ([1014; 948; 1009], [1051; 1052; 1053])].
Definition udivide64_stage_13 : ustage := UStage
   [Cell ([50; 64], [1055; 1056]) (Some (LW 1055)) (Some (LW 1056));
    Cell ([1017; 65; 1056], [1057; 1059; 1058; 1060; 1061]) (Some (LW 1059)) (Some (LW 1061));
    Cell ([1020; 66; 1061], [1062; 1064; 1063; 1065; 1066]) (Some (LW 1064)) (Some (LW 1066));
    Cell ([1023; 67; 1066], [1067; 1069; 1068; 1070; 1071]) (Some (LW 1069)) (Some (LW 1071));
    Cell ([1026; 68; 1071], [1072; 1074; 1073; 1075; 1076]) (Some (LW 1074)) (Some (LW 1076));
    Cell ([1029; 69; 1076], [1077; 1079; 1078; 1080; 1081]) (Some (LW 1079)) (Some (LW 1081));
    Cell ([1032; 70; 1081], [1082; 1084; 1083; 1085; 1086]) (Some (LW 1084)) (Some (LW 1086));
    Cell ([1035; 71; 1086], [1087; 1089; 1088; 1090; 1091]) (Some (LW 1089)) (Some (LW 1091));
    Cell ([1038; 72; 1091], [1092; 1094; 1093; 1095; 1096]) (Some (LW 1094)) (Some (LW 1096));
    Cell ([1041; 73; 1096], [1097; 1099; 1098; 1100; 1101]) (Some (LW 1099)) (Some (LW 1101));
    Cell ([1044; 74; 1101], [1102; 1104; 1103; 1105; 1106]) (Some (LW 1104)) (Some (LW 1106));
    Cell ([1047; 75; 1106], [1107; 1109; 1108; 1110; 1111]) (Some (LW 1109)) (Some (LW 1111));
    Cell ([1050; 76; 1111], [1112; 1114; 1113; 1115; 1116]) (Some (LW 1114)) (Some (LW 1116));
    Cell ([1053; 77; 1116], [1117; 1119; 1118; 1120; 1121]) (Some (LW 1119)) (Some (LW 1121))]
   ([1121; 274], [1123; 1122; 1124]) 1124 1167
   [1127; 1130; 1133; 1136; 1139; 1142; 1145; 1148; 1151; 1154; 1157; 1160; 1163; 1166]
   [([1124; 50; 1055], [1125; 1126; 1127]); ([1124; 1017; 1059], [1128; 1129; 1130]); ([1124; 1020; 1064], [1131; 1132; 1133]); ([1124; 1023; 1069], [1134; 1135; 1136]); ([1124; 1026; 1074], [1137; 1138; 1139]); ([1124; 1029; 1079], [1140; 1141; 1142]); ([1124; 1032; 1084], [1143; 1144; 1145]); ([1124; 1035; 1089], [1146; 1147; 1148]); ([1124; 1038; 1094], [1149; 1150; 1151]); ([1124; 1041; 1099], [1152; 1153; 1154]); ([1124; 1044; 1104], [1155; 1156; 1157]); ([1124; 1047; 1109], [1158; 1159; 1160]); ([1124; 1050; 1114], [1161; 1162; 1163]); ([1124; 1053; 1119], [1164; 1165; 1166])].
Definition udivide64_stage_14 : ustage := UStage
   [Cell ([49; 64], [1168; 1169]) (Some (LW 1168)) (Some (LW 1169));
    Cell ([1127; 65; 1169], [1170; 1172; 1171; 1173; 1174]) (Some (LW 1172)) (Some (LW 1174));
    Cell ([1130; 66; 1174], [1175; 1177; 1176; 1178; 1179]) (Some (LW 1177)) (Some (LW 1179));
    Cell ([1133; 67; 1179], [1180; 1182; 1181; 1183; 1184]) (Some (LW 1182)) (Some (LW 1184));
    Cell ([1136; 68; 1184], [1185; 1187; 1186; 1188; 1189]) (Some (LW 1187)) (Some (LW 1189));
    Cell ([1139; 69; 1189], [1190; 1192; 1191; 1193; 1194]) (Some (LW 1192)) (Some (LW 1194));
    Cell ([1142; 70; 1194], [1195; 1197; 1196; 1198; 1199]) (Some (LW 1197)) (Some (LW 1199));
    Cell ([1145; 71; 1199], [1200; 1202; 1201; 1203; 1204]) (Some (LW 1202)) (Some (LW 1204));
    Cell ([1148; 72; 1204], [1205; 1207; 1206; 1208; 1209]) (Some (LW 1207)) (Some (LW 1209));
    Cell ([1151; 73; 1209], [1210; 1212; 1211; 1213; 1214]) (Some (LW 1212)) (Some (LW 1214));
    Cell ([1154; 74; 1214], [1215; 1217; 1216; 1218; 1219]) (Some (LW 1217)) (Some (LW 1219));
    Cell ([1157; 75; 1219], [1220; 1222; 1221; 1223; 1224]) (Some (LW 1222)) (Some (LW 1224));
    Cell ([1160; 76; 1224], [1225; 1227; 1226; 1228; 1229]) (Some (LW 1227)) (Some (LW 1229));
    Cell ([1163; 77; 1229], [1230; 1232; 1231; 1233; 1234]) (Some (LW 1232)) (Some (LW 1234));
    Cell ([1166; 78; 1234], [1235; 1237; 1236; 1238; 1239]) (Some (LW 1237)) (Some (LW 1239))]
   ([1239; 271], [1241; 1240; 1242]) 1242 1288
   [1245; 1248; 1251; 1254; 1257; 1260; 1263; 1266; 1269; 1272; 1275; 1278; 1281; 1284; 1287]
   [([1242; 49; 1168], [1243; 1244; 1245]); ([1242; 1127; 1172], [1246; 1247; 1248]); ([1242; 1130; 1177], [1249; 1250; 1251]); ([1242; 1133; 1182], [1252; 1253; 1254]); ([1242; 1136; 1187], [1255; 1256; 1257]); ([1242; 1139; 1192], [1258; 1259; 1260]); ([1242; 1142; 1197], [1261; 1262; 1263]); ([1242; 1145; 1202], [1264; 1265; 1266]); ([1242; 1148; 1207], [1267; 1268; 1269]); ([1242; 1151; 1212], [1270; 1271; 1272]); ([1242; 1154; 1217], [1273; 1274; 1275]); ([1242; 1157; 1222], [1276; 1277; 1278]); ([1242; 1160; 1227], [1279; 1280; 1281]); ([1242; 1163; 1232], [1282; 1283; 1284]); ([1242; 1166; 1237], [1285; 1286; 1287])].
Definition udivide64_stage_15 : ustage := UStage
   [Cell ([48; 64], [1289; 1290]) (Some (LW 1289)) (Some (LW 1290));
    Cell ([1245; 65; 1290], [1291; 1293; 1292; 1294; 1295]) (Some (LW 1293)) (Some (LW 1295));
    Cell ([1248; 66; 1295], [1296; 1298; 1297; 1299; 1300]) (Some (LW 1298)) (Some (LW 1300));
    Cell ([1251; 67; 1300], [1301; 1303; 1302; 1304; 1305]) (Some (LW 1303)) (Some (LW 1305));
    Cell ([1254; 68; 1305], [1306; 1308; 1307; 1309; 1310]) (Some (LW 1308)) (Some (LW 1310));
    Cell ([1257; 69; 1310], [1311; 1313; 1312; 1314; 1315]) (Some (LW 1313)) (Some (LW 1315));
    Cell ([1260; 70; 1315], [1316; 1318; 1317; 1319; 1320]) (Some (LW 1318)) (Some (LW 1320));
    Cell ([1263; 71; 1320], [1321; 1323; 1322; 1324; 1325]) (Some (LW 1323)) (Some (LW 1325));
    Cell ([1266; 72; 1325], [1326; 1328; 1327; 1329; 1330]) (Some (LW 1328)) (Some (LW 1330));
    Cell ([1269; 73; 1330], [1331; 1333; 1332; 1334; 1335]) (Some (LW 1333)) (Some (LW 1335));
    Cell ([1272; 74; 1335], [1336; 1338; 1337; 1339; 1340]) (Some (LW 1338)) (Some (LW 1340));
    Cell ([1275; 75; 1340], [1341; 1343; 1342; 1344; 1345]) (Some (LW 1343)) (Some (LW 1345));
    Cell ([1278; 76; 1345], [1346; 1348; 1347; 1349; 1350]) (Some (LW 1348)) (Some (LW 1350));
    Cell ([1281; 77; 1350], [1351; 1353; 1352; 1354; 1355]) (Some (LW 1353)) (Some (LW 1355));
    Cell ([1284; 78; 1355], [1356; 1358; 1357; 1359; 1360]) (Some (LW 1358)) (Some (LW 1360));
    Cell ([1287; 79; 1360], [1361; 1363; 1362; 1364; 1365]) (Some (LW 1363)) (Some (LW 1365))]
   ([1365; 268], [1367; 1366; 1368]) 1368 1417
   [1371; 1374; 1377; 1380; 1383; 1386; 1389; 1392; 1395; 1398; 1401; 1404; 1407; 1410; 1413; 1416]
   [([1368; 48; 1289], [1369; 1370; 1371]); ([1368; 1245; 1293], [1372; 1373; 1374]); ([1368; 1248; 1298], [1375; 1376; 1377]); ([1368; 1251; 1303], [1378; 1379; 1380]); ([1368; 1254; 1308], [1381; 1382; 1383]); ([1368; 1257; 1313], [1384; 1385; 1386]); ([1368; 1260; 1318], [1387; 1388; 1389]); ([1368; 1263; 1323], [1390; 1391; 1392]); ([1368; 1266; 1328], [1393; 1394; 1395]); ([1368; 1269; 1333], [1396; 1397; 1398]); ([1368; 1272; 1338], [1399; 1400; 1401]); ([1368; 1275; 1343], [1402; 1403; 1404]); ([1368; 1278; 1348], [1405; 1406; 1407]); ([1368; 1281; 1353], [1408; 1409; 1410]); ([1368; 1284; 1358], [1411; 1412; 1413]); ([1368; 1287; 1363], [1414; 1415; 1416])].
Definition udivide64_stage_16 : ustage := UStage
   [Cell ([47; 64], [1418; 1419]) (Some (LW 1418)) (Some (LW 1419));
    Cell ([1371; 65; 1419], [1420; 1422; 1421; 1423; 1424]) (Some (LW 1422)) (Some (LW 1424));
    Cell ([1374; 66; 1424], [1425; 1427; 1426; 1428; 1429]) (Some (LW 1427)) (Some (LW 1429));
    Cell ([1377; 67; 1429], [1430; 1432; 1431; 1433; 1434]) (Some (LW 1432)) (Some (LW 1434));
    Cell ([1380; 68; 1434], [1435; 1437; 1436; 1438; 1439]) (Some (LW 1437)) (Some (LW 1439));
    Cell ([1383; 69; 1439], [1440; 1442; 1441; 1443; 1444]) (Some (LW 1442)) (Some (LW 1444));
    Cell ([1386; 70; 1444], [1445; 1447; 1446; 1448; 1449]) (Some (LW 1447)) (Some (LW 1449));
    Cell ([1389; 71; 1449], [1450; 1452; 1451; 1453; 1454]) (Some (LW 1452)) (Some (LW 1454));
    Cell ([1392; 72; 1454], [1455; 1457; 1456; 1458; 1459]) (Some (LW 1457)) (Some (LW 1459));
    Cell ([1395; 73; 1459], [1460; 1462; 1461; 1463; 1464]) (Some (LW 1462)) (Some (LW 1464));
    Cell ([1398; 74; 1464], [1465; 1467; 1466; 1468; 1469]) (Some (LW 1467)) (Some (LW 1469));
    Cell ([1401; 75; 1469], [1470; 1472; 1471; 1473; 1474]) (Some (LW 1472)) (Some (LW 1474));
    Cell ([1404; 76; 1474], [1475; 1477; 1476; 1478; 1479]) (Some (LW 1477)) (Some (LW 1479));
    Cell ([1407; 77; 1479], [1480; 1482; 1481; 1483; 1484]) (Some (LW 1482)) (Some (LW 1484));
    Cell ([1410; 78; 1484], [1485; 1487; 1486; 1488; 1489]) (Some (LW 1487)) (Some (LW 1489));
    Cell ([1413; 79; 1489], [1490; 1492; 1491; 1493; 1494]) (Some (LW 1492)) (Some (LW 1494));
    Cell ([1416; 80; 1494], [1495; 1497; 1496; 1498; 1499]) (Some (LW 1497)) (Some (LW 1499))]
   ([1499; 265], [1501; 1500; 1502]) 1502 1554
   [1505; 1508; 1511; 1514; 1517; 1520; 1523; 1526; 1529; 1532; 1535; 1538; 1541; 1544; 1547; 1550; 1553]
   [([1502; 47; 1418], [1503; 1504; 1505]); ([1502; 1371; 1422], [1506; 1507; 1508]); ([1502; 1374; 1427], [1509; 1510; 1511]); ([1502; 1377; 1432], [1512; 1513; 1514]); ([1502; 1380; 1437], [1515; 1516; 1517]); ([1502; 1383; 1442], [1518; 1519; 1520]); ([1502; 1386; 1447], [1521; 1522; 1523]); ([1502; 1389; 1452], [1524; 1525; 1526]); ([1502; 1392; 1457], [1527; 1528; 1529]); ([1502; 1395; 1462], [1530; 1531; 1532]); ([1502; 1398; 1467], [1533; 1534; 1535]); ([1502; 1401; 1472], [1536; 1537; 1538]); ([1502; 1404; 1477], [1539; 1540; 1541]); ([1502; 1407; 1482], [1542; 1543; 1544]); ([1502; 1410; 1487], [1545; 1546; 1547]); ([1502; 1413; 1492], [1548; 1549; 1550]); ([1502; 1416; 1497], [1551; 1552; 1553])].
Definition udivide64_stage_17 : ustage := UStage
   [Cell ([46; 64], [1555; 1556]) (Some (LW 1555)) (Some (LW 1556));
    Cell ([1505; 65; 1556], [1557; 1559; 1558; 1560; 1561]) (Some (LW 1559)) (Some (LW 1561));
    Cell ([1508; 66; 1561], [1562; 1564; 1563; 1565; 1566]) (Some (LW 1564)) (Some (LW 1566));
    Cell ([1511; 67; 1566], [1567; 1569; 1568; 1570; 1571]) (Some (LW 1569)) (Some (LW 1571));
    Cell ([1514; 68; 1571], [1572; 1574; 1573; 1575; 1576]) (Some (LW 1574)) (Some (LW 1576));
    Cell ([1517; 69; 1576], [1577; 1579; 1578; 1580; 1581]) (Some (LW 1579)) (Some (LW 1581));
    Cell ([1520; 70; 1581], [1582; 1584; 1583; 1585; 1586]) (Some (LW 1584)) (Some (LW 1586));
    Cell ([1523; 71; 1586], [1587; 1589; 1588; 1590; 1591]) (Some (LW 1589)) (Some (LW 1591));
    Cell ([1526; 72; 1591], [1592; 1594; 1593; 1595; 1596]) (Some (LW 1594)) (Some (LW 1596));
    Cell ([1529; 73; 1596], [1597; 1599; 1598; 1600; 1601]) (Some (LW 1599)) (Some (LW 1601));
    Cell ([1532; 74; 1601], [1602; 1604; 1603; 1605; 1606]) (Some (LW 1604)) (Some (LW 1606));
    Cell ([1535; 75; 1606], [1607; 1609; 1608; 1610; 1611]) (Some (LW 1609)) (Some (LW 1611));
    Cell ([1538; 76; 1611], [1612; 1614; 1613; 1615; 1616]) (Some (LW 1614)) (Some (LW 1616));
    Cell ([1541; 77; 1616], [1617; 1619; 1618; 1620; 1621]) (Some (LW 1619)) (Some (LW 1621));
    Cell ([1544; 78; 1621], [1622; 1624; 1623; 1625; 1626]) (Some (LW 1624)) (Some (LW 1626));
    Cell ([1547; 79; 1626], [1627; 1629; 1628; 1630; 1631]) (Some (LW 1629)) (Some (LW 1631));
    Cell ([1550; 80; 1631], [1632; 1634; 1633; 1635; 1636]) (Some (LW 1634)) (Some (LW 1636));
    Cell ([1553; 81; 1636], [1637; 1639; 1638; 1640; 1641]) (Some (LW 1639)) (Some (LW 1641))]
   ([1641; 262], [1643; 1642; 1644]) 1644 1699
   [1647; 1650; 1653; 1656; 1659; 1662; 1665; 1668; 1671; 1674; 1677; 1680; 1683; 1686; 1689; 1692; 1695; 1698]
   [([1644; 46; 1555], [1645; 1646; 1647]); ([1644; 1505; 1559], [1648; 1649; 1650]); ([1644; 1508; 1564], [1651; 1652; 1653]); ([1644; 1511; 1569], [1654; 1655; 1656]); ([1644; 1514; 1574], [1657; 1658; 1659]); ([1644; 1517; 1579], [1660; 1661; 1662]); ([1644; 1520; 1584], [1663; 1664; 1665]); ([1644; 1523; 1589], [1666; 1667; 1668]); ([1644; 1526; 1594], [1669; 1670; 1671]); ([1644; 1529; 1599], [1672; 1673; 1674]); ([1644; 1532; 1604], [1675; 1676; 1677]); ([1644; 1535; 1609], [1678; 1679; 1680]); ([1644; 1538; 1614], [1681; 1682; 1683]); ([1644; 1541; 1619], [1684; 1685; 1686]); ([1644; 1544; 1624], [1687; 1688; 1689]); ([1644; 1547; 1629], [1690; 1691; 1692]); ([1644; 1550; 1634], [1693; 1694; 1695]); ([1644; 1553; 1639], [1696; 1697; 1698])].
Definition udivide64_stage_18 : ustage := UStage
   [Cell ([45; 64], [1700; 1701]) (Some (LW 1700)) (Some (LW 1701));
    Cell ([1647; 65; 1701], [1702; 1704; 1703; 1705; 1706]) (Some (LW 1704)) (Some (LW 1706));
    Cell ([1650; 66; 1706], [1707; 1709; 1708; 1710; 1711]) (Some (LW 1709)) (Some (LW 1711));
    Cell ([1653; 67; 1711], [1712; 1714; 1713; 1715; 1716]) (Some (LW 1714)) (Some (LW 1716));
    Cell ([1656; 68; 1716], [1717; 1719; 1718; 1720; 1721]) (Some (LW 1719)) (Some (LW 1721));
    Cell ([1659; 69; 1721], [1722; 1724; 1723; 1725; 1726]) (Some (LW 1724)) (Some (LW 1726));
    Cell ([1662; 70; 1726], [1727; 1729; 1728; 1730; 1731]) (Some (LW 1729)) (Some (LW 1731));
    Cell ([1665; 71; 1731], [1732; 1734; 1733; 1735; 1736]) (Some (LW 1734)) (Some (LW 1736));
    Cell ([1668; 72; 1736], [1737; 1739; 1738; 1740; 1741]) (Some (LW 1739)) (Some (LW 1741));
    Cell ([1671; 73; 1741], [1742; 1744; 1743; 1745; 1746]) (Some (LW 1744)) (Some (LW 1746));
    Cell ([1674; 74; 1746], [1747; 1749; 1748; 1750; 1751]) (Some (LW 1749)) (Some (LW 1751));
    Cell ([1677; 75; 1751], [1752; 1754; 1753; 1755; 1756]) (Some (LW 1754)) (Some (LW 1756));
    Cell ([1680; 76; 1756], [1757; 1759; 1758; 1760; 1761]) (Some (LW 1759)) (Some (LW 1761));
    Cell ([1683; 77; 1761], [1762; 1764; 1763; 1765; 1766]) (Some (LW 1764)) (Some (LW 1766));
    Cell ([1686; 78; 1766], [1767; 1769; 1768; 1770; 1771]) (Some (LW 1769)) (Some (LW 1771));
    Cell ([1689; 79; 1771], [1772; 1774; 1773; 1775; 1776]) (Some (LW 1774)) (Some (LW 1776));
    Cell ([1692; 80; 1776], [1777; 1779; 1778; 1780; 1781]) (Some (LW 1779)) (Some (LW 1781));
    Cell ([1695; 81; 1781], [1782; 1784; 1783; 1785; 1786]) (Some (LW 1784)) (Some (LW 1786));
    Cell ([1698; 82; 1786], [1787; 1789; 1788; 1790; 1791]) (Some (LW 1789)) (Some (LW 1791))]
   ([1791; 259], [1793; 1792; 1794]) 1794 1852
   [1797; 1800; 1803; 1806; 1809; 1812; 1815; 1818; 1821; 1824; 1827; 1830; 1833; 1836; 1839; 1842; 1845; 1848; 1851]
   [([1794; 45; 1700], [1795; 1796; 1797]); ([1794; 1647; 1704], [1798; 1799; 1800]); ([1794; 1650; 1709], [1801; 1802; 1803]); ([1794; 1653; 1714], [1804; 1805; 1806]); ([1794; 1656; 1719], [1807; 1808; 1809]); ([1794; 1659; 1724], [1810; 1811; 1812]); ([1794; 1662; 1729], [1813; 1814; 1815]); ([1794; 1665; 1734], [1816; 1817; 1818]); ([1794; 1668; 1739], [1819; 1820; 1821]); ([1794; 1671; 1744], [1822; 1823; 1824]); ([1794; 1674; 1749], [1825; 1826; 1827]); ([1794; 1677; 1754], [1828; 1829; 1830]); ([1794; 1680; 1759], [1831; 1832; 1833]); ([1794; 1683; 1764], [1834; 1835; 1836]); ([1794; 1686; 1769], [1837; 1838; 1839]); ([1794; 1689; 1774], [1840; 1841; 1842]); ([1794; 1692; 1779], [1843; 1844; 1845]); ([1794; 1695; 1784], [1846; 1847; 1848]); ([1794; 1698; 1789], [1849; 1850; 1851])].
Definition udivide64_stage_19 : ustage := UStage
   [Cell ([44; 64], [1853; 1854]) (Some (LW 1853)) (Some (LW 1854));
    Cell ([1797; 65; 1854], [1855; 1857; 1856; 1858; 1859]) (Some (LW 1857)) (Some (LW 1859));
    Cell ([1800; 66; 1859], [1860; 1862; 1861; 1863; 1864]) (Some (LW 1862)) (Some (LW 1864));
    Cell ([1803; 67; 1864], [1865; 1867; 1866; 1868; 1869]) (Some (LW 1867)) (Some (LW 1869));
    Cell ([1806; 68; 1869], [1870; 1872; 1871; 1873; 1874]) (Some (LW 1872)) (Some (LW 1874));
    Cell ([1809; 69; 1874], [1875; 1877; 1876; 1878; 1879]) (Some (LW 1877)) (Some (LW 1879));
    Cell ([1812; 70; 1879], [1880; 1882; 1881; 1883; 1884]) (Some (LW 1882)) (Some (LW 1884));
    Cell ([1815; 71; 1884], [1885; 1887; 1886; 1888; 1889]) (Some (LW 1887)) (Some (LW 1889));
    Cell ([1818; 72; 1889], [1890; 1892; 1891; 1893; 1894]) (Some (LW 1892)) (Some (LW 1894));
    Cell ([1821; 73; 1894], [1895; 1897; 1896; 1898; 1899]) (Some (LW 1897)) (Some (LW 1899));
    Cell ([1824; 74; 1899], [1900; 1902; 1901; 1903; 1904]) (Some (LW 1902)) (Some (LW 1904));
    Cell ([1827; 75; 1904], [1905; 1907; 1906; 1908; 1909]) (Some (LW 1907)) (Some (LW 1909));
    Cell ([1830; 76; 1909], [1910; 1912; 1911; 1913; 1914]) (Some (LW 1912)) (Some (LW 1914));
    Cell ([1833; 77; 1914], [1915; 1917; 1916; 1918; 1919]) (Some (LW 1917)) (Some (LW 1919));
    Cell ([1836; 78; 1919], [1920; 1922; 1921; 1923; 1924]) (Some (LW 1922)) (Some (LW 1924));
    Cell ([1839; 79; 1924], [1925; 1927; 1926; 1928; 1929]) (Some (LW 1927)) (Some (LW 1929));
    Cell ([1842; 80; 1929], [1930; 1932; 1931; 1933; 1934]) (Some (LW 1932)) (Some (LW 1934));
    Cell ([1845; 81; 1934], [1935; 1937; 1936; 1938; 1939]) (Some (LW 1937)) (Some (LW 1939));
    Cell ([1848; 82; 1939], [1940; 1942; 1941; 1943; 1944]) (Some (LW 1942)) (Some (LW 1944));
    Cell ([1851; 83; 1944], [1945; 1947; 1946; 1948; 1949]) (Some (LW 1947)) (Some (LW 1949))]
   ([1949; 256], [1951; 1950; 1952]) 1952 2013
   [1955; 1958; 1961; 1964; 1967; 1970; 1973; 1976; 1979; 1982; 1985; 1988; 1991; 1994; 1997; 2000; 2003; 2006; 2009; 2012]
   [([1952; 44; 1853], [1953; 1954; 1955]); ([1952; 1797; 1857], [1956; 1957; 1958]); ([1952; 1800; 1862], [1959; 1960; 1961]); ([1952; 1803; 1867], [1962; 1963; 1964]); ([1952; 1806; 1872], [1965; 1966; 1967]); ([1952; 1809; 1877], [1968; 1969; 1970]); ([1952; 1812; 1882], [1971; 1972; 1973]); ([1952; 1815; 1887], [1974; 1975; 1976]); ([1952; 1818; 1892], [1977; 1978; 1979]); ([1952; 1821; 1897], [1980; 1981; 1982]); ([1952; 1824; 1902], [1983; 1984; 1985]); ([1952; 1827; 1907], [1986; 1987; 1988]); ([1952; 1830; 1912], [1989; 1990; 1991]); ([1952; 1833; 1917], [1992; 1993; 1994]); ([1952; 1836; 1922], [1995; 1996; 1997]); ([1952; 1839; 1927], [1998; 1999; 2000]); ([1952; 1842; 1932], [2001; 2002; 2003]); ([1952; 1845; 1937], [2004; 2005; 2006]); ([1952; 1848; 1942], [2007; 2008; 2009]); ([1952; 1851; 1947], [2010; 2011; 2012])].
Definition udivide64_stage_20 : ustage := UStage
   [Cell ([43; 64], [2014; 2015]) (Some (LW 2014)) (Some (LW 2015));
    Cell ([1955; 65; 2015], [2016; 2018; 2017; 2019; 2020]) (Some (LW 2018)) (Some (LW 2020));
    Cell ([1958; 66; 2020], [2021; 2023; 2022; 2024; 2025]) (Some (LW 2023)) (Some (LW 2025));
    Cell ([1961; 67; 2025], [2026; 2028; 2027; 2029; 2030]) (Some (LW 2028)) (Some (LW 2030));
    Cell ([1964; 68; 2030], [2031; 2033; 2032; 2034; 2035]) (Some (LW 2033)) (Some (LW 2035));
    Cell ([1967; 69; 2035], [2036; 2038; 2037; 2039; 2040]) (Some (LW 2038)) (Some (LW 2040));
    Cell ([1970; 70; 2040], [2041; 2043; 2042; 2044; 2045]) (Some (LW 2043)) (Some (LW 2045));
    Cell ([1973; 71; 2045], [2046; 2048; 2047; 2049; 2050]) (Some (LW 2048)) (Some (LW 2050));
    Cell ([1976; 72; 2050], [2051; 2053; 2052; 2054; 2055]) (Some (LW 2053)) (Some (LW 2055));
    Cell ([1979; 73; 2055], [2056; 2058; 2057; 2059; 2060]) (Some (LW 2058)) (Some (LW 2060));
    Cell ([1982; 74; 2060], [2061; 2063; 2062; 2064; 2065]) (Some (LW 2063)) (Some (LW 2065));
    Cell ([1985; 75; 2065], [2066; 2068; 2067; 2069; 2070]) (Some (LW 2068)) (Some (LW 2070));
    Cell ([1988; 76; 2070], [2071; 2073; 2072; 2074; 2075]) (Some (LW 2073)) (Some (LW 2075));
    Cell ([1991; 77; 2075], [2076; 2078; 2077; 2079; 2080]) (Some (LW 2078)) (Some (LW 2080));
    Cell ([1994; 78; 2080], [2081; 2083; 2082; 2084; 2085]) (Some (LW 2083)) (Some (LW 2085));
    Cell ([1997; 79; 2085], [2086; 2088; 2087; 2089; 2090]) (Some (LW 2088)) (Some (LW 2090));
    Cell ([2000; 80; 2090], [2091; 2093; 2092; 2094; 2095]) (Some (LW 2093)) (Some (LW 2095));
    Cell ([2003; 81; 2095], [2096; 2098; 2097; 2099; 2100]) (Some (LW 2098)) (Some (LW 2100));
    Cell ([2006; 82; 2100], [2101; 2103; 2102; 2104; 2105]) (Some (LW 2103)) (Some (LW 2105));
    Cell ([2009; 83; 2105], [2106; 2108; 2107; 2109; 2110]) (Some (LW 2108)) (Some (LW 2110));
    Cell ([2012; 84; 2110], [2111; 2113; 2112; 2114; 2115]) (Some (LW 2113)) (Some (LW 2115))]
   ([2115; 253], [2117; 2116; 2118]) 2118 2182
   [2121; 2124; 2127; 2130; 2133; 2136; 2139; 2142; 2145; 2148; 2151; 2154; 2157; 2160; 2163; 2166; 2169; 2172; 2175; 2178; 2181]
   [([2118; 43; 2014], [2119; 2120; 2121]); ([2118; 1955; 2018], [2122; 2123; 2124]); ([2118; 1958; 2023], [2125; 2126; 2127]); ([2118; 1961; 2028], [2128; 2129; 2130]); ([2118; 1964; 2033], [2131; 2132; 2133]); ([2118; 1967; 2038], [2134; 2135; 2136]); ([2118; 1970; 2043], [2137; 2138; 2139]); ([2118; 1973; 2048], [2140; 2141; 2142]); ([2118; 1976; 2053], [2143; 2144; 2145]); ([2118; 1979; 2058], [2146; 2147; 2148]); ([2118; 1982; 2063], [2149; 2150; 2151]); ([2118; 1985; 2068], [2152; 2153; 2154]); ([2118; 1988; 2073], [2155; 2156; 2157]); ([2118; 1991; 2078], [2158; 2159; 2160]); ([2118; 1994; 2083], [2161; 2162; 2163]); ([2118; 1997; 2088], [2164; 2165; 2166]); ([2118; 2000; 2093], [2167; 2168; 2169]); ([2118; 2003; 2098], [2170; 2171; 2172]); ([2118; 2006; 2103], [2173; 2174; 2175]); ([2118; 2009; 2108], [2176; 2177; 2178]); ([2118; 2012; 2113], [2179; 2180; 2181])].
Definition udivide64_stage_21 : ustage := UStage
   [Cell ([42; 64], [2183; 2184]) (Some (LW 2183)) (Some (LW 2184));
    Cell ([2121; 65; 2184], [2185; 2187; 2186; 2188; 2189]) (Some (LW 2187)) (Some (LW 2189));
    Cell ([2124; 66; 2189], [2190; 2192; 2191; 2193; 2194]) (Some (LW 2192)) (Some (LW 2194));
    Cell ([2127; 67; 2194], [2195; 2197; 2196; 2198; 2199]) (Some (LW 2197)) (Some (LW 2199));
    Cell ([2130; 68; 2199], [2200; 2202; 2201; 2203; 2204]) (Some (LW 2202)) (Some (LW 2204));
    Cell ([2133; 69; 2204], [2205; 2207; 2206; 2208; 2209]) (Some (LW 2207)) (Some (LW 2209));
    Cell ([2136; 70; 2209], [2210; 2212; 2211; 2213; 2214]) (Some (LW 2212)) (Some (LW 2214));
    Cell ([2139; 71; 2214], [2215; 2217; 2216; 2218; 2219]) (Some (LW 2217)) (Some (LW 2219));
    Cell ([2142; 72; 2219], [2220; 2222; 2221; 2223; 2224]) (Some (LW 2222)) (Some (LW 2224));
    Cell ([2145; 73; 2224], [2225; 2227; 2226; 2228; 2229]) (Some (LW 2227)) (Some (LW 2229));
    Cell ([2148; 74; 2229], [2230; 2232; 2231; 2233; 2234]) (Some (LW 2232)) (Some (LW 2234));
    Cell ([2151; 75; 2234], [2235; 2237; 2236; 2238; 2239]) (Some (LW 2237)) (Some (LW 2239));
    Cell ([2154; 76; 2239], [2240; 2242; 2241; 2243; 2244]) (Some (LW 2242)) (Some (LW 2244));
    Cell ([2157; 77; 2244], [2245; 2247; 2246; 2248; 2249]) (Some (LW 2247)) (Some (LW 2249));
    Cell ([2160; 78; 2249], [2250; 2252; 2251; 2253; 2254]) (Some (LW 2252)) (Some (LW 2254));
    Cell ([2163; 79; 2254], [2255; 2257; 2256; 2258; 2259]) (Some (LW 2257)) (Some (LW 2259));
    Cell ([2166; 80; 2259], [2260; 2262; 2261; 2263; 2264]) (Some (LW 2262)) (Some (LW 2264));
    Cell ([2169; 81; 2264], [2265; 2267; 2266; 2268; 2269]) (Some (LW 2267)) (Some (LW 2269));
    Cell ([2172; 82; 2269], [2270; 2272; 2271; 2273; 2274]) (Some (LW 2272)) (Some (LW 2274));
    Cell ([2175; 83; 2274], [2275; 2277; 2276; 2278; 2279]) (Some (LW 2277)) (Some (LW 2279));
    Cell ([2178; 84; 2279], [2280; 2282; 2281; 2283; 2284]) (Some (LW 2282)) (Some (LW 2284));
    Cell ([2181; 85; 2284], [2285; 2287; 2286; 2288; 2289]) (Some (LW 2287)) (Some (LW 2289))]
   ([2289; 250], [2291; 2290; 2292]) 2292 2359
   [2295; 2298; 2301; 2304; 2307; 2310; 2313; 2316; 2319; 2322; 2325; 2328; 2331; 2334; 2337; 2340; 2343; 2346; 2349; 2352; 2355; 2358]
   [([2292; 42; 2183], [2293; 2294; 2295]); ([2292; 2121; 2187], [2296; 2297; 2298]); ([2292; 2124; 2192], [2299; 2300; 2301]); ([2292; 2127; 2197], [2302; 2303; 2304]); ([2292; 2130; 2202], [2305; 2306; 2307]); ([2292; 2133; 2207], [2308; 2309; 2310]); ([2292; 2136; 2212], [2311; 2312; 2313]); ([2292; 2139; 2217], [2314; 2315; 2316]); ([2292; 2142; 2222], [2317; 2318; 2319]); ([2292; 2145; 2227], [2320; 2321; 2322]); ([2292; 2148; 2232], [2323; 2324; 2325]); ([2292; 2151; 2237], [2326; 2327; 2328]); ([2292; 2154; 2242], [2329; 2330; 2331]); ([2292; 2157; 2247], [2332; 2333; 2334]); ([2292; 2160; 2252], [2335; 2336; 2337]); ([2292; 2163; 2257], [2338; 2339; 2340]); ([2292; 2166; 2262], [2341; 2342; 2343]); ([2292; 2169; 2267], [2344; 2345; 2346]); ([2292; 2172; 2272], [2347; 2348; 2349]); ([2292; 2175; 2277], [2350; 2351; 2352]); ([2292; 2178; 2282], [2353; 2354; 2355]); ([2292; 2181; 2287], [2356; 2357; 2358])].
Definition udivide64_stage_22 : ustage := UStage
   [Cell ([41; 64], [2360; 2361]) (Some (LW 2360)) (Some (LW 2361));
    Cell ([2295; 65; 2361], [2362; 2364; 2363; 2365; 2366]) (Some (LW 2364)) (Some (LW 2366));
    Cell ([2298; 66; 2366], [2367; 2369; 2368; 2370; 2371]) (Some (LW 2369)) (Some (LW 2371));
    Cell ([2301; 67; 2371], [2372; 2374; 2373; 2375; 2376]) (Some (LW 2374)) (Some (LW 2376));
    Cell ([2304; 68; 2376], [2377; 2379; 2378; 2380; 2381]) (Some (LW 2379)) (Some (LW 2381));
    Cell ([2307; 69; 2381], [2382; 2384; 2383; 2385; 2386]) (Some (LW 2384)) (Some (LW 2386));
    Cell ([2310; 70; 2386], [2387; 2389; 2388; 2390; 2391]) (Some (LW 2389)) (Some (LW 2391));
    Cell ([2313; 71; 2391], [2392; 2394; 2393; 2395; 2396]) (Some (LW 2394)) (Some (LW 2396));
    Cell ([2316; 72; 2396], [2397; 2399; 2398; 2400; 2401]) (Some (LW 2399)) (Some (LW 2401));
    Cell ([2319; 73; 2401], [2402; 2404; 2403; 2405; 2406]) (Some (LW 2404)) (Some (LW 2406));
    Cell ([2322; 74; 2406], [2407; 2409; 2408; 2410; 2411]) (Some (LW 2409)) (Some (LW 2411));
    Cell ([2325; 75; 2411], [2412; 2414; 2413; 2415; 2416]) (Some (LW 2414)) (Some (LW 2416));
    Cell ([2328; 76; 2416], [2417; 2419; 2418; 2420; 2421]) (Some (LW 2419)) (Some (LW 2421));
    Cell ([2331; 77; 2421], [2422; 2424; 2423; 2425; 2426]) (Some (LW 2424)) (Some (LW 2426));
    Cell ([2334; 78; 2426], [2427; 2429; 2428; 2430; 2431]) (Some (LW 2429)) (Some (LW 2431));
    Cell ([2337; 79; 2431], [2432; 2434; 2433; 2435; 2436]) (Some (LW 2434)) (Some (LW 2436));
    Cell ([2340; 80; 2436], [2437; 2439; 2438; 2440; 2441]) (Some (LW 2439)) (Some (LW 2441));
    Cell ([2343; 81; 2441], [2442; 2444; 2443; 2445; 2446]) (Some (LW 2444)) (Some (LW 2446));
    Cell ([2346; 82; 2446], [2447; 2449; 2448; 2450; 2451]) (Some (LW 2449)) (Some (LW 2451));
    Cell ([2349; 83; 2451], [2452; 2454; 2453; 2455; 2456]) (Some (LW 2454)) (Some (LW 2456));
    Cell ([2352; 84; 2456], [2457; 2459; 2458; 2460; 2461]) (Some (LW 2459)) (Some (LW 2461));
    Cell ([2355; 85; 2461], [2462; 2464; 2463; 2465; 2466]) (Some (LW 2464)) (Some (LW 2466));
    Cell ([2358; 86; 2466], [2467; 2469; 2468; 2470; 2471]) (Some (LW 2469)) (Some (LW 2471))]
   ([2471; 247], [2473; 2472; 2474]) 2474 2544
   [2477; 2480; 2483; 2486; 2489; 2492; 2495; 2498; 2501; 2504; 2507; 2510; 2513; 2516; 2519; 2522; 2525; 2528; 2531; 2534; 2537; 2540; 2543]
   [([2474; 41; 2360], [2475; 2476; 2477]); ([2474; 2295; 2364], [2478; 2479; 2480]); ([2474; 2298; 2369], [2481; 2482; 2483]); ([2474; 2301; 2374], [2484; 2485; 2486]); ([2474; 2304; 2379], [2487; 2488; 2489]); ([2474; 2307; 2384], [2490; 2491; 2492]); ([2474; 2310; 2389], [2493; 2494; 2495]); ([2474; 2313; 2394], [2496; 2497; 2498]); ([2474; 2316; 2399], [2499; 2500; 2501]); ([2474; 2319; 2404], [2502; 2503; 2504]); ([2474; 2322; 2409], [2505; 2506; 2507]); ([2474; 2325; 2414], [2508; 2509; 2510]); ([2474; 2328; 2419], [2511; 2512; 2513]); ([2474; 2331; 2424], [2514; 2515; 2516]); ([2474; 2334; 2429], [2517; 2518; 2519]); ([2474; 2337; 2434], [2520; 2521; 2522]); ([2474; 2340; 2439], [2523; 2524; 2525]); ([2474; 2343; 2444], [2526; 2527; 2528]); ([2474; 2346; 2449], [2529; 2530; 2531]); ([2474; 2349; 2454], [2532; 2533; 2534]); ([2474; 2352; 2459], [2535; 2536; 2537]); ([2474; 2355; 2464], [2538; 2539; 2540]); ([2474; 2358; 2469], [2541; 2542; 2543])].
Definition udivide64_stage_23 : ustage := UStage
   [Cell ([40; 64], [2545; 2546]) (Some (LW 2545)) (Some (LW 2546));
    Cell ([2477; 65; 2546], [2547; 2549; 2548; 2550; 2551]) (Some (LW 2549)) (Some (LW 2551));
    Cell ([2480; 66; 2551], [2552; 2554; 2553; 2555; 2556]) (Some (LW 2554)) (Some (LW 2556));
    Cell ([2483; 67; 2556], [2557; 2559; 2558; 2560; 2561]) (Some (LW 2559)) (Some (LW 2561));
    Cell ([2486; 68; 2561], [2562; 2564; 2563; 2565; 2566]) (Some (LW 2564)) (Some (LW 2566));
    Cell ([2489; 69; 2566], [2567; 2569; 2568; 2570; 2571]) (Some (LW 2569)) (Some (LW 2571));
    Cell ([2492; 70; 2571], [2572; 2574; 2573; 2575; 2576]) (Some (LW 2574)) (Some (LW 2576));
    Cell ([2495; 71; 2576], [2577; 2579; 2578; 2580; 2581]) (Some (LW 2579)) (Some (LW 2581));
    Cell ([2498; 72; 2581], [2582; 2584; 2583; 2585; 2586]) (Some (LW 2584)) (Some (LW 2586));
    Cell ([2501; 73; 2586], [2587; 2589; 2588; 2590; 2591]) (Some (LW 2589)) (Some (LW 2591));
    Cell ([2504; 74; 2591], [2592; 2594; 2593; 2595; 2596]) (Some (LW 2594)) (Some (LW 2596));
    Cell ([2507; 75; 2596], [2597; 2599; 2598; 2600; 2601]) (Some (LW 2599)) (Some (LW 2601));
    Cell ([2510; 76; 2601], [2602; 2604; 2603; 2605; 2606]) (Some (LW 2604)) (Some (LW 2606));
    Cell ([2513; 77; 2606], [2607; 2609; 2608; 2610; 2611]) (Some (LW 2609)) (Some (LW 2611));
    Cell ([2516; 78; 2611], [2612; 2614; 2613; 2615; 2616]) (Some (LW 2614)) (Some (LW 2616));
    Cell ([2519; 79; 2616], [2617; 2619; 2618; 2620; 2621]) (Some (LW 2619)) (Some (LW 2621));
    Cell ([2522; 80; 2621], [2622; 2624; 2623; 2625; 2626]) (Some (LW 2624)) (Some (LW 2626));
    Cell ([2525; 81; 2626], [2627; 2629; 2628; 2630; 2631]) (Some (LW 2629)) (Some (LW 2631));
    Cell ([2528; 82; 2631], [2632; 2634; 2633; 2635; 2636]) (Some (LW 2634)) (Some (LW 2636));
    Cell ([2531; 83; 2636], [2637; 2639; 2638; 2640; 2641]) (Some (LW 2639)) (Some (LW 2641));
    Cell ([2534; 84; 2641], [2642; 2644; 2643; 2645; 2646]) (Some (LW 2644)) (Some (LW 2646));
    Cell ([2537; 85; 2646], [2647; 2649; 2648; 2650; 2651]) (Some (LW 2649)) (Some (LW 2651));
    Cell ([2540; 86; 2651], [2652; 2654; 2653; 2655; 2656]) (Some (LW 2654)) (Some (LW 2656));
    Cell ([2543; 87; 2656], [2657; 2659; 2658; 2660; 2661]) (Some (LW 2659)) (Some (LW 2661))]
   ([2661; 244], [2663; 2662; 2664]) 2664 2737
   [2667; 2670; 2673; 2676; 2679; 2682; 2685; 2688; 2691; 2694; 2697; 2700; 2703; 2706; 2709; 2712; 2715; 2718; 2721; 2724; 2727; 2730; 2733; 2736]
   [([2664; 40; 2545], [2665; 2666; 2667]); ([2664; 2477; 2549], [2668; 2669; 2670]); ([2664; 2480; 2554], [2671; 2672; 2673]); ([2664; 2483; 2559], [2674; 2675; 2676]); ([2664; 2486; 2564], [2677; 2678; 2679]); ([2664; 2489; 2569], [2680; 2681; 2682]); ([2664; 2492; 2574], [2683; 2684; 2685]); ([2664; 2495; 2579], [2686; 2687; 2688]); ([2664; 2498; 2584], [2689; 2690; 2691]); ([2664; 2501; 2589], [2692; 2693; 2694]); ([2664; 2504; 2594], [2695; 2696; 2697]); ([2664; 2507; 2599], [2698; 2699; 2700]); ([2664; 2510; 2604], [2701; 2702; 2703]); ([2664; 2513; 2609], [2704; 2705; 2706]); ([2664; 2516; 2614], [2707; 2708; 2709]); ([2664; 2519; 2619], [2710; 2711; 2712]); ([2664; 2522; 2624], [2713; 2714; 2715]); ([2664; 2525; 2629], [2716; 2717; 2718]); ([2664; 2528; 2634], [2719; 2720; 2721]); ([2664; 2531; 2639], [2722; 2723; 2724]); ([2664; 2534; 2644], [2725; 2726; 2727]); ([2664; 2537; 2649], [2728; 2729; 2730]); ([2664; 2540; 2654], [2731; 2732; 2733]); ([2664; 2543; 2659], [2734; 2735; 2736])].
Definition udivide64_stage_24 : ustage := UStage
   [Cell ([39; 64], [2738; 2739]) (Some (LW 2738)) (Some (LW 2739));
    Cell ([2667; 65; 2739], [2740; 2742; 2741; 2743; 2744]) (Some (LW 2742)) (Some (LW 2744));
    Cell ([2670; 66; 2744], [2745; 2747; 2746; 2748; 2749]) (Some (LW 2747)) (Some (LW 2749));
    Cell ([2673; 67; 2749], [2750; 2752; 2751; 2753; 2754]) (Some (LW 2752)) (Some (LW 2754));
    Cell ([2676; 68; 2754], [2755; 2757; 2756; 2758; 2759]) (Some (LW 2757)) (Some (LW 2759));
    Cell ([2679; 69; 2759], [2760; 2762; 2761; 2763; 2764]) (Some (LW 2762)) (Some (LW 2764));
    Cell ([2682; 70; 2764], [2765; 2767; 2766; 2768; 2769]) (Some (LW 2767)) (Some (LW 2769));
    Cell ([2685; 71; 2769], [2770; 2772; 2771; 2773; 2774]) (Some (LW 2772)) (Some (LW 2774));
    Cell ([2688; 72; 2774], [2775; 2777; 2776; 2778; 2779]) (Some (LW 2777)) (Some (LW 2779));
    Cell ([2691; 73; 2779], [2780; 2782; 2781; 2783; 2784]) (Some (LW 2782)) (Some (LW 2784));
    Cell ([2694; 74; 2784], [2785; 2787; 2786; 2788; 2789]) (Some (LW 2787)) (Some (LW 2789));
    Cell ([2697; 75; 2789], [2790; 2792; 2791; 2793; 2794]) (Some (LW 2792)) (Some (LW 2794));
    Cell ([2700; 76; 2794], [2795; 2797; 2796; 2798; 2799]) (Some (LW 2797)) (Some (LW 2799));
    Cell ([2703; 77; 2799], [2800; 2802; 2801; 2803; 2804]) (Some (LW 2802)) (Some (LW 2804));
    Cell ([2706; 78; 2804], [2805; 2807; 2806; 2808; 2809]) (Some (LW 2807)) (Some (LW 2809));
    Cell ([2709; 79; 2809], [2810; 2812; 2811; 2813; 2814]) (Some (LW 2812)) (Some (LW 2814));
    Cell ([2712; 80; 2814], [2815; 2817; 2816; 2818; 2819]) (Some (LW 2817)) (Some (LW 2819));
    Cell ([2715; 81; 2819], [2820; 2822; 2821; 2823; 2824]) (Some (LW 2822)) (Some (LW 2824));
    Cell ([2718; 82; 2824], [2825; 2827; 2826; 2828; 2829]) (Some (LW 2827)) (Some (LW 2829));
    Cell ([2721; 83; 2829], [2830; 2832; 2831; 2833; 2834]) (Some (LW 2832)) (Some (LW 2834));
    Cell ([2724; 84; 2834], [2835; 2837; 2836; 2838; 2839]) (Some (LW 2837)) (Some (LW 2839));
    Cell ([2727; 85; 2839], [2840; 2842; 2841; 2843; 2844]) (Some (LW 2842)) (Some (LW 2844));
    Cell ([2730; 86; 2844], [2845; 2847; 2846; 2848; 2849]) (Some (LW 2847)) (Some (LW 2849));
    Cell ([2733; 87; 2849], [2850; 2852; 2851; 2853; 2854]) (Some (LW 2852)) (Some (LW 2854));
    Cell ([2736; 88; 2854], [2855; 2857; 2856; 2858; 2859]) (Some (LW 2857)) (Some (LW 2859))]
   ([2859; 241], [2861; 2860; 2862]) 2862 2938
   [2865; 2868; 2871; 2874; 2877; 2880; 2883; 2886; 2889; 2892; 2895; 2898; 2901; 2904; 2907; 2910; 2913; 2916; 2919; 2922; 2925; 2928; 2931; 2934; 2937]
   [([2862; 39; 2738], [2863; 2864; 2865]); ([2862; 2667; 2742], [2866; 2867; 2868]); ([2862; 2670; 2747], [2869; 2870; 2871]); ([2862; 2673; 2752], [2872; 2873; 2874]); ([2862; 2676; 2757], [2875; 2876; 2877]); ([2862; 2679; 2762], [2878; 2879; 2880]); ([2862; 2682; 2767], [2881; 2882; 2883]); ([2862; 2685; 2772], [2884; 2885; 2886]); ([2862; 2688; 2777], [2887; 2888; 2889]); ([2862; 2691; 2782], [2890; 2891; 2892]); ([2862; 2694; 2787], [2893; 2894; 2895]); ([2862; 2697; 2792], [2896; 2897; 2898]); ([2862; 2700; 2797], [2899; 2900; 2901]); ([2862; 2703; 2802], [2902; 2903; 2904]); ([2862; 2706; 2807], [2905; 2906; 2907]); ([2862; 2709; 2812], [2908; 2909; 2910]); ([2862; 2712; 2817], [2911; 2912; 2913]); ([2862; 2715; 2822], [2914; 2915; 2916]); ([2862; 2718; 2827], [2917; 2918; 2919]); ([2862; 2721; 2832], [2920; 2921; 2922]); ([2862; 2724; 2837], [2923; 2924; 2925]); ([2862; 2727; 2842], [2926; 2927; 2928]); ([2862; 2730; 2847], [2929; 2930; 2931]); ([2862; 2733; 2852], [2932; 2933; 2934]); ([2862; 2736; 2857], [2935; 2936; 2937])].
Definition udivide64_stage_25 : ustage := UStage
   [Cell ([38; 64], [2939; 2940]) (Some (LW 2939)) (Some (LW 2940));
    Cell ([2865; 65; 2940], [2941; 2943; 2942; 2944; 2945]) (Some (LW 2943)) (Some (LW 2945));
    Cell ([2868; 66; 2945], [2946; 2948; 2947; 2949; 2950]) (Some (LW 2948)) (Some (LW 2950));
    Cell ([2871; 67; 2950], [2951; 2953; 2952; 2954; 2955]) (Some (LW 2953)) (Some (LW 2955));
    Cell ([2874; 68; 2955], [2956; 2958; 2957; 2959; 2960]) (Some (LW 2958)) (Some (LW 2960));
    Cell ([2877; 69; 2960], [2961; 2963; 2962; 2964; 2965]) (Some (LW 2963)) (Some (LW 2965));
    Cell ([2880; 70; 2965], [2966; 2968; 2967; 2969; 2970]) (Some (LW 2968)) (Some (LW 2970));
    Cell ([2883; 71; 2970], [2971; 2973; 2972; 2974; 2975]) (Some (LW 2973)) (Some (LW 2975));
    Cell ([2886; 72; 2975], [2976; 2978; 2977; 2979; 2980]) (Some (LW 2978)) (Some (LW 2980));
    Cell ([2889; 73; 2980], [2981; 2983; 2982; 2984; 2985]) (Some (LW 2983)) (Some (LW 2985));
    Cell ([2892; 74; 2985], [2986; 2988; 2987; 2989; 2990]) (Some (LW 2988)) (Some (LW 2990));
    Cell ([2895; 75; 2990], [2991; 2993; 2992; 2994; 2995]) (Some (LW 2993)) (Some (LW 2995));
    Cell ([2898; 76; 2995], [2996; 2998; 2997; 2999; 3000]) (Some (LW 2998)) (Some (LW 3000));
    Cell ([2901; 77; 3000], [3001; 3003; 3002; 3004; 3005]) (Some (LW 3003)) (Some (LW 3005));
    Cell ([2904; 78; 3005], [3006; 3008; 3007; 3009; 3010]) (Some (LW 3008)) (Some (LW 3010));
    Cell ([2907; 79; 3010], [3011; 3013; 3012; 3014; 3015]) (Some (LW 3013)) (Some (LW 3015));
    Cell ([2910; 80; 3015], [3016; 3018; 3017; 3019; 3020]) (Some (LW 3018)) (Some (LW 3020));
    Cell ([2913; 81; 3020], [3021; 3023; 3022; 3024; 3025]) (Some (LW 3023)) (Some (LW 3025));
    Cell ([2916; 82; 3025], [3026; 3028; 3027; 3029; 3030]) (Some (LW 3028)) (Some (LW 3030));
    Cell ([2919; 83; 3030], [3031; 3033; 3032; 3034; 3035]) (Some (LW 3033)) (Some (LW 3035));
    Cell ([2922; 84; 3035], [3036; 3038; 3037; 3039; 3040]) (Some (LW 3038)) (Some (LW 3040));
    Cell ([2925; 85; 3040], [3041; 3043; 3042; 3044; 3045]) (Some (LW 3043)) (Some (LW 3045));
    Cell ([2928; 86; 3045], [3046; 3048; 3047; 3049; 3050]) (Some (LW 3048)) (Some (LW 3050));
    Cell ([2931; 87; 3050], [3051; 3053; 3052; 3054; 3055]) (Some (LW 3053)) (Some (LW 3055));
    Cell ([2934; 88; 3055], [3056; 3058; 3057; 3059; 3060]) (Some (LW 3058)) (Some (LW 3060));
    Cell ([2937; 89; 3060], [3061; 3063; 3062; 3064; 3065]) (Some (LW 3063)) (Some (LW 3065))]
   ([3065; 238], [3067; 3066; 3068]) 3068 3147
   [3071; 3074; 3077; 3080; 3083; 3086; 3089; 3092; 3095; 3098; 3101; 3104; 3107; 3110; 3113; 3116; 3119; 3122; 3125; 3128; 3131; 3134; 3137; 3140; 3143; 3146]
   [([3068; 38; 2939], [3069; 3070; 3071]); ([3068; 2865; 2943], [3072; 3073; 3074]); ([3068; 2868; 2948], [3075; 3076; 3077]); ([3068; 2871; 2953], [3078; 3079; 3080]); ([3068; 2874; 2958], [3081; 3082; 3083]); ([3068; 2877; 2963], [3084; 3085; 3086]); ([3068; 2880; 2968], [3087; 3088; 3089]); ([3068; 2883; 2973], [3090; 3091; 3092]); ([3068; 2886; 2978], [3093; 3094; 3095]); ([3068; 2889; 2983], [3096; 3097; 3098]); ([3068; 2892; 2988], [3099; 3100; 3101]); ([3068; 2895; 2993], [3102; 3103; 3104]); ([3068; 2898; 2998], [3105; 3106; 3107]); ([3068; 2901; 3003], [3108; 3109; 3110]); ([3068; 2904; 3008], [3111; 3112; 3113]); ([3068; 2907; 3013], [3114; 3115; 3116]); ([3068; 2910; 3018], [3117; 3118; 3119]); ([3068; 2913; 3023], [3120; 3121; 3122]); ([3068; 2916; 3028], [3123; 3124; 3125]); ([3068; 2919; 3033], [3126; 3127; 3128]); ([3068; 2922; 3038], [3129; 3130; 3131]); ([3068; 2925; 3043], [3132; 3133; 3134]); ([3068; 2928; 3048], [3135; 3136; 3137]); ([3068; 2931; 3053], [3138; 3139; 3140]); ([3068; 2934; 3058], [3141; 3142; 3143]); ([3068; 2937; 3063], [3144; 3145; 3146])].
Definition udivide64_stage_26 : ustage := UStage
   [Cell ([37; 64], [3148; 3149]) (Some (LW 3148)) (Some (LW 3149));
    Cell ([3071; 65; 3149], [3150; 3152; 3151; 3153; 3154]) (Some (LW 3152)) (Some (LW 3154));
    Cell ([3074; 66; 3154], [3155; 3157; 3156; 3158; 3159]) (Some (LW 3157)) (Some (LW 3159));
    Cell ([3077; 67; 3159], [3160; 3162; 3161; 3163; 3164]) (Some (LW 3162)) (Some (LW 3164));
    Cell ([3080; 68; 3164], [3165; 3167; 3166; 3168; 3169]) (Some (LW 3167)) (Some (LW 3169));
    Cell ([3083; 69; 3169], [3170; 3172; 3171; 3173; 3174]) (Some (LW 3172)) (Some (LW 3174));
    Cell ([3086; 70; 3174], [3175; 3177; 3176; 3178; 3179]) (Some (LW 3177)) (Some (LW 3179));
    Cell ([3089; 71; 3179], [3180; 3182; 3181; 3183; 3184]) (Some (LW 3182)) (Some (LW 3184));
    Cell ([3092; 72; 3184], [3185; 3187; 3186; 3188; 3189]) (Some (LW 3187)) (Some (LW 3189));
    Cell ([3095; 73; 3189], [3190; 3192; 3191; 3193; 3194]) (Some (LW 3192)) (Some (LW 3194));
    Cell ([3098; 74; 3194], [3195; 3197; 3196; 3198; 3199]) (Some (LW 3197)) (Some (LW 3199));
    Cell ([3101; 75; 3199], [3200; 3202; 3201; 3203; 3204]) (Some (LW 3202)) (Some (LW 3204));
    Cell ([3104; 76; 3204], [3205; 3207; 3206; 3208; 3209]) (Some (LW 3207)) (Some (LW 3209));
    Cell ([3107; 77; 3209], [3210; 3212; 3211; 3213; 3214]) (Some (LW 3212)) (Some (LW 3214));
    Cell ([3110; 78; 3214], [3215; 3217; 3216; 3218; 3219]) (Some (LW 3217)) (Some (LW 3219));
    Cell ([3113; 79; 3219], [3220; 3222; 3221; 3223; 3224]) (Some (LW 3222)) (Some (LW 3224));
    Cell ([3116; 80; 3224], [3225; 3227; 3226; 3228; 3229]) (Some (LW 3227)) (Some (LW 3229));
    Cell ([3119; 81; 3229], [3230; 3232; 3231; 3233; 3234]) (Some (LW 3232)) (Some (LW 3234));
    Cell ([3122; 82; 3234], [3235; 3237; 3236; 3238; 3239]) (Some (LW 3237)) (Some (LW 3239));
    Cell ([3125; 83; 3239], [3240; 3242; 3241; 3243; 3244]) (Some (LW 3242)) (Some (LW 3244));
    Cell ([3128; 84; 3244], [3245; 3247; 3246; 3248; 3249]) (Some (LW 3247)) (Some (LW 3249));
    Cell ([3131; 85; 3249], [3250; 3252; 3251; 3253; 3254]) (Some (LW 3252)) (Some (LW 3254));
    Cell ([3134; 86; 3254], [3255; 3257; 3256; 3258; 3259]) (Some (LW 3257)) (Some (LW 3259));
    Cell ([3137; 87; 3259], [3260; 3262; 3261; 3263; 3264]) (Some (LW 3262)) (Some (LW 3264));
    Cell ([3140; 88; 3264], [3265; 3267; 3266; 3268; 3269]) (Some (LW 3267)) (Some (LW 3269));
    Cell ([3143; 89; 3269], [3270; 3272; 3271; 3273; 3274]) (Some (LW 3272)) (Some (LW 3274));
    Cell ([3146; 90; 3274], [3275; 3277; 3276; 3278; 3279]) (Some (LW 3277)) (Some (LW 3279))]
   ([3279; 235], [3281; 3280; 3282]) 3282 3364
   [3285; 3288; 3291; 3294; 3297; 3300; 3303; 3306; 3309; 3312; 3315; 3318; 3321; 3324; 3327; 3330; 3333; 3336; 3339; 3342; 3345; 3348; 3351; 3354; 3357; 3360; 3363]
   [([3282; 37; 3148], [3283; 3284; 3285]); ([3282; 3071; 3152], [3286; 3287; 3288]); ([3282; 3074; 3157], [3289; 3290; 3291]); ([3282; 3077; 3162], [3292; 3293; 3294]); ([3282; 3080; 3167], [3295; 3296; 3297]); ([3282; 3083; 3172], [3298; 3299; 3300]); ([3282; 3086; 3177], [3301; 3302; 3303]); ([3282; 3089; 3182], [3304; 3305; 3306]); ([3282; 3092; 3187], [3307; 3308; 3309]); ([3282; 3095; 3192], [3310; 3311; 3312]); ([3282; 3098; 3197], [3313; 3314; 3315]); ([3282; 3101; 3202], [3316; 3317; 3318]); ([3282; 3104; 3207], [3319; 3320; 3321]); ([3282; 3107; 3212], [3322; 3323; 3324]); ([3282; 3110; 3217], [3325; 3326; 3327]); ([3282; 3113; 3222], [3328; 3329; 3330]); ([3282; 3116; 3227], [3331; 3332; 3333]); ([3282; 3119; 3232], [3334; 3335; 3336]); ([3282; 3122; 3237], [3337; 3338; 3339]); ([3282; 3125; 3242], [3340; 3341; 3342]); ([3282; 3128; 3247], [3343; 3344; 3345]); ([3282; 3131; 3252], [3346; 3347; 3348]); ([3282; 3134; 3257], [3349; 3350; 3351]); ([3282; 3137; 3262], [3352; 3353; 3354]); ([3282; 3140; 3267], [3355; 3356; 3357]); ([3282; 3143; 3272], [3358; 3359; 3360]); ([3282; 3146; 3277], [3361; 3362; 3363])].
Definition udivide64_stage_27 : ustage := UStage
   [Cell ([36; 64], [3365; 3366]) (Some (LW 3365)) (Some (LW 3366));
    Cell ([3285; 65; 3366], [3367; 3369; 3368; 3370; 3371]) (Some (LW 3369)) (Some (LW 3371));
    Cell ([3288; 66; 3371], [3372; 3374; 3373; 3375; 3376]) (Some (LW 3374)) (Some (LW 3376));
    Cell ([3291; 67; 3376], [3377; 3379; 3378; 3380; 3381]) (Some (LW 3379)) (Some (LW 3381));
    Cell ([3294; 68; 3381], [3382; 3384; 3383; 3385; 3386]) (Some (LW 3384)) (Some (LW 3386));
    Cell ([3297; 69; 3386], [3387; 3389; 3388; 3390; 3391]) (Some (LW 3389)) (Some (LW 3391));
    Cell ([3300; 70; 3391], [3392; 3394; 3393; 3395; 3396]) (Some (LW 3394)) (Some (LW 3396));
    Cell ([3303; 71; 3396], [3397; 3399; 3398; 3400; 3401]) (Some (LW 3399)) (Some (LW 3401));
    Cell ([3306; 72; 3401], [3402; 3404; 3403; 3405; 3406]) (Some (LW 3404)) (Some (LW 3406));
    Cell ([3309; 73; 3406], [3407; 3409; 3408; 3410; 3411]) (Some (LW 3409)) (Some (LW 3411));
    Cell ([3312; 74; 3411], [3412; 3414; 3413; 3415; 3416]) (Some (LW 3414)) (Some (LW 3416));
    Cell ([3315; 75; 3416], [3417; 3419; 3418; 3420; 3421]) (Some (LW 3419)) (Some (LW 3421));
    Cell ([3318; 76; 3421], [3422; 3424; 3423; 3425; 3426]) (Some (LW 3424)) (Some (LW 3426));
    Cell ([3321; 77; 3426], [3427; 3429; 3428; 3430; 3431]) (Some (LW 3429)) (Some (LW 3431));
    Cell ([3324; 78; 3431], [3432; 3434; 3433; 3435; 3436]) (Some (LW 3434)) (Some (LW 3436));
    Cell ([3327; 79; 3436], [3437; 3439; 3438; 3440; 3441]) (Some (LW 3439)) (Some (LW 3441));
    Cell ([3330; 80; 3441], [3442; 3444; 3443; 3445; 3446]) (Some (LW 3444)) (Some (LW 3446));
    Cell ([3333; 81; 3446], [3447; 3449; 3448; 3450; 3451]) (Some (LW 3449)) (Some (LW 3451));
    Cell ([3336; 82; 3451], [3452; 3454; 3453; 3455; 3456]) (Some (LW 3454)) (Some (LW 3456));
    Cell ([3339; 83; 3456], [3457; 3459; 3458; 3460; 3461]) (Some (LW 3459)) (Some (LW 3461));
    Cell ([3342; 84; 3461], [3462; 3464; 3463; 3465; 3466]) (Some (LW 3464)) (Some (LW 3466));
    Cell ([3345; 85; 3466], [3467; 3469; 3468; 3470; 3471]) (Some (LW 3469)) (Some (LW 3471));
    Cell ([3348; 86; 3471], [3472; 3474; 3473; 3475; 3476]) (Some (LW 3474)) (Some (LW 3476));
    Cell ([3351; 87; 3476], [3477; 3479; 3478; 3480; 3481]) (Some (LW 3479)) (Some (LW 3481));
    Cell ([3354; 88; 3481], [3482; 3484; 3483; 3485; 3486]) (Some (LW 3484)) (Some (LW 3486));
    Cell ([3357; 89; 3486], [3487; 3489; 3488; 3490; 3491]) (Some (LW 3489)) (Some (LW 3491));
    Cell ([3360; 90; 3491], [3492; 3494; 3493; 3495; 3496]) (Some (LW 3494)) (Some (LW 3496));
    Cell ([3363; 91; 3496], [3497; 3499; 3498; 3500; 3501]) (Some (LW 3499)) (Some (LW 3501))]
   ([3501; 232], [3503; 3502; 3504]) 3504 3589
   [3507; 3510; 3513; 3516; 3519; 3522; 3525; 3528; 3531; 3534; 3537; 3540; 3543; 3546; 3549; 3552; 3555; 3558; 3561; 3564; 3567; 3570; 3573; 3576; 3579; 3582; 3585; 3588]
   [([3504; 36; 3365], [3505; 3506; 3507]); ([3504; 3285; 3369], [3508; 3509; 3510]); ([3504; 3288; 3374], [3511; 3512; 3513]); ([3504; 3291; 3379], [3514; 3515; 3516]); ([3504; 3294; 3384], [3517; 3518; 3519]); ([3504; 3297; 3389], [3520; 3521; 3522]); ([3504; 3300; 3394], [3523; 3524; 3525]); ([3504; 3303; 3399], [3526; 3527; 3528]); ([3504; 3306; 3404], [3529; 3530; 3531]); ([3504; 3309; 3409], [3532; 3533; 3534]); ([3504; 3312; 3414], [3535; 3536; 3537]); ([3504; 3315; 3419], [3538; 3539; 3540]); ([3504; 3318; 3424], [3541; 3542; 3543]); ([3504; 3321; 3429], [3544; 3545; 3546]); ([3504; 3324; 3434], [3547; 3548; 3549]); ([3504; 3327; 3439], [3550; 3551; 3552]); ([3504; 3330; 3444], [3553; 3554; 3555]); ([3504; 3333; 3449], [3556; 3557; 3558]); ([3504; 3336; 3454], [3559; 3560; 3561]); ([3504; 3339; 3459], [3562; 3563; 3564]); ([3504; 3342; 3464], [3565; 3566; 3567]); ([3504; 3345; 3469], [3568; 3569; 3570]); ([3504; 3348; 3474], [3571; 3572; 3573]); ([3504; 3351; 3479], [3574; 3575; 3576]); ([3504; 3354; 3484], [3577; 3578; 3579]); ([3504; 3357; 3489], [3580; 3581; 3582]); ([3504; 3360; 3494], [3583; 3584; 3585]); ([3504; 3363; 3499], [3586; 3587; 3588])].
Definition udivide64_stage_28 : ustage := UStage
   [Cell ([35; 64], [3590; 3591]) (Some (LW 3590)) (Some (LW 3591));
    Cell ([3507; 65; 3591], [3592; 3594; 3593; 3595; 3596]) (Some (LW 3594)) (Some (LW 3596));
    Cell ([3510; 66; 3596], [3597; 3599; 3598; 3600; 3601]) (Some (LW 3599)) (Some (LW 3601));
    Cell ([3513; 67; 3601], [3602; 3604; 3603; 3605; 3606]) (Some (LW 3604)) (Some (LW 3606));
    Cell ([3516; 68; 3606], [3607; 3609; 3608; 3610; 3611]) (Some (LW 3609)) (Some (LW 3611));
    Cell ([3519; 69; 3611], [3612; 3614; 3613; 3615; 3616]) (Some (LW 3614)) (Some (LW 3616));
    Cell ([3522; 70; 3616], [3617; 3619; 3618; 3620; 3621]) (Some (LW 3619)) (Some (LW 3621));
    Cell ([3525; 71; 3621], [3622; 3624; 3623; 3625; 3626]) (Some (LW 3624)) (Some (LW 3626));
    Cell ([3528; 72; 3626], [3627; 3629; 3628; 3630; 3631]) (Some (LW 3629)) (Some (LW 3631));
    Cell ([3531; 73; 3631], [3632; 3634; 3633; 3635; 3636]) (Some (LW 3634)) (Some (LW 3636));
    Cell ([3534; 74; 3636], [3637; 3639; 3638; 3640; 3641]) (Some (LW 3639)) (Some (LW 3641));
    Cell ([3537; 75; 3641], [3642; 3644; 3643; 3645; 3646]) (Some (LW 3644)) (Some (LW 3646));
    Cell ([3540; 76; 3646], [3647; 3649; 3648; 3650; 3651]) (Some (LW 3649)) (Some (LW 3651));
    Cell ([3543; 77; 3651], [3652; 3654; 3653; 3655; 3656]) (Some (LW 3654)) (Some (LW 3656));
    Cell ([3546; 78; 3656], [3657; 3659; 3658; 3660; 3661]) (Some (LW 3659)) (Some (LW 3661));
    Cell ([3549; 79; 3661], [3662; 3664; 3663; 3665; 3666]) (Some (LW 3664)) (Some (LW 3666));
    Cell ([3552; 80; 3666], [3667; 3669; 3668; 3670; 3671]) (Some (LW 3669)) (Some (LW 3671));
    Cell ([3555; 81; 3671], [3672; 3674; 3673; 3675; 3676]) (Some (LW 3674)) (Some (LW 3676));
    Cell ([3558; 82; 3676], [3677; 3679; 3678; 3680; 3681]) (Some (LW 3679)) (Some (LW 3681));
    Cell ([3561; 83; 3681], [3682; 3684; 3683; 3685; 3686]) (Some (LW 3684)) (Some (LW 3686));
    Cell ([3564; 84; 3686], [3687; 3689; 3688; 3690; 3691]) (Some (LW 3689)) (Some (LW 3691));
    Cell ([3567; 85; 3691], [3692; 3694; 3693; 3695; 3696]) (Some (LW 3694)) (Some (LW 3696));
    Cell ([3570; 86; 3696], [3697; 3699; 3698; 3700; 3701]) (Some (LW 3699)) (Some (LW 3701));
    Cell ([3573; 87; 3701], [3702; 3704; 3703; 3705; 3706]) (Some (LW 3704)) (Some (LW 3706));
    Cell ([3576; 88; 3706], [3707; 3709; 3708; 3710; 3711]) (Some (LW 3709)) (Some (LW 3711));
    Cell ([3579; 89; 3711], [3712; 3714; 3713; 3715; 3716]) (Some (LW 3714)) (Some (LW 3716));
    Cell ([3582; 90; 3716], [3717; 3719; 3718; 3720; 3721]) (Some (LW 3719)) (Some (LW 3721));
    Cell ([3585; 91; 3721], [3722; 3724; 3723; 3725; 3726]) (Some (LW 3724)) (Some (LW 3726));
    Cell ([3588; 92; 3726], [3727; 3729; 3728; 3730; 3731]) (Some (LW 3729)) (Some (LW 3731))]
   ([3731; 229], [3733; 3732; 3734]) 3734 3822
   [3737; 3740; 3743; 3746; 3749; 3752; 3755; 3758; 3761; 3764; 3767; 3770; 3773; 3776; 3779; 3782; 3785; 3788; 3791; 3794; 3797; 3800; 3803; 3806; 3809; 3812; 3815; 3818; 3821]
   [([3734; 35; 3590], [3735; 3736; 3737]); ([3734; 3507; 3594], [3738; 3739; 3740]); ([3734; 3510; 3599], [3741; 3742; 3743]); ([3734; 3513; 3604], [3744; 3745; 3746]); ([3734; 3516; 3609], [3747; 3748; 3749]); ([3734; 3519; 3614], [3750; 3751; 3752]); ([3734; 3522; 3619], [3753; 3754; 3755]); ([3734; 3525; 3624], [3756; 3757; 3758]); ([3734; 3528; 3629], [3759; 3760; 3761]); ([3734; 3531; 3634], [3762; 3763; 3764]); ([3734; 3534; 3639], [3765; 3766; 3767]); ([3734; 3537; 3644], [3768; 3769; 3770]); ([3734; 3540; 3649], [3771; 3772; 3773]); ([3734; 3543; 3654], [3774; 3775; 3776]); ([3734; 3546; 3659], [3777; 3778; 3779]); ([3734; 3549; 3664], [3780; 3781; 3782]); ([3734; 3552; 3669], [3783; 3784; 3785]); ([3734; 3555; 3674], [3786; 3787; 3788]); ([3734; 3558; 3679], [3789; 3790; 3791]); ([3734; 3561; 3684], [3792; 3793; 3794]); ([3734; 3564; 3689], [3795; 3796; 3797]); ([3734; 3567; 3694], [3798; 3799; 3800]); ([3734; 3570; 3699], [3801; 3802; 3803]); ([3734; 3573; 3704], [3804; 3805; 3806]); ([3734; 3576; 3709], [3807; 3808; 3809]); ([3734; 3579; 3714], [3810; 3811; 3812]); ([3734; 3582; 3719], [3813; 3814; 3815]); ([3734; 3585; 3724], [3816; 3817; 3818]); ([3734; 3588; 3729], [3819; 3820; 3821])].
Definition udivide64_stage_29 : ustage := UStage
   [Cell ([34; 64], [3823; 3824]) (Some (LW 3823)) (Some (LW 3824));
    Cell ([3737; 65; 3824], [3825; 3827; 3826; 3828; 3829]) (Some (LW 3827)) (Some (LW 3829));
    Cell ([3740; 66; 3829], [3830; 3832; 3831; 3833; 3834]) (Some (LW 3832)) (Some (LW 3834));
    Cell ([3743; 67; 3834], [3835; 3837; 3836; 3838; 3839]) (Some (LW 3837)) (Some (LW 3839));
    Cell ([3746; 68; 3839], [3840; 3842; 3841; 3843; 3844]) (Some (LW 3842)) (Some (LW 3844));
    Cell ([3749; 69; 3844], [3845; 3847; 3846; 3848; 3849]) (Some (LW 3847)) (Some (LW 3849));
    Cell ([3752; 70; 3849], [3850; 3852; 3851; 3853; 3854]) (Some (LW 3852)) (Some (LW 3854));
    Cell ([3755; 71; 3854], [3855; 3857; 3856; 3858; 3859]) (Some (LW 3857)) (Some (LW 3859));
    Cell ([3758; 72; 3859], [3860; 3862; 3861; 3863; 3864]) (Some (LW 3862)) (Some (LW 3864));
    Cell ([3761; 73; 3864], [3865; 3867; 3866; 3868; 3869]) (Some (LW 3867)) (Some (LW 3869));
    Cell ([3764; 74; 3869], [3870; 3872; 3871; 3873; 3874]) (Some (LW 3872)) (Some (LW 3874));
    Cell ([3767; 75; 3874], [3875; 3877; 3876; 3878; 3879]) (Some (LW 3877)) (Some (LW 3879));
    Cell ([3770; 76; 3879], [3880; 3882; 3881; 3883; 3884]) (Some (LW 3882)) (Some (LW 3884));
    Cell ([3773; 77; 3884], [3885; 3887; 3886; 3888; 3889]) (Some (LW 3887)) (Some (LW 3889));
    Cell ([3776; 78; 3889], [3890; 3892; 3891; 3893; 3894]) (Some (LW 3892)) (Some (LW 3894));
    Cell ([3779; 79; 3894], [3895; 3897; 3896; 3898; 3899]) (Some (LW 3897)) (Some (LW 3899));
    Cell ([3782; 80; 3899], [3900; 3902; 3901; 3903; 3904]) (Some (LW 3902)) (Some (LW 3904));
    Cell ([3785; 81; 3904], [3905; 3907; 3906; 3908; 3909]) (Some (LW 3907)) (Some (LW 3909));
    Cell ([3788; 82; 3909], [3910; 3912; 3911; 3913; 3914]) (Some (LW 3912)) (Some (LW 3914));
    Cell ([3791; 83; 3914], [3915; 3917; 3916; 3918; 3919]) (Some (LW 3917)) (Some (LW 3919));
    Cell ([3794; 84; 3919], [3920; 3922; 3921; 3923; 3924]) (Some (LW 3922)) (Some (LW 3924));
    Cell ([3797; 85; 3924], [3925; 3927; 3926; 3928; 3929]) (Some (LW 3927)) (Some (LW 3929));
    Cell ([3800; 86; 3929], [3930; 3932; 3931; 3933; 3934]) (Some (LW 3932)) (Some (LW 3934));
    Cell ([3803; 87; 3934], [3935; 3937; 3936; 3938; 3939]) (Some (LW 3937)) (Some (LW 3939));
    Cell ([3806; 88; 3939], [3940; 3942; 3941; 3943; 3944]) (Some (LW 3942)) (Some (LW 3944));
    Cell ([3809; 89; 3944], [3945; 3947; 3946; 3948; 3949]) (Some (LW 3947)) (Some (LW 3949));
    Cell ([3812; 90; 3949], [3950; 3952; 3951; 3953; 3954]) (Some (LW 3952)) (Some (LW 3954));
    Cell ([3815; 91; 3954], [3955; 3957; 3956; 3958; 3959]) (Some (LW 3957)) (Some (LW 3959));
    Cell ([3818; 92; 3959], [3960; 3962; 3961; 3963; 3964]) (Some (LW 3962)) (Some (LW 3964));
    Cell ([3821; 93; 3964], [3965; 3967; 3966; 3968; 3969]) (Some (LW 3967)) (Some (LW 3969))]
   ([3969; 226], [3971; 3970; 3972]) 3972 4063
   [3975; 3978; 3981; 3984; 3987; 3990; 3993; 3996; 3999; 4002; 4005; 4008; 4011; 4014; 4017; 4020; 4023; 4026; 4029; 4032; 4035; 4038; 4041; 4044; 4047; 4050; 4053; 4056; 4059; 4062]
   [([3972; 34; 3823], [3973; 3974; 3975]); ([3972; 3737; 3827], [3976; 3977; 3978]); ([3972; 3740; 3832], [3979; 3980; 3981]); ([3972; 3743; 3837], [3982; 3983; 3984]); ([3972; 3746; 3842], [3985; 3986; 3987]); ([3972; 3749; 3847], [3988; 3989; 3990]); ([3972; 3752; 3852], [3991; 3992; 3993]); ([3972; 3755; 3857], [3994; 3995; 3996]); ([3972; 3758; 3862], [3997; 3998; 3999]); ([3972; 3761; 3867], [4000; 4001; 4002]); ([3972; 3764; 3872], [4003; 4004; 4005]); ([3972; 3767; 3877], [4006; 4007; 4008]); ([3972; 3770; 3882], [4009; 4010; 4011]); ([3972; 3773; 3887], [4012; 4013; 4014]); ([3972; 3776; 3892], [4015; 4016; 4017]); ([3972; 3779; 3897], [4018; 4019; 4020]); ([3972; 3782; 3902], [4021; 4022; 4023]); ([3972; 3785; 3907], [4024; 4025; 4026]); ([3972; 3788; 3912], [4027; 4028; 4029]); ([3972; 3791; 3917], [4030; 4031; 4032]); ([3972; 3794; 3922], [4033; 4034; 4035]); ([3972; 3797; 3927], [4036; 4037; 4038]); ([3972; 3800; 3932], [4039; 4040; 4041]); ([3972; 3803; 3937], [4042; 4043; 4044]); ([3972; 3806; 3942], [4045; 4046; 4047]); ([3972; 3809; 3947], [4048; 4049; 4050]); ([3972; 3812; 3952], [4051; 4052; 4053]); ([3972; 3815; 3957], [4054; 4055; 4056]); ([3972; 3818; 3962], [4057; 4058; 4059]); ([3972; 3821; 3967], [4060; 4061; 4062])].
Definition udivide64_stage_30 : ustage := UStage
   [Cell ([33; 64], [4064; 4065]) (Some (LW 4064)) (Some (LW 4065));
    Cell ([3975; 65; 4065], [4066; 4068; 4067; 4069; 4070]) (Some (LW 4068)) (Some (LW 4070));
    Cell ([3978; 66; 4070], [4071; 4073; 4072; 4074; 4075]) (Some (LW 4073)) (Some (LW 4075));
    Cell ([3981; 67; 4075], [4076; 4078; 4077; 4079; 4080]) (Some (LW 4078)) (Some (LW 4080));
    Cell ([3984; 68; 4080], [4081; 4083; 4082; 4084; 4085]) (Some (LW 4083)) (Some (LW 4085));
    Cell ([3987; 69; 4085], [4086; 4088; 4087; 4089; 4090]) (Some (LW 4088)) (Some (LW 4090));
    Cell ([3990; 70; 4090], [4091; 4093; 4092; 4094; 4095]) (Some (LW 4093)) (Some (LW 4095));
    Cell ([3993; 71; 4095], [4096; 4098; 4097; 4099; 4100]) (Some (LW 4098)) (Some (LW 4100));
    Cell ([3996; 72; 4100], [4101; 4103; 4102; 4104; 4105]) (Some (LW 4103)) (Some (LW 4105));
    Cell ([3999; 73; 4105], [4106; 4108; 4107; 4109; 4110]) (Some (LW 4108)) (Some (LW 4110));
    Cell ([4002; 74; 4110], [4111; 4113; 4112; 4114; 4115]) (Some (LW 4113)) (Some (LW 4115));
    Cell ([4005; 75; 4115], [4116; 4118; 4117; 4119; 4120]) (Some (LW 4118)) (Some (LW 4120));
    Cell ([4008; 76; 4120], [4121; 4123; 4122; 4124; 4125]) (Some (LW 4123)) (Some (LW 4125));
    Cell ([4011; 77; 4125], [4126; 4128; 4127; 4129; 4130]) (Some (LW 4128)) (Some (LW 4130));
    Cell ([4014; 78; 4130], [4131; 4133; 4132; 4134; 4135]) (Some (LW 4133)) (Some (LW 4135));
    Cell ([4017; 79; 4135], [4136; 4138; 4137; 4139; 4140]) (Some (LW 4138)) (Some (LW 4140));
    Cell ([4020; 80; 4140], [4141; 4143; 4142; 4144; 4145]) (Some (LW 4143)) (Some (LW 4145));
    Cell ([4023; 81; 4145], [4146; 4148; 4147; 4149; 4150]) (Some (LW 4148)) (Some (LW 4150));
    Cell ([4026; 82; 4150], [4151; 4153; 4152; 4154; 4155]) (Some (LW 4153)) (Some (LW 4155));
    Cell ([4029; 83; 4155], [4156; 4158; 4157; 4159; 4160]) (Some (LW 4158)) (Some (LW 4160));
    Cell ([4032; 84; 4160], [4161; 4163; 4162; 4164; 4165]) (Some (LW 4163)) (Some (LW 4165));
    Cell ([4035; 85; 4165], [4166; 4168; 4167; 4169; 4170]) (Some (LW 4168)) (Some (LW 4170));
    Cell ([4038; 86; 4170], [4171; 4173; 4172; 4174; 4175]) (Some (LW 4173)) (Some (LW 4175));
    Cell ([4041; 87; 4175], [4176; 4178; 4177; 4179; 4180]) (Some (LW 4178)) (Some (LW 4180));
    Cell ([4044; 88; 4180], [4181; 4183; 4182; 4184; 4185]) (Some (LW 4183)) (Some (LW 4185));
    Cell ([4047; 89; 4185], [4186; 4188; 4187; 4189; 4190]) (Some (LW 4188)) (Some (LW 4190));
    Cell ([4050; 90; 4190], [4191; 4193; 4192; 4194; 4195]) (Some (LW 4193)) (Some (LW 4195));
    Cell ([4053; 91; 4195], [4196; 4198; 4197; 4199; 4200]) (Some (LW 4198)) (Some (LW 4200));
    Cell ([4056; 92; 4200], [4201; 4203; 4202; 4204; 4205]) (Some (LW 4203)) (Some (LW 4205));
    Cell ([4059; 93; 4205], [4206; 4208; 4207; 4209; 4210]) (Some (LW 4208)) (Some (LW 4210));
    Cell ([4062; 94; 4210], [4211; 4213; 4212; 4214; 4215]) (Some (LW 4213)) (Some (LW 4215))]
   ([4215; 223], [4217; 4216; 4218]) 4218 4312
   [4221; 4224; 4227; 4230; 4233; 4236; 4239; 4242; 4245; 4248; 4251; 4254; 4257; 4260; 4263; 4266; 4269; 4272; 4275; 4278; 4281; 4284; 4287; 4290; 4293; 4296; 4299; 4302; 4305; 4308; 4311]
   [([4218; 33; 4064], [4219; 4220; 4221]); ([4218; 3975; 4068], [4222; 4223; 4224]); ([4218; 3978; 4073], [4225; 4226; 4227]); ([4218; 3981; 4078], [4228; 4229; 4230]); ([4218; 3984; 4083], [4231; 4232; 4233]); ([4218; 3987; 4088], [4234; 4235; 4236]); ([4218; 3990; 4093], [4237; 4238; 4239]); ([4218; 3993; 4098], [4240; 4241; 4242]); ([4218; 3996; 4103], [4243; 4244; 4245]); ([4218; 3999; 4108], [4246; 4247; 4248]); ([4218; 4002; 4113], [4249; 4250; 4251]); ([4218; 4005; 4118], [4252; 4253; 4254]); ([4218; 4008; 4123], [4255; 4256; 4257]); ([4218; 4011; 4128], [4258; 4259; 4260]); ([4218; 4014; 4133], [4261; 4262; 4263]); ([4218; 4017; 4138], [4264; 4265; 4266]); ([4218; 4020; 4143], [4267; 4268; 4269]); ([4218; 4023; 4148], [4270; 4271; 4272]); ([4218; 4026; 4153], [4273; 4274; 4275]); ([4218; 4029; 4158], [4276; 4277; 4278]); ([4218; 4032; 4163], [4279; 4280; 4281]); ([4218; 4035; 4168], [4282; 4283; 4284]); ([4218; 4038; 4173], [4285; 4286; 4287]); ([4218; 4041; 4178], [4288; 4289; 4290]); ([4218; 4044; 4183], [4291; 4292; 4293]); ([4218; 4047; 4188], [4294; 4295; 4296]); ([4218; 4050; 4193], [4297; 4298; 4299]); ([4218; 4053; 4198], [4300; 4301; 4302]); ([4218; 4056; 4203], [4303; 4304; 4305]); ([4218; 4059; 4208], [4306; 4307; 4308]); ([4218; 4062; 4213], [4309; 4310; 4311])].
Definition udivide64_stage_31 : ustage := UStage
   [Cell ([32; 64], [4313; 4314]) (Some (LW 4313)) (Some (LW 4314));
    Cell ([4221; 65; 4314], [4315; 4317; 4316; 4318; 4319]) (Some (LW 4317)) (Some (LW 4319));
    Cell ([4224; 66; 4319], [4320; 4322; 4321; 4323; 4324]) (Some (LW 4322)) (Some (LW 4324));
    Cell ([4227; 67; 4324], [4325; 4327; 4326; 4328; 4329]) (Some (LW 4327)) (Some (LW 4329));
    Cell ([4230; 68; 4329], [4330; 4332; 4331; 4333; 4334]) (Some (LW 4332)) (Some (LW 4334));
    Cell ([4233; 69; 4334], [4335; 4337; 4336; 4338; 4339]) (Some (LW 4337)) (Some (LW 4339));
    Cell ([4236; 70; 4339], [4340; 4342; 4341; 4343; 4344]) (Some (LW 4342)) (Some (LW 4344));
    Cell ([4239; 71; 4344], [4345; 4347; 4346; 4348; 4349]) (Some (LW 4347)) (Some (LW 4349));
    Cell ([4242; 72; 4349], [4350; 4352; 4351; 4353; 4354]) (Some (LW 4352)) (Some (LW 4354));
    Cell ([4245; 73; 4354], [4355; 4357; 4356; 4358; 4359]) (Some (LW 4357)) (Some (LW 4359));
    Cell ([4248; 74; 4359], [4360; 4362; 4361; 4363; 4364]) (Some (LW 4362)) (Some (LW 4364));
    Cell ([4251; 75; 4364], [4365; 4367; 4366; 4368; 4369]) (Some (LW 4367)) (Some (LW 4369));
    Cell ([4254; 76; 4369], [4370; 4372; 4371; 4373; 4374]) (Some (LW 4372)) (Some (LW 4374));
    Cell ([4257; 77; 4374], [4375; 4377; 4376; 4378; 4379]) (Some (LW 4377)) (Some (LW 4379));
    Cell ([4260; 78; 4379], [4380; 4382; 4381; 4383; 4384]) (Some (LW 4382)) (Some (LW 4384));
    Cell ([4263; 79; 4384], [4385; 4387; 4386; 4388; 4389]) (Some (LW 4387)) (Some (LW 4389));
    Cell ([4266; 80; 4389], [4390; 4392; 4391; 4393; 4394]) (Some (LW 4392)) (Some (LW 4394));
    Cell ([4269; 81; 4394], [4395; 4397; 4396; 4398; 4399]) (Some (LW 4397)) (Some (LW 4399));
    Cell ([4272; 82; 4399], [4400; 4402; 4401; 4403; 4404]) (Some (LW 4402)) (Some (LW 4404));
    Cell ([4275; 83; 4404], [4405; 4407; 4406; 4408; 4409]) (Some (LW 4407)) (Some (LW 4409));
    Cell ([4278; 84; 4409], [4410; 4412; 4411; 4413; 4414]) (Some (LW 4412)) (Some (LW 4414));
    Cell ([4281; 85; 4414], [4415; 4417; 4416; 4418; 4419]) (Some (LW 4417)) (Some (LW 4419));
    Cell ([4284; 86; 4419], [4420; 4422; 4421; 4423; 4424]) (Some (LW 4422)) (Some (LW 4424));
    Cell ([4287; 87; 4424], [4425; 4427; 4426; 4428; 4429]) (Some (LW 4427)) (Some (LW 4429));
    Cell ([4290; 88; 4429], [4430; 4432; 4431; 4433; 4434]) (Some (LW 4432)) (Some (LW 4434));
    Cell ([4293; 89; 4434], [4435; 4437; 4436; 4438; 4439]) (Some (LW 4437)) (Some (LW 4439));
    Cell ([4296; 90; 4439], [4440; 4442; 4441; 4443; 4444]) (Some (LW 4442)) (Some (LW 4444));
    Cell ([4299; 91; 4444], [4445; 4447; 4446; 4448; 4449]) (Some (LW 4447)) (Some (LW 4449));
    Cell ([4302; 92; 4449], [4450; 4452; 4451; 4453; 4454]) (Some (LW 4452)) (Some (LW 4454));
    Cell ([4305; 93; 4454], [4455; 4457; 4456; 4458; 4459]) (Some (LW 4457)) (Some (LW 4459));
    Cell ([4308; 94; 4459], [4460; 4462; 4461; 4463; 4464]) (Some (LW 4462)) (Some (LW 4464));
    Cell ([4311; 95; 4464], [4465; 4467; 4466; 4468; 4469]) (Some (LW 4467)) (Some (LW 4469))]
   ([4469; 220], [4471; 4470; 4472]) 4472 4569
   [4475; 4478; 4481; 4484; 4487; 4490; 4493; 4496; 4499; 4502; 4505; 4508; 4511; 4514; 4517; 4520; 4523; 4526; 4529; 4532; 4535; 4538; 4541; 4544; 4547; 4550; 4553; 4556; 4559; 4562; 4565; 4568]
   [([4472; 32; 4313], [4473; 4474; 4475]); ([4472; 4221; 4317], [4476; 4477; 4478]); ([4472; 4224; 4322], [4479; 4480; 4481]); ([4472; 4227; 4327], [4482; 4483; 4484]); ([4472; 4230; 4332], [4485; 4486; 4487]); ([4472; 4233; 4337], [4488; 4489; 4490]); ([4472; 4236; 4342], [4491; 4492; 4493]); ([4472; 4239; 4347], [4494; 4495; 4496]); ([4472; 4242; 4352], [4497; 4498; 4499]); ([4472; 4245; 4357], [4500; 4501; 4502]); ([4472; 4248; 4362], [4503; 4504; 4505]); ([4472; 4251; 4367], [4506; 4507; 4508]); ([4472; 4254; 4372], [4509; 4510; 4511]); ([4472; 4257; 4377], [4512; 4513; 4514]); ([4472; 4260; 4382], [4515; 4516; 4517]); ([4472; 4263; 4387], [4518; 4519; 4520]); ([4472; 4266; 4392], [4521; 4522; 4523]); ([4472; 4269; 4397], [4524; 4525; 4526]); ([4472; 4272; 4402], [4527; 4528; 4529]); ([4472; 4275; 4407], [4530; 4531; 4532]); ([4472; 4278; 4412], [4533; 4534; 4535]); ([4472; 4281; 4417], [4536; 4537; 4538]); ([4472; 4284; 4422], [4539; 4540; 4541]); ([4472; 4287; 4427], [4542; 4543; 4544]); ([4472; 4290; 4432], [4545; 4546; 4547]); ([4472; 4293; 4437], [4548; 4549; 4550]); ([4472; 4296; 4442], [4551; 4552; 4553]); ([4472; 4299; 4447], [4554; 4555; 4556]); ([4472; 4302; 4452], [4557; 4558; 4559]); ([4472; 4305; 4457], [4560; 4561; 4562]); ([4472; 4308; 4462], [4563; 4564; 4565]); ([4472; 4311; 4467], [4566; 4567; 4568])].
Definition udivide64_stage_32 : ustage := UStage
   [Cell ([31; 64], [4570; 4571]) (Some (LW 4570)) (Some (LW 4571));
    Cell ([4475; 65; 4571], [4572; 4574; 4573; 4575; 4576]) (Some (LW 4574)) (Some (LW 4576));
    Cell ([4478; 66; 4576], [4577; 4579; 4578; 4580; 4581]) (Some (LW 4579)) (Some (LW 4581));
    Cell ([4481; 67; 4581], [4582; 4584; 4583; 4585; 4586]) (Some (LW 4584)) (Some (LW 4586));
    Cell ([4484; 68; 4586], [4587; 4589; 4588; 4590; 4591]) (Some (LW 4589)) (Some (LW 4591));
    Cell ([4487; 69; 4591], [4592; 4594; 4593; 4595; 4596]) (Some (LW 4594)) (Some (LW 4596));
    Cell ([4490; 70; 4596], [4597; 4599; 4598; 4600; 4601]) (Some (LW 4599)) (Some (LW 4601));
    Cell ([4493; 71; 4601], [4602; 4604; 4603; 4605; 4606]) (Some (LW 4604)) (Some (LW 4606));
    Cell ([4496; 72; 4606], [4607; 4609; 4608; 4610; 4611]) (Some (LW 4609)) (Some (LW 4611));
    Cell ([4499; 73; 4611], [4612; 4614; 4613; 4615; 4616]) (Some (LW 4614)) (Some (LW 4616));
    Cell ([4502; 74; 4616], [4617; 4619; 4618; 4620; 4621]) (Some (LW 4619)) (Some (LW 4621));
    Cell ([4505; 75; 4621], [4622; 4624; 4623; 4625; 4626]) (Some (LW 4624)) (Some (LW 4626));
    Cell ([4508; 76; 4626], [4627; 4629; 4628; 4630; 4631]) (Some (LW 4629)) (Some (LW 4631));
    Cell ([4511; 77; 4631], [4632; 4634; 4633; 4635; 4636]) (Some (LW 4634)) (Some (LW 4636));
    Cell ([4514; 78; 4636], [4637; 4639; 4638; 4640; 4641]) (Some (LW 4639)) (Some (LW 4641));
    Cell ([4517; 79; 4641], [4642; 4644; 4643; 4645; 4646]) (Some (LW 4644)) (Some (LW 4646));
    Cell ([4520; 80; 4646], [4647; 4649; 4648; 4650; 4651]) (Some (LW 4649)) (Some (LW 4651));
    Cell ([4523; 81; 4651], [4652; 4654; 4653; 4655; 4656]) (Some (LW 4654)) (Some (LW 4656));
    Cell ([4526; 82; 4656], [4657; 4659; 4658; 4660; 4661]) (Some (LW 4659)) (Some (LW 4661));
    Cell ([4529; 83; 4661], [4662; 4664; 4663; 4665; 4666]) (Some (LW 4664)) (Some (LW 4666));
    Cell ([4532; 84; 4666], [4667; 4669; 4668; 4670; 4671]) (Some (LW 4669)) (Some (LW 4671));
    Cell ([4535; 85; 4671], [4672; 4674; 4673; 4675; 4676]) (Some (LW 4674)) (Some (LW 4676));
    Cell ([4538; 86; 4676], [4677; 4679; 4678; 4680; 4681]) (Some (LW 4679)) (Some (LW 4681));
    Cell ([4541; 87; 4681], [4682; 4684; 4683; 4685; 4686]) (Some (LW 4684)) (Some (LW 4686));
    Cell ([4544; 88; 4686], [4687; 4689; 4688; 4690; 4691]) (Some (LW 4689)) (Some (LW 4691));
    Cell ([4547; 89; 4691], [4692; 4694; 4693; 4695; 4696]) (Some (LW 4694)) (Some (LW 4696));
    Cell ([4550; 90; 4696], [4697; 4699; 4698; 4700; 4701]) (Some (LW 4699)) (Some (LW 4701));
    Cell ([4553; 91; 4701], [4702; 4704; 4703; 4705; 4706]) (Some (LW 4704)) (Some (LW 4706));
    Cell ([4556; 92; 4706], [4707; 4709; 4708; 4710; 4711]) (Some (LW 4709)) (Some (LW 4711));
    Cell ([4559; 93; 4711], [4712; 4714; 4713; 4715; 4716]) (Some (LW 4714)) (Some (LW 4716));
    Cell ([4562; 94; 4716], [4717; 4719; 4718; 4720; 4721]) (Some (LW 4719)) (Some (LW 4721));
    Cell ([4565; 95; 4721], [4722; 4724; 4723; 4725; 4726]) (Some (LW 4724)) (Some (LW 4726));
    Cell ([4568; 96; 4726], [4727; 4729; 4728; 4730; 4731]) (Some (LW 4729)) (Some (LW 4731))]
   ([4731; 217], [4733; 4732; 4734]) 4734 4834
   [4737; 4740; 4743; 4746; 4749; 4752; 4755; 4758; 4761; 4764; 4767; 4770; 4773; 4776; 4779; 4782; 4785; 4788; 4791; 4794; 4797; 4800; 4803; 4806; 4809; 4812; 4815; 4818; 4821; 4824; 4827; 4830; 4833]
   [([4734; 31; 4570], [4735; 4736; 4737]); ([4734; 4475; 4574], [4738; 4739; 4740]); ([4734; 4478; 4579], [4741; 4742; 4743]); ([4734; 4481; 4584], [4744; 4745; 4746]); ([4734; 4484; 4589], [4747; 4748; 4749]); ([4734; 4487; 4594], [4750; 4751; 4752]); ([4734; 4490; 4599], [4753; 4754; 4755]); ([4734; 4493; 4604], [4756; 4757; 4758]); ([4734; 4496; 4609], [4759; 4760; 4761]); ([4734; 4499; 4614], [4762; 4763; 4764]); ([4734; 4502; 4619], [4765; 4766; 4767]); ([4734; 4505; 4624], [4768; 4769; 4770]); ([4734; 4508; 4629], [4771; 4772; 4773]); ([4734; 4511; 4634], [4774; 4775; 4776]); ([4734; 4514; 4639], [4777; 4778; 4779]); ([4734; 4517; 4644], [4780; 4781; 4782]); ([4734; 4520; 4649], [4783; 4784; 4785]); ([4734; 4523; 4654], [4786; 4787; 4788]); ([4734; 4526; 4659], [4789; 4790; 4791]); ([4734; 4529; 4664], [4792; 4793; 4794]); ([4734; 4532; 4669], [4795; 4796; 4797]); ([4734; 4535; 4674], [4798; 4799; 4800]); ([4734; 4538; 4679], [4801; 4802; 4803]); ([4734; 4541; 4684], [4804; 4805; 4806]); ([4734; 4544; 4689], [4807; 4808; 4809]); ([4734; 4547; 4694], [4810; 4811; 4812]); ([4734; 4550; 4699], [4813; 4814; 4815]); ([4734; 4553; 4704], [4816; 4817; 4818]); ([4734; 4556; 4709], [4819; 4820; 4821]); ([4734; 4559; 4714], [4822; 4823; 4824]); ([4734; 4562; 4719], [4825; 4826; 4827]); ([4734; 4565; 4724], [4828; 4829; 4830]); ([4734; 4568; 4729], [4831; 4832; 4833])].
Definition udivide64_stage_33 : ustage := UStage
   [Cell ([30; 64], [4835; 4836]) (Some (LW 4835)) (Some (LW 4836));
    Cell ([4737; 65; 4836], [4837; 4839; 4838; 4840; 4841]) (Some (LW 4839)) (Some (LW 4841));
    Cell ([4740; 66; 4841], [4842; 4844; 4843; 4845; 4846]) (Some (LW 4844)) (Some (LW 4846));
    Cell ([4743; 67; 4846], [4847; 4849; 4848; 4850; 4851]) (Some (LW 4849)) (Some (LW 4851));
    Cell ([4746; 68; 4851], [4852; 4854; 4853; 4855; 4856]) (Some (LW 4854)) (Some (LW 4856));
    Cell ([4749; 69; 4856], [4857; 4859; 4858; 4860; 4861]) (Some (LW 4859)) (Some (LW 4861));
    Cell ([4752; 70; 4861], [4862; 4864; 4863; 4865; 4866]) (Some (LW 4864)) (Some (LW 4866));
    Cell ([4755; 71; 4866], [4867; 4869; 4868; 4870; 4871]) (Some (LW 4869)) (Some (LW 4871));
    Cell ([4758; 72; 4871], [4872; 4874; 4873; 4875; 4876]) (Some (LW 4874)) (Some (LW 4876));
    Cell ([4761; 73; 4876], [4877; 4879; 4878; 4880; 4881]) (Some (LW 4879)) (Some (LW 4881));
    Cell ([4764; 74; 4881], [4882; 4884; 4883; 4885; 4886]) (Some (LW 4884)) (Some (LW 4886));
    Cell ([4767; 75; 4886], [4887; 4889; 4888; 4890; 4891]) (Some (LW 4889)) (Some (LW 4891));
    Cell ([4770; 76; 4891], [4892; 4894; 4893; 4895; 4896]) (Some (LW 4894)) (Some (LW 4896));
    Cell ([4773; 77; 4896], [4897; 4899; 4898; 4900; 4901]) (Some (LW 4899)) (Some (LW 4901));
    Cell ([4776; 78; 4901], [4902; 4904; 4903; 4905; 4906]) (Some (LW 4904)) (Some (LW 4906));
    Cell ([4779; 79; 4906], [4907; 4909; 4908; 4910; 4911]) (Some (LW 4909)) (Some (LW 4911));
    Cell ([4782; 80; 4911], [4912; 4914; 4913; 4915; 4916]) (Some (LW 4914)) (Some (LW 4916));
    Cell ([4785; 81; 4916], [4917; 4919; 4918; 4920; 4921]) (Some (LW 4919)) (Some (LW 4921));
    Cell ([4788; 82; 4921], [4922; 4924; 4923; 4925; 4926]) (Some (LW 4924)) (Some (LW 4926));
    Cell ([4791; 83; 4926], [4927; 4929; 4928; 4930; 4931]) (Some (LW 4929)) (Some (LW 4931));
    Cell ([4794; 84; 4931], [4932; 4934; 4933; 4935; 4936]) (Some (LW 4934)) (Some (LW 4936));
    Cell ([4797; 85; 4936], [4937; 4939; 4938; 4940; 4941]) (Some (LW 4939)) (Some (LW 4941));
    Cell ([4800; 86; 4941], [4942; 4944; 4943; 4945; 4946]) (Some (LW 4944)) (Some (LW 4946));
    Cell ([4803; 87; 4946], [4947; 4949; 4948; 4950; 4951]) (Some (LW 4949)) (Some (LW 4951));
    Cell ([4806; 88; 4951], [4952; 4954; 4953; 4955; 4956]) (Some (LW 4954)) (Some (LW 4956));
    Cell ([4809; 89; 4956], [4957; 4959; 4958; 4960; 4961]) (Some (LW 4959)) (Some (LW 4961));
    Cell ([4812; 90; 4961], [4962; 4964; 4963; 4965; 4966]) (Some (LW 4964)) (Some (LW 4966));
    Cell ([4815; 91; 4966], [4967; 4969; 4968; 4970; 4971]) (Some (LW 4969)) (Some (LW 4971));
    Cell ([4818; 92; 4971], [4972; 4974; 4973; 4975; 4976]) (Some (LW 4974)) (Some (LW 4976));
    Cell ([4821; 93; 4976], [4977; 4979; 4978; 4980; 4981]) (Some (LW 4979)) (Some (LW 4981));
    Cell ([4824; 94; 4981], [4982; 4984; 4983; 4985; 4986]) (Some (LW 4984)) (Some (LW 4986));
    Cell ([4827; 95; 4986], [4987; 4989; 4988; 4990; 4991]) (Some (LW 4989)) (Some (LW 4991));
    Cell ([4830; 96; 4991], [4992; 4994; 4993; 4995; 4996]) (Some (LW 4994)) (Some (LW 4996));
    Cell ([4833; 97; 4996], [4997; 4999; 4998; 5000; 5001]) (Some (LW 4999)) (Some (LW 5001))]
   ([5001; 214], [5003; 5002; 5004]) 5004 5107
   [5007; 5010; 5013; 5016; 5019; 5022; 5025; 5028; 5031; 5034; 5037; 5040; 5043; 5046; 5049; 5052; 5055; 5058; 5061; 5064; 5067; 5070; 5073; 5076; 5079; 5082; 5085; 5088; 5091; 5094; 5097; 5100; 5103; 5106]
   [([5004; 30; 4835], [5005; 5006; 5007]); ([5004; 4737; 4839], [5008; 5009; 5010]); ([5004; 4740; 4844], [5011; 5012; 5013]); ([5004; 4743; 4849], [5014; 5015; 5016]); ([5004; 4746; 4854], [5017; 5018; 5019]); ([5004; 4749; 4859], [5020; 5021; 5022]); ([5004; 4752; 4864], [5023; 5024; 5025]); ([5004; 4755; 4869], [5026; 5027; 5028]); ([5004; 4758; 4874], [5029; 5030; 5031]); ([5004; 4761; 4879], [5032; 5033; 5034]); ([5004; 4764; 4884], [5035; 5036; 5037]); ([5004; 4767; 4889], [5038; 5039; 5040]); ([5004; 4770; 4894], [5041; 5042; 5043]); ([5004; 4773; 4899], [5044; 5045; 5046]); ([5004; 4776; 4904], [5047; 5048; 5049]); ([5004; 4779; 4909], [5050; 5051; 5052]); ([5004; 4782; 4914], [5053; 5054; 5055]); ([5004; 4785; 4919], [5056; 5057; 5058]); ([5004; 4788; 4924], [5059; 5060; 5061]); ([5004; 4791; 4929], [5062; 5063; 5064]); ([5004; 4794; 4934], [5065; 5066; 5067]); ([5004; 4797; 4939], [5068; 5069; 5070]); ([5004; 4800; 4944], [5071; 5072; 5073]); ([5004; 4803; 4949], [5074; 5075; 5076]); ([5004; 4806; 4954], [5077; 5078; 5079]); ([5004; 4809; 4959], [5080; 5081; 5082]); ([5004; 4812; 4964], [5083; 5084; 5085]); ([5004; 4815; 4969], [5086; 5087; 5088]); ([5004; 4818; 4974], [5089; 5090; 5091]); ([5004; 4821; 4979], [5092; 5093; 5094]); ([5004; 4824; 4984], [5095; 5096; 5097]); ([5004; 4827; 4989], [5098; 5099; 5100]); ([5004; 4830; 4994], [5101; 5102; 5103]); ([5004; 4833; 4999], [5104; 5105; 5106])].
Definition udivide64_stage_34 : ustage := UStage
   [Cell ([29; 64], [5108; 5109]) (Some (LW 5108)) (Some (LW 5109));
    Cell ([5007; 65; 5109], [5110; 5112; 5111; 5113; 5114]) (Some (LW 5112)) (Some (LW 5114));
    Cell ([5010; 66; 5114], [5115; 5117; 5116; 5118; 5119]) (Some (LW 5117)) (Some (LW 5119));
    Cell ([5013; 67; 5119], [5120; 5122; 5121; 5123; 5124]) (Some (LW 5122)) (Some (LW 5124));
    Cell ([5016; 68; 5124], [5125; 5127; 5126; 5128; 5129]) (Some (LW 5127)) (Some (LW 5129));
    Cell ([5019; 69; 5129], [5130; 5132; 5131; 5133; 5134]) (Some (LW 5132)) (Some (LW 5134));
    Cell ([5022; 70; 5134], [5135; 5137; 5136; 5138; 5139]) (Some (LW 5137)) (Some (LW 5139));
    Cell ([5025; 71; 5139], [5140; 5142; 5141; 5143; 5144]) (Some (LW 5142)) (Some (LW 5144));
    Cell ([5028; 72; 5144], [5145; 5147; 5146; 5148; 5149]) (Some (LW 5147)) (Some (LW 5149));
    Cell ([5031; 73; 5149], [5150; 5152; 5151; 5153; 5154]) (Some (LW 5152)) (Some (LW 5154));
    Cell ([5034; 74; 5154], [5155; 5157; 5156; 5158; 5159]) (Some (LW 5157)) (Some (LW 5159));
    Cell ([5037; 75; 5159], [5160; 5162; 5161; 5163; 5164]) (Some (LW 5162)) (Some (LW 5164));
    Cell ([5040; 76; 5164], [5165; 5167; 5166; 5168; 5169]) (Some (LW 5167)) (Some (LW 5169));
    Cell ([5043; 77; 5169], [5170; 5172; 5171; 5173; 5174]) (Some (LW 5172)) (Some (LW 5174));
    Cell ([5046; 78; 5174], [5175; 5177; 5176; 5178; 5179]) (Some (LW 5177)) (Some (LW 5179));
    Cell ([5049; 79; 5179], [5180; 5182; 5181; 5183; 5184]) (Some (LW 5182)) (Some (LW 5184));
    Cell ([5052; 80; 5184], [5185; 5187; 5186; 5188; 5189]) (Some (LW 5187)) (Some (LW 5189));
    Cell ([5055; 81; 5189], [5190; 5192; 5191; 5193; 5194]) (Some (LW 5192)) (Some (LW 5194));
    Cell ([5058; 82; 5194], [5195; 5197; 5196; 5198; 5199]) (Some (LW 5197)) (Some (LW 5199));
    Cell ([5061; 83; 5199], [5200; 5202; 5201; 5203; 5204]) (Some (LW 5202)) (Some (LW 5204));
    Cell ([5064; 84; 5204], [5205; 5207; 5206; 5208; 5209]) (Some (LW 5207)) (Some (LW 5209));
    Cell ([5067; 85; 5209], [5210; 5212; 5211; 5213; 5214]) (Some (LW 5212)) (Some (LW 5214));
    Cell ([5070; 86; 5214], [5215; 5217; 5216; 5218; 5219]) (Some (LW 5217)) (Some (LW 5219));
    Cell ([5073; 87; 5219], [5220; 5222; 5221; 5223; 5224]) (Some (LW 5222)) (Some (LW 5224));
    Cell ([5076; 88; 5224], [5225; 5227; 5226; 5228; 5229]) (Some (LW 5227)) (Some (LW 5229));
    Cell ([5079; 89; 5229], [5230; 5232; 5231; 5233; 5234]) (Some (LW 5232)) (Some (LW 5234));
    Cell ([5082; 90; 5234], [5235; 5237; 5236; 5238; 5239]) (Some (LW 5237)) (Some (LW 5239));
    Cell ([5085; 91; 5239], [5240; 5242; 5241; 5243; 5244]) (Some (LW 5242)) (Some (LW 5244));
    Cell ([5088; 92; 5244], [5245; 5247; 5246; 5248; 5249]) (Some (LW 5247)) (Some (LW 5249));
    Cell ([5091; 93; 5249], [5250; 5252; 5251; 5253; 5254]) (Some (LW 5252)) (Some (LW 5254));
    Cell ([5094; 94; 5254], [5255; 5257; 5256; 5258; 5259]) (Some (LW 5257)) (Some (LW 5259));
    Cell ([5097; 95; 5259], [5260; 5262; 5261; 5263; 5264]) (Some (LW 5262)) (Some (LW 5264));
    Cell ([5100; 96; 5264], [5265; 5267; 5266; 5268; 5269]) (Some (LW 5267)) (Some (LW 5269));
    Cell ([5103; 97; 5269], [5270; 5272; 5271; 5273; 5274]) (Some (LW 5272)) (Some (LW 5274));
    Cell ([5106; 98; 5274], [5275; 5277; 5276; 5278; 5279]) (Some (LW 5277)) (Some (LW 5279))]
   ([5279; 211], [5281; 5280; 5282]) 5282 5388
   [5285; 5288; 5291; 5294; 5297; 5300; 5303; 5306; 5309; 5312; 5315; 5318; 5321; 5324; 5327; 5330; 5333; 5336; 5339; 5342; 5345; 5348; 5351; 5354; 5357; 5360; 5363; 5366; 5369; 5372; 5375; 5378; 5381; 5384; 5387]
   [([5282; 29; 5108], [5283; 5284; 5285]); ([5282; 5007; 5112], [5286; 5287; 5288]); ([5282; 5010; 5117], [5289; 5290; 5291]); ([5282; 5013; 5122], [5292; 5293; 5294]); ([5282; 5016; 5127], [5295; 5296; 5297]); ([5282; 5019; 5132], [5298; 5299; 5300]); ([5282; 5022; 5137], [5301; 5302; 5303]); ([5282; 5025; 5142], [5304; 5305; 5306]); ([5282; 5028; 5147], [5307; 5308; 5309]); ([5282; 5031; 5152], [5310; 5311; 5312]); ([5282; 5034; 5157], [5313; 5314; 5315]); ([5282; 5037; 5162], [5316; 5317; 5318]); ([5282; 5040; 5167], [5319; 5320; 5321]); ([5282; 5043; 5172], [5322; 5323; 5324]); ([5282; 5046; 5177], [5325; 5326; 5327]); ([5282; 5049; 5182], [5328; 5329; 5330]); ([5282; 5052; 5187], [5331; 5332; 5333]); ([5282; 5055; 5192], [5334; 5335; 5336]); ([5282; 5058; 5197], [5337; 5338; 5339]); ([5282; 5061; 5202], [5340; 5341; 5342]); ([5282; 5064; 5207], [5343; 5344; 5345]); ([5282; 5067; 5212], [5346; 5347; 5348]); ([5282; 5070; 5217], [5349; 5350; 5351]); ([5282; 5073; 5222], [5352; 5353; 5354]); ([5282; 5076; 5227], [5355; 5356; 5357]); ([5282; 5079; 5232], [5358; 5359; 5360]); ([5282; 5082; 5237], [5361; 5362; 5363]); ([5282; 5085; 5242], [5364; 5365; 5366]); ([5282; 5088; 5247], [5367; 5368; 5369]); ([5282; 5091; 5252], [5370; 5371; 5372]); ([5282; 5094; 5257], [5373; 5374; 5375]); ([5282; 5097; 5262], [5376; 5377; 5378]); ([5282; 5100; 5267], [5379; 5380; 5381]); ([5282; 5103; 5272], [5382; 5383; 5384]); ([5282; 5106; 5277], [5385; 5386; 5387])].
Definition udivide64_stage_35 : ustage := UStage
   [Cell ([28; 64], [5389; 5390]) (Some (LW 5389)) (Some (LW 5390));
    Cell ([5285; 65; 5390], [5391; 5393; 5392; 5394; 5395]) (Some (LW 5393)) (Some (LW 5395));
    Cell ([5288; 66; 5395], [5396; 5398; 5397; 5399; 5400]) (Some (LW 5398)) (Some (LW 5400));
    Cell ([5291; 67; 5400], [5401; 5403; 5402; 5404; 5405]) (Some (LW 5403)) (Some (LW 5405));
    Cell ([5294; 68; 5405], [5406; 5408; 5407; 5409; 5410]) (Some (LW 5408)) (Some (LW 5410));
    Cell ([5297; 69; 5410], [5411; 5413; 5412; 5414; 5415]) (Some (LW 5413)) (Some (LW 5415));
    Cell ([5300; 70; 5415], [5416; 5418; 5417; 5419; 5420]) (Some (LW 5418)) (Some (LW 5420));
    Cell ([5303; 71; 5420], [5421; 5423; 5422; 5424; 5425]) (Some (LW 5423)) (Some (LW 5425));
    Cell ([5306; 72; 5425], [5426; 5428; 5427; 5429; 5430]) (Some (LW 5428)) (Some (LW 5430));
    Cell ([5309; 73; 5430], [5431; 5433; 5432; 5434; 5435]) (Some (LW 5433)) (Some (LW 5435));
    Cell ([5312; 74; 5435], [5436; 5438; 5437; 5439; 5440]) (Some (LW 5438)) (Some (LW 5440));
    Cell ([5315; 75; 5440], [5441; 5443; 5442; 5444; 5445]) (Some (LW 5443)) (Some (LW 5445));
    Cell ([5318; 76; 5445], [5446; 5448; 5447; 5449; 5450]) (Some (LW 5448)) (Some (LW 5450));
    Cell ([5321; 77; 5450], [5451; 5453; 5452; 5454; 5455]) (Some (LW 5453)) (Some (LW 5455));
    Cell ([5324; 78; 5455], [5456; 5458; 5457; 5459; 5460]) (Some (LW 5458)) (Some (LW 5460));
    Cell ([5327; 79; 5460], [5461; 5463; 5462; 5464; 5465]) (Some (LW 5463)) (Some (LW 5465));
    Cell ([5330; 80; 5465], [5466; 5468; 5467; 5469; 5470]) (Some (LW 5468)) (Some (LW 5470));
    Cell ([5333; 81; 5470], [5471; 5473; 5472; 5474; 5475]) (Some (LW 5473)) (Some (LW 5475));
    Cell ([5336; 82; 5475], [5476; 5478; 5477; 5479; 5480]) (Some (LW 5478)) (Some (LW 5480));
    Cell ([5339; 83; 5480], [5481; 5483; 5482; 5484; 5485]) (Some (LW 5483)) (Some (LW 5485));
    Cell ([5342; 84; 5485], [5486; 5488; 5487; 5489; 5490]) (Some (LW 5488)) (Some (LW 5490));
    Cell ([5345; 85; 5490], [5491; 5493; 5492; 5494; 5495]) (Some (LW 5493)) (Some (LW 5495));
    Cell ([5348; 86; 5495], [5496; 5498; 5497; 5499; 5500]) (Some (LW 5498)) (Some (LW 5500));
    Cell ([5351; 87; 5500], [5501; 5503; 5502; 5504; 5505]) (Some (LW 5503)) (Some (LW 5505));
    Cell ([5354; 88; 5505], [5506; 5508; 5507; 5509; 5510]) (Some (LW 5508)) (Some (LW 5510));
    Cell ([5357; 89; 5510], [5511; 5513; 5512; 5514; 5515]) (Some (LW 5513)) (Some (LW 5515));
    Cell ([5360; 90; 5515], [5516; 5518; 5517; 5519; 5520]) (Some (LW 5518)) (Some (LW 5520));
    Cell ([5363; 91; 5520], [5521; 5523; 5522; 5524; 5525]) (Some (LW 5523)) (Some (LW 5525));
    Cell ([5366; 92; 5525], [5526; 5528; 5527; 5529; 5530]) (Some (LW 5528)) (Some (LW 5530));
    Cell ([5369; 93; 5530], [5531; 5533; 5532; 5534; 5535]) (Some (LW 5533)) (Some (LW 5535));
    Cell ([5372; 94; 5535], [5536; 5538; 5537; 5539; 5540]) (Some (LW 5538)) (Some (LW 5540));
    Cell ([5375; 95; 5540], [5541; 5543; 5542; 5544; 5545]) (Some (LW 5543)) (Some (LW 5545));
    Cell ([5378; 96; 5545], [5546; 5548; 5547; 5549; 5550]) (Some (LW 5548)) (Some (LW 5550));
    Cell ([5381; 97; 5550], [5551; 5553; 5552; 5554; 5555]) (Some (LW 5553)) (Some (LW 5555));
    Cell ([5384; 98; 5555], [5556; 5558; 5557; 5559; 5560]) (Some (LW 5558)) (Some (LW 5560));
    Cell ([5387; 99; 5560], [5561; 5563; 5562; 5564; 5565]) (Some (LW 5563)) (Some (LW 5565))]
   ([5565; 208], [5567; 5566; 5568]) 5568 5677
   [5571; 5574; 5577; 5580; 5583; 5586; 5589; 5592; 5595; 5598; 5601; 5604; 5607; 5610; 5613; 5616; 5619; 5622; 5625; 5628; 5631; 5634; 5637; 5640; 5643; 5646; 5649; 5652; 5655; 5658; 5661; 5664; 5667; 5670; 5673; 5676]
   [([5568; 28; 5389], [5569; 5570; 5571]); ([5568; 5285; 5393], [5572; 5573; 5574]); ([5568; 5288; 5398], [5575; 5576; 5577]); ([5568; 5291; 5403], [5578; 5579; 5580]); ([5568; 5294; 5408], [5581; 5582; 5583]); ([5568; 5297; 5413], [5584; 5585; 5586]); ([5568; 5300; 5418], [5587; 5588; 5589]); ([5568; 5303; 5423], [5590; 5591; 5592]); ([5568; 5306; 5428], [5593; 5594; 5595]); ([5568; 5309; 5433], [5596; 5597; 5598]); ([5568; 5312; 5438], [5599; 5600; 5601]); ([5568; 5315; 5443], [5602; 5603; 5604]); ([5568; 5318; 5448], [5605; 5606; 5607]); ([5568; 5321; 5453], [5608; 5609; 5610]); ([5568; 5324; 5458], [5611; 5612; 5613]); ([5568; 5327; 5463], [5614; 5615; 5616]); ([5568; 5330; 5468], [5617; 5618; 5619]); ([5568; 5333; 5473], [5620; 5621; 5622]); ([5568; 5336; 5478], [5623; 5624; 5625]); ([5568; 5339; 5483], [5626; 5627; 5628]); ([5568; 5342; 5488], [5629; 5630; 5631]); ([5568; 5345; 5493], [5632; 5633; 5634]); ([5568; 5348; 5498], [5635; 5636; 5637]); ([5568; 5351; 5503], [5638; 5639; 5640]); ([5568; 5354; 5508], [5641; 5642; 5643]); ([5568; 5357; 5513], [5644; 5645; 5646]); ([5568; 5360; 5518], [5647; 5648; 5649]); ([5568; 5363; 5523], [5650; 5651; 5652]); ([5568; 5366; 5528], [5653; 5654; 5655]); ([5568; 5369; 5533], [5656; 5657; 5658]); ([5568; 5372; 5538], [5659; 5660; 5661]); ([5568; 5375; 5543], [5662; 5663; 5664]); ([5568; 5378; 5548], [5665; 5666; 5667]); ([5568; 5381; 5553], [5668; 5669; 5670]); ([5568; 5384; 5558], [5671; 5672; 5673]); ([5568; 5387; 5563], [5674; 5675; 5676])].
Definition udivide64_stage_36 : ustage := UStage
   [Cell ([27; 64], [5678; 5679]) (Some (LW 5678)) (Some (LW 5679));
    Cell ([5571; 65; 5679], [5680; 5682; 5681; 5683; 5684]) (Some (LW 5682)) (Some (LW 5684));
    Cell ([5574; 66; 5684], [5685; 5687; 5686; 5688; 5689]) (Some (LW 5687)) (Some (LW 5689));
    Cell ([5577; 67; 5689], [5690; 5692; 5691; 5693; 5694]) (Some (LW 5692)) (Some (LW 5694));
    Cell ([5580; 68; 5694], [5695; 5697; 5696; 5698; 5699]) (Some (LW 5697)) (Some (LW 5699));
    Cell ([5583; 69; 5699], [5700; 5702; 5701; 5703; 5704]) (Some (LW 5702)) (Some (LW 5704));
    Cell ([5586; 70; 5704], [5705; 5707; 5706; 5708; 5709]) (Some (LW 5707)) (Some (LW 5709));
    Cell ([5589; 71; 5709], [5710; 5712; 5711; 5713; 5714]) (Some (LW 5712)) (Some (LW 5714));
    Cell ([5592; 72; 5714], [5715; 5717; 5716; 5718; 5719]) (Some (LW 5717)) (Some (LW 5719));
    Cell ([5595; 73; 5719], [5720; 5722; 5721; 5723; 5724]) (Some (LW 5722)) (Some (LW 5724));
    Cell ([5598; 74; 5724], [5725; 5727; 5726; 5728; 5729]) (Some (LW 5727)) (Some (LW 5729));
    Cell ([5601; 75; 5729], [5730; 5732; 5731; 5733; 5734]) (Some (LW 5732)) (Some (LW 5734));
    Cell ([5604; 76; 5734], [5735; 5737; 5736; 5738; 5739]) (Some (LW 5737)) (Some (LW 5739));
    Cell ([5607; 77; 5739], [5740; 5742; 5741; 5743; 5744]) (Some (LW 5742)) (Some (LW 5744));
    Cell ([5610; 78; 5744], [5745; 5747; 5746; 5748; 5749]) (Some (LW 5747)) (Some (LW 5749));
    Cell ([5613; 79; 5749], [5750; 5752; 5751; 5753; 5754]) (Some (LW 5752)) (Some (LW 5754));
    Cell ([5616; 80; 5754], [5755; 5757; 5756; 5758; 5759]) (Some (LW 5757)) (Some (LW 5759));
    Cell ([5619; 81; 5759], [5760; 5762; 5761; 5763; 5764]) (Some (LW 5762)) (Some (LW 5764));
    Cell ([5622; 82; 5764], [5765; 5767; 5766; 5768; 5769]) (Some (LW 5767)) (Some (LW 5769));
    Cell ([5625; 83; 5769], [5770; 5772; 5771; 5773; 5774]) (Some (LW 5772)) (Some (LW 5774));
    Cell ([5628; 84; 5774], [5775; 5777; 5776; 5778; 5779]) (Some (LW 5777)) (Some (LW 5779));
    Cell ([5631; 85; 5779], [5780; 5782; 5781; 5783; 5784]) (Some (LW 5782)) (Some (LW 5784));
    Cell ([5634; 86; 5784], [5785; 5787; 5786; 5788; 5789]) (Some (LW 5787)) (Some (LW 5789));
    Cell ([5637; 87; 5789], [5790; 5792; 5791; 5793; 5794]) (Some (LW 5792)) (Some (LW 5794));
    Cell ([5640; 88; 5794], [5795; 5797; 5796; 5798; 5799]) (Some (LW 5797)) (Some (LW 5799));
    Cell ([5643; 89; 5799], [5800; 5802; 5801; 5803; 5804]) (Some (LW 5802)) (Some (LW 5804));
    Cell ([5646; 90; 5804], [5805; 5807; 5806; 5808; 5809]) (Some (LW 5807)) (Some (LW 5809));
    Cell ([5649; 91; 5809], [5810; 5812; 5811; 5813; 5814]) (Some (LW 5812)) (Some (LW 5814));
    Cell ([5652; 92; 5814], [5815; 5817; 5816; 5818; 5819]) (Some (LW 5817)) (Some (LW 5819));
    Cell ([5655; 93; 5819], [5820; 5822; 5821; 5823; 5824]) (Some (LW 5822)) (Some (LW 5824));
    Cell ([5658; 94; 5824], [5825; 5827; 5826; 5828; 5829]) (Some (LW 5827)) (Some (LW 5829));
    Cell ([5661; 95; 5829], [5830; 5832; 5831; 5833; 5834]) (Some (LW 5832)) (Some (LW 5834));
    Cell ([5664; 96; 5834], [5835; 5837; 5836; 5838; 5839]) (Some (LW 5837)) (Some (LW 5839));
    Cell ([5667; 97; 5839], [5840; 5842; 5841; 5843; 5844]) (Some (LW 5842)) (Some (LW 5844));
    Cell ([5670; 98; 5844], [5845; 5847; 5846; 5848; 5849]) (Some (LW 5847)) (Some (LW 5849));
    Cell ([5673; 99; 5849], [5850; 5852; 5851; 5853; 5854]) (Some (LW 5852)) (Some (LW 5854));
    Cell ([5676; 100; 5854], [5855; 5857; 5856; 5858; 5859]) (Some (LW 5857)) (Some (LW 5859))]
   ([5859; 205], [5861; 5860; 5862]) 5862 5974
   [5865; 5868; 5871; 5874; 5877; 5880; 5883; 5886; 5889; 5892; 5895; 5898; 5901; 5904; 5907; 5910; 5913; 5916; 5919; 5922; 5925; 5928; 5931; 5934; 5937; 5940; 5943; 5946; 5949; 5952; 5955; 5958; 5961; 5964; 5967; 5970; 5973]
   [([5862; 27; 5678], [5863; 5864; 5865]); ([5862; 5571; 5682], [5866; 5867; 5868]); ([5862; 5574; 5687], [5869; 5870; 5871]); ([5862; 5577; 5692], [5872; 5873; 5874]); ([5862; 5580; 5697], [5875; 5876; 5877]); ([5862; 5583; 5702], [5878; 5879; 5880]); ([5862; 5586; 5707], [5881; 5882; 5883]); ([5862; 5589; 5712], [5884; 5885; 5886]); ([5862; 5592; 5717], [5887; 5888; 5889]); ([5862; 5595; 5722], [5890; 5891; 5892]); ([5862; 5598; 5727], [5893; 5894; 5895]); ([5862; 5601; 5732], [5896; 5897; 5898]); ([5862; 5604; 5737], [5899; 5900; 5901]); ([5862; 5607; 5742], [5902; 5903; 5904]); ([5862; 5610; 5747], [5905; 5906; 5907]); ([5862; 5613; 5752], [5908; 5909; 5910]); ([5862; 5616; 5757], [5911; 5912; 5913]); ([5862; 5619; 5762], [5914; 5915; 5916]); ([5862; 5622; 5767], [5917; 5918; 5919]); ([5862; 5625; 5772], [5920; 5921; 5922]); ([5862; 5628; 5777], [5923; 5924; 5925]); ([5862; 5631; 5782], [5926; 5927; 5928]); ([5862; 5634; 5787], [5929; 5930; 5931]); ([5862; 5637; 5792], [5932; 5933; 5934]); ([5862; 5640; 5797], [5935; 5936; 5937]); ([5862; 5643; 5802], [5938; 5939; 5940]); ([5862; 5646; 5807], [5941; 5942; 5943]); ([5862; 5649; 5812], [5944; 5945; 5946]); ([5862; 5652; 5817], [5947; 5948; 5949]); ([5862; 5655; 5822], [5950; 5951; 5952]); ([5862; 5658; 5827], [5953; 5954; 5955]); ([5862; 5661; 5832], [5956; 5957; 5958]); ([5862; 5664; 5837], [5959; 5960; 5961]); ([5862; 5667; 5842], [5962; 5963; 5964]); ([5862; 5670; 5847], [5965; 5966; 5967]); ([5862; 5673; 5852], [5968; 5969; 5970]); ([5862; 5676; 5857], [5971; 5972; 5973])].
Definition udivide64_stage_37 : ustage := UStage
   [Cell ([26; 64], [5975; 5976]) (Some (LW 5975)) (Some (LW 5976));
    Cell ([5865; 65; 5976], [5977; 5979; 5978; 5980; 5981]) (Some (LW 5979)) (Some (LW 5981));
    Cell ([5868; 66; 5981], [5982; 5984; 5983; 5985; 5986]) (Some (LW 5984)) (Some (LW 5986));
    Cell ([5871; 67; 5986], [5987; 5989; 5988; 5990; 5991]) (Some (LW 5989)) (Some (LW 5991));
    Cell ([5874; 68; 5991], [5992; 5994; 5993; 5995; 5996]) (Some (LW 5994)) (Some (LW 5996));
    Cell ([5877; 69; 5996], [5997; 5999; 5998; 6000; 6001]) (Some (LW 5999)) (Some (LW 6001));
    Cell ([5880; 70; 6001], [6002; 6004; 6003; 6005; 6006]) (Some (LW 6004)) (Some (LW 6006));
    Cell ([5883; 71; 6006], [6007; 6009; 6008; 6010; 6011]) (Some (LW 6009)) (Some (LW 6011));
    Cell ([5886; 72; 6011], [6012; 6014; 6013; 6015; 6016]) (Some (LW 6014)) (Some (LW 6016));
    Cell ([5889; 73; 6016], [6017; 6019; 6018; 6020; 6021]) (Some (LW 6019)) (Some (LW 6021));
    Cell ([5892; 74; 6021], [6022; 6024; 6023; 6025; 6026]) (Some (LW 6024)) (Some (LW 6026));
    Cell ([5895; 75; 6026], [6027; 6029; 6028; 6030; 6031]) (Some (LW 6029)) (Some (LW 6031));
    Cell ([5898; 76; 6031], [6032; 6034; 6033; 6035; 6036]) (Some (LW 6034)) (Some (LW 6036));
    Cell ([5901; 77; 6036], [6037; 6039; 6038; 6040; 6041]) (Some (LW 6039)) (Some (LW 6041));
    Cell ([5904; 78; 6041], [6042; 6044; 6043; 6045; 6046]) (Some (LW 6044)) (Some (LW 6046));
    Cell ([5907; 79; 6046], [6047; 6049; 6048; 6050; 6051]) (Some (LW 6049)) (Some (LW 6051));
    Cell ([5910; 80; 6051], [6052; 6054; 6053; 6055; 6056]) (Some (LW 6054)) (Some (LW 6056));
    Cell ([5913; 81; 6056], [6057; 6059; 6058; 6060; 6061]) (Some (LW 6059)) (Some (LW 6061));
    Cell ([5916; 82; 6061], [6062; 6064; 6063; 6065; 6066]) (Some (LW 6064)) (Some (LW 6066));
    Cell ([5919; 83; 6066], [6067; 6069; 6068; 6070; 6071]) (Some (LW 6069)) (Some (LW 6071));
    Cell ([5922; 84; 6071], [6072; 6074; 6073; 6075; 6076]) (Some (LW 6074)) (Some (LW 6076));
    Cell ([5925; 85; 6076], [6077; 6079; 6078; 6080; 6081]) (Some (LW 6079)) (Some (LW 6081));
    Cell ([5928; 86; 6081], [6082; 6084; 6083; 6085; 6086]) (Some (LW 6084)) (Some (LW 6086));
    Cell ([5931; 87; 6086], [6087; 6089; 6088; 6090; 6091]) (Some (LW 6089)) (Some (LW 6091));
    Cell ([5934; 88; 6091], [6092; 6094; 6093; 6095; 6096]) (Some (LW 6094)) (Some (LW 6096));
    Cell ([5937; 89; 6096], [6097; 6099; 6098; 6100; 6101]) (Some (LW 6099)) (Some (LW 6101));
    Cell ([5940; 90; 6101], [6102; 6104; 6103; 6105; 6106]) (Some (LW 6104)) (Some (LW 6106));
    Cell ([5943; 91; 6106], [6107; 6109; 6108; 6110; 6111]) (Some (LW 6109)) (Some (LW 6111));
    Cell ([5946; 92; 6111], [6112; 6114; 6113; 6115; 6116]) (Some (LW 6114)) (Some (LW 6116));
    Cell ([5949; 93; 6116], [6117; 6119; 6118; 6120; 6121]) (Some (LW 6119)) (Some (LW 6121));
    Cell ([5952; 94; 6121], [6122; 6124; 6123; 6125; 6126]) (Some (LW 6124)) (Some (LW 6126));
    Cell ([5955; 95; 6126], [6127; 6129; 6128; 6130; 6131]) (Some (LW 6129)) (Some (LW 6131));
    Cell ([5958; 96; 6131], [6132; 6134; 6133; 6135; 6136]) (Some (LW 6134)) (Some (LW 6136));
    Cell ([5961; 97; 6136], [6137; 6139; 6138; 6140; 6141]) (Some (LW 6139)) (Some (LW 6141));
    Cell ([5964; 98; 6141], [6142; 6144; 6143; 6145; 6146]) (Some (LW 6144)) (Some (LW 6146));
    Cell ([5967; 99; 6146], [6147; 6149; 6148; 6150; 6151]) (Some (LW 6149)) (Some (LW 6151));
    Cell ([5970; 100; 6151], [6152; 6154; 6153; 6155; 6156]) (Some (LW 6154)) (Some (LW 6156));
    Cell ([5973; 101; 6156], [6157; 6159; 6158; 6160; 6161]) (Some (LW 6159)) (Some (LW 6161))]
   ([6161; 202], [6163; 6162; 6164]) 6164 6279
   [6167; 6170; 6173; 6176; 6179; 6182; 6185; 6188; 6191; 6194; 6197; 6200; 6203; 6206; 6209; 6212; 6215; 6218; 6221; 6224; 6227; 6230; 6233; 6236; 6239; 6242; 6245; 6248; 6251; 6254; 6257; 6260; 6263; 6266; 6269; 6272; 6275; 6278]
   [([6164; 26; 5975], [6165; 6166; 6167]); ([6164; 5865; 5979], [6168; 6169; 6170]); ([6164; 5868; 5984], [6171; 6172; 6173]); ([6164; 5871; 5989], [6174; 6175; 6176]); ([6164; 5874; 5994], [6177; 6178; 6179]); ([6164; 5877; 5999], [6180; 6181; 6182]); ([6164; 5880; 6004], [6183; 6184; 6185]); ([6164; 5883; 6009], [6186; 6187; 6188]); ([6164; 5886; 6014], [6189; 6190; 6191]); ([6164; 5889; 6019], [6192; 6193; 6194]); ([6164; 5892; 6024], [6195; 6196; 6197]); ([6164; 5895; 6029], [6198; 6199; 6200]); ([6164; 5898; 6034], [6201; 6202; 6203]); ([6164; 5901; 6039], [6204; 6205; 6206]); ([6164; 5904; 6044], [6207; 6208; 6209]); ([6164; 5907; 6049], [6210; 6211; 6212]); ([6164; 5910; 6054], [6213; 6214; 6215]); ([6164; 5913; 6059], [6216; 6217; 6218]); ([6164; 5916; 6064], [6219; 6220; 6221]); ([6164; 5919; 6069], [6222; 6223; 6224]); ([6164; 5922; 6074], [6225; 6226; 6227]); ([6164; 5925; 6079], [6228; 6229; 6230]); ([6164; 5928; 6084], [6231; 6232; 6233]); ([6164; 5931; 6089], [6234; 6235; 6236]); ([6164; 5934; 6094], [6237; 6238; 6239]); ([6164; 5937; 6099], [6240; 6241; 6242]); ([6164; 5940; 6104], [6243; 6244; 6245]); ([6164; 5943; 6109], [6246; 6247; 6248]); ([6164; 5946; 6114], [6249; 6250; 6251]); ([6164; 5949; 6119], [6252; 6253; 6254]); ([6164; 5952; 6124], [6255; 6256; 6257]); ([6164; 5955; 6129], [6258; 6259; 6260]); ([6164; 5958; 6134], [6261; 6262; 6263]); ([6164; 5961; 6139], [6264; 6265; 6266]); ([6164; 5964; 6144], [6267; 6268; 6269]); ([6164; 5967; 6149], [6270; 6271; 6272]); ([6164; 5970; 6154], [6273; 6274; 6275]); ([6164; 5973; 6159], [6276; 6277; 6278])].
Definition udivide64_stage_38 : ustage := UStage
   [Cell ([25; 64], [6280; 6281]) (Some (LW 6280)) (Some (LW 6281));
    Cell ([6167; 65; 6281], [6282; 6284; 6283; 6285; 6286]) (Some (LW 6284)) (Some (LW 6286));
    Cell ([6170; 66; 6286], [6287; 6289; 6288; 6290; 6291]) (Some (LW 6289)) (Some (LW 6291));
    Cell ([6173; 67; 6291], [6292; 6294; 6293; 6295; 6296]) (Some (LW 6294)) (Some (LW 6296));
    Cell ([6176; 68; 6296], [6297; 6299; 6298; 6300; 6301]) (Some (LW 6299)) (Some (LW 6301));
    Cell ([6179; 69; 6301], [6302; 6304; 6303; 6305; 6306]) (Some (LW 6304)) (Some (LW 6306));
    Cell ([6182; 70; 6306], [6307; 6309; 6308; 6310; 6311]) (Some (LW 6309)) (Some (LW 6311));
    Cell ([6185; 71; 6311], [6312; 6314; 6313; 6315; 6316]) (Some (LW 6314)) (Some (LW 6316));
    Cell ([6188; 72; 6316], [6317; 6319; 6318; 6320; 6321]) (Some (LW 6319)) (Some (LW 6321));
    Cell ([6191; 73; 6321], [6322; 6324; 6323; 6325; 6326]) (Some (LW 6324)) (Some (LW 6326));
    Cell ([6194; 74; 6326], [6327; 6329; 6328; 6330; 6331]) (Some (LW 6329)) (Some (LW 6331));
    Cell ([6197; 75; 6331], [6332; 6334; 6333; 6335; 6336]) (Some (LW 6334)) (Some (LW 6336));
    Cell ([6200; 76; 6336], [6337; 6339; 6338; 6340; 6341]) (Some (LW 6339)) (Some (LW 6341));
    Cell ([6203; 77; 6341], [6342; 6344; 6343; 6345; 6346]) (Some (LW 6344)) (Some (LW 6346));
    Cell ([6206; 78; 6346], [6347; 6349; 6348; 6350; 6351]) (Some (LW 6349)) (Some (LW 6351));
    Cell ([6209; 79; 6351], [6352; 6354; 6353; 6355; 6356]) (Some (LW 6354)) (Some (LW 6356));
    Cell ([6212; 80; 6356], [6357; 6359; 6358; 6360; 6361]) (Some (LW 6359)) (Some (LW 6361));
    Cell ([6215; 81; 6361], [6362; 6364; 6363; 6365; 6366]) (Some (LW 6364)) (Some (LW 6366));
    Cell ([6218; 82; 6366], [6367; 6369; 6368; 6370; 6371]) (Some (LW 6369)) (Some (LW 6371));
    Cell ([6221; 83; 6371], [6372; 6374; 6373; 6375; 6376]) (Some (LW 6374)) (Some (LW 6376));
    Cell ([6224; 84; 6376], [6377; 6379; 6378; 6380; 6381]) (Some (LW 6379)) (Some (LW 6381));
    Cell ([6227; 85; 6381], [6382; 6384; 6383; 6385; 6386]) (Some (LW 6384)) (Some (LW 6386));
    Cell ([6230; 86; 6386], [6387; 6389; 6388; 6390; 6391]) (Some (LW 6389)) (Some (LW 6391));
    Cell ([6233; 87; 6391], [6392; 6394; 6393; 6395; 6396]) (Some (LW 6394)) (Some (LW 6396));
    Cell ([6236; 88; 6396], [6397; 6399; 6398; 6400; 6401]) (Some (LW 6399)) (Some (LW 6401));
    Cell ([6239; 89; 6401], [6402; 6404; 6403; 6405; 6406]) (Some (LW 6404)) (Some (LW 6406));
    Cell ([6242; 90; 6406], [6407; 6409; 6408; 6410; 6411]) (Some (LW 6409)) (Some (LW 6411));
    Cell ([6245; 91; 6411], [6412; 6414; 6413; 6415; 6416]) (Some (LW 6414)) (Some (LW 6416));
    Cell ([6248; 92; 6416], [6417; 6419; 6418; 6420; 6421]) (Some (LW 6419)) (Some (LW 6421));
    Cell ([6251; 93; 6421], [6422; 6424; 6423; 6425; 6426]) (Some (LW 6424)) (Some (LW 6426));
    Cell ([6254; 94; 6426], [6427; 6429; 6428; 6430; 6431]) (Some (LW 6429)) (Some (LW 6431));
    Cell ([6257; 95; 6431], [6432; 6434; 6433; 6435; 6436]) (Some (LW 6434)) (Some (LW 6436));
    Cell ([6260; 96; 6436], [6437; 6439; 6438; 6440; 6441]) (Some (LW 6439)) (Some (LW 6441));
    Cell ([6263; 97; 6441], [6442; 6444; 6443; 6445; 6446]) (Some (LW 6444)) (Some (LW 6446));
    Cell ([6266; 98; 6446], [6447; 6449; 6448; 6450; 6451]) (Some (LW 6449)) (Some (LW 6451));
    Cell ([6269; 99; 6451], [6452; 6454; 6453; 6455; 6456]) (Some (LW 6454)) (Some (LW 6456));
    Cell ([6272; 100; 6456], [6457; 6459; 6458; 6460; 6461]) (Some (LW 6459)) (Some (LW 6461));
    Cell ([6275; 101; 6461], [6462; 6464; 6463; 6465; 6466]) (Some (LW 6464)) (Some (LW 6466));
    Cell ([6278; 102; 6466], [6467; 6469; 6468; 6470; 6471]) (Some (LW 6469)) (Some (LW 6471))]
   ([6471; 199], [6473; 6472; 6474]) 6474 6592
   [6477; 6480; 6483; 6486; 6489; 6492; 6495; 6498; 6501; 6504; 6507; 6510; 6513; 6516; 6519; 6522; 6525; 6528; 6531; 6534; 6537; 6540; 6543; 6546; 6549; 6552; 6555; 6558; 6561; 6564; 6567; 6570; 6573; 6576; 6579; 6582; 6585; 6588; 6591]
   [([6474; 25; 6280], [6475; 6476; 6477]); ([6474; 6167; 6284], [6478; 6479; 6480]); ([6474; 6170; 6289], [6481; 6482; 6483]); ([6474; 6173; 6294], [6484; 6485; 6486]); ([6474; 6176; 6299], [6487; 6488; 6489]); ([6474; 6179; 6304], [6490; 6491; 6492]); ([6474; 6182; 6309], [6493; 6494; 6495]); ([6474; 6185; 6314], [6496; 6497; 6498]); ([6474; 6188; 6319], [6499; 6500; 6501]); ([6474; 6191; 6324], [6502; 6503; 6504]); ([6474; 6194; 6329], [6505; 6506; 6507]); ([6474; 6197; 6334], [6508; 6509; 6510]); ([6474; 6200; 6339], [6511; 6512; 6513]); ([6474; 6203; 6344], [6514; 6515; 6516]); ([6474; 6206; 6349], [6517; 6518; 6519]); ([6474; 6209; 6354], [6520; 6521; 6522]); ([6474; 6212; 6359], [6523; 6524; 6525]); ([6474; 6215; 6364], [6526; 6527; 6528]); ([6474; 6218; 6369], [6529; 6530; 6531]); ([6474; 6221; 6374], [6532; 6533; 6534]); ([6474; 6224; 6379], [6535; 6536; 6537]); ([6474; 6227; 6384], [6538; 6539; 6540]); ([6474; 6230; 6389], [6541; 6542; 6543]); ([6474; 6233; 6394], [6544; 6545; 6546]); ([6474; 6236; 6399], [6547; 6548; 6549]); ([6474; 6239; 6404], [6550; 6551; 6552]); ([6474; 6242; 6409], [6553; 6554; 6555]); ([6474; 6245; 6414], [6556; 6557; 6558]); ([6474; 6248; 6419], [6559; 6560; 6561]); ([6474; 6251; 6424], [6562; 6563; 6564]); ([6474; 6254; 6429], [6565; 6566; 6567]); ([6474; 6257; 6434], [6568; 6569; 6570]); ([6474; 6260; 6439], [6571; 6572; 6573]); ([6474; 6263; 6444], [6574; 6575; 6576]); ([6474; 6266; 6449], [6577; 6578; 6579]); ([6474; 6269; 6454], [6580; 6581; 6582]); ([6474; 6272; 6459], [6583; 6584; 6585]); ([6474; 6275; 6464], [6586; 6587; 6588]); ([6474; 6278; 6469], [6589; 6590; 6591])].
Definition udivide64_stage_39 : ustage := UStage
   [Cell ([24; 64], [6593; 6594]) (Some (LW 6593)) (Some (LW 6594));
    Cell ([6477; 65; 6594], [6595; 6597; 6596; 6598; 6599]) (Some (LW 6597)) (Some (LW 6599));
    Cell ([6480; 66; 6599], [6600; 6602; 6601; 6603; 6604]) (Some (LW 6602)) (Some (LW 6604));
    Cell ([6483; 67; 6604], [6605; 6607; 6606; 6608; 6609]) (Some (LW 6607)) (Some (LW 6609));
    Cell ([6486; 68; 6609], [6610; 6612; 6611; 6613; 6614]) (Some (LW 6612)) (Some (LW 6614));
    Cell ([6489; 69; 6614], [6615; 6617; 6616; 6618; 6619]) (Some (LW 6617)) (Some (LW 6619));
    Cell ([6492; 70; 6619], [6620; 6622; 6621; 6623; 6624]) (Some (LW 6622)) (Some (LW 6624));
    Cell ([6495; 71; 6624], [6625; 6627; 6626; 6628; 6629]) (Some (LW 6627)) (Some (LW 6629));
    Cell ([6498; 72; 6629], [6630; 6632; 6631; 6633; 6634]) (Some (LW 6632)) (Some (LW 6634));
    Cell ([6501; 73; 6634], [6635; 6637; 6636; 6638; 6639]) (Some (LW 6637)) (Some (LW 6639));
    Cell ([6504; 74; 6639], [6640; 6642; 6641; 6643; 6644]) (Some (LW 6642)) (Some (LW 6644));
    Cell ([6507; 75; 6644], [6645; 6647; 6646; 6648; 6649]) (Some (LW 6647)) (Some (LW 6649));
    Cell ([6510; 76; 6649], [6650; 6652; 6651; 6653; 6654]) (Some (LW 6652)) (Some (LW 6654));
    Cell ([6513; 77; 6654], [6655; 6657; 6656; 6658; 6659]) (Some (LW 6657)) (Some (LW 6659));
    Cell ([6516; 78; 6659], [6660; 6662; 6661; 6663; 6664]) (Some (LW 6662)) (Some (LW 6664));
    Cell ([6519; 79; 6664], [6665; 6667; 6666; 6668; 6669]) (Some (LW 6667)) (Some (LW 6669));
    Cell ([6522; 80; 6669], [6670; 6672; 6671; 6673; 6674]) (Some (LW 6672)) (Some (LW 6674));
    Cell ([6525; 81; 6674], [6675; 6677; 6676; 6678; 6679]) (Some (LW 6677)) (Some (LW 6679));
    Cell ([6528; 82; 6679], [6680; 6682; 6681; 6683; 6684]) (Some (LW 6682)) (Some (LW 6684));
    Cell ([6531; 83; 6684], [6685; 6687; 6686; 6688; 6689]) (Some (LW 6687)) (Some (LW 6689));
    Cell ([6534; 84; 6689], [6690; 6692; 6691; 6693; 6694]) (Some (LW 6692)) (Some (LW 6694));
    Cell ([6537; 85; 6694], [6695; 6697; 6696; 6698; 6699]) (Some (LW 6697)) (Some (LW 6699));
    Cell ([6540; 86; 6699], [6700; 6702; 6701; 6703; 6704]) (Some (LW 6702)) (Some (LW 6704));
    Cell ([6543; 87; 6704], [6705; 6707; 6706; 6708; 6709]) (Some (LW 6707)) (Some (LW 6709));
    Cell ([6546; 88; 6709], [6710; 6712; 6711; 6713; 6714]) (Some (LW 6712)) (Some (LW 6714));
    Cell ([6549; 89; 6714], [6715; 6717; 6716; 6718; 6719]) (Some (LW 6717)) (Some (LW 6719));
    Cell ([6552; 90; 6719], [6720; 6722; 6721; 6723; 6724]) (Some (LW 6722)) (Some (LW 6724));
    Cell ([6555; 91; 6724], [6725; 6727; 6726; 6728; 6729]) (Some (LW 6727)) (Some (LW 6729));
    Cell ([6558; 92; 6729], [6730; 6732; 6731; 6733; 6734]) (Some (LW 6732)) (Some (LW 6734));
    Cell ([6561; 93; 6734], [6735; 6737; 6736; 6738; 6739]) (Some (LW 6737)) (Some (LW 6739));
    Cell ([6564; 94; 6739], [6740; 6742; 6741; 6743; 6744]) (Some (LW 6742)) (Some (LW 6744));
    Cell ([6567; 95; 6744], [6745; 6747; 6746; 6748; 6749]) (Some (LW 6747)) (Some (LW 6749));
    Cell ([6570; 96; 6749], [6750; 6752; 6751; 6753; 6754]) (Some (LW 6752)) (Some (LW 6754));
    Cell ([6573; 97; 6754], [6755; 6757; 6756; 6758; 6759]) (Some (LW 6757)) (Some (LW 6759));
    Cell ([6576; 98; 6759], [6760; 6762; 6761; 6763; 6764]) (Some (LW 6762)) (Some (LW 6764));
    Cell ([6579; 99; 6764], [6765; 6767; 6766; 6768; 6769]) (Some (LW 6767)) (Some (LW 6769));
    Cell ([6582; 100; 6769], [6770; 6772; 6771; 6773; 6774]) (Some (LW 6772)) (Some (LW 6774));
    Cell ([6585; 101; 6774], [6775; 6777; 6776; 6778; 6779]) (Some (LW 6777)) (Some (LW 6779));
    Cell ([6588; 102; 6779], [6780; 6782; 6781; 6783; 6784]) (Some (LW 6782)) (Some (LW 6784));
    Cell ([6591; 103; 6784], [6785; 6787; 6786; 6788; 6789]) (Some (LW 6787)) (Some (LW 6789))]
   ([6789; 196], [6791; 6790; 6792]) 6792 6913
   [6795; 6798; 6801; 6804; 6807; 6810; 6813; 6816; 6819; 6822; 6825; 6828; 6831; 6834; 6837; 6840; 6843; 6846; 6849; 6852; 6855; 6858; 6861; 6864; 6867; 6870; 6873; 6876; 6879; 6882; 6885; 6888; 6891; 6894; 6897; 6900; 6903; 6906; 6909; 6912]
   [([6792; 24; 6593], [6793; 6794; 6795]); ([6792; 6477; 6597], [6796; 6797; 6798]); ([6792; 6480; 6602], [6799; 6800; 6801]); ([6792; 6483; 6607], [6802; 6803; 6804]); ([6792; 6486; 6612], [6805; 6806; 6807]); ([6792; 6489; 6617], [6808; 6809; 6810]); ([6792; 6492; 6622], [6811; 6812; 6813]); ([6792; 6495; 6627], [6814; 6815; 6816]); ([6792; 6498; 6632], [6817; 6818; 6819]); ([6792; 6501; 6637], [6820; 6821; 6822]); ([6792; 6504; 6642], [6823; 6824; 6825]); ([6792; 6507; 6647], [6826; 6827; 6828]); ([6792; 6510; 6652], [6829; 6830; 6831]); ([6792; 6513; 6657], [6832; 6833; 6834]); ([6792; 6516; 6662], [6835; 6836; 6837]); ([6792; 6519; 6667], [6838; 6839; 6840]); ([6792; 6522; 6672], [6841; 6842; 6843]); ([6792; 6525; 6677], [6844; 6845; 6846]); ([6792; 6528; 6682], [6847; 6848; 6849]); ([6792; 6531; 6687], [6850; 6851; 6852]); ([6792; 6534; 6692], [6853; 6854; 6855]); ([6792; 6537; 6697], [6856; 6857; 6858]); ([6792; 6540; 6702], [6859; 6860; 6861]); ([6792; 6543; 6707], [6862; 6863; 6864]); ([6792; 6546; 6712], [6865; 6866; 6867]); ([6792; 6549; 6717], [6868; 6869; 6870]); ([6792; 6552; 6722], [6871; 6872; 6873]); ([6792; 6555; 6727], [6874; 6875; 6876]); ([6792; 6558; 6732], [6877; 6878; 6879]); ([6792; 6561; 6737], [6880; 6881; 6882]); ([6792; 6564; 6742], [6883; 6884; 6885]); ([6792; 6567; 6747], [6886; 6887; 6888]); ([6792; 6570; 6752], [6889; 6890; 6891]); ([6792; 6573; 6757], [6892; 6893; 6894]); ([6792; 6576; 6762], [6895; 6896; 6897]); ([6792; 6579; 6767], [6898; 6899; 6900]); ([6792; 6582; 6772], [6901; 6902; 6903]); ([6792; 6585; 6777], [6904; 6905; 6906]); ([6792; 6588; 6782], [6907; 6908; 6909]); ([6792; 6591; 6787], [6910; 6911; 6912])].
Definition udivide64_stage_40 : ustage := UStage
   [Cell ([23; 64], [6914; 6915]) (Some (LW 6914)) (Some (LW 6915));
    Cell ([6795; 65; 6915], [6916; 6918; 6917; 6919; 6920]) (Some (LW 6918)) (Some (LW 6920));
    Cell ([6798; 66; 6920], [6921; 6923; 6922; 6924; 6925]) (Some (LW 6923)) (Some (LW 6925));
    Cell ([6801; 67; 6925], [6926; 6928; 6927; 6929; 6930]) (Some (LW 6928)) (Some (LW 6930));
    Cell ([6804; 68; 6930], [6931; 6933; 6932; 6934; 6935]) (Some (LW 6933)) (Some (LW 6935));
    Cell ([6807; 69; 6935], [6936; 6938; 6937; 6939; 6940]) (Some (LW 6938)) (Some (LW 6940));
    Cell ([6810; 70; 6940], [6941; 6943; 6942; 6944; 6945]) (Some (LW 6943)) (Some (LW 6945));
    Cell ([6813; 71; 6945], [6946; 6948; 6947; 6949; 6950]) (Some (LW 6948)) (Some (LW 6950));
    Cell ([6816; 72; 6950], [6951; 6953; 6952; 6954; 6955]) (Some (LW 6953)) (Some (LW 6955));
    Cell ([6819; 73; 6955], [6956; 6958; 6957; 6959; 6960]) (Some (LW 6958)) (Some (LW 6960));
    Cell ([6822; 74; 6960], [6961; 6963; 6962; 6964; 6965]) (Some (LW 6963)) (Some (LW 6965));
    Cell ([6825; 75; 6965], [6966; 6968; 6967; 6969; 6970]) (Some (LW 6968)) (Some (LW 6970));
    Cell ([6828; 76; 6970], [6971; 6973; 6972; 6974; 6975]) (Some (LW 6973)) (Some (LW 6975));
    Cell ([6831; 77; 6975], [6976; 6978; 6977; 6979; 6980]) (Some (LW 6978)) (Some (LW 6980));
    Cell ([6834; 78; 6980], [6981; 6983; 6982; 6984; 6985]) (Some (LW 6983)) (Some (LW 6985));
    Cell ([6837; 79; 6985], [6986; 6988; 6987; 6989; 6990]) (Some (LW 6988)) (Some (LW 6990));
    Cell ([6840; 80; 6990], [6991; 6993; 6992; 6994; 6995]) (Some (LW 6993)) (Some (LW 6995));
    Cell ([6843; 81; 6995], [6996; 6998; 6997; 6999; 7000]) (Some (LW 6998)) (Some (LW 7000));
    Cell ([6846; 82; 7000], [7001; 7003; 7002; 7004; 7005]) (Some (LW 7003)) (Some (LW 7005));
    Cell ([6849; 83; 7005], [7006; 7008; 7007; 7009; 7010]) (Some (LW 7008)) (Some (LW 7010));
    Cell ([6852; 84; 7010], [7011; 7013; 7012; 7014; 7015]) (Some (LW 7013)) (Some (LW 7015));
    Cell ([6855; 85; 7015], [7016; 7018; 7017; 7019; 7020]) (Some (LW 7018)) (Some (LW 7020));
    Cell ([6858; 86; 7020], [7021; 7023; 7022; 7024; 7025]) (Some (LW 7023)) (Some (LW 7025));
    Cell ([6861; 87; 7025], [7026; 7028; 7027; 7029; 7030]) (Some (LW 7028)) (Some (LW 7030));
    Cell ([6864; 88; 7030], [7031; 7033; 7032; 7034; 7035]) (Some (LW 7033)) (Some (LW 7035));
    Cell ([6867; 89; 7035], [7036; 7038; 7037; 7039; 7040]) (Some (LW 7038)) (Some (LW 7040));
    Cell ([6870; 90; 7040], [7041; 7043; 7042; 7044; 7045]) (Some (LW 7043)) (Some (LW 7045));
    Cell ([6873; 91; 7045], [7046; 7048; 7047; 7049; 7050]) (Some (LW 7048)) (Some (LW 7050));
    Cell ([6876; 92; 7050], [7051; 7053; 7052; 7054; 7055]) (Some (LW 7053)) (Some (LW 7055));
    Cell ([6879; 93; 7055], [7056; 7058; 7057; 7059; 7060]) (Some (LW 7058)) (Some (LW 7060));
    Cell ([6882; 94; 7060], [7061; 7063; 7062; 7064; 7065]) (Some (LW 7063)) (Some (LW 7065));
    Cell ([6885; 95; 7065], [7066; 7068; 7067; 7069; 7070]) (Some (LW 7068)) (Some (LW 7070));
    Cell ([6888; 96; 7070], [7071; 7073; 7072; 7074; 7075]) (Some (LW 7073)) (Some (LW 7075));
    Cell ([6891; 97; 7075], [7076; 7078; 7077; 7079; 7080]) (Some (LW 7078)) (Some (LW 7080));
    Cell ([6894; 98; 7080], [7081; 7083; 7082; 7084; 7085]) (Some (LW 7083)) (Some (LW 7085));
    Cell ([6897; 99; 7085], [7086; 7088; 7087; 7089; 7090]) (Some (LW 7088)) (Some (LW 7090));
    Cell ([6900; 100; 7090], [7091; 7093; 7092; 7094; 7095]) (Some (LW 7093)) (Some (LW 7095));
    Cell ([6903; 101; 7095], [7096; 7098; 7097; 7099; 7100]) (Some (LW 7098)) (Some (LW 7100));
    Cell ([6906; 102; 7100], [7101; 7103; 7102; 7104; 7105]) (Some (LW 7103)) (Some (LW 7105));
    Cell ([6909; 103; 7105], [7106; 7108; 7107; 7109; 7110]) (Some (LW 7108)) (Some (LW 7110));
    Cell ([6912; 104; 7110], [7111; 7113; 7112; 7114; 7115]) (Some (LW 7113)) (Some (LW 7115))]
   ([7115; 193], [7117; 7116; 7118]) 7118 7242
   [7121; 7124; 7127; 7130; 7133; 7136; 7139; 7142; 7145; 7148; 7151; 7154; 7157; 7160; 7163; 7166; 7169; 7172; 7175; 7178; 7181; 7184; 7187; 7190; 7193; 7196; 7199; 7202; 7205; 7208; 7211; 7214; 7217; 7220; 7223; 7226; 7229; 7232; 7235; 7238; 7241]
   [([7118; 23; 6914], [7119; 7120; 7121]); ([7118; 6795; 6918], [7122; 7123; 7124]); ([7118; 6798; 6923], [7125; 7126; 7127]); ([7118; 6801; 6928], [7128; 7129; 7130]); ([7118; 6804; 6933], [7131; 7132; 7133]); ([7118; 6807; 6938], [7134; 7135; 7136]); ([7118; 6810; 6943], [7137; 7138; 7139]); ([7118; 6813; 6948], [7140; 7141; 7142]); ([7118; 6816; 6953], [7143; 7144; 7145]); ([7118; 6819; 6958], [7146; 7147; 7148]); ([7118; 6822; 6963], [7149; 7150; 7151]); ([7118; 6825; 6968], [7152; 7153; 7154]); ([7118; 6828; 6973], [7155; 7156; 7157]); ([7118; 6831; 6978], [7158; 7159; 7160]); ([7118; 6834; 6983], [7161; 7162; 7163]); ([7118; 6837; 6988], [7164; 7165; 7166]); ([7118; 6840; 6993], [7167; 7168; 7169]); ([7118; 6843; 6998], [7170; 7171; 7172]); ([7118; 6846; 7003], [7173; 7174; 7175]); ([7118; 6849; 7008], [7176; 7177; 7178]); ([7118; 6852; 7013], [7179; 7180; 7181]); ([7118; 6855; 7018], [7182; 7183; 7184]); ([7118; 6858; 7023], [7185; 7186; 7187]); ([7118; 6861; 7028], [7188; 7189; 7190]); ([7118; 6864; 7033], [7191; 7192; 7193]); ([7118; 6867; 7038], [7194; 7195; 7196]); ([7118; 6870; 7043], [7197; 7198; 7199]); ([7118; 6873; 7048], [7200; 7201; 7202]); ([7118; 6876; 7053], [7203; 7204; 7205]); ([7118; 6879; 7058], [7206; 7207; 7208]); ([7118; 6882; 7063], [7209; 7210; 7211]); ([7118; 6885; 7068], [7212; 7213; 7214]); ([7118; 6888; 7073], [7215; 7216; 7217]); ([7118; 6891; 7078], [7218; 7219; 7220]); ([7118; 6894; 7083], [7221; 7222; 7223]); ([7118; 6897; 7088], [7224; 7225; 7226]); ([7118; 6900; 7093], [7227; 7228; 7229]); ([7118; 6903; 7098], [7230; 7231; 7232]); ([7118; 6906; 7103], [7233; 7234; 7235]); ([7118; 6909; 7108], [7236; 7237; 7238]); ([7118; 6912; 7113], [7239; 7240; 7241])].
Definition udivide64_stage_41 : ustage := UStage
   [Cell ([22; 64], [7243; 7244]) (Some (LW 7243)) (Some (LW 7244));
    Cell ([7121; 65; 7244], [7245; 7247; 7246; 7248; 7249]) (Some (LW 7247)) (Some (LW 7249));
    Cell ([7124; 66; 7249], [7250; 7252; 7251; 7253; 7254]) (Some (LW 7252)) (Some (LW 7254));
    Cell ([7127; 67; 7254], [7255; 7257; 7256; 7258; 7259]) (Some (LW 7257)) (Some (LW 7259));
    Cell ([7130; 68; 7259], [7260; 7262; 7261; 7263; 7264]) (Some (LW 7262)) (Some (LW 7264));
    Cell ([7133; 69; 7264], [7265; 7267; 7266; 7268; 7269]) (Some (LW 7267)) (Some (LW 7269));
    Cell ([7136; 70; 7269], [7270; 7272; 7271; 7273; 7274]) (Some (LW 7272)) (Some (LW 7274));
    Cell ([7139; 71; 7274], [7275; 7277; 7276; 7278; 7279]) (Some (LW 7277)) (Some (LW 7279));
    Cell ([7142; 72; 7279], [7280; 7282; 7281; 7283; 7284]) (Some (LW 7282)) (Some (LW 7284));
    Cell ([7145; 73; 7284], [7285; 7287; 7286; 7288; 7289]) (Some (LW 7287)) (Some (LW 7289));
    Cell ([7148; 74; 7289], [7290; 7292; 7291; 7293; 7294]) (Some (LW 7292)) (Some (LW 7294));
    Cell ([7151; 75; 7294], [7295; 7297; 7296; 7298; 7299]) (Some (LW 7297)) (Some (LW 7299));
    Cell ([7154; 76; 7299], [7300; 7302; 7301; 7303; 7304]) (Some (LW 7302)) (Some (LW 7304));
    Cell ([7157; 77; 7304], [7305; 7307; 7306; 7308; 7309]) (Some (LW 7307)) (Some (LW 7309));
    Cell ([7160; 78; 7309], [7310; 7312; 7311; 7313; 7314]) (Some (LW 7312)) (Some (LW 7314));
    Cell ([7163; 79; 7314], [7315; 7317; 7316; 7318; 7319]) (Some (LW 7317)) (Some (LW 7319));
    Cell ([7166; 80; 7319], [7320; 7322; 7321; 7323; 7324]) (Some (LW 7322)) (Some (LW 7324));
    Cell ([7169; 81; 7324], [7325; 7327; 7326; 7328; 7329]) (Some (LW 7327)) (Some (LW 7329));
    Cell ([7172; 82; 7329], [7330; 7332; 7331; 7333; 7334]) (Some (LW 7332)) (Some (LW 7334));
    Cell ([7175; 83; 7334], [7335; 7337; 7336; 7338; 7339]) (Some (LW 7337)) (Some (LW 7339));
    Cell ([7178; 84; 7339], [7340; 7342; 7341; 7343; 7344]) (Some (LW 7342)) (Some (LW 7344));
    Cell ([7181; 85; 7344], [7345; 7347; 7346; 7348; 7349]) (Some (LW 7347)) (Some (LW 7349));
    Cell ([7184; 86; 7349], [7350; 7352; 7351; 7353; 7354]) (Some (LW 7352)) (Some (LW 7354));
    Cell ([7187; 87; 7354], [7355; 7357; 7356; 7358; 7359]) (Some (LW 7357)) (Some (LW 7359));
    Cell ([7190; 88; 7359], [7360; 7362; 7361; 7363; 7364]) (Some (LW 7362)) (Some (LW 7364));
    Cell ([7193; 89; 7364], [7365; 7367; 7366; 7368; 7369]) (Some (LW 7367)) (Some (LW 7369));
    Cell ([7196; 90; 7369], [7370; 7372; 7371; 7373; 7374]) (Some (LW 7372)) (Some (LW 7374));
    Cell ([7199; 91; 7374], [7375; 7377; 7376; 7378; 7379]) (Some (LW 7377)) (Some (LW 7379));
    Cell ([7202; 92; 7379], [7380; 7382; 7381; 7383; 7384]) (Some (LW 7382)) (Some (LW 7384));
    Cell ([7205; 93; 7384], [7385; 7387; 7386; 7388; 7389]) (Some (LW 7387)) (Some (LW 7389));
    Cell ([7208; 94; 7389], [7390; 7392; 7391; 7393; 7394]) (Some (LW 7392)) (Some (LW 7394));
    Cell ([7211; 95; 7394], [7395; 7397; 7396; 7398; 7399]) (Some (LW 7397)) (Some (LW 7399));
    Cell ([7214; 96; 7399], [7400; 7402; 7401; 7403; 7404]) (Some (LW 7402)) (Some (LW 7404));
    Cell ([7217; 97; 7404], [7405; 7407; 7406; 7408; 7409]) (Some (LW 7407)) (Some (LW 7409));
    Cell ([7220; 98; 7409], [7410; 7412; 7411; 7413; 7414]) (Some (LW 7412)) (Some (LW 7414));
    Cell ([7223; 99; 7414], [7415; 7417; 7416; 7418; 7419]) (Some (LW 7417)) (Some (LW 7419));
    Cell ([7226; 100; 7419], [7420; 7422; 7421; 7423; 7424]) (Some (LW 7422)) (Some (LW 7424));
    Cell ([7229; 101; 7424], [7425; 7427; 7426; 7428; 7429]) (Some (LW 7427)) (Some (LW 7429));
    Cell ([7232; 102; 7429], [7430; 7432; 7431; 7433; 7434]) (Some (LW 7432)) (Some (LW 7434));
    Cell ([7235; 103; 7434], [7435; 7437; 7436; 7438; 7439]) (Some (LW 7437)) (Some (LW 7439));
    Cell ([7238; 104; 7439], [7440; 7442; 7441; 7443; 7444]) (Some (LW 7442)) (Some (LW 7444));
    Cell ([7241; 105; 7444], [7445; 7447; 7446; 7448; 7449]) (Some (LW 7447)) (Some (LW 7449))]
   ([7449; 190], [7451; 7450; 7452]) 7452 7579
   [7455; 7458; 7461; 7464; 7467; 7470; 7473; 7476; 7479; 7482; 7485; 7488; 7491; 7494; 7497; 7500; 7503; 7506; 7509; 7512; 7515; 7518; 7521; 7524; 7527; 7530; 7533; 7536; 7539; 7542; 7545; 7548; 7551; 7554; 7557; 7560; 7563; 7566; 7569; 7572; 7575; 7578]
   [([7452; 22; 7243], [7453; 7454; 7455]); ([7452; 7121; 7247], [7456; 7457; 7458]); ([7452; 7124; 7252], [7459; 7460; 7461]); ([7452; 7127; 7257], [7462; 7463; 7464]); ([7452; 7130; 7262], [7465; 7466; 7467]); ([7452; 7133; 7267], [7468; 7469; 7470]); ([7452; 7136; 7272], [7471; 7472; 7473]); ([7452; 7139; 7277], [7474; 7475; 7476]); ([7452; 7142; 7282], [7477; 7478; 7479]); ([7452; 7145; 7287], [7480; 7481; 7482]); ([7452; 7148; 7292], [7483; 7484; 7485]); ([7452; 7151; 7297], [7486; 7487; 7488]); ([7452; 7154; 7302], [7489; 7490; 7491]); ([7452; 7157; 7307], [7492; 7493; 7494]); ([7452; 7160; 7312], [7495; 7496; 7497]); ([7452; 7163; 7317], [7498; 7499; 7500]); ([7452; 7166; 7322], [7501; 7502; 7503]); ([7452; 7169; 7327], [7504; 7505; 7506]); ([7452; 7172; 7332], [7507; 7508; 7509]); ([7452; 7175; 7337], [7510; 7511; 7512]); ([7452; 7178; 7342], [7513; 7514; 7515]); ([7452; 7181; 7347], [7516; 7517; 7518]); ([7452; 7184; 7352], [7519; 7520; 7521]); ([7452; 7187; 7357], [7522; 7523; 7524]); ([7452; 7190; 7362], [7525; 7526; 7527]); ([7452; 7193; 7367], [7528; 7529; 7530]); ([7452; 7196; 7372], [7531; 7532; 7533]); ([7452; 7199; 7377], [7534; 7535; 7536]); ([7452; 7202; 7382], [7537; 7538; 7539]); ([7452; 7205; 7387], [7540; 7541; 7542]); ([7452; 7208; 7392], [7543; 7544; 7545]); ([7452; 7211; 7397], [7546; 7547; 7548]); ([7452; 7214; 7402], [7549; 7550; 7551]); ([7452; 7217; 7407], [7552; 7553; 7554]); ([7452; 7220; 7412], [7555; 7556; 7557]); ([7452; 7223; 7417], [7558; 7559; 7560]); ([7452; 7226; 7422], [7561; 7562; 7563]); ([7452; 7229; 7427], [7564; 7565; 7566]); ([7452; 7232; 7432], [7567; 7568; 7569]); ([7452; 7235; 7437], [7570; 7571; 7572]); ([7452; 7238; 7442], [7573; 7574; 7575]); ([7452; 7241; 7447], [7576; 7577; 7578])].
Definition udivide64_stage_42 : ustage := UStage
   [Cell ([21; 64], [7580; 7581]) (Some (LW 7580)) (Some (LW 7581));
    Cell ([7455; 65; 7581], [7582; 7584; 7583; 7585; 7586]) (Some (LW 7584)) (Some (LW 7586));
    Cell ([7458; 66; 7586], [7587; 7589; 7588; 7590; 7591]) (Some (LW 7589)) (Some (LW 7591));
    Cell ([7461; 67; 7591], [7592; 7594; 7593; 7595; 7596]) (Some (LW 7594)) (Some (LW 7596));
    Cell ([7464; 68; 7596], [7597; 7599; 7598; 7600; 7601]) (Some (LW 7599)) (Some (LW 7601));
    Cell ([7467; 69; 7601], [7602; 7604; 7603; 7605; 7606]) (Some (LW 7604)) (Some (LW 7606));
    Cell ([7470; 70; 7606], [7607; 7609; 7608; 7610; 7611]) (Some (LW 7609)) (Some (LW 7611));
    Cell ([7473; 71; 7611], [7612; 7614; 7613; 7615; 7616]) (Some (LW 7614)) (Some (LW 7616));
    Cell ([7476; 72; 7616], [7617; 7619; 7618; 7620; 7621]) (Some (LW 7619)) (Some (LW 7621));
    Cell ([7479; 73; 7621], [7622; 7624; 7623; 7625; 7626]) (Some (LW 7624)) (Some (LW 7626));
    Cell ([7482; 74; 7626], [7627; 7629; 7628; 7630; 7631]) (Some (LW 7629)) (Some (LW 7631));
    Cell ([7485; 75; 7631], [7632; 7634; 7633; 7635; 7636]) (Some (LW 7634)) (Some (LW 7636));
    Cell ([7488; 76; 7636], [7637; 7639; 7638; 7640; 7641]) (Some (LW 7639)) (Some (LW 7641));
    Cell ([7491; 77; 7641], [7642; 7644; 7643; 7645; 7646]) (Some (LW 7644)) (Some (LW 7646));
    Cell ([7494; 78; 7646], [7647; 7649; 7648; 7650; 7651]) (Some (LW 7649)) (Some (LW 7651));
    Cell ([7497; 79; 7651], [7652; 7654; 7653; 7655; 7656]) (Some (LW 7654)) (Some (LW 7656));
    Cell ([7500; 80; 7656], [7657; 7659; 7658; 7660; 7661]) (Some (LW 7659)) (Some (LW 7661));
    Cell ([7503; 81; 7661], [7662; 7664; 7663; 7665; 7666]) (Some (LW 7664)) (Some (LW 7666));
    Cell ([7506; 82; 7666], [7667; 7669; 7668; 7670; 7671]) (Some (LW 7669)) (Some (LW 7671));
    Cell ([7509; 83; 7671], [7672; 7674; 7673; 7675; 7676]) (Some (LW 7674)) (Some (LW 7676));
    Cell ([7512; 84; 7676], [7677; 7679; 7678; 7680; 7681]) (Some (LW 7679)) (Some (LW 7681));
    Cell ([7515; 85; 7681], [7682; 7684; 7683; 7685; 7686]) (Some (LW 7684)) (Some (LW 7686));
    Cell ([7518; 86; 7686], [7687; 7689; 7688; 7690; 7691]) (Some (LW 7689)) (Some (LW 7691));
    Cell ([7521; 87; 7691], [7692; 7694; 7693; 7695; 7696]) (Some (LW 7694)) (Some (LW 7696));
    Cell ([7524; 88; 7696], [7697; 7699; 7698; 7700; 7701]) (Some (LW 7699)) (Some (LW 7701));
    Cell ([7527; 89; 7701], [7702; 7704; 7703; 7705; 7706]) (Some (LW 7704)) (Some (LW 7706));
    Cell ([7530; 90; 7706], [7707; 7709; 7708; 7710; 7711]) (Some (LW 7709)) (Some (LW 7711));
    Cell ([7533; 91; 7711], [7712; 7714; 7713; 7715; 7716]) (Some (LW 7714)) (Some (LW 7716));
    Cell ([7536; 92; 7716], [7717; 7719; 7718; 7720; 7721]) (Some (LW 7719)) (Some (LW 7721));
    Cell ([7539; 93; 7721], [7722; 7724; 7723; 7725; 7726]) (Some (LW 7724)) (Some (LW 7726));
    Cell ([7542; 94; 7726], [7727; 7729; 7728; 7730; 7731]) (Some (LW 7729)) (Some (LW 7731));
    Cell ([7545; 95; 7731], [7732; 7734; 7733; 7735; 7736]) (Some (LW 7734)) (Some (LW 7736));
    Cell ([7548; 96; 7736], [7737; 7739; 7738; 7740; 7741]) (Some (LW 7739)) (Some (LW 7741));
    Cell ([7551; 97; 7741], [7742; 7744; 7743; 7745; 7746]) (Some (LW 7744)) (Some (LW 7746));
    Cell ([7554; 98; 7746], [7747; 7749; 7748; 7750; 7751]) (Some (LW 7749)) (Some (LW 7751));
    Cell ([7557; 99; 7751], [7752; 7754; 7753; 7755; 7756]) (Some (LW 7754)) (Some (LW 7756));
    Cell ([7560; 100; 7756], [7757; 7759; 7758; 7760; 7761]) (Some (LW 7759)) (Some (LW 7761));
    Cell ([7563; 101; 7761], [7762; 7764; 7763; 7765; 7766]) (Some (LW 7764)) (Some (LW 7766));
    Cell ([7566; 102; 7766], [7767; 7769; 7768; 7770; 7771]) (Some (LW 7769)) (Some (LW 7771));
    Cell ([7569; 103; 7771], [7772; 7774; 7773; 7775; 7776]) (Some (LW 7774)) (Some (LW 7776));
    Cell ([7572; 104; 7776], [7777; 7779; 7778; 7780; 7781]) (Some (LW 7779)) (Some (LW 7781));
    Cell ([7575; 105; 7781], [7782; 7784; 7783; 7785; 7786]) (Some (LW 7784)) (Some (LW 7786));
    Cell ([7578; 106; 7786], [7787; 7789; 7788; 7790; 7791]) (Some (LW 7789)) (Some (LW 7791))]
   ([7791; 187], [7793; 7792; 7794]) 7794 7924
   [7797; 7800; 7803; 7806; 7809; 7812; 7815; 7818; 7821; 7824; 7827; 7830; 7833; 7836; 7839; 7842; 7845; 7848; 7851; 7854; 7857; 7860; 7863; 7866; 7869; 7872; 7875; 7878; 7881; 7884; 7887; 7890; 7893; 7896; 7899; 7902; 7905; 7908; 7911; 7914; 7917; 7920; 7923]
   [([7794; 21; 7580], [7795; 7796; 7797]); ([7794; 7455; 7584], [7798; 7799; 7800]); ([7794; 7458; 7589], [7801; 7802; 7803]); ([7794; 7461; 7594], [7804; 7805; 7806]); ([7794; 7464; 7599], [7807; 7808; 7809]); ([7794; 7467; 7604], [7810; 7811; 7812]); ([7794; 7470; 7609], [7813; 7814; 7815]); ([7794; 7473; 7614], [7816; 7817; 7818]); ([7794; 7476; 7619], [7819; 7820; 7821]); ([7794; 7479; 7624], [7822; 7823; 7824]); ([7794; 7482; 7629], [7825; 7826; 7827]); ([7794; 7485; 7634], [7828; 7829; 7830]); ([7794; 7488; 7639], [7831; 7832; 7833]); ([7794; 7491; 7644], [7834; 7835; 7836]); ([7794; 7494; 7649], [7837; 7838; 7839]); ([7794; 7497; 7654], [7840; 7841; 7842]); ([7794; 7500; 7659], [7843; 7844; 7845]); ([7794; 7503; 7664], [7846; 7847; 7848]); ([7794; 7506; 7669], [7849; 7850; 7851]); ([7794; 7509; 7674], [7852; 7853; 7854]); ([7794; 7512; 7679], [7855; 7856; 7857]); ([7794; 7515; 7684], [7858; 7859; 7860]); ([7794; 7518; 7689], [7861; 7862; 7863]); ([7794; 7521; 7694], [7864; 7865; 7866]); ([7794; 7524; 7699], [7867; 7868; 7869]); ([7794; 7527; 7704], [7870; 7871; 7872]); ([7794; 7530; 7709], [7873; 7874; 7875]); ([7794; 7533; 7714], [7876; 7877; 7878]); ([7794; 7536; 7719], [7879; 7880; 7881]); ([7794; 7539; 7724], [7882; 7883; 7884]); ([7794; 7542; 7729], [7885; 7886; 7887]); ([7794; 7545; 7734], [7888; 7889; 7890]); ([7794; 7548; 7739], [7891; 7892; 7893]); ([7794; 7551; 7744], [7894; 7895; 7896]); ([7794; 7554; 7749], [7897; 7898; 7899]); ([7794; 7557; 7754], [7900; 7901; 7902]); ([7794; 7560; 7759], [7903; 7904; 7905]); ([7794; 7563; 7764], [7906; 7907; 7908]); ([7794; 7566; 7769], [7909; 7910; 7911]); ([7794; 7569; 7774], [7912; 7913; 7914]); ([7794; 7572; 7779], [7915; 7916; 7917]); ([7794; 7575; 7784], [7918; 7919; 7920]); ([7794; 7578; 7789], [7921; 7922; 7923])].
Definition udivide64_stage_43 : ustage := UStage
   [Cell ([20; 64], [7925; 7926]) (Some (LW 7925)) (Some (LW 7926));
    Cell ([7797; 65; 7926], [7927; 7929; 7928; 7930; 7931]) (Some (LW 7929)) (Some (LW 7931));
    Cell ([7800; 66; 7931], [7932; 7934; 7933; 7935; 7936]) (Some (LW 7934)) (Some (LW 7936));
    Cell ([7803; 67; 7936], [7937; 7939; 7938; 7940; 7941]) (Some (LW 7939)) (Some (LW 7941));
    Cell ([7806; 68; 7941], [7942; 7944; 7943; 7945; 7946]) (Some (LW 7944)) (Some (LW 7946));
    Cell ([7809; 69; 7946], [7947; 7949; 7948; 7950; 7951]) (Some (LW 7949)) (Some (LW 7951));
    Cell ([7812; 70; 7951], [7952; 7954; 7953; 7955; 7956]) (Some (LW 7954)) (Some (LW 7956));
    Cell ([7815; 71; 7956], [7957; 7959; 7958; 7960; 7961]) (Some (LW 7959)) (Some (LW 7961));
    Cell ([7818; 72; 7961], [7962; 7964; 7963; 7965; 7966]) (Some (LW 7964)) (Some (LW 7966));
    Cell ([7821; 73; 7966], [7967; 7969; 7968; 7970; 7971]) (Some (LW 7969)) (Some (LW 7971));
    Cell ([7824; 74; 7971], [7972; 7974; 7973; 7975; 7976]) (Some (LW 7974)) (Some (LW 7976));
    Cell ([7827; 75; 7976], [7977; 7979; 7978; 7980; 7981]) (Some (LW 7979)) (Some (LW 7981));
    Cell ([7830; 76; 7981], [7982; 7984; 7983; 7985; 7986]) (Some (LW 7984)) (Some (LW 7986));
    Cell ([7833; 77; 7986], [7987; 7989; 7988; 7990; 7991]) (Some (LW 7989)) (Some (LW 7991));
    Cell ([7836; 78; 7991], [7992; 7994; 7993; 7995; 7996]) (Some (LW 7994)) (Some (LW 7996));
    Cell ([7839; 79; 7996], [7997; 7999; 7998; 8000; 8001]) (Some (LW 7999)) (Some (LW 8001));
    Cell ([7842; 80; 8001], [8002; 8004; 8003; 8005; 8006]) (Some (LW 8004)) (Some (LW 8006));
    Cell ([7845; 81; 8006], [8007; 8009; 8008; 8010; 8011]) (Some (LW 8009)) (Some (LW 8011));
    Cell ([7848; 82; 8011], [8012; 8014; 8013; 8015; 8016]) (Some (LW 8014)) (Some (LW 8016));
    Cell ([7851; 83; 8016], [8017; 8019; 8018; 8020; 8021]) (Some (LW 8019)) (Some (LW 8021));
    Cell ([7854; 84; 8021], [8022; 8024; 8023; 8025; 8026]) (Some (LW 8024)) (Some (LW 8026));
    Cell ([7857; 85; 8026], [8027; 8029; 8028; 8030; 8031]) (Some (LW 8029)) (Some (LW 8031));
    Cell ([7860; 86; 8031], [8032; 8034; 8033; 8035; 8036]) (Some (LW 8034)) (Some (LW 8036));
    Cell ([7863; 87; 8036], [8037; 8039; 8038; 8040; 8041]) (Some (LW 8039)) (Some (LW 8041));
    Cell ([7866; 88; 8041], [8042; 8044; 8043; 8045; 8046]) (Some (LW 8044)) (Some (LW 8046));
    Cell ([7869; 89; 8046], [8047; 8049; 8048; 8050; 8051]) (Some (LW 8049)) (Some (LW 8051));
    Cell ([7872; 90; 8051], [8052; 8054; 8053; 8055; 8056]) (Some (LW 8054)) (Some (LW 8056));
    Cell ([7875; 91; 8056], [8057; 8059; 8058; 8060; 8061]) (Some (LW 8059)) (Some (LW 8061));
    Cell ([7878; 92; 8061], [8062; 8064; 8063; 8065; 8066]) (Some (LW 8064)) (Some (LW 8066));
    Cell ([7881; 93; 8066], [8067; 8069; 8068; 8070; 8071]) (Some (LW 8069)) (Some (LW 8071));
    Cell ([7884; 94; 8071], [8072; 8074; 8073; 8075; 8076]) (Some (LW 8074)) (Some (LW 8076));
    Cell ([7887; 95; 8076], [8077; 8079; 8078; 8080; 8081]) (Some (LW 8079)) (Some (LW 8081));
    Cell ([7890; 96; 8081], [8082; 8084; 8083; 8085; 8086]) (Some (LW 8084)) (Some (LW 8086));
    Cell ([7893; 97; 8086], [8087; 8089; 8088; 8090; 8091]) (Some (LW 8089)) (Some (LW 8091));
    Cell ([7896; 98; 8091], [8092; 8094; 8093; 8095; 8096]) (Some (LW 8094)) (Some (LW 8096));
    Cell ([7899; 99; 8096], [8097; 8099; 8098; 8100; 8101]) (Some (LW 8099)) (Some (LW 8101));
    Cell ([7902; 100; 8101], [8102; 8104; 8103; 8105; 8106]) (Some (LW 8104)) (Some (LW 8106));
    Cell ([7905; 101; 8106], [8107; 8109; 8108; 8110; 8111]) (Some (LW 8109)) (Some (LW 8111));
    Cell ([7908; 102; 8111], [8112; 8114; 8113; 8115; 8116]) (Some (LW 8114)) (Some (LW 8116));
    Cell ([7911; 103; 8116], [8117; 8119; 8118; 8120; 8121]) (Some (LW 8119)) (Some (LW 8121));
    Cell ([7914; 104; 8121], [8122; 8124; 8123; 8125; 8126]) (Some (LW 8124)) (Some (LW 8126));
    Cell ([7917; 105; 8126], [8127; 8129; 8128; 8130; 8131]) (Some (LW 8129)) (Some (LW 8131));
    Cell ([7920; 106; 8131], [8132; 8134; 8133; 8135; 8136]) (Some (LW 8134)) (Some (LW 8136));
    Cell ([7923; 107; 8136], [8137; 8139; 8138; 8140; 8141]) (Some (LW 8139)) (Some (LW 8141))]
   ([8141; 184], [8143; 8142; 8144]) 8144 8277
   [8147; 8150; 8153; 8156; 8159; 8162; 8165; 8168; 8171; 8174; 8177; 8180; 8183; 8186; 8189; 8192; 8195; 8198; 8201; 8204; 8207; 8210; 8213; 8216; 8219; 8222; 8225; 8228; 8231; 8234; 8237; 8240; 8243; 8246; 8249; 8252; 8255; 8258; 8261; 8264; 8267; 8270; 8273; 8276]
   [([8144; 20; 7925], [8145; 8146; 8147]); ([8144; 7797; 7929], [8148; 8149; 8150]); ([8144; 7800; 7934], [8151; 8152; 8153]); ([8144; 7803; 7939], [8154; 8155; 8156]); ([8144; 7806; 7944], [8157; 8158; 8159]); ([8144; 7809; 7949], [8160; 8161; 8162]); ([8144; 7812; 7954], [8163; 8164; 8165]); ([8144; 7815; 7959], [8166; 8167; 8168]); ([8144; 7818; 7964], [8169; 8170; 8171]); ([8144; 7821; 7969], [8172; 8173; 8174]); ([8144; 7824; 7974], [8175; 8176; 8177]); ([8144; 7827; 7979], [8178; 8179; 8180]); ([8144; 7830; 7984], [8181; 8182; 8183]); ([8144; 7833; 7989], [8184; 8185; 8186]); ([8144; 7836; 7994], [8187; 8188; 8189]); ([8144; 7839; 7999], [8190; 8191; 8192]); ([8144; 7842; 8004], [8193; 8194; 8195]); ([8144; 7845; 8009], [8196; 8197; 8198]); ([8144; 7848; 8014], [8199; 8200; 8201]); ([8144; 7851; 8019], [8202; 8203; 8204]); ([8144; 7854; 8024], [8205; 8206; 8207]); ([8144; 7857; 8029], [8208; 8209; 8210]); ([8144; 7860; 8034], [8211; 8212; 8213]); ([8144; 7863; 8039], [8214; 8215; 8216]); ([8144; 7866; 8044], [8217; 8218; 8219]); ([8144; 7869; 8049], [8220; 8221; 8222]); ([8144; 7872; 8054], [8223; 8224; 8225]); ([8144; 7875; 8059], [8226; 8227; 8228]); ([8144; 7878; 8064], [8229; 8230; 8231]); ([8144; 7881; 8069], [8232; 8233; 8234]); ([8144; 7884; 8074], [8235; 8236; 8237]); ([8144; 7887; 8079], [8238; 8239; 8240]); ([8144; 7890; 8084], [8241; 8242; 8243]); ([8144; 7893; 8089], [8244; 8245; 8246]); ([8144; 7896; 8094], [8247; 8248; 8249]); ([8144; 7899; 8099], [8250; 8251; 8252]); ([8144; 7902; 8104], [8253; 8254; 8255]); ([8144; 7905; 8109], [8256; 8257; 8258]); ([8144; 7908; 8114], [8259; 8260; 8261]); ([8144; 7911; 8119], [8262; 8263; 8264]); ([8144; 7914; 8124], [8265; 8266; 8267]); ([8144; 7917; 8129], [8268; 8269; 8270]); ([8144; 7920; 8134], [8271; 8272; 8273]); ([8144; 7923; 8139], [8274; 8275; 8276])].
Definition udivide64_stage_44 : ustage := UStage
   [Cell ([19; 64], [8278; 8279]) (Some (LW 8278)) (Some (LW 8279));
    Cell ([8147; 65; 8279], [8280; 8282; 8281; 8283; 8284]) (Some (LW 8282)) (Some (LW 8284));
    Cell ([8150; 66; 8284], [8285; 8287; 8286; 8288; 8289]) (Some (LW 8287)) (Some (LW 8289));
    Cell ([8153; 67; 8289], [8290; 8292; 8291; 8293; 8294]) (Some (LW 8292)) (Some (LW 8294));
    Cell ([8156; 68; 8294], [8295; 8297; 8296; 8298; 8299]) (Some (LW 8297)) (Some (LW 8299));
    Cell ([8159; 69; 8299], [8300; 8302; 8301; 8303; 8304]) (Some (LW 8302)) (Some (LW 8304));
    Cell ([8162; 70; 8304], [8305; 8307; 8306; 8308; 8309]) (Some (LW 8307)) (Some (LW 8309));
    Cell ([8165; 71; 8309], [8310; 8312; 8311; 8313; 8314]) (Some (LW 8312)) (Some (LW 8314));
    Cell ([8168; 72; 8314], [8315; 8317; 8316; 8318; 8319]) (Some (LW 8317)) (Some (LW 8319));
    Cell ([8171; 73; 8319], [8320; 8322; 8321; 8323; 8324]) (Some (LW 8322)) (Some (LW 8324));
    Cell ([8174; 74; 8324], [8325; 8327; 8326; 8328; 8329]) (Some (LW 8327)) (Some (LW 8329));
    Cell ([8177; 75; 8329], [8330; 8332; 8331; 8333; 8334]) (Some (LW 8332)) (Some (LW 8334));
    Cell ([8180; 76; 8334], [8335; 8337; 8336; 8338; 8339]) (Some (LW 8337)) (Some (LW 8339));
    Cell ([8183; 77; 8339], [8340; 8342; 8341; 8343; 8344]) (Some (LW 8342)) (Some (LW 8344));
    Cell ([8186; 78; 8344], [8345; 8347; 8346; 8348; 8349]) (Some (LW 8347)) (Some (LW 8349));
    Cell ([8189; 79; 8349], [8350; 8352; 8351; 8353; 8354]) (Some (LW 8352)) (Some (LW 8354));
    Cell ([8192; 80; 8354], [8355; 8357; 8356; 8358; 8359]) (Some (LW 8357)) (Some (LW 8359));
    Cell ([8195; 81; 8359], [8360; 8362; 8361; 8363; 8364]) (Some (LW 8362)) (Some (LW 8364));
    Cell ([8198; 82; 8364], [8365; 8367; 8366; 8368; 8369]) (Some (LW 8367)) (Some (LW 8369));
    Cell ([8201; 83; 8369], [8370; 8372; 8371; 8373; 8374]) (Some (LW 8372)) (Some (LW 8374));
    Cell ([8204; 84; 8374], [8375; 8377; 8376; 8378; 8379]) (Some (LW 8377)) (Some (LW 8379));
    Cell ([8207; 85; 8379], [8380; 8382; 8381; 8383; 8384]) (Some (LW 8382)) (Some (LW 8384));
    Cell ([8210; 86; 8384], [8385; 8387; 8386; 8388; 8389]) (Some (LW 8387)) (Some (LW 8389));
    Cell ([8213; 87; 8389], [8390; 8392; 8391; 8393; 8394]) (Some (LW 8392)) (Some (LW 8394));
    Cell ([8216; 88; 8394], [8395; 8397; 8396; 8398; 8399]) (Some (LW 8397)) (Some (LW 8399));
    Cell ([8219; 89; 8399], [8400; 8402; 8401; 8403; 8404]) (Some (LW 8402)) (Some (LW 8404));
    Cell ([8222; 90; 8404], [8405; 8407; 8406; 8408; 8409]) (Some (LW 8407)) (Some (LW 8409));
    Cell ([8225; 91; 8409], [8410; 8412; 8411; 8413; 8414]) (Some (LW 8412)) (Some (LW 8414));
    Cell ([8228; 92; 8414], [8415; 8417; 8416; 8418; 8419]) (Some (LW 8417)) (Some (LW 8419));
    Cell ([8231; 93; 8419], [8420; 8422; 8421; 8423; 8424]) (Some (LW 8422)) (Some (LW 8424));
    Cell ([8234; 94; 8424], [8425; 8427; 8426; 8428; 8429]) (Some (LW 8427)) (Some (LW 8429));
    Cell ([8237; 95; 8429], [8430; 8432; 8431; 8433; 8434]) (Some (LW 8432)) (Some (LW 8434));
    Cell ([8240; 96; 8434], [8435; 8437; 8436; 8438; 8439]) (Some (LW 8437)) (Some (LW 8439));
    Cell ([8243; 97; 8439], [8440; 8442; 8441; 8443; 8444]) (Some (LW 8442)) (Some (LW 8444));
    Cell ([8246; 98; 8444], [8445; 8447; 8446; 8448; 8449]) (Some (LW 8447)) (Some (LW 8449));
    Cell ([8249; 99; 8449], [8450; 8452; 8451; 8453; 8454]) (Some (LW 8452)) (Some (LW 8454));
    Cell ([8252; 100; 8454], [8455; 8457; 8456; 8458; 8459]) (Some (LW 8457)) (Some (LW 8459));
    Cell ([8255; 101; 8459], [8460; 8462; 8461; 8463; 8464]) (Some (LW 8462)) (Some (LW 8464));
    Cell ([8258; 102; 8464], [8465; 8467; 8466; 8468; 8469]) (Some (LW 8467)) (Some (LW 8469));
    Cell ([8261; 103; 8469], [8470; 8472; 8471; 8473; 8474]) (Some (LW 8472)) (Some (LW 8474));
    Cell ([8264; 104; 8474], [8475; 8477; 8476; 8478; 8479]) (Some (LW 8477)) (Some (LW 8479));
    Cell ([8267; 105; 8479], [8480; 8482; 8481; 8483; 8484]) (Some (LW 8482)) (Some (LW 8484));
    Cell ([8270; 106; 8484], [8485; 8487; 8486; 8488; 8489]) (Some (LW 8487)) (Some (LW 8489));
    Cell ([8273; 107; 8489], [8490; 8492; 8491; 8493; 8494]) (Some (LW 8492)) (Some (LW 8494));
    Cell ([8276; 108; 8494], [8495; 8497; 8496; 8498; 8499]) (Some (LW 8497)) (Some (LW 8499))]
   ([8499; 181], [8501; 8500; 8502]) 8502 8638
   [8505; 8508; 8511; 8514; 8517; 8520; 8523; 8526; 8529; 8532; 8535; 8538; 8541; 8544; 8547; 8550; 8553; 8556; 8559; 8562; 8565; 8568; 8571; 8574; 8577; 8580; 8583; 8586; 8589; 8592; 8595; 8598; 8601; 8604; 8607; 8610; 8613; 8616; 8619; 8622; 8625; 8628; 8631; 8634; 8637]
   [([8502; 19; 8278], [8503; 8504; 8505]); ([8502; 8147; 8282], [8506; 8507; 8508]); ([8502; 8150; 8287], [8509; 8510; 8511]); ([8502; 8153; 8292], [8512; 8513; 8514]); ([8502; 8156; 8297], [8515; 8516; 8517]); ([8502; 8159; 8302], [8518; 8519; 8520]); ([8502; 8162; 8307], [8521; 8522; 8523]); ([8502; 8165; 8312], [8524; 8525; 8526]); ([8502; 8168; 8317], [8527; 8528; 8529]); ([8502; 8171; 8322], [8530; 8531; 8532]); ([8502; 8174; 8327], [8533; 8534; 8535]); ([8502; 8177; 8332], [8536; 8537; 8538]); ([8502; 8180; 8337], [8539; 8540; 8541]); ([8502; 8183; 8342], [8542; 8543; 8544]); ([8502; 8186; 8347], [8545; 8546; 8547]); ([8502; 8189; 8352], [8548; 8549; 8550]); ([8502; 8192; 8357], [8551; 8552; 8553]); ([8502; 8195; 8362], [8554; 8555; 8556]); ([8502; 8198; 8367], [8557; 8558; 8559]); ([8502; 8201; 8372], [8560; 8561; 8562]); ([8502; 8204; 8377], [8563; 8564; 8565]); ([8502; 8207; 8382], [8566; 8567; 8568]); ([8502; 8210; 8387], [8569; 8570; 8571]); ([8502; 8213; 8392], [8572; 8573; 8574]); ([8502; 8216; 8397], [8575; 8576; 8577]); ([8502; 8219; 8402], [8578; 8579; 8580]); ([8502; 8222; 8407], [8581; 8582; 8583]); ([8502; 8225; 8412], [8584; 8585; 8586]); ([8502; 8228; 8417], [8587; 8588; 8589]); ([8502; 8231; 8422], [8590; 8591; 8592]); ([8502; 8234; 8427], [8593; 8594; 8595]); ([8502; 8237; 8432], [8596; 8597; 8598]); ([8502; 8240; 8437], [8599; 8600; 8601]); ([8502; 8243; 8442], [8602; 8603; 8604]); ([8502; 8246; 8447], [8605; 8606; 8607]); ([8502; 8249; 8452], [8608; 8609; 8610]); ([8502; 8252; 8457], [8611; 8612; 8613]); ([8502; 8255; 8462], [8614; 8615; 8616]); ([8502; 8258; 8467], [8617; 8618; 8619]); ([8502; 8261; 8472], [8620; 8621; 8622]); ([8502; 8264; 8477], [8623; 8624; 8625]); ([8502; 8267; 8482], [8626; 8627; 8628]); ([8502; 8270; 8487], [8629; 8630; 8631]); ([8502; 8273; 8492], [8632; 8633; 8634]); ([8502; 8276; 8497], [8635; 8636; 8637])].
Definition udivide64_stage_45 : ustage := UStage
   [Cell ([18; 64], [8639; 8640]) (Some (LW 8639)) (Some (LW 8640));
    Cell ([8505; 65; 8640], [8641; 8643; 8642; 8644; 8645]) (Some (LW 8643)) (Some (LW 8645));
    Cell ([8508; 66; 8645], [8646; 8648; 8647; 8649; 8650]) (Some (LW 8648)) (Some (LW 8650));
    Cell ([8511; 67; 8650], [8651; 8653; 8652; 8654; 8655]) (Some (LW 8653)) (Some (LW 8655));
    Cell ([8514; 68; 8655], [8656; 8658; 8657; 8659; 8660]) (Some (LW 8658)) (Some (LW 8660));
    Cell ([8517; 69; 8660], [8661; 8663; 8662; 8664; 8665]) (Some (LW 8663)) (Some (LW 8665));
    Cell ([8520; 70; 8665], [8666; 8668; 8667; 8669; 8670]) (Some (LW 8668)) (Some (LW 8670));
    Cell ([8523; 71; 8670], [8671; 8673; 8672; 8674; 8675]) (Some (LW 8673)) (Some (LW 8675));
    Cell ([8526; 72; 8675], [8676; 8678; 8677; 8679; 8680]) (Some (LW 8678)) (Some (LW 8680));
    Cell ([8529; 73; 8680], [8681; 8683; 8682; 8684; 8685]) (Some (LW 8683)) (Some (LW 8685));
    Cell ([8532; 74; 8685], [8686; 8688; 8687; 8689; 8690]) (Some (LW 8688)) (Some (LW 8690));
    Cell ([8535; 75; 8690], [8691; 8693; 8692; 8694; 8695]) (Some (LW 8693)) (Some (LW 8695));
    Cell ([8538; 76; 8695], [8696; 8698; 8697; 8699; 8700]) (Some (LW 8698)) (Some (LW 8700));
    Cell ([8541; 77; 8700], [8701; 8703; 8702; 8704; 8705]) (Some (LW 8703)) (Some (LW 8705));
    Cell ([8544; 78; 8705], [8706; 8708; 8707; 8709; 8710]) (Some (LW 8708)) (Some (LW 8710));
    Cell ([8547; 79; 8710], [8711; 8713; 8712; 8714; 8715]) (Some (LW 8713)) (Some (LW 8715));
    Cell ([8550; 80; 8715], [8716; 8718; 8717; 8719; 8720]) (Some (LW 8718)) (Some (LW 8720));
    Cell ([8553; 81; 8720], [8721; 8723; 8722; 8724; 8725]) (Some (LW 8723)) (Some (LW 8725));
    Cell ([8556; 82; 8725], [8726; 8728; 8727; 8729; 8730]) (Some (LW 8728)) (Some (LW 8730));
    Cell ([8559; 83; 8730], [8731; 8733; 8732; 8734; 8735]) (Some (LW 8733)) (Some (LW 8735));
    Cell ([8562; 84; 8735], [8736; 8738; 8737; 8739; 8740]) (Some (LW 8738)) (Some (LW 8740));
    Cell ([8565; 85; 8740], [8741; 8743; 8742; 8744; 8745]) (Some (LW 8743)) (Some (LW 8745));
    Cell ([8568; 86; 8745], [8746; 8748; 8747; 8749; 8750]) (Some (LW 8748)) (Some (LW 8750));
    Cell ([8571; 87; 8750], [8751; 8753; 8752; 8754; 8755]) (Some (LW 8753)) (Some (LW 8755));
    Cell ([8574; 88; 8755], [8756; 8758; 8757; 8759; 8760]) (Some (LW 8758)) (Some (LW 8760));
    Cell ([8577; 89; 8760], [8761; 8763; 8762; 8764; 8765]) (Some (LW 8763)) (Some (LW 8765));
    Cell ([8580; 90; 8765], [8766; 8768; 8767; 8769; 8770]) (Some (LW 8768)) (Some (LW 8770));
    Cell ([8583; 91; 8770], [8771; 8773; 8772; 8774; 8775]) (Some (LW 8773)) (Some (LW 8775));
    Cell ([8586; 92; 8775], [8776; 8778; 8777; 8779; 8780]) (Some (LW 8778)) (Some (LW 8780));
    Cell ([8589; 93; 8780], [8781; 8783; 8782; 8784; 8785]) (Some (LW 8783)) (Some (LW 8785));
    Cell ([8592; 94; 8785], [8786; 8788; 8787; 8789; 8790]) (Some (LW 8788)) (Some (LW 8790));
    Cell ([8595; 95; 8790], [8791; 8793; 8792; 8794; 8795]) (Some (LW 8793)) (Some (LW 8795));
    Cell ([8598; 96; 8795], [8796; 8798; 8797; 8799; 8800]) (Some (LW 8798)) (Some (LW 8800));
    Cell ([8601; 97; 8800], [8801; 8803; 8802; 8804; 8805]) (Some (LW 8803)) (Some (LW 8805));
    Cell ([8604; 98; 8805], [8806; 8808; 8807; 8809; 8810]) (Some (LW 8808)) (Some (LW 8810));
    Cell ([8607; 99; 8810], [8811; 8813; 8812; 8814; 8815]) (Some (LW 8813)) (Some (LW 8815));
    Cell ([8610; 100; 8815], [8816; 8818; 8817; 8819; 8820]) (Some (LW 8818)) (Some (LW 8820));
    Cell ([8613; 101; 8820], [8821; 8823; 8822; 8824; 8825]) (Some (LW 8823)) (Some (LW 8825));
    Cell ([8616; 102; 8825], [8826; 8828; 8827; 8829; 8830]) (Some (LW 8828)) (Some (LW 8830));
    Cell ([8619; 103; 8830], [8831; 8833; 8832; 8834; 8835]) (Some (LW 8833)) (Some (LW 8835));
    Cell ([8622; 104; 8835], [8836; 8838; 8837; 8839; 8840]) (Some (LW 8838)) (Some (LW 8840));
    Cell ([8625; 105; 8840], [8841; 8843; 8842; 8844; 8845]) (Some (LW 8843)) (Some (LW 8845));
    Cell ([8628; 106; 8845], [8846; 8848; 8847; 8849; 8850]) (Some (LW 8848)) (Some (LW 8850));
    Cell ([8631; 107; 8850], [8851; 8853; 8852; 8854; 8855]) (Some (LW 8853)) (Some (LW 8855));
    Cell ([8634; 108; 8855], [8856; 8858; 8857; 8859; 8860]) (Some (LW 8858)) (Some (LW 8860));
    Cell ([8637; 109; 8860], [8861; 8863; 8862; 8864; 8865]) (Some (LW 8863)) (Some (LW 8865))]
   ([8865; 178], [8867; 8866; 8868]) 8868 9007
   [8871; 8874; 8877; 8880; 8883; 8886; 8889; 8892; 8895; 8898; 8901; 8904; 8907; 8910; 8913; 8916; 8919; 8922; 8925; 8928; 8931; 8934; 8937; 8940; 8943; 8946; 8949; 8952; 8955; 8958; 8961; 8964; 8967; 8970; 8973; 8976; 8979; 8982; 8985; 8988; 8991; 8994; 8997; 9000; 9003; 9006]
   [([8868; 18; 8639], [8869; 8870; 8871]); ([8868; 8505; 8643], [8872; 8873; 8874]); ([8868; 8508; 8648], [8875; 8876; 8877]); ([8868; 8511; 8653], [8878; 8879; 8880]); ([8868; 8514; 8658], [8881; 8882; 8883]); ([8868; 8517; 8663], [8884; 8885; 8886]); ([8868; 8520; 8668], [8887; 8888; 8889]); ([8868; 8523; 8673], [8890; 8891; 8892]); ([8868; 8526; 8678], [8893; 8894; 8895]); ([8868; 8529; 8683], [8896; 8897; 8898]); ([8868; 8532; 8688], [8899; 8900; 8901]); ([8868; 8535; 8693], [8902; 8903; 8904]); ([8868; 8538; 8698], [8905; 8906; 8907]); ([8868; 8541; 8703], [8908; 8909; 8910]); ([8868; 8544; 8708], [8911; 8912; 8913]); ([8868; 8547; 8713], [8914; 8915; 8916]); ([8868; 8550; 8718], [8917; 8918; 8919]); ([8868; 8553; 8723], [8920; 8921; 8922]); ([8868; 8556; 8728], [8923; 8924; 8925]); ([8868; 8559; 8733], [8926; 8927; 8928]); ([8868; 8562; 8738], [8929; 8930; 8931]); ([8868; 8565; 8743], [8932; 8933; 8934]); ([8868; 8568; 8748], [8935; 8936; 8937]); ([8868; 8571; 8753], [8938; 8939; 8940]); ([8868; 8574; 8758], [8941; 8942; 8943]); ([8868; 8577; 8763], [8944; 8945; 8946]); ([8868; 8580; 8768], [8947; 8948; 8949]); ([8868; 8583; 8773], [8950; 8951; 8952]); ([8868; 8586; 8778], [8953; 8954; 8955]); ([8868; 8589; 8783], [8956; 8957; 8958]); ([8868; 8592; 8788], [8959; 8960; 8961]); ([8868; 8595; 8793], [8962; 8963; 8964]); ([8868; 8598; 8798], [8965; 8966; 8967]); ([8868; 8601; 8803], [8968; 8969; 8970]); ([8868; 8604; 8808], [8971; 8972; 8973]); ([8868; 8607; 8813], [8974; 8975; 8976]); ([8868; 8610; 8818], [8977; 8978; 8979]); ([8868; 8613; 8823], [8980; 8981; 8982]); ([8868; 8616; 8828], [8983; 8984; 8985]); ([8868; 8619; 8833], [8986; 8987; 8988]); ([8868; 8622; 8838], [8989; 8990; 8991]); ([8868; 8625; 8843], [8992; 8993; 8994]); ([8868; 8628; 8848], [8995; 8996; 8997]); ([8868; 8631; 8853], [8998; 8999; 9000]); ([8868; 8634; 8858], [9001; 9002; 9003]); ([8868; 8637; 8863], [9004; 9005; 9006])].
Definition udivide64_stage_46 : ustage := UStage
   [Cell ([17; 64], [9008; 9009]) (Some (LW 9008)) (Some (LW 9009));
    Cell ([8871; 65; 9009], [9010; 9012; 9011; 9013; 9014]) (Some (LW 9012)) (Some (LW 9014));
    Cell ([8874; 66; 9014], [9015; 9017; 9016; 9018; 9019]) (Some (LW 9017)) (Some (LW 9019));
    Cell ([8877; 67; 9019], [9020; 9022; 9021; 9023; 9024]) (Some (LW 9022)) (Some (LW 9024));
    Cell ([8880; 68; 9024], [9025; 9027; 9026; 9028; 9029]) (Some (LW 9027)) (Some (LW 9029));
    Cell ([8883; 69; 9029], [9030; 9032; 9031; 9033; 9034]) (Some (LW 9032)) (Some (LW 9034));
    Cell ([8886; 70; 9034], [9035; 9037; 9036; 9038; 9039]) (Some (LW 9037)) (Some (LW 9039));
    Cell ([8889; 71; 9039], [9040; 9042; 9041; 9043; 9044]) (Some (LW 9042)) (Some (LW 9044));
    Cell ([8892; 72; 9044], [9045; 9047; 9046; 9048; 9049]) (Some (LW 9047)) (Some (LW 9049));
    Cell ([8895; 73; 9049], [9050; 9052; 9051; 9053; 9054]) (Some (LW 9052)) (Some (LW 9054));
    Cell ([8898; 74; 9054], [9055; 9057; 9056; 9058; 9059]) (Some (LW 9057)) (Some (LW 9059));
    Cell ([8901; 75; 9059], [9060; 9062; 9061; 9063; 9064]) (Some (LW 9062)) (Some (LW 9064));
    Cell ([8904; 76; 9064], [9065; 9067; 9066; 9068; 9069]) (Some (LW 9067)) (Some (LW 9069));
    Cell ([8907; 77; 9069], [9070; 9072; 9071; 9073; 9074]) (Some (LW 9072)) (Some (LW 9074));
    Cell ([8910; 78; 9074], [9075; 9077; 9076; 9078; 9079]) (Some (LW 9077)) (Some (LW 9079));
    Cell ([8913; 79; 9079], [9080; 9082; 9081; 9083; 9084]) (Some (LW 9082)) (Some (LW 9084));
    Cell ([8916; 80; 9084], [9085; 9087; 9086; 9088; 9089]) (Some (LW 9087)) (Some (LW 9089));
    Cell ([8919; 81; 9089], [9090; 9092; 9091; 9093; 9094]) (Some (LW 9092)) (Some (LW 9094));
    Cell ([8922; 82; 9094], [9095; 9097; 9096; 9098; 9099]) (Some (LW 9097)) (Some (LW 9099));
    Cell ([8925; 83; 9099], [9100; 9102; 9101; 9103; 9104]) (Some (LW 9102)) (Some (LW 9104));
    Cell ([8928; 84; 9104], [9105; 9107; 9106; 9108; 9109]) (Some (LW 9107)) (Some (LW 9109));
    Cell ([8931; 85; 9109], [9110; 9112; 9111; 9113; 9114]) (Some (LW 9112)) (Some (LW 9114));
    Cell ([8934; 86; 9114], [9115; 9117; 9116; 9118; 9119]) (Some (LW 9117)) (Some (LW 9119));
    Cell ([8937; 87; 9119], [9120; 9122; 9121; 9123; 9124]) (Some (LW 9122)) (Some (LW 9124));
    Cell ([8940; 88; 9124], [9125; 9127; 9126; 9128; 9129]) (Some (LW 9127)) (Some (LW 9129));
    Cell ([8943; 89; 9129], [9130; 9132; 9131; 9133; 9134]) (Some (LW 9132)) (Some (LW 9134));
    Cell ([8946; 90; 9134], [9135; 9137; 9136; 9138; 9139]) (Some (LW 9137)) (Some (LW 9139));
    Cell ([8949; 91; 9139], [9140; 9142; 9141; 9143; 9144]) (Some (LW 9142)) (Some (LW 9144));
    Cell ([8952; 92; 9144], [9145; 9147; 9146; 9148; 9149]) (Some (LW 9147)) (Some (LW 9149));
    Cell ([8955; 93; 9149], [9150; 9152; 9151; 9153; 9154]) (Some (LW 9152)) (Some (LW 9154));
    Cell ([8958; 94; 9154], [9155; 9157; 9156; 9158; 9159]) (Some (LW 9157)) (Some (LW 9159));
    Cell ([8961; 95; 9159], [9160; 9162; 9161; 9163; 9164]) (Some (LW 9162)) (Some (LW 9164));
    Cell ([8964; 96; 9164], [9165; 9167; 9166; 9168; 9169]) (Some (LW 9167)) (Some (LW 9169));
    Cell ([8967; 97; 9169], [9170; 9172; 9171; 9173; 9174]) (Some (LW 9172)) (Some (LW 9174));
    Cell ([8970; 98; 9174], [9175; 9177; 9176; 9178; 9179]) (Some (LW 9177)) (Some (LW 9179));
    Cell ([8973; 99; 9179], [9180; 9182; 9181; 9183; 9184]) (Some (LW 9182)) (Some (LW 9184));
    Cell ([8976; 100; 9184], [9185; 9187; 9186; 9188; 9189]) (Some (LW 9187)) (Some (LW 9189));
    Cell ([8979; 101; 9189], [9190; 9192; 9191; 9193; 9194]) (Some (LW 9192)) (Some (LW 9194));
    Cell ([8982; 102; 9194], [9195; 9197; 9196; 9198; 9199]) (Some (LW 9197)) (Some (LW 9199));
    Cell ([8985; 103; 9199], [9200; 9202; 9201; 9203; 9204]) (Some (LW 9202)) (Some (LW 9204));
    Cell ([8988; 104; 9204], [9205; 9207; 9206; 9208; 9209]) (Some (LW 9207)) (Some (LW 9209));
    Cell ([8991; 105; 9209], [9210; 9212; 9211; 9213; 9214]) (Some (LW 9212)) (Some (LW 9214));
    Cell ([8994; 106; 9214], [9215; 9217; 9216; 9218; 9219]) (Some (LW 9217)) (Some (LW 9219));
    Cell ([8997; 107; 9219], [9220; 9222; 9221; 9223; 9224]) (Some (LW 9222)) (Some (LW 9224));
    Cell ([9000; 108; 9224], [9225; 9227; 9226; 9228; 9229]) (Some (LW 9227)) (Some (LW 9229));
    Cell ([9003; 109; 9229], [9230; 9232; 9231; 9233; 9234]) (Some (LW 9232)) (Some (LW 9234));
    Cell ([9006; 110; 9234], [9235; 9237; 9236; 9238; 9239]) (Some (LW 9237)) (Some (LW 9239))]
   ([9239; 175], [9241; 9240; 9242]) 9242 9384
   [9245; 9248; 9251; 9254; 9257; 9260; 9263; 9266; 9269; 9272; 9275; 9278; 9281; 9284; 9287; 9290; 9293; 9296; 9299; 9302; 9305; 9308; 9311; 9314; 9317; 9320; 9323; 9326; 9329; 9332; 9335; 9338; 9341; 9344; 9347; 9350; 9353; 9356; 9359; 9362; 9365; 9368; 9371; 9374; 9377; 9380; 9383]
   [([9242; 17; 9008], [9243; 9244; 9245]); ([9242; 8871; 9012], [9246; 9247; 9248]); ([9242; 8874; 9017], [9249; 9250; 9251]); ([9242; 8877; 9022], [9252; 9253; 9254]); ([9242; 8880; 9027], [9255; 9256; 9257]); ([9242; 8883; 9032], [9258; 9259; 9260]); ([9242; 8886; 9037], [9261; 9262; 9263]); ([9242; 8889; 9042], [9264; 9265; 9266]); ([9242; 8892; 9047], [9267; 9268; 9269]); ([9242; 8895; 9052], [9270; 9271; 9272]); ([9242; 8898; 9057], [9273; 9274; 9275]); ([9242; 8901; 9062], [9276; 9277; 9278]); ([9242; 8904; 9067], [9279; 9280; 9281]); ([9242; 8907; 9072], [9282; 9283; 9284]); ([9242; 8910; 9077], [9285; 9286; 9287]); ([9242; 8913; 9082], [9288; 9289; 9290]); ([9242; 8916; 9087], [9291; 9292; 9293]); ([9242; 8919; 9092], [9294; 9295; 9296]); ([9242; 8922; 9097], [9297; 9298; 9299]); ([9242; 8925; 9102], [9300; 9301; 9302]); ([9242; 8928; 9107], [9303; 9304; 9305]); ([9242; 8931; 9112], [9306; 9307; 9308]); ([9242; 8934; 9117], [9309; 9310; 9311]); ([9242; 8937; 9122], [9312; 9313; 9314]); ([9242; 8940; 9127], [9315; 9316; 9317]); ([9242; 8943; 9132], [9318; 9319; 9320]); ([9242; 8946; 9137], [9321; 9322; 9323]); ([9242; 8949; 9142], [9324; 9325; 9326]); ([9242; 8952; 9147], [9327; 9328; 9329]); ([9242; 8955; 9152], [9330; 9331; 9332]); ([9242; 8958; 9157], [9333; 9334; 9335]); ([9242; 8961; 9162], [9336; 9337; 9338]); ([9242; 8964; 9167], [9339; 9340; 9341]); ([9242; 8967; 9172], [9342; 9343; 9344]); ([9242; 8970; 9177], [9345; 9346; 9347]); ([9242; 8973; 9182], [9348; 9349; 9350]); ([9242; 8976; 9187], [9351; 9352; 9353]); ([9242; 8979; 9192], [9354; 9355; 9356]); ([9242; 8982; 9197], [9357; 9358; 9359]); ([9242; 8985; 9202], [9360; 9361; 9362]); ([9242; 8988; 9207], [9363; 9364; 9365]); ([9242; 8991; 9212], [9366; 9367; 9368]); ([9242; 8994; 9217], [9369; 9370; 9371]); ([9242; 8997; 9222], [9372; 9373; 9374]); ([9242; 9000; 9227], [9375; 9376; 9377]); ([9242; 9003; 9232], [9378; 9379; 9380]); ([9242; 9006; 9237], [9381; 9382; 9383])].
Definition udivide64_stage_47 : ustage := UStage
   [Cell ([16; 64], [9385; 9386]) (Some (LW 9385)) (Some (LW 9386));
    Cell ([9245; 65; 9386], [9387; 9389; 9388; 9390; 9391]) (Some (LW 9389)) (Some (LW 9391));
    Cell ([9248; 66; 9391], [9392; 9394; 9393; 9395; 9396]) (Some (LW 9394)) (Some (LW 9396));
    Cell ([9251; 67; 9396], [9397; 9399; 9398; 9400; 9401]) (Some (LW 9399)) (Some (LW 9401));
    Cell ([9254; 68; 9401], [9402; 9404; 9403; 9405; 9406]) (Some (LW 9404)) (Some (LW 9406));
    Cell ([9257; 69; 9406], [9407; 9409; 9408; 9410; 9411]) (Some (LW 9409)) (Some (LW 9411));
    Cell ([9260; 70; 9411], [9412; 9414; 9413; 9415; 9416]) (Some (LW 9414)) (Some (LW 9416));
    Cell ([9263; 71; 9416], [9417; 9419; 9418; 9420; 9421]) (Some (LW 9419)) (Some (LW 9421));
    Cell ([9266; 72; 9421], [9422; 9424; 9423; 9425; 9426]) (Some (LW 9424)) (Some (LW 9426));
    Cell ([9269; 73; 9426], [9427; 9429; 9428; 9430; 9431]) (Some (LW 9429)) (Some (LW 9431));
    Cell ([9272; 74; 9431], [9432; 9434; 9433; 9435; 9436]) (Some (LW 9434)) (Some (LW 9436));
    Cell ([9275; 75; 9436], [9437; 9439; 9438; 9440; 9441]) (Some (LW 9439)) (Some (LW 9441));
    Cell ([9278; 76; 9441], [9442; 9444; 9443; 9445; 9446]) (Some (LW 9444)) (Some (LW 9446));
    Cell ([9281; 77; 9446], [9447; 9449; 9448; 9450; 9451]) (Some (LW 9449)) (Some (LW 9451));
    Cell ([9284; 78; 9451], [9452; 9454; 9453; 9455; 9456]) (Some (LW 9454)) (Some (LW 9456));
    Cell ([9287; 79; 9456], [9457; 9459; 9458; 9460; 9461]) (Some (LW 9459)) (Some (LW 9461));
    Cell ([9290; 80; 9461], [9462; 9464; 9463; 9465; 9466]) (Some (LW 9464)) (Some (LW 9466));
    Cell ([9293; 81; 9466], [9467; 9469; 9468; 9470; 9471]) (Some (LW 9469)) (Some (LW 9471));
    Cell ([9296; 82; 9471], [9472; 9474; 9473; 9475; 9476]) (Some (LW 9474)) (Some (LW 9476));
    Cell ([9299; 83; 9476], [9477; 9479; 9478; 9480; 9481]) (Some (LW 9479)) (Some (LW 9481));
    Cell ([9302; 84; 9481], [9482; 9484; 9483; 9485; 9486]) (Some (LW 9484)) (Some (LW 9486));
    Cell ([9305; 85; 9486], [9487; 9489; 9488; 9490; 9491]) (Some (LW 9489)) (Some (LW 9491));
    Cell ([9308; 86; 9491], [9492; 9494; 9493; 9495; 9496]) (Some (LW 9494)) (Some (LW 9496));
    Cell ([9311; 87; 9496], [9497; 9499; 9498; 9500; 9501]) (Some (LW 9499)) (Some (LW 9501));
    Cell ([9314; 88; 9501], [9502; 9504; 9503; 9505; 9506]) (Some (LW 9504)) (Some (LW 9506));
    Cell ([9317; 89; 9506], [9507; 9509; 9508; 9510; 9511]) (Some (LW 9509)) (Some (LW 9511));
    Cell ([9320; 90; 9511], [9512; 9514; 9513; 9515; 9516]) (Some (LW 9514)) (Some (LW 9516));
    Cell ([9323; 91; 9516], [9517; 9519; 9518; 9520; 9521]) (Some (LW 9519)) (Some (LW 9521));
    Cell ([9326; 92; 9521], [9522; 9524; 9523; 9525; 9526]) (Some (LW 9524)) (Some (LW 9526));
    Cell ([9329; 93; 9526], [9527; 9529; 9528; 9530; 9531]) (Some (LW 9529)) (Some (LW 9531));
    Cell ([9332; 94; 9531], [9532; 9534; 9533; 9535; 9536]) (Some (LW 9534)) (Some (LW 9536));
    Cell ([9335; 95; 9536], [9537; 9539; 9538; 9540; 9541]) (Some (LW 9539)) (Some (LW 9541));
    Cell ([9338; 96; 9541], [9542; 9544; 9543; 9545; 9546]) (Some (LW 9544)) (Some (LW 9546));
    Cell ([9341; 97; 9546], [9547; 9549; 9548; 9550; 9551]) (Some (LW 9549)) (Some (LW 9551));
    Cell ([9344; 98; 9551], [9552; 9554; 9553; 9555; 9556]) (Some (LW 9554)) (Some (LW 9556));
    Cell ([9347; 99; 9556], [9557; 9559; 9558; 9560; 9561]) (Some (LW 9559)) (Some (LW 9561));
    Cell ([9350; 100; 9561], [9562; 9564; 9563; 9565; 9566]) (Some (LW 9564)) (Some (LW 9566));
    Cell ([9353; 101; 9566], [9567; 9569; 9568; 9570; 9571]) (Some (LW 9569)) (Some (LW 9571));
    Cell ([9356; 102; 9571], [9572; 9574; 9573; 9575; 9576]) (Some (LW 9574)) (Some (LW 9576));
    Cell ([9359; 103; 9576], [9577; 9579; 9578; 9580; 9581]) (Some (LW 9579)) (Some (LW 9581));
    Cell ([9362; 104; 9581], [9582; 9584; 9583; 9585; 9586]) (Some (LW 9584)) (Some (LW 9586));
    Cell ([9365; 105; 9586], [9587; 9589; 9588; 9590; 9591]) (Some (LW 9589)) (Some (LW 9591));
    Cell ([9368; 106; 9591], [9592; 9594; 9593; 9595; 9596]) (Some (LW 9594)) (Some (LW 9596));
    Cell ([9371; 107; 9596], [9597; 9599; 9598; 9600; 9601]) (Some (LW 9599)) (Some (LW 9601));
    Cell ([9374; 108; 9601], [9602; 9604; 9603; 9605; 9606]) (Some (LW 9604)) (Some (LW 9606));
    Cell ([9377; 109; 9606], [9607; 9609; 9608; 9610; 9611]) (Some (LW 9609)) (Some (LW 9611));
    Cell ([9380; 110; 9611], [9612; 9614; 9613; 9615; 9616]) (Some (LW 9614)) (Some (LW 9616));
    Cell ([9383; 111; 9616], [9617; 9619; 9618; 9620; 9621]) (Some (LW 9619)) (Some (LW 9621))]
   ([9621; 172], [9623; 9622; 9624]) 9624 9769
   [9627; 9630; 9633; 9636; 9639; 9642; 9645; 9648; 9651; 9654; 9657; 9660; 9663; 9666; 9669; 9672; 9675; 9678; 9681; 9684; 9687; 9690; 9693; 9696; 9699; 9702; 9705; 9708; 9711; 9714; 9717; 9720; 9723; 9726; 9729; 9732; 9735; 9738; 9741; 9744; 9747; 9750; 9753; 9756; 9759; 9762; 9765; 9768]
   [([9624; 16; 9385], [9625; 9626; 9627]); ([9624; 9245; 9389], [9628; 9629; 9630]); ([9624; 9248; 9394], [9631; 9632; 9633]); ([9624; 9251; 9399], [9634; 9635; 9636]); ([9624; 9254; 9404], [9637; 9638; 9639]); ([9624; 9257; 9409], [9640; 9641; 9642]); ([9624; 9260; 9414], [9643; 9644; 9645]); ([9624; 9263; 9419], [9646; 9647; 9648]); ([9624; 9266; 9424], [9649; 9650; 9651]); ([9624; 9269; 9429], [9652; 9653; 9654]); ([9624; 9272; 9434], [9655; 9656; 9657]); ([9624; 9275; 9439], [9658; 9659; 9660]); ([9624; 9278; 9444], [9661; 9662; 9663]); ([9624; 9281; 9449], [9664; 9665; 9666]); ([9624; 9284; 9454], [9667; 9668; 9669]); ([9624; 9287; 9459], [9670; 9671; 9672]); ([9624; 9290; 9464], [9673; 9674; 9675]); ([9624; 9293; 9469], [9676; 9677; 9678]); ([9624; 9296; 9474], [9679; 9680; 9681]); ([9624; 9299; 9479], [9682; 9683; 9684]); ([9624; 9302; 9484], [9685; 9686; 9687]); ([9624; 9305; 9489], [9688; 9689; 9690]); ([9624; 9308; 9494], [9691; 9692; 9693]); ([9624; 9311; 9499], [9694; 9695; 9696]); ([9624; 9314; 9504], [9697; 9698; 9699]); ([9624; 9317; 9509], [9700; 9701; 9702]); ([9624; 9320; 9514], [9703; 9704; 9705]); ([9624; 9323; 9519], [9706; 9707; 9708]); ([9624; 9326; 9524], [9709; 9710; 9711]); ([9624; 9329; 9529], [9712; 9713; 9714]); ([9624; 9332; 9534], [9715; 9716; 9717]); ([9624; 9335; 9539], [9718; 9719; 9720]); ([9624; 9338; 9544], [9721; 9722; 9723]); ([9624; 9341; 9549], [9724; 9725; 9726]); ([9624; 9344; 9554], [9727; 9728; 9729]); ([9624; 9347; 9559], [9730; 9731; 9732]); ([9624; 9350; 9564], [9733; 9734; 9735]); ([9624; 9353; 9569], [9736; 9737; 9738]); ([9624; 9356; 9574], [9739; 9740; 9741]); ([9624; 9359; 9579], [9742; 9743; 9744]); ([9624; 9362; 9584], [9745; 9746; 9747]); ([9624; 9365; 9589], [9748; 9749; 9750]); ([9624; 9368; 9594], [9751; 9752; 9753]); ([9624; 9371; 9599], [9754; 9755; 9756]); ([9624; 9374; 9604], [9757; 9758; 9759]); ([9624; 9377; 9609], [9760; 9761; 9762]); ([9624; 9380; 9614], [9763; 9764; 9765]); ([9624; 9383; 9619], [9766; 9767; 9768])].
Definition udivide64_stage_48 : ustage := UStage
   [Cell ([15; 64], [9770; 9771]) (Some (LW 9770)) (Some (LW 9771));
    Cell ([9627; 65; 9771], [9772; 9774; 9773; 9775; 9776]) (Some (LW 9774)) (Some (LW 9776));
    Cell ([9630; 66; 9776], [9777; 9779; 9778; 9780; 9781]) (Some (LW 9779)) (Some (LW 9781));
    Cell ([9633; 67; 9781], [9782; 9784; 9783; 9785; 9786]) (Some (LW 9784)) (Some (LW 9786));
    Cell ([9636; 68; 9786], [9787; 9789; 9788; 9790; 9791]) (Some (LW 9789)) (Some (LW 9791));
    Cell ([9639; 69; 9791], [9792; 9794; 9793; 9795; 9796]) (Some (LW 9794)) (Some (LW 9796));
    Cell ([9642; 70; 9796], [9797; 9799; 9798; 9800; 9801]) (Some (LW 9799)) (Some (LW 9801));
    Cell ([9645; 71; 9801], [9802; 9804; 9803; 9805; 9806]) (Some (LW 9804)) (Some (LW 9806));
    Cell ([9648; 72; 9806], [9807; 9809; 9808; 9810; 9811]) (Some (LW 9809)) (Some (LW 9811));
    Cell ([9651; 73; 9811], [9812; 9814; 9813; 9815; 9816]) (Some (LW 9814)) (Some (LW 9816));
    Cell ([9654; 74; 9816], [9817; 9819; 9818; 9820; 9821]) (Some (LW 9819)) (Some (LW 9821));
    Cell ([9657; 75; 9821], [9822; 9824; 9823; 9825; 9826]) (Some (LW 9824)) (Some (LW 9826));
    Cell ([9660; 76; 9826], [9827; 9829; 9828; 9830; 9831]) (Some (LW 9829)) (Some (LW 9831));
    Cell ([9663; 77; 9831], [9832; 9834; 9833; 9835; 9836]) (Some (LW 9834)) (Some (LW 9836));
    Cell ([9666; 78; 9836], [9837; 9839; 9838; 9840; 9841]) (Some (LW 9839)) (Some (LW 9841));
    Cell ([9669; 79; 9841], [9842; 9844; 9843; 9845; 9846]) (Some (LW 9844)) (Some (LW 9846));
    Cell ([9672; 80; 9846], [9847; 9849; 9848; 9850; 9851]) (Some (LW 9849)) (Some (LW 9851));
    Cell ([9675; 81; 9851], [9852; 9854; 9853; 9855; 9856]) (Some (LW 9854)) (Some (LW 9856));
    Cell ([9678; 82; 9856], [9857; 9859; 9858; 9860; 9861]) (Some (LW 9859)) (Some (LW 9861));
    Cell ([9681; 83; 9861], [9862; 9864; 9863; 9865; 9866]) (Some (LW 9864)) (Some (LW 9866));
    Cell ([9684; 84; 9866], [9867; 9869; 9868; 9870; 9871]) (Some (LW 9869)) (Some (LW 9871));
    Cell ([9687; 85; 9871], [9872; 9874; 9873; 9875; 9876]) (Some (LW 9874)) (Some (LW 9876));
    Cell ([9690; 86; 9876], [9877; 9879; 9878; 9880; 9881]) (Some (LW 9879)) (Some (LW 9881));
    Cell ([9693; 87; 9881], [9882; 9884; 9883; 9885; 9886]) (Some (LW 9884)) (Some (LW 9886));
    Cell ([9696; 88; 9886], [9887; 9889; 9888; 9890; 9891]) (Some (LW 9889)) (Some (LW 9891));
    Cell ([9699; 89; 9891], [9892; 9894; 9893; 9895; 9896]) (Some (LW 9894)) (Some (LW 9896));
    Cell ([9702; 90; 9896], [9897; 9899; 9898; 9900; 9901]) (Some (LW 9899)) (Some (LW 9901));
    Cell ([9705; 91; 9901], [9902; 9904; 9903; 9905; 9906]) (Some (LW 9904)) (Some (LW 9906));
    Cell ([9708; 92; 9906], [9907; 9909; 9908; 9910; 9911]) (Some (LW 9909)) (Some (LW 9911));
    Cell ([9711; 93; 9911], [9912; 9914; 9913; 9915; 9916]) (Some (LW 9914)) (Some (LW 9916));
    Cell ([9714; 94; 9916], [9917; 9919; 9918; 9920; 9921]) (Some (LW 9919)) (Some (LW 9921));
    Cell ([9717; 95; 9921], [9922; 9924; 9923; 9925; 9926]) (Some (LW 9924)) (Some (LW 9926));
    Cell ([9720; 96; 9926], [9927; 9929; 9928; 9930; 9931]) (Some (LW 9929)) (Some (LW 9931));
    Cell ([9723; 97; 9931], [9932; 9934; 9933; 9935; 9936]) (Some (LW 9934)) (Some (LW 9936));
    Cell ([9726; 98; 9936], [9937; 9939; 9938; 9940; 9941]) (Some (LW 9939)) (Some (LW 9941));
    Cell ([9729; 99; 9941], [9942; 9944; 9943; 9945; 9946]) (Some (LW 9944)) (Some (LW 9946));
    Cell ([9732; 100; 9946], [9947; 9949; 9948; 9950; 9951]) (Some (LW 9949)) (Some (LW 9951));
    Cell ([9735; 101; 9951], [9952; 9954; 9953; 9955; 9956]) (Some (LW 9954)) (Some (LW 9956));
    Cell ([9738; 102; 9956], [9957; 9959; 9958; 9960; 9961]) (Some (LW 9959)) (Some (LW 9961));
    Cell ([9741; 103; 9961], [9962; 9964; 9963; 9965; 9966]) (Some (LW 9964)) (Some (LW 9966));
    Cell ([9744; 104; 9966], [9967; 9969; 9968; 9970; 9971]) (Some (LW 9969)) (Some (LW 9971));
    Cell ([9747; 105; 9971], [9972; 9974; 9973; 9975; 9976]) (Some (LW 9974)) (Some (LW 9976));
    Cell ([9750; 106; 9976], [9977; 9979; 9978; 9980; 9981]) (Some (LW 9979)) (Some (LW 9981));
    Cell ([9753; 107; 9981], [9982; 9984; 9983; 9985; 9986]) (Some (LW 9984)) (Some (LW 9986));
    Cell ([9756; 108; 9986], [9987; 9989; 9988; 9990; 9991]) (Some (LW 9989)) (Some (LW 9991));
    Cell ([9759; 109; 9991], [9992; 9994; 9993; 9995; 9996]) (Some (LW 9994)) (Some (LW 9996));
    Cell ([9762; 110; 9996], [9997; 9999; 9998; 10000; 10001]) (Some (LW 9999)) (Some (LW 10001));
    Cell ([9765; 111; 10001], [10002; 10004; 10003; 10005; 10006]) (Some (LW 10004)) (Some (LW 10006));
    Cell ([9768; 112; 10006], [10007; 10009; 10008; 10010; 10011]) (Some (LW 10009)) (Some (LW 10011))]
   ([10011; 169], [10013; 10012; 10014]) 10014 10162
   [10017; 10020; 10023; 10026; 10029; 10032; 10035; 10038; 10041; 10044; 10047; 10050; 10053; 10056; 10059; 10062; 10065; 10068; 10071; 10074; 10077; 10080; 10083; 10086; 10089; 10092; 10095; 10098; 10101; 10104; 10107; 10110; 10113; 10116; 10119; 10122; 10125; 10128; 10131; 10134; 10137; 10140; 10143; 10146; 10149; 10152; 10155; 10158; 10161]
   [([10014; 15; 9770], [10015; 10016; 10017]); ([10014; 9627; 9774], [10018; 10019; 10020]); ([10014; 9630; 9779], [10021; 10022; 10023]); ([10014; 9633; 9784], [10024; 10025; 10026]); ([10014; 9636; 9789], [10027; 10028; 10029]); ([10014; 9639; 9794], [10030; 10031; 10032]); ([10014; 9642; 9799], [10033; 10034; 10035]); ([10014; 9645; 9804], [10036; 10037; 10038]); ([10014; 9648; 9809], [10039; 10040; 10041]); ([10014; 9651; 9814], [10042; 10043; 10044]); ([10014; 9654; 9819], [10045; 10046; 10047]); ([10014; 9657; 9824], [10048; 10049; 10050]); ([10014; 9660; 9829], [10051; 10052; 10053]); ([10014; 9663; 9834], [10054; 10055; 10056]); ([10014; 9666; 9839], [10057; 10058; 10059]); ([10014; 9669; 9844], [10060; 10061; 10062]); ([10014; 9672; 9849], [10063; 10064; 10065]); ([10014; 9675; 9854], [10066; 10067; 10068]); ([10014; 9678; 9859], [10069; 10070; 10071]); ([10014; 9681; 9864], [10072; 10073; 10074]); ([10014; 9684; 9869], [10075; 10076; 10077]); ([10014; 9687; 9874], [10078; 10079; 10080]); ([10014; 9690; 9879], [10081; 10082; 10083]); ([10014; 9693; 9884], [10084; 10085; 10086]); ([10014; 9696; 9889], [10087; 10088; 10089]); ([10014; 9699; 9894], [10090; 10091; 10092]); ([10014; 9702; 9899], [10093; 10094; 10095]); ([10014; 9705; 9904], [10096; 10097; 10098]); ([10014; 9708; 9909], [10099; 10100; 10101]); ([10014; 9711; 9914], [10102; 10103; 10104]); ([10014; 9714; 9919], [10105; 10106; 10107]); ([10014; 9717; 9924], [10108; 10109; 10110]); ([10014; 9720; 9929], [10111; 10112; 10113]); ([10014; 9723; 9934], [10114; 10115; 10116]); ([10014; 9726; 9939], [10117; 10118; 10119]); ([10014; 9729; 9944], [10120; 10121; 10122]); ([10014; 9732; 9949], [10123; 10124; 10125]); ([10014; 9735; 9954], [10126; 10127; 10128]); ([10014; 9738; 9959], [10129; 10130; 10131]); ([10014; 9741; 9964], [10132; 10133; 10134]); ([10014; 9744; 9969], [10135; 10136; 10137]); ([10014; 9747; 9974], [10138; 10139; 10140]); ([10014; 9750; 9979], [10141; 10142; 10143]); ([10014; 9753; 9984], [10144; 10145; 10146]); ([10014; 9756; 9989], [10147; 10148; 10149]); ([10014; 9759; 9994], [10150; 10151; 10152]); ([10014; 9762; 9999], [10153; 10154; 10155]); ([10014; 9765; 10004], [10156; 10157; 10158]); ([10014; 9768; 10009], [10159; 10160; 10161])].
Definition udivide64_stage_49 : ustage := UStage
   [Cell ([14; 64], [10163; 10164]) (Some (LW 10163)) (Some (LW 10164));
    Cell ([10017; 65; 10164], [10165; 10167; 10166; 10168; 10169]) (Some (LW 10167)) (Some (LW 10169));
    Cell ([10020; 66; 10169], [10170; 10172; 10171; 10173; 10174]) (Some (LW 10172)) (Some (LW 10174));
    Cell ([10023; 67; 10174], [10175; 10177; 10176; 10178; 10179]) (Some (LW 10177)) (Some (LW 10179));
    Cell ([10026; 68; 10179], [10180; 10182; 10181; 10183; 10184]) (Some (LW 10182)) (Some (LW 10184));
    Cell ([10029; 69; 10184], [10185; 10187; 10186; 10188; 10189]) (Some (LW 10187)) (Some (LW 10189));
    Cell ([10032; 70; 10189], [10190; 10192; 10191; 10193; 10194]) (Some (LW 10192)) (Some (LW 10194));
    Cell ([10035; 71; 10194], [10195; 10197; 10196; 10198; 10199]) (Some (LW 10197)) (Some (LW 10199));
    Cell ([10038; 72; 10199], [10200; 10202; 10201; 10203; 10204]) (Some (LW 10202)) (Some (LW 10204));
    Cell ([10041; 73; 10204], [10205; 10207; 10206; 10208; 10209]) (Some (LW 10207)) (Some (LW 10209));
    Cell ([10044; 74; 10209], [10210; 10212; 10211; 10213; 10214]) (Some (LW 10212)) (Some (LW 10214));
    Cell ([10047; 75; 10214], [10215; 10217; 10216; 10218; 10219]) (Some (LW 10217)) (Some (LW 10219));
    Cell ([10050; 76; 10219], [10220; 10222; 10221; 10223; 10224]) (Some (LW 10222)) (Some (LW 10224));
    Cell ([10053; 77; 10224], [10225; 10227; 10226; 10228; 10229]) (Some (LW 10227)) (Some (LW 10229));
    Cell ([10056; 78; 10229], [10230; 10232; 10231; 10233; 10234]) (Some (LW 10232)) (Some (LW 10234));
    Cell ([10059; 79; 10234], [10235; 10237; 10236; 10238; 10239]) (Some (LW 10237)) (Some (LW 10239));
    Cell ([10062; 80; 10239], [10240; 10242; 10241; 10243; 10244]) (Some (LW 10242)) (Some (LW 10244));
    Cell ([10065; 81; 10244], [10245; 10247; 10246; 10248; 10249]) (Some (LW 10247)) (Some (LW 10249));
    Cell ([10068; 82; 10249], [10250; 10252; 10251; 10253; 10254]) (Some (LW 10252)) (Some (LW 10254));
    Cell ([10071; 83; 10254], [10255; 10257; 10256; 10258; 10259]) (Some (LW 10257)) (Some (LW 10259));
    Cell ([10074; 84; 10259], [10260; 10262; 10261; 10263; 10264]) (Some (LW 10262)) (Some (LW 10264));
    Cell ([10077; 85; 10264], [10265; 10267; 10266; 10268; 10269]) (Some (LW 10267)) (Some (LW 10269));
    Cell ([10080; 86; 10269], [10270; 10272; 10271; 10273; 10274]) (Some (LW 10272)) (Some (LW 10274));
    Cell ([10083; 87; 10274], [10275; 10277; 10276; 10278; 10279]) (Some (LW 10277)) (Some (LW 10279));
    Cell ([10086; 88; 10279], [10280; 10282; 10281; 10283; 10284]) (Some (LW 10282)) (Some (LW 10284));
    Cell ([10089; 89; 10284], [10285; 10287; 10286; 10288; 10289]) (Some (LW 10287)) (Some (LW 10289));
    Cell ([10092; 90; 10289], [10290; 10292; 10291; 10293; 10294]) (Some (LW 10292)) (Some (LW 10294));
    Cell ([10095; 91; 10294], [10295; 10297; 10296; 10298; 10299]) (Some (LW 10297)) (Some (LW 10299));
    Cell ([10098; 92; 10299], [10300; 10302; 10301; 10303; 10304]) (Some (LW 10302)) (Some (LW 10304));
    Cell ([10101; 93; 10304], [10305; 10307; 10306; 10308; 10309]) (Some (LW 10307)) (Some (LW 10309));
    Cell ([10104; 94; 10309], [10310; 10312; 10311; 10313; 10314]) (Some (LW 10312)) (Some (LW 10314));
    Cell ([10107; 95; 10314], [10315; 10317; 10316; 10318; 10319]) (Some (LW 10317)) (Some (LW 10319));
    Cell ([10110; 96; 10319], [10320; 10322; 10321; 10323; 10324]) (Some (LW 10322)) (Some (LW 10324));
    Cell ([10113; 97; 10324], [10325; 10327; 10326; 10328; 10329]) (Some (LW 10327)) (Some (LW 10329));
    Cell ([10116; 98; 10329], [10330; 10332; 10331; 10333; 10334]) (Some (LW 10332)) (Some (LW 10334));
    Cell ([10119; 99; 10334], [10335; 10337; 10336; 10338; 10339]) (Some (LW 10337)) (Some (LW 10339));
    Cell ([10122; 100; 10339], [10340; 10342; 10341; 10343; 10344]) (Some (LW 10342)) (Some (LW 10344));
    Cell ([10125; 101; 10344], [10345; 10347; 10346; 10348; 10349]) (Some (LW 10347)) (Some (LW 10349));
    Cell ([10128; 102; 10349], [10350; 10352; 10351; 10353; 10354]) (Some (LW 10352)) (Some (LW 10354));
    Cell ([10131; 103; 10354], [10355; 10357; 10356; 10358; 10359]) (Some (LW 10357)) (Some (LW 10359));
    Cell ([10134; 104; 10359], [10360; 10362; 10361; 10363; 10364]) (Some (LW 10362)) (Some (LW 10364));
    Cell ([10137; 105; 10364], [10365; 10367; 10366; 10368; 10369]) (Some (LW 10367)) (Some (LW 10369));
    Cell ([10140; 106; 10369], [10370; 10372; 10371; 10373; 10374]) (Some (LW 10372)) (Some (LW 10374));
    Cell ([10143; 107; 10374], [10375; 10377; 10376; 10378; 10379]) (Some (LW 10377)) (Some (LW 10379));
    Cell ([10146; 108; 10379], [10380; 10382; 10381; 10383; 10384]) (Some (LW 10382)) (Some (LW 10384));
    Cell ([10149; 109; 10384], [10385; 10387; 10386; 10388; 10389]) (Some (LW 10387)) (Some (LW 10389));
    Cell ([10152; 110; 10389], [10390; 10392; 10391; 10393; 10394]) (Some (LW 10392)) (Some (LW 10394));
    Cell ([10155; 111; 10394], [10395; 10397; 10396; 10398; 10399]) (Some (LW 10397)) (Some (LW 10399));
    Cell ([10158; 112; 10399], [10400; 10402; 10401; 10403; 10404]) (Some (LW 10402)) (Some (LW 10404));
    Cell ([10161; 113; 10404], [10405; 10407; 10406; 10408; 10409]) (Some (LW 10407)) (Some (LW 10409))]
   ([10409; 166], [10411; 10410; 10412]) 10412 10563
   [10415; 10418; 10421; 10424; 10427; 10430; 10433; 10436; 10439; 10442; 10445; 10448; 10451; 10454; 10457; 10460; 10463; 10466; 10469; 10472; 10475; 10478; 10481; 10484; 10487; 10490; 10493; 10496; 10499; 10502; 10505; 10508; 10511; 10514; 10517; 10520; 10523; 10526; 10529; 10532; 10535; 10538; 10541; 10544; 10547; 10550; 10553; 10556; 10559; 10562]
   [([10412; 14; 10163], [10413; 10414; 10415]); ([10412; 10017; 10167], [10416; 10417; 10418]); ([10412; 10020; 10172], [10419; 10420; 10421]); ([10412; 10023; 10177], [10422; 10423; 10424]); ([10412; 10026; 10182], [10425; 10426; 10427]); ([10412; 10029; 10187], [10428; 10429; 10430]); ([10412; 10032; 10192], [10431; 10432; 10433]); ([10412; 10035; 10197], [10434; 10435; 10436]); ([10412; 10038; 10202], [10437; 10438; 10439]); ([10412; 10041; 10207], [10440; 10441; 10442]); ([10412; 10044; 10212], [10443; 10444; 10445]); ([10412; 10047; 10217], [10446; 10447; 10448]); ([10412; 10050; 10222], [10449; 10450; 10451]); ([10412; 10053; 10227], [10452; 10453; 10454]); ([10412; 10056; 10232], [10455; 10456; 10457]); ([10412; 10059; 10237], [10458; 10459; 10460]); ([10412; 10062; 10242], [10461; 10462; 10463]); ([10412; 10065; 10247], [10464; 10465; 10466]); ([10412; 10068; 10252], [10467; 10468; 10469]); ([10412; 10071; 10257], [10470; 10471; 10472]); ([10412; 10074; 10262], [10473; 10474; 10475]); ([10412; 10077; 10267], [10476; 10477; 10478]); ([10412; 10080; 10272], [10479; 10480; 10481]); ([10412; 10083; 10277], [10482; 10483; 10484]); ([10412; 10086; 10282], [10485; 10486; 10487]); ([10412; 10089; 10287], [10488; 10489; 10490]); ([10412; 10092; 10292], [10491; 10492; 10493]); ([10412; 10095; 10297], [10494; 10495; 10496]); ([10412; 10098; 10302], [10497; 10498; 10499]); ([10412; 10101; 10307], [10500; 10501; 10502]); ([10412; 10104; 10312], [10503; 10504; 10505]); ([10412; 10107; 10317], [10506; 10507; 10508]); ([10412; 10110; 10322], [10509; 10510; 10511]); ([10412; 10113; 10327], [10512; 10513; 10514]); ([10412; 10116; 10332], [10515; 10516; 10517]); ([10412; 10119; 10337], [10518; 10519; 10520]); ([10412; 10122; 10342], [10521; 10522; 10523]); ([10412; 10125; 10347], [10524; 10525; 10526]); ([10412; 10128; 10352], [10527; 10528; 10529]); ([10412; 10131; 10357], [10530; 10531; 10532]); ([10412; 10134; 10362], [10533; 10534; 10535]); ([10412; 10137; 10367], [10536; 10537; 10538]); ([10412; 10140; 10372], [10539; 10540; 10541]); ([10412; 10143; 10377], [10542; 10543; 10544]); ([10412; 10146; 10382], [10545; 10546; 10547]); ([10412; 10149; 10387], [10548; 10549; 10550]); ([10412; 10152; 10392], [10551; 10552; 10553]); ([10412; 10155; 10397], [10554; 10555; 10556]); ([10412; 10158; 10402], [10557; 10558; 10559]); ([10412; 10161; 10407], [10560; 10561; 10562])].
Definition udivide64_stage_50 : ustage := UStage
   [Cell ([13; 64], [10564; 10565]) (Some (LW 10564)) (Some (LW 10565));
    Cell ([10415; 65; 10565], [10566; 10568; 10567; 10569; 10570]) (Some (LW 10568)) (Some (LW 10570));
    Cell ([10418; 66; 10570], [10571; 10573; 10572; 10574; 10575]) (Some (LW 10573)) (Some (LW 10575));
    Cell ([10421; 67; 10575], [10576; 10578; 10577; 10579; 10580]) (Some (LW 10578)) (Some (LW 10580));
    Cell ([10424; 68; 10580], [10581; 10583; 10582; 10584; 10585]) (Some (LW 10583)) (Some (LW 10585));
    Cell ([10427; 69; 10585], [10586; 10588; 10587; 10589; 10590]) (Some (LW 10588)) (Some (LW 10590));
    Cell ([10430; 70; 10590], [10591; 10593; 10592; 10594; 10595]) (Some (LW 10593)) (Some (LW 10595));
    Cell ([10433; 71; 10595], [10596; 10598; 10597; 10599; 10600]) (Some (LW 10598)) (Some (LW 10600));
    Cell ([10436; 72; 10600], [10601; 10603; 10602; 10604; 10605]) (Some (LW 10603)) (Some (LW 10605));
    Cell ([10439; 73; 10605], [10606; 10608; 10607; 10609; 10610]) (Some (LW 10608)) (Some (LW 10610));
    Cell ([10442; 74; 10610], [10611; 10613; 10612; 10614; 10615]) (Some (LW 10613)) (Some (LW 10615));
    Cell ([10445; 75; 10615], [10616; 10618; 10617; 10619; 10620]) (Some (LW 10618)) (Some (LW 10620));
    Cell ([10448; 76; 10620], [10621; 10623; 10622; 10624; 10625]) (Some (LW 10623)) (Some (LW 10625));
    Cell ([10451; 77; 10625], [10626; 10628; 10627; 10629; 10630]) (Some (LW 10628)) (Some (LW 10630));
    Cell ([10454; 78; 10630], [10631; 10633; 10632; 10634; 10635]) (Some (LW 10633)) (Some (LW 10635));
    Cell ([10457; 79; 10635], [10636; 10638; 10637; 10639; 10640]) (Some (LW 10638)) (Some (LW 10640));
    Cell ([10460; 80; 10640], [10641; 10643; 10642; 10644; 10645]) (Some (LW 10643)) (Some (LW 10645));
    Cell ([10463; 81; 10645], [10646; 10648; 10647; 10649; 10650]) (Some (LW 10648)) (Some (LW 10650));
    Cell ([10466; 82; 10650], [10651; 10653; 10652; 10654; 10655]) (Some (LW 10653)) (Some (LW 10655));
    Cell ([10469; 83; 10655], [10656; 10658; 10657; 10659; 10660]) (Some (LW 10658)) (Some (LW 10660));
    Cell ([10472; 84; 10660], [10661; 10663; 10662; 10664; 10665]) (Some (LW 10663)) (Some (LW 10665));
    Cell ([10475; 85; 10665], [10666; 10668; 10667; 10669; 10670]) (Some (LW 10668)) (Some (LW 10670));
    Cell ([10478; 86; 10670], [10671; 10673; 10672; 10674; 10675]) (Some (LW 10673)) (Some (LW 10675));
    Cell ([10481; 87; 10675], [10676; 10678; 10677; 10679; 10680]) (Some (LW 10678)) (Some (LW 10680));
    Cell ([10484; 88; 10680], [10681; 10683; 10682; 10684; 10685]) (Some (LW 10683)) (Some (LW 10685));
    Cell ([10487; 89; 10685], [10686; 10688; 10687; 10689; 10690]) (Some (LW 10688)) (Some (LW 10690));
    Cell ([10490; 90; 10690], [10691; 10693; 10692; 10694; 10695]) (Some (LW 10693)) (Some (LW 10695));
    Cell ([10493; 91; 10695], [10696; 10698; 10697; 10699; 10700]) (Some (LW 10698)) (Some (LW 10700));
    Cell ([10496; 92; 10700], [10701; 10703; 10702; 10704; 10705]) (Some (LW 10703)) (Some (LW 10705));
    Cell ([10499; 93; 10705], [10706; 10708; 10707; 10709; 10710]) (Some (LW 10708)) (Some (LW 10710));
    Cell ([10502; 94; 10710], [10711; 10713; 10712; 10714; 10715]) (Some (LW 10713)) (Some (LW 10715));
    Cell ([10505; 95; 10715], [10716; 10718; 10717; 10719; 10720]) (Some (LW 10718)) (Some (LW 10720));
    Cell ([10508; 96; 10720], [10721; 10723; 10722; 10724; 10725]) (Some (LW 10723)) (Some (LW 10725));
    Cell ([10511; 97; 10725], [10726; 10728; 10727; 10729; 10730]) (Some (LW 10728)) (Some (LW 10730));
    Cell ([10514; 98; 10730], [10731; 10733; 10732; 10734; 10735]) (Some (LW 10733)) (Some (LW 10735));
    Cell ([10517; 99; 10735], [10736; 10738; 10737; 10739; 10740]) (Some (LW 10738)) (Some (LW 10740));
    Cell ([10520; 100; 10740], [10741; 10743; 10742; 10744; 10745]) (Some (LW 10743)) (Some (LW 10745));
    Cell ([10523; 101; 10745], [10746; 10748; 10747; 10749; 10750]) (Some (LW 10748)) (Some (LW 10750));
    Cell ([10526; 102; 10750], [10751; 10753; 10752; 10754; 10755]) (Some (LW 10753)) (Some (LW 10755));
    Cell ([10529; 103; 10755], [10756; 10758; 10757; 10759; 10760]) (Some (LW 10758)) (Some (LW 10760));
    Cell ([10532; 104; 10760], [10761; 10763; 10762; 10764; 10765]) (Some (LW 10763)) (Some (LW 10765));
    Cell ([10535; 105; 10765], [10766; 10768; 10767; 10769; 10770]) (Some (LW 10768)) (Some (LW 10770));
    Cell ([10538; 106; 10770], [10771; 10773; 10772; 10774; 10775]) (Some (LW 10773)) (Some (LW 10775));
    Cell ([10541; 107; 10775], [10776; 10778; 10777; 10779; 10780]) (Some (LW 10778)) (Some (LW 10780));
    Cell ([10544; 108; 10780], [10781; 10783; 10782; 10784; 10785]) (Some (LW 10783)) (Some (LW 10785));
    Cell ([10547; 109; 10785], [10786; 10788; 10787; 10789; 10790]) (Some (LW 10788)) (Some (LW 10790));
    Cell ([10550; 110; 10790], [10791; 10793; 10792; 10794; 10795]) (Some (LW 10793)) (Some (LW 10795));
    Cell ([10553; 111; 10795], [10796; 10798; 10797; 10799; 10800]) (Some (LW 10798)) (Some (LW 10800));
    Cell ([10556; 112; 10800], [10801; 10803; 10802; 10804; 10805]) (Some (LW 10803)) (Some (LW 10805));
    Cell ([10559; 113; 10805], [10806; 10808; 10807; 10809; 10810]) (Some (LW 10808)) (Some (LW 10810));
    Cell ([10562; 114; 10810], [10811; 10813; 10812; 10814; 10815]) (Some (LW 10813)) (Some (LW 10815))]
   ([10815; 163], [10817; 10816; 10818]) 10818 10972
   [10821; 10824; 10827; 10830; 10833; 10836; 10839; 10842; 10845; 10848; 10851; 10854; 10857; 10860; 10863; 10866; 10869; 10872; 10875; 10878; 10881; 10884; 10887; 10890; 10893; 10896; 10899; 10902; 10905; 10908; 10911; 10914; 10917; 10920; 10923; 10926; 10929; 10932; 10935; 10938; 10941; 10944; 10947; 10950; 10953; 10956; 10959; 10962; 10965; 10968; 10971]
   [([10818; 13; 10564], [10819; 10820; 10821]); ([10818; 10415; 10568], [10822; 10823; 10824]); ([10818; 10418; 10573], [10825; 10826; 10827]); ([10818; 10421; 10578], [10828; 10829; 10830]); ([10818; 10424; 10583], [10831; 10832; 10833]); ([10818; 10427; 10588], [10834; 10835; 10836]); ([10818; 10430; 10593], [10837; 10838; 10839]); ([10818; 10433; 10598], [10840; 10841; 10842]); ([10818; 10436; 10603], [10843; 10844; 10845]); ([10818; 10439; 10608], [10846; 10847; 10848]); ([10818; 10442; 10613], [10849; 10850; 10851]); ([10818; 10445; 10618], [10852; 10853; 10854]); ([10818; 10448; 10623], [10855; 10856; 10857]); ([10818; 10451; 10628], [10858; 10859; 10860]); ([10818; 10454; 10633], [10861; 10862; 10863]); ([10818; 10457; 10638], [10864; 10865; 10866]); ([10818; 10460; 10643], [10867; 10868; 10869]); ([10818; 10463; 10648], [10870; 10871; 10872]); ([10818; 10466; 10653], [10873; 10874; 10875]); ([10818; 10469; 10658], [10876; 10877; 10878]); ([10818; 10472; 10663], [10879; 10880; 10881]); ([10818; 10475; 10668], [10882; 10883; 10884]); ([10818; 10478; 10673], [10885; 10886; 10887]); ([10818; 10481; 10678], [10888; 10889; 10890]); ([10818; 10484; 10683], [10891; 10892; 10893]); ([10818; 10487; 10688], [10894; 10895; 10896]); ([10818; 10490; 10693], [10897; 10898; 10899]); ([10818; 10493; 10698], [10900; 10901; 10902]); ([10818; 10496; 10703], [10903; 10904; 10905]); ([10818; 10499; 10708], [10906; 10907; 10908]); ([10818; 10502; 10713], [10909; 10910; 10911]); ([10818; 10505; 10718], [10912; 10913; 10914]); ([10818; 10508; 10723], [10915; 10916; 10917]); ([10818; 10511; 10728], [10918; 10919; 10920]); ([10818; 10514; 10733], [10921; 10922; 10923]); ([10818; 10517; 10738], [10924; 10925; 10926]); ([10818; 10520; 10743], [10927; 10928; 10929]); ([10818; 10523; 10748], [10930; 10931; 10932]); ([10818; 10526; 10753], [10933; 10934; 10935]); ([10818; 10529; 10758], [10936; 10937; 10938]); ([10818; 10532; 10763], [10939; 10940; 10941]); ([10818; 10535; 10768], [10942; 10943; 10944]); ([10818; 10538; 10773], [10945; 10946; 10947]); ([10818; 10541; 10778], [10948; 10949; 10950]); ([10818; 10544; 10783], [10951; 10952; 10953]); ([10818; 10547; 10788], [10954; 10955; 10956]); ([10818; 10550; 10793], [10957; 10958; 10959]); ([10818; 10553; 10798], [10960; 10961; 10962]); ([10818; 10556; 10803], [10963; 10964; 10965]); ([10818; 10559; 10808], [10966; 10967; 10968]); ([10818; 10562; 10813], [10969; 10970; 10971])].
Definition udivide64_stage_51 : ustage := UStage
   [Cell ([12; 64], [10973; 10974]) (Some (LW 10973)) (Some (LW 10974));
    Cell ([10821; 65; 10974], [10975; 10977; 10976; 10978; 10979]) (Some (LW 10977)) (Some (LW 10979));
    Cell ([10824; 66; 10979], [10980; 10982; 10981; 10983; 10984]) (Some (LW 10982)) (Some (LW 10984));
    Cell ([10827; 67; 10984], [10985; 10987; 10986; 10988; 10989]) (Some (LW 10987)) (Some (LW 10989));
    Cell ([10830; 68; 10989], [10990; 10992; 10991; 10993; 10994]) (Some (LW 10992)) (Some (LW 10994));
    Cell ([10833; 69; 10994], [10995; 10997; 10996; 10998; 10999]) (Some (LW 10997)) (Some (LW 10999));
    Cell ([10836; 70; 10999], [11000; 11002; 11001; 11003; 11004]) (Some (LW 11002)) (Some (LW 11004));
    Cell ([10839; 71; 11004], [11005; 11007; 11006; 11008; 11009]) (Some (LW 11007)) (Some (LW 11009));
    Cell ([10842; 72; 11009], [11010; 11012; 11011; 11013; 11014]) (Some (LW 11012)) (Some (LW 11014));
    Cell ([10845; 73; 11014], [11015; 11017; 11016; 11018; 11019]) (Some (LW 11017)) (Some (LW 11019));
    Cell ([10848; 74; 11019], [11020; 11022; 11021; 11023; 11024]) (Some (LW 11022)) (Some (LW 11024));
    Cell ([10851; 75; 11024], [11025; 11027; 11026; 11028; 11029]) (Some (LW 11027)) (Some (LW 11029));
    Cell ([10854; 76; 11029], [11030; 11032; 11031; 11033; 11034]) (Some (LW 11032)) (Some (LW 11034));
    Cell ([10857; 77; 11034], [11035; 11037; 11036; 11038; 11039]) (Some (LW 11037)) (Some (LW 11039));
    Cell ([10860; 78; 11039], [11040; 11042; 11041; 11043; 11044]) (Some (LW 11042)) (Some (LW 11044));
    Cell ([10863; 79; 11044], [11045; 11047; 11046; 11048; 11049]) (Some (LW 11047)) (Some (LW 11049));
    Cell ([10866; 80; 11049], [11050; 11052; 11051; 11053; 11054]) (Some (LW 11052)) (Some (LW 11054));
    Cell ([10869; 81; 11054], [11055; 11057; 11056; 11058; 11059]) (Some (LW 11057)) (Some (LW 11059));
    Cell ([10872; 82; 11059], [11060; 11062; 11061; 11063; 11064]) (Some (LW 11062)) (Some (LW 11064));
    Cell ([10875; 83; 11064], [11065; 11067; 11066; 11068; 11069]) (Some (LW 11067)) (Some (LW 11069));
    Cell ([10878; 84; 11069], [11070; 11072; 11071; 11073; 11074]) (Some (LW 11072)) (Some (LW 11074));
    Cell ([10881; 85; 11074], [11075; 11077; 11076; 11078; 11079]) (Some (LW 11077)) (Some (LW 11079));
    Cell ([10884; 86; 11079], [11080; 11082; 11081; 11083; 11084]) (Some (LW 11082)) (Some (LW 11084));
    Cell ([10887; 87; 11084], [11085; 11087; 11086; 11088; 11089]) (Some (LW 11087)) (Some (LW 11089));
    Cell ([10890; 88; 11089], [11090; 11092; 11091; 11093; 11094]) (Some (LW 11092)) (Some (LW 11094));
    Cell ([10893; 89; 11094], [11095; 11097; 11096; 11098; 11099]) (Some (LW 11097)) (Some (LW 11099));
    Cell ([10896; 90; 11099], [11100; 11102; 11101; 11103; 11104]) (Some (LW 11102)) (Some (LW 11104));
    Cell ([10899; 91; 11104], [11105; 11107; 11106; 11108; 11109]) (Some (LW 11107)) (Some (LW 11109));
    Cell ([10902; 92; 11109], [11110; 11112; 11111; 11113; 11114]) (Some (LW 11112)) (Some (LW 11114));
    Cell ([10905; 93; 11114], [11115; 11117; 11116; 11118; 11119]) (Some (LW 11117)) (Some (LW 11119));
    Cell ([10908; 94; 11119], [11120; 11122; 11121; 11123; 11124]) (Some (LW 11122)) (Some (LW 11124));
    Cell ([10911; 95; 11124], [11125; 11127; 11126; 11128; 11129]) (Some (LW 11127)) (Some (LW 11129));
    Cell ([10914; 96; 11129], [11130; 11132; 11131; 11133; 11134]) (Some (LW 11132)) (Some (LW 11134));
    Cell ([10917; 97; 11134], [11135; 11137; 11136; 11138; 11139]) (Some (LW 11137)) (Some (LW 11139));
    Cell ([10920; 98; 11139], [11140; 11142; 11141; 11143; 11144]) (Some (LW 11142)) (Some (LW 11144));
    Cell ([10923; 99; 11144], [11145; 11147; 11146; 11148; 11149]) (Some (LW 11147)) (Some (LW 11149));
    Cell ([10926; 100; 11149], [11150; 11152; 11151; 11153; 11154]) (Some (LW 11152)) (Some (LW 11154));
    Cell ([10929; 101; 11154], [11155; 11157; 11156; 11158; 11159]) (Some (LW 11157)) (Some (LW 11159));
    Cell ([10932; 102; 11159], [11160; 11162; 11161; 11163; 11164]) (Some (LW 11162)) (Some (LW 11164));
    Cell ([10935; 103; 11164], [11165; 11167; 11166; 11168; 11169]) (Some (LW 11167)) (Some (LW 11169));
    Cell ([10938; 104; 11169], [11170; 11172; 11171; 11173; 11174]) (Some (LW 11172)) (Some (LW 11174));
    Cell ([10941; 105; 11174], [11175; 11177; 11176; 11178; 11179]) (Some (LW 11177)) (Some (LW 11179));
    Cell ([10944; 106; 11179], [11180; 11182; 11181; 11183; 11184]) (Some (LW 11182)) (Some (LW 11184));
    Cell ([10947; 107; 11184], [11185; 11187; 11186; 11188; 11189]) (Some (LW 11187)) (Some (LW 11189));
    Cell ([10950; 108; 11189], [11190; 11192; 11191; 11193; 11194]) (Some (LW 11192)) (Some (LW 11194));
    Cell ([10953; 109; 11194], [11195; 11197; 11196; 11198; 11199]) (Some (LW 11197)) (Some (LW 11199));
    Cell ([10956; 110; 11199], [11200; 11202; 11201; 11203; 11204]) (Some (LW 11202)) (Some (LW 11204));
    Cell ([10959; 111; 11204], [11205; 11207; 11206; 11208; 11209]) (Some (LW 11207)) (Some (LW 11209));
    Cell ([10962; 112; 11209], [11210; 11212; 11211; 11213; 11214]) (Some (LW 11212)) (Some (LW 11214));
    Cell ([10965; 113; 11214], [11215; 11217; 11216; 11218; 11219]) (Some (LW 11217)) (Some (LW 11219));
    Cell ([10968; 114; 11219], [11220; 11222; 11221; 11223; 11224]) (Some (LW 11222)) (Some (LW 11224));
    Cell ([10971; 115; 11224], [11225; 11227; 11226; 11228; 11229]) (Some (LW 11227)) (Some (LW 11229))]
   ([11229; 160], [11231; 11230; 11232]) 11232 11389
   [11235; 11238; 11241; 11244; 11247; 11250; 11253; 11256; 11259; 11262; 11265; 11268; 11271; 11274; 11277; 11280; 11283; 11286; 11289; 11292; 11295; 11298; 11301; 11304; 11307; 11310; 11313; 11316; 11319; 11322; 11325; 11328; 11331; 11334; 11337; 11340; 11343; 11346; 11349; 11352; 11355; 11358; 11361; 11364; 11367; 11370; 11373; 11376; 11379; 11382; 11385; 11388]
   [([11232; 12; 10973], [11233; 11234; 11235]); ([11232; 10821; 10977], [11236; 11237; 11238]); ([11232; 10824; 10982], [11239; 11240; 11241]); ([11232; 10827; 10987], [11242; 11243; 11244]); ([11232; 10830; 10992], [11245; 11246; 11247]); ([11232; 10833; 10997], [11248; 11249; 11250]); ([11232; 10836; 11002], [11251; 11252; 11253]); ([11232; 10839; 11007], [11254; 11255; 11256]); ([11232; 10842; 11012], [11257; 11258; 11259]); ([11232; 10845; 11017], [11260; 11261; 11262]); ([11232; 10848; 11022], [11263; 11264; 11265]); ([11232; 10851; 11027], [11266; 11267; 11268]); ([11232; 10854; 11032], [11269; 11270; 11271]); ([11232; 10857; 11037], [11272; 11273; 11274]); ([11232; 10860; 11042], [11275; 11276; 11277]); ([11232; 10863; 11047], [11278; 11279; 11280]); ([11232; 10866; 11052], [11281; 11282; 11283]); ([11232; 10869; 11057], [11284; 11285; 11286]); ([11232; 10872; 11062], [11287; 11288; 11289]); ([11232; 10875; 11067], [11290; 11291; 11292]); ([11232; 10878; 11072], [11293; 11294; 11295]); ([11232; 10881; 11077], [11296; 11297; 11298]); ([11232; 10884; 11082], [11299; 11300; 11301]); ([11232; 10887; 11087], [11302; 11303; 11304]); ([11232; 10890; 11092], [11305; 11306; 11307]); ([11232; 10893; 11097], [11308; 11309; 11310]); ([11232; 10896; 11102], [11311; 11312; 11313]); ([11232; 10899; 11107], [11314; 11315; 11316]); ([11232; 10902; 11112], [11317; 11318; 11319]); ([11232; 10905; 11117], [11320; 11321; 11322]); ([11232; 10908; 11122], [11323; 11324; 11325]); ([11232; 10911; 11127], [11326; 11327; 11328]); ([11232; 10914; 11132], [11329; 11330; 11331]); ([11232; 10917; 11137], [11332; 11333; 11334]); ([11232; 10920; 11142], [11335; 11336; 11337]); ([11232; 10923; 11147], [11338; 11339; 11340]); ([11232; 10926; 11152], [11341; 11342; 11343]); ([11232; 10929; 11157], [11344; 11345; 11346]); ([11232; 10932; 11162], [11347; 11348; 11349]); ([11232; 10935; 11167], [11350; 11351; 11352]); ([11232; 10938; 11172], [11353; 11354; 11355]); ([11232; 10941; 11177], [11356; 11357; 11358]); ([11232; 10944; 11182], [11359; 11360; 11361]); ([11232; 10947; 11187], [11362; 11363; 11364]); ([11232; 10950; 11192], [11365; 11366; 11367]); ([11232; 10953; 11197], [11368; 11369; 11370]); ([11232; 10956; 11202], [11371; 11372; 11373]); ([11232; 10959; 11207], [11374; 11375; 11376]); ([11232; 10962; 11212], [11377; 11378; 11379]); ([11232; 10965; 11217], [11380; 11381; 11382]); ([11232; 10968; 11222], [11383; 11384; 11385]); ([11232; 10971; 11227], [11386; 11387; 11388])].
Definition udivide64_stage_52 : ustage := UStage
   [Cell ([11; 64], [11390; 11391]) (Some (LW 11390)) (Some (LW 11391));
    Cell ([11235; 65; 11391], [11392; 11394; 11393; 11395; 11396]) (Some (LW 11394)) (Some (LW 11396));
    Cell ([11238; 66; 11396], [11397; 11399; 11398; 11400; 11401]) (Some (LW 11399)) (Some (LW 11401));
    Cell ([11241; 67; 11401], [11402; 11404; 11403; 11405; 11406]) (Some (LW 11404)) (Some (LW 11406));
    Cell ([11244; 68; 11406], [11407; 11409; 11408; 11410; 11411]) (Some (LW 11409)) (Some (LW 11411));
    Cell ([11247; 69; 11411], [11412; 11414; 11413; 11415; 11416]) (Some (LW 11414)) (Some (LW 11416));
    Cell ([11250; 70; 11416], [11417; 11419; 11418; 11420; 11421]) (Some (LW 11419)) (Some (LW 11421));
    Cell ([11253; 71; 11421], [11422; 11424; 11423; 11425; 11426]) (Some (LW 11424)) (Some (LW 11426));
    Cell ([11256; 72; 11426], [11427; 11429; 11428; 11430; 11431]) (Some (LW 11429)) (Some (LW 11431));
    Cell ([11259; 73; 11431], [11432; 11434; 11433; 11435; 11436]) (Some (LW 11434)) (Some (LW 11436));
    Cell ([11262; 74; 11436], [11437; 11439; 11438; 11440; 11441]) (Some (LW 11439)) (Some (LW 11441));
    Cell ([11265; 75; 11441], [11442; 11444; 11443; 11445; 11446]) (Some (LW 11444)) (Some (LW 11446));
    Cell ([11268; 76; 11446], [11447; 11449; 11448; 11450; 11451]) (Some (LW 11449)) (Some (LW 11451));
    Cell ([11271; 77; 11451], [11452; 11454; 11453; 11455; 11456]) (Some (LW 11454)) (Some (LW 11456));
    Cell ([11274; 78; 11456], [11457; 11459; 11458; 11460; 11461]) (Some (LW 11459)) (Some (LW 11461));
    Cell ([11277; 79; 11461], [11462; 11464; 11463; 11465; 11466]) (Some (LW 11464)) (Some (LW 11466));
    Cell ([11280; 80; 11466], [11467; 11469; 11468; 11470; 11471]) (Some (LW 11469)) (Some (LW 11471));
    Cell ([11283; 81; 11471], [11472; 11474; 11473; 11475; 11476]) (Some (LW 11474)) (Some (LW 11476));
    Cell ([11286; 82; 11476], [11477; 11479; 11478; 11480; 11481]) (Some (LW 11479)) (Some (LW 11481));
    Cell ([11289; 83; 11481], [11482; 11484; 11483; 11485; 11486]) (Some (LW 11484)) (Some (LW 11486));
    Cell ([11292; 84; 11486], [11487; 11489; 11488; 11490; 11491]) (Some (LW 11489)) (Some (LW 11491));
    Cell ([11295; 85; 11491], [11492; 11494; 11493; 11495; 11496]) (Some (LW 11494)) (Some (LW 11496));
    Cell ([11298; 86; 11496], [11497; 11499; 11498; 11500; 11501]) (Some (LW 11499)) (Some (LW 11501));
    Cell ([11301; 87; 11501], [11502; 11504; 11503; 11505; 11506]) (Some (LW 11504)) (Some (LW 11506));
    Cell ([11304; 88; 11506], [11507; 11509; 11508; 11510; 11511]) (Some (LW 11509)) (Some (LW 11511));
    Cell ([11307; 89; 11511], [11512; 11514; 11513; 11515; 11516]) (Some (LW 11514)) (Some (LW 11516));
    Cell ([11310; 90; 11516], [11517; 11519; 11518; 11520; 11521]) (Some (LW 11519)) (Some (LW 11521));
    Cell ([11313; 91; 11521], [11522; 11524; 11523; 11525; 11526]) (Some (LW 11524)) (Some (LW 11526));
    Cell ([11316; 92; 11526], [11527; 11529; 11528; 11530; 11531]) (Some (LW 11529)) (Some (LW 11531));
    Cell ([11319; 93; 11531], [11532; 11534; 11533; 11535; 11536]) (Some (LW 11534)) (Some (LW 11536));
    Cell ([11322; 94; 11536], [11537; 11539; 11538; 11540; 11541]) (Some (LW 11539)) (Some (LW 11541));
    Cell ([11325; 95; 11541], [11542; 11544; 11543; 11545; 11546]) (Some (LW 11544)) (Some (LW 11546));
    Cell ([11328; 96; 11546], [11547; 11549; 11548; 11550; 11551]) (Some (LW 11549)) (Some (LW 11551));
    Cell ([11331; 97; 11551], [11552; 11554; 11553; 11555; 11556]) (Some (LW 11554)) (Some (LW 11556));
    Cell ([11334; 98; 11556], [11557; 11559; 11558; 11560; 11561]) (Some (LW 11559)) (Some (LW 11561));
    Cell ([11337; 99; 11561], [11562; 11564; 11563; 11565; 11566]) (Some (LW 11564)) (Some (LW 11566));
    Cell ([11340; 100; 11566], [11567; 11569; 11568; 11570; 11571]) (Some (LW 11569)) (Some (LW 11571));
    Cell ([11343; 101; 11571], [11572; 11574; 11573; 11575; 11576]) (Some (LW 11574)) (Some (LW 11576));
    Cell ([11346; 102; 11576], [11577; 11579; 11578; 11580; 11581]) (Some (LW 11579)) (Some (LW 11581));
    Cell ([11349; 103; 11581], [11582; 11584; 11583; 11585; 11586]) (Some (LW 11584)) (Some (LW 11586));
    Cell ([11352; 104; 11586], [11587; 11589; 11588; 11590; 11591]) (Some (LW 11589)) (Some (LW 11591));
    Cell ([11355; 105; 11591], [11592; 11594; 11593; 11595; 11596]) (Some (LW 11594)) (Some (LW 11596));
    Cell ([11358; 106; 11596], [11597; 11599; 11598; 11600; 11601]) (Some (LW 11599)) (Some (LW 11601));
    Cell ([11361; 107; 11601], [11602; 11604; 11603; 11605; 11606]) (Some (LW 11604)) (Some (LW 11606));
    Cell ([11364; 108; 11606], [11607; 11609; 11608; 11610; 11611]) (Some (LW 11609)) (Some (LW 11611));
    Cell ([11367; 109; 11611], [11612; 11614; 11613; 11615; 11616]) (Some (LW 11614)) (Some (LW 11616));
    Cell ([11370; 110; 11616], [11617; 11619; 11618; 11620; 11621]) (Some (LW 11619)) (Some (LW 11621));
    Cell ([11373; 111; 11621], [11622; 11624; 11623; 11625; 11626]) (Some (LW 11624)) (Some (LW 11626));
    Cell ([11376; 112; 11626], [11627; 11629; 11628; 11630; 11631]) (Some (LW 11629)) (Some (LW 11631));
    Cell ([11379; 113; 11631], [11632; 11634; 11633; 11635; 11636]) (Some (LW 11634)) (Some (LW 11636));
    Cell ([11382; 114; 11636], [11637; 11639; 11638; 11640; 11641]) (Some (LW 11639)) (Some (LW 11641));
    Cell ([11385; 115; 11641], [11642; 11644; 11643; 11645; 11646]) (Some (LW 11644)) (Some (LW 11646));
    Cell ([11388; 116; 11646], [11647; 11649; 11648; 11650; 11651]) (Some (LW 11649)) (Some (LW 11651))]
   ([11651; 157], [11653; 11652; 11654]) 11654 11814
   [11657; 11660; 11663; 11666; 11669; 11672; 11675; 11678; 11681; 11684; 11687; 11690; 11693; 11696; 11699; 11702; 11705; 11708; 11711; 11714; 11717; 11720; 11723; 11726; 11729; 11732; 11735; 11738; 11741; 11744; 11747; 11750; 11753; 11756; 11759; 11762; 11765; 11768; 11771; 11774; 11777; 11780; 11783; 11786; 11789; 11792; 11795; 11798; 11801; 11804; 11807; 11810; 11813]
   [([11654; 11; 11390], [11655; 11656; 11657]); ([11654; 11235; 11394], [11658; 11659; 11660]); ([11654; 11238; 11399], [11661; 11662; 11663]); ([11654; 11241; 11404], [11664; 11665; 11666]); ([11654; 11244; 11409], [11667; 11668; 11669]); ([11654; 11247; 11414], [11670; 11671; 11672]); ([11654; 11250; 11419], [11673; 11674; 11675]); ([11654; 11253; 11424], [11676; 11677; 11678]); ([11654; 11256; 11429], [11679; 11680; 11681]); ([11654; 11259; 11434], [11682; 11683; 11684]); ([11654; 11262; 11439], [11685; 11686; 11687]); ([11654; 11265; 11444], [11688; 11689; 11690]); ([11654; 11268; 11449], [11691; 11692; 11693]); ([11654; 11271; 11454], [11694; 11695; 11696]); ([11654; 11274; 11459], [11697; 11698; 11699]); ([11654; 11277; 11464], [11700; 11701; 11702]); ([11654; 11280; 11469], [11703; 11704; 11705]); ([11654; 11283; 11474], [11706; 11707; 11708]); ([11654; 11286; 11479], [11709; 11710; 11711]); ([11654; 11289; 11484], [11712; 11713; 11714]); ([11654; 11292; 11489], [11715; 11716; 11717]); ([11654; 11295; 11494], [11718; 11719; 11720]); ([11654; 11298; 11499], [11721; 11722; 11723]); ([11654; 11301; 11504], [11724; 11725; 11726]); ([11654; 11304; 11509], [11727; 11728; 11729]); ([11654; 11307; 11514], [11730; 11731; 11732]); ([11654; 11310; 11519], [11733; 11734; 11735]); ([11654; 11313; 11524], [11736; 11737; 11738]); ([11654; 11316; 11529], [11739; 11740; 11741]); ([11654; 11319; 11534], [11742; 11743; 11744]); ([11654; 11322; 11539], [11745; 11746; 11747]); ([11654; 11325; 11544], [11748; 11749; 11750]); ([11654; 11328; 11549], [11751; 11752; 11753]); ([11654; 11331; 11554], [11754; 11755; 11756]); ([11654; 11334; 11559], [11757; 11758; 11759]); ([11654; 11337; 11564], [11760; 11761; 11762]); ([11654; 11340; 11569], [11763; 11764; 11765]); ([11654; 11343; 11574], [11766; 11767; 11768]); ([11654; 11346; 11579], [11769; 11770; 11771]); ([11654; 11349; 11584], [11772; 11773; 11774]); ([11654; 11352; 11589], [11775; 11776; 11777]); ([11654; 11355; 11594], [11778; 11779; 11780]); ([11654; 11358; 11599], [11781; 11782; 11783]); ([11654; 11361; 11604], [11784; 11785; 11786]); ([11654; 11364; 11609], [11787; 11788; 11789]); ([11654; 11367; 11614], [11790; 11791; 11792]); ([11654; 11370; 11619], [11793; 11794; 11795]); ([11654; 11373; 11624], [11796; 11797; 11798]); ([11654; 11376; 11629], [11799; 11800; 11801]); ([11654; 11379; 11634], [11802; 11803; 11804]); ([11654; 11382; 11639], [11805; 11806; 11807]); ([11654; 11385; 11644], [11808; 11809; 11810]); ([11654; 11388; 11649], [11811; 11812; 11813])].
Definition udivide64_stage_53 : ustage := UStage
   [Cell ([10; 64], [11815; 11816]) (Some (LW 11815)) (Some (LW 11816));
    Cell ([11657; 65; 11816], [11817; 11819; 11818; 11820; 11821]) (Some (LW 11819)) (Some (LW 11821));
    Cell ([11660; 66; 11821], [11822; 11824; 11823; 11825; 11826]) (Some (LW 11824)) (Some (LW 11826));
    Cell ([11663; 67; 11826], [11827; 11829; 11828; 11830; 11831]) (Some (LW 11829)) (Some (LW 11831));
    Cell ([11666; 68; 11831], [11832; 11834; 11833; 11835; 11836]) (Some (LW 11834)) (Some (LW 11836));
    Cell ([11669; 69; 11836], [11837; 11839; 11838; 11840; 11841]) (Some (LW 11839)) (Some (LW 11841));
    Cell ([11672; 70; 11841], [11842; 11844; 11843; 11845; 11846]) (Some (LW 11844)) (Some (LW 11846));
    Cell ([11675; 71; 11846], [11847; 11849; 11848; 11850; 11851]) (Some (LW 11849)) (Some (LW 11851));
    Cell ([11678; 72; 11851], [11852; 11854; 11853; 11855; 11856]) (Some (LW 11854)) (Some (LW 11856));
    Cell ([11681; 73; 11856], [11857; 11859; 11858; 11860; 11861]) (Some (LW 11859)) (Some (LW 11861));
    Cell ([11684; 74; 11861], [11862; 11864; 11863; 11865; 11866]) (Some (LW 11864)) (Some (LW 11866));
    Cell ([11687; 75; 11866], [11867; 11869; 11868; 11870; 11871]) (Some (LW 11869)) (Some (LW 11871));
    Cell ([11690; 76; 11871], [11872; 11874; 11873; 11875; 11876]) (Some (LW 11874)) (Some (LW 11876));
    Cell ([11693; 77; 11876], [11877; 11879; 11878; 11880; 11881]) (Some (LW 11879)) (Some (LW 11881));
    Cell ([11696; 78; 11881], [11882; 11884; 11883; 11885; 11886]) (Some (LW 11884)) (Some (LW 11886));
    Cell ([11699; 79; 11886], [11887; 11889; 11888; 11890; 11891]) (Some (LW 11889)) (Some (LW 11891));
    Cell ([11702; 80; 11891], [11892; 11894; 11893; 11895; 11896]) (Some (LW 11894)) (Some (LW 11896));
    Cell ([11705; 81; 11896], [11897; 11899; 11898; 11900; 11901]) (Some (LW 11899)) (Some (LW 11901));
    Cell ([11708; 82; 11901], [11902; 11904; 11903; 11905; 11906]) (Some (LW 11904)) (Some (LW 11906));
    Cell ([11711; 83; 11906], [11907; 11909; 11908; 11910; 11911]) (Some (LW 11909)) (Some (LW 11911));
    Cell ([11714; 84; 11911], [11912; 11914; 11913; 11915; 11916]) (Some (LW 11914)) (Some (LW 11916));
    Cell ([11717; 85; 11916], [11917; 11919; 11918; 11920; 11921]) (Some (LW 11919)) (Some (LW 11921));
    Cell ([11720; 86; 11921], [11922; 11924; 11923; 11925; 11926]) (Some (LW 11924)) (Some (LW 11926));
    Cell ([11723; 87; 11926], [11927; 11929; 11928; 11930; 11931]) (Some (LW 11929)) (Some (LW 11931));
    Cell ([11726; 88; 11931], [11932; 11934; 11933; 11935; 11936]) (Some (LW 11934)) (Some (LW 11936));
    Cell ([11729; 89; 11936], [11937; 11939; 11938; 11940; 11941]) (Some (LW 11939)) (Some (LW 11941));
    Cell ([11732; 90; 11941], [11942; 11944; 11943; 11945; 11946]) (Some (LW 11944)) (Some (LW 11946));
    Cell ([11735; 91; 11946], [11947; 11949; 11948; 11950; 11951]) (Some (LW 11949)) (Some (LW 11951));
    Cell ([11738; 92; 11951], [11952; 11954; 11953; 11955; 11956]) (Some (LW 11954)) (Some (LW 11956));
    Cell ([11741; 93; 11956], [11957; 11959; 11958; 11960; 11961]) (Some (LW 11959)) (Some (LW 11961));
    Cell ([11744; 94; 11961], [11962; 11964; 11963; 11965; 11966]) (Some (LW 11964)) (Some (LW 11966));
    Cell ([11747; 95; 11966], [11967; 11969; 11968; 11970; 11971]) (Some (LW 11969)) (Some (LW 11971));
    Cell ([11750; 96; 11971], [11972; 11974; 11973; 11975; 11976]) (Some (LW 11974)) (Some (LW 11976));
    Cell ([11753; 97; 11976], [11977; 11979; 11978; 11980; 11981]) (Some (LW 11979)) (Some (LW 11981));
    Cell ([11756; 98; 11981], [11982; 11984; 11983; 11985; 11986]) (Some (LW 11984)) (Some (LW 11986));
    Cell ([11759; 99; 11986], [11987; 11989; 11988; 11990; 11991]) (Some (LW 11989)) (Some (LW 11991));
    Cell ([11762; 100; 11991], [11992; 11994; 11993; 11995; 11996]) (Some (LW 11994)) (Some (LW 11996));
    Cell ([11765; 101; 11996], [11997; 11999; 11998; 12000; 12001]) (Some (LW 11999)) (Some (LW 12001));
    Cell ([11768; 102; 12001], [12002; 12004; 12003; 12005; 12006]) (Some (LW 12004)) (Some (LW 12006));
    Cell ([11771; 103; 12006], [12007; 12009; 12008; 12010; 12011]) (Some (LW 12009)) (Some (LW 12011));
    Cell ([11774; 104; 12011], [12012; 12014; 12013; 12015; 12016]) (Some (LW 12014)) (Some (LW 12016));
    Cell ([11777; 105; 12016], [12017; 12019; 12018; 12020; 12021]) (Some (LW 12019)) (Some (LW 12021));
    Cell ([11780; 106; 12021], [12022; 12024; 12023; 12025; 12026]) (Some (LW 12024)) (Some (LW 12026));
    Cell ([11783; 107; 12026], [12027; 12029; 12028; 12030; 12031]) (Some (LW 12029)) (Some (LW 12031));
    Cell ([11786; 108; 12031], [12032; 12034; 12033; 12035; 12036]) (Some (LW 12034)) (Some (LW 12036));
    Cell ([11789; 109; 12036], [12037; 12039; 12038; 12040; 12041]) (Some (LW 12039)) (Some (LW 12041));
    Cell ([11792; 110; 12041], [12042; 12044; 12043; 12045; 12046]) (Some (LW 12044)) (Some (LW 12046));
    Cell ([11795; 111; 12046], [12047; 12049; 12048; 12050; 12051]) (Some (LW 12049)) (Some (LW 12051));
    Cell ([11798; 112; 12051], [12052; 12054; 12053; 12055; 12056]) (Some (LW 12054)) (Some (LW 12056));
    Cell ([11801; 113; 12056], [12057; 12059; 12058; 12060; 12061]) (Some (LW 12059)) (Some (LW 12061));
    Cell ([11804; 114; 12061], [12062; 12064; 12063; 12065; 12066]) (Some (LW 12064)) (Some (LW 12066));
    Cell ([11807; 115; 12066], [12067; 12069; 12068; 12070; 12071]) (Some (LW 12069)) (Some (LW 12071));
    Cell ([11810; 116; 12071], [12072; 12074; 12073; 12075; 12076]) (Some (LW 12074)) (Some (LW 12076));
    Cell ([11813; 117; 12076], [12077; 12079; 12078; 12080; 12081]) (Some (LW 12079)) (Some (LW 12081))]
   ([12081; 154], [12083; 12082; 12084]) 12084 12247
   [12087; 12090; 12093; 12096; 12099; 12102; 12105; 12108; 12111; 12114; 12117; 12120; 12123; 12126; 12129; 12132; 12135; 12138; 12141; 12144; 12147; 12150; 12153; 12156; 12159; 12162; 12165; 12168; 12171; 12174; 12177; 12180; 12183; 12186; 12189; 12192; 12195; 12198; 12201; 12204; 12207; 12210; 12213; 12216; 12219; 12222; 12225; 12228; 12231; 12234; 12237; 12240; 12243; 12246]
   [([12084; 10; 11815], [12085; 12086; 12087]); ([12084; 11657; 11819], [12088; 12089; 12090]); ([12084; 11660; 11824], [12091; 12092; 12093]); ([12084; 11663; 11829], [12094; 12095; 12096]); ([12084; 11666; 11834], [12097; 12098; 12099]); ([12084; 11669; 11839], [12100; 12101; 12102]); ([12084; 11672; 11844], [12103; 12104; 12105]); ([12084; 11675; 11849], [12106; 12107; 12108]); ([12084; 11678; 11854], [12109; 12110; 12111]); ([12084; 11681; 11859], [12112; 12113; 12114]); ([12084; 11684; 11864], [12115; 12116; 12117]); ([12084; 11687; 11869], [12118; 12119; 12120]); ([12084; 11690; 11874], [12121; 12122; 12123]); ([12084; 11693; 11879], [12124; 12125; 12126]); ([12084; 11696; 11884], [12127; 12128; 12129]); ([12084; 11699; 11889], [12130; 12131; 12132]); ([12084; 11702; 11894], [12133; 12134; 12135]); ([12084; 11705; 11899], [12136; 12137; 12138]); ([12084; 11708; 11904], [12139; 12140; 12141]); ([12084; 11711; 11909], [12142; 12143; 12144]); ([12084; 11714; 11914], [12145; 12146; 12147]); ([12084; 11717; 11919], [12148; 12149; 12150]); ([12084; 11720; 11924], [12151; 12152; 12153]); ([12084; 11723; 11929], [12154; 12155; 12156]); ([12084; 11726; 11934], [12157; 12158; 12159]); ([12084; 11729; 11939], [12160; 12161; 12162]); ([12084; 11732; 11944], [12163; 12164; 12165]); ([12084; 11735; 11949], [12166; 12167; 12168]); ([12084; 11738; 11954], [12169; 12170; 12171]); ([12084; 11741; 11959], [12172; 12173; 12174]); ([12084; 11744; 11964], [12175; 12176; 12177]); ([12084; 11747; 11969], [12178; 12179; 12180]); ([12084; 11750; 11974], [12181; 12182; 12183]); ([12084; 11753; 11979], [12184; 12185; 12186]); ([12084; 11756; 11984], [12187; 12188; 12189]); ([12084; 11759; 11989], [12190; 12191; 12192]); ([12084; 11762; 11994], [12193; 12194; 12195]); ([12084; 11765; 11999], [12196; 12197; 12198]); ([12084; 11768; 12004], [12199; 12200; 12201]); ([12084; 11771; 12009], [12202; 12203; 12204]); ([12084; 11774; 12014], [12205; 12206; 12207]); ([12084; 11777; 12019], [12208; 12209; 12210]); ([12084; 11780; 12024], [12211; 12212; 12213]); ([12084; 11783; 12029], [12214; 12215; 12216]); ([12084; 11786; 12034], [12217; 12218; 12219]); ([12084; 11789; 12039], [12220; 12221; 12222]); ([12084; 11792; 12044], [12223; 12224; 12225]); ([12084; 11795; 12049], [12226; 12227; 12228]); ([12084; 11798; 12054], [12229; 12230; 12231]); ([12084; 11801; 12059], [12232; 12233; 12234]); ([12084; 11804; 12064], [12235; 12236; 12237]); ([12084; 11807; 12069], [12238; 12239; 12240]); ([12084; 11810; 12074], [12241; 12242; 12243]); ([12084; 11813; 12079], [12244; 12245; 12246])].
Definition udivide64_stage_54 : ustage := UStage
   [Cell ([9; 64], [12248; 12249]) (Some (LW 12248)) (Some (LW 12249));
    Cell ([12087; 65; 12249], [12250; 12252; 12251; 12253; 12254]) (Some (LW 12252)) (Some (LW 12254));
    Cell ([12090; 66; 12254], [12255; 12257; 12256; 12258; 12259]) (Some (LW 12257)) (Some (LW 12259));
    Cell ([12093; 67; 12259], [12260; 12262; 12261; 12263; 12264]) (Some (LW 12262)) (Some (LW 12264));
    Cell ([12096; 68; 12264], [12265; 12267; 12266; 12268; 12269]) (Some (LW 12267)) (Some (LW 12269));
    Cell ([12099; 69; 12269], [12270; 12272; 12271; 12273; 12274]) (Some (LW 12272)) (Some (LW 12274));
    Cell ([12102; 70; 12274], [12275; 12277; 12276; 12278; 12279]) (Some (LW 12277)) (Some (LW 12279));
    Cell ([12105; 71; 12279], [12280; 12282; 12281; 12283; 12284]) (Some (LW 12282)) (Some (LW 12284));
    Cell ([12108; 72; 12284], [12285; 12287; 12286; 12288; 12289]) (Some (LW 12287)) (Some (LW 12289));
    Cell ([12111; 73; 12289], [12290; 12292; 12291; 12293; 12294]) (Some (LW 12292)) (Some (LW 12294));
    Cell ([12114; 74; 12294], [12295; 12297; 12296; 12298; 12299]) (Some (LW 12297)) (Some (LW 12299));
    Cell ([12117; 75; 12299], [12300; 12302; 12301; 12303; 12304]) (Some (LW 12302)) (Some (LW 12304));
    Cell ([12120; 76; 12304], [12305; 12307; 12306; 12308; 12309]) (Some (LW 12307)) (Some (LW 12309));
    Cell ([12123; 77; 12309], [12310; 12312; 12311; 12313; 12314]) (Some (LW 12312)) (Some (LW 12314));
    Cell ([12126; 78; 12314], [12315; 12317; 12316; 12318; 12319]) (Some (LW 12317)) (Some (LW 12319));
    Cell ([12129; 79; 12319], [12320; 12322; 12321; 12323; 12324]) (Some (LW 12322)) (Some (LW 12324));
    Cell ([12132; 80; 12324], [12325; 12327; 12326; 12328; 12329]) (Some (LW 12327)) (Some (LW 12329));
    Cell ([12135; 81; 12329], [12330; 12332; 12331; 12333; 12334]) (Some (LW 12332)) (Some (LW 12334));
    Cell ([12138; 82; 12334], [12335; 12337; 12336; 12338; 12339]) (Some (LW 12337)) (Some (LW 12339));
    Cell ([12141; 83; 12339], [12340; 12342; 12341; 12343; 12344]) (Some (LW 12342)) (Some (LW 12344));
    Cell ([12144; 84; 12344], [12345; 12347; 12346; 12348; 12349]) (Some (LW 12347)) (Some (LW 12349));
    Cell ([12147; 85; 12349], [12350; 12352; 12351; 12353; 12354]) (Some (LW 12352)) (Some (LW 12354));
    Cell ([12150; 86; 12354], [12355; 12357; 12356; 12358; 12359]) (Some (LW 12357)) (Some (LW 12359));
    Cell ([12153; 87; 12359], [12360; 12362; 12361; 12363; 12364]) (Some (LW 12362)) (Some (LW 12364));
    Cell ([12156; 88; 12364], [12365; 12367; 12366; 12368; 12369]) (Some (LW 12367)) (Some (LW 12369));
    Cell ([12159; 89; 12369], [12370; 12372; 12371; 12373; 12374]) (Some (LW 12372)) (Some (LW 12374));
    Cell ([12162; 90; 12374], [12375; 12377; 12376; 12378; 12379]) (Some (LW 12377)) (Some (LW 12379));
    Cell ([12165; 91; 12379], [12380; 12382; 12381; 12383; 12384]) (Some (LW 12382)) (Some (LW 12384));
    Cell ([12168; 92; 12384], [12385; 12387; 12386; 12388; 12389]) (Some (LW 12387)) (Some (LW 12389));
    Cell ([12171; 93; 12389], [12390; 12392; 12391; 12393; 12394]) (Some (LW 12392)) (Some (LW 12394));
    Cell ([12174; 94; 12394], [12395; 12397; 12396; 12398; 12399]) (Some (LW 12397)) (Some (LW 12399));
    Cell ([12177; 95; 12399], [12400; 12402; 12401; 12403; 12404]) (Some (LW 12402)) (Some (LW 12404));
    Cell ([12180; 96; 12404], [12405; 12407; 12406; 12408; 12409]) (Some (LW 12407)) (Some (LW 12409));
    Cell ([12183; 97; 12409], [12410; 12412; 12411; 12413; 12414]) (Some (LW 12412)) (Some (LW 12414));
    Cell ([12186; 98; 12414], [12415; 12417; 12416; 12418; 12419]) (Some (LW 12417)) (Some (LW 12419));
    Cell ([12189; 99; 12419], [12420; 12422; 12421; 12423; 12424]) (Some (LW 12422)) (Some (LW 12424));
    Cell ([12192; 100; 12424], [12425; 12427; 12426; 12428; 12429]) (Some (LW 12427)) (Some (LW 12429));
    Cell ([12195; 101; 12429], [12430; 12432; 12431; 12433; 12434]) (Some (LW 12432)) (Some (LW 12434));
    Cell ([12198; 102; 12434], [12435; 12437; 12436; 12438; 12439]) (Some (LW 12437)) (Some (LW 12439));
    Cell ([12201; 103; 12439], [12440; 12442; 12441; 12443; 12444]) (Some (LW 12442)) (Some (LW 12444));
    Cell ([12204; 104; 12444], [12445; 12447; 12446; 12448; 12449]) (Some (LW 12447)) (Some (LW 12449));
    Cell ([12207; 105; 12449], [12450; 12452; 12451; 12453; 12454]) (Some (LW 12452)) (Some (LW 12454));
    Cell ([12210; 106; 12454], [12455; 12457; 12456; 12458; 12459]) (Some (LW 12457)) (Some (LW 12459));
    Cell ([12213; 107; 12459], [12460; 12462; 12461; 12463; 12464]) (Some (LW 12462)) (Some (LW 12464));
    Cell ([12216; 108; 12464], [12465; 12467; 12466; 12468; 12469]) (Some (LW 12467)) (Some (LW 12469));
    Cell ([12219; 109; 12469], [12470; 12472; 12471; 12473; 12474]) (Some (LW 12472)) (Some (LW 12474));
    Cell ([12222; 110; 12474], [12475; 12477; 12476; 12478; 12479]) (Some (LW 12477)) (Some (LW 12479));
    Cell ([12225; 111; 12479], [12480; 12482; 12481; 12483; 12484]) (Some (LW 12482)) (Some (LW 12484));
    Cell ([12228; 112; 12484], [12485; 12487; 12486; 12488; 12489]) (Some (LW 12487)) (Some (LW 12489));
    Cell ([12231; 113; 12489], [12490; 12492; 12491; 12493; 12494]) (Some (LW 12492)) (Some (LW 12494));
    Cell ([12234; 114; 12494], [12495; 12497; 12496; 12498; 12499]) (Some (LW 12497)) (Some (LW 12499));
    Cell ([12237; 115; 12499], [12500; 12502; 12501; 12503; 12504]) (Some (LW 12502)) (Some (LW 12504));
    Cell ([12240; 116; 12504], [12505; 12507; 12506; 12508; 12509]) (Some (LW 12507)) (Some (LW 12509));
    Cell ([12243; 117; 12509], [12510; 12512; 12511; 12513; 12514]) (Some (LW 12512)) (Some (LW 12514));
    Cell ([12246; 118; 12514], [12515; 12517; 12516; 12518; 12519]) (Some (LW 12517)) (Some (LW 12519))]
   ([12519; 151], [12521; 12520; 12522]) 12522 12688
   [12525; 12528; 12531; 12534; 12537; 12540; 12543; 12546; 12549; 12552; 12555; 12558; 12561; 12564; 12567; 12570; 12573; 12576; 12579; 12582; 12585; 12588; 12591; 12594; 12597; 12600; 12603; 12606; 12609; 12612; 12615; 12618; 12621; 12624; 12627; 12630; 12633; 12636; 12639; 12642; 12645; 12648; 12651; 12654; 12657; 12660; 12663; 12666; 12669; 12672; 12675; 12678; 12681; 12684; 12687]
   [([12522; 9; 12248], [12523; 12524; 12525]); ([12522; 12087; 12252], [12526; 12527; 12528]); ([12522; 12090; 12257], [12529; 12530; 12531]); ([12522; 12093; 12262], [12532; 12533; 12534]); ([12522; 12096; 12267], [12535; 12536; 12537]); ([12522; 12099; 12272], [12538; 12539; 12540]); ([12522; 12102; 12277], [12541; 12542; 12543]); ([12522; 12105; 12282], [12544; 12545; 12546]); ([12522; 12108; 12287], [12547; 12548; 12549]); ([12522; 12111; 12292], [12550; 12551; 12552]); ([12522; 12114; 12297], [12553; 12554; 12555]); ([12522; 12117; 12302], [12556; 12557; 12558]); ([12522; 12120; 12307], [12559; 12560; 12561]); ([12522; 12123; 12312], [12562; 12563; 12564]); ([12522; 12126; 12317], [12565; 12566; 12567]); ([12522; 12129; 12322], [12568; 12569; 12570]); ([12522; 12132; 12327], [12571; 12572; 12573]); ([12522; 12135; 12332], [12574; 12575; 12576]); ([12522; 12138; 12337], [12577; 12578; 12579]); ([12522; 12141; 12342], [12580; 12581; 12582]); ([12522; 12144; 12347], [12583; 12584; 12585]); ([12522; 12147; 12352], [12586; 12587; 12588]); ([12522; 12150; 12357], [12589; 12590; 12591]); ([12522; 12153; 12362], [12592; 12593; 12594]); ([12522; 12156; 12367], [12595; 12596; 12597]); ([12522; 12159; 12372], [12598; 12599; 12600]); ([12522; 12162; 12377], [12601; 12602; 12603]); ([12522; 12165; 12382], [12604; 12605; 12606]); ([12522; 12168; 12387], [12607; 12608; 12609]); ([12522; 12171; 12392], [12610; 12611; 12612]); ([12522; 12174; 12397], [12613; 12614; 12615]); ([12522; 12177; 12402], [12616; 12617; 12618]); ([12522; 12180; 12407], [12619; 12620; 12621]); ([12522; 12183; 12412], [12622; 12623; 12624]); ([12522; 12186; 12417], [12625; 12626; 12627]); ([12522; 12189; 12422], [12628; 12629; 12630]); ([12522; 12192; 12427], [12631; 12632; 12633]); ([12522; 12195; 12432], [12634; 12635; 12636]); ([12522; 12198; 12437], [12637; 12638; 12639]); ([12522; 12201; 12442], [12640; 12641; 12642]); ([12522; 12204; 12447], [12643; 12644; 12645]); ([12522; 12207; 12452], [12646; 12647; 12648]); ([12522; 12210; 12457], [12649; 12650; 12651]); ([12522; 12213; 12462], [12652; 12653; 12654]); ([12522; 12216; 12467], [12655; 12656; 12657]); ([12522; 12219; 12472], [12658; 12659; 12660]); ([12522; 12222; 12477], [12661; 12662; 12663]); ([12522; 12225; 12482], [12664; 12665; 12666]); ([12522; 12228; 12487], [12667; 12668; 12669]); ([12522; 12231; 12492], [12670; 12671; 12672]); ([12522; 12234; 12497], [12673; 12674; 12675]); ([12522; 12237; 12502], [12676; 12677; 12678]); ([12522; 12240; 12507], [12679; 12680; 12681]); ([12522; 12243; 12512], [12682; 12683; 12684]); ([12522; 12246; 12517], [12685; 12686; 12687])].
Definition udivide64_stage_55 : ustage := UStage
   [Cell ([8; 64], [12689; 12690]) (Some (LW 12689)) (Some (LW 12690));
    Cell ([12525; 65; 12690], [12691; 12693; 12692; 12694; 12695]) (Some (LW 12693)) (Some (LW 12695));
    Cell ([12528; 66; 12695], [12696; 12698; 12697; 12699; 12700]) (Some (LW 12698)) (Some (LW 12700));
    Cell ([12531; 67; 12700], [12701; 12703; 12702; 12704; 12705]) (Some (LW 12703)) (Some (LW 12705));
    Cell ([12534; 68; 12705], [12706; 12708; 12707; 12709; 12710]) (Some (LW 12708)) (Some (LW 12710));
    Cell ([12537; 69; 12710], [12711; 12713; 12712; 12714; 12715]) (Some (LW 12713)) (Some (LW 12715));
    Cell ([12540; 70; 12715], [12716; 12718; 12717; 12719; 12720]) (Some (LW 12718)) (Some (LW 12720));
    Cell ([12543; 71; 12720], [12721; 12723; 12722; 12724; 12725]) (Some (LW 12723)) (Some (LW 12725));
    Cell ([12546; 72; 12725], [12726; 12728; 12727; 12729; 12730]) (Some (LW 12728)) (Some (LW 12730));
    Cell ([12549; 73; 12730], [12731; 12733; 12732; 12734; 12735]) (Some (LW 12733)) (Some (LW 12735));
    Cell ([12552; 74; 12735], [12736; 12738; 12737; 12739; 12740]) (Some (LW 12738)) (Some (LW 12740));
    Cell ([12555; 75; 12740], [12741; 12743; 12742; 12744; 12745]) (Some (LW 12743)) (Some (LW 12745));
    Cell ([12558; 76; 12745], [12746; 12748; 12747; 12749; 12750]) (Some (LW 12748)) (Some (LW 12750));
    Cell ([12561; 77; 12750], [12751; 12753; 12752; 12754; 12755]) (Some (LW 12753)) (Some (LW 12755));
    Cell ([12564; 78; 12755], [12756; 12758; 12757; 12759; 12760]) (Some (LW 12758)) (Some (LW 12760));
    Cell ([12567; 79; 12760], [12761; 12763; 12762; 12764; 12765]) (Some (LW 12763)) (Some (LW 12765));
    Cell ([12570; 80; 12765], [12766; 12768; 12767; 12769; 12770]) (Some (LW 12768)) (Some (LW 12770));
    Cell ([12573; 81; 12770], [12771; 12773; 12772; 12774; 12775]) (Some (LW 12773)) (Some (LW 12775));
    Cell ([12576; 82; 12775], [12776; 12778; 12777; 12779; 12780]) (Some (LW 12778)) (Some (LW 12780));
    Cell ([12579; 83; 12780], [12781; 12783; 12782; 12784; 12785]) (Some (LW 12783)) (Some (LW 12785));
    Cell ([12582; 84; 12785], [12786; 12788; 12787; 12789; 12790]) (Some (LW 12788)) (Some (LW 12790));
    Cell ([12585; 85; 12790], [12791; 12793; 12792; 12794; 12795]) (Some (LW 12793)) (Some (LW 12795));
    Cell ([12588; 86; 12795], [12796; 12798; 12797; 12799; 12800]) (Some (LW 12798)) (Some (LW 12800));
    Cell ([12591; 87; 12800], [12801; 12803; 12802; 12804; 12805]) (Some (LW 12803)) (Some (LW 12805));
    Cell ([12594; 88; 12805], [12806; 12808; 12807; 12809; 12810]) (Some (LW 12808)) (Some (LW 12810));
    Cell ([12597; 89; 12810], [12811; 12813; 12812; 12814; 12815]) (Some (LW 12813)) (Some (LW 12815));
    Cell ([12600; 90; 12815], [12816; 12818; 12817; 12819; 12820]) (Some (LW 12818)) (Some (LW 12820));
    Cell ([12603; 91; 12820], [12821; 12823; 12822; 12824; 12825]) (Some (LW 12823)) (Some (LW 12825));
    Cell ([12606; 92; 12825], [12826; 12828; 12827; 12829; 12830]) (Some (LW 12828)) (Some (LW 12830));
    Cell ([12609; 93; 12830], [12831; 12833; 12832; 12834; 12835]) (Some (LW 12833)) (Some (LW 12835));
    Cell ([12612; 94; 12835], [12836; 12838; 12837; 12839; 12840]) (Some (LW 12838)) (Some (LW 12840));
    Cell ([12615; 95; 12840], [12841; 12843; 12842; 12844; 12845]) (Some (LW 12843)) (Some (LW 12845));
    Cell ([12618; 96; 12845], [12846; 12848; 12847; 12849; 12850]) (Some (LW 12848)) (Some (LW 12850));
    Cell ([12621; 97; 12850], [12851; 12853; 12852; 12854; 12855]) (Some (LW 12853)) (Some (LW 12855));
    Cell ([12624; 98; 12855], [12856; 12858; 12857; 12859; 12860]) (Some (LW 12858)) (Some (LW 12860));
    Cell ([12627; 99; 12860], [12861; 12863; 12862; 12864; 12865]) (Some (LW 12863)) (Some (LW 12865));
    Cell ([12630; 100; 12865], [12866; 12868; 12867; 12869; 12870]) (Some (LW 12868)) (Some (LW 12870));
    Cell ([12633; 101; 12870], [12871; 12873; 12872; 12874; 12875]) (Some (LW 12873)) (Some (LW 12875));
    Cell ([12636; 102; 12875], [12876; 12878; 12877; 12879; 12880]) (Some (LW 12878)) (Some (LW 12880));
    Cell ([12639; 103; 12880], [12881; 12883; 12882; 12884; 12885]) (Some (LW 12883)) (Some (LW 12885));
    Cell ([12642; 104; 12885], [12886; 12888; 12887; 12889; 12890]) (Some (LW 12888)) (Some (LW 12890));
    Cell ([12645; 105; 12890], [12891; 12893; 12892; 12894; 12895]) (Some (LW 12893)) (Some (LW 12895));
    Cell ([12648; 106; 12895], [12896; 12898; 12897; 12899; 12900]) (Some (LW 12898)) (Some (LW 12900));
    Cell ([12651; 107; 12900], [12901; 12903; 12902; 12904; 12905]) (Some (LW 12903)) (Some (LW 12905));
    Cell ([12654; 108; 12905], [12906; 12908; 12907; 12909; 12910]) (Some (LW 12908)) (Some (LW 12910));
    Cell ([12657; 109; 12910], [12911; 12913; 12912; 12914; 12915]) (Some (LW 12913)) (Some (LW 12915));
    Cell ([12660; 110; 12915], [12916; 12918; 12917; 12919; 12920]) (Some (LW 12918)) (Some (LW 12920));
    Cell ([12663; 111; 12920], [12921; 12923; 12922; 12924; 12925]) (Some (LW 12923)) (Some (LW 12925));
    Cell ([12666; 112; 12925], [12926; 12928; 12927; 12929; 12930]) (Some (LW 12928)) (Some (LW 12930));
    Cell ([12669; 113; 12930], [12931; 12933; 12932; 12934; 12935]) (Some (LW 12933)) (Some (LW 12935));
    Cell ([12672; 114; 12935], [12936; 12938; 12937; 12939; 12940]) (Some (LW 12938)) (Some (LW 12940));
    Cell ([12675; 115; 12940], [12941; 12943; 12942; 12944; 12945]) (Some (LW 12943)) (Some (LW 12945));
    Cell ([12678; 116; 12945], [12946; 12948; 12947; 12949; 12950]) (Some (LW 12948)) (Some (LW 12950));
    Cell ([12681; 117; 12950], [12951; 12953; 12952; 12954; 12955]) (Some (LW 12953)) (Some (LW 12955));
    Cell ([12684; 118; 12955], [12956; 12958; 12957; 12959; 12960]) (Some (LW 12958)) (Some (LW 12960));
    Cell ([12687; 119; 12960], [12961; 12963; 12962; 12964; 12965]) (Some (LW 12963)) (Some (LW 12965))]
   ([12965; 148], [12967; 12966; 12968]) 12968 13137
   [12971; 12974; 12977; 12980; 12983; 12986; 12989; 12992; 12995; 12998; 13001; 13004; 13007; 13010; 13013; 13016; 13019; 13022; 13025; 13028; 13031; 13034; 13037; 13040; 13043; 13046; 13049; 13052; 13055; 13058; 13061; 13064; 13067; 13070; 13073; 13076; 13079; 13082; 13085; 13088; 13091; 13094; 13097; 13100; 13103; 13106; 13109; 13112; 13115; 13118; 13121; 13124; 13127; 13130; 13133; 13136]
   [([12968; 8; 12689], [12969; 12970; 12971]); ([12968; 12525; 12693], [12972; 12973; 12974]); ([12968; 12528; 12698], [12975; 12976; 12977]); ([12968; 12531; 12703], [12978; 12979; 12980]); ([12968; 12534; 12708], [12981; 12982; 12983]); ([12968; 12537; 12713], [12984; 12985; 12986]); ([12968; 12540; 12718], [12987; 12988; 12989]); ([12968; 12543; 12723], [12990; 12991; 12992]); ([12968; 12546; 12728], [12993; 12994; 12995]); ([12968; 12549; 12733], [12996; 12997; 12998]); ([12968; 12552; 12738], [12999; 13000; 13001]); ([12968; 12555; 12743], [13002; 13003; 13004]); ([12968; 12558; 12748], [13005; 13006; 13007]); ([12968; 12561; 12753], [13008; 13009; 13010]); ([12968; 12564; 12758], [13011; 13012; 13013]); ([12968; 12567; 12763], [13014; 13015; 13016]); ([12968; 12570; 12768], [13017; 13018; 13019]); ([12968; 12573; 12773], [13020; 13021; 13022]); ([12968; 12576; 12778], [13023; 13024; 13025]); ([12968; 12579; 12783], [13026; 13027; 13028]); ([12968; 12582; 12788], [13029; 13030; 13031]); ([12968; 12585; 12793], [13032; 13033; 13034]); ([12968; 12588; 12798], [13035; 13036; 13037]); ([12968; 12591; 12803], [13038; 13039; 13040]); ([12968; 12594; 12808], [13041; 13042; 13043]); ([12968; 12597; 12813], [13044; 13045; 13046]); ([12968; 12600; 12818], [13047; 13048; 13049]); ([12968; 12603; 12823], [13050; 13051; 13052]); ([12968; 12606; 12828], [13053; 13054; 13055]); ([12968; 12609; 12833], [13056; 13057; 13058]); ([12968; 12612; 12838], [13059; 13060; 13061]); ([12968; 12615; 12843], [13062; 13063; 13064]); ([12968; 12618; 12848], [13065; 13066; 13067]); ([12968; 12621; 12853], [13068; 13069; 13070]); ([12968; 12624; 12858], [13071; 13072; 13073]); ([12968; 12627; 12863], [13074; 13075; 13076]); ([12968; 12630; 12868], [13077; 13078; 13079]); ([12968; 12633; 12873], [13080; 13081; 13082]); ([12968; 12636; 12878], [13083; 13084; 13085]); ([12968; 12639; 12883], [13086; 13087; 13088]); ([12968; 12642; 12888], [13089; 13090; 13091]); ([12968; 12645; 12893], [13092; 13093; 13094]); ([12968; 12648; 12898], [13095; 13096; 13097]); ([12968; 12651; 12903], [13098; 13099; 13100]); ([12968; 12654; 12908], [13101; 13102; 13103]); ([12968; 12657; 12913], [13104; 13105; 13106]); ([12968; 12660; 12918], [13107; 13108; 13109]); ([12968; 12663; 12923], [13110; 13111; 13112]); ([12968; 12666; 12928], [13113; 13114; 13115]); ([12968; 12669; 12933], [13116; 13117; 13118]); ([12968; 12672; 12938], [13119; 13120; 13121]); ([12968; 12675; 12943], [13122; 13123; 13124]); ([12968; 12678; 12948], [13125; 13126; 13127]); ([12968; 12681; 12953], [13128; 13129; 13130]); ([12968; 12684; 12958], [13131; 13132; 13133]); ([12968; 12687; 12963], [13134; 13135; 13136])].
Definition udivide64_stage_56 : ustage := UStage
   [Cell ([7; 64], [13138; 13139]) (Some (LW 13138)) (Some (LW 13139));
    Cell ([12971; 65; 13139], [13140; 13142; 13141; 13143; 13144]) (Some (LW 13142)) (Some (LW 13144));
    Cell ([12974; 66; 13144], [13145; 13147; 13146; 13148; 13149]) (Some (LW 13147)) (Some (LW 13149));
    Cell ([12977; 67; 13149], [13150; 13152; 13151; 13153; 13154]) (Some (LW 13152)) (Some (LW 13154));
    Cell ([12980; 68; 13154], [13155; 13157; 13156; 13158; 13159]) (Some (LW 13157)) (Some (LW 13159));
    Cell ([12983; 69; 13159], [13160; 13162; 13161; 13163; 13164]) (Some (LW 13162)) (Some (LW 13164));
    Cell ([12986; 70; 13164], [13165; 13167; 13166; 13168; 13169]) (Some (LW 13167)) (Some (LW 13169));
    Cell ([12989; 71; 13169], [13170; 13172; 13171; 13173; 13174]) (Some (LW 13172)) (Some (LW 13174));
    Cell ([12992; 72; 13174], [13175; 13177; 13176; 13178; 13179]) (Some (LW 13177)) (Some (LW 13179));
    Cell ([12995; 73; 13179], [13180; 13182; 13181; 13183; 13184]) (Some (LW 13182)) (Some (LW 13184));
    Cell ([12998; 74; 13184], [13185; 13187; 13186; 13188; 13189]) (Some (LW 13187)) (Some (LW 13189));
    Cell ([13001; 75; 13189], [13190; 13192; 13191; 13193; 13194]) (Some (LW 13192)) (Some (LW 13194));
    Cell ([13004; 76; 13194], [13195; 13197; 13196; 13198; 13199]) (Some (LW 13197)) (Some (LW 13199));
    Cell ([13007; 77; 13199], [13200; 13202; 13201; 13203; 13204]) (Some (LW 13202)) (Some (LW 13204));
    Cell ([13010; 78; 13204], [13205; 13207; 13206; 13208; 13209]) (Some (LW 13207)) (Some (LW 13209));
    Cell ([13013; 79; 13209], [13210; 13212; 13211; 13213; 13214]) (Some (LW 13212)) (Some (LW 13214));
    Cell ([13016; 80; 13214], [13215; 13217; 13216; 13218; 13219]) (Some (LW 13217)) (Some (LW 13219));
    Cell ([13019; 81; 13219], [13220; 13222; 13221; 13223; 13224]) (Some (LW 13222)) (Some (LW 13224));
    Cell ([13022; 82; 13224], [13225; 13227; 13226; 13228; 13229]) (Some (LW 13227)) (Some (LW 13229));
    Cell ([13025; 83; 13229], [13230; 13232; 13231; 13233; 13234]) (Some (LW 13232)) (Some (LW 13234));
    Cell ([13028; 84; 13234], [13235; 13237; 13236; 13238; 13239]) (Some (LW 13237)) (Some (LW 13239));
    Cell ([13031; 85; 13239], [13240; 13242; 13241; 13243; 13244]) (Some (LW 13242)) (Some (LW 13244));
    Cell ([13034; 86; 13244], [13245; 13247; 13246; 13248; 13249]) (Some (LW 13247)) (Some (LW 13249));
    Cell ([13037; 87; 13249], [13250; 13252; 13251; 13253; 13254]) (Some (LW 13252)) (Some (LW 13254));
    Cell ([13040; 88; 13254], [13255; 13257; 13256; 13258; 13259]) (Some (LW 13257)) (Some (LW 13259));
    Cell ([13043; 89; 13259], [13260; 13262; 13261; 13263; 13264]) (Some (LW 13262)) (Some (LW 13264));
    Cell ([13046; 90; 13264], [13265; 13267; 13266; 13268; 13269]) (Some (LW 13267)) (Some (LW 13269));
    Cell ([13049; 91; 13269], [13270; 13272; 13271; 13273; 13274]) (Some (LW 13272)) (Some (LW 13274));
    Cell ([13052; 92; 13274], [13275; 13277; 13276; 13278; 13279]) (Some (LW 13277)) (Some (LW 13279));
    Cell ([13055; 93; 13279], [13280; 13282; 13281; 13283; 13284]) (Some (LW 13282)) (Some (LW 13284));
    Cell ([13058; 94; 13284], [13285; 13287; 13286; 13288; 13289]) (Some (LW 13287)) (Some (LW 13289));
    Cell ([13061; 95; 13289], [13290; 13292; 13291; 13293; 13294]) (Some (LW 13292)) (Some (LW 13294));
    Cell ([13064; 96; 13294], [13295; 13297; 13296; 13298; 13299]) (Some (LW 13297)) (Some (LW 13299));
    Cell ([13067; 97; 13299], [13300; 13302; 13301; 13303; 13304]) (Some (LW 13302)) (Some (LW 13304));
    Cell ([13070; 98; 13304], [13305; 13307; 13306; 13308; 13309]) (Some (LW 13307)) (Some (LW 13309));
    Cell ([13073; 99; 13309], [13310; 13312; 13311; 13313; 13314]) (Some (LW 13312)) (Some (LW 13314));
    Cell ([13076; 100; 13314], [13315; 13317; 13316; 13318; 13319]) (Some (LW 13317)) (Some (LW 13319));
    Cell ([13079; 101; 13319], [13320; 13322; 13321; 13323; 13324]) (Some (LW 13322)) (Some (LW 13324));
    Cell ([13082; 102; 13324], [13325; 13327; 13326; 13328; 13329]) (Some (LW 13327)) (Some (LW 13329));
    Cell ([13085; 103; 13329], [13330; 13332; 13331; 13333; 13334]) (Some (LW 13332)) (Some (LW 13334));
    Cell ([13088; 104; 13334], [13335; 13337; 13336; 13338; 13339]) (Some (LW 13337)) (Some (LW 13339));
    Cell ([13091; 105; 13339], [13340; 13342; 13341; 13343; 13344]) (Some (LW 13342)) (Some (LW 13344));
    Cell ([13094; 106; 13344], [13345; 13347; 13346; 13348; 13349]) (Some (LW 13347)) (Some (LW 13349));
    Cell ([13097; 107; 13349], [13350; 13352; 13351; 13353; 13354]) (Some (LW 13352)) (Some (LW 13354));
    Cell ([13100; 108; 13354], [13355; 13357; 13356; 13358; 13359]) (Some (LW 13357)) (Some (LW 13359));
    Cell ([13103; 109; 13359], [13360; 13362; 13361; 13363; 13364]) (Some (LW 13362)) (Some (LW 13364));
    Cell ([13106; 110; 13364], [13365; 13367; 13366; 13368; 13369]) (Some (LW 13367)) (Some (LW 13369));
    Cell ([13109; 111; 13369], [13370; 13372; 13371; 13373; 13374]) (Some (LW 13372)) (Some (LW 13374));
    Cell ([13112; 112; 13374], [13375; 13377; 13376; 13378; 13379]) (Some (LW 13377)) (Some (LW 13379));
    Cell ([13115; 113; 13379], [13380; 13382; 13381; 13383; 13384]) (Some (LW 13382)) (Some (LW 13384));
    Cell ([13118; 114; 13384], [13385; 13387; 13386; 13388; 13389]) (Some (LW 13387)) (Some (LW 13389));
    Cell ([13121; 115; 13389], [13390; 13392; 13391; 13393; 13394]) (Some (LW 13392)) (Some (LW 13394));
    Cell ([13124; 116; 13394], [13395; 13397; 13396; 13398; 13399]) (Some (LW 13397)) (Some (LW 13399));
    Cell ([13127; 117; 13399], [13400; 13402; 13401; 13403; 13404]) (Some (LW 13402)) (Some (LW 13404));
    Cell ([13130; 118; 13404], [13405; 13407; 13406; 13408; 13409]) (Some (LW 13407)) (Some (LW 13409));
    Cell ([13133; 119; 13409], [13410; 13412; 13411; 13413; 13414]) (Some (LW 13412)) (Some (LW 13414));
    Cell ([13136; 120; 13414], [13415; 13417; 13416; 13418; 13419]) (Some (LW 13417)) (Some (LW 13419))]
   ([13419; 145], [13421; 13420; 13422]) 13422 13594
   [13425; 13428; 13431; 13434; 13437; 13440; 13443; 13446; 13449; 13452; 13455; 13458; 13461; 13464; 13467; 13470; 13473; 13476; 13479; 13482; 13485; 13488; 13491; 13494; 13497; 13500; 13503; 13506; 13509; 13512; 13515; 13518; 13521; 13524; 13527; 13530; 13533; 13536; 13539; 13542; 13545; 13548; 13551; 13554; 13557; 13560; 13563; 13566; 13569; 13572; 13575; 13578; 13581; 13584; 13587; 13590; 13593]
   [([13422; 7; 13138], [13423; 13424; 13425]); ([13422; 12971; 13142], [13426; 13427; 13428]); ([13422; 12974; 13147], [13429; 13430; 13431]); ([13422; 12977; 13152], [13432; 13433; 13434]); ([13422; 12980; 13157], [13435; 13436; 13437]); ([13422; 12983; 13162], [13438; 13439; 13440]); ([13422; 12986; 13167], [13441; 13442; 13443]); ([13422; 12989; 13172], [13444; 13445; 13446]); ([13422; 12992; 13177], [13447; 13448; 13449]); ([13422; 12995; 13182], [13450; 13451; 13452]); ([13422; 12998; 13187], [13453; 13454; 13455]); ([13422; 13001; 13192], [13456; 13457; 13458]); ([13422; 13004; 13197], [13459; 13460; 13461]); ([13422; 13007; 13202], [13462; 13463; 13464]); ([13422; 13010; 13207], [13465; 13466; 13467]); ([13422; 13013; 13212], [13468; 13469; 13470]); ([13422; 13016; 13217], [13471; 13472; 13473]); ([13422; 13019; 13222], [13474; 13475; 13476]); ([13422; 13022; 13227], [13477; 13478; 13479]); ([13422; 13025; 13232], [13480; 13481; 13482]); ([13422; 13028; 13237], [13483; 13484; 13485]); ([13422; 13031; 13242], [13486; 13487; 13488]); ([13422; 13034; 13247], [13489; 13490; 13491]); ([13422; 13037; 13252], [13492; 13493; 13494]); ([13422; 13040; 13257], [13495; 13496; 13497]); ([13422; 13043; 13262], [13498; 13499; 13500]); ([13422; 13046; 13267], [13501; 13502; 13503]); ([13422; 13049; 13272], [13504; 13505; 13506]); ([13422; 13052; 13277], [13507; 13508; 13509]); ([13422; 13055; 13282], [13510; 13511; 13512]); ([13422; 13058; 13287], [13513; 13514; 13515]); ([13422; 13061; 13292], [13516; 13517; 13518]); ([13422; 13064; 13297], [13519; 13520; 13521]); ([13422; 13067; 13302], [13522; 13523; 13524]); ([13422; 13070; 13307], [13525; 13526; 13527]); ([13422; 13073; 13312], [13528; 13529; 13530]); ([13422; 13076; 13317], [13531; 13532; 13533]); ([13422; 13079; 13322], [13534; 13535; 13536]); ([13422; 13082; 13327], [13537; 13538; 13539]); ([13422; 13085; 13332], [13540; 13541; 13542]); ([13422; 13088; 13337], [13543; 13544; 13545]); ([13422; 13091; 13342], [13546; 13547; 13548]); ([13422; 13094; 13347], [13549; 13550; 13551]); ([13422; 13097; 13352], [13552; 13553; 13554]); ([13422; 13100; 13357], [13555; 13556; 13557]); ([13422; 13103; 13362], [13558; 13559; 13560]); ([13422; 13106; 13367], [13561; 13562; 13563]); ([13422; 13109; 13372], [13564; 13565; 13566]); ([13422; 13112; 13377], [13567; 13568; 13569]); ([13422; 13115; 13382], [13570; 13571; 13572]); ([13422; 13118; 13387], [13573; 13574; 13575]); ([13422; 13121; 13392], [13576; 13577; 13578]); ([13422; 13124; 13397], [13579; 13580; 13581]); ([13422; 13127; 13402], [13582; 13583; 13584]); ([13422; 13130; 13407], [13585; 13586; 13587]); ([13422; 13133; 13412], [13588; 13589; 13590]); ([13422; 13136; 13417], [13591; 13592; 13593])].
Definition udivide64_stage_57 : ustage := UStage
   [Cell ([6; 64], [13595; 13596]) (Some (LW 13595)) (Some (LW 13596));
    Cell ([13425; 65; 13596], [13597; 13599; 13598; 13600; 13601]) (Some (LW 13599)) (Some (LW 13601));
    Cell ([13428; 66; 13601], [13602; 13604; 13603; 13605; 13606]) (Some (LW 13604)) (Some (LW 13606));
    Cell ([13431; 67; 13606], [13607; 13609; 13608; 13610; 13611]) (Some (LW 13609)) (Some (LW 13611));
    Cell ([13434; 68; 13611], [13612; 13614; 13613; 13615; 13616]) (Some (LW 13614)) (Some (LW 13616));
    Cell ([13437; 69; 13616], [13617; 13619; 13618; 13620; 13621]) (Some (LW 13619)) (Some (LW 13621));
    Cell ([13440; 70; 13621], [13622; 13624; 13623; 13625; 13626]) (Some (LW 13624)) (Some (LW 13626));
    Cell ([13443; 71; 13626], [13627; 13629; 13628; 13630; 13631]) (Some (LW 13629)) (Some (LW 13631));
    Cell ([13446; 72; 13631], [13632; 13634; 13633; 13635; 13636]) (Some (LW 13634)) (Some (LW 13636));
    Cell ([13449; 73; 13636], [13637; 13639; 13638; 13640; 13641]) (Some (LW 13639)) (Some (LW 13641));
    Cell ([13452; 74; 13641], [13642; 13644; 13643; 13645; 13646]) (Some (LW 13644)) (Some (LW 13646));
    Cell ([13455; 75; 13646], [13647; 13649; 13648; 13650; 13651]) (Some (LW 13649)) (Some (LW 13651));
    Cell ([13458; 76; 13651], [13652; 13654; 13653; 13655; 13656]) (Some (LW 13654)) (Some (LW 13656));
    Cell ([13461; 77; 13656], [13657; 13659; 13658; 13660; 13661]) (Some (LW 13659)) (Some (LW 13661));
    Cell ([13464; 78; 13661], [13662; 13664; 13663; 13665; 13666]) (Some (LW 13664)) (Some (LW 13666));
    Cell ([13467; 79; 13666], [13667; 13669; 13668; 13670; 13671]) (Some (LW 13669)) (Some (LW 13671));
    Cell ([13470; 80; 13671], [13672; 13674; 13673; 13675; 13676]) (Some (LW 13674)) (Some (LW 13676));
    Cell ([13473; 81; 13676], [13677; 13679; 13678; 13680; 13681]) (Some (LW 13679)) (Some (LW 13681));
    Cell ([13476; 82; 13681], [13682; 13684; 13683; 13685; 13686]) (Some (LW 13684)) (Some (LW 13686));
    Cell ([13479; 83; 13686], [13687; 13689; 13688; 13690; 13691]) (Some (LW 13689)) (Some (LW 13691));
    Cell ([13482; 84; 13691], [13692; 13694; 13693; 13695; 13696]) (Some (LW 13694)) (Some (LW 13696));
    Cell ([13485; 85; 13696], [13697; 13699; 13698; 13700; 13701]) (Some (LW 13699)) (Some (LW 13701));
    Cell ([13488; 86; 13701], [13702; 13704; 13703; 13705; 13706]) (Some (LW 13704)) (Some (LW 13706));
    Cell ([13491; 87; 13706], [13707; 13709; 13708; 13710; 13711]) (Some (LW 13709)) (Some (LW 13711));
    Cell ([13494; 88; 13711], [13712; 13714; 13713; 13715; 13716]) (Some (LW 13714)) (Some (LW 13716));
    Cell ([13497; 89; 13716], [13717; 13719; 13718; 13720; 13721]) (Some (LW 13719)) (Some (LW 13721));
    Cell ([13500; 90; 13721], [13722; 13724; 13723; 13725; 13726]) (Some (LW 13724)) (Some (LW 13726));
    Cell ([13503; 91; 13726], [13727; 13729; 13728; 13730; 13731]) (Some (LW 13729)) (Some (LW 13731));
    Cell ([13506; 92; 13731], [13732; 13734; 13733; 13735; 13736]) (Some (LW 13734)) (Some (LW 13736));
    Cell ([13509; 93; 13736], [13737; 13739; 13738; 13740; 13741]) (Some (LW 13739)) (Some (LW 13741));
    Cell ([13512; 94; 13741], [13742; 13744; 13743; 13745; 13746]) (Some (LW 13744)) (Some (LW 13746));
    Cell ([13515; 95; 13746], [13747; 13749; 13748; 13750; 13751]) (Some (LW 13749)) (Some (LW 13751));
    Cell ([13518; 96; 13751], [13752; 13754; 13753; 13755; 13756]) (Some (LW 13754)) (Some (LW 13756));
    Cell ([13521; 97; 13756], [13757; 13759; 13758; 13760; 13761]) (Some (LW 13759)) (Some (LW 13761));
    Cell ([13524; 98; 13761], [13762; 13764; 13763; 13765; 13766]) (Some (LW 13764)) (Some (LW 13766));
    Cell ([13527; 99; 13766], [13767; 13769; 13768; 13770; 13771]) (Some (LW 13769)) (Some (LW 13771));
    Cell ([13530; 100; 13771], [13772; 13774; 13773; 13775; 13776]) (Some (LW 13774)) (Some (LW 13776));
    Cell ([13533; 101; 13776], [13777; 13779; 13778; 13780; 13781]) (Some (LW 13779)) (Some (LW 13781));
    Cell ([13536; 102; 13781], [13782; 13784; 13783; 13785; 13786]) (Some (LW 13784)) (Some (LW 13786));
    Cell ([13539; 103; 13786], [13787; 13789; 13788; 13790; 13791]) (Some (LW 13789)) (Some (LW 13791));
    Cell ([13542; 104; 13791], [13792; 13794; 13793; 13795; 13796]) (Some (LW 13794)) (Some (LW 13796));
    Cell ([13545; 105; 13796], [13797; 13799; 13798; 13800; 13801]) (Some (LW 13799)) (Some (LW 13801));
    Cell ([13548; 106; 13801], [13802; 13804; 13803; 13805; 13806]) (Some (LW 13804)) (Some (LW 13806));
    Cell ([13551; 107; 13806], [13807; 13809; 13808; 13810; 13811]) (Some (LW 13809)) (Some (LW 13811));
    Cell ([13554; 108; 13811], [13812; 13814; 13813; 13815; 13816]) (Some (LW 13814)) (Some (LW 13816));
    Cell ([13557; 109; 13816], [13817; 13819; 13818; 13820; 13821]) (Some (LW 13819)) (Some (LW 13821));
    Cell ([13560; 110; 13821], [13822; 13824; 13823; 13825; 13826]) (Some (LW 13824)) (Some (LW 13826));
    Cell ([13563; 111; 13826], [13827; 13829; 13828; 13830; 13831]) (Some (LW 13829)) (Some (LW 13831));
    Cell ([13566; 112; 13831], [13832; 13834; 13833; 13835; 13836]) (Some (LW 13834)) (Some (LW 13836));
    Cell ([13569; 113; 13836], [13837; 13839; 13838; 13840; 13841]) (Some (LW 13839)) (Some (LW 13841));
    Cell ([13572; 114; 13841], [13842; 13844; 13843; 13845; 13846]) (Some (LW 13844)) (Some (LW 13846));
    Cell ([13575; 115; 13846], [13847; 13849; 13848; 13850; 13851]) (Some (LW 13849)) (Some (LW 13851));
    Cell ([13578; 116; 13851], [13852; 13854; 13853; 13855; 13856]) (Some (LW 13854)) (Some (LW 13856));
    Cell ([13581; 117; 13856], [13857; 13859; 13858; 13860; 13861]) (Some (LW 13859)) (Some (LW 13861));
    Cell ([13584; 118; 13861], [13862; 13864; 13863; 13865; 13866]) (Some (LW 13864)) (Some (LW 13866));
    Cell ([13587; 119; 13866], [13867; 13869; 13868; 13870; 13871]) (Some (LW 13869)) (Some (LW 13871));
    Cell ([13590; 120; 13871], [13872; 13874; 13873; 13875; 13876]) (Some (LW 13874)) (Some (LW 13876));
    Cell ([13593; 121; 13876], [13877; 13879; 13878; 13880; 13881]) (Some (LW 13879)) (Some (LW 13881))]
   ([13881; 142], [13883; 13882; 13884]) 13884 14059
   [13887; 13890; 13893; 13896; 13899; 13902; 13905; 13908; 13911; 13914; 13917; 13920; 13923; 13926; 13929; 13932; 13935; 13938; 13941; 13944; 13947; 13950; 13953; 13956; 13959; 13962; 13965; 13968; 13971; 13974; 13977; 13980; 13983; 13986; 13989; 13992; 13995; 13998; 14001; 14004; 14007; 14010; 14013; 14016; 14019; 14022; 14025; 14028; 14031; 14034; 14037; 14040; 14043; 14046; 14049; 14052; 14055; 14058]
   [([13884; 6; 13595], [13885; 13886; 13887]); ([13884; 13425; 13599], [13888; 13889; 13890]); ([13884; 13428; 13604], [13891; 13892; 13893]); ([13884; 13431; 13609], [13894; 13895; 13896]); ([13884; 13434; 13614], [13897; 13898; 13899]); ([13884; 13437; 13619], [13900; 13901; 13902]); ([13884; 13440; 13624], [13903; 13904; 13905]); ([13884; 13443; 13629], [13906; 13907; 13908]); ([13884; 13446; 13634], [13909; 13910; 13911]); ([13884; 13449; 13639], [13912; 13913; 13914]); ([13884; 13452; 13644], [13915; 13916; 13917]); ([13884; 13455; 13649], [13918; 13919; 13920]); ([13884; 13458; 13654], [13921; 13922; 13923]); ([13884; 13461; 13659], [13924; 13925; 13926]); ([13884; 13464; 13664], [13927; 13928; 13929]); ([13884; 13467; 13669], [13930; 13931; 13932]); ([13884; 13470; 13674], [13933; 13934; 13935]); ([13884; 13473; 13679], [13936; 13937; 13938]); ([13884; 13476; 13684], [13939; 13940; 13941]); ([13884; 13479; 13689], [13942; 13943; 13944]); ([13884; 13482; 13694], [13945; 13946; 13947]); ([13884; 13485; 13699], [13948; 13949; 13950]); ([13884; 13488; 13704], [13951; 13952; 13953]); ([13884; 13491; 13709], [13954; 13955; 13956]); ([13884; 13494; 13714], [13957; 13958; 13959]); ([13884; 13497; 13719], [13960; 13961; 13962]); ([13884; 13500; 13724], [13963; 13964; 13965]); ([13884; 13503; 13729], [13966; 13967; 13968]); ([13884; 13506; 13734], [13969; 13970; 13971]); ([13884; 13509; 13739], [13972; 13973; 13974]); ([13884; 13512; 13744], [13975; 13976; 13977]); ([13884; 13515; 13749], [13978; 13979; 13980]); ([13884; 13518; 13754], [13981; 13982; 13983]); ([13884; 13521; 13759], [13984; 13985; 13986]); ([13884; 13524; 13764], [13987; 13988; 13989]); ([13884; 13527; 13769], [13990; 13991; 13992]); ([13884; 13530; 13774], [13993; 13994; 13995]); ([13884; 13533; 13779], [13996; 13997; 13998]); ([13884; 13536; 13784], [13999; 14000; 14001]); ([13884; 13539; 13789], [14002; 14003; 14004]); ([13884; 13542; 13794], [14005; 14006; 14007]); ([13884; 13545; 13799], [14008; 14009; 14010]); ([13884; 13548; 13804], [14011; 14012; 14013]); ([13884; 13551; 13809], [14014; 14015; 14016]); ([13884; 13554; 13814], [14017; 14018; 14019]); ([13884; 13557; 13819], [14020; 14021; 14022]); ([13884; 13560; 13824], [14023; 14024; 14025]); ([13884; 13563; 13829], [14026; 14027; 14028]); ([13884; 13566; 13834], [14029; 14030; 14031]); ([13884; 13569; 13839], [14032; 14033; 14034]); ([13884; 13572; 13844], [14035; 14036; 14037]); ([13884; 13575; 13849], [14038; 14039; 14040]); ([13884; 13578; 13854], [14041; 14042; 14043]); ([13884; 13581; 13859], [14044; 14045; 14046]); ([13884; 13584; 13864], [14047; 14048; 14049]); ([13884; 13587; 13869], [14050; 14051; 14052]); ([13884; 13590; 13874], [14053; 14054; 14055]); ([13884; 13593; 13879], [14056; 14057; 14058])].
Definition udivide64_stage_58 : ustage := UStage
   [Cell ([5; 64], [14060; 14061]) (Some (LW 14060)) (Some (LW 14061));
    Cell ([13887; 65; 14061], [14062; 14064; 14063; 14065; 14066]) (Some (LW 14064)) (Some (LW 14066));
    Cell ([13890; 66; 14066], [14067; 14069; 14068; 14070; 14071]) (Some (LW 14069)) (Some (LW 14071));
    Cell ([13893; 67; 14071], [14072; 14074; 14073; 14075; 14076]) (Some (LW 14074)) (Some (LW 14076));
    Cell ([13896; 68; 14076], [14077; 14079; 14078; 14080; 14081]) (Some (LW 14079)) (Some (LW 14081));
    Cell ([13899; 69; 14081], [14082; 14084; 14083; 14085; 14086]) (Some (LW 14084)) (Some (LW 14086));
    Cell ([13902; 70; 14086], [14087; 14089; 14088; 14090; 14091]) (Some (LW 14089)) (Some (LW 14091));
    Cell ([13905; 71; 14091], [14092; 14094; 14093; 14095; 14096]) (Some (LW 14094)) (Some (LW 14096));
    Cell ([13908; 72; 14096], [14097; 14099; 14098; 14100; 14101]) (Some (LW 14099)) (Some (LW 14101));
    Cell ([13911; 73; 14101], [14102; 14104; 14103; 14105; 14106]) (Some (LW 14104)) (Some (LW 14106));
    Cell ([13914; 74; 14106], [14107; 14109; 14108; 14110; 14111]) (Some (LW 14109)) (Some (LW 14111));
    Cell ([13917; 75; 14111], [14112; 14114; 14113; 14115; 14116]) (Some (LW 14114)) (Some (LW 14116));
    Cell ([13920; 76; 14116], [14117; 14119; 14118; 14120; 14121]) (Some (LW 14119)) (Some (LW 14121));
    Cell ([13923; 77; 14121], [14122; 14124; 14123; 14125; 14126]) (Some (LW 14124)) (Some (LW 14126));
    Cell ([13926; 78; 14126], [14127; 14129; 14128; 14130; 14131]) (Some (LW 14129)) (Some (LW 14131));
    Cell ([13929; 79; 14131], [14132; 14134; 14133; 14135; 14136]) (Some (LW 14134)) (Some (LW 14136));
    Cell ([13932; 80; 14136], [14137; 14139; 14138; 14140; 14141]) (Some (LW 14139)) (Some (LW 14141));
    Cell ([13935; 81; 14141], [14142; 14144; 14143; 14145; 14146]) (Some (LW 14144)) (Some (LW 14146));
    Cell ([13938; 82; 14146], [14147; 14149; 14148; 14150; 14151]) (Some (LW 14149)) (Some (LW 14151));
    Cell ([13941; 83; 14151], [14152; 14154; 14153; 14155; 14156]) (Some (LW 14154)) (Some (LW 14156));
    Cell ([13944; 84; 14156], [14157; 14159; 14158; 14160; 14161]) (Some (LW 14159)) (Some (LW 14161));
    Cell ([13947; 85; 14161], [14162; 14164; 14163; 14165; 14166]) (Some (LW 14164)) (Some (LW 14166));
    Cell ([13950; 86; 14166], [14167; 14169; 14168; 14170; 14171]) (Some (LW 14169)) (Some (LW 14171));
    Cell ([13953; 87; 14171], [14172; 14174; 14173; 14175; 14176]) (Some (LW 14174)) (Some (LW 14176));
    Cell ([13956; 88; 14176], [14177; 14179; 14178; 14180; 14181]) (Some (LW 14179)) (Some (LW 14181));
    Cell ([13959; 89; 14181], [14182; 14184; 14183; 14185; 14186]) (Some (LW 14184)) (Some (LW 14186));
    Cell ([13962; 90; 14186], [14187; 14189; 14188; 14190; 14191]) (Some (LW 14189)) (Some (LW 14191));
    Cell ([13965; 91; 14191], [14192; 14194; 14193; 14195; 14196]) (Some (LW 14194)) (Some (LW 14196));
    Cell ([13968; 92; 14196], [14197; 14199; 14198; 14200; 14201]) (Some (LW 14199)) (Some (LW 14201));
    Cell ([13971; 93; 14201], [14202; 14204; 14203; 14205; 14206]) (Some (LW 14204)) (Some (LW 14206));
    Cell ([13974; 94; 14206], [14207; 14209; 14208; 14210; 14211]) (Some (LW 14209)) (Some (LW 14211));
    Cell ([13977; 95; 14211], [14212; 14214; 14213; 14215; 14216]) (Some (LW 14214)) (Some (LW 14216));
    Cell ([13980; 96; 14216], [14217; 14219; 14218; 14220; 14221]) (Some (LW 14219)) (Some (LW 14221));
    Cell ([13983; 97; 14221], [14222; 14224; 14223; 14225; 14226]) (Some (LW 14224)) (Some (LW 14226));
    Cell ([13986; 98; 14226], [14227; 14229; 14228; 14230; 14231]) (Some (LW 14229)) (Some (LW 14231));
    Cell ([13989; 99; 14231], [14232; 14234; 14233; 14235; 14236]) (Some (LW 14234)) (Some (LW 14236));
    Cell ([13992; 100; 14236], [14237; 14239; 14238; 14240; 14241]) (Some (LW 14239)) (Some (LW 14241));
    Cell ([13995; 101; 14241], [14242; 14244; 14243; 14245; 14246]) (Some (LW 14244)) (Some (LW 14246));
    Cell ([13998; 102; 14246], [14247; 14249; 14248; 14250; 14251]) (Some (LW 14249)) (Some (LW 14251));
    Cell ([14001; 103; 14251], [14252; 14254; 14253; 14255; 14256]) (Some (LW 14254)) (Some (LW 14256));
    Cell ([14004; 104; 14256], [14257; 14259; 14258; 14260; 14261]) (Some (LW 14259)) (Some (LW 14261));
    Cell ([14007; 105; 14261], [14262; 14264; 14263; 14265; 14266]) (Some (LW 14264)) (Some (LW 14266));
    Cell ([14010; 106; 14266], [14267; 14269; 14268; 14270; 14271]) (Some (LW 14269)) (Some (LW 14271));
    Cell ([14013; 107; 14271], [14272; 14274; 14273; 14275; 14276]) (Some (LW 14274)) (Some (LW 14276));
    Cell ([14016; 108; 14276], [14277; 14279; 14278; 14280; 14281]) (Some (LW 14279)) (Some (LW 14281));
    Cell ([14019; 109; 14281], [14282; 14284; 14283; 14285; 14286]) (Some (LW 14284)) (Some (LW 14286));
    Cell ([14022; 110; 14286], [14287; 14289; 14288; 14290; 14291]) (Some (LW 14289)) (Some (LW 14291));
    Cell ([14025; 111; 14291], [14292; 14294; 14293; 14295; 14296]) (Some (LW 14294)) (Some (LW 14296));
    Cell ([14028; 112; 14296], [14297; 14299; 14298; 14300; 14301]) (Some (LW 14299)) (Some (LW 14301));
    Cell ([14031; 113; 14301], [14302; 14304; 14303; 14305; 14306]) (Some (LW 14304)) (Some (LW 14306));
    Cell ([14034; 114; 14306], [14307; 14309; 14308; 14310; 14311]) (Some (LW 14309)) (Some (LW 14311));
    Cell ([14037; 115; 14311], [14312; 14314; 14313; 14315; 14316]) (Some (LW 14314)) (Some (LW 14316));
    Cell ([14040; 116; 14316], [14317; 14319; 14318; 14320; 14321]) (Some (LW 14319)) (Some (LW 14321));
    Cell ([14043; 117; 14321], [14322; 14324; 14323; 14325; 14326]) (Some (LW 14324)) (Some (LW 14326));
    Cell ([14046; 118; 14326], [14327; 14329; 14328; 14330; 14331]) (Some (LW 14329)) (Some (LW 14331));
    Cell ([14049; 119; 14331], [14332; 14334; 14333; 14335; 14336]) (Some (LW 14334)) (Some (LW 14336));
    Cell ([14052; 120; 14336], [14337; 14339; 14338; 14340; 14341]) (Some (LW 14339)) (Some (LW 14341));
    Cell ([14055; 121; 14341], [14342; 14344; 14343; 14345; 14346]) (Some (LW 14344)) (Some (LW 14346));
    Cell ([14058; 122; 14346], [14347; 14349; 14348; 14350; 14351]) (Some (LW 14349)) (Some (LW 14351))]
   ([14351; 139], [14353; 14352; 14354]) 14354 14532
   [14357; 14360; 14363; 14366; 14369; 14372; 14375; 14378; 14381; 14384; 14387; 14390; 14393; 14396; 14399; 14402; 14405; 14408; 14411; 14414; 14417; 14420; 14423; 14426; 14429; 14432; 14435; 14438; 14441; 14444; 14447; 14450; 14453; 14456; 14459; 14462; 14465; 14468; 14471; 14474; 14477; 14480; 14483; 14486; 14489; 14492; 14495; 14498; 14501; 14504; 14507; 14510; 14513; 14516; 14519; 14522; 14525; 14528; 14531]
   [([14354; 5; 14060], [14355; 14356; 14357]); ([14354; 13887; 14064], [14358; 14359; 14360]); ([14354; 13890; 14069], [14361; 14362; 14363]); ([14354; 13893; 14074], [14364; 14365; 14366]); ([14354; 13896; 14079], [14367; 14368; 14369]); ([14354; 13899; 14084], [14370; 14371; 14372]); ([14354; 13902; 14089], [14373; 14374; 14375]); ([14354; 13905; 14094], [14376; 14377; 14378]); ([14354; 13908; 14099], [14379; 14380; 14381]); ([14354; 13911; 14104], [14382; 14383; 14384]); ([14354; 13914; 14109], [14385; 14386; 14387]); ([14354; 13917; 14114], [14388; 14389; 14390]); ([14354; 13920; 14119], [14391; 14392; 14393]); ([14354; 13923; 14124], [14394; 14395; 14396]); ([14354; 13926; 14129], [14397; 14398; 14399]); ([14354; 13929; 14134], [14400; 14401; 14402]); ([14354; 13932; 14139], [14403; 14404; 14405]); ([14354; 13935; 14144], [14406; 14407; 14408]); ([14354; 13938; 14149], [14409; 14410; 14411]); ([14354; 13941; 14154], [14412; 14413; 14414]); ([14354; 13944; 14159], [14415; 14416; 14417]); ([14354; 13947; 14164], [14418; 14419; 14420]); ([14354; 13950; 14169], [14421; 14422; 14423]); ([14354; 13953; 14174], [14424; 14425; 14426]); ([14354; 13956; 14179], [14427; 14428; 14429]); ([14354; 13959; 14184], [14430; 14431; 14432]); ([14354; 13962; 14189], [14433; 14434; 14435]); ([14354; 13965; 14194], [14436; 14437; 14438]); ([14354; 13968; 14199], [14439; 14440; 14441]); ([14354; 13971; 14204], [14442; 14443; 14444]); ([14354; 13974; 14209], [14445; 14446; 14447]); ([14354; 13977; 14214], [14448; 14449; 14450]); ([14354; 13980; 14219], [14451; 14452; 14453]); ([14354; 13983; 14224], [14454; 14455; 14456]); ([14354; 13986; 14229], [14457; 14458; 14459]); ([14354; 13989; 14234], [14460; 14461; 14462]); ([14354; 13992; 14239], [14463; 14464; 14465]); ([14354; 13995; 14244], [14466; 14467; 14468]); ([14354; 13998; 14249], [14469; 14470; 14471]); ([14354; 14001; 14254], [14472; 14473; 14474]); ([14354; 14004; 14259], [14475; 14476; 14477]); ([14354; 14007; 14264], [14478; 14479; 14480]); ([14354; 14010; 14269], [14481; 14482; 14483]); ([14354; 14013; 14274], [14484; 14485; 14486]); ([14354; 14016; 14279], [14487; 14488; 14489]); ([14354; 14019; 14284], [14490; 14491; 14492]); ([14354; 14022; 14289], [14493; 14494; 14495]); ([14354; 14025; 14294], [14496; 14497; 14498]); ([14354; 14028; 14299], [14499; 14500; 14501]); ([14354; 14031; 14304], [14502; 14503; 14504]); ([14354; 14034; 14309], [14505; 14506; 14507]); ([14354; 14037; 14314], [14508; 14509; 14510]); ([14354; 14040; 14319], [14511; 14512; 14513]); ([14354; 14043; 14324], [14514; 14515; 14516]); ([14354; 14046; 14329], [14517; 14518; 14519]); ([14354; 14049; 14334], [14520; 14521; 14522]); ([14354; 14052; 14339], [14523; 14524; 14525]); ([14354; 14055; 14344], [14526; 14527; 14528]); ([14354; 14058; 14349], [14529; 14530; 14531])].
Definition udivide64_stage_59 : ustage := UStage
   [Cell ([4; 64], [14533; 14534]) (Some (LW 14533)) (Some (LW 14534));
    Cell ([14357; 65; 14534], [14535; 14537; 14536; 14538; 14539]) (Some (LW 14537)) (Some (LW 14539));
    Cell ([14360; 66; 14539], [14540; 14542; 14541; 14543; 14544]) (Some (LW 14542)) (Some (LW 14544));
    Cell ([14363; 67; 14544], [14545; 14547; 14546; 14548; 14549]) (Some (LW 14547)) (Some (LW 14549));
    Cell ([14366; 68; 14549], [14550; 14552; 14551; 14553; 14554]) (Some (LW 14552)) (Some (LW 14554));
    Cell ([14369; 69; 14554], [14555; 14557; 14556; 14558; 14559]) (Some (LW 14557)) (Some (LW 14559));
    Cell ([14372; 70; 14559], [14560; 14562; 14561; 14563; 14564]) (Some (LW 14562)) (Some (LW 14564));
    Cell ([14375; 71; 14564], [14565; 14567; 14566; 14568; 14569]) (Some (LW 14567)) (Some (LW 14569));
    Cell ([14378; 72; 14569], [14570; 14572; 14571; 14573; 14574]) (Some (LW 14572)) (Some (LW 14574));
    Cell ([14381; 73; 14574], [14575; 14577; 14576; 14578; 14579]) (Some (LW 14577)) (Some (LW 14579));
    Cell ([14384; 74; 14579], [14580; 14582; 14581; 14583; 14584]) (Some (LW 14582)) (Some (LW 14584));
    Cell ([14387; 75; 14584], [14585; 14587; 14586; 14588; 14589]) (Some (LW 14587)) (Some (LW 14589));
    Cell ([14390; 76; 14589], [14590; 14592; 14591; 14593; 14594]) (Some (LW 14592)) (Some (LW 14594));
    Cell ([14393; 77; 14594], [14595; 14597; 14596; 14598; 14599]) (Some (LW 14597)) (Some (LW 14599));
    Cell ([14396; 78; 14599], [14600; 14602; 14601; 14603; 14604]) (Some (LW 14602)) (Some (LW 14604));
    Cell ([14399; 79; 14604], [14605; 14607; 14606; 14608; 14609]) (Some (LW 14607)) (Some (LW 14609));
    Cell ([14402; 80; 14609], [14610; 14612; 14611; 14613; 14614]) (Some (LW 14612)) (Some (LW 14614));
    Cell ([14405; 81; 14614], [14615; 14617; 14616; 14618; 14619]) (Some (LW 14617)) (Some (LW 14619));
    Cell ([14408; 82; 14619], [14620; 14622; 14621; 14623; 14624]) (Some (LW 14622)) (Some (LW 14624));
    Cell ([14411; 83; 14624], [14625; 14627; 14626; 14628; 14629]) (Some (LW 14627)) (Some (LW 14629));
    Cell ([14414; 84; 14629], [14630; 14632; 14631; 14633; 14634]) (Some (LW 14632)) (Some (LW 14634));
    Cell ([14417; 85; 14634], [14635; 14637; 14636; 14638; 14639]) (Some (LW 14637)) (Some (LW 14639));
    Cell ([14420; 86; 14639], [14640; 14642; 14641; 14643; 14644]) (Some (LW 14642)) (Some (LW 14644));
    Cell ([14423; 87; 14644], [14645; 14647; 14646; 14648; 14649]) (Some (LW 14647)) (Some (LW 14649));
    Cell ([14426; 88; 14649], [14650; 14652; 14651; 14653; 14654]) (Some (LW 14652)) (Some (LW 14654));
    Cell ([14429; 89; 14654], [14655; 14657; 14656; 14658; 14659]) (Some (LW 14657)) (Some (LW 14659));
    Cell ([14432; 90; 14659], [14660; 14662; 14661; 14663; 14664]) (Some (LW 14662)) (Some (LW 14664));
    Cell ([14435; 91; 14664], [14665; 14667; 14666; 14668; 14669]) (Some (LW 14667)) (Some (LW 14669));
    Cell ([14438; 92; 14669], [14670; 14672; 14671; 14673; 14674]) (Some (LW 14672)) (Some (LW 14674));
    Cell ([14441; 93; 14674], [14675; 14677; 14676; 14678; 14679]) (Some (LW 14677)) (Some (LW 14679));
    Cell ([14444; 94; 14679], [14680; 14682; 14681; 14683; 14684]) (Some (LW 14682)) (Some (LW 14684));
    Cell ([14447; 95; 14684], [14685; 14687; 14686; 14688; 14689]) (Some (LW 14687)) (Some (LW 14689));
    Cell ([14450; 96; 14689], [14690; 14692; 14691; 14693; 14694]) (Some (LW 14692)) (Some (LW 14694));
    Cell ([14453; 97; 14694], [14695; 14697; 14696; 14698; 14699]) (Some (LW 14697)) (Some (LW 14699));
    Cell ([14456; 98; 14699], [14700; 14702; 14701; 14703; 14704]) (Some (LW 14702)) (Some (LW 14704));
    Cell ([14459; 99; 14704], [14705; 14707; 14706; 14708; 14709]) (Some (LW 14707)) (Some (LW 14709));
    Cell ([14462; 100; 14709], [14710; 14712; 14711; 14713; 14714]) (Some (LW 14712)) (Some (LW 14714));
    Cell ([14465; 101; 14714], [14715; 14717; 14716; 14718; 14719]) (Some (LW 14717)) (Some (LW 14719));
    Cell ([14468; 102; 14719], [14720; 14722; 14721; 14723; 14724]) (Some (LW 14722)) (Some (LW 14724));
    Cell ([14471; 103; 14724], [14725; 14727; 14726; 14728; 14729]) (Some (LW 14727)) (Some (LW 14729));
    Cell ([14474; 104; 14729], [14730; 14732; 14731; 14733; 14734]) (Some (LW 14732)) (Some (LW 14734));
    Cell ([14477; 105; 14734], [14735; 14737; 14736; 14738; 14739]) (Some (LW 14737)) (Some (LW 14739));
    Cell ([14480; 106; 14739], [14740; 14742; 14741; 14743; 14744]) (Some (LW 14742)) (Some (LW 14744));
    Cell ([14483; 107; 14744], [14745; 14747; 14746; 14748; 14749]) (Some (LW 14747)) (Some (LW 14749));
    Cell ([14486; 108; 14749], [14750; 14752; 14751; 14753; 14754]) (Some (LW 14752)) (Some (LW 14754));
    Cell ([14489; 109; 14754], [14755; 14757; 14756; 14758; 14759]) (Some (LW 14757)) (Some (LW 14759));
    Cell ([14492; 110; 14759], [14760; 14762; 14761; 14763; 14764]) (Some (LW 14762)) (Some (LW 14764));
    Cell ([14495; 111; 14764], [14765; 14767; 14766; 14768; 14769]) (Some (LW 14767)) (Some (LW 14769));
    Cell ([14498; 112; 14769], [14770; 14772; 14771; 14773; 14774]) (Some (LW 14772)) (Some (LW 14774));
    Cell ([14501; 113; 14774], [14775; 14777; 14776; 14778; 14779]) (Some (LW 14777)) (Some (LW 14779));
    Cell ([14504; 114; 14779], [14780; 14782; 14781; 14783; 14784]) (Some (LW 14782)) (Some (LW 14784));
    Cell ([14507; 115; 14784], [14785; 14787; 14786; 14788; 14789]) (Some (LW 14787)) (Some (LW 14789));
    Cell ([14510; 116; 14789], [14790; 14792; 14791; 14793; 14794]) (Some (LW 14792)) (Some (LW 14794));
    Cell ([14513; 117; 14794], [14795; 14797; 14796; 14798; 14799]) (Some (LW 14797)) (Some (LW 14799));
    Cell ([14516; 118; 14799], [14800; 14802; 14801; 14803; 14804]) (Some (LW 14802)) (Some (LW 14804));
    Cell ([14519; 119; 14804], [14805; 14807; 14806; 14808; 14809]) (Some (LW 14807)) (Some (LW 14809));
    Cell ([14522; 120; 14809], [14810; 14812; 14811; 14813; 14814]) (Some (LW 14812)) (Some (LW 14814));
    Cell ([14525; 121; 14814], [14815; 14817; 14816; 14818; 14819]) (Some (LW 14817)) (Some (LW 14819));
    Cell ([14528; 122; 14819], [14820; 14822; 14821; 14823; 14824]) (Some (LW 14822)) (Some (LW 14824));
    Cell ([14531; 123; 14824], [14825; 14827; 14826; 14828; 14829]) (Some (LW 14827)) (Some (LW 14829))]
   ([14829; 136], [14831; 14830; 14832]) 14832 15013
   [14835; 14838; 14841; 14844; 14847; 14850; 14853; 14856; 14859; 14862; 14865; 14868; 14871; 14874; 14877; 14880; 14883; 14886; 14889; 14892; 14895; 14898; 14901; 14904; 14907; 14910; 14913; 14916; 14919; 14922; 14925; 14928; 14931; 14934; 14937; 14940; 14943; 14946; 14949; 14952; 14955; 14958; 14961; 14964; 14967; 14970; 14973; 14976; 14979; 14982; 14985; 14988; 14991; 14994; 14997; 15000; 15003; 15006; 15009; 15012]
   [([14832; 4; 14533], [14833; 14834; 14835]); ([14832; 14357; 14537], [14836; 14837; 14838]); ([14832; 14360; 14542], [14839; 14840; 14841]); ([14832; 14363; 14547], [14842; 14843; 14844]); ([14832; 14366; 14552], [14845; 14846; 14847]); ([14832; 14369; 14557], [14848; 14849; 14850]); ([14832; 14372; 14562], [14851; 14852; 14853]); ([14832; 14375; 14567], [14854; 14855; 14856]); ([14832; 14378; 14572], [14857; 14858; 14859]); ([14832; 14381; 14577], [14860; 14861; 14862]); ([14832; 14384; 14582], [14863; 14864; 14865]); ([14832; 14387; 14587], [14866; 14867; 14868]); ([14832; 14390; 14592], [14869; 14870; 14871]); ([14832; 14393; 14597], [14872; 14873; 14874]); ([14832; 14396; 14602], [14875; 14876; 14877]); ([14832; 14399; 14607], [14878; 14879; 14880]); ([14832; 14402; 14612], [14881; 14882; 14883]); ([14832; 14405; 14617], [14884; 14885; 14886]); ([14832; 14408; 14622], [14887; 14888; 14889]); ([14832; 14411; 14627], [14890; 14891; 14892]); ([14832; 14414; 14632], [14893; 14894; 14895]); ([14832; 14417; 14637], [14896; 14897; 14898]); ([14832; 14420; 14642], [14899; 14900; 14901]); ([14832; 14423; 14647], [14902; 14903; 14904]); ([14832; 14426; 14652], [14905; 14906; 14907]); ([14832; 14429; 14657], [14908; 14909; 14910]); ([14832; 14432; 14662], [14911; 14912; 14913]); ([14832; 14435; 14667], [14914; 14915; 14916]); ([14832; 14438; 14672], [14917; 14918; 14919]); ([14832; 14441; 14677], [14920; 14921; 14922]); ([14832; 14444; 14682], [14923; 14924; 14925]); ([14832; 14447; 14687], [14926; 14927; 14928]); ([14832; 14450; 14692], [14929; 14930; 14931]); ([14832; 14453; 14697], [14932; 14933; 14934]); ([14832; 14456; 14702], [14935; 14936; 14937]); ([14832; 14459; 14707], [14938; 14939; 14940]); ([14832; 14462; 14712], [14941; 14942; 14943]); ([14832; 14465; 14717], [14944; 14945; 14946]); ([14832; 14468; 14722], [14947; 14948; 14949]); ([14832; 14471; 14727], [14950; 14951; 14952]); ([14832; 14474; 14732], [14953; 14954; 14955]); ([14832; 14477; 14737], [14956; 14957; 14958]); ([14832; 14480; 14742], [14959; 14960; 14961]); ([14832; 14483; 14747], [14962; 14963; 14964]); ([14832; 14486; 14752], [14965; 14966; 14967]); ([14832; 14489; 14757], [14968; 14969; 14970]); ([14832; 14492; 14762], [14971; 14972; 14973]); ([14832; 14495; 14767], [14974; 14975; 14976]); ([14832; 14498; 14772], [14977; 14978; 14979]); ([14832; 14501; 14777], [14980; 14981; 14982]); ([14832; 14504; 14782], [14983; 14984; 14985]); ([14832; 14507; 14787], [14986; 14987; 14988]); ([14832; 14510; 14792], [14989; 14990; 14991]); ([14832; 14513; 14797], [14992; 14993; 14994]); ([14832; 14516; 14802], [14995; 14996; 14997]); ([14832; 14519; 14807], [14998; 14999; 15000]); ([14832; 14522; 14812], [15001; 15002; 15003]); ([14832; 14525; 14817], [15004; 15005; 15006]); ([14832; 14528; 14822], [15007; 15008; 15009]); ([14832; 14531; 14827], [15010; 15011; 15012])].
Definition udivide64_stage_60 : ustage := UStage
   [Cell ([3; 64], [15014; 15015]) (Some (LW 15014)) (Some (LW 15015));
    Cell ([14835; 65; 15015], [15016; 15018; 15017; 15019; 15020]) (Some (LW 15018)) (Some (LW 15020));
    Cell ([14838; 66; 15020], [15021; 15023; 15022; 15024; 15025]) (Some (LW 15023)) (Some (LW 15025));
    Cell ([14841; 67; 15025], [15026; 15028; 15027; 15029; 15030]) (Some (LW 15028)) (Some (LW 15030));
    Cell ([14844; 68; 15030], [15031; 15033; 15032; 15034; 15035]) (Some (LW 15033)) (Some (LW 15035));
    Cell ([14847; 69; 15035], [15036; 15038; 15037; 15039; 15040]) (Some (LW 15038)) (Some (LW 15040));
    Cell ([14850; 70; 15040], [15041; 15043; 15042; 15044; 15045]) (Some (LW 15043)) (Some (LW 15045));
    Cell ([14853; 71; 15045], [15046; 15048; 15047; 15049; 15050]) (Some (LW 15048)) (Some (LW 15050));
    Cell ([14856; 72; 15050], [15051; 15053; 15052; 15054; 15055]) (Some (LW 15053)) (Some (LW 15055));
    Cell ([14859; 73; 15055], [15056; 15058; 15057; 15059; 15060]) (Some (LW 15058)) (Some (LW 15060));
    Cell ([14862; 74; 15060], [15061; 15063; 15062; 15064; 15065]) (Some (LW 15063)) (Some (LW 15065));
    Cell ([14865; 75; 15065], [15066; 15068; 15067; 15069; 15070]) (Some (LW 15068)) (Some (LW 15070));
    Cell ([14868; 76; 15070], [15071; 15073; 15072; 15074; 15075]) (Some (LW 15073)) (Some (LW 15075));
    Cell ([14871; 77; 15075], [15076; 15078; 15077; 15079; 15080]) (Some (LW 15078)) (Some (LW 15080));
    Cell ([14874; 78; 15080], [15081; 15083; 15082; 15084; 15085]) (Some (LW 15083)) (Some (LW 15085));
    Cell ([14877; 79; 15085], [15086; 15088; 15087; 15089; 15090]) (Some (LW 15088)) (Some (LW 15090));
    Cell ([14880; 80; 15090], [15091; 15093; 15092; 15094; 15095]) (Some (LW 15093)) (Some (LW 15095));
    Cell ([14883; 81; 15095], [15096; 15098; 15097; 15099; 15100]) (Some (LW 15098)) (Some (LW 15100));
    Cell ([14886; 82; 15100], [15101; 15103; 15102; 15104; 15105]) (Some (LW 15103)) (Some (LW 15105));
    Cell ([14889; 83; 15105], [15106; 15108; 15107; 15109; 15110]) (Some (LW 15108)) (Some (LW 15110));
    Cell ([14892; 84; 15110], [15111; 15113; 15112; 15114; 15115]) (Some (LW 15113)) (Some (LW 15115));
    Cell ([14895; 85; 15115], [15116; 15118; 15117; 15119; 15120]) (Some (LW 15118)) (Some (LW 15120));
    Cell ([14898; 86; 15120], [15121; 15123; 15122; 15124; 15125]) (Some (LW 15123)) (Some (LW 15125));
    Cell ([14901; 87; 15125], [15126; 15128; 15127; 15129; 15130]) (Some (LW 15128)) (Some (LW 15130));
    Cell ([14904; 88; 15130], [15131; 15133; 15132; 15134; 15135]) (Some (LW 15133)) (Some (LW 15135));
    Cell ([14907; 89; 15135], [15136; 15138; 15137; 15139; 15140]) (Some (LW 15138)) (Some (LW 15140));
    Cell ([14910; 90; 15140], [15141; 15143; 15142; 15144; 15145]) (Some (LW 15143)) (Some (LW 15145));
    Cell ([14913; 91; 15145], [15146; 15148; 15147; 15149; 15150]) (Some (LW 15148)) (Some (LW 15150));
    Cell ([14916; 92; 15150], [15151; 15153; 15152; 15154; 15155]) (Some (LW 15153)) (Some (LW 15155));
    Cell ([14919; 93; 15155], [15156; 15158; 15157; 15159; 15160]) (Some (LW 15158)) (Some (LW 15160));
    Cell ([14922; 94; 15160], [15161; 15163; 15162; 15164; 15165]) (Some (LW 15163)) (Some (LW 15165));
    Cell ([14925; 95; 15165], [15166; 15168; 15167; 15169; 15170]) (Some (LW 15168)) (Some (LW 15170));
    Cell ([14928; 96; 15170], [15171; 15173; 15172; 15174; 15175]) (Some (LW 15173)) (Some (LW 15175));
    Cell ([14931; 97; 15175], [15176; 15178; 15177; 15179; 15180]) (Some (LW 15178)) (Some (LW 15180));
    Cell ([14934; 98; 15180], [15181; 15183; 15182; 15184; 15185]) (Some (LW 15183)) (Some (LW 15185));
    Cell ([14937; 99; 15185], [15186; 15188; 15187; 15189; 15190]) (Some (LW 15188)) (Some (LW 15190));
    Cell ([14940; 100; 15190], [15191; 15193; 15192; 15194; 15195]) (Some (LW 15193)) (Some (LW 15195));
    Cell ([14943; 101; 15195], [15196; 15198; 15197; 15199; 15200]) (Some (LW 15198)) (Some (LW 15200));
    Cell ([14946; 102; 15200], [15201; 15203; 15202; 15204; 15205]) (Some (LW 15203)) (Some (LW 15205));
    Cell ([14949; 103; 15205], [15206; 15208; 15207; 15209; 15210]) (Some (LW 15208)) (Some (LW 15210));
    Cell ([14952; 104; 15210], [15211; 15213; 15212; 15214; 15215]) (Some (LW 15213)) (Some (LW 15215));
    Cell ([14955; 105; 15215], [15216; 15218; 15217; 15219; 15220]) (Some (LW 15218)) (Some (LW 15220));
    Cell ([14958; 106; 15220], [15221; 15223; 15222; 15224; 15225]) (Some (LW 15223)) (Some (LW 15225));
    Cell ([14961; 107; 15225], [15226; 15228; 15227; 15229; 15230]) (Some (LW 15228)) (Some (LW 15230));
    Cell ([14964; 108; 15230], [15231; 15233; 15232; 15234; 15235]) (Some (LW 15233)) (Some (LW 15235));
    Cell ([14967; 109; 15235], [15236; 15238; 15237; 15239; 15240]) (Some (LW 15238)) (Some (LW 15240));
    Cell ([14970; 110; 15240], [15241; 15243; 15242; 15244; 15245]) (Some (LW 15243)) (Some (LW 15245));
    Cell ([14973; 111; 15245], [15246; 15248; 15247; 15249; 15250]) (Some (LW 15248)) (Some (LW 15250));
    Cell ([14976; 112; 15250], [15251; 15253; 15252; 15254; 15255]) (Some (LW 15253)) (Some (LW 15255));
    Cell ([14979; 113; 15255], [15256; 15258; 15257; 15259; 15260]) (Some (LW 15258)) (Some (LW 15260));
    Cell ([14982; 114; 15260], [15261; 15263; 15262; 15264; 15265]) (Some (LW 15263)) (Some (LW 15265));
    Cell ([14985; 115; 15265], [15266; 15268; 15267; 15269; 15270]) (Some (LW 15268)) (Some (LW 15270));
    Cell ([14988; 116; 15270], [15271; 15273; 15272; 15274; 15275]) (Some (LW 15273)) (Some (LW 15275));
    Cell ([14991; 117; 15275], [15276; 15278; 15277; 15279; 15280]) (Some (LW 15278)) (Some (LW 15280));
    Cell ([14994; 118; 15280], [15281; 15283; 15282; 15284; 15285]) (Some (LW 15283)) (Some (LW 15285));
    Cell ([14997; 119; 15285], [15286; 15288; 15287; 15289; 15290]) (Some (LW 15288)) (Some (LW 15290));
    Cell ([15000; 120; 15290], [15291; 15293; 15292; 15294; 15295]) (Some (LW 15293)) (Some (LW 15295));
    Cell ([15003; 121; 15295], [15296; 15298; 15297; 15299; 15300]) (Some (LW 15298)) (Some (LW 15300));
    Cell ([15006; 122; 15300], [15301; 15303; 15302; 15304; 15305]) (Some (LW 15303)) (Some (LW 15305));
    Cell ([15009; 123; 15305], [15306; 15308; 15307; 15309; 15310]) (Some (LW 15308)) (Some (LW 15310));
    Cell ([15012; 124; 15310], [15311; 15313; 15312; 15314; 15315]) (Some (LW 15313)) (Some (LW 15315))]
   ([15315; 133], [15317; 15316; 15318]) 15318 15502
   [15321; 15324; 15327; 15330; 15333; 15336; 15339; 15342; 15345; 15348; 15351; 15354; 15357; 15360; 15363; 15366; 15369; 15372; 15375; 15378; 15381; 15384; 15387; 15390; 15393; 15396; 15399; 15402; 15405; 15408; 15411; 15414; 15417; 15420; 15423; 15426; 15429; 15432; 15435; 15438; 15441; 15444; 15447; 15450; 15453; 15456; 15459; 15462; 15465; 15468; 15471; 15474; 15477; 15480; 15483; 15486; 15489; 15492; 15495; 15498; 15501]
   [([15318; 3; 15014], [15319; 15320; 15321]); ([15318; 14835; 15018], [15322; 15323; 15324]); ([15318; 14838; 15023], [15325; 15326; 15327]); ([15318; 14841; 15028], [15328; 15329; 15330]); ([15318; 14844; 15033], [15331; 15332; 15333]); ([15318; 14847; 15038], [15334; 15335; 15336]); ([15318; 14850; 15043], [15337; 15338; 15339]); ([15318; 14853; 15048], [15340; 15341; 15342]); ([15318; 14856; 15053], [15343; 15344; 15345]); ([15318; 14859; 15058], [15346; 15347; 15348]); ([15318; 14862; 15063], [15349; 15350; 15351]); ([15318; 14865; 15068], [15352; 15353; 15354]); ([15318; 14868; 15073], [15355; 15356; 15357]); ([15318; 14871; 15078], [15358; 15359; 15360]); ([15318; 14874; 15083], [15361; 15362; 15363]); ([15318; 14877; 15088], [15364; 15365; 15366]); ([15318; 14880; 15093], [15367; 15368; 15369]); ([15318; 14883; 15098], [15370; 15371; 15372]); ([15318; 14886; 15103], [15373; 15374; 15375]); ([15318; 14889; 15108], [15376; 15377; 15378]); ([15318; 14892; 15113], [15379; 15380; 15381]); ([15318; 14895; 15118], [15382; 15383; 15384]); ([15318; 14898; 15123], [15385; 15386; 15387]); ([15318; 14901; 15128], [15388; 15389; 15390]); ([15318; 14904; 15133], [15391; 15392; 15393]); ([15318; 14907; 15138], [15394; 15395; 15396]); ([15318; 14910; 15143], [15397; 15398; 15399]); ([15318; 14913; 15148], [15400; 15401; 15402]); ([15318; 14916; 15153], [15403; 15404; 15405]); ([15318; 14919; 15158], [15406; 15407; 15408]); ([15318; 14922; 15163], [15409; 15410; 15411]); ([15318; 14925; 15168], [15412; 15413; 15414]); ([15318; 14928; 15173], [15415; 15416; 15417]); ([15318; 14931; 15178], [15418; 15419; 15420]); ([15318; 14934; 15183], [15421; 15422; 15423]); ([15318; 14937; 15188], [15424; 15425; 15426]); ([15318; 14940; 15193], [15427; 15428; 15429]); ([15318; 14943; 15198], [15430; 15431; 15432]); ([15318; 14946; 15203], [15433; 15434; 15435]); ([15318; 14949; 15208], [15436; 15437; 15438]); ([15318; 14952; 15213], [15439; 15440; 15441]); ([15318; 14955; 15218], [15442; 15443; 15444]); ([15318; 14958; 15223], [15445; 15446; 15447]); ([15318; 14961; 15228], [15448; 15449; 15450]); ([15318; 14964; 15233], [15451; 15452; 15453]); ([15318; 14967; 15238], [15454; 15455; 15456]); ([15318; 14970; 15243], [15457; 15458; 15459]); ([15318; 14973; 15248], [15460; 15461; 15462]); ([15318; 14976; 15253], [15463; 15464; 15465]); ([15318; 14979; 15258], [15466; 15467; 15468]); ([15318; 14982; 15263], [15469; 15470; 15471]); ([15318; 14985; 15268], [15472; 15473; 15474]); ([15318; 14988; 15273], [15475; 15476; 15477]); ([15318; 14991; 15278], [15478; 15479; 15480]); ([15318; 14994; 15283], [15481; 15482; 15483]); ([15318; 14997; 15288], [15484; 15485; 15486]); ([15318; 15000; 15293], [15487; 15488; 15489]); ([15318; 15003; 15298], [15490; 15491; 15492]); ([15318; 15006; 15303], [15493; 15494; 15495]); ([15318; 15009; 15308], [15496; 15497; 15498]); ([15318; 15012; 15313], [15499; 15500; 15501])].
Definition udivide64_stage_61 : ustage := UStage
   [Cell ([2; 64], [15503; 15504]) (Some (LW 15503)) (Some (LW 15504));
    Cell ([15321; 65; 15504], [15505; 15507; 15506; 15508; 15509]) (Some (LW 15507)) (Some (LW 15509));
    Cell ([15324; 66; 15509], [15510; 15512; 15511; 15513; 15514]) (Some (LW 15512)) (Some (LW 15514));
    Cell ([15327; 67; 15514], [15515; 15517; 15516; 15518; 15519]) (Some (LW 15517)) (Some (LW 15519));
    Cell ([15330; 68; 15519], [15520; 15522; 15521; 15523; 15524]) (Some (LW 15522)) (Some (LW 15524));
    Cell ([15333; 69; 15524], [15525; 15527; 15526; 15528; 15529]) (Some (LW 15527)) (Some (LW 15529));
    Cell ([15336; 70; 15529], [15530; 15532; 15531; 15533; 15534]) (Some (LW 15532)) (Some (LW 15534));
    Cell ([15339; 71; 15534], [15535; 15537; 15536; 15538; 15539]) (Some (LW 15537)) (Some (LW 15539));
    Cell ([15342; 72; 15539], [15540; 15542; 15541; 15543; 15544]) (Some (LW 15542)) (Some (LW 15544));
    Cell ([15345; 73; 15544], [15545; 15547; 15546; 15548; 15549]) (Some (LW 15547)) (Some (LW 15549));
    Cell ([15348; 74; 15549], [15550; 15552; 15551; 15553; 15554]) (Some (LW 15552)) (Some (LW 15554));
    Cell ([15351; 75; 15554], [15555; 15557; 15556; 15558; 15559]) (Some (LW 15557)) (Some (LW 15559));
    Cell ([15354; 76; 15559], [15560; 15562; 15561; 15563; 15564]) (Some (LW 15562)) (Some (LW 15564));
    Cell ([15357; 77; 15564], [15565; 15567; 15566; 15568; 15569]) (Some (LW 15567)) (Some (LW 15569));
    Cell ([15360; 78; 15569], [15570; 15572; 15571; 15573; 15574]) (Some (LW 15572)) (Some (LW 15574));
    Cell ([15363; 79; 15574], [15575; 15577; 15576; 15578; 15579]) (Some (LW 15577)) (Some (LW 15579));
    Cell ([15366; 80; 15579], [15580; 15582; 15581; 15583; 15584]) (Some (LW 15582)) (Some (LW 15584));
    Cell ([15369; 81; 15584], [15585; 15587; 15586; 15588; 15589]) (Some (LW 15587)) (Some (LW 15589));
    Cell ([15372; 82; 15589], [15590; 15592; 15591; 15593; 15594]) (Some (LW 15592)) (Some (LW 15594));
    Cell ([15375; 83; 15594], [15595; 15597; 15596; 15598; 15599]) (Some (LW 15597)) (Some (LW 15599));
    Cell ([15378; 84; 15599], [15600; 15602; 15601; 15603; 15604]) (Some (LW 15602)) (Some (LW 15604));
    Cell ([15381; 85; 15604], [15605; 15607; 15606; 15608; 15609]) (Some (LW 15607)) (Some (LW 15609));
    Cell ([15384; 86; 15609], [15610; 15612; 15611; 15613; 15614]) (Some (LW 15612)) (Some (LW 15614));
    Cell ([15387; 87; 15614], [15615; 15617; 15616; 15618; 15619]) (Some (LW 15617)) (Some (LW 15619));
    Cell ([15390; 88; 15619], [15620; 15622; 15621; 15623; 15624]) (Some (LW 15622)) (Some (LW 15624));
    Cell ([15393; 89; 15624], [15625; 15627; 15626; 15628; 15629]) (Some (LW 15627)) (Some (LW 15629));
    Cell ([15396; 90; 15629], [15630; 15632; 15631; 15633; 15634]) (Some (LW 15632)) (Some (LW 15634));
    Cell ([15399; 91; 15634], [15635; 15637; 15636; 15638; 15639]) (Some (LW 15637)) (Some (LW 15639));
    Cell ([15402; 92; 15639], [15640; 15642; 15641; 15643; 15644]) (Some (LW 15642)) (Some (LW 15644));
    Cell ([15405; 93; 15644], [15645; 15647; 15646; 15648; 15649]) (Some (LW 15647)) (Some (LW 15649));
    Cell ([15408; 94; 15649], [15650; 15652; 15651; 15653; 15654]) (Some (LW 15652)) (Some (LW 15654));
    Cell ([15411; 95; 15654], [15655; 15657; 15656; 15658; 15659]) (Some (LW 15657)) (Some (LW 15659));
    Cell ([15414; 96; 15659], [15660; 15662; 15661; 15663; 15664]) (Some (LW 15662)) (Some (LW 15664));
    Cell ([15417; 97; 15664], [15665; 15667; 15666; 15668; 15669]) (Some (LW 15667)) (Some (LW 15669));
    Cell ([15420; 98; 15669], [15670; 15672; 15671; 15673; 15674]) (Some (LW 15672)) (Some (LW 15674));
    Cell ([15423; 99; 15674], [15675; 15677; 15676; 15678; 15679]) (Some (LW 15677)) (Some (LW 15679));
    Cell ([15426; 100; 15679], [15680; 15682; 15681; 15683; 15684]) (Some (LW 15682)) (Some (LW 15684));
    Cell ([15429; 101; 15684], [15685; 15687; 15686; 15688; 15689]) (Some (LW 15687)) (Some (LW 15689));
    Cell ([15432; 102; 15689], [15690; 15692; 15691; 15693; 15694]) (Some (LW 15692)) (Some (LW 15694));
    Cell ([15435; 103; 15694], [15695; 15697; 15696; 15698; 15699]) (Some (LW 15697)) (Some (LW 15699));
    Cell ([15438; 104; 15699], [15700; 15702; 15701; 15703; 15704]) (Some (LW 15702)) (Some (LW 15704));
    Cell ([15441; 105; 15704], [15705; 15707; 15706; 15708; 15709]) (Some (LW 15707)) (Some (LW 15709));
    Cell ([15444; 106; 15709], [15710; 15712; 15711; 15713; 15714]) (Some (LW 15712)) (Some (LW 15714));
    Cell ([15447; 107; 15714], [15715; 15717; 15716; 15718; 15719]) (Some (LW 15717)) (Some (LW 15719));
    Cell ([15450; 108; 15719], [15720; 15722; 15721; 15723; 15724]) (Some (LW 15722)) (Some (LW 15724));
    Cell ([15453; 109; 15724], [15725; 15727; 15726; 15728; 15729]) (Some (LW 15727)) (Some (LW 15729));
    Cell ([15456; 110; 15729], [15730; 15732; 15731; 15733; 15734]) (Some (LW 15732)) (Some (LW 15734));
    Cell ([15459; 111; 15734], [15735; 15737; 15736; 15738; 15739]) (Some (LW 15737)) (Some (LW 15739));
    Cell ([15462; 112; 15739], [15740; 15742; 15741; 15743; 15744]) (Some (LW 15742)) (Some (LW 15744));
    Cell ([15465; 113; 15744], [15745; 15747; 15746; 15748; 15749]) (Some (LW 15747)) (Some (LW 15749));
    Cell ([15468; 114; 15749], [15750; 15752; 15751; 15753; 15754]) (Some (LW 15752)) (Some (LW 15754));
    Cell ([15471; 115; 15754], [15755; 15757; 15756; 15758; 15759]) (Some (LW 15757)) (Some (LW 15759));
    Cell ([15474; 116; 15759], [15760; 15762; 15761; 15763; 15764]) (Some (LW 15762)) (Some (LW 15764));
    Cell ([15477; 117; 15764], [15765; 15767; 15766; 15768; 15769]) (Some (LW 15767)) (Some (LW 15769));
    Cell ([15480; 118; 15769], [15770; 15772; 15771; 15773; 15774]) (Some (LW 15772)) (Some (LW 15774));
    Cell ([15483; 119; 15774], [15775; 15777; 15776; 15778; 15779]) (Some (LW 15777)) (Some (LW 15779));
    Cell ([15486; 120; 15779], [15780; 15782; 15781; 15783; 15784]) (Some (LW 15782)) (Some (LW 15784));
    Cell ([15489; 121; 15784], [15785; 15787; 15786; 15788; 15789]) (Some (LW 15787)) (Some (LW 15789));
    Cell ([15492; 122; 15789], [15790; 15792; 15791; 15793; 15794]) (Some (LW 15792)) (Some (LW 15794));
    Cell ([15495; 123; 15794], [15795; 15797; 15796; 15798; 15799]) (Some (LW 15797)) (Some (LW 15799));
    Cell ([15498; 124; 15799], [15800; 15802; 15801; 15803; 15804]) (Some (LW 15802)) (Some (LW 15804));
    Cell ([15501; 125; 15804], [15805; 15807; 15806; 15808; 15809]) (Some (LW 15807)) (Some (LW 15809))]
   ([15809; 130], [15811; 15810; 15812]) 15812 15999
   [15815; 15818; 15821; 15824; 15827; 15830; 15833; 15836; 15839; 15842; 15845; 15848; 15851; 15854; 15857; 15860; 15863; 15866; 15869; 15872; 15875; 15878; 15881; 15884; 15887; 15890; 15893; 15896; 15899; 15902; 15905; 15908; 15911; 15914; 15917; 15920; 15923; 15926; 15929; 15932; 15935; 15938; 15941; 15944; 15947; 15950; 15953; 15956; 15959; 15962; 15965; 15968; 15971; 15974; 15977; 15980; 15983; 15986; 15989; 15992; 15995; 15998]
   [([15812; 2; 15503], [15813; 15814; 15815]); ([15812; 15321; 15507], [15816; 15817; 15818]); ([15812; 15324; 15512], [15819; 15820; 15821]); ([15812; 15327; 15517], [15822; 15823; 15824]); ([15812; 15330; 15522], [15825; 15826; 15827]); ([15812; 15333; 15527], [15828; 15829; 15830]); ([15812; 15336; 15532], [15831; 15832; 15833]); ([15812; 15339; 15537], [15834; 15835; 15836]); ([15812; 15342; 15542], [15837; 15838; 15839]); ([15812; 15345; 15547], [15840; 15841; 15842]); ([15812; 15348; 15552], [15843; 15844; 15845]); ([15812; 15351; 15557], [15846; 15847; 15848]); ([15812; 15354; 15562], [15849; 15850; 15851]); ([15812; 15357; 15567], [15852; 15853; 15854]); ([15812; 15360; 15572], [15855; 15856; 15857]); ([15812; 15363; 15577], [15858; 15859; 15860]); ([15812; 15366; 15582], [15861; 15862; 15863]); ([15812; 15369; 15587], [15864; 15865; 15866]); ([15812; 15372; 15592], [15867; 15868; 15869]); ([15812; 15375; 15597], [15870; 15871; 15872]); ([15812; 15378; 15602], [15873; 15874; 15875]); ([15812; 15381; 15607], [15876; 15877; 15878]); ([15812; 15384; 15612], [15879; 15880; 15881]); ([15812; 15387; 15617], [15882; 15883; 15884]); ([15812; 15390; 15622], [15885; 15886; 15887]); ([15812; 15393; 15627], [15888; 15889; 15890]); ([15812; 15396; 15632], [15891; 15892; 15893]); ([15812; 15399; 15637], [15894; 15895; 15896]); ([15812; 15402; 15642], [15897; 15898; 15899]); ([15812; 15405; 15647], [15900; 15901; 15902]); ([15812; 15408; 15652], [15903; 15904; 15905]); ([15812; 15411; 15657], [15906; 15907; 15908]); ([15812; 15414; 15662], [15909; 15910; 15911]); ([15812; 15417; 15667], [15912; 15913; 15914]); ([15812; 15420; 15672], [15915; 15916; 15917]); ([15812; 15423; 15677], [15918; 15919; 15920]); ([15812; 15426; 15682], [15921; 15922; 15923]); ([15812; 15429; 15687], [15924; 15925; 15926]); ([15812; 15432; 15692], [15927; 15928; 15929]); ([15812; 15435; 15697], [15930; 15931; 15932]); ([15812; 15438; 15702], [15933; 15934; 15935]); ([15812; 15441; 15707], [15936; 15937; 15938]); ([15812; 15444; 15712], [15939; 15940; 15941]); ([15812; 15447; 15717], [15942; 15943; 15944]); ([15812; 15450; 15722], [15945; 15946; 15947]); ([15812; 15453; 15727], [15948; 15949; 15950]); ([15812; 15456; 15732], [15951; 15952; 15953]); ([15812; 15459; 15737], [15954; 15955; 15956]); ([15812; 15462; 15742], [15957; 15958; 15959]); ([15812; 15465; 15747], [15960; 15961; 15962]); ([15812; 15468; 15752], [15963; 15964; 15965]); ([15812; 15471; 15757], [15966; 15967; 15968]); ([15812; 15474; 15762], [15969; 15970; 15971]); ([15812; 15477; 15767], [15972; 15973; 15974]); ([15812; 15480; 15772], [15975; 15976; 15977]); ([15812; 15483; 15777], [15978; 15979; 15980]); ([15812; 15486; 15782], [15981; 15982; 15983]); ([15812; 15489; 15787], [15984; 15985; 15986]); ([15812; 15492; 15792], [15987; 15988; 15989]); ([15812; 15495; 15797], [15990; 15991; 15992]); ([15812; 15498; 15802], [15993; 15994; 15995]); ([15812; 15501; 15807], [15996; 15997; 15998])].
Definition udivide64_stage_62 : ustage := UStage
   [Cell ([1; 64], [16000; 16001]) (Some (LW 16000)) (Some (LW 16001));
    Cell ([15815; 65; 16001], [16002; 16004; 16003; 16005; 16006]) (Some (LW 16004)) (Some (LW 16006));
    Cell ([15818; 66; 16006], [16007; 16009; 16008; 16010; 16011]) (Some (LW 16009)) (Some (LW 16011));
    Cell ([15821; 67; 16011], [16012; 16014; 16013; 16015; 16016]) (Some (LW 16014)) (Some (LW 16016));
    Cell ([15824; 68; 16016], [16017; 16019; 16018; 16020; 16021]) (Some (LW 16019)) (Some (LW 16021));
    Cell ([15827; 69; 16021], [16022; 16024; 16023; 16025; 16026]) (Some (LW 16024)) (Some (LW 16026));
    Cell ([15830; 70; 16026], [16027; 16029; 16028; 16030; 16031]) (Some (LW 16029)) (Some (LW 16031));
    Cell ([15833; 71; 16031], [16032; 16034; 16033; 16035; 16036]) (Some (LW 16034)) (Some (LW 16036));
    Cell ([15836; 72; 16036], [16037; 16039; 16038; 16040; 16041]) (Some (LW 16039)) (Some (LW 16041));
    Cell ([15839; 73; 16041], [16042; 16044; 16043; 16045; 16046]) (Some (LW 16044)) (Some (LW 16046));
    Cell ([15842; 74; 16046], [16047; 16049; 16048; 16050; 16051]) (Some (LW 16049)) (Some (LW 16051));
    Cell ([15845; 75; 16051], [16052; 16054; 16053; 16055; 16056]) (Some (LW 16054)) (Some (LW 16056));
    Cell ([15848; 76; 16056], [16057; 16059; 16058; 16060; 16061]) (Some (LW 16059)) (Some (LW 16061));
    Cell ([15851; 77; 16061], [16062; 16064; 16063; 16065; 16066]) (Some (LW 16064)) (Some (LW 16066));
    Cell ([15854; 78; 16066], [16067; 16069; 16068; 16070; 16071]) (Some (LW 16069)) (Some (LW 16071));
    Cell ([15857; 79; 16071], [16072; 16074; 16073; 16075; 16076]) (Some (LW 16074)) (Some (LW 16076));
    Cell ([15860; 80; 16076], [16077; 16079; 16078; 16080; 16081]) (Some (LW 16079)) (Some (LW 16081));
    Cell ([15863; 81; 16081], [16082; 16084; 16083; 16085; 16086]) (Some (LW 16084)) (Some (LW 16086));
    Cell ([15866; 82; 16086], [16087; 16089; 16088; 16090; 16091]) (Some (LW 16089)) (Some (LW 16091));
    Cell ([15869; 83; 16091], [16092; 16094; 16093; 16095; 16096]) (Some (LW 16094)) (Some (LW 16096));
    Cell ([15872; 84; 16096], [16097; 16099; 16098; 16100; 16101]) (Some (LW 16099)) (Some (LW 16101));
    Cell ([15875; 85; 16101], [16102; 16104; 16103; 16105; 16106]) (Some (LW 16104)) (Some (LW 16106));
    Cell ([15878; 86; 16106], [16107; 16109; 16108; 16110; 16111]) (Some (LW 16109)) (Some (LW 16111));
    Cell ([15881; 87; 16111], [16112; 16114; 16113; 16115; 16116]) (Some (LW 16114)) (Some (LW 16116));
    Cell ([15884; 88; 16116], [16117; 16119; 16118; 16120; 16121]) (Some (LW 16119)) (Some (LW 16121));
    Cell ([15887; 89; 16121], [16122; 16124; 16123; 16125; 16126]) (Some (LW 16124)) (Some (LW 16126));
    Cell ([15890; 90; 16126], [16127; 16129; 16128; 16130; 16131]) (Some (LW 16129)) (Some (LW 16131));
    Cell ([15893; 91; 16131], [16132; 16134; 16133; 16135; 16136]) (Some (LW 16134)) (Some (LW 16136));
    Cell ([15896; 92; 16136], [16137; 16139; 16138; 16140; 16141]) (Some (LW 16139)) (Some (LW 16141));
    Cell ([15899; 93; 16141], [16142; 16144; 16143; 16145; 16146]) (Some (LW 16144)) (Some (LW 16146));
    Cell ([15902; 94; 16146], [16147; 16149; 16148; 16150; 16151]) (Some (LW 16149)) (Some (LW 16151));
    Cell ([15905; 95; 16151], [16152; 16154; 16153; 16155; 16156]) (Some (LW 16154)) (Some (LW 16156));
    Cell ([15908; 96; 16156], [16157; 16159; 16158; 16160; 16161]) (Some (LW 16159)) (Some (LW 16161));
    Cell ([15911; 97; 16161], [16162; 16164; 16163; 16165; 16166]) (Some (LW 16164)) (Some (LW 16166));
    Cell ([15914; 98; 16166], [16167; 16169; 16168; 16170; 16171]) (Some (LW 16169)) (Some (LW 16171));
    Cell ([15917; 99; 16171], [16172; 16174; 16173; 16175; 16176]) (Some (LW 16174)) (Some (LW 16176));
    Cell ([15920; 100; 16176], [16177; 16179; 16178; 16180; 16181]) (Some (LW 16179)) (Some (LW 16181));
    Cell ([15923; 101; 16181], [16182; 16184; 16183; 16185; 16186]) (Some (LW 16184)) (Some (LW 16186));
    Cell ([15926; 102; 16186], [16187; 16189; 16188; 16190; 16191]) (Some (LW 16189)) (Some (LW 16191));
    Cell ([15929; 103; 16191], [16192; 16194; 16193; 16195; 16196]) (Some (LW 16194)) (Some (LW 16196));
    Cell ([15932; 104; 16196], [16197; 16199; 16198; 16200; 16201]) (Some (LW 16199)) (Some (LW 16201));
    Cell ([15935; 105; 16201], [16202; 16204; 16203; 16205; 16206]) (Some (LW 16204)) (Some (LW 16206));
    Cell ([15938; 106; 16206], [16207; 16209; 16208; 16210; 16211]) (Some (LW 16209)) (Some (LW 16211));
    Cell ([15941; 107; 16211], [16212; 16214; 16213; 16215; 16216]) (Some (LW 16214)) (Some (LW 16216));
    Cell ([15944; 108; 16216], [16217; 16219; 16218; 16220; 16221]) (Some (LW 16219)) (Some (LW 16221));
    Cell ([15947; 109; 16221], [16222; 16224; 16223; 16225; 16226]) (Some (LW 16224)) (Some (LW 16226));
    Cell ([15950; 110; 16226], [16227; 16229; 16228; 16230; 16231]) (Some (LW 16229)) (Some (LW 16231));
    Cell ([15953; 111; 16231], [16232; 16234; 16233; 16235; 16236]) (Some (LW 16234)) (Some (LW 16236));
    Cell ([15956; 112; 16236], [16237; 16239; 16238; 16240; 16241]) (Some (LW 16239)) (Some (LW 16241));
    Cell ([15959; 113; 16241], [16242; 16244; 16243; 16245; 16246]) (Some (LW 16244)) (Some (LW 16246));
    Cell ([15962; 114; 16246], [16247; 16249; 16248; 16250; 16251]) (Some (LW 16249)) (Some (LW 16251));
    Cell ([15965; 115; 16251], [16252; 16254; 16253; 16255; 16256]) (Some (LW 16254)) (Some (LW 16256));
    Cell ([15968; 116; 16256], [16257; 16259; 16258; 16260; 16261]) (Some (LW 16259)) (Some (LW 16261));
    Cell ([15971; 117; 16261], [16262; 16264; 16263; 16265; 16266]) (Some (LW 16264)) (Some (LW 16266));
    Cell ([15974; 118; 16266], [16267; 16269; 16268; 16270; 16271]) (Some (LW 16269)) (Some (LW 16271));
    Cell ([15977; 119; 16271], [16272; 16274; 16273; 16275; 16276]) (Some (LW 16274)) (Some (LW 16276));
    Cell ([15980; 120; 16276], [16277; 16279; 16278; 16280; 16281]) (Some (LW 16279)) (Some (LW 16281));
    Cell ([15983; 121; 16281], [16282; 16284; 16283; 16285; 16286]) (Some (LW 16284)) (Some (LW 16286));
    Cell ([15986; 122; 16286], [16287; 16289; 16288; 16290; 16291]) (Some (LW 16289)) (Some (LW 16291));
    Cell ([15989; 123; 16291], [16292; 16294; 16293; 16295; 16296]) (Some (LW 16294)) (Some (LW 16296));
    Cell ([15992; 124; 16296], [16297; 16299; 16298; 16300; 16301]) (Some (LW 16299)) (Some (LW 16301));
    Cell ([15995; 125; 16301], [16302; 16304; 16303; 16305; 16306]) (Some (LW 16304)) (Some (LW 16306));
    Cell ([15998; 126; 16306], [16307; 16309; 16308; 16310; 16311]) (Some (LW 16309)) (Some (LW 16311))]
   ([16311; 127], [16313; 16312; 16314]) 16314 16504
   [16317; 16320; 16323; 16326; 16329; 16332; 16335; 16338; 16341; 16344; 16347; 16350; 16353; 16356; 16359; 16362; 16365; 16368; 16371; 16374; 16377; 16380; 16383; 16386; 16389; 16392; 16395; 16398; 16401; 16404; 16407; 16410; 16413; 16416; 16419; 16422; 16425; 16428; 16431; 16434; 16437; 16440; 16443; 16446; 16449; 16452; 16455; 16458; 16461; 16464; 16467; 16470; 16473; 16476; 16479; 16482; 16485; 16488; 16491; 16494; 16497; 16500; 16503]
   [([16314; 1; 16000], [16315; 16316; 16317]); ([16314; 15815; 16004], [16318; 16319; 16320]); ([16314; 15818; 16009], [16321; 16322; 16323]); ([16314; 15821; 16014], [16324; 16325; 16326]); ([16314; 15824; 16019], [16327; 16328; 16329]); ([16314; 15827; 16024], [16330; 16331; 16332]); ([16314; 15830; 16029], [16333; 16334; 16335]); ([16314; 15833; 16034], [16336; 16337; 16338]); ([16314; 15836; 16039], [16339; 16340; 16341]); ([16314; 15839; 16044], [16342; 16343; 16344]); ([16314; 15842; 16049], [16345; 16346; 16347]); ([16314; 15845; 16054], [16348; 16349; 16350]); ([16314; 15848; 16059], [16351; 16352; 16353]); ([16314; 15851; 16064], [16354; 16355; 16356]); ([16314; 15854; 16069], [16357; 16358; 16359]); ([16314; 15857; 16074], [16360; 16361; 16362]); ([16314; 15860; 16079], [16363; 16364; 16365]); ([16314; 15863; 16084], [16366; 16367; 16368]); ([16314; 15866; 16089], [16369; 16370; 16371]); ([16314; 15869; 16094], [16372; 16373; 16374]); ([16314; 15872; 16099], [16375; 16376; 16377]); ([16314; 15875; 16104], [16378; 16379; 16380]); ([16314; 15878; 16109], [16381; 16382; 16383]); ([16314; 15881; 16114], [16384; 16385; 16386]); ([16314; 15884; 16119], [16387; 16388; 16389]); ([16314; 15887; 16124], [16390; 16391; 16392]); ([16314; 15890; 16129], [16393; 16394; 16395]); ([16314; 15893; 16134], [16396; 16397; 16398]); ([16314; 15896; 16139], [16399; 16400; 16401]); ([16314; 15899; 16144], [16402; 16403; 16404]); ([16314; 15902; 16149], [16405; 16406; 16407]); ([16314; 15905; 16154], [16408; 16409; 16410]); ([16314; 15908; 16159], [16411; 16412; 16413]); ([16314; 15911; 16164], [16414; 16415; 16416]); ([16314; 15914; 16169], [16417; 16418; 16419]); ([16314; 15917; 16174], [16420; 16421; 16422]); ([16314; 15920; 16179], [16423; 16424; 16425]); ([16314; 15923; 16184], [16426; 16427; 16428]); ([16314; 15926; 16189], [16429; 16430; 16431]); ([16314; 15929; 16194], [16432; 16433; 16434]); ([16314; 15932; 16199], [16435; 16436; 16437]); ([16314; 15935; 16204], [16438; 16439; 16440]); ([16314; 15938; 16209], [16441; 16442; 16443]); ([16314; 15941; 16214], [16444; 16445; 16446]); ([16314; 15944; 16219], [16447; 16448; 16449]); ([16314; 15947; 16224], [16450; 16451; 16452]); ([16314; 15950; 16229], [16453; 16454; 16455]); ([16314; 15953; 16234], [16456; 16457; 16458]); ([16314; 15956; 16239], [16459; 16460; 16461]); ([16314; 15959; 16244], [16462; 16463; 16464]); ([16314; 15962; 16249], [16465; 16466; 16467]); ([16314; 15965; 16254], [16468; 16469; 16470]); ([16314; 15968; 16259], [16471; 16472; 16473]); ([16314; 15971; 16264], [16474; 16475; 16476]); ([16314; 15974; 16269], [16477; 16478; 16479]); ([16314; 15977; 16274], [16480; 16481; 16482]); ([16314; 15980; 16279], [16483; 16484; 16485]); ([16314; 15983; 16284], [16486; 16487; 16488]); ([16314; 15986; 16289], [16489; 16490; 16491]); ([16314; 15989; 16294], [16492; 16493; 16494]); ([16314; 15992; 16299], [16495; 16496; 16497]); ([16314; 15995; 16304], [16498; 16499; 16500]); ([16314; 15998; 16309], [16501; 16502; 16503])].
Definition udivide64_stage_63 : ustage := UStage
   [Cell ([0; 64], [16505; 16506]) (Some (LW 16505)) (Some (LW 16506));
    Cell ([16317; 65; 16506], [16507; 16509; 16508; 16510; 16511]) (Some (LW 16509)) (Some (LW 16511));
    Cell ([16320; 66; 16511], [16512; 16514; 16513; 16515; 16516]) (Some (LW 16514)) (Some (LW 16516));
    Cell ([16323; 67; 16516], [16517; 16519; 16518; 16520; 16521]) (Some (LW 16519)) (Some (LW 16521));
    Cell ([16326; 68; 16521], [16522; 16524; 16523; 16525; 16526]) (Some (LW 16524)) (Some (LW 16526));
    Cell ([16329; 69; 16526], [16527; 16529; 16528; 16530; 16531]) (Some (LW 16529)) (Some (LW 16531));
    Cell ([16332; 70; 16531], [16532; 16534; 16533; 16535; 16536]) (Some (LW 16534)) (Some (LW 16536));
    Cell ([16335; 71; 16536], [16537; 16539; 16538; 16540; 16541]) (Some (LW 16539)) (Some (LW 16541));
    Cell ([16338; 72; 16541], [16542; 16544; 16543; 16545; 16546]) (Some (LW 16544)) (Some (LW 16546));
    Cell ([16341; 73; 16546], [16547; 16549; 16548; 16550; 16551]) (Some (LW 16549)) (Some (LW 16551));
    Cell ([16344; 74; 16551], [16552; 16554; 16553; 16555; 16556]) (Some (LW 16554)) (Some (LW 16556));
    Cell ([16347; 75; 16556], [16557; 16559; 16558; 16560; 16561]) (Some (LW 16559)) (Some (LW 16561));
    Cell ([16350; 76; 16561], [16562; 16564; 16563; 16565; 16566]) (Some (LW 16564)) (Some (LW 16566));
    Cell ([16353; 77; 16566], [16567; 16569; 16568; 16570; 16571]) (Some (LW 16569)) (Some (LW 16571));
    Cell ([16356; 78; 16571], [16572; 16574; 16573; 16575; 16576]) (Some (LW 16574)) (Some (LW 16576));
    Cell ([16359; 79; 16576], [16577; 16579; 16578; 16580; 16581]) (Some (LW 16579)) (Some (LW 16581));
    Cell ([16362; 80; 16581], [16582; 16584; 16583; 16585; 16586]) (Some (LW 16584)) (Some (LW 16586));
    Cell ([16365; 81; 16586], [16587; 16589; 16588; 16590; 16591]) (Some (LW 16589)) (Some (LW 16591));
    Cell ([16368; 82; 16591], [16592; 16594; 16593; 16595; 16596]) (Some (LW 16594)) (Some (LW 16596));
    Cell ([16371; 83; 16596], [16597; 16599; 16598; 16600; 16601]) (Some (LW 16599)) (Some (LW 16601));
    Cell ([16374; 84; 16601], [16602; 16604; 16603; 16605; 16606]) (Some (LW 16604)) (Some (LW 16606));
    Cell ([16377; 85; 16606], [16607; 16609; 16608; 16610; 16611]) (Some (LW 16609)) (Some (LW 16611));
    Cell ([16380; 86; 16611], [16612; 16614; 16613; 16615; 16616]) (Some (LW 16614)) (Some (LW 16616));
    Cell ([16383; 87; 16616], [16617; 16619; 16618; 16620; 16621]) (Some (LW 16619)) (Some (LW 16621));
    Cell ([16386; 88; 16621], [16622; 16624; 16623; 16625; 16626]) (Some (LW 16624)) (Some (LW 16626));
    Cell ([16389; 89; 16626], [16627; 16629; 16628; 16630; 16631]) (Some (LW 16629)) (Some (LW 16631));
    Cell ([16392; 90; 16631], [16632; 16634; 16633; 16635; 16636]) (Some (LW 16634)) (Some (LW 16636));
    Cell ([16395; 91; 16636], [16637; 16639; 16638; 16640; 16641]) (Some (LW 16639)) (Some (LW 16641));
    Cell ([16398; 92; 16641], [16642; 16644; 16643; 16645; 16646]) (Some (LW 16644)) (Some (LW 16646));
    Cell ([16401; 93; 16646], [16647; 16649; 16648; 16650; 16651]) (Some (LW 16649)) (Some (LW 16651));
    Cell ([16404; 94; 16651], [16652; 16654; 16653; 16655; 16656]) (Some (LW 16654)) (Some (LW 16656));
    Cell ([16407; 95; 16656], [16657; 16659; 16658; 16660; 16661]) (Some (LW 16659)) (Some (LW 16661));
    Cell ([16410; 96; 16661], [16662; 16664; 16663; 16665; 16666]) (Some (LW 16664)) (Some (LW 16666));
    Cell ([16413; 97; 16666], [16667; 16669; 16668; 16670; 16671]) (Some (LW 16669)) (Some (LW 16671));
    Cell ([16416; 98; 16671], [16672; 16674; 16673; 16675; 16676]) (Some (LW 16674)) (Some (LW 16676));
    Cell ([16419; 99; 16676], [16677; 16679; 16678; 16680; 16681]) (Some (LW 16679)) (Some (LW 16681));
    Cell ([16422; 100; 16681], [16682; 16684; 16683; 16685; 16686]) (Some (LW 16684)) (Some (LW 16686));
    Cell ([16425; 101; 16686], [16687; 16689; 16688; 16690; 16691]) (Some (LW 16689)) (Some (LW 16691));
    Cell ([16428; 102; 16691], [16692; 16694; 16693; 16695; 16696]) (Some (LW 16694)) (Some (LW 16696));
    Cell ([16431; 103; 16696], [16697; 16699; 16698; 16700; 16701]) (Some (LW 16699)) (Some (LW 16701));
    Cell ([16434; 104; 16701], [16702; 16704; 16703; 16705; 16706]) (Some (LW 16704)) (Some (LW 16706));
    Cell ([16437; 105; 16706], [16707; 16709; 16708; 16710; 16711]) (Some (LW 16709)) (Some (LW 16711));
    Cell ([16440; 106; 16711], [16712; 16714; 16713; 16715; 16716]) (Some (LW 16714)) (Some (LW 16716));
    Cell ([16443; 107; 16716], [16717; 16719; 16718; 16720; 16721]) (Some (LW 16719)) (Some (LW 16721));
    Cell ([16446; 108; 16721], [16722; 16724; 16723; 16725; 16726]) (Some (LW 16724)) (Some (LW 16726));
    Cell ([16449; 109; 16726], [16727; 16729; 16728; 16730; 16731]) (Some (LW 16729)) (Some (LW 16731));
    Cell ([16452; 110; 16731], [16732; 16734; 16733; 16735; 16736]) (Some (LW 16734)) (Some (LW 16736));
    Cell ([16455; 111; 16736], [16737; 16739; 16738; 16740; 16741]) (Some (LW 16739)) (Some (LW 16741));
    Cell ([16458; 112; 16741], [16742; 16744; 16743; 16745; 16746]) (Some (LW 16744)) (Some (LW 16746));
    Cell ([16461; 113; 16746], [16747; 16749; 16748; 16750; 16751]) (Some (LW 16749)) (Some (LW 16751));
    Cell ([16464; 114; 16751], [16752; 16754; 16753; 16755; 16756]) (Some (LW 16754)) (Some (LW 16756));
    Cell ([16467; 115; 16756], [16757; 16759; 16758; 16760; 16761]) (Some (LW 16759)) (Some (LW 16761));
    Cell ([16470; 116; 16761], [16762; 16764; 16763; 16765; 16766]) (Some (LW 16764)) (Some (LW 16766));
    Cell ([16473; 117; 16766], [16767; 16769; 16768; 16770; 16771]) (Some (LW 16769)) (Some (LW 16771));
    Cell ([16476; 118; 16771], [16772; 16774; 16773; 16775; 16776]) (Some (LW 16774)) (Some (LW 16776));
    Cell ([16479; 119; 16776], [16777; 16779; 16778; 16780; 16781]) (Some (LW 16779)) (Some (LW 16781));
    Cell ([16482; 120; 16781], [16782; 16784; 16783; 16785; 16786]) (Some (LW 16784)) (Some (LW 16786));
    Cell ([16485; 121; 16786], [16787; 16789; 16788; 16790; 16791]) (Some (LW 16789)) (Some (LW 16791));
    Cell ([16488; 122; 16791], [16792; 16794; 16793; 16795; 16796]) (Some (LW 16794)) (Some (LW 16796));
    Cell ([16491; 123; 16796], [16797; 16799; 16798; 16800; 16801]) (Some (LW 16799)) (Some (LW 16801));
    Cell ([16494; 124; 16801], [16802; 16804; 16803; 16805; 16806]) (Some (LW 16804)) (Some (LW 16806));
    Cell ([16497; 125; 16806], [16807; 16809; 16808; 16810; 16811]) (Some (LW 16809)) (Some (LW 16811));
    Cell ([16500; 126; 16811], [16812; 16814; 16813; 16815; 16816]) (Some (LW 16814)) (Some (LW 16816));
    Cell ([16503; 127; 16816], [16817; 16819; 16818; 16820; 16821]) (Some (LW 16819)) (Some (LW 16821))]
   ([16821], []) 16821 17014
   [16824; 16827; 16830; 16833; 16836; 16839; 16842; 16845; 16848; 16851; 16854; 16857; 16860; 16863; 16866; 16869; 16872; 16875; 16878; 16881; 16884; 16887; 16890; 16893; 16896; 16899; 16902; 16905; 16908; 16911; 16914; 16917; 16920; 16923; 16926; 16929; 16932; 16935; 16938; 16941; 16944; 16947; 16950; 16953; 16956; 16959; 16962; 16965; 16968; 16971; 16974; 16977; 16980; 16983; 16986; 16989; 16992; 16995; 16998; 17001; 17004; 17007; 17010; 17013]
   [([16821; 0; 16505], [16822; 16823; 16824]); ([16821; 16317; 16509], [16825; 16826; 16827]); ([16821; 16320; 16514], [16828; 16829; 16830]); ([16821; 16323; 16519], [16831; 16832; 16833]); ([16821; 16326; 16524], [16834; 16835; 16836]); ([16821; 16329; 16529], [16837; 16838; 16839]); ([16821; 16332; 16534], [16840; 16841; 16842]); ([16821; 16335; 16539], [16843; 16844; 16845]); ([16821; 16338; 16544], [16846; 16847; 16848]); ([16821; 16341; 16549], [16849; 16850; 16851]); ([16821; 16344; 16554], [16852; 16853; 16854]); ([16821; 16347; 16559], [16855; 16856; 16857]); ([16821; 16350; 16564], [16858; 16859; 16860]); ([16821; 16353; 16569], [16861; 16862; 16863]); ([16821; 16356; 16574], [16864; 16865; 16866]); ([16821; 16359; 16579], [16867; 16868; 16869]); ([16821; 16362; 16584], [16870; 16871; 16872]); ([16821; 16365; 16589], [16873; 16874; 16875]); ([16821; 16368; 16594], [16876; 16877; 16878]); ([16821; 16371; 16599], [16879; 16880; 16881]); ([16821; 16374; 16604], [16882; 16883; 16884]); ([16821; 16377; 16609], [16885; 16886; 16887]); ([16821; 16380; 16614], [16888; 16889; 16890]); ([16821; 16383; 16619], [16891; 16892; 16893]); ([16821; 16386; 16624], [16894; 16895; 16896]); ([16821; 16389; 16629], [16897; 16898; 16899]); ([16821; 16392; 16634], [16900; 16901; 16902]); ([16821; 16395; 16639], [16903; 16904; 16905]); ([16821; 16398; 16644], [16906; 16907; 16908]); ([16821; 16401; 16649], [16909; 16910; 16911]); ([16821; 16404; 16654], [16912; 16913; 16914]); ([16821; 16407; 16659], [16915; 16916; 16917]); ([16821; 16410; 16664], [16918; 16919; 16920]); ([16821; 16413; 16669], [16921; 16922; 16923]); ([16821; 16416; 16674], [16924; 16925; 16926]); ([16821; 16419; 16679], [16927; 16928; 16929]); ([16821; 16422; 16684], [16930; 16931; 16932]); ([16821; 16425; 16689], [16933; 16934; 16935]); ([16821; 16428; 16694], [16936; 16937; 16938]); ([16821; 16431; 16699], [16939; 16940; 16941]); ([16821; 16434; 16704], [16942; 16943; 16944]); ([16821; 16437; 16709], [16945; 16946; 16947]); ([16821; 16440; 16714], [16948; 16949; 16950]); ([16821; 16443; 16719], [16951; 16952; 16953]); ([16821; 16446; 16724], [16954; 16955; 16956]); ([16821; 16449; 16729], [16957; 16958; 16959]); ([16821; 16452; 16734], [16960; 16961; 16962]); ([16821; 16455; 16739], [16963; 16964; 16965]); ([16821; 16458; 16744], [16966; 16967; 16968]); ([16821; 16461; 16749], [16969; 16970; 16971]); ([16821; 16464; 16754], [16972; 16973; 16974]); ([16821; 16467; 16759], [16975; 16976; 16977]); ([16821; 16470; 16764], [16978; 16979; 16980]); ([16821; 16473; 16769], [16981; 16982; 16983]); ([16821; 16476; 16774], [16984; 16985; 16986]); ([16821; 16479; 16779], [16987; 16988; 16989]); ([16821; 16482; 16784], [16990; 16991; 16992]); ([16821; 16485; 16789], [16993; 16994; 16995]); ([16821; 16488; 16794], [16996; 16997; 16998]); ([16821; 16491; 16799], [16999; 17000; 17001]); ([16821; 16494; 16804], [17002; 17003; 17004]); ([16821; 16497; 16809], [17005; 17006; 17007]); ([16821; 16500; 16814], [17008; 17009; 17010]); ([16821; 16503; 16819], [17011; 17012; 17013])].
Definition udivide64_stages : list ustage := [udivide64_stage_0; udivide64_stage_1; udivide64_stage_2; udivide64_stage_3; udivide64_stage_4; udivide64_stage_5; udivide64_stage_6; udivide64_stage_7; udivide64_stage_8; udivide64_stage_9; udivide64_stage_10; udivide64_stage_11; udivide64_stage_12; udivide64_stage_13; udivide64_stage_14; udivide64_stage_15; udivide64_stage_16; udivide64_stage_17; udivide64_stage_18; udivide64_stage_19; udivide64_stage_20; udivide64_stage_21; udivide64_stage_22; udivide64_stage_23; udivide64_stage_24; udivide64_stage_25; udivide64_stage_26; udivide64_stage_27; udivide64_stage_28; udivide64_stage_29; udivide64_stage_30; udivide64_stage_31; udivide64_stage_32; udivide64_stage_33; udivide64_stage_34; udivide64_stage_35; udivide64_stage_36; udivide64_stage_37; udivide64_stage_38; udivide64_stage_39; udivide64_stage_40; udivide64_stage_41; udivide64_stage_42; udivide64_stage_43; udivide64_stage_44; udivide64_stage_45; udivide64_stage_46; udivide64_stage_47; udivide64_stage_48; udivide64_stage_49; udivide64_stage_50; udivide64_stage_51; udivide64_stage_52; udivide64_stage_53; udivide64_stage_54; udivide64_stage_55; udivide64_stage_56; udivide64_stage_57; udivide64_stage_58; udivide64_stage_59; udivide64_stage_60; udivide64_stage_61; udivide64_stage_62; udivide64_stage_63].
Definition udivide64_ors : list (lit * cut) := [(LW 313, ([65; 310], [312; 311; 313])); (LW 310, ([66; 307], [309; 308; 310])); (LW 307, ([67; 304], [306; 305; 307])); (LW 304, ([68; 301], [303; 302; 304])); (LW 301, ([69; 298], [300; 299; 301])); (LW 298, ([70; 295], [297; 296; 298])); (LW 295, ([71; 292], [294; 293; 295])); (LW 292, ([72; 289], [291; 290; 292])); (LW 289, ([73; 286], [288; 287; 289])); (LW 286, ([74; 283], [285; 284; 286])); (LW 283, ([75; 280], [282; 281; 283])); (LW 280, ([76; 277], [279; 278; 280])); (LW 277, ([77; 274], [276; 275; 277])); (LW 274, ([78; 271], [273; 272; 274])); (LW 271, ([79; 268], [270; 269; 271])); (LW 268, ([80; 265], [267; 266; 268])); (LW 265, ([81; 262], [264; 263; 265])); (LW 262, ([82; 259], [261; 260; 262])); (LW 259, ([83; 256], [258; 257; 259])); (LW 256, ([84; 253], [255; 254; 256])); (LW 253, ([85; 250], [252; 251; 253])); (LW 250, ([86; 247], [249; 248; 250])); (LW 247, ([87; 244], [246; 245; 247])); (LW 244, ([88; 241], [243; 242; 244])); (LW 241, ([89; 238], [240; 239; 241])); (LW 238, ([90; 235], [237; 236; 238])); (LW 235, ([91; 232], [234; 233; 235])); (LW 232, ([92; 229], [231; 230; 232])); (LW 229, ([93; 226], [228; 227; 229])); (LW 226, ([94; 223], [225; 224; 226])); (LW 223, ([95; 220], [222; 221; 223])); (LW 220, ([96; 217], [219; 218; 220])); (LW 217, ([97; 214], [216; 215; 217])); (LW 214, ([98; 211], [213; 212; 214])); (LW 211, ([99; 208], [210; 209; 211])); (LW 208, ([100; 205], [207; 206; 208])); (LW 205, ([101; 202], [204; 203; 205])); (LW 202, ([102; 199], [201; 200; 202])); (LW 199, ([103; 196], [198; 197; 199])); (LW 196, ([104; 193], [195; 194; 196])); (LW 193, ([105; 190], [192; 191; 193])); (LW 190, ([106; 187], [189; 188; 190])); (LW 187, ([107; 184], [186; 185; 187])); (LW 184, ([108; 181], [183; 182; 184])); (LW 181, ([109; 178], [180; 179; 181])); (LW 178, ([110; 175], [177; 176; 178])); (LW 175, ([111; 172], [174; 173; 175])); (LW 172, ([112; 169], [171; 170; 172])); (LW 169, ([113; 166], [168; 167; 169])); (LW 166, ([114; 163], [165; 164; 166])); (LW 163, ([115; 160], [162; 161; 163])); (LW 160, ([116; 157], [159; 158; 160])); (LW 157, ([117; 154], [156; 155; 157])); (LW 154, ([118; 151], [153; 152; 154])); (LW 151, ([119; 148], [150; 149; 151])); (LW 148, ([120; 145], [147; 146; 148])); (LW 145, ([121; 142], [144; 143; 145])); (LW 142, ([122; 139], [141; 140; 142])); (LW 139, ([123; 136], [138; 137; 139])); (LW 136, ([124; 133], [135; 134; 136])); (LW 133, ([125; 130], [132; 131; 133])); (LW 130, ([126; 127], [129; 128; 130])); (LW 127, ([127], []))].
Definition udivide64_outs : list cut := [([0; 17014], [17015; 17016]); ([0; 16504], [17015; 17017]); ([0; 15999], [17015; 17018]); ([0; 15502], [17015; 17019]); ([0; 15013], [17015; 17020]); ([0; 14532], [17015; 17021]); ([0; 14059], [17015; 17022]); ([0; 13594], [17015; 17023]); ([0; 13137], [17015; 17024]); ([0; 12688], [17015; 17025]); ([0; 12247], [17015; 17026]); ([0; 11814], [17015; 17027]); ([0; 11389], [17015; 17028]); ([0; 10972], [17015; 17029]); ([0; 10563], [17015; 17030]); ([0; 10162], [17015; 17031]); ([0; 9769], [17015; 17032]); ([0; 9384], [17015; 17033]); ([0; 9007], [17015; 17034]); ([0; 8638], [17015; 17035]); ([0; 8277], [17015; 17036]); ([0; 7924], [17015; 17037]); ([0; 7579], [17015; 17038]); ([0; 7242], [17015; 17039]); ([0; 6913], [17015; 17040]); ([0; 6592], [17015; 17041]); ([0; 6279], [17015; 17042]); ([0; 5974], [17015; 17043]); ([0; 5677], [17015; 17044]); ([0; 5388], [17015; 17045]); ([0; 5107], [17015; 17046]); ([0; 4834], [17015; 17047]); ([0; 4569], [17015; 17048]); ([0; 4312], [17015; 17049]); ([0; 4063], [17015; 17050]); ([0; 3822], [17015; 17051]); ([0; 3589], [17015; 17052]); ([0; 3364], [17015; 17053]); ([0; 3147], [17015; 17054]); ([0; 2938], [17015; 17055]); ([0; 2737], [17015; 17056]); ([0; 2544], [17015; 17057]); ([0; 2359], [17015; 17058]); ([0; 2182], [17015; 17059]); ([0; 2013], [17015; 17060]); ([0; 1852], [17015; 17061]); ([0; 1699], [17015; 17062]); ([0; 1554], [17015; 17063]); ([0; 1417], [17015; 17064]); ([0; 1288], [17015; 17065]); ([0; 1167], [17015; 17066]); ([0; 1054], [17015; 17067]); ([0; 949], [17015; 17068]); ([0; 852], [17015; 17069]); ([0; 763], [17015; 17070]); ([0; 682], [17015; 17071]); ([0; 609], [17015; 17072]); ([0; 544], [17015; 17073]); ([0; 487], [17015; 17074]); ([0; 438], [17015; 17075]); ([0; 397], [17015; 17076]); ([0; 364], [17015; 17077]); ([0; 339], [17015; 17078]); ([0; 322], [17015; 17079])].
