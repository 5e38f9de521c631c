(** Generated by /verif/tools/gen_netlists.py from /repo/src/circuits/arithmetic/udivide64.txt. *)
From Verif Require Import Netlist.
Open Scope N_scope.
Open Scope list_scope.

(** Lines 5-404 of the file. *)
Definition udivide64_0 : list cg := [
  CA 127 126 128; CX 127 126 129; CX 129 128 130; CA 130 125 131; CX 130 125 132; CX 132 131 133; CA 133 124 134; CX 133 124 135;
  CX 135 134 136; CA 136 123 137; CX 136 123 138; CX 138 137 139; CA 139 122 140; CX 139 122 141; CX 141 140 142; CA 142 121 143;
  CX 142 121 144; CX 144 143 145; CA 145 120 146; CX 145 120 147; CX 147 146 148; CA 148 119 149; CX 148 119 150; CX 150 149 151;
  CA 151 118 152; CX 151 118 153; CX 153 152 154; CA 154 117 155; CX 154 117 156; CX 156 155 157; CA 157 116 158; CX 157 116 159;
  CX 159 158 160; CA 160 115 161; CX 160 115 162; CX 162 161 163; CA 163 114 164; CX 163 114 165; CX 165 164 166; CA 166 113 167;
  CX 166 113 168; CX 168 167 169; CA 169 112 170; CX 169 112 171; CX 171 170 172; CA 172 111 173; CX 172 111 174; CX 174 173 175;
  CA 175 110 176; CX 175 110 177; CX 177 176 178; CA 178 109 179; CX 178 109 180; CX 180 179 181; CA 181 108 182; CX 181 108 183;
  CX 183 182 184; CA 184 107 185; CX 184 107 186; CX 186 185 187; CA 187 106 188; CX 187 106 189; CX 189 188 190; CA 190 105 191;
  CX 190 105 192; CX 192 191 193; CA 193 104 194; CX 193 104 195; CX 195 194 196; CA 196 103 197; CX 196 103 198; CX 198 197 199;
  CA 199 102 200; CX 199 102 201; CX 201 200 202; CA 202 101 203; CX 202 101 204; CX 204 203 205; CA 205 100 206; CX 205 100 207;
  CX 207 206 208; CA 208 99 209; CX 208 99 210; CX 210 209 211; CA 211 98 212; CX 211 98 213; CX 213 212 214; CA 214 97 215;
  CX 214 97 216; CX 216 215 217; CA 217 96 218; CX 217 96 219; CX 219 218 220; CA 220 95 221; CX 220 95 222; CX 222 221 223;
  CA 223 94 224; CX 223 94 225; CX 225 224 226; CA 226 93 227; CX 226 93 228; CX 228 227 229; CA 229 92 230; CX 229 92 231;
  CX 231 230 232; CA 232 91 233; CX 232 91 234; CX 234 233 235; CA 235 90 236; CX 235 90 237; CX 237 236 238; CA 238 89 239;
  CX 238 89 240; CX 240 239 241; CA 241 88 242; CX 241 88 243; CX 243 242 244; CA 244 87 245; CX 244 87 246; CX 246 245 247;
  CA 247 86 248; CX 247 86 249; CX 249 248 250; CA 250 85 251; CX 250 85 252; CX 252 251 253; CA 253 84 254; CX 253 84 255;
  CX 255 254 256; CA 256 83 257; CX 256 83 258; CX 258 257 259; CA 259 82 260; CX 259 82 261; CX 261 260 262; CA 262 81 263;
  CX 262 81 264; CX 264 263 265; CA 265 80 266; CX 265 80 267; CX 267 266 268; CA 268 79 269; CX 268 79 270; CX 270 269 271;
  CA 271 78 272; CX 271 78 273; CX 273 272 274; CA 274 77 275; CX 274 77 276; CX 276 275 277; CA 277 76 278; CX 277 76 279;
  CX 279 278 280; CA 280 75 281; CX 280 75 282; CX 282 281 283; CA 283 74 284; CX 283 74 285; CX 285 284 286; CA 286 73 287;
  CX 286 73 288; CX 288 287 289; CA 289 72 290; CX 289 72 291; CX 291 290 292; CA 292 71 293; CX 292 71 294; CX 294 293 295;
  CA 295 70 296; CX 295 70 297; CX 297 296 298; CA 298 69 299; CX 298 69 300; CX 300 299 301; CA 301 68 302; CX 301 68 303;
  CX 303 302 304; CA 304 67 305; CX 304 67 306; CX 306 305 307; CA 307 66 308; CX 307 66 309; CX 309 308 310; CA 310 65 311;
  CX 310 65 312; CX 312 311 313; CX 63 64 314; CA 314 64 315; CA 315 313 316; CX 315 313 317; CX 317 316 318; CX 63 314 319;
  CA 318 319 320; CX 320 314 321; CI 318 322; CX 62 64 323; CA 323 64 324; CX 321 65 325; CX 324 65 326; CX 325 324 327;
  CA 325 326 328; CX 324 328 329; CA 329 310 330; CX 329 310 331; CX 331 330 332; CX 62 323 333; CA 332 333 334; CX 334 323 335;
  CX 321 327 336; CA 332 336 337; CX 337 327 338; CI 332 339; CX 61 64 340; CA 340 64 341; CX 335 65 342; CX 341 65 343;
  CX 342 341 344; CA 342 343 345; CX 341 345 346; CX 338 66 347; CX 346 66 348; CX 347 346 349; CA 347 348 350; CX 346 350 351;
  CA 351 307 352; CX 351 307 353; CX 353 352 354; CX 61 340 355; CA 354 355 356; CX 356 340 357; CX 335 344 358; CA 354 358 359;
  CX 359 344 360; CX 338 349 361; CA 354 361 362; CX 362 349 363; CI 354 364; CX 60 64 365; CA 365 64 366; CX 357 65 367;
  CX 366 65 368; CX 367 366 369; CA 367 368 370; CX 366 370 371; CX 360 66 372; CX 371 66 373; CX 372 371 374; CA 372 373 375;
  CX 371 375 376; CX 363 67 377; CX 376 67 378; CX 377 376 379; CA 377 378 380; CX 376 380 381; CA 381 304 382; CX 381 304 383;
  CX 383 382 384; CX 60 365 385; CA 384 385 386; CX 386 365 387; CX 357 369 388; CA 384 388 389; CX 389 369 390; CX 360 374 391;
  CA 384 391 392; CX 392 374 393; CX 363 379 394; CA 384 394 395; CX 395 379 396; CI 384 397; CX 59 64 398; CA 398 64 399;
  CX 387 65 400; CX 399 65 401; CX 400 399 402; CA 400 401 403; CX 399 403 404; CX 390 66 405; CX 404 66 406; CX 405 404 407;
  CA 405 406 408; CX 404 408 409; CX 393 67 410; CX 409 67 411; CX 410 409 412; CA 410 411 413; CX 409 413 414; CX 396 68 415;
  CX 414 68 416; CX 415 414 417; CA 415 416 418; CX 414 418 419; CA 419 301 420; CX 419 301 421; CX 421 420 422; CX 59 398 423;
  CA 422 423 424; CX 424 398 425; CX 387 402 426; CA 422 426 427; CX 427 402 428; CX 390 407 429; CA 422 429 430; CX 430 407 431;
  CX 393 412 432; CA 422 432 433; CX 433 412 434; CX 396 417 435; CA 422 435 436; CX 436 417 437; CI 422 438; CX 58 64 439;
  CA 439 64 440; CX 425 65 441; CX 440 65 442; CX 441 440 443; CA 441 442 444; CX 440 444 445; CX 428 66 446; CX 445 66 447;
  CX 446 445 448; CA 446 447 449; CX 445 449 450; CX 431 67 451; CX 450 67 452; CX 451 450 453; CA 451 452 454; CX 450 454 455;
  CX 434 68 456; CX 455 68 457; CX 456 455 458; CA 456 457 459; CX 455 459 460; CX 437 69 461; CX 460 69 462; CX 461 460 463;
  CA 461 462 464; CX 460 464 465; CA 465 298 466; CX 465 298 467; CX 467 466 468; CX 58 439 469; CA 468 469 470; CX 470 439 471;
  CX 425 443 472; CA 468 472 473; CX 473 443 474; CX 428 448 475; CA 468 475 476; CX 476 448 477; CX 431 453 478; CA 468 478 479;
  CX 479 453 480; CX 434 458 481; CA 468 481 482; CX 482 458 483; CX 437 463 484; CA 468 484 485; CX 485 463 486; CI 468 487;
  CX 57 64 488; CA 488 64 489; CX 471 65 490; CX 489 65 491; CX 490 489 492; CA 490 491 493; CX 489 493 494; CX 474 66 495;
  CX 494 66 496; CX 495 494 497; CA 495 496 498; CX 494 498 499; CX 477 67 500; CX 499 67 501; CX 500 499 502; CA 500 501 503;
  CX 499 503 504; CX 480 68 505; CX 504 68 506; CX 505 504 507; CA 505 506 508; CX 504 508 509; CX 483 69 510; CX 509 69 511;
  CX 510 509 512; CA 510 511 513; CX 509 513 514; CX 486 70 515; CX 514 70 516; CX 515 514 517; CA 515 516 518; CX 514 518 519;
  CA 519 295 520; CX 519 295 521; CX 521 520 522; CX 57 488 523; CA 522 523 524; CX 524 488 525; CX 471 492 526; CA 522 526 527].
(** Lines 405-804 of the file. *)
Definition udivide64_1 : list cg := [
  CX 527 492 528; CX 474 497 529; CA 522 529 530; CX 530 497 531; CX 477 502 532; CA 522 532 533; CX 533 502 534; CX 480 507 535;
  CA 522 535 536; CX 536 507 537; CX 483 512 538; CA 522 538 539; CX 539 512 540; CX 486 517 541; CA 522 541 542; CX 542 517 543;
  CI 522 544; CX 56 64 545; CA 545 64 546; CX 525 65 547; CX 546 65 548; CX 547 546 549; CA 547 548 550; CX 546 550 551;
  CX 528 66 552; CX 551 66 553; CX 552 551 554; CA 552 553 555; CX 551 555 556; CX 531 67 557; CX 556 67 558; CX 557 556 559;
  CA 557 558 560; CX 556 560 561; CX 534 68 562; CX 561 68 563; CX 562 561 564; CA 562 563 565; CX 561 565 566; CX 537 69 567;
  CX 566 69 568; CX 567 566 569; CA 567 568 570; CX 566 570 571; CX 540 70 572; CX 571 70 573; CX 572 571 574; CA 572 573 575;
  CX 571 575 576; CX 543 71 577; CX 576 71 578; CX 577 576 579; CA 577 578 580; CX 576 580 581; CA 581 292 582; CX 581 292 583;
  CX 583 582 584; CX 56 545 585; CA 584 585 586; CX 586 545 587; CX 525 549 588; CA 584 588 589; CX 589 549 590; CX 528 554 591;
  CA 584 591 592; CX 592 554 593; CX 531 559 594; CA 584 594 595; CX 595 559 596; CX 534 564 597; CA 584 597 598; CX 598 564 599;
  CX 537 569 600; CA 584 600 601; CX 601 569 602; CX 540 574 603; CA 584 603 604; CX 604 574 605; CX 543 579 606; CA 584 606 607;
  CX 607 579 608; CI 584 609; CX 55 64 610; CA 610 64 611; CX 587 65 612; CX 611 65 613; CX 612 611 614; CA 612 613 615;
  CX 611 615 616; CX 590 66 617; CX 616 66 618; CX 617 616 619; CA 617 618 620; CX 616 620 621; CX 593 67 622; CX 621 67 623;
  CX 622 621 624; CA 622 623 625; CX 621 625 626; CX 596 68 627; CX 626 68 628; CX 627 626 629; CA 627 628 630; CX 626 630 631;
  CX 599 69 632; CX 631 69 633; CX 632 631 634; CA 632 633 635; CX 631 635 636; CX 602 70 637; CX 636 70 638; CX 637 636 639;
  CA 637 638 640; CX 636 640 641; CX 605 71 642; CX 641 71 643; CX 642 641 644; CA 642 643 645; CX 641 645 646; CX 608 72 647;
  CX 646 72 648; CX 647 646 649; CA 647 648 650; CX 646 650 651; CA 651 289 652; CX 651 289 653; CX 653 652 654; CX 55 610 655;
  CA 654 655 656; CX 656 610 657; CX 587 614 658; CA 654 658 659; CX 659 614 660; CX 590 619 661; CA 654 661 662; CX 662 619 663;
  CX 593 624 664; CA 654 664 665; CX 665 624 666; CX 596 629 667; CA 654 667 668; CX 668 629 669; CX 599 634 670; CA 654 670 671;
  CX 671 634 672; CX 602 639 673; CA 654 673 674; CX 674 639 675; CX 605 644 676; CA 654 676 677; CX 677 644 678; CX 608 649 679;
  CA 654 679 680; CX 680 649 681; CI 654 682; CX 54 64 683; CA 683 64 684; CX 657 65 685; CX 684 65 686; CX 685 684 687;
  CA 685 686 688; CX 684 688 689; CX 660 66 690; CX 689 66 691; CX 690 689 692; CA 690 691 693; CX 689 693 694; CX 663 67 695;
  CX 694 67 696; CX 695 694 697; CA 695 696 698; CX 694 698 699; CX 666 68 700; CX 699 68 701; CX 700 699 702; CA 700 701 703;
  CX 699 703 704; CX 669 69 705; CX 704 69 706; CX 705 704 707; CA 705 706 708; CX 704 708 709; CX 672 70 710; CX 709 70 711;
  CX 710 709 712; CA 710 711 713; CX 709 713 714; CX 675 71 715; CX 714 71 716; CX 715 714 717; CA 715 716 718; CX 714 718 719;
  CX 678 72 720; CX 719 72 721; CX 720 719 722; CA 720 721 723; CX 719 723 724; CX 681 73 725; CX 724 73 726; CX 725 724 727;
  CA 725 726 728; CX 724 728 729; CA 729 286 730; CX 729 286 731; CX 731 730 732; CX 54 683 733; CA 732 733 734; CX 734 683 735;
  CX 657 687 736; CA 732 736 737; CX 737 687 738; CX 660 692 739; CA 732 739 740; CX 740 692 741; CX 663 697 742; CA 732 742 743;
  CX 743 697 744; CX 666 702 745; CA 732 745 746; CX 746 702 747; CX 669 707 748; CA 732 748 749; CX 749 707 750; CX 672 712 751;
  CA 732 751 752; CX 752 712 753; CX 675 717 754; CA 732 754 755; CX 755 717 756; CX 678 722 757; CA 732 757 758; CX 758 722 759;
  CX 681 727 760; CA 732 760 761; CX 761 727 762; CI 732 763; CX 53 64 764; CA 764 64 765; CX 735 65 766; CX 765 65 767;
  CX 766 765 768; CA 766 767 769; CX 765 769 770; CX 738 66 771; CX 770 66 772; CX 771 770 773; CA 771 772 774; CX 770 774 775;
  CX 741 67 776; CX 775 67 777; CX 776 775 778; CA 776 777 779; CX 775 779 780; CX 744 68 781; CX 780 68 782; CX 781 780 783;
  CA 781 782 784; CX 780 784 785; CX 747 69 786; CX 785 69 787; CX 786 785 788; CA 786 787 789; CX 785 789 790; CX 750 70 791;
  CX 790 70 792; CX 791 790 793; CA 791 792 794; CX 790 794 795; CX 753 71 796; CX 795 71 797; CX 796 795 798; CA 796 797 799;
  CX 795 799 800; CX 756 72 801; CX 800 72 802; CX 801 800 803; CA 801 802 804; CX 800 804 805; CX 759 73 806; CX 805 73 807;
  CX 806 805 808; CA 806 807 809; CX 805 809 810; CX 762 74 811; CX 810 74 812; CX 811 810 813; CA 811 812 814; CX 810 814 815;
  CA 815 283 816; CX 815 283 817; CX 817 816 818; CX 53 764 819; CA 818 819 820; CX 820 764 821; CX 735 768 822; CA 818 822 823;
  CX 823 768 824; CX 738 773 825; CA 818 825 826; CX 826 773 827; CX 741 778 828; CA 818 828 829; CX 829 778 830; CX 744 783 831;
  CA 818 831 832; CX 832 783 833; CX 747 788 834; CA 818 834 835; CX 835 788 836; CX 750 793 837; CA 818 837 838; CX 838 793 839;
  CX 753 798 840; CA 818 840 841; CX 841 798 842; CX 756 803 843; CA 818 843 844; CX 844 803 845; CX 759 808 846; CA 818 846 847;
  CX 847 808 848; CX 762 813 849; CA 818 849 850; CX 850 813 851; CI 818 852; CX 52 64 853; CA 853 64 854; CX 821 65 855;
  CX 854 65 856; CX 855 854 857; CA 855 856 858; CX 854 858 859; CX 824 66 860; CX 859 66 861; CX 860 859 862; CA 860 861 863;
  CX 859 863 864; CX 827 67 865; CX 864 67 866; CX 865 864 867; CA 865 866 868; CX 864 868 869; CX 830 68 870; CX 869 68 871;
  CX 870 869 872; CA 870 871 873; CX 869 873 874; CX 833 69 875; CX 874 69 876; CX 875 874 877; CA 875 876 878; CX 874 878 879;
  CX 836 70 880; CX 879 70 881; CX 880 879 882; CA 880 881 883; CX 879 883 884; CX 839 71 885; CX 884 71 886; CX 885 884 887;
  CA 885 886 888; CX 884 888 889; CX 842 72 890; CX 889 72 891; CX 890 889 892; CA 890 891 893; CX 889 893 894; CX 845 73 895;
  CX 894 73 896; CX 895 894 897; CA 895 896 898; CX 894 898 899; CX 848 74 900; CX 899 74 901; CX 900 899 902; CA 900 901 903;
  CX 899 903 904; CX 851 75 905; CX 904 75 906; CX 905 904 907; CA 905 906 908; CX 904 908 909; CA 909 280 910; CX 909 280 911;
  CX 911 910 912; CX 52 853 913; CA 912 913 914; CX 914 853 915; CX 821 857 916; CA 912 916 917; CX 917 857 918; CX 824 862 919;
  CA 912 919 920; CX 920 862 921; CX 827 867 922; CA 912 922 923; CX 923 867 924; CX 830 872 925; CA 912 925 926; CX 926 872 927].
(** Lines 805-1204 of the file. *)
Definition udivide64_2 : list cg := [
  CX 833 877 928; CA 912 928 929; CX 929 877 930; CX 836 882 931; CA 912 931 932; CX 932 882 933; CX 839 887 934; CA 912 934 935;
  CX 935 887 936; CX 842 892 937; CA 912 937 938; CX 938 892 939; CX 845 897 940; CA 912 940 941; CX 941 897 942; CX 848 902 943;
  CA 912 943 944; CX 944 902 945; CX 851 907 946; CA 912 946 947; CX 947 907 948; CI 912 949; CX 51 64 950; CA 950 64 951;
  CX 915 65 952; CX 951 65 953; CX 952 951 954; CA 952 953 955; CX 951 955 956; CX 918 66 957; CX 956 66 958; CX 957 956 959;
  CA 957 958 960; CX 956 960 961; CX 921 67 962; CX 961 67 963; CX 962 961 964; CA 962 963 965; CX 961 965 966; CX 924 68 967;
  CX 966 68 968; CX 967 966 969; CA 967 968 970; CX 966 970 971; CX 927 69 972; CX 971 69 973; CX 972 971 974; CA 972 973 975;
  CX 971 975 976; CX 930 70 977; CX 976 70 978; CX 977 976 979; CA 977 978 980; CX 976 980 981; CX 933 71 982; CX 981 71 983;
  CX 982 981 984; CA 982 983 985; CX 981 985 986; CX 936 72 987; CX 986 72 988; CX 987 986 989; CA 987 988 990; CX 986 990 991;
  CX 939 73 992; CX 991 73 993; CX 992 991 994; CA 992 993 995; CX 991 995 996; CX 942 74 997; CX 996 74 998; CX 997 996 999;
  CA 997 998 1000; CX 996 1000 1001; CX 945 75 1002; CX 1001 75 1003; CX 1002 1001 1004; CA 1002 1003 1005; CX 1001 1005 1006; CX 948 76 1007;
  CX 1006 76 1008; CX 1007 1006 1009; CA 1007 1008 1010; CX 1006 1010 1011; CA 1011 277 1012; CX 1011 277 1013; CX 1013 1012 1014; CX 51 950 1015;
  CA 1014 1015 1016; CX 1016 950 1017; CX 915 954 1018; CA 1014 1018 1019; CX 1019 954 1020; CX 918 959 1021; CA 1014 1021 1022; CX 1022 959 1023;
  CX 921 964 1024; CA 1014 1024 1025; CX 1025 964 1026; CX 924 969 1027; CA 1014 1027 1028; CX 1028 969 1029; CX 927 974 1030; CA 1014 1030 1031;
  CX 1031 974 1032; CX 930 979 1033; CA 1014 1033 1034; CX 1034 979 1035; CX 933 984 1036; CA 1014 1036 1037; CX 1037 984 1038; CX 936 989 1039;
  CA 1014 1039 1040; CX 1040 989 1041; CX 939 994 1042; CA 1014 1042 1043; CX 1043 994 1044; CX 942 999 1045; CA 1014 1045 1046; CX 1046 999 1047;
  CX 945 1004 1048; CA 1014 1048 1049; CX 1049 1004 1050; CX 948 1009 1051; CA 1014 1051 1052; CX 1052 1009 1053; CI 1014 1054; CX 50 64 1055;
  CA 1055 64 1056; CX 1017 65 1057; CX 1056 65 1058; CX 1057 1056 1059; CA 1057 1058 1060; CX 1056 1060 1061; CX 1020 66 1062; CX 1061 66 1063;
  CX 1062 1061 1064; CA 1062 1063 1065; CX 1061 1065 1066; CX 1023 67 1067; CX 1066 67 1068; CX 1067 1066 1069; CA 1067 1068 1070; CX 1066 1070 1071;
  CX 1026 68 1072; CX 1071 68 1073; CX 1072 1071 1074; CA 1072 1073 1075; CX 1071 1075 1076; CX 1029 69 1077; CX 1076 69 1078; CX 1077 1076 1079;
  CA 1077 1078 1080; CX 1076 1080 1081; CX 1032 70 1082; CX 1081 70 1083; CX 1082 1081 1084; CA 1082 1083 1085; CX 1081 1085 1086; CX 1035 71 1087;
  CX 1086 71 1088; CX 1087 1086 1089; CA 1087 1088 1090; CX 1086 1090 1091; CX 1038 72 1092; CX 1091 72 1093; CX 1092 1091 1094; CA 1092 1093 1095;
  CX 1091 1095 1096; CX 1041 73 1097; CX 1096 73 1098; CX 1097 1096 1099; CA 1097 1098 1100; CX 1096 1100 1101; CX 1044 74 1102; CX 1101 74 1103;
  CX 1102 1101 1104; CA 1102 1103 1105; CX 1101 1105 1106; CX 1047 75 1107; CX 1106 75 1108; CX 1107 1106 1109; CA 1107 1108 1110; CX 1106 1110 1111;
  CX 1050 76 1112; CX 1111 76 1113; CX 1112 1111 1114; CA 1112 1113 1115; CX 1111 1115 1116; CX 1053 77 1117; CX 1116 77 1118; CX 1117 1116 1119;
  CA 1117 1118 1120; CX 1116 1120 1121; CA 1121 274 1122; CX 1121 274 1123; CX 1123 1122 1124; CX 50 1055 1125; CA 1124 1125 1126; CX 1126 1055 1127;
  CX 1017 1059 1128; CA 1124 1128 1129; CX 1129 1059 1130; CX 1020 1064 1131; CA 1124 1131 1132; CX 1132 1064 1133; CX 1023 1069 1134; CA 1124 1134 1135;
  CX 1135 1069 1136; CX 1026 1074 1137; CA 1124 1137 1138; CX 1138 1074 1139; CX 1029 1079 1140; CA 1124 1140 1141; CX 1141 1079 1142; CX 1032 1084 1143;
  CA 1124 1143 1144; CX 1144 1084 1145; CX 1035 1089 1146; CA 1124 1146 1147; CX 1147 1089 1148; CX 1038 1094 1149; CA 1124 1149 1150; CX 1150 1094 1151;
  CX 1041 1099 1152; CA 1124 1152 1153; CX 1153 1099 1154; CX 1044 1104 1155; CA 1124 1155 1156; CX 1156 1104 1157; CX 1047 1109 1158; CA 1124 1158 1159;
  CX 1159 1109 1160; CX 1050 1114 1161; CA 1124 1161 1162; CX 1162 1114 1163; CX 1053 1119 1164; CA 1124 1164 1165; CX 1165 1119 1166; CI 1124 1167;
  CX 49 64 1168; CA 1168 64 1169; CX 1127 65 1170; CX 1169 65 1171; CX 1170 1169 1172; CA 1170 1171 1173; CX 1169 1173 1174; CX 1130 66 1175;
  CX 1174 66 1176; CX 1175 1174 1177; CA 1175 1176 1178; CX 1174 1178 1179; CX 1133 67 1180; CX 1179 67 1181; CX 1180 1179 1182; CA 1180 1181 1183;
  CX 1179 1183 1184; CX 1136 68 1185; CX 1184 68 1186; CX 1185 1184 1187; CA 1185 1186 1188; CX 1184 1188 1189; CX 1139 69 1190; CX 1189 69 1191;
  CX 1190 1189 1192; CA 1190 1191 1193; CX 1189 1193 1194; CX 1142 70 1195; CX 1194 70 1196; CX 1195 1194 1197; CA 1195 1196 1198; CX 1194 1198 1199;
  CX 1145 71 1200; CX 1199 71 1201; CX 1200 1199 1202; CA 1200 1201 1203; CX 1199 1203 1204; CX 1148 72 1205; CX 1204 72 1206; CX 1205 1204 1207;
  CA 1205 1206 1208; CX 1204 1208 1209; CX 1151 73 1210; CX 1209 73 1211; CX 1210 1209 1212; CA 1210 1211 1213; CX 1209 1213 1214; CX 1154 74 1215;
  CX 1214 74 1216; CX 1215 1214 1217; CA 1215 1216 1218; CX 1214 1218 1219; CX 1157 75 1220; CX 1219 75 1221; CX 1220 1219 1222; CA 1220 1221 1223;
  CX 1219 1223 1224; CX 1160 76 1225; CX 1224 76 1226; CX 1225 1224 1227; CA 1225 1226 1228; CX 1224 1228 1229; CX 1163 77 1230; CX 1229 77 1231;
  CX 1230 1229 1232; CA 1230 1231 1233; CX 1229 1233 1234; CX 1166 78 1235; CX 1234 78 1236; CX 1235 1234 1237; CA 1235 1236 1238; CX 1234 1238 1239;
  CA 1239 271 1240; CX 1239 271 1241; CX 1241 1240 1242; CX 49 1168 1243; CA 1242 1243 1244; CX 1244 1168 1245; CX 1127 1172 1246; CA 1242 1246 1247;
  CX 1247 1172 1248; CX 1130 1177 1249; CA 1242 1249 1250; CX 1250 1177 1251; CX 1133 1182 1252; CA 1242 1252 1253; CX 1253 1182 1254; CX 1136 1187 1255;
  CA 1242 1255 1256; CX 1256 1187 1257; CX 1139 1192 1258; CA 1242 1258 1259; CX 1259 1192 1260; CX 1142 1197 1261; CA 1242 1261 1262; CX 1262 1197 1263;
  CX 1145 1202 1264; CA 1242 1264 1265; CX 1265 1202 1266; CX 1148 1207 1267; CA 1242 1267 1268; CX 1268 1207 1269; CX 1151 1212 1270; CA 1242 1270 1271;
  CX 1271 1212 1272; CX 1154 1217 1273; CA 1242 1273 1274; CX 1274 1217 1275; CX 1157 1222 1276; CA 1242 1276 1277; CX 1277 1222 1278; CX 1160 1227 1279;
  CA 1242 1279 1280; CX 1280 1227 1281; CX 1163 1232 1282; CA 1242 1282 1283; CX 1283 1232 1284; CX 1166 1237 1285; CA 1242 1285 1286; CX 1286 1237 1287;
  CI 1242 1288; CX 48 64 1289; CA 1289 64 1290; CX 1245 65 1291; CX 1290 65 1292; CX 1291 1290 1293; CA 1291 1292 1294; CX 1290 1294 1295;
  CX 1248 66 1296; CX 1295 66 1297; CX 1296 1295 1298; CA 1296 1297 1299; CX 1295 1299 1300; CX 1251 67 1301; CX 1300 67 1302; CX 1301 1300 1303;
  CA 1301 1302 1304; CX 1300 1304 1305; CX 1254 68 1306; CX 1305 68 1307; CX 1306 1305 1308; CA 1306 1307 1309; CX 1305 1309 1310; CX 1257 69 1311;
  CX 1310 69 1312; CX 1311 1310 1313; CA 1311 1312 1314; CX 1310 1314 1315; CX 1260 70 1316; CX 1315 70 1317; CX 1316 1315 1318; CA 1316 1317 1319;
  CX 1315 1319 1320; CX 1263 71 1321; CX 1320 71 1322; CX 1321 1320 1323; CA 1321 1322 1324; CX 1320 1324 1325; CX 1266 72 1326; CX 1325 72 1327].
(** Lines 1205-1604 of the file. *)
Definition udivide64_3 : list cg := [
  CX 1326 1325 1328; CA 1326 1327 1329; CX 1325 1329 1330; CX 1269 73 1331; CX 1330 73 1332; CX 1331 1330 1333; CA 1331 1332 1334; CX 1330 1334 1335;
  CX 1272 74 1336; CX 1335 74 1337; CX 1336 1335 1338; CA 1336 1337 1339; CX 1335 1339 1340; CX 1275 75 1341; CX 1340 75 1342; CX 1341 1340 1343;
  CA 1341 1342 1344; CX 1340 1344 1345; CX 1278 76 1346; CX 1345 76 1347; CX 1346 1345 1348; CA 1346 1347 1349; CX 1345 1349 1350; CX 1281 77 1351;
  CX 1350 77 1352; CX 1351 1350 1353; CA 1351 1352 1354; CX 1350 1354 1355; CX 1284 78 1356; CX 1355 78 1357; CX 1356 1355 1358; CA 1356 1357 1359;
  CX 1355 1359 1360; CX 1287 79 1361; CX 1360 79 1362; CX 1361 1360 1363; CA 1361 1362 1364; CX 1360 1364 1365; CA 1365 268 1366; CX 1365 268 1367;
  CX 1367 1366 1368; CX 48 1289 1369; CA 1368 1369 1370; CX 1370 1289 1371; CX 1245 1293 1372; CA 1368 1372 1373; CX 1373 1293 1374; CX 1248 1298 1375;
  CA 1368 1375 1376; CX 1376 1298 1377; CX 1251 1303 1378; CA 1368 1378 1379; CX 1379 1303 1380; CX 1254 1308 1381; CA 1368 1381 1382; CX 1382 1308 1383;
  CX 1257 1313 1384; CA 1368 1384 1385; CX 1385 1313 1386; CX 1260 1318 1387; CA 1368 1387 1388; CX 1388 1318 1389; CX 1263 1323 1390; CA 1368 1390 1391;
  CX 1391 1323 1392; CX 1266 1328 1393; CA 1368 1393 1394; CX 1394 1328 1395; CX 1269 1333 1396; CA 1368 1396 1397; CX 1397 1333 1398; CX 1272 1338 1399;
  CA 1368 1399 1400; CX 1400 1338 1401; CX 1275 1343 1402; CA 1368 1402 1403; CX 1403 1343 1404; CX 1278 1348 1405; CA 1368 1405 1406; CX 1406 1348 1407;
  CX 1281 1353 1408; CA 1368 1408 1409; CX 1409 1353 1410; CX 1284 1358 1411; CA 1368 1411 1412; CX 1412 1358 1413; CX 1287 1363 1414; CA 1368 1414 1415;
  CX 1415 1363 1416; CI 1368 1417; CX 47 64 1418; CA 1418 64 1419; CX 1371 65 1420; CX 1419 65 1421; CX 1420 1419 1422; CA 1420 1421 1423;
  CX 1419 1423 1424; CX 1374 66 1425; CX 1424 66 1426; CX 1425 1424 1427; CA 1425 1426 1428; CX 1424 1428 1429; CX 1377 67 1430; CX 1429 67 1431;
  CX 1430 1429 1432; CA 1430 1431 1433; CX 1429 1433 1434; CX 1380 68 1435; CX 1434 68 1436; CX 1435 1434 1437; CA 1435 1436 1438; CX 1434 1438 1439;
  CX 1383 69 1440; CX 1439 69 1441; CX 1440 1439 1442; CA 1440 1441 1443; CX 1439 1443 1444; CX 1386 70 1445; CX 1444 70 1446; CX 1445 1444 1447;
  CA 1445 1446 1448; CX 1444 1448 1449; CX 1389 71 1450; CX 1449 71 1451; CX 1450 1449 1452; CA 1450 1451 1453; CX 1449 1453 1454; CX 1392 72 1455;
  CX 1454 72 1456; CX 1455 1454 1457; CA 1455 1456 1458; CX 1454 1458 1459; CX 1395 73 1460; CX 1459 73 1461; CX 1460 1459 1462; CA 1460 1461 1463;
  CX 1459 1463 1464; CX 1398 74 1465; CX 1464 74 1466; CX 1465 1464 1467; CA 1465 1466 1468; CX 1464 1468 1469; CX 1401 75 1470; CX 1469 75 1471;
  CX 1470 1469 1472; CA 1470 1471 1473; CX 1469 1473 1474; CX 1404 76 1475; CX 1474 76 1476; CX 1475 1474 1477; CA 1475 1476 1478; CX 1474 1478 1479;
  CX 1407 77 1480; CX 1479 77 1481; CX 1480 1479 1482; CA 1480 1481 1483; CX 1479 1483 1484; CX 1410 78 1485; CX 1484 78 1486; CX 1485 1484 1487;
  CA 1485 1486 1488; CX 1484 1488 1489; CX 1413 79 1490; CX 1489 79 1491; CX 1490 1489 1492; CA 1490 1491 1493; CX 1489 1493 1494; CX 1416 80 1495;
  CX 1494 80 1496; CX 1495 1494 1497; CA 1495 1496 1498; CX 1494 1498 1499; CA 1499 265 1500; CX 1499 265 1501; CX 1501 1500 1502; CX 47 1418 1503;
  CA 1502 1503 1504; CX 1504 1418 1505; CX 1371 1422 1506; CA 1502 1506 1507; CX 1507 1422 1508; CX 1374 1427 1509; CA 1502 1509 1510; CX 1510 1427 1511;
  CX 1377 1432 1512; CA 1502 1512 1513; CX 1513 1432 1514; CX 1380 1437 1515; CA 1502 1515 1516; CX 1516 1437 1517; CX 1383 1442 1518; CA 1502 1518 1519;
  CX 1519 1442 1520; CX 1386 1447 1521; CA 1502 1521 1522; CX 1522 1447 1523; CX 1389 1452 1524; CA 1502 1524 1525; CX 1525 1452 1526; CX 1392 1457 1527;
  CA 1502 1527 1528; CX 1528 1457 1529; CX 1395 1462 1530; CA 1502 1530 1531; CX 1531 1462 1532; CX 1398 1467 1533; CA 1502 1533 1534; CX 1534 1467 1535;
  CX 1401 1472 1536; CA 1502 1536 1537; CX 1537 1472 1538; CX 1404 1477 1539; CA 1502 1539 1540; CX 1540 1477 1541; CX 1407 1482 1542; CA 1502 1542 1543;
  CX 1543 1482 1544; CX 1410 1487 1545; CA 1502 1545 1546; CX 1546 1487 1547; CX 1413 1492 1548; CA 1502 1548 1549; CX 1549 1492 1550; CX 1416 1497 1551;
  CA 1502 1551 1552; CX 1552 1497 1553; CI 1502 1554; CX 46 64 1555; CA 1555 64 1556; CX 1505 65 1557; CX 1556 65 1558; CX 1557 1556 1559;
  CA 1557 1558 1560; CX 1556 1560 1561; CX 1508 66 1562; CX 1561 66 1563; CX 1562 1561 1564; CA 1562 1563 1565; CX 1561 1565 1566; CX 1511 67 1567;
  CX 1566 67 1568; CX 1567 1566 1569; CA 1567 1568 1570; CX 1566 1570 1571; CX 1514 68 1572; CX 1571 68 1573; CX 1572 1571 1574; CA 1572 1573 1575;
  CX 1571 1575 1576; CX 1517 69 1577; CX 1576 69 1578; CX 1577 1576 1579; CA 1577 1578 1580; CX 1576 1580 1581; CX 1520 70 1582; CX 1581 70 1583;
  CX 1582 1581 1584; CA 1582 1583 1585; CX 1581 1585 1586; CX 1523 71 1587; CX 1586 71 1588; CX 1587 1586 1589; CA 1587 1588 1590; CX 1586 1590 1591;
  CX 1526 72 1592; CX 1591 72 1593; CX 1592 1591 1594; CA 1592 1593 1595; CX 1591 1595 1596; CX 1529 73 1597; CX 1596 73 1598; CX 1597 1596 1599;
  CA 1597 1598 1600; CX 1596 1600 1601; CX 1532 74 1602; CX 1601 74 1603; CX 1602 1601 1604; CA 1602 1603 1605; CX 1601 1605 1606; CX 1535 75 1607;
  CX 1606 75 1608; CX 1607 1606 1609; CA 1607 1608 1610; CX 1606 1610 1611; CX 1538 76 1612; CX 1611 76 1613; CX 1612 1611 1614; CA 1612 1613 1615;
  CX 1611 1615 1616; CX 1541 77 1617; CX 1616 77 1618; CX 1617 1616 1619; CA 1617 1618 1620; CX 1616 1620 1621; CX 1544 78 1622; CX 1621 78 1623;
  CX 1622 1621 1624; CA 1622 1623 1625; CX 1621 1625 1626; CX 1547 79 1627; CX 1626 79 1628; CX 1627 1626 1629; CA 1627 1628 1630; CX 1626 1630 1631;
  CX 1550 80 1632; CX 1631 80 1633; CX 1632 1631 1634; CA 1632 1633 1635; CX 1631 1635 1636; CX 1553 81 1637; CX 1636 81 1638; CX 1637 1636 1639;
  CA 1637 1638 1640; CX 1636 1640 1641; CA 1641 262 1642; CX 1641 262 1643; CX 1643 1642 1644; CX 46 1555 1645; CA 1644 1645 1646; CX 1646 1555 1647;
  CX 1505 1559 1648; CA 1644 1648 1649; CX 1649 1559 1650; CX 1508 1564 1651; CA 1644 1651 1652; CX 1652 1564 1653; CX 1511 1569 1654; CA 1644 1654 1655;
  CX 1655 1569 1656; CX 1514 1574 1657; CA 1644 1657 1658; CX 1658 1574 1659; CX 1517 1579 1660; CA 1644 1660 1661; CX 1661 1579 1662; CX 1520 1584 1663;
  CA 1644 1663 1664; CX 1664 1584 1665; CX 1523 1589 1666; CA 1644 1666 1667; CX 1667 1589 1668; CX 1526 1594 1669; CA 1644 1669 1670; CX 1670 1594 1671;
  CX 1529 1599 1672; CA 1644 1672 1673; CX 1673 1599 1674; CX 1532 1604 1675; CA 1644 1675 1676; CX 1676 1604 1677; CX 1535 1609 1678; CA 1644 1678 1679;
  CX 1679 1609 1680; CX 1538 1614 1681; CA 1644 1681 1682; CX 1682 1614 1683; CX 1541 1619 1684; CA 1644 1684 1685; CX 1685 1619 1686; CX 1544 1624 1687;
  CA 1644 1687 1688; CX 1688 1624 1689; CX 1547 1629 1690; CA 1644 1690 1691; CX 1691 1629 1692; CX 1550 1634 1693; CA 1644 1693 1694; CX 1694 1634 1695;
  CX 1553 1639 1696; CA 1644 1696 1697; CX 1697 1639 1698; CI 1644 1699; CX 45 64 1700; CA 1700 64 1701; CX 1647 65 1702; CX 1701 65 1703;
  CX 1702 1701 1704; CA 1702 1703 1705; CX 1701 1705 1706; CX 1650 66 1707; CX 1706 66 1708; CX 1707 1706 1709; CA 1707 1708 1710; CX 1706 1710 1711;
  CX 1653 67 1712; CX 1711 67 1713; CX 1712 1711 1714; CA 1712 1713 1715; CX 1711 1715 1716; CX 1656 68 1717; CX 1716 68 1718; CX 1717 1716 1719;
  CA 1717 1718 1720; CX 1716 1720 1721; CX 1659 69 1722; CX 1721 69 1723; CX 1722 1721 1724; CA 1722 1723 1725; CX 1721 1725 1726; CX 1662 70 1727].
(** Lines 1605-2004 of the file. *)
Definition udivide64_4 : list cg := [
  CX 1726 70 1728; CX 1727 1726 1729; CA 1727 1728 1730; CX 1726 1730 1731; CX 1665 71 1732; CX 1731 71 1733; CX 1732 1731 1734; CA 1732 1733 1735;
  CX 1731 1735 1736; CX 1668 72 1737; CX 1736 72 1738; CX 1737 1736 1739; CA 1737 1738 1740; CX 1736 1740 1741; CX 1671 73 1742; CX 1741 73 1743;
  CX 1742 1741 1744; CA 1742 1743 1745; CX 1741 1745 1746; CX 1674 74 1747; CX 1746 74 1748; CX 1747 1746 1749; CA 1747 1748 1750; CX 1746 1750 1751;
  CX 1677 75 1752; CX 1751 75 1753; CX 1752 1751 1754; CA 1752 1753 1755; CX 1751 1755 1756; CX 1680 76 1757; CX 1756 76 1758; CX 1757 1756 1759;
  CA 1757 1758 1760; CX 1756 1760 1761; CX 1683 77 1762; CX 1761 77 1763; CX 1762 1761 1764; CA 1762 1763 1765; CX 1761 1765 1766; CX 1686 78 1767;
  CX 1766 78 1768; CX 1767 1766 1769; CA 1767 1768 1770; CX 1766 1770 1771; CX 1689 79 1772; CX 1771 79 1773; CX 1772 1771 1774; CA 1772 1773 1775;
  CX 1771 1775 1776; CX 1692 80 1777; CX 1776 80 1778; CX 1777 1776 1779; CA 1777 1778 1780; CX 1776 1780 1781; CX 1695 81 1782; CX 1781 81 1783;
  CX 1782 1781 1784; CA 1782 1783 1785; CX 1781 1785 1786; CX 1698 82 1787; CX 1786 82 1788; CX 1787 1786 1789; CA 1787 1788 1790; CX 1786 1790 1791;
  CA 1791 259 1792; CX 1791 259 1793; CX 1793 1792 1794; CX 45 1700 1795; CA 1794 1795 1796; CX 1796 1700 1797; CX 1647 1704 1798; CA 1794 1798 1799;
  CX 1799 1704 1800; CX 1650 1709 1801; CA 1794 1801 1802; CX 1802 1709 1803; CX 1653 1714 1804; CA 1794 1804 1805; CX 1805 1714 1806; CX 1656 1719 1807;
  CA 1794 1807 1808; CX 1808 1719 1809; CX 1659 1724 1810; CA 1794 1810 1811; CX 1811 1724 1812; CX 1662 1729 1813; CA 1794 1813 1814; CX 1814 1729 1815;
  CX 1665 1734 1816; CA 1794 1816 1817; CX 1817 1734 1818; CX 1668 1739 1819; CA 1794 1819 1820; CX 1820 1739 1821; CX 1671 1744 1822; CA 1794 1822 1823;
  CX 1823 1744 1824; CX 1674 1749 1825; CA 1794 1825 1826; CX 1826 1749 1827; CX 1677 1754 1828; CA 1794 1828 1829; CX 1829 1754 1830; CX 1680 1759 1831;
  CA 1794 1831 1832; CX 1832 1759 1833; CX 1683 1764 1834; CA 1794 1834 1835; CX 1835 1764 1836; CX 1686 1769 1837; CA 1794 1837 1838; CX 1838 1769 1839;
  CX 1689 1774 1840; CA 1794 1840 1841; CX 1841 1774 1842; CX 1692 1779 1843; CA 1794 1843 1844; CX 1844 1779 1845; CX 1695 1784 1846; CA 1794 1846 1847;
  CX 1847 1784 1848; CX 1698 1789 1849; CA 1794 1849 1850; CX 1850 1789 1851; CI 1794 1852; CX 44 64 1853; CA 1853 64 1854; CX 1797 65 1855;
  CX 1854 65 1856; CX 1855 1854 1857; CA 1855 1856 1858; CX 1854 1858 1859; CX 1800 66 1860; CX 1859 66 1861; CX 1860 1859 1862; CA 1860 1861 1863;
  CX 1859 1863 1864; CX 1803 67 1865; CX 1864 67 1866; CX 1865 1864 1867; CA 1865 1866 1868; CX 1864 1868 1869; CX 1806 68 1870; CX 1869 68 1871;
  CX 1870 1869 1872; CA 1870 1871 1873; CX 1869 1873 1874; CX 1809 69 1875; CX 1874 69 1876; CX 1875 1874 1877; CA 1875 1876 1878; CX 1874 1878 1879;
  CX 1812 70 1880; CX 1879 70 1881; CX 1880 1879 1882; CA 1880 1881 1883; CX 1879 1883 1884; CX 1815 71 1885; CX 1884 71 1886; CX 1885 1884 1887;
  CA 1885 1886 1888; CX 1884 1888 1889; CX 1818 72 1890; CX 1889 72 1891; CX 1890 1889 1892; CA 1890 1891 1893; CX 1889 1893 1894; CX 1821 73 1895;
  CX 1894 73 1896; CX 1895 1894 1897; CA 1895 1896 1898; CX 1894 1898 1899; CX 1824 74 1900; CX 1899 74 1901; CX 1900 1899 1902; CA 1900 1901 1903;
  CX 1899 1903 1904; CX 1827 75 1905; CX 1904 75 1906; CX 1905 1904 1907; CA 1905 1906 1908; CX 1904 1908 1909; CX 1830 76 1910; CX 1909 76 1911;
  CX 1910 1909 1912; CA 1910 1911 1913; CX 1909 1913 1914; CX 1833 77 1915; CX 1914 77 1916; CX 1915 1914 1917; CA 1915 1916 1918; CX 1914 1918 1919;
  CX 1836 78 1920; CX 1919 78 1921; CX 1920 1919 1922; CA 1920 1921 1923; CX 1919 1923 1924; CX 1839 79 1925; CX 1924 79 1926; CX 1925 1924 1927;
  CA 1925 1926 1928; CX 1924 1928 1929; CX 1842 80 1930; CX 1929 80 1931; CX 1930 1929 1932; CA 1930 1931 1933; CX 1929 1933 1934; CX 1845 81 1935;
  CX 1934 81 1936; CX 1935 1934 1937; CA 1935 1936 1938; CX 1934 1938 1939; CX 1848 82 1940; CX 1939 82 1941; CX 1940 1939 1942; CA 1940 1941 1943;
  CX 1939 1943 1944; CX 1851 83 1945; CX 1944 83 1946; CX 1945 1944 1947; CA 1945 1946 1948; CX 1944 1948 1949; CA 1949 256 1950; CX 1949 256 1951;
  CX 1951 1950 1952; CX 44 1853 1953; CA 1952 1953 1954; CX 1954 1853 1955; CX 1797 1857 1956; CA 1952 1956 1957; CX 1957 1857 1958; CX 1800 1862 1959;
  CA 1952 1959 1960; CX 1960 1862 1961; CX 1803 1867 1962; CA 1952 1962 1963; CX 1963 1867 1964; CX 1806 1872 1965; CA 1952 1965 1966; CX 1966 1872 1967;
  CX 1809 1877 1968; CA 1952 1968 1969; CX 1969 1877 1970; CX 1812 1882 1971; CA 1952 1971 1972; CX 1972 1882 1973; CX 1815 1887 1974; CA 1952 1974 1975;
  CX 1975 1887 1976; CX 1818 1892 1977; CA 1952 1977 1978; CX 1978 1892 1979; CX 1821 1897 1980; CA 1952 1980 1981; CX 1981 1897 1982; CX 1824 1902 1983;
  CA 1952 1983 1984; CX 1984 1902 1985; CX 1827 1907 1986; CA 1952 1986 1987; CX 1987 1907 1988; CX 1830 1912 1989; CA 1952 1989 1990; CX 1990 1912 1991;
  CX 1833 1917 1992; CA 1952 1992 1993; CX 1993 1917 1994; CX 1836 1922 1995; CA 1952 1995 1996; CX 1996 1922 1997; CX 1839 1927 1998; CA 1952 1998 1999;
  CX 1999 1927 2000; CX 1842 1932 2001; CA 1952 2001 2002; CX 2002 1932 2003; CX 1845 1937 2004; CA 1952 2004 2005; CX 2005 1937 2006; CX 1848 1942 2007;
  CA 1952 2007 2008; CX 2008 1942 2009; CX 1851 1947 2010; CA 1952 2010 2011; CX 2011 1947 2012; CI 1952 2013; CX 43 64 2014; CA 2014 64 2015;
  CX 1955 65 2016; CX 2015 65 2017; CX 2016 2015 2018; CA 2016 2017 2019; CX 2015 2019 2020; CX 1958 66 2021; CX 2020 66 2022; CX 2021 2020 2023;
  CA 2021 2022 2024; CX 2020 2024 2025; CX 1961 67 2026; CX 2025 67 2027; CX 2026 2025 2028; CA 2026 2027 2029; CX 2025 2029 2030; CX 1964 68 2031;
  CX 2030 68 2032; CX 2031 2030 2033; CA 2031 2032 2034; CX 2030 2034 2035; CX 1967 69 2036; CX 2035 69 2037; CX 2036 2035 2038; CA 2036 2037 2039;
  CX 2035 2039 2040; CX 1970 70 2041; CX 2040 70 2042; CX 2041 2040 2043; CA 2041 2042 2044; CX 2040 2044 2045; CX 1973 71 2046; CX 2045 71 2047;
  CX 2046 2045 2048; CA 2046 2047 2049; CX 2045 2049 2050; CX 1976 72 2051; CX 2050 72 2052; CX 2051 2050 2053; CA 2051 2052 2054; CX 2050 2054 2055;
  CX 1979 73 2056; CX 2055 73 2057; CX 2056 2055 2058; CA 2056 2057 2059; CX 2055 2059 2060; CX 1982 74 2061; CX 2060 74 2062; CX 2061 2060 2063;
  CA 2061 2062 2064; CX 2060 2064 2065; CX 1985 75 2066; CX 2065 75 2067; CX 2066 2065 2068; CA 2066 2067 2069; CX 2065 2069 2070; CX 1988 76 2071;
  CX 2070 76 2072; CX 2071 2070 2073; CA 2071 2072 2074; CX 2070 2074 2075; CX 1991 77 2076; CX 2075 77 2077; CX 2076 2075 2078; CA 2076 2077 2079;
  CX 2075 2079 2080; CX 1994 78 2081; CX 2080 78 2082; CX 2081 2080 2083; CA 2081 2082 2084; CX 2080 2084 2085; CX 1997 79 2086; CX 2085 79 2087;
  CX 2086 2085 2088; CA 2086 2087 2089; CX 2085 2089 2090; CX 2000 80 2091; CX 2090 80 2092; CX 2091 2090 2093; CA 2091 2092 2094; CX 2090 2094 2095;
  CX 2003 81 2096; CX 2095 81 2097; CX 2096 2095 2098; CA 2096 2097 2099; CX 2095 2099 2100; CX 2006 82 2101; CX 2100 82 2102; CX 2101 2100 2103;
  CA 2101 2102 2104; CX 2100 2104 2105; CX 2009 83 2106; CX 2105 83 2107; CX 2106 2105 2108; CA 2106 2107 2109; CX 2105 2109 2110; CX 2012 84 2111;
  CX 2110 84 2112; CX 2111 2110 2113; CA 2111 2112 2114; CX 2110 2114 2115; CA 2115 253 2116; CX 2115 253 2117; CX 2117 2116 2118; CX 43 2014 2119;
  CA 2118 2119 2120; CX 2120 2014 2121; CX 1955 2018 2122; CA 2118 2122 2123; CX 2123 2018 2124; CX 1958 2023 2125; CA 2118 2125 2126; CX 2126 2023 2127].
(** Lines 2005-2404 of the file. *)
Definition udivide64_5 : list cg := [
  CX 1961 2028 2128; CA 2118 2128 2129; CX 2129 2028 2130; CX 1964 2033 2131; CA 2118 2131 2132; CX 2132 2033 2133; CX 1967 2038 2134; CA 2118 2134 2135;
  CX 2135 2038 2136; CX 1970 2043 2137; CA 2118 2137 2138; CX 2138 2043 2139; CX 1973 2048 2140; CA 2118 2140 2141; CX 2141 2048 2142; CX 1976 2053 2143;
  CA 2118 2143 2144; CX 2144 2053 2145; CX 1979 2058 2146; CA 2118 2146 2147; CX 2147 2058 2148; CX 1982 2063 2149; CA 2118 2149 2150; CX 2150 2063 2151;
  CX 1985 2068 2152; CA 2118 2152 2153; CX 2153 2068 2154; CX 1988 2073 2155; CA 2118 2155 2156; CX 2156 2073 2157; CX 1991 2078 2158; CA 2118 2158 2159;
  CX 2159 2078 2160; CX 1994 2083 2161; CA 2118 2161 2162; CX 2162 2083 2163; CX 1997 2088 2164; CA 2118 2164 2165; CX 2165 2088 2166; CX 2000 2093 2167;
  CA 2118 2167 2168; CX 2168 2093 2169; CX 2003 2098 2170; CA 2118 2170 2171; CX 2171 2098 2172; CX 2006 2103 2173; CA 2118 2173 2174; CX 2174 2103 2175;
  CX 2009 2108 2176; CA 2118 2176 2177; CX 2177 2108 2178; CX 2012 2113 2179; CA 2118 2179 2180; CX 2180 2113 2181; CI 2118 2182; CX 42 64 2183;
  CA 2183 64 2184; CX 2121 65 2185; CX 2184 65 2186; CX 2185 2184 2187; CA 2185 2186 2188; CX 2184 2188 2189; CX 2124 66 2190; CX 2189 66 2191;
  CX 2190 2189 2192; CA 2190 2191 2193; CX 2189 2193 2194; CX 2127 67 2195; CX 2194 67 2196; CX 2195 2194 2197; CA 2195 2196 2198; CX 2194 2198 2199;
  CX 2130 68 2200; CX 2199 68 2201; CX 2200 2199 2202; CA 2200 2201 2203; CX 2199 2203 2204; CX 2133 69 2205; CX 2204 69 2206; CX 2205 2204 2207;
  CA 2205 2206 2208; CX 2204 2208 2209; CX 2136 70 2210; CX 2209 70 2211; CX 2210 2209 2212; CA 2210 2211 2213; CX 2209 2213 2214; CX 2139 71 2215;
  CX 2214 71 2216; CX 2215 2214 2217; CA 2215 2216 2218; CX 2214 2218 2219; CX 2142 72 2220; CX 2219 72 2221; CX 2220 2219 2222; CA 2220 2221 2223;
  CX 2219 2223 2224; CX 2145 73 2225; CX 2224 73 2226; CX 2225 2224 2227; CA 2225 2226 2228; CX 2224 2228 2229; CX 2148 74 2230; CX 2229 74 2231;
  CX 2230 2229 2232; CA 2230 2231 2233; CX 2229 2233 2234; CX 2151 75 2235; CX 2234 75 2236; CX 2235 2234 2237; CA 2235 2236 2238; CX 2234 2238 2239;
  CX 2154 76 2240; CX 2239 76 2241; CX 2240 2239 2242; CA 2240 2241 2243; CX 2239 2243 2244; CX 2157 77 2245; CX 2244 77 2246; CX 2245 2244 2247;
  CA 2245 2246 2248; CX 2244 2248 2249; CX 2160 78 2250; CX 2249 78 2251; CX 2250 2249 2252; CA 2250 2251 2253; CX 2249 2253 2254; CX 2163 79 2255;
  CX 2254 79 2256; CX 2255 2254 2257; CA 2255 2256 2258; CX 2254 2258 2259; CX 2166 80 2260; CX 2259 80 2261; CX 2260 2259 2262; CA 2260 2261 2263;
  CX 2259 2263 2264; CX 2169 81 2265; CX 2264 81 2266; CX 2265 2264 2267; CA 2265 2266 2268; CX 2264 2268 2269; CX 2172 82 2270; CX 2269 82 2271;
  CX 2270 2269 2272; CA 2270 2271 2273; CX 2269 2273 2274; CX 2175 83 2275; CX 2274 83 2276; CX 2275 2274 2277; CA 2275 2276 2278; CX 2274 2278 2279;
  CX 2178 84 2280; CX 2279 84 2281; CX 2280 2279 2282; CA 2280 2281 2283; CX 2279 2283 2284; CX 2181 85 2285; CX 2284 85 2286; CX 2285 2284 2287;
  CA 2285 2286 2288; CX 2284 2288 2289; CA 2289 250 2290; CX 2289 250 2291; CX 2291 2290 2292; CX 42 2183 2293; CA 2292 2293 2294; CX 2294 2183 2295;
  CX 2121 2187 2296; CA 2292 2296 2297; CX 2297 2187 2298; CX 2124 2192 2299; CA 2292 2299 2300; CX 2300 2192 2301; CX 2127 2197 2302; CA 2292 2302 2303;
  CX 2303 2197 2304; CX 2130 2202 2305; CA 2292 2305 2306; CX 2306 2202 2307; CX 2133 2207 2308; CA 2292 2308 2309; CX 2309 2207 2310; CX 2136 2212 2311;
  CA 2292 2311 2312; CX 2312 2212 2313; CX 2139 2217 2314; CA 2292 2314 2315; CX 2315 2217 2316; CX 2142 2222 2317; CA 2292 2317 2318; CX 2318 2222 2319;
  CX 2145 2227 2320; CA 2292 2320 2321; CX 2321 2227 2322; CX 2148 2232 2323; CA 2292 2323 2324; CX 2324 2232 2325; CX 2151 2237 2326; CA 2292 2326 2327;
  CX 2327 2237 2328; CX 2154 2242 2329; CA 2292 2329 2330; CX 2330 2242 2331; CX 2157 2247 2332; CA 2292 2332 2333; CX 2333 2247 2334; CX 2160 2252 2335;
  CA 2292 2335 2336; CX 2336 2252 2337; CX 2163 2257 2338; CA 2292 2338 2339; CX 2339 2257 2340; CX 2166 2262 2341; CA 2292 2341 2342; CX 2342 2262 2343;
  CX 2169 2267 2344; CA 2292 2344 2345; CX 2345 2267 2346; CX 2172 2272 2347; CA 2292 2347 2348; CX 2348 2272 2349; CX 2175 2277 2350; CA 2292 2350 2351;
  CX 2351 2277 2352; CX 2178 2282 2353; CA 2292 2353 2354; CX 2354 2282 2355; CX 2181 2287 2356; CA 2292 2356 2357; CX 2357 2287 2358; CI 2292 2359;
  CX 41 64 2360; CA 2360 64 2361; CX 2295 65 2362; CX 2361 65 2363; CX 2362 2361 2364; CA 2362 2363 2365; CX 2361 2365 2366; CX 2298 66 2367;
  CX 2366 66 2368; CX 2367 2366 2369; CA 2367 2368 2370; CX 2366 2370 2371; CX 2301 67 2372; CX 2371 67 2373; CX 2372 2371 2374; CA 2372 2373 2375;
  CX 2371 2375 2376; CX 2304 68 2377; CX 2376 68 2378; CX 2377 2376 2379; CA 2377 2378 2380; CX 2376 2380 2381; CX 2307 69 2382; CX 2381 69 2383;
  CX 2382 2381 2384; CA 2382 2383 2385; CX 2381 2385 2386; CX 2310 70 2387; CX 2386 70 2388; CX 2387 2386 2389; CA 2387 2388 2390; CX 2386 2390 2391;
  CX 2313 71 2392; CX 2391 71 2393; CX 2392 2391 2394; CA 2392 2393 2395; CX 2391 2395 2396; CX 2316 72 2397; CX 2396 72 2398; CX 2397 2396 2399;
  CA 2397 2398 2400; CX 2396 2400 2401; CX 2319 73 2402; CX 2401 73 2403; CX 2402 2401 2404; CA 2402 2403 2405; CX 2401 2405 2406; CX 2322 74 2407;
  CX 2406 74 2408; CX 2407 2406 2409; CA 2407 2408 2410; CX 2406 2410 2411; CX 2325 75 2412; CX 2411 75 2413; CX 2412 2411 2414; CA 2412 2413 2415;
  CX 2411 2415 2416; CX 2328 76 2417; CX 2416 76 2418; CX 2417 2416 2419; CA 2417 2418 2420; CX 2416 2420 2421; CX 2331 77 2422; CX 2421 77 2423;
  CX 2422 2421 2424; CA 2422 2423 2425; CX 2421 2425 2426; CX 2334 78 2427; CX 2426 78 2428; CX 2427 2426 2429; CA 2427 2428 2430; CX 2426 2430 2431;
  CX 2337 79 2432; CX 2431 79 2433; CX 2432 2431 2434; CA 2432 2433 2435; CX 2431 2435 2436; CX 2340 80 2437; CX 2436 80 2438; CX 2437 2436 2439;
  CA 2437 2438 2440; CX 2436 2440 2441; CX 2343 81 2442; CX 2441 81 2443; CX 2442 2441 2444; CA 2442 2443 2445; CX 2441 2445 2446; CX 2346 82 2447;
  CX 2446 82 2448; CX 2447 2446 2449; CA 2447 2448 2450; CX 2446 2450 2451; CX 2349 83 2452; CX 2451 83 2453; CX 2452 2451 2454; CA 2452 2453 2455;
  CX 2451 2455 2456; CX 2352 84 2457; CX 2456 84 2458; CX 2457 2456 2459; CA 2457 2458 2460; CX 2456 2460 2461; CX 2355 85 2462; CX 2461 85 2463;
  CX 2462 2461 2464; CA 2462 2463 2465; CX 2461 2465 2466; CX 2358 86 2467; CX 2466 86 2468; CX 2467 2466 2469; CA 2467 2468 2470; CX 2466 2470 2471;
  CA 2471 247 2472; CX 2471 247 2473; CX 2473 2472 2474; CX 41 2360 2475; CA 2474 2475 2476; CX 2476 2360 2477; CX 2295 2364 2478; CA 2474 2478 2479;
  CX 2479 2364 2480; CX 2298 2369 2481; CA 2474 2481 2482; CX 2482 2369 2483; CX 2301 2374 2484; CA 2474 2484 2485; CX 2485 2374 2486; CX 2304 2379 2487;
  CA 2474 2487 2488; CX 2488 2379 2489; CX 2307 2384 2490; CA 2474 2490 2491; CX 2491 2384 2492; CX 2310 2389 2493; CA 2474 2493 2494; CX 2494 2389 2495;
  CX 2313 2394 2496; CA 2474 2496 2497; CX 2497 2394 2498; CX 2316 2399 2499; CA 2474 2499 2500; CX 2500 2399 2501; CX 2319 2404 2502; CA 2474 2502 2503;
  CX 2503 2404 2504; CX 2322 2409 2505; CA 2474 2505 2506; CX 2506 2409 2507; CX 2325 2414 2508; CA 2474 2508 2509; CX 2509 2414 2510; CX 2328 2419 2511;
  CA 2474 2511 2512; CX 2512 2419 2513; CX 2331 2424 2514; CA 2474 2514 2515; CX 2515 2424 2516; CX 2334 2429 2517; CA 2474 2517 2518; CX 2518 2429 2519;
  CX 2337 2434 2520; CA 2474 2520 2521; CX 2521 2434 2522; CX 2340 2439 2523; CA 2474 2523 2524; CX 2524 2439 2525; CX 2343 2444 2526; CA 2474 2526 2527].
(** Lines 2405-2804 of the file. *)
Definition udivide64_6 : list cg := [
  CX 2527 2444 2528; CX 2346 2449 2529; CA 2474 2529 2530; CX 2530 2449 2531; CX 2349 2454 2532; CA 2474 2532 2533; CX 2533 2454 2534; CX 2352 2459 2535;
  CA 2474 2535 2536; CX 2536 2459 2537; CX 2355 2464 2538; CA 2474 2538 2539; CX 2539 2464 2540; CX 2358 2469 2541; CA 2474 2541 2542; CX 2542 2469 2543;
  CI 2474 2544; CX 40 64 2545; CA 2545 64 2546; CX 2477 65 2547; CX 2546 65 2548; CX 2547 2546 2549; CA 2547 2548 2550; CX 2546 2550 2551;
  CX 2480 66 2552; CX 2551 66 2553; CX 2552 2551 2554; CA 2552 2553 2555; CX 2551 2555 2556; CX 2483 67 2557; CX 2556 67 2558; CX 2557 2556 2559;
  CA 2557 2558 2560; CX 2556 2560 2561; CX 2486 68 2562; CX 2561 68 2563; CX 2562 2561 2564; CA 2562 2563 2565; CX 2561 2565 2566; CX 2489 69 2567;
  CX 2566 69 2568; CX 2567 2566 2569; CA 2567 2568 2570; CX 2566 2570 2571; CX 2492 70 2572; CX 2571 70 2573; CX 2572 2571 2574; CA 2572 2573 2575;
  CX 2571 2575 2576; CX 2495 71 2577; CX 2576 71 2578; CX 2577 2576 2579; CA 2577 2578 2580; CX 2576 2580 2581; CX 2498 72 2582; CX 2581 72 2583;
  CX 2582 2581 2584; CA 2582 2583 2585; CX 2581 2585 2586; CX 2501 73 2587; CX 2586 73 2588; CX 2587 2586 2589; CA 2587 2588 2590; CX 2586 2590 2591;
  CX 2504 74 2592; CX 2591 74 2593; CX 2592 2591 2594; CA 2592 2593 2595; CX 2591 2595 2596; CX 2507 75 2597; CX 2596 75 2598; CX 2597 2596 2599;
  CA 2597 2598 2600; CX 2596 2600 2601; CX 2510 76 2602; CX 2601 76 2603; CX 2602 2601 2604; CA 2602 2603 2605; CX 2601 2605 2606; CX 2513 77 2607;
  CX 2606 77 2608; CX 2607 2606 2609; CA 2607 2608 2610; CX 2606 2610 2611; CX 2516 78 2612; CX 2611 78 2613; CX 2612 2611 2614; CA 2612 2613 2615;
  CX 2611 2615 2616; CX 2519 79 2617; CX 2616 79 2618; CX 2617 2616 2619; CA 2617 2618 2620; CX 2616 2620 2621; CX 2522 80 2622; CX 2621 80 2623;
  CX 2622 2621 2624; CA 2622 2623 2625; CX 2621 2625 2626; CX 2525 81 2627; CX 2626 81 2628; CX 2627 2626 2629; CA 2627 2628 2630; CX 2626 2630 2631;
  CX 2528 82 2632; CX 2631 82 2633; CX 2632 2631 2634; CA 2632 2633 2635; CX 2631 2635 2636; CX 2531 83 2637; CX 2636 83 2638; CX 2637 2636 2639;
  CA 2637 2638 2640; CX 2636 2640 2641; CX 2534 84 2642; CX 2641 84 2643; CX 2642 2641 2644; CA 2642 2643 2645; CX 2641 2645 2646; CX 2537 85 2647;
  CX 2646 85 2648; CX 2647 2646 2649; CA 2647 2648 2650; CX 2646 2650 2651; CX 2540 86 2652; CX 2651 86 2653; CX 2652 2651 2654; CA 2652 2653 2655;
  CX 2651 2655 2656; CX 2543 87 2657; CX 2656 87 2658; CX 2657 2656 2659; CA 2657 2658 2660; CX 2656 2660 2661; CA 2661 244 2662; CX 2661 244 2663;
  CX 2663 2662 2664; CX 40 2545 2665; CA 2664 2665 2666; CX 2666 2545 2667; CX 2477 2549 2668; CA 2664 2668 2669; CX 2669 2549 2670; CX 2480 2554 2671;
  CA 2664 2671 2672; CX 2672 2554 2673; CX 2483 2559 2674; CA 2664 2674 2675; CX 2675 2559 2676; CX 2486 2564 2677; CA 2664 2677 2678; CX 2678 2564 2679;
  CX 2489 2569 2680; CA 2664 2680 2681; CX 2681 2569 2682; CX 2492 2574 2683; CA 2664 2683 2684; CX 2684 2574 2685; CX 2495 2579 2686; CA 2664 2686 2687;
  CX 2687 2579 2688; CX 2498 2584 2689; CA 2664 2689 2690; CX 2690 2584 2691; CX 2501 2589 2692; CA 2664 2692 2693; CX 2693 2589 2694; CX 2504 2594 2695;
  CA 2664 2695 2696; CX 2696 2594 2697; CX 2507 2599 2698; CA 2664 2698 2699; CX 2699 2599 2700; CX 2510 2604 2701; CA 2664 2701 2702; CX 2702 2604 2703;
  CX 2513 2609 2704; CA 2664 2704 2705; CX 2705 2609 2706; CX 2516 2614 2707; CA 2664 2707 2708; CX 2708 2614 2709; CX 2519 2619 2710; CA 2664 2710 2711;
  CX 2711 2619 2712; CX 2522 2624 2713; CA 2664 2713 2714; CX 2714 2624 2715; CX 2525 2629 2716; CA 2664 2716 2717; CX 2717 2629 2718; CX 2528 2634 2719;
  CA 2664 2719 2720; CX 2720 2634 2721; CX 2531 2639 2722; CA 2664 2722 2723; CX 2723 2639 2724; CX 2534 2644 2725; CA 2664 2725 2726; CX 2726 2644 2727;
  CX 2537 2649 2728; CA 2664 2728 2729; CX 2729 2649 2730; CX 2540 2654 2731; CA 2664 2731 2732; CX 2732 2654 2733; CX 2543 2659 2734; CA 2664 2734 2735;
  CX 2735 2659 2736; CI 2664 2737; CX 39 64 2738; CA 2738 64 2739; CX 2667 65 2740; CX 2739 65 2741; CX 2740 2739 2742; CA 2740 2741 2743;
  CX 2739 2743 2744; CX 2670 66 2745; CX 2744 66 2746; CX 2745 2744 2747; CA 2745 2746 2748; CX 2744 2748 2749; CX 2673 67 2750; CX 2749 67 2751;
  CX 2750 2749 2752; CA 2750 2751 2753; CX 2749 2753 2754; CX 2676 68 2755; CX 2754 68 2756; CX 2755 2754 2757; CA 2755 2756 2758; CX 2754 2758 2759;
  CX 2679 69 2760; CX 2759 69 2761; CX 2760 2759 2762; CA 2760 2761 2763; CX 2759 2763 2764; CX 2682 70 2765; CX 2764 70 2766; CX 2765 2764 2767;
  CA 2765 2766 2768; CX 2764 2768 2769; CX 2685 71 2770; CX 2769 71 2771; CX 2770 2769 2772; CA 2770 2771 2773; CX 2769 2773 2774; CX 2688 72 2775;
  CX 2774 72 2776; CX 2775 2774 2777; CA 2775 2776 2778; CX 2774 2778 2779; CX 2691 73 2780; CX 2779 73 2781; CX 2780 2779 2782; CA 2780 2781 2783;
  CX 2779 2783 2784; CX 2694 74 2785; CX 2784 74 2786; CX 2785 2784 2787; CA 2785 2786 2788; CX 2784 2788 2789; CX 2697 75 2790; CX 2789 75 2791;
  CX 2790 2789 2792; CA 2790 2791 2793; CX 2789 2793 2794; CX 2700 76 2795; CX 2794 76 2796; CX 2795 2794 2797; CA 2795 2796 2798; CX 2794 2798 2799;
  CX 2703 77 2800; CX 2799 77 2801; CX 2800 2799 2802; CA 2800 2801 2803; CX 2799 2803 2804; CX 2706 78 2805; CX 2804 78 2806; CX 2805 2804 2807;
  CA 2805 2806 2808; CX 2804 2808 2809; CX 2709 79 2810; CX 2809 79 2811; CX 2810 2809 2812; CA 2810 2811 2813; CX 2809 2813 2814; CX 2712 80 2815;
  CX 2814 80 2816; CX 2815 2814 2817; CA 2815 2816 2818; CX 2814 2818 2819; CX 2715 81 2820; CX 2819 81 2821; CX 2820 2819 2822; CA 2820 2821 2823;
  CX 2819 2823 2824; CX 2718 82 2825; CX 2824 82 2826; CX 2825 2824 2827; CA 2825 2826 2828; CX 2824 2828 2829; CX 2721 83 2830; CX 2829 83 2831;
  CX 2830 2829 2832; CA 2830 2831 2833; CX 2829 2833 2834; CX 2724 84 2835; CX 2834 84 2836; CX 2835 2834 2837; CA 2835 2836 2838; CX 2834 2838 2839;
  CX 2727 85 2840; CX 2839 85 2841; CX 2840 2839 2842; CA 2840 2841 2843; CX 2839 2843 2844; CX 2730 86 2845; CX 2844 86 2846; CX 2845 2844 2847;
  CA 2845 2846 2848; CX 2844 2848 2849; CX 2733 87 2850; CX 2849 87 2851; CX 2850 2849 2852; CA 2850 2851 2853; CX 2849 2853 2854; CX 2736 88 2855;
  CX 2854 88 2856; CX 2855 2854 2857; CA 2855 2856 2858; CX 2854 2858 2859; CA 2859 241 2860; CX 2859 241 2861; CX 2861 2860 2862; CX 39 2738 2863;
  CA 2862 2863 2864; CX 2864 2738 2865; CX 2667 2742 2866; CA 2862 2866 2867; CX 2867 2742 2868; CX 2670 2747 2869; CA 2862 2869 2870; CX 2870 2747 2871;
  CX 2673 2752 2872; CA 2862 2872 2873; CX 2873 2752 2874; CX 2676 2757 2875; CA 2862 2875 2876; CX 2876 2757 2877; CX 2679 2762 2878; CA 2862 2878 2879;
  CX 2879 2762 2880; CX 2682 2767 2881; CA 2862 2881 2882; CX 2882 2767 2883; CX 2685 2772 2884; CA 2862 2884 2885; CX 2885 2772 2886; CX 2688 2777 2887;
  CA 2862 2887 2888; CX 2888 2777 2889; CX 2691 2782 2890; CA 2862 2890 2891; CX 2891 2782 2892; CX 2694 2787 2893; CA 2862 2893 2894; CX 2894 2787 2895;
  CX 2697 2792 2896; CA 2862 2896 2897; CX 2897 2792 2898; CX 2700 2797 2899; CA 2862 2899 2900; CX 2900 2797 2901; CX 2703 2802 2902; CA 2862 2902 2903;
  CX 2903 2802 2904; CX 2706 2807 2905; CA 2862 2905 2906; CX 2906 2807 2907; CX 2709 2812 2908; CA 2862 2908 2909; CX 2909 2812 2910; CX 2712 2817 2911;
  CA 2862 2911 2912; CX 2912 2817 2913; CX 2715 2822 2914; CA 2862 2914 2915; CX 2915 2822 2916; CX 2718 2827 2917; CA 2862 2917 2918; CX 2918 2827 2919;
  CX 2721 2832 2920; CA 2862 2920 2921; CX 2921 2832 2922; CX 2724 2837 2923; CA 2862 2923 2924; CX 2924 2837 2925; CX 2727 2842 2926; CA 2862 2926 2927].
(** Lines 2805-3204 of the file. *)
Definition udivide64_7 : list cg := [
  CX 2927 2842 2928; CX 2730 2847 2929; CA 2862 2929 2930; CX 2930 2847 2931; CX 2733 2852 2932; CA 2862 2932 2933; CX 2933 2852 2934; CX 2736 2857 2935;
  CA 2862 2935 2936; CX 2936 2857 2937; CI 2862 2938; CX 38 64 2939; CA 2939 64 2940; CX 2865 65 2941; CX 2940 65 2942; CX 2941 2940 2943;
  CA 2941 2942 2944; CX 2940 2944 2945; CX 2868 66 2946; CX 2945 66 2947; CX 2946 2945 2948; CA 2946 2947 2949; CX 2945 2949 2950; CX 2871 67 2951;
  CX 2950 67 2952; CX 2951 2950 2953; CA 2951 2952 2954; CX 2950 2954 2955; CX 2874 68 2956; CX 2955 68 2957; CX 2956 2955 2958; CA 2956 2957 2959;
  CX 2955 2959 2960; CX 2877 69 2961; CX 2960 69 2962; CX 2961 2960 2963; CA 2961 2962 2964; CX 2960 2964 2965; CX 2880 70 2966; CX 2965 70 2967;
  CX 2966 2965 2968; CA 2966 2967 2969; CX 2965 2969 2970; CX 2883 71 2971; CX 2970 71 2972; CX 2971 2970 2973; CA 2971 2972 2974; CX 2970 2974 2975;
  CX 2886 72 2976; CX 2975 72 2977; CX 2976 2975 2978; CA 2976 2977 2979; CX 2975 2979 2980; CX 2889 73 2981; CX 2980 73 2982; CX 2981 2980 2983;
  CA 2981 2982 2984; CX 2980 2984 2985; CX 2892 74 2986; CX 2985 74 2987; CX 2986 2985 2988; CA 2986 2987 2989; CX 2985 2989 2990; CX 2895 75 2991;
  CX 2990 75 2992; CX 2991 2990 2993; CA 2991 2992 2994; CX 2990 2994 2995; CX 2898 76 2996; CX 2995 76 2997; CX 2996 2995 2998; CA 2996 2997 2999;
  CX 2995 2999 3000; CX 2901 77 3001; CX 3000 77 3002; CX 3001 3000 3003; CA 3001 3002 3004; CX 3000 3004 3005; CX 2904 78 3006; CX 3005 78 3007;
  CX 3006 3005 3008; CA 3006 3007 3009; CX 3005 3009 3010; CX 2907 79 3011; CX 3010 79 3012; CX 3011 3010 3013; CA 3011 3012 3014; CX 3010 3014 3015;
  CX 2910 80 3016; CX 3015 80 3017; CX 3016 3015 3018; CA 3016 3017 3019; CX 3015 3019 3020; CX 2913 81 3021; CX 3020 81 3022; CX 3021 3020 3023;
  CA 3021 3022 3024; CX 3020 3024 3025; CX 2916 82 3026; CX 3025 82 3027; CX 3026 3025 3028; CA 3026 3027 3029; CX 3025 3029 3030; CX 2919 83 3031;
  CX 3030 83 3032; CX 3031 3030 3033; CA 3031 3032 3034; CX 3030 3034 3035; CX 2922 84 3036; CX 3035 84 3037; CX 3036 3035 3038; CA 3036 3037 3039;
  CX 3035 3039 3040; CX 2925 85 3041; CX 3040 85 3042; CX 3041 3040 3043; CA 3041 3042 3044; CX 3040 3044 3045; CX 2928 86 3046; CX 3045 86 3047;
  CX 3046 3045 3048; CA 3046 3047 3049; CX 3045 3049 3050; CX 2931 87 3051; CX 3050 87 3052; CX 3051 3050 3053; CA 3051 3052 3054; CX 3050 3054 3055;
  CX 2934 88 3056; CX 3055 88 3057; CX 3056 3055 3058; CA 3056 3057 3059; CX 3055 3059 3060; CX 2937 89 3061; CX 3060 89 3062; CX 3061 3060 3063;
  CA 3061 3062 3064; CX 3060 3064 3065; CA 3065 238 3066; CX 3065 238 3067; CX 3067 3066 3068; CX 38 2939 3069; CA 3068 3069 3070; CX 3070 2939 3071;
  CX 2865 2943 3072; CA 3068 3072 3073; CX 3073 2943 3074; CX 2868 2948 3075; CA 3068 3075 3076; CX 3076 2948 3077; CX 2871 2953 3078; CA 3068 3078 3079;
  CX 3079 2953 3080; CX 2874 2958 3081; CA 3068 3081 3082; CX 3082 2958 3083; CX 2877 2963 3084; CA 3068 3084 3085; CX 3085 2963 3086; CX 2880 2968 3087;
  CA 3068 3087 3088; CX 3088 2968 3089; CX 2883 2973 3090; CA 3068 3090 3091; CX 3091 2973 3092; CX 2886 2978 3093; CA 3068 3093 3094; CX 3094 2978 3095;
  CX 2889 2983 3096; CA 3068 3096 3097; CX 3097 2983 3098; CX 2892 2988 3099; CA 3068 3099 3100; CX 3100 2988 3101; CX 2895 2993 3102; CA 3068 3102 3103;
  CX 3103 2993 3104; CX 2898 2998 3105; CA 3068 3105 3106; CX 3106 2998 3107; CX 2901 3003 3108; CA 3068 3108 3109; CX 3109 3003 3110; CX 2904 3008 3111;
  CA 3068 3111 3112; CX 3112 3008 3113; CX 2907 3013 3114; CA 3068 3114 3115; CX 3115 3013 3116; CX 2910 3018 3117; CA 3068 3117 3118; CX 3118 3018 3119;
  CX 2913 3023 3120; CA 3068 3120 3121; CX 3121 3023 3122; CX 2916 3028 3123; CA 3068 3123 3124; CX 3124 3028 3125; CX 2919 3033 3126; CA 3068 3126 3127;
  CX 3127 3033 3128; CX 2922 3038 3129; CA 3068 3129 3130; CX 3130 3038 3131; CX 2925 3043 3132; CA 3068 3132 3133; CX 3133 3043 3134; CX 2928 3048 3135;
  CA 3068 3135 3136; CX 3136 3048 3137; CX 2931 3053 3138; CA 3068 3138 3139; CX 3139 3053 3140; CX 2934 3058 3141; CA 3068 3141 3142; CX 3142 3058 3143;
  CX 2937 3063 3144; CA 3068 3144 3145; CX 3145 3063 3146; CI 3068 3147; CX 37 64 3148; CA 3148 64 3149; CX 3071 65 3150; CX 3149 65 3151;
  CX 3150 3149 3152; CA 3150 3151 3153; CX 3149 3153 3154; CX 3074 66 3155; CX 3154 66 3156; CX 3155 3154 3157; CA 3155 3156 3158; CX 3154 3158 3159;
  CX 3077 67 3160; CX 3159 67 3161; CX 3160 3159 3162; CA 3160 3161 3163; CX 3159 3163 3164; CX 3080 68 3165; CX 3164 68 3166; CX 3165 3164 3167;
  CA 3165 3166 3168; CX 3164 3168 3169; CX 3083 69 3170; CX 3169 69 3171; CX 3170 3169 3172; CA 3170 3171 3173; CX 3169 3173 3174; CX 3086 70 3175;
  CX 3174 70 3176; CX 3175 3174 3177; CA 3175 3176 3178; CX 3174 3178 3179; CX 3089 71 3180; CX 3179 71 3181; CX 3180 3179 3182; CA 3180 3181 3183;
  CX 3179 3183 3184; CX 3092 72 3185; CX 3184 72 3186; CX 3185 3184 3187; CA 3185 3186 3188; CX 3184 3188 3189; CX 3095 73 3190; CX 3189 73 3191;
  CX 3190 3189 3192; CA 3190 3191 3193; CX 3189 3193 3194; CX 3098 74 3195; CX 3194 74 3196; CX 3195 3194 3197; CA 3195 3196 3198; CX 3194 3198 3199;
  CX 3101 75 3200; CX 3199 75 3201; CX 3200 3199 3202; CA 3200 3201 3203; CX 3199 3203 3204; CX 3104 76 3205; CX 3204 76 3206; CX 3205 3204 3207;
  CA 3205 3206 3208; CX 3204 3208 3209; CX 3107 77 3210; CX 3209 77 3211; CX 3210 3209 3212; CA 3210 3211 3213; CX 3209 3213 3214; CX 3110 78 3215;
  CX 3214 78 3216; CX 3215 3214 3217; CA 3215 3216 3218; CX 3214 3218 3219; CX 3113 79 3220; CX 3219 79 3221; CX 3220 3219 3222; CA 3220 3221 3223;
  CX 3219 3223 3224; CX 3116 80 3225; CX 3224 80 3226; CX 3225 3224 3227; CA 3225 3226 3228; CX 3224 3228 3229; CX 3119 81 3230; CX 3229 81 3231;
  CX 3230 3229 3232; CA 3230 3231 3233; CX 3229 3233 3234; CX 3122 82 3235; CX 3234 82 3236; CX 3235 3234 3237; CA 3235 3236 3238; CX 3234 3238 3239;
  CX 3125 83 3240; CX 3239 83 3241; CX 3240 3239 3242; CA 3240 3241 3243; CX 3239 3243 3244; CX 3128 84 3245; CX 3244 84 3246; CX 3245 3244 3247;
  CA 3245 3246 3248; CX 3244 3248 3249; CX 3131 85 3250; CX 3249 85 3251; CX 3250 3249 3252; CA 3250 3251 3253; CX 3249 3253 3254; CX 3134 86 3255;
  CX 3254 86 3256; CX 3255 3254 3257; CA 3255 3256 3258; CX 3254 3258 3259; CX 3137 87 3260; CX 3259 87 3261; CX 3260 3259 3262; CA 3260 3261 3263;
  CX 3259 3263 3264; CX 3140 88 3265; CX 3264 88 3266; CX 3265 3264 3267; CA 3265 3266 3268; CX 3264 3268 3269; CX 3143 89 3270; CX 3269 89 3271;
  CX 3270 3269 3272; CA 3270 3271 3273; CX 3269 3273 3274; CX 3146 90 3275; CX 3274 90 3276; CX 3275 3274 3277; CA 3275 3276 3278; CX 3274 3278 3279;
  CA 3279 235 3280; CX 3279 235 3281; CX 3281 3280 3282; CX 37 3148 3283; CA 3282 3283 3284; CX 3284 3148 3285; CX 3071 3152 3286; CA 3282 3286 3287;
  CX 3287 3152 3288; CX 3074 3157 3289; CA 3282 3289 3290; CX 3290 3157 3291; CX 3077 3162 3292; CA 3282 3292 3293; CX 3293 3162 3294; CX 3080 3167 3295;
  CA 3282 3295 3296; CX 3296 3167 3297; CX 3083 3172 3298; CA 3282 3298 3299; CX 3299 3172 3300; CX 3086 3177 3301; CA 3282 3301 3302; CX 3302 3177 3303;
  CX 3089 3182 3304; CA 3282 3304 3305; CX 3305 3182 3306; CX 3092 3187 3307; CA 3282 3307 3308; CX 3308 3187 3309; CX 3095 3192 3310; CA 3282 3310 3311;
  CX 3311 3192 3312; CX 3098 3197 3313; CA 3282 3313 3314; CX 3314 3197 3315; CX 3101 3202 3316; CA 3282 3316 3317; CX 3317 3202 3318; CX 3104 3207 3319;
  CA 3282 3319 3320; CX 3320 3207 3321; CX 3107 3212 3322; CA 3282 3322 3323; CX 3323 3212 3324; CX 3110 3217 3325; CA 3282 3325 3326; CX 3326 3217 3327].
(** Lines 3205-3604 of the file. *)
Definition udivide64_8 : list cg := [
  CX 3113 3222 3328; CA 3282 3328 3329; CX 3329 3222 3330; CX 3116 3227 3331; CA 3282 3331 3332; CX 3332 3227 3333; CX 3119 3232 3334; CA 3282 3334 3335;
  CX 3335 3232 3336; CX 3122 3237 3337; CA 3282 3337 3338; CX 3338 3237 3339; CX 3125 3242 3340; CA 3282 3340 3341; CX 3341 3242 3342; CX 3128 3247 3343;
  CA 3282 3343 3344; CX 3344 3247 3345; CX 3131 3252 3346; CA 3282 3346 3347; CX 3347 3252 3348; CX 3134 3257 3349; CA 3282 3349 3350; CX 3350 3257 3351;
  CX 3137 3262 3352; CA 3282 3352 3353; CX 3353 3262 3354; CX 3140 3267 3355; CA 3282 3355 3356; CX 3356 3267 3357; CX 3143 3272 3358; CA 3282 3358 3359;
  CX 3359 3272 3360; CX 3146 3277 3361; CA 3282 3361 3362; CX 3362 3277 3363; CI 3282 3364; CX 36 64 3365; CA 3365 64 3366; CX 3285 65 3367;
  CX 3366 65 3368; CX 3367 3366 3369; CA 3367 3368 3370; CX 3366 3370 3371; CX 3288 66 3372; CX 3371 66 3373; CX 3372 3371 3374; CA 3372 3373 3375;
  CX 3371 3375 3376; CX 3291 67 3377; CX 3376 67 3378; CX 3377 3376 3379; CA 3377 3378 3380; CX 3376 3380 3381; CX 3294 68 3382; CX 3381 68 3383;
  CX 3382 3381 3384; CA 3382 3383 3385; CX 3381 3385 3386; CX 3297 69 3387; CX 3386 69 3388; CX 3387 3386 3389; CA 3387 3388 3390; CX 3386 3390 3391;
  CX 3300 70 3392; CX 3391 70 3393; CX 3392 3391 3394; CA 3392 3393 3395; CX 3391 3395 3396; CX 3303 71 3397; CX 3396 71 3398; CX 3397 3396 3399;
  CA 3397 3398 3400; CX 3396 3400 3401; CX 3306 72 3402; CX 3401 72 3403; CX 3402 3401 3404; CA 3402 3403 3405; CX 3401 3405 3406; CX 3309 73 3407;
  CX 3406 73 3408; CX 3407 3406 3409; CA 3407 3408 3410; CX 3406 3410 3411; CX 3312 74 3412; CX 3411 74 3413; CX 3412 3411 3414; CA 3412 3413 3415;
  CX 3411 3415 3416; CX 3315 75 3417; CX 3416 75 3418; CX 3417 3416 3419; CA 3417 3418 3420; CX 3416 3420 3421; CX 3318 76 3422; CX 3421 76 3423;
  CX 3422 3421 3424; CA 3422 3423 3425; CX 3421 3425 3426; CX 3321 77 3427; CX 3426 77 3428; CX 3427 3426 3429; CA 3427 3428 3430; CX 3426 3430 3431;
  CX 3324 78 3432; CX 3431 78 3433; CX 3432 3431 3434; CA 3432 3433 3435; CX 3431 3435 3436; CX 3327 79 3437; CX 3436 79 3438; CX 3437 3436 3439;
  CA 3437 3438 3440; CX 3436 3440 3441; CX 3330 80 3442; CX 3441 80 3443; CX 3442 3441 3444; CA 3442 3443 3445; CX 3441 3445 3446; CX 3333 81 3447;
  CX 3446 81 3448; CX 3447 3446 3449; CA 3447 3448 3450; CX 3446 3450 3451; CX 3336 82 3452; CX 3451 82 3453; CX 3452 3451 3454; CA 3452 3453 3455;
  CX 3451 3455 3456; CX 3339 83 3457; CX 3456 83 3458; CX 3457 3456 3459; CA 3457 3458 3460; CX 3456 3460 3461; CX 3342 84 3462; CX 3461 84 3463;
  CX 3462 3461 3464; CA 3462 3463 3465; CX 3461 3465 3466; CX 3345 85 3467; CX 3466 85 3468; CX 3467 3466 3469; CA 3467 3468 3470; CX 3466 3470 3471;
  CX 3348 86 3472; CX 3471 86 3473; CX 3472 3471 3474; CA 3472 3473 3475; CX 3471 3475 3476; CX 3351 87 3477; CX 3476 87 3478; CX 3477 3476 3479;
  CA 3477 3478 3480; CX 3476 3480 3481; CX 3354 88 3482; CX 3481 88 3483; CX 3482 3481 3484; CA 3482 3483 3485; CX 3481 3485 3486; CX 3357 89 3487;
  CX 3486 89 3488; CX 3487 3486 3489; CA 3487 3488 3490; CX 3486 3490 3491; CX 3360 90 3492; CX 3491 90 3493; CX 3492 3491 3494; CA 3492 3493 3495;
  CX 3491 3495 3496; CX 3363 91 3497; CX 3496 91 3498; CX 3497 3496 3499; CA 3497 3498 3500; CX 3496 3500 3501; CA 3501 232 3502; CX 3501 232 3503;
  CX 3503 3502 3504; CX 36 3365 3505; CA 3504 3505 3506; CX 3506 3365 3507; CX 3285 3369 3508; CA 3504 3508 3509; CX 3509 3369 3510; CX 3288 3374 3511;
  CA 3504 3511 3512; CX 3512 3374 3513; CX 3291 3379 3514; CA 3504 3514 3515; CX 3515 3379 3516; CX 3294 3384 3517; CA 3504 3517 3518; CX 3518 3384 3519;
  CX 3297 3389 3520; CA 3504 3520 3521; CX 3521 3389 3522; CX 3300 3394 3523; CA 3504 3523 3524; CX 3524 3394 3525; CX 3303 3399 3526; CA 3504 3526 3527;
  CX 3527 3399 3528; CX 3306 3404 3529; CA 3504 3529 3530; CX 3530 3404 3531; CX 3309 3409 3532; CA 3504 3532 3533; CX 3533 3409 3534; CX 3312 3414 3535;
  CA 3504 3535 3536; CX 3536 3414 3537; CX 3315 3419 3538; CA 3504 3538 3539; CX 3539 3419 3540; CX 3318 3424 3541; CA 3504 3541 3542; CX 3542 3424 3543;
  CX 3321 3429 3544; CA 3504 3544 3545; CX 3545 3429 3546; CX 3324 3434 3547; CA 3504 3547 3548; CX 3548 3434 3549; CX 3327 3439 3550; CA 3504 3550 3551;
  CX 3551 3439 3552; CX 3330 3444 3553; CA 3504 3553 3554; CX 3554 3444 3555; CX 3333 3449 3556; CA 3504 3556 3557; CX 3557 3449 3558; CX 3336 3454 3559;
  CA 3504 3559 3560; CX 3560 3454 3561; CX 3339 3459 3562; CA 3504 3562 3563; CX 3563 3459 3564; CX 3342 3464 3565; CA 3504 3565 3566; CX 3566 3464 3567;
  CX 3345 3469 3568; CA 3504 3568 3569; CX 3569 3469 3570; CX 3348 3474 3571; CA 3504 3571 3572; CX 3572 3474 3573; CX 3351 3479 3574; CA 3504 3574 3575;
  CX 3575 3479 3576; CX 3354 3484 3577; CA 3504 3577 3578; CX 3578 3484 3579; CX 3357 3489 3580; CA 3504 3580 3581; CX 3581 3489 3582; CX 3360 3494 3583;
  CA 3504 3583 3584; CX 3584 3494 3585; CX 3363 3499 3586; CA 3504 3586 3587; CX 3587 3499 3588; CI 3504 3589; CX 35 64 3590; CA 3590 64 3591;
  CX 3507 65 3592; CX 3591 65 3593; CX 3592 3591 3594; CA 3592 3593 3595; CX 3591 3595 3596; CX 3510 66 3597; CX 3596 66 3598; CX 3597 3596 3599;
  CA 3597 3598 3600; CX 3596 3600 3601; CX 3513 67 3602; CX 3601 67 3603; CX 3602 3601 3604; CA 3602 3603 3605; CX 3601 3605 3606; CX 3516 68 3607;
  CX 3606 68 3608; CX 3607 3606 3609; CA 3607 3608 3610; CX 3606 3610 3611; CX 3519 69 3612; CX 3611 69 3613; CX 3612 3611 3614; CA 3612 3613 3615;
  CX 3611 3615 3616; CX 3522 70 3617; CX 3616 70 3618; CX 3617 3616 3619; CA 3617 3618 3620; CX 3616 3620 3621; CX 3525 71 3622; CX 3621 71 3623;
  CX 3622 3621 3624; CA 3622 3623 3625; CX 3621 3625 3626; CX 3528 72 3627; CX 3626 72 3628; CX 3627 3626 3629; CA 3627 3628 3630; CX 3626 3630 3631;
  CX 3531 73 3632; CX 3631 73 3633; CX 3632 3631 3634; CA 3632 3633 3635; CX 3631 3635 3636; CX 3534 74 3637; CX 3636 74 3638; CX 3637 3636 3639;
  CA 3637 3638 3640; CX 3636 3640 3641; CX 3537 75 3642; CX 3641 75 3643; CX 3642 3641 3644; CA 3642 3643 3645; CX 3641 3645 3646; CX 3540 76 3647;
  CX 3646 76 3648; CX 3647 3646 3649; CA 3647 3648 3650; CX 3646 3650 3651; CX 3543 77 3652; CX 3651 77 3653; CX 3652 3651 3654; CA 3652 3653 3655;
  CX 3651 3655 3656; CX 3546 78 3657; CX 3656 78 3658; CX 3657 3656 3659; CA 3657 3658 3660; CX 3656 3660 3661; CX 3549 79 3662; CX 3661 79 3663;
  CX 3662 3661 3664; CA 3662 3663 3665; CX 3661 3665 3666; CX 3552 80 3667; CX 3666 80 3668; CX 3667 3666 3669; CA 3667 3668 3670; CX 3666 3670 3671;
  CX 3555 81 3672; CX 3671 81 3673; CX 3672 3671 3674; CA 3672 3673 3675; CX 3671 3675 3676; CX 3558 82 3677; CX 3676 82 3678; CX 3677 3676 3679;
  CA 3677 3678 3680; CX 3676 3680 3681; CX 3561 83 3682; CX 3681 83 3683; CX 3682 3681 3684; CA 3682 3683 3685; CX 3681 3685 3686; CX 3564 84 3687;
  CX 3686 84 3688; CX 3687 3686 3689; CA 3687 3688 3690; CX 3686 3690 3691; CX 3567 85 3692; CX 3691 85 3693; CX 3692 3691 3694; CA 3692 3693 3695;
  CX 3691 3695 3696; CX 3570 86 3697; CX 3696 86 3698; CX 3697 3696 3699; CA 3697 3698 3700; CX 3696 3700 3701; CX 3573 87 3702; CX 3701 87 3703;
  CX 3702 3701 3704; CA 3702 3703 3705; CX 3701 3705 3706; CX 3576 88 3707; CX 3706 88 3708; CX 3707 3706 3709; CA 3707 3708 3710; CX 3706 3710 3711;
  CX 3579 89 3712; CX 3711 89 3713; CX 3712 3711 3714; CA 3712 3713 3715; CX 3711 3715 3716; CX 3582 90 3717; CX 3716 90 3718; CX 3717 3716 3719;
  CA 3717 3718 3720; CX 3716 3720 3721; CX 3585 91 3722; CX 3721 91 3723; CX 3722 3721 3724; CA 3722 3723 3725; CX 3721 3725 3726; CX 3588 92 3727].
(** Lines 3605-4004 of the file. *)
Definition udivide64_9 : list cg := [
  CX 3726 92 3728; CX 3727 3726 3729; CA 3727 3728 3730; CX 3726 3730 3731; CA 3731 229 3732; CX 3731 229 3733; CX 3733 3732 3734; CX 35 3590 3735;
  CA 3734 3735 3736; CX 3736 3590 3737; CX 3507 3594 3738; CA 3734 3738 3739; CX 3739 3594 3740; CX 3510 3599 3741; CA 3734 3741 3742; CX 3742 3599 3743;
  CX 3513 3604 3744; CA 3734 3744 3745; CX 3745 3604 3746; CX 3516 3609 3747; CA 3734 3747 3748; CX 3748 3609 3749; CX 3519 3614 3750; CA 3734 3750 3751;
  CX 3751 3614 3752; CX 3522 3619 3753; CA 3734 3753 3754; CX 3754 3619 3755; CX 3525 3624 3756; CA 3734 3756 3757; CX 3757 3624 3758; CX 3528 3629 3759;
  CA 3734 3759 3760; CX 3760 3629 3761; CX 3531 3634 3762; CA 3734 3762 3763; CX 3763 3634 3764; CX 3534 3639 3765; CA 3734 3765 3766; CX 3766 3639 3767;
  CX 3537 3644 3768; CA 3734 3768 3769; CX 3769 3644 3770; CX 3540 3649 3771; CA 3734 3771 3772; CX 3772 3649 3773; CX 3543 3654 3774; CA 3734 3774 3775;
  CX 3775 3654 3776; CX 3546 3659 3777; CA 3734 3777 3778; CX 3778 3659 3779; CX 3549 3664 3780; CA 3734 3780 3781; CX 3781 3664 3782; CX 3552 3669 3783;
  CA 3734 3783 3784; CX 3784 3669 3785; CX 3555 3674 3786; CA 3734 3786 3787; CX 3787 3674 3788; CX 3558 3679 3789; CA 3734 3789 3790; CX 3790 3679 3791;
  CX 3561 3684 3792; CA 3734 3792 3793; CX 3793 3684 3794; CX 3564 3689 3795; CA 3734 3795 3796; CX 3796 3689 3797; CX 3567 3694 3798; CA 3734 3798 3799;
  CX 3799 3694 3800; CX 3570 3699 3801; CA 3734 3801 3802; CX 3802 3699 3803; CX 3573 3704 3804; CA 3734 3804 3805; CX 3805 3704 3806; CX 3576 3709 3807;
  CA 3734 3807 3808; CX 3808 3709 3809; CX 3579 3714 3810; CA 3734 3810 3811; CX 3811 3714 3812; CX 3582 3719 3813; CA 3734 3813 3814; CX 3814 3719 3815;
  CX 3585 3724 3816; CA 3734 3816 3817; CX 3817 3724 3818; CX 3588 3729 3819; CA 3734 3819 3820; CX 3820 3729 3821; CI 3734 3822; CX 34 64 3823;
  CA 3823 64 3824; CX 3737 65 3825; CX 3824 65 3826; CX 3825 3824 3827; CA 3825 3826 3828; CX 3824 3828 3829; CX 3740 66 3830; CX 3829 66 3831;
  CX 3830 3829 3832; CA 3830 3831 3833; CX 3829 3833 3834; CX 3743 67 3835; CX 3834 67 3836; CX 3835 3834 3837; CA 3835 3836 3838; CX 3834 3838 3839;
  CX 3746 68 3840; CX 3839 68 3841; CX 3840 3839 3842; CA 3840 3841 3843; CX 3839 3843 3844; CX 3749 69 3845; CX 3844 69 3846; CX 3845 3844 3847;
  CA 3845 3846 3848; CX 3844 3848 3849; CX 3752 70 3850; CX 3849 70 3851; CX 3850 3849 3852; CA 3850 3851 3853; CX 3849 3853 3854; CX 3755 71 3855;
  CX 3854 71 3856; CX 3855 3854 3857; CA 3855 3856 3858; CX 3854 3858 3859; CX 3758 72 3860; CX 3859 72 3861; CX 3860 3859 3862; CA 3860 3861 3863;
  CX 3859 3863 3864; CX 3761 73 3865; CX 3864 73 3866; CX 3865 3864 3867; CA 3865 3866 3868; CX 3864 3868 3869; CX 3764 74 3870; CX 3869 74 3871;
  CX 3870 3869 3872; CA 3870 3871 3873; CX 3869 3873 3874; CX 3767 75 3875; CX 3874 75 3876; CX 3875 3874 3877; CA 3875 3876 3878; CX 3874 3878 3879;
  CX 3770 76 3880; CX 3879 76 3881; CX 3880 3879 3882; CA 3880 3881 3883; CX 3879 3883 3884; CX 3773 77 3885; CX 3884 77 3886; CX 3885 3884 3887;
  CA 3885 3886 3888; CX 3884 3888 3889; CX 3776 78 3890; CX 3889 78 3891; CX 3890 3889 3892; CA 3890 3891 3893; CX 3889 3893 3894; CX 3779 79 3895;
  CX 3894 79 3896; CX 3895 3894 3897; CA 3895 3896 3898; CX 3894 3898 3899; CX 3782 80 3900; CX 3899 80 3901; CX 3900 3899 3902; CA 3900 3901 3903;
  CX 3899 3903 3904; CX 3785 81 3905; CX 3904 81 3906; CX 3905 3904 3907; CA 3905 3906 3908; CX 3904 3908 3909; CX 3788 82 3910; CX 3909 82 3911;
  CX 3910 3909 3912; CA 3910 3911 3913; CX 3909 3913 3914; CX 3791 83 3915; CX 3914 83 3916; CX 3915 3914 3917; CA 3915 3916 3918; CX 3914 3918 3919;
  CX 3794 84 3920; CX 3919 84 3921; CX 3920 3919 3922; CA 3920 3921 3923; CX 3919 3923 3924; CX 3797 85 3925; CX 3924 85 3926; CX 3925 3924 3927;
  CA 3925 3926 3928; CX 3924 3928 3929; CX 3800 86 3930; CX 3929 86 3931; CX 3930 3929 3932; CA 3930 3931 3933; CX 3929 3933 3934; CX 3803 87 3935;
  CX 3934 87 3936; CX 3935 3934 3937; CA 3935 3936 3938; CX 3934 3938 3939; CX 3806 88 3940; CX 3939 88 3941; CX 3940 3939 3942; CA 3940 3941 3943;
  CX 3939 3943 3944; CX 3809 89 3945; CX 3944 89 3946; CX 3945 3944 3947; CA 3945 3946 3948; CX 3944 3948 3949; CX 3812 90 3950; CX 3949 90 3951;
  CX 3950 3949 3952; CA 3950 3951 3953; CX 3949 3953 3954; CX 3815 91 3955; CX 3954 91 3956; CX 3955 3954 3957; CA 3955 3956 3958; CX 3954 3958 3959;
  CX 3818 92 3960; CX 3959 92 3961; CX 3960 3959 3962; CA 3960 3961 3963; CX 3959 3963 3964; CX 3821 93 3965; CX 3964 93 3966; CX 3965 3964 3967;
  CA 3965 3966 3968; CX 3964 3968 3969; CA 3969 226 3970; CX 3969 226 3971; CX 3971 3970 3972; CX 34 3823 3973; CA 3972 3973 3974; CX 3974 3823 3975;
  CX 3737 3827 3976; CA 3972 3976 3977; CX 3977 3827 3978; CX 3740 3832 3979; CA 3972 3979 3980; CX 3980 3832 3981; CX 3743 3837 3982; CA 3972 3982 3983;
  CX 3983 3837 3984; CX 3746 3842 3985; CA 3972 3985 3986; CX 3986 3842 3987; CX 3749 3847 3988; CA 3972 3988 3989; CX 3989 3847 3990; CX 3752 3852 3991;
  CA 3972 3991 3992; CX 3992 3852 3993; CX 3755 3857 3994; CA 3972 3994 3995; CX 3995 3857 3996; CX 3758 3862 3997; CA 3972 3997 3998; CX 3998 3862 3999;
  CX 3761 3867 4000; CA 3972 4000 4001; CX 4001 3867 4002; CX 3764 3872 4003; CA 3972 4003 4004; CX 4004 3872 4005; CX 3767 3877 4006; CA 3972 4006 4007;
  CX 4007 3877 4008; CX 3770 3882 4009; CA 3972 4009 4010; CX 4010 3882 4011; CX 3773 3887 4012; CA 3972 4012 4013; CX 4013 3887 4014; CX 3776 3892 4015;
  CA 3972 4015 4016; CX 4016 3892 4017; CX 3779 3897 4018; CA 3972 4018 4019; CX 4019 3897 4020; CX 3782 3902 4021; CA 3972 4021 4022; CX 4022 3902 4023;
  CX 3785 3907 4024; CA 3972 4024 4025; CX 4025 3907 4026; CX 3788 3912 4027; CA 3972 4027 4028; CX 4028 3912 4029; CX 3791 3917 4030; CA 3972 4030 4031;
  CX 4031 3917 4032; CX 3794 3922 4033; CA 3972 4033 4034; CX 4034 3922 4035; CX 3797 3927 4036; CA 3972 4036 4037; CX 4037 3927 4038; CX 3800 3932 4039;
  CA 3972 4039 4040; CX 4040 3932 4041; CX 3803 3937 4042; CA 3972 4042 4043; CX 4043 3937 4044; CX 3806 3942 4045; CA 3972 4045 4046; CX 4046 3942 4047;
  CX 3809 3947 4048; CA 3972 4048 4049; CX 4049 3947 4050; CX 3812 3952 4051; CA 3972 4051 4052; CX 4052 3952 4053; CX 3815 3957 4054; CA 3972 4054 4055;
  CX 4055 3957 4056; CX 3818 3962 4057; CA 3972 4057 4058; CX 4058 3962 4059; CX 3821 3967 4060; CA 3972 4060 4061; CX 4061 3967 4062; CI 3972 4063;
  CX 33 64 4064; CA 4064 64 4065; CX 3975 65 4066; CX 4065 65 4067; CX 4066 4065 4068; CA 4066 4067 4069; CX 4065 4069 4070; CX 3978 66 4071;
  CX 4070 66 4072; CX 4071 4070 4073; CA 4071 4072 4074; CX 4070 4074 4075; CX 3981 67 4076; CX 4075 67 4077; CX 4076 4075 4078; CA 4076 4077 4079;
  CX 4075 4079 4080; CX 3984 68 4081; CX 4080 68 4082; CX 4081 4080 4083; CA 4081 4082 4084; CX 4080 4084 4085; CX 3987 69 4086; CX 4085 69 4087;
  CX 4086 4085 4088; CA 4086 4087 4089; CX 4085 4089 4090; CX 3990 70 4091; CX 4090 70 4092; CX 4091 4090 4093; CA 4091 4092 4094; CX 4090 4094 4095;
  CX 3993 71 4096; CX 4095 71 4097; CX 4096 4095 4098; CA 4096 4097 4099; CX 4095 4099 4100; CX 3996 72 4101; CX 4100 72 4102; CX 4101 4100 4103;
  CA 4101 4102 4104; CX 4100 4104 4105; CX 3999 73 4106; CX 4105 73 4107; CX 4106 4105 4108; CA 4106 4107 4109; CX 4105 4109 4110; CX 4002 74 4111;
  CX 4110 74 4112; CX 4111 4110 4113; CA 4111 4112 4114; CX 4110 4114 4115; CX 4005 75 4116; CX 4115 75 4117; CX 4116 4115 4118; CA 4116 4117 4119;
  CX 4115 4119 4120; CX 4008 76 4121; CX 4120 76 4122; CX 4121 4120 4123; CA 4121 4122 4124; CX 4120 4124 4125; CX 4011 77 4126; CX 4125 77 4127].
(** Lines 4005-4404 of the file. *)
Definition udivide64_10 : list cg := [
  CX 4126 4125 4128; CA 4126 4127 4129; CX 4125 4129 4130; CX 4014 78 4131; CX 4130 78 4132; CX 4131 4130 4133; CA 4131 4132 4134; CX 4130 4134 4135;
  CX 4017 79 4136; CX 4135 79 4137; CX 4136 4135 4138; CA 4136 4137 4139; CX 4135 4139 4140; CX 4020 80 4141; CX 4140 80 4142; CX 4141 4140 4143;
  CA 4141 4142 4144; CX 4140 4144 4145; CX 4023 81 4146; CX 4145 81 4147; CX 4146 4145 4148; CA 4146 4147 4149; CX 4145 4149 4150; CX 4026 82 4151;
  CX 4150 82 4152; CX 4151 4150 4153; CA 4151 4152 4154; CX 4150 4154 4155; CX 4029 83 4156; CX 4155 83 4157; CX 4156 4155 4158; CA 4156 4157 4159;
  CX 4155 4159 4160; CX 4032 84 4161; CX 4160 84 4162; CX 4161 4160 4163; CA 4161 4162 4164; CX 4160 4164 4165; CX 4035 85 4166; CX 4165 85 4167;
  CX 4166 4165 4168; CA 4166 4167 4169; CX 4165 4169 4170; CX 4038 86 4171; CX 4170 86 4172; CX 4171 4170 4173; CA 4171 4172 4174; CX 4170 4174 4175;
  CX 4041 87 4176; CX 4175 87 4177; CX 4176 4175 4178; CA 4176 4177 4179; CX 4175 4179 4180; CX 4044 88 4181; CX 4180 88 4182; CX 4181 4180 4183;
  CA 4181 4182 4184; CX 4180 4184 4185; CX 4047 89 4186; CX 4185 89 4187; CX 4186 4185 4188; CA 4186 4187 4189; CX 4185 4189 4190; CX 4050 90 4191;
  CX 4190 90 4192; CX 4191 4190 4193; CA 4191 4192 4194; CX 4190 4194 4195; CX 4053 91 4196; CX 4195 91 4197; CX 4196 4195 4198; CA 4196 4197 4199;
  CX 4195 4199 4200; CX 4056 92 4201; CX 4200 92 4202; CX 4201 4200 4203; CA 4201 4202 4204; CX 4200 4204 4205; CX 4059 93 4206; CX 4205 93 4207;
  CX 4206 4205 4208; CA 4206 4207 4209; CX 4205 4209 4210; CX 4062 94 4211; CX 4210 94 4212; CX 4211 4210 4213; CA 4211 4212 4214; CX 4210 4214 4215;
  CA 4215 223 4216; CX 4215 223 4217; CX 4217 4216 4218; CX 33 4064 4219; CA 4218 4219 4220; CX 4220 4064 4221; CX 3975 4068 4222; CA 4218 4222 4223;
  CX 4223 4068 4224; CX 3978 4073 4225; CA 4218 4225 4226; CX 4226 4073 4227; CX 3981 4078 4228; CA 4218 4228 4229; CX 4229 4078 4230; CX 3984 4083 4231;
  CA 4218 4231 4232; CX 4232 4083 4233; CX 3987 4088 4234; CA 4218 4234 4235; CX 4235 4088 4236; CX 3990 4093 4237; CA 4218 4237 4238; CX 4238 4093 4239;
  CX 3993 4098 4240; CA 4218 4240 4241; CX 4241 4098 4242; CX 3996 4103 4243; CA 4218 4243 4244; CX 4244 4103 4245; CX 3999 4108 4246; CA 4218 4246 4247;
  CX 4247 4108 4248; CX 4002 4113 4249; CA 4218 4249 4250; CX 4250 4113 4251; CX 4005 4118 4252; CA 4218 4252 4253; CX 4253 4118 4254; CX 4008 4123 4255;
  CA 4218 4255 4256; CX 4256 4123 4257; CX 4011 4128 4258; CA 4218 4258 4259; CX 4259 4128 4260; CX 4014 4133 4261; CA 4218 4261 4262; CX 4262 4133 4263;
  CX 4017 4138 4264; CA 4218 4264 4265; CX 4265 4138 4266; CX 4020 4143 4267; CA 4218 4267 4268; CX 4268 4143 4269; CX 4023 4148 4270; CA 4218 4270 4271;
  CX 4271 4148 4272; CX 4026 4153 4273; CA 4218 4273 4274; CX 4274 4153 4275; CX 4029 4158 4276; CA 4218 4276 4277; CX 4277 4158 4278; CX 4032 4163 4279;
  CA 4218 4279 4280; CX 4280 4163 4281; CX 4035 4168 4282; CA 4218 4282 4283; CX 4283 4168 4284; CX 4038 4173 4285; CA 4218 4285 4286; CX 4286 4173 4287;
  CX 4041 4178 4288; CA 4218 4288 4289; CX 4289 4178 4290; CX 4044 4183 4291; CA 4218 4291 4292; CX 4292 4183 4293; CX 4047 4188 4294; CA 4218 4294 4295;
  CX 4295 4188 4296; CX 4050 4193 4297; CA 4218 4297 4298; CX 4298 4193 4299; CX 4053 4198 4300; CA 4218 4300 4301; CX 4301 4198 4302; CX 4056 4203 4303;
  CA 4218 4303 4304; CX 4304 4203 4305; CX 4059 4208 4306; CA 4218 4306 4307; CX 4307 4208 4308; CX 4062 4213 4309; CA 4218 4309 4310; CX 4310 4213 4311;
  CI 4218 4312; CX 32 64 4313; CA 4313 64 4314; CX 4221 65 4315; CX 4314 65 4316; CX 4315 4314 4317; CA 4315 4316 4318; CX 4314 4318 4319;
  CX 4224 66 4320; CX 4319 66 4321; CX 4320 4319 4322; CA 4320 4321 4323; CX 4319 4323 4324; CX 4227 67 4325; CX 4324 67 4326; CX 4325 4324 4327;
  CA 4325 4326 4328; CX 4324 4328 4329; CX 4230 68 4330; CX 4329 68 4331; CX 4330 4329 4332; CA 4330 4331 4333; CX 4329 4333 4334; CX 4233 69 4335;
  CX 4334 69 4336; CX 4335 4334 4337; CA 4335 4336 4338; CX 4334 4338 4339; CX 4236 70 4340; CX 4339 70 4341; CX 4340 4339 4342; CA 4340 4341 4343;
  CX 4339 4343 4344; CX 4239 71 4345; CX 4344 71 4346; CX 4345 4344 4347; CA 4345 4346 4348; CX 4344 4348 4349; CX 4242 72 4350; CX 4349 72 4351;
  CX 4350 4349 4352; CA 4350 4351 4353; CX 4349 4353 4354; CX 4245 73 4355; CX 4354 73 4356; CX 4355 4354 4357; CA 4355 4356 4358; CX 4354 4358 4359;
  CX 4248 74 4360; CX 4359 74 4361; CX 4360 4359 4362; CA 4360 4361 4363; CX 4359 4363 4364; CX 4251 75 4365; CX 4364 75 4366; CX 4365 4364 4367;
  CA 4365 4366 4368; CX 4364 4368 4369; CX 4254 76 4370; CX 4369 76 4371; CX 4370 4369 4372; CA 4370 4371 4373; CX 4369 4373 4374; CX 4257 77 4375;
  CX 4374 77 4376; CX 4375 4374 4377; CA 4375 4376 4378; CX 4374 4378 4379; CX 4260 78 4380; CX 4379 78 4381; CX 4380 4379 4382; CA 4380 4381 4383;
  CX 4379 4383 4384; CX 4263 79 4385; CX 4384 79 4386; CX 4385 4384 4387; CA 4385 4386 4388; CX 4384 4388 4389; CX 4266 80 4390; CX 4389 80 4391;
  CX 4390 4389 4392; CA 4390 4391 4393; CX 4389 4393 4394; CX 4269 81 4395; CX 4394 81 4396; CX 4395 4394 4397; CA 4395 4396 4398; CX 4394 4398 4399;
  CX 4272 82 4400; CX 4399 82 4401; CX 4400 4399 4402; CA 4400 4401 4403; CX 4399 4403 4404; CX 4275 83 4405; CX 4404 83 4406; CX 4405 4404 4407;
  CA 4405 4406 4408; CX 4404 4408 4409; CX 4278 84 4410; CX 4409 84 4411; CX 4410 4409 4412; CA 4410 4411 4413; CX 4409 4413 4414; CX 4281 85 4415;
  CX 4414 85 4416; CX 4415 4414 4417; CA 4415 4416 4418; CX 4414 4418 4419; CX 4284 86 4420; CX 4419 86 4421; CX 4420 4419 4422; CA 4420 4421 4423;
  CX 4419 4423 4424; CX 4287 87 4425; CX 4424 87 4426; CX 4425 4424 4427; CA 4425 4426 4428; CX 4424 4428 4429; CX 4290 88 4430; CX 4429 88 4431;
  CX 4430 4429 4432; CA 4430 4431 4433; CX 4429 4433 4434; CX 4293 89 4435; CX 4434 89 4436; CX 4435 4434 4437; CA 4435 4436 4438; CX 4434 4438 4439;
  CX 4296 90 4440; CX 4439 90 4441; CX 4440 4439 4442; CA 4440 4441 4443; CX 4439 4443 4444; CX 4299 91 4445; CX 4444 91 4446; CX 4445 4444 4447;
  CA 4445 4446 4448; CX 4444 4448 4449; CX 4302 92 4450; CX 4449 92 4451; CX 4450 4449 4452; CA 4450 4451 4453; CX 4449 4453 4454; CX 4305 93 4455;
  CX 4454 93 4456; CX 4455 4454 4457; CA 4455 4456 4458; CX 4454 4458 4459; CX 4308 94 4460; CX 4459 94 4461; CX 4460 4459 4462; CA 4460 4461 4463;
  CX 4459 4463 4464; CX 4311 95 4465; CX 4464 95 4466; CX 4465 4464 4467; CA 4465 4466 4468; CX 4464 4468 4469; CA 4469 220 4470; CX 4469 220 4471;
  CX 4471 4470 4472; CX 32 4313 4473; CA 4472 4473 4474; CX 4474 4313 4475; CX 4221 4317 4476; CA 4472 4476 4477; CX 4477 4317 4478; CX 4224 4322 4479;
  CA 4472 4479 4480; CX 4480 4322 4481; CX 4227 4327 4482; CA 4472 4482 4483; CX 4483 4327 4484; CX 4230 4332 4485; CA 4472 4485 4486; CX 4486 4332 4487;
  CX 4233 4337 4488; CA 4472 4488 4489; CX 4489 4337 4490; CX 4236 4342 4491; CA 4472 4491 4492; CX 4492 4342 4493; CX 4239 4347 4494; CA 4472 4494 4495;
  CX 4495 4347 4496; CX 4242 4352 4497; CA 4472 4497 4498; CX 4498 4352 4499; CX 4245 4357 4500; CA 4472 4500 4501; CX 4501 4357 4502; CX 4248 4362 4503;
  CA 4472 4503 4504; CX 4504 4362 4505; CX 4251 4367 4506; CA 4472 4506 4507; CX 4507 4367 4508; CX 4254 4372 4509; CA 4472 4509 4510; CX 4510 4372 4511;
  CX 4257 4377 4512; CA 4472 4512 4513; CX 4513 4377 4514; CX 4260 4382 4515; CA 4472 4515 4516; CX 4516 4382 4517; CX 4263 4387 4518; CA 4472 4518 4519;
  CX 4519 4387 4520; CX 4266 4392 4521; CA 4472 4521 4522; CX 4522 4392 4523; CX 4269 4397 4524; CA 4472 4524 4525; CX 4525 4397 4526; CX 4272 4402 4527].
(** Lines 4405-4804 of the file. *)
Definition udivide64_11 : list cg := [
  CA 4472 4527 4528; CX 4528 4402 4529; CX 4275 4407 4530; CA 4472 4530 4531; CX 4531 4407 4532; CX 4278 4412 4533; CA 4472 4533 4534; CX 4534 4412 4535;
  CX 4281 4417 4536; CA 4472 4536 4537; CX 4537 4417 4538; CX 4284 4422 4539; CA 4472 4539 4540; CX 4540 4422 4541; CX 4287 4427 4542; CA 4472 4542 4543;
  CX 4543 4427 4544; CX 4290 4432 4545; CA 4472 4545 4546; CX 4546 4432 4547; CX 4293 4437 4548; CA 4472 4548 4549; CX 4549 4437 4550; CX 4296 4442 4551;
  CA 4472 4551 4552; CX 4552 4442 4553; CX 4299 4447 4554; CA 4472 4554 4555; CX 4555 4447 4556; CX 4302 4452 4557; CA 4472 4557 4558; CX 4558 4452 4559;
  CX 4305 4457 4560; CA 4472 4560 4561; CX 4561 4457 4562; CX 4308 4462 4563; CA 4472 4563 4564; CX 4564 4462 4565; CX 4311 4467 4566; CA 4472 4566 4567;
  CX 4567 4467 4568; CI 4472 4569; CX 31 64 4570; CA 4570 64 4571; CX 4475 65 4572; CX 4571 65 4573; CX 4572 4571 4574; CA 4572 4573 4575;
  CX 4571 4575 4576; CX 4478 66 4577; CX 4576 66 4578; CX 4577 4576 4579; CA 4577 4578 4580; CX 4576 4580 4581; CX 4481 67 4582; CX 4581 67 4583;
  CX 4582 4581 4584; CA 4582 4583 4585; CX 4581 4585 4586; CX 4484 68 4587; CX 4586 68 4588; CX 4587 4586 4589; CA 4587 4588 4590; CX 4586 4590 4591;
  CX 4487 69 4592; CX 4591 69 4593; CX 4592 4591 4594; CA 4592 4593 4595; CX 4591 4595 4596; CX 4490 70 4597; CX 4596 70 4598; CX 4597 4596 4599;
  CA 4597 4598 4600; CX 4596 4600 4601; CX 4493 71 4602; CX 4601 71 4603; CX 4602 4601 4604; CA 4602 4603 4605; CX 4601 4605 4606; CX 4496 72 4607;
  CX 4606 72 4608; CX 4607 4606 4609; CA 4607 4608 4610; CX 4606 4610 4611; CX 4499 73 4612; CX 4611 73 4613; CX 4612 4611 4614; CA 4612 4613 4615;
  CX 4611 4615 4616; CX 4502 74 4617; CX 4616 74 4618; CX 4617 4616 4619; CA 4617 4618 4620; CX 4616 4620 4621; CX 4505 75 4622; CX 4621 75 4623;
  CX 4622 4621 4624; CA 4622 4623 4625; CX 4621 4625 4626; CX 4508 76 4627; CX 4626 76 4628; CX 4627 4626 4629; CA 4627 4628 4630; CX 4626 4630 4631;
  CX 4511 77 4632; CX 4631 77 4633; CX 4632 4631 4634; CA 4632 4633 4635; CX 4631 4635 4636; CX 4514 78 4637; CX 4636 78 4638; CX 4637 4636 4639;
  CA 4637 4638 4640; CX 4636 4640 4641; CX 4517 79 4642; CX 4641 79 4643; CX 4642 4641 4644; CA 4642 4643 4645; CX 4641 4645 4646; CX 4520 80 4647;
  CX 4646 80 4648; CX 4647 4646 4649; CA 4647 4648 4650; CX 4646 4650 4651; CX 4523 81 4652; CX 4651 81 4653; CX 4652 4651 4654; CA 4652 4653 4655;
  CX 4651 4655 4656; CX 4526 82 4657; CX 4656 82 4658; CX 4657 4656 4659; CA 4657 4658 4660; CX 4656 4660 4661; CX 4529 83 4662; CX 4661 83 4663;
  CX 4662 4661 4664; CA 4662 4663 4665; CX 4661 4665 4666; CX 4532 84 4667; CX 4666 84 4668; CX 4667 4666 4669; CA 4667 4668 4670; CX 4666 4670 4671;
  CX 4535 85 4672; CX 4671 85 4673; CX 4672 4671 4674; CA 4672 4673 4675; CX 4671 4675 4676; CX 4538 86 4677; CX 4676 86 4678; CX 4677 4676 4679;
  CA 4677 4678 4680; CX 4676 4680 4681; CX 4541 87 4682; CX 4681 87 4683; CX 4682 4681 4684; CA 4682 4683 4685; CX 4681 4685 4686; CX 4544 88 4687;
  CX 4686 88 4688; CX 4687 4686 4689; CA 4687 4688 4690; CX 4686 4690 4691; CX 4547 89 4692; CX 4691 89 4693; CX 4692 4691 4694; CA 4692 4693 4695;
  CX 4691 4695 4696; CX 4550 90 4697; CX 4696 90 4698; CX 4697 4696 4699; CA 4697 4698 4700; CX 4696 4700 4701; CX 4553 91 4702; CX 4701 91 4703;
  CX 4702 4701 4704; CA 4702 4703 4705; CX 4701 4705 4706; CX 4556 92 4707; CX 4706 92 4708; CX 4707 4706 4709; CA 4707 4708 4710; CX 4706 4710 4711;
  CX 4559 93 4712; CX 4711 93 4713; CX 4712 4711 4714; CA 4712 4713 4715; CX 4711 4715 4716; CX 4562 94 4717; CX 4716 94 4718; CX 4717 4716 4719;
  CA 4717 4718 4720; CX 4716 4720 4721; CX 4565 95 4722; CX 4721 95 4723; CX 4722 4721 4724; CA 4722 4723 4725; CX 4721 4725 4726; CX 4568 96 4727;
  CX 4726 96 4728; CX 4727 4726 4729; CA 4727 4728 4730; CX 4726 4730 4731; CA 4731 217 4732; CX 4731 217 4733; CX 4733 4732 4734; CX 31 4570 4735;
  CA 4734 4735 4736; CX 4736 4570 4737; CX 4475 4574 4738; CA 4734 4738 4739; CX 4739 4574 4740; CX 4478 4579 4741; CA 4734 4741 4742; CX 4742 4579 4743;
  CX 4481 4584 4744; CA 4734 4744 4745; CX 4745 4584 4746; CX 4484 4589 4747; CA 4734 4747 4748; CX 4748 4589 4749; CX 4487 4594 4750; CA 4734 4750 4751;
  CX 4751 4594 4752; CX 4490 4599 4753; CA 4734 4753 4754; CX 4754 4599 4755; CX 4493 4604 4756; CA 4734 4756 4757; CX 4757 4604 4758; CX 4496 4609 4759;
  CA 4734 4759 4760; CX 4760 4609 4761; CX 4499 4614 4762; CA 4734 4762 4763; CX 4763 4614 4764; CX 4502 4619 4765; CA 4734 4765 4766; CX 4766 4619 4767;
  CX 4505 4624 4768; CA 4734 4768 4769; CX 4769 4624 4770; CX 4508 4629 4771; CA 4734 4771 4772; CX 4772 4629 4773; CX 4511 4634 4774; CA 4734 4774 4775;
  CX 4775 4634 4776; CX 4514 4639 4777; CA 4734 4777 4778; CX 4778 4639 4779; CX 4517 4644 4780; CA 4734 4780 4781; CX 4781 4644 4782; CX 4520 4649 4783;
  CA 4734 4783 4784; CX 4784 4649 4785; CX 4523 4654 4786; CA 4734 4786 4787; CX 4787 4654 4788; CX 4526 4659 4789; CA 4734 4789 4790; CX 4790 4659 4791;
  CX 4529 4664 4792; CA 4734 4792 4793; CX 4793 4664 4794; CX 4532 4669 4795; CA 4734 4795 4796; CX 4796 4669 4797; CX 4535 4674 4798; CA 4734 4798 4799;
  CX 4799 4674 4800; CX 4538 4679 4801; CA 4734 4801 4802; CX 4802 4679 4803; CX 4541 4684 4804; CA 4734 4804 4805; CX 4805 4684 4806; CX 4544 4689 4807;
  CA 4734 4807 4808; CX 4808 4689 4809; CX 4547 4694 4810; CA 4734 4810 4811; CX 4811 4694 4812; CX 4550 4699 4813; CA 4734 4813 4814; CX 4814 4699 4815;
  CX 4553 4704 4816; CA 4734 4816 4817; CX 4817 4704 4818; CX 4556 4709 4819; CA 4734 4819 4820; CX 4820 4709 4821; CX 4559 4714 4822; CA 4734 4822 4823;
  CX 4823 4714 4824; CX 4562 4719 4825; CA 4734 4825 4826; CX 4826 4719 4827; CX 4565 4724 4828; CA 4734 4828 4829; CX 4829 4724 4830; CX 4568 4729 4831;
  CA 4734 4831 4832; CX 4832 4729 4833; CI 4734 4834; CX 30 64 4835; CA 4835 64 4836; CX 4737 65 4837; CX 4836 65 4838; CX 4837 4836 4839;
  CA 4837 4838 4840; CX 4836 4840 4841; CX 4740 66 4842; CX 4841 66 4843; CX 4842 4841 4844; CA 4842 4843 4845; CX 4841 4845 4846; CX 4743 67 4847;
  CX 4846 67 4848; CX 4847 4846 4849; CA 4847 4848 4850; CX 4846 4850 4851; CX 4746 68 4852; CX 4851 68 4853; CX 4852 4851 4854; CA 4852 4853 4855;
  CX 4851 4855 4856; CX 4749 69 4857; CX 4856 69 4858; CX 4857 4856 4859; CA 4857 4858 4860; CX 4856 4860 4861; CX 4752 70 4862; CX 4861 70 4863;
  CX 4862 4861 4864; CA 4862 4863 4865; CX 4861 4865 4866; CX 4755 71 4867; CX 4866 71 4868; CX 4867 4866 4869; CA 4867 4868 4870; CX 4866 4870 4871;
  CX 4758 72 4872; CX 4871 72 4873; CX 4872 4871 4874; CA 4872 4873 4875; CX 4871 4875 4876; CX 4761 73 4877; CX 4876 73 4878; CX 4877 4876 4879;
  CA 4877 4878 4880; CX 4876 4880 4881; CX 4764 74 4882; CX 4881 74 4883; CX 4882 4881 4884; CA 4882 4883 4885; CX 4881 4885 4886; CX 4767 75 4887;
  CX 4886 75 4888; CX 4887 4886 4889; CA 4887 4888 4890; CX 4886 4890 4891; CX 4770 76 4892; CX 4891 76 4893; CX 4892 4891 4894; CA 4892 4893 4895;
  CX 4891 4895 4896; CX 4773 77 4897; CX 4896 77 4898; CX 4897 4896 4899; CA 4897 4898 4900; CX 4896 4900 4901; CX 4776 78 4902; CX 4901 78 4903;
  CX 4902 4901 4904; CA 4902 4903 4905; CX 4901 4905 4906; CX 4779 79 4907; CX 4906 79 4908; CX 4907 4906 4909; CA 4907 4908 4910; CX 4906 4910 4911;
  CX 4782 80 4912; CX 4911 80 4913; CX 4912 4911 4914; CA 4912 4913 4915; CX 4911 4915 4916; CX 4785 81 4917; CX 4916 81 4918; CX 4917 4916 4919;
  CA 4917 4918 4920; CX 4916 4920 4921; CX 4788 82 4922; CX 4921 82 4923; CX 4922 4921 4924; CA 4922 4923 4925; CX 4921 4925 4926; CX 4791 83 4927].
(** Lines 4805-5204 of the file. *)
Definition udivide64_12 : list cg := [
  CX 4926 83 4928; CX 4927 4926 4929; CA 4927 4928 4930; CX 4926 4930 4931; CX 4794 84 4932; CX 4931 84 4933; CX 4932 4931 4934; CA 4932 4933 4935;
  CX 4931 4935 4936; CX 4797 85 4937; CX 4936 85 4938; CX 4937 4936 4939; CA 4937 4938 4940; CX 4936 4940 4941; CX 4800 86 4942; CX 4941 86 4943;
  CX 4942 4941 4944; CA 4942 4943 4945; CX 4941 4945 4946; CX 4803 87 4947; CX 4946 87 4948; CX 4947 4946 4949; CA 4947 4948 4950; CX 4946 4950 4951;
  CX 4806 88 4952; CX 4951 88 4953; CX 4952 4951 4954; CA 4952 4953 4955; CX 4951 4955 4956; CX 4809 89 4957; CX 4956 89 4958; CX 4957 4956 4959;
  CA 4957 4958 4960; CX 4956 4960 4961; CX 4812 90 4962; CX 4961 90 4963; CX 4962 4961 4964; CA 4962 4963 4965; CX 4961 4965 4966; CX 4815 91 4967;
  CX 4966 91 4968; CX 4967 4966 4969; CA 4967 4968 4970; CX 4966 4970 4971; CX 4818 92 4972; CX 4971 92 4973; CX 4972 4971 4974; CA 4972 4973 4975;
  CX 4971 4975 4976; CX 4821 93 4977; CX 4976 93 4978; CX 4977 4976 4979; CA 4977 4978 4980; CX 4976 4980 4981; CX 4824 94 4982; CX 4981 94 4983;
  CX 4982 4981 4984; CA 4982 4983 4985; CX 4981 4985 4986; CX 4827 95 4987; CX 4986 95 4988; CX 4987 4986 4989; CA 4987 4988 4990; CX 4986 4990 4991;
  CX 4830 96 4992; CX 4991 96 4993; CX 4992 4991 4994; CA 4992 4993 4995; CX 4991 4995 4996; CX 4833 97 4997; CX 4996 97 4998; CX 4997 4996 4999;
  CA 4997 4998 5000; CX 4996 5000 5001; CA 5001 214 5002; CX 5001 214 5003; CX 5003 5002 5004; CX 30 4835 5005; CA 5004 5005 5006; CX 5006 4835 5007;
  CX 4737 4839 5008; CA 5004 5008 5009; CX 5009 4839 5010; CX 4740 4844 5011; CA 5004 5011 5012; CX 5012 4844 5013; CX 4743 4849 5014; CA 5004 5014 5015;
  CX 5015 4849 5016; CX 4746 4854 5017; CA 5004 5017 5018; CX 5018 4854 5019; CX 4749 4859 5020; CA 5004 5020 5021; CX 5021 4859 5022; CX 4752 4864 5023;
  CA 5004 5023 5024; CX 5024 4864 5025; CX 4755 4869 5026; CA 5004 5026 5027; CX 5027 4869 5028; CX 4758 4874 5029; CA 5004 5029 5030; CX 5030 4874 5031;
  CX 4761 4879 5032; CA 5004 5032 5033; CX 5033 4879 5034; CX 4764 4884 5035; CA 5004 5035 5036; CX 5036 4884 5037; CX 4767 4889 5038; CA 5004 5038 5039;
  CX 5039 4889 5040; CX 4770 4894 5041; CA 5004 5041 5042; CX 5042 4894 5043; CX 4773 4899 5044; CA 5004 5044 5045; CX 5045 4899 5046; CX 4776 4904 5047;
  CA 5004 5047 5048; CX 5048 4904 5049; CX 4779 4909 5050; CA 5004 5050 5051; CX 5051 4909 5052; CX 4782 4914 5053; CA 5004 5053 5054; CX 5054 4914 5055;
  CX 4785 4919 5056; CA 5004 5056 5057; CX 5057 4919 5058; CX 4788 4924 5059; CA 5004 5059 5060; CX 5060 4924 5061; CX 4791 4929 5062; CA 5004 5062 5063;
  CX 5063 4929 5064; CX 4794 4934 5065; CA 5004 5065 5066; CX 5066 4934 5067; CX 4797 4939 5068; CA 5004 5068 5069; CX 5069 4939 5070; CX 4800 4944 5071;
  CA 5004 5071 5072; CX 5072 4944 5073; CX 4803 4949 5074; CA 5004 5074 5075; CX 5075 4949 5076; CX 4806 4954 5077; CA 5004 5077 5078; CX 5078 4954 5079;
  CX 4809 4959 5080; CA 5004 5080 5081; CX 5081 4959 5082; CX 4812 4964 5083; CA 5004 5083 5084; CX 5084 4964 5085; CX 4815 4969 5086; CA 5004 5086 5087;
  CX 5087 4969 5088; CX 4818 4974 5089; CA 5004 5089 5090; CX 5090 4974 5091; CX 4821 4979 5092; CA 5004 5092 5093; CX 5093 4979 5094; CX 4824 4984 5095;
  CA 5004 5095 5096; CX 5096 4984 5097; CX 4827 4989 5098; CA 5004 5098 5099; CX 5099 4989 5100; CX 4830 4994 5101; CA 5004 5101 5102; CX 5102 4994 5103;
  CX 4833 4999 5104; CA 5004 5104 5105; CX 5105 4999 5106; CI 5004 5107; CX 29 64 5108; CA 5108 64 5109; CX 5007 65 5110; CX 5109 65 5111;
  CX 5110 5109 5112; CA 5110 5111 5113; CX 5109 5113 5114; CX 5010 66 5115; CX 5114 66 5116; CX 5115 5114 5117; CA 5115 5116 5118; CX 5114 5118 5119;
  CX 5013 67 5120; CX 5119 67 5121; CX 5120 5119 5122; CA 5120 5121 5123; CX 5119 5123 5124; CX 5016 68 5125; CX 5124 68 5126; CX 5125 5124 5127;
  CA 5125 5126 5128; CX 5124 5128 5129; CX 5019 69 5130; CX 5129 69 5131; CX 5130 5129 5132; CA 5130 5131 5133; CX 5129 5133 5134; CX 5022 70 5135;
  CX 5134 70 5136; CX 5135 5134 5137; CA 5135 5136 5138; CX 5134 5138 5139; CX 5025 71 5140; CX 5139 71 5141; CX 5140 5139 5142; CA 5140 5141 5143;
  CX 5139 5143 5144; CX 5028 72 5145; CX 5144 72 5146; CX 5145 5144 5147; CA 5145 5146 5148; CX 5144 5148 5149; CX 5031 73 5150; CX 5149 73 5151;
  CX 5150 5149 5152; CA 5150 5151 5153; CX 5149 5153 5154; CX 5034 74 5155; CX 5154 74 5156; CX 5155 5154 5157; CA 5155 5156 5158; CX 5154 5158 5159;
  CX 5037 75 5160; CX 5159 75 5161; CX 5160 5159 5162; CA 5160 5161 5163; CX 5159 5163 5164; CX 5040 76 5165; CX 5164 76 5166; CX 5165 5164 5167;
  CA 5165 5166 5168; CX 5164 5168 5169; CX 5043 77 5170; CX 5169 77 5171; CX 5170 5169 5172; CA 5170 5171 5173; CX 5169 5173 5174; CX 5046 78 5175;
  CX 5174 78 5176; CX 5175 5174 5177; CA 5175 5176 5178; CX 5174 5178 5179; CX 5049 79 5180; CX 5179 79 5181; CX 5180 5179 5182; CA 5180 5181 5183;
  CX 5179 5183 5184; CX 5052 80 5185; CX 5184 80 5186; CX 5185 5184 5187; CA 5185 5186 5188; CX 5184 5188 5189; CX 5055 81 5190; CX 5189 81 5191;
  CX 5190 5189 5192; CA 5190 5191 5193; CX 5189 5193 5194; CX 5058 82 5195; CX 5194 82 5196; CX 5195 5194 5197; CA 5195 5196 5198; CX 5194 5198 5199;
  CX 5061 83 5200; CX 5199 83 5201; CX 5200 5199 5202; CA 5200 5201 5203; CX 5199 5203 5204; CX 5064 84 5205; CX 5204 84 5206; CX 5205 5204 5207;
  CA 5205 5206 5208; CX 5204 5208 5209; CX 5067 85 5210; CX 5209 85 5211; CX 5210 5209 5212; CA 5210 5211 5213; CX 5209 5213 5214; CX 5070 86 5215;
  CX 5214 86 5216; CX 5215 5214 5217; CA 5215 5216 5218; CX 5214 5218 5219; CX 5073 87 5220; CX 5219 87 5221; CX 5220 5219 5222; CA 5220 5221 5223;
  CX 5219 5223 5224; CX 5076 88 5225; CX 5224 88 5226; CX 5225 5224 5227; CA 5225 5226 5228; CX 5224 5228 5229; CX 5079 89 5230; CX 5229 89 5231;
  CX 5230 5229 5232; CA 5230 5231 5233; CX 5229 5233 5234; CX 5082 90 5235; CX 5234 90 5236; CX 5235 5234 5237; CA 5235 5236 5238; CX 5234 5238 5239;
  CX 5085 91 5240; CX 5239 91 5241; CX 5240 5239 5242; CA 5240 5241 5243; CX 5239 5243 5244; CX 5088 92 5245; CX 5244 92 5246; CX 5245 5244 5247;
  CA 5245 5246 5248; CX 5244 5248 5249; CX 5091 93 5250; CX 5249 93 5251; CX 5250 5249 5252; CA 5250 5251 5253; CX 5249 5253 5254; CX 5094 94 5255;
  CX 5254 94 5256; CX 5255 5254 5257; CA 5255 5256 5258; CX 5254 5258 5259; CX 5097 95 5260; CX 5259 95 5261; CX 5260 5259 5262; CA 5260 5261 5263;
  CX 5259 5263 5264; CX 5100 96 5265; CX 5264 96 5266; CX 5265 5264 5267; CA 5265 5266 5268; CX 5264 5268 5269; CX 5103 97 5270; CX 5269 97 5271;
  CX 5270 5269 5272; CA 5270 5271 5273; CX 5269 5273 5274; CX 5106 98 5275; CX 5274 98 5276; CX 5275 5274 5277; CA 5275 5276 5278; CX 5274 5278 5279;
  CA 5279 211 5280; CX 5279 211 5281; CX 5281 5280 5282; CX 29 5108 5283; CA 5282 5283 5284; CX 5284 5108 5285; CX 5007 5112 5286; CA 5282 5286 5287;
  CX 5287 5112 5288; CX 5010 5117 5289; CA 5282 5289 5290; CX 5290 5117 5291; CX 5013 5122 5292; CA 5282 5292 5293; CX 5293 5122 5294; CX 5016 5127 5295;
  CA 5282 5295 5296; CX 5296 5127 5297; CX 5019 5132 5298; CA 5282 5298 5299; CX 5299 5132 5300; CX 5022 5137 5301; CA 5282 5301 5302; CX 5302 5137 5303;
  CX 5025 5142 5304; CA 5282 5304 5305; CX 5305 5142 5306; CX 5028 5147 5307; CA 5282 5307 5308; CX 5308 5147 5309; CX 5031 5152 5310; CA 5282 5310 5311;
  CX 5311 5152 5312; CX 5034 5157 5313; CA 5282 5313 5314; CX 5314 5157 5315; CX 5037 5162 5316; CA 5282 5316 5317; CX 5317 5162 5318; CX 5040 5167 5319;
  CA 5282 5319 5320; CX 5320 5167 5321; CX 5043 5172 5322; CA 5282 5322 5323; CX 5323 5172 5324; CX 5046 5177 5325; CA 5282 5325 5326; CX 5326 5177 5327].
(** Lines 5205-5604 of the file. *)
Definition udivide64_13 : list cg := [
  CX 5049 5182 5328; CA 5282 5328 5329; CX 5329 5182 5330; CX 5052 5187 5331; CA 5282 5331 5332; CX 5332 5187 5333; CX 5055 5192 5334; CA 5282 5334 5335;
  CX 5335 5192 5336; CX 5058 5197 5337; CA 5282 5337 5338; CX 5338 5197 5339; CX 5061 5202 5340; CA 5282 5340 5341; CX 5341 5202 5342; CX 5064 5207 5343;
  CA 5282 5343 5344; CX 5344 5207 5345; CX 5067 5212 5346; CA 5282 5346 5347; CX 5347 5212 5348; CX 5070 5217 5349; CA 5282 5349 5350; CX 5350 5217 5351;
  CX 5073 5222 5352; CA 5282 5352 5353; CX 5353 5222 5354; CX 5076 5227 5355; CA 5282 5355 5356; CX 5356 5227 5357; CX 5079 5232 5358; CA 5282 5358 5359;
  CX 5359 5232 5360; CX 5082 5237 5361; CA 5282 5361 5362; CX 5362 5237 5363; CX 5085 5242 5364; CA 5282 5364 5365; CX 5365 5242 5366; CX 5088 5247 5367;
  CA 5282 5367 5368; CX 5368 5247 5369; CX 5091 5252 5370; CA 5282 5370 5371; CX 5371 5252 5372; CX 5094 5257 5373; CA 5282 5373 5374; CX 5374 5257 5375;
  CX 5097 5262 5376; CA 5282 5376 5377; CX 5377 5262 5378; CX 5100 5267 5379; CA 5282 5379 5380; CX 5380 5267 5381; CX 5103 5272 5382; CA 5282 5382 5383;
  CX 5383 5272 5384; CX 5106 5277 5385; CA 5282 5385 5386; CX 5386 5277 5387; CI 5282 5388; CX 28 64 5389; CA 5389 64 5390; CX 5285 65 5391;
  CX 5390 65 5392; CX 5391 5390 5393; CA 5391 5392 5394; CX 5390 5394 5395; CX 5288 66 5396; CX 5395 66 5397; CX 5396 5395 5398; CA 5396 5397 5399;
  CX 5395 5399 5400; CX 5291 67 5401; CX 5400 67 5402; CX 5401 5400 5403; CA 5401 5402 5404; CX 5400 5404 5405; CX 5294 68 5406; CX 5405 68 5407;
  CX 5406 5405 5408; CA 5406 5407 5409; CX 5405 5409 5410; CX 5297 69 5411; CX 5410 69 5412; CX 5411 5410 5413; CA 5411 5412 5414; CX 5410 5414 5415;
  CX 5300 70 5416; CX 5415 70 5417; CX 5416 5415 5418; CA 5416 5417 5419; CX 5415 5419 5420; CX 5303 71 5421; CX 5420 71 5422; CX 5421 5420 5423;
  CA 5421 5422 5424; CX 5420 5424 5425; CX 5306 72 5426; CX 5425 72 5427; CX 5426 5425 5428; CA 5426 5427 5429; CX 5425 5429 5430; CX 5309 73 5431;
  CX 5430 73 5432; CX 5431 5430 5433; CA 5431 5432 5434; CX 5430 5434 5435; CX 5312 74 5436; CX 5435 74 5437; CX 5436 5435 5438; CA 5436 5437 5439;
  CX 5435 5439 5440; CX 5315 75 5441; CX 5440 75 5442; CX 5441 5440 5443; CA 5441 5442 5444; CX 5440 5444 5445; CX 5318 76 5446; CX 5445 76 5447;
  CX 5446 5445 5448; CA 5446 5447 5449; CX 5445 5449 5450; CX 5321 77 5451; CX 5450 77 5452; CX 5451 5450 5453; CA 5451 5452 5454; CX 5450 5454 5455;
  CX 5324 78 5456; CX 5455 78 5457; CX 5456 5455 5458; CA 5456 5457 5459; CX 5455 5459 5460; CX 5327 79 5461; CX 5460 79 5462; CX 5461 5460 5463;
  CA 5461 5462 5464; CX 5460 5464 5465; CX 5330 80 5466; CX 5465 80 5467; CX 5466 5465 5468; CA 5466 5467 5469; CX 5465 5469 5470; CX 5333 81 5471;
  CX 5470 81 5472; CX 5471 5470 5473; CA 5471 5472 5474; CX 5470 5474 5475; CX 5336 82 5476; CX 5475 82 5477; CX 5476 5475 5478; CA 5476 5477 5479;
  CX 5475 5479 5480; CX 5339 83 5481; CX 5480 83 5482; CX 5481 5480 5483; CA 5481 5482 5484; CX 5480 5484 5485; CX 5342 84 5486; CX 5485 84 5487;
  CX 5486 5485 5488; CA 5486 5487 5489; CX 5485 5489 5490; CX 5345 85 5491; CX 5490 85 5492; CX 5491 5490 5493; CA 5491 5492 5494; CX 5490 5494 5495;
  CX 5348 86 5496; CX 5495 86 5497; CX 5496 5495 5498; CA 5496 5497 5499; CX 5495 5499 5500; CX 5351 87 5501; CX 5500 87 5502; CX 5501 5500 5503;
  CA 5501 5502 5504; CX 5500 5504 5505; CX 5354 88 5506; CX 5505 88 5507; CX 5506 5505 5508; CA 5506 5507 5509; CX 5505 5509 5510; CX 5357 89 5511;
  CX 5510 89 5512; CX 5511 5510 5513; CA 5511 5512 5514; CX 5510 5514 5515; CX 5360 90 5516; CX 5515 90 5517; CX 5516 5515 5518; CA 5516 5517 5519;
  CX 5515 5519 5520; CX 5363 91 5521; CX 5520 91 5522; CX 5521 5520 5523; CA 5521 5522 5524; CX 5520 5524 5525; CX 5366 92 5526; CX 5525 92 5527;
  CX 5526 5525 5528; CA 5526 5527 5529; CX 5525 5529 5530; CX 5369 93 5531; CX 5530 93 5532; CX 5531 5530 5533; CA 5531 5532 5534; CX 5530 5534 5535;
  CX 5372 94 5536; CX 5535 94 5537; CX 5536 5535 5538; CA 5536 5537 5539; CX 5535 5539 5540; CX 5375 95 5541; CX 5540 95 5542; CX 5541 5540 5543;
  CA 5541 5542 5544; CX 5540 5544 5545; CX 5378 96 5546; CX 5545 96 5547; CX 5546 5545 5548; CA 5546 5547 5549; CX 5545 5549 5550; CX 5381 97 5551;
  CX 5550 97 5552; CX 5551 5550 5553; CA 5551 5552 5554; CX 5550 5554 5555; CX 5384 98 5556; CX 5555 98 5557; CX 5556 5555 5558; CA 5556 5557 5559;
  CX 5555 5559 5560; CX 5387 99 5561; CX 5560 99 5562; CX 5561 5560 5563; CA 5561 5562 5564; CX 5560 5564 5565; CA 5565 208 5566; CX 5565 208 5567;
  CX 5567 5566 5568; CX 28 5389 5569; CA 5568 5569 5570; CX 5570 5389 5571; CX 5285 5393 5572; CA 5568 5572 5573; CX 5573 5393 5574; CX 5288 5398 5575;
  CA 5568 5575 5576; CX 5576 5398 5577; CX 5291 5403 5578; CA 5568 5578 5579; CX 5579 5403 5580; CX 5294 5408 5581; CA 5568 5581 5582; CX 5582 5408 5583;
  CX 5297 5413 5584; CA 5568 5584 5585; CX 5585 5413 5586; CX 5300 5418 5587; CA 5568 5587 5588; CX 5588 5418 5589; CX 5303 5423 5590; CA 5568 5590 5591;
  CX 5591 5423 5592; CX 5306 5428 5593; CA 5568 5593 5594; CX 5594 5428 5595; CX 5309 5433 5596; CA 5568 5596 5597; CX 5597 5433 5598; CX 5312 5438 5599;
  CA 5568 5599 5600; CX 5600 5438 5601; CX 5315 5443 5602; CA 5568 5602 5603; CX 5603 5443 5604; CX 5318 5448 5605; CA 5568 5605 5606; CX 5606 5448 5607;
  CX 5321 5453 5608; CA 5568 5608 5609; CX 5609 5453 5610; CX 5324 5458 5611; CA 5568 5611 5612; CX 5612 5458 5613; CX 5327 5463 5614; CA 5568 5614 5615;
  CX 5615 5463 5616; CX 5330 5468 5617; CA 5568 5617 5618; CX 5618 5468 5619; CX 5333 5473 5620; CA 5568 5620 5621; CX 5621 5473 5622; CX 5336 5478 5623;
  CA 5568 5623 5624; CX 5624 5478 5625; CX 5339 5483 5626; CA 5568 5626 5627; CX 5627 5483 5628; CX 5342 5488 5629; CA 5568 5629 5630; CX 5630 5488 5631;
  CX 5345 5493 5632; CA 5568 5632 5633; CX 5633 5493 5634; CX 5348 5498 5635; CA 5568 5635 5636; CX 5636 5498 5637; CX 5351 5503 5638; CA 5568 5638 5639;
  CX 5639 5503 5640; CX 5354 5508 5641; CA 5568 5641 5642; CX 5642 5508 5643; CX 5357 5513 5644; CA 5568 5644 5645; CX 5645 5513 5646; CX 5360 5518 5647;
  CA 5568 5647 5648; CX 5648 5518 5649; CX 5363 5523 5650; CA 5568 5650 5651; CX 5651 5523 5652; CX 5366 5528 5653; CA 5568 5653 5654; CX 5654 5528 5655;
  CX 5369 5533 5656; CA 5568 5656 5657; CX 5657 5533 5658; CX 5372 5538 5659; CA 5568 5659 5660; CX 5660 5538 5661; CX 5375 5543 5662; CA 5568 5662 5663;
  CX 5663 5543 5664; CX 5378 5548 5665; CA 5568 5665 5666; CX 5666 5548 5667; CX 5381 5553 5668; CA 5568 5668 5669; CX 5669 5553 5670; CX 5384 5558 5671;
  CA 5568 5671 5672; CX 5672 5558 5673; CX 5387 5563 5674; CA 5568 5674 5675; CX 5675 5563 5676; CI 5568 5677; CX 27 64 5678; CA 5678 64 5679;
  CX 5571 65 5680; CX 5679 65 5681; CX 5680 5679 5682; CA 5680 5681 5683; CX 5679 5683 5684; CX 5574 66 5685; CX 5684 66 5686; CX 5685 5684 5687;
  CA 5685 5686 5688; CX 5684 5688 5689; CX 5577 67 5690; CX 5689 67 5691; CX 5690 5689 5692; CA 5690 5691 5693; CX 5689 5693 5694; CX 5580 68 5695;
  CX 5694 68 5696; CX 5695 5694 5697; CA 5695 5696 5698; CX 5694 5698 5699; CX 5583 69 5700; CX 5699 69 5701; CX 5700 5699 5702; CA 5700 5701 5703;
  CX 5699 5703 5704; CX 5586 70 5705; CX 5704 70 5706; CX 5705 5704 5707; CA 5705 5706 5708; CX 5704 5708 5709; CX 5589 71 5710; CX 5709 71 5711;
  CX 5710 5709 5712; CA 5710 5711 5713; CX 5709 5713 5714; CX 5592 72 5715; CX 5714 72 5716; CX 5715 5714 5717; CA 5715 5716 5718; CX 5714 5718 5719;
  CX 5595 73 5720; CX 5719 73 5721; CX 5720 5719 5722; CA 5720 5721 5723; CX 5719 5723 5724; CX 5598 74 5725; CX 5724 74 5726; CX 5725 5724 5727].
(** Lines 5605-6004 of the file. *)
Definition udivide64_14 : list cg := [
  CA 5725 5726 5728; CX 5724 5728 5729; CX 5601 75 5730; CX 5729 75 5731; CX 5730 5729 5732; CA 5730 5731 5733; CX 5729 5733 5734; CX 5604 76 5735;
  CX 5734 76 5736; CX 5735 5734 5737; CA 5735 5736 5738; CX 5734 5738 5739; CX 5607 77 5740; CX 5739 77 5741; CX 5740 5739 5742; CA 5740 5741 5743;
  CX 5739 5743 5744; CX 5610 78 5745; CX 5744 78 5746; CX 5745 5744 5747; CA 5745 5746 5748; CX 5744 5748 5749; CX 5613 79 5750; CX 5749 79 5751;
  CX 5750 5749 5752; CA 5750 5751 5753; CX 5749 5753 5754; CX 5616 80 5755; CX 5754 80 5756; CX 5755 5754 5757; CA 5755 5756 5758; CX 5754 5758 5759;
  CX 5619 81 5760; CX 5759 81 5761; CX 5760 5759 5762; CA 5760 5761 5763; CX 5759 5763 5764; CX 5622 82 5765; CX 5764 82 5766; CX 5765 5764 5767;
  CA 5765 5766 5768; CX 5764 5768 5769; CX 5625 83 5770; CX 5769 83 5771; CX 5770 5769 5772; CA 5770 5771 5773; CX 5769 5773 5774; CX 5628 84 5775;
  CX 5774 84 5776; CX 5775 5774 5777; CA 5775 5776 5778; CX 5774 5778 5779; CX 5631 85 5780; CX 5779 85 5781; CX 5780 5779 5782; CA 5780 5781 5783;
  CX 5779 5783 5784; CX 5634 86 5785; CX 5784 86 5786; CX 5785 5784 5787; CA 5785 5786 5788; CX 5784 5788 5789; CX 5637 87 5790; CX 5789 87 5791;
  CX 5790 5789 5792; CA 5790 5791 5793; CX 5789 5793 5794; CX 5640 88 5795; CX 5794 88 5796; CX 5795 5794 5797; CA 5795 5796 5798; CX 5794 5798 5799;
  CX 5643 89 5800; CX 5799 89 5801; CX 5800 5799 5802; CA 5800 5801 5803; CX 5799 5803 5804; CX 5646 90 5805; CX 5804 90 5806; CX 5805 5804 5807;
  CA 5805 5806 5808; CX 5804 5808 5809; CX 5649 91 5810; CX 5809 91 5811; CX 5810 5809 5812; CA 5810 5811 5813; CX 5809 5813 5814; CX 5652 92 5815;
  CX 5814 92 5816; CX 5815 5814 5817; CA 5815 5816 5818; CX 5814 5818 5819; CX 5655 93 5820; CX 5819 93 5821; CX 5820 5819 5822; CA 5820 5821 5823;
  CX 5819 5823 5824; CX 5658 94 5825; CX 5824 94 5826; CX 5825 5824 5827; CA 5825 5826 5828; CX 5824 5828 5829; CX 5661 95 5830; CX 5829 95 5831;
  CX 5830 5829 5832; CA 5830 5831 5833; CX 5829 5833 5834; CX 5664 96 5835; CX 5834 96 5836; CX 5835 5834 5837; CA 5835 5836 5838; CX 5834 5838 5839;
  CX 5667 97 5840; CX 5839 97 5841; CX 5840 5839 5842; CA 5840 5841 5843; CX 5839 5843 5844; CX 5670 98 5845; CX 5844 98 5846; CX 5845 5844 5847;
  CA 5845 5846 5848; CX 5844 5848 5849; CX 5673 99 5850; CX 5849 99 5851; CX 5850 5849 5852; CA 5850 5851 5853; CX 5849 5853 5854; CX 5676 100 5855;
  CX 5854 100 5856; CX 5855 5854 5857; CA 5855 5856 5858; CX 5854 5858 5859; CA 5859 205 5860; CX 5859 205 5861; CX 5861 5860 5862; CX 27 5678 5863;
  CA 5862 5863 5864; CX 5864 5678 5865; CX 5571 5682 5866; CA 5862 5866 5867; CX 5867 5682 5868; CX 5574 5687 5869; CA 5862 5869 5870; CX 5870 5687 5871;
  CX 5577 5692 5872; CA 5862 5872 5873; CX 5873 5692 5874; CX 5580 5697 5875; CA 5862 5875 5876; CX 5876 5697 5877; CX 5583 5702 5878; CA 5862 5878 5879;
  CX 5879 5702 5880; CX 5586 5707 5881; CA 5862 5881 5882; CX 5882 5707 5883; CX 5589 5712 5884; CA 5862 5884 5885; CX 5885 5712 5886; CX 5592 5717 5887;
  CA 5862 5887 5888; CX 5888 5717 5889; CX 5595 5722 5890; CA 5862 5890 5891; CX 5891 5722 5892; CX 5598 5727 5893; CA 5862 5893 5894; CX 5894 5727 5895;
  CX 5601 5732 5896; CA 5862 5896 5897; CX 5897 5732 5898; CX 5604 5737 5899; CA 5862 5899 5900; CX 5900 5737 5901; CX 5607 5742 5902; CA 5862 5902 5903;
  CX 5903 5742 5904; CX 5610 5747 5905; CA 5862 5905 5906; CX 5906 5747 5907; CX 5613 5752 5908; CA 5862 5908 5909; CX 5909 5752 5910; CX 5616 5757 5911;
  CA 5862 5911 5912; CX 5912 5757 5913; CX 5619 5762 5914; CA 5862 5914 5915; CX 5915 5762 5916; CX 5622 5767 5917; CA 5862 5917 5918; CX 5918 5767 5919;
  CX 5625 5772 5920; CA 5862 5920 5921; CX 5921 5772 5922; CX 5628 5777 5923; CA 5862 5923 5924; CX 5924 5777 5925; CX 5631 5782 5926; CA 5862 5926 5927;
  CX 5927 5782 5928; CX 5634 5787 5929; CA 5862 5929 5930; CX 5930 5787 5931; CX 5637 5792 5932; CA 5862 5932 5933; CX 5933 5792 5934; CX 5640 5797 5935;
  CA 5862 5935 5936; CX 5936 5797 5937; CX 5643 5802 5938; CA 5862 5938 5939; CX 5939 5802 5940; CX 5646 5807 5941; CA 5862 5941 5942; CX 5942 5807 5943;
  CX 5649 5812 5944; CA 5862 5944 5945; CX 5945 5812 5946; CX 5652 5817 5947; CA 5862 5947 5948; CX 5948 5817 5949; CX 5655 5822 5950; CA 5862 5950 5951;
  CX 5951 5822 5952; CX 5658 5827 5953; CA 5862 5953 5954; CX 5954 5827 5955; CX 5661 5832 5956; CA 5862 5956 5957; CX 5957 5832 5958; CX 5664 5837 5959;
  CA 5862 5959 5960; CX 5960 5837 5961; CX 5667 5842 5962; CA 5862 5962 5963; CX 5963 5842 5964; CX 5670 5847 5965; CA 5862 5965 5966; CX 5966 5847 5967;
  CX 5673 5852 5968; CA 5862 5968 5969; CX 5969 5852 5970; CX 5676 5857 5971; CA 5862 5971 5972; CX 5972 5857 5973; CI 5862 5974; CX 26 64 5975;
  CA 5975 64 5976; CX 5865 65 5977; CX 5976 65 5978; CX 5977 5976 5979; CA 5977 5978 5980; CX 5976 5980 5981; CX 5868 66 5982; CX 5981 66 5983;
  CX 5982 5981 5984; CA 5982 5983 5985; CX 5981 5985 5986; CX 5871 67 5987; CX 5986 67 5988; CX 5987 5986 5989; CA 5987 5988 5990; CX 5986 5990 5991;
  CX 5874 68 5992; CX 5991 68 5993; CX 5992 5991 5994; CA 5992 5993 5995; CX 5991 5995 5996; CX 5877 69 5997; CX 5996 69 5998; CX 5997 5996 5999;
  CA 5997 5998 6000; CX 5996 6000 6001; CX 5880 70 6002; CX 6001 70 6003; CX 6002 6001 6004; CA 6002 6003 6005; CX 6001 6005 6006; CX 5883 71 6007;
  CX 6006 71 6008; CX 6007 6006 6009; CA 6007 6008 6010; CX 6006 6010 6011; CX 5886 72 6012; CX 6011 72 6013; CX 6012 6011 6014; CA 6012 6013 6015;
  CX 6011 6015 6016; CX 5889 73 6017; CX 6016 73 6018; CX 6017 6016 6019; CA 6017 6018 6020; CX 6016 6020 6021; CX 5892 74 6022; CX 6021 74 6023;
  CX 6022 6021 6024; CA 6022 6023 6025; CX 6021 6025 6026; CX 5895 75 6027; CX 6026 75 6028; CX 6027 6026 6029; CA 6027 6028 6030; CX 6026 6030 6031;
  CX 5898 76 6032; CX 6031 76 6033; CX 6032 6031 6034; CA 6032 6033 6035; CX 6031 6035 6036; CX 5901 77 6037; CX 6036 77 6038; CX 6037 6036 6039;
  CA 6037 6038 6040; CX 6036 6040 6041; CX 5904 78 6042; CX 6041 78 6043; CX 6042 6041 6044; CA 6042 6043 6045; CX 6041 6045 6046; CX 5907 79 6047;
  CX 6046 79 6048; CX 6047 6046 6049; CA 6047 6048 6050; CX 6046 6050 6051; CX 5910 80 6052; CX 6051 80 6053; CX 6052 6051 6054; CA 6052 6053 6055;
  CX 6051 6055 6056; CX 5913 81 6057; CX 6056 81 6058; CX 6057 6056 6059; CA 6057 6058 6060; CX 6056 6060 6061; CX 5916 82 6062; CX 6061 82 6063;
  CX 6062 6061 6064; CA 6062 6063 6065; CX 6061 6065 6066; CX 5919 83 6067; CX 6066 83 6068; CX 6067 6066 6069; CA 6067 6068 6070; CX 6066 6070 6071;
  CX 5922 84 6072; CX 6071 84 6073; CX 6072 6071 6074; CA 6072 6073 6075; CX 6071 6075 6076; CX 5925 85 6077; CX 6076 85 6078; CX 6077 6076 6079;
  CA 6077 6078 6080; CX 6076 6080 6081; CX 5928 86 6082; CX 6081 86 6083; CX 6082 6081 6084; CA 6082 6083 6085; CX 6081 6085 6086; CX 5931 87 6087;
  CX 6086 87 6088; CX 6087 6086 6089; CA 6087 6088 6090; CX 6086 6090 6091; CX 5934 88 6092; CX 6091 88 6093; CX 6092 6091 6094; CA 6092 6093 6095;
  CX 6091 6095 6096; CX 5937 89 6097; CX 6096 89 6098; CX 6097 6096 6099; CA 6097 6098 6100; CX 6096 6100 6101; CX 5940 90 6102; CX 6101 90 6103;
  CX 6102 6101 6104; CA 6102 6103 6105; CX 6101 6105 6106; CX 5943 91 6107; CX 6106 91 6108; CX 6107 6106 6109; CA 6107 6108 6110; CX 6106 6110 6111;
  CX 5946 92 6112; CX 6111 92 6113; CX 6112 6111 6114; CA 6112 6113 6115; CX 6111 6115 6116; CX 5949 93 6117; CX 6116 93 6118; CX 6117 6116 6119;
  CA 6117 6118 6120; CX 6116 6120 6121; CX 5952 94 6122; CX 6121 94 6123; CX 6122 6121 6124; CA 6122 6123 6125; CX 6121 6125 6126; CX 5955 95 6127].
(** Lines 6005-6404 of the file. *)
Definition udivide64_15 : list cg := [
  CX 6126 95 6128; CX 6127 6126 6129; CA 6127 6128 6130; CX 6126 6130 6131; CX 5958 96 6132; CX 6131 96 6133; CX 6132 6131 6134; CA 6132 6133 6135;
  CX 6131 6135 6136; CX 5961 97 6137; CX 6136 97 6138; CX 6137 6136 6139; CA 6137 6138 6140; CX 6136 6140 6141; CX 5964 98 6142; CX 6141 98 6143;
  CX 6142 6141 6144; CA 6142 6143 6145; CX 6141 6145 6146; CX 5967 99 6147; CX 6146 99 6148; CX 6147 6146 6149; CA 6147 6148 6150; CX 6146 6150 6151;
  CX 5970 100 6152; CX 6151 100 6153; CX 6152 6151 6154; CA 6152 6153 6155; CX 6151 6155 6156; CX 5973 101 6157; CX 6156 101 6158; CX 6157 6156 6159;
  CA 6157 6158 6160; CX 6156 6160 6161; CA 6161 202 6162; CX 6161 202 6163; CX 6163 6162 6164; CX 26 5975 6165; CA 6164 6165 6166; CX 6166 5975 6167;
  CX 5865 5979 6168; CA 6164 6168 6169; CX 6169 5979 6170; CX 5868 5984 6171; CA 6164 6171 6172; CX 6172 5984 6173; CX 5871 5989 6174; CA 6164 6174 6175;
  CX 6175 5989 6176; CX 5874 5994 6177; CA 6164 6177 6178; CX 6178 5994 6179; CX 5877 5999 6180; CA 6164 6180 6181; CX 6181 5999 6182; CX 5880 6004 6183;
  CA 6164 6183 6184; CX 6184 6004 6185; CX 5883 6009 6186; CA 6164 6186 6187; CX 6187 6009 6188; CX 5886 6014 6189; CA 6164 6189 6190; CX 6190 6014 6191;
  CX 5889 6019 6192; CA 6164 6192 6193; CX 6193 6019 6194; CX 5892 6024 6195; CA 6164 6195 6196; CX 6196 6024 6197; CX 5895 6029 6198; CA 6164 6198 6199;
  CX 6199 6029 6200; CX 5898 6034 6201; CA 6164 6201 6202; CX 6202 6034 6203; CX 5901 6039 6204; CA 6164 6204 6205; CX 6205 6039 6206; CX 5904 6044 6207;
  CA 6164 6207 6208; CX 6208 6044 6209; CX 5907 6049 6210; CA 6164 6210 6211; CX 6211 6049 6212; CX 5910 6054 6213; CA 6164 6213 6214; CX 6214 6054 6215;
  CX 5913 6059 6216; CA 6164 6216 6217; CX 6217 6059 6218; CX 5916 6064 6219; CA 6164 6219 6220; CX 6220 6064 6221; CX 5919 6069 6222; CA 6164 6222 6223;
  CX 6223 6069 6224; CX 5922 6074 6225; CA 6164 6225 6226; CX 6226 6074 6227; CX 5925 6079 6228; CA 6164 6228 6229; CX 6229 6079 6230; CX 5928 6084 6231;
  CA 6164 6231 6232; CX 6232 6084 6233; CX 5931 6089 6234; CA 6164 6234 6235; CX 6235 6089 6236; CX 5934 6094 6237; CA 6164 6237 6238; CX 6238 6094 6239;
  CX 5937 6099 6240; CA 6164 6240 6241; CX 6241 6099 6242; CX 5940 6104 6243; CA 6164 6243 6244; CX 6244 6104 6245; CX 5943 6109 6246; CA 6164 6246 6247;
  CX 6247 6109 6248; CX 5946 6114 6249; CA 6164 6249 6250; CX 6250 6114 6251; CX 5949 6119 6252; CA 6164 6252 6253; CX 6253 6119 6254; CX 5952 6124 6255;
  CA 6164 6255 6256; CX 6256 6124 6257; CX 5955 6129 6258; CA 6164 6258 6259; CX 6259 6129 6260; CX 5958 6134 6261; CA 6164 6261 6262; CX 6262 6134 6263;
  CX 5961 6139 6264; CA 6164 6264 6265; CX 6265 6139 6266; CX 5964 6144 6267; CA 6164 6267 6268; CX 6268 6144 6269; CX 5967 6149 6270; CA 6164 6270 6271;
  CX 6271 6149 6272; CX 5970 6154 6273; CA 6164 6273 6274; CX 6274 6154 6275; CX 5973 6159 6276; CA 6164 6276 6277; CX 6277 6159 6278; CI 6164 6279;
  CX 25 64 6280; CA 6280 64 6281; CX 6167 65 6282; CX 6281 65 6283; CX 6282 6281 6284; CA 6282 6283 6285; CX 6281 6285 6286; CX 6170 66 6287;
  CX 6286 66 6288; CX 6287 6286 6289; CA 6287 6288 6290; CX 6286 6290 6291; CX 6173 67 6292; CX 6291 67 6293; CX 6292 6291 6294; CA 6292 6293 6295;
  CX 6291 6295 6296; CX 6176 68 6297; CX 6296 68 6298; CX 6297 6296 6299; CA 6297 6298 6300; CX 6296 6300 6301; CX 6179 69 6302; CX 6301 69 6303;
  CX 6302 6301 6304; CA 6302 6303 6305; CX 6301 6305 6306; CX 6182 70 6307; CX 6306 70 6308; CX 6307 6306 6309; CA 6307 6308 6310; CX 6306 6310 6311;
  CX 6185 71 6312; CX 6311 71 6313; CX 6312 6311 6314; CA 6312 6313 6315; CX 6311 6315 6316; CX 6188 72 6317; CX 6316 72 6318; CX 6317 6316 6319;
  CA 6317 6318 6320; CX 6316 6320 6321; CX 6191 73 6322; CX 6321 73 6323; CX 6322 6321 6324; CA 6322 6323 6325; CX 6321 6325 6326; CX 6194 74 6327;
  CX 6326 74 6328; CX 6327 6326 6329; CA 6327 6328 6330; CX 6326 6330 6331; CX 6197 75 6332; CX 6331 75 6333; CX 6332 6331 6334; CA 6332 6333 6335;
  CX 6331 6335 6336; CX 6200 76 6337; CX 6336 76 6338; CX 6337 6336 6339; CA 6337 6338 6340; CX 6336 6340 6341; CX 6203 77 6342; CX 6341 77 6343;
  CX 6342 6341 6344; CA 6342 6343 6345; CX 6341 6345 6346; CX 6206 78 6347; CX 6346 78 6348; CX 6347 6346 6349; CA 6347 6348 6350; CX 6346 6350 6351;
  CX 6209 79 6352; CX 6351 79 6353; CX 6352 6351 6354; CA 6352 6353 6355; CX 6351 6355 6356; CX 6212 80 6357; CX 6356 80 6358; CX 6357 6356 6359;
  CA 6357 6358 6360; CX 6356 6360 6361; CX 6215 81 6362; CX 6361 81 6363; CX 6362 6361 6364; CA 6362 6363 6365; CX 6361 6365 6366; CX 6218 82 6367;
  CX 6366 82 6368; CX 6367 6366 6369; CA 6367 6368 6370; CX 6366 6370 6371; CX 6221 83 6372; CX 6371 83 6373; CX 6372 6371 6374; CA 6372 6373 6375;
  CX 6371 6375 6376; CX 6224 84 6377; CX 6376 84 6378; CX 6377 6376 6379; CA 6377 6378 6380; CX 6376 6380 6381; CX 6227 85 6382; CX 6381 85 6383;
  CX 6382 6381 6384; CA 6382 6383 6385; CX 6381 6385 6386; CX 6230 86 6387; CX 6386 86 6388; CX 6387 6386 6389; CA 6387 6388 6390; CX 6386 6390 6391;
  CX 6233 87 6392; CX 6391 87 6393; CX 6392 6391 6394; CA 6392 6393 6395; CX 6391 6395 6396; CX 6236 88 6397; CX 6396 88 6398; CX 6397 6396 6399;
  CA 6397 6398 6400; CX 6396 6400 6401; CX 6239 89 6402; CX 6401 89 6403; CX 6402 6401 6404; CA 6402 6403 6405; CX 6401 6405 6406; CX 6242 90 6407;
  CX 6406 90 6408; CX 6407 6406 6409; CA 6407 6408 6410; CX 6406 6410 6411; CX 6245 91 6412; CX 6411 91 6413; CX 6412 6411 6414; CA 6412 6413 6415;
  CX 6411 6415 6416; CX 6248 92 6417; CX 6416 92 6418; CX 6417 6416 6419; CA 6417 6418 6420; CX 6416 6420 6421; CX 6251 93 6422; CX 6421 93 6423;
  CX 6422 6421 6424; CA 6422 6423 6425; CX 6421 6425 6426; CX 6254 94 6427; CX 6426 94 6428; CX 6427 6426 6429; CA 6427 6428 6430; CX 6426 6430 6431;
  CX 6257 95 6432; CX 6431 95 6433; CX 6432 6431 6434; CA 6432 6433 6435; CX 6431 6435 6436; CX 6260 96 6437; CX 6436 96 6438; CX 6437 6436 6439;
  CA 6437 6438 6440; CX 6436 6440 6441; CX 6263 97 6442; CX 6441 97 6443; CX 6442 6441 6444; CA 6442 6443 6445; CX 6441 6445 6446; CX 6266 98 6447;
  CX 6446 98 6448; CX 6447 6446 6449; CA 6447 6448 6450; CX 6446 6450 6451; CX 6269 99 6452; CX 6451 99 6453; CX 6452 6451 6454; CA 6452 6453 6455;
  CX 6451 6455 6456; CX 6272 100 6457; CX 6456 100 6458; CX 6457 6456 6459; CA 6457 6458 6460; CX 6456 6460 6461; CX 6275 101 6462; CX 6461 101 6463;
  CX 6462 6461 6464; CA 6462 6463 6465; CX 6461 6465 6466; CX 6278 102 6467; CX 6466 102 6468; CX 6467 6466 6469; CA 6467 6468 6470; CX 6466 6470 6471;
  CA 6471 199 6472; CX 6471 199 6473; CX 6473 6472 6474; CX 25 6280 6475; CA 6474 6475 6476; CX 6476 6280 6477; CX 6167 6284 6478; CA 6474 6478 6479;
  CX 6479 6284 6480; CX 6170 6289 6481; CA 6474 6481 6482; CX 6482 6289 6483; CX 6173 6294 6484; CA 6474 6484 6485; CX 6485 6294 6486; CX 6176 6299 6487;
  CA 6474 6487 6488; CX 6488 6299 6489; CX 6179 6304 6490; CA 6474 6490 6491; CX 6491 6304 6492; CX 6182 6309 6493; CA 6474 6493 6494; CX 6494 6309 6495;
  CX 6185 6314 6496; CA 6474 6496 6497; CX 6497 6314 6498; CX 6188 6319 6499; CA 6474 6499 6500; CX 6500 6319 6501; CX 6191 6324 6502; CA 6474 6502 6503;
  CX 6503 6324 6504; CX 6194 6329 6505; CA 6474 6505 6506; CX 6506 6329 6507; CX 6197 6334 6508; CA 6474 6508 6509; CX 6509 6334 6510; CX 6200 6339 6511;
  CA 6474 6511 6512; CX 6512 6339 6513; CX 6203 6344 6514; CA 6474 6514 6515; CX 6515 6344 6516; CX 6206 6349 6517; CA 6474 6517 6518; CX 6518 6349 6519;
  CX 6209 6354 6520; CA 6474 6520 6521; CX 6521 6354 6522; CX 6212 6359 6523; CA 6474 6523 6524; CX 6524 6359 6525; CX 6215 6364 6526; CA 6474 6526 6527].
(** Lines 6405-6804 of the file. *)
Definition udivide64_16 : list cg := [
  CX 6527 6364 6528; CX 6218 6369 6529; CA 6474 6529 6530; CX 6530 6369 6531; CX 6221 6374 6532; CA 6474 6532 6533; CX 6533 6374 6534; CX 6224 6379 6535;
  CA 6474 6535 6536; CX 6536 6379 6537; CX 6227 6384 6538; CA 6474 6538 6539; CX 6539 6384 6540; CX 6230 6389 6541; CA 6474 6541 6542; CX 6542 6389 6543;
  CX 6233 6394 6544; CA 6474 6544 6545; CX 6545 6394 6546; CX 6236 6399 6547; CA 6474 6547 6548; CX 6548 6399 6549; CX 6239 6404 6550; CA 6474 6550 6551;
  CX 6551 6404 6552; CX 6242 6409 6553; CA 6474 6553 6554; CX 6554 6409 6555; CX 6245 6414 6556; CA 6474 6556 6557; CX 6557 6414 6558; CX 6248 6419 6559;
  CA 6474 6559 6560; CX 6560 6419 6561; CX 6251 6424 6562; CA 6474 6562 6563; CX 6563 6424 6564; CX 6254 6429 6565; CA 6474 6565 6566; CX 6566 6429 6567;
  CX 6257 6434 6568; CA 6474 6568 6569; CX 6569 6434 6570; CX 6260 6439 6571; CA 6474 6571 6572; CX 6572 6439 6573; CX 6263 6444 6574; CA 6474 6574 6575;
  CX 6575 6444 6576; CX 6266 6449 6577; CA 6474 6577 6578; CX 6578 6449 6579; CX 6269 6454 6580; CA 6474 6580 6581; CX 6581 6454 6582; CX 6272 6459 6583;
  CA 6474 6583 6584; CX 6584 6459 6585; CX 6275 6464 6586; CA 6474 6586 6587; CX 6587 6464 6588; CX 6278 6469 6589; CA 6474 6589 6590; CX 6590 6469 6591;
  CI 6474 6592; CX 24 64 6593; CA 6593 64 6594; CX 6477 65 6595; CX 6594 65 6596; CX 6595 6594 6597; CA 6595 6596 6598; CX 6594 6598 6599;
  CX 6480 66 6600; CX 6599 66 6601; CX 6600 6599 6602; CA 6600 6601 6603; CX 6599 6603 6604; CX 6483 67 6605; CX 6604 67 6606; CX 6605 6604 6607;
  CA 6605 6606 6608; CX 6604 6608 6609; CX 6486 68 6610; CX 6609 68 6611; CX 6610 6609 6612; CA 6610 6611 6613; CX 6609 6613 6614; CX 6489 69 6615;
  CX 6614 69 6616; CX 6615 6614 6617; CA 6615 6616 6618; CX 6614 6618 6619; CX 6492 70 6620; CX 6619 70 6621; CX 6620 6619 6622; CA 6620 6621 6623;
  CX 6619 6623 6624; CX 6495 71 6625; CX 6624 71 6626; CX 6625 6624 6627; CA 6625 6626 6628; CX 6624 6628 6629; CX 6498 72 6630; CX 6629 72 6631;
  CX 6630 6629 6632; CA 6630 6631 6633; CX 6629 6633 6634; CX 6501 73 6635; CX 6634 73 6636; CX 6635 6634 6637; CA 6635 6636 6638; CX 6634 6638 6639;
  CX 6504 74 6640; CX 6639 74 6641; CX 6640 6639 6642; CA 6640 6641 6643; CX 6639 6643 6644; CX 6507 75 6645; CX 6644 75 6646; CX 6645 6644 6647;
  CA 6645 6646 6648; CX 6644 6648 6649; CX 6510 76 6650; CX 6649 76 6651; CX 6650 6649 6652; CA 6650 6651 6653; CX 6649 6653 6654; CX 6513 77 6655;
  CX 6654 77 6656; CX 6655 6654 6657; CA 6655 6656 6658; CX 6654 6658 6659; CX 6516 78 6660; CX 6659 78 6661; CX 6660 6659 6662; CA 6660 6661 6663;
  CX 6659 6663 6664; CX 6519 79 6665; CX 6664 79 6666; CX 6665 6664 6667; CA 6665 6666 6668; CX 6664 6668 6669; CX 6522 80 6670; CX 6669 80 6671;
  CX 6670 6669 6672; CA 6670 6671 6673; CX 6669 6673 6674; CX 6525 81 6675; CX 6674 81 6676; CX 6675 6674 6677; CA 6675 6676 6678; CX 6674 6678 6679;
  CX 6528 82 6680; CX 6679 82 6681; CX 6680 6679 6682; CA 6680 6681 6683; CX 6679 6683 6684; CX 6531 83 6685; CX 6684 83 6686; CX 6685 6684 6687;
  CA 6685 6686 6688; CX 6684 6688 6689; CX 6534 84 6690; CX 6689 84 6691; CX 6690 6689 6692; CA 6690 6691 6693; CX 6689 6693 6694; CX 6537 85 6695;
  CX 6694 85 6696; CX 6695 6694 6697; CA 6695 6696 6698; CX 6694 6698 6699; CX 6540 86 6700; CX 6699 86 6701; CX 6700 6699 6702; CA 6700 6701 6703;
  CX 6699 6703 6704; CX 6543 87 6705; CX 6704 87 6706; CX 6705 6704 6707; CA 6705 6706 6708; CX 6704 6708 6709; CX 6546 88 6710; CX 6709 88 6711;
  CX 6710 6709 6712; CA 6710 6711 6713; CX 6709 6713 6714; CX 6549 89 6715; CX 6714 89 6716; CX 6715 6714 6717; CA 6715 6716 6718; CX 6714 6718 6719;
  CX 6552 90 6720; CX 6719 90 6721; CX 6720 6719 6722; CA 6720 6721 6723; CX 6719 6723 6724; CX 6555 91 6725; CX 6724 91 6726; CX 6725 6724 6727;
  CA 6725 6726 6728; CX 6724 6728 6729; CX 6558 92 6730; CX 6729 92 6731; CX 6730 6729 6732; CA 6730 6731 6733; CX 6729 6733 6734; CX 6561 93 6735;
  CX 6734 93 6736; CX 6735 6734 6737; CA 6735 6736 6738; CX 6734 6738 6739; CX 6564 94 6740; CX 6739 94 6741; CX 6740 6739 6742; CA 6740 6741 6743;
  CX 6739 6743 6744; CX 6567 95 6745; CX 6744 95 6746; CX 6745 6744 6747; CA 6745 6746 6748; CX 6744 6748 6749; CX 6570 96 6750; CX 6749 96 6751;
  CX 6750 6749 6752; CA 6750 6751 6753; CX 6749 6753 6754; CX 6573 97 6755; CX 6754 97 6756; CX 6755 6754 6757; CA 6755 6756 6758; CX 6754 6758 6759;
  CX 6576 98 6760; CX 6759 98 6761; CX 6760 6759 6762; CA 6760 6761 6763; CX 6759 6763 6764; CX 6579 99 6765; CX 6764 99 6766; CX 6765 6764 6767;
  CA 6765 6766 6768; CX 6764 6768 6769; CX 6582 100 6770; CX 6769 100 6771; CX 6770 6769 6772; CA 6770 6771 6773; CX 6769 6773 6774; CX 6585 101 6775;
  CX 6774 101 6776; CX 6775 6774 6777; CA 6775 6776 6778; CX 6774 6778 6779; CX 6588 102 6780; CX 6779 102 6781; CX 6780 6779 6782; CA 6780 6781 6783;
  CX 6779 6783 6784; CX 6591 103 6785; CX 6784 103 6786; CX 6785 6784 6787; CA 6785 6786 6788; CX 6784 6788 6789; CA 6789 196 6790; CX 6789 196 6791;
  CX 6791 6790 6792; CX 24 6593 6793; CA 6792 6793 6794; CX 6794 6593 6795; CX 6477 6597 6796; CA 6792 6796 6797; CX 6797 6597 6798; CX 6480 6602 6799;
  CA 6792 6799 6800; CX 6800 6602 6801; CX 6483 6607 6802; CA 6792 6802 6803; CX 6803 6607 6804; CX 6486 6612 6805; CA 6792 6805 6806; CX 6806 6612 6807;
  CX 6489 6617 6808; CA 6792 6808 6809; CX 6809 6617 6810; CX 6492 6622 6811; CA 6792 6811 6812; CX 6812 6622 6813; CX 6495 6627 6814; CA 6792 6814 6815;
  CX 6815 6627 6816; CX 6498 6632 6817; CA 6792 6817 6818; CX 6818 6632 6819; CX 6501 6637 6820; CA 6792 6820 6821; CX 6821 6637 6822; CX 6504 6642 6823;
  CA 6792 6823 6824; CX 6824 6642 6825; CX 6507 6647 6826; CA 6792 6826 6827; CX 6827 6647 6828; CX 6510 6652 6829; CA 6792 6829 6830; CX 6830 6652 6831;
  CX 6513 6657 6832; CA 6792 6832 6833; CX 6833 6657 6834; CX 6516 6662 6835; CA 6792 6835 6836; CX 6836 6662 6837; CX 6519 6667 6838; CA 6792 6838 6839;
  CX 6839 6667 6840; CX 6522 6672 6841; CA 6792 6841 6842; CX 6842 6672 6843; CX 6525 6677 6844; CA 6792 6844 6845; CX 6845 6677 6846; CX 6528 6682 6847;
  CA 6792 6847 6848; CX 6848 6682 6849; CX 6531 6687 6850; CA 6792 6850 6851; CX 6851 6687 6852; CX 6534 6692 6853; CA 6792 6853 6854; CX 6854 6692 6855;
  CX 6537 6697 6856; CA 6792 6856 6857; CX 6857 6697 6858; CX 6540 6702 6859; CA 6792 6859 6860; CX 6860 6702 6861; CX 6543 6707 6862; CA 6792 6862 6863;
  CX 6863 6707 6864; CX 6546 6712 6865; CA 6792 6865 6866; CX 6866 6712 6867; CX 6549 6717 6868; CA 6792 6868 6869; CX 6869 6717 6870; CX 6552 6722 6871;
  CA 6792 6871 6872; CX 6872 6722 6873; CX 6555 6727 6874; CA 6792 6874 6875; CX 6875 6727 6876; CX 6558 6732 6877; CA 6792 6877 6878; CX 6878 6732 6879;
  CX 6561 6737 6880; CA 6792 6880 6881; CX 6881 6737 6882; CX 6564 6742 6883; CA 6792 6883 6884; CX 6884 6742 6885; CX 6567 6747 6886; CA 6792 6886 6887;
  CX 6887 6747 6888; CX 6570 6752 6889; CA 6792 6889 6890; CX 6890 6752 6891; CX 6573 6757 6892; CA 6792 6892 6893; CX 6893 6757 6894; CX 6576 6762 6895;
  CA 6792 6895 6896; CX 6896 6762 6897; CX 6579 6767 6898; CA 6792 6898 6899; CX 6899 6767 6900; CX 6582 6772 6901; CA 6792 6901 6902; CX 6902 6772 6903;
  CX 6585 6777 6904; CA 6792 6904 6905; CX 6905 6777 6906; CX 6588 6782 6907; CA 6792 6907 6908; CX 6908 6782 6909; CX 6591 6787 6910; CA 6792 6910 6911;
  CX 6911 6787 6912; CI 6792 6913; CX 23 64 6914; CA 6914 64 6915; CX 6795 65 6916; CX 6915 65 6917; CX 6916 6915 6918; CA 6916 6917 6919;
  CX 6915 6919 6920; CX 6798 66 6921; CX 6920 66 6922; CX 6921 6920 6923; CA 6921 6922 6924; CX 6920 6924 6925; CX 6801 67 6926; CX 6925 67 6927].
(** Lines 6805-7204 of the file. *)
Definition udivide64_17 : list cg := [
  CX 6926 6925 6928; CA 6926 6927 6929; CX 6925 6929 6930; CX 6804 68 6931; CX 6930 68 6932; CX 6931 6930 6933; CA 6931 6932 6934; CX 6930 6934 6935;
  CX 6807 69 6936; CX 6935 69 6937; CX 6936 6935 6938; CA 6936 6937 6939; CX 6935 6939 6940; CX 6810 70 6941; CX 6940 70 6942; CX 6941 6940 6943;
  CA 6941 6942 6944; CX 6940 6944 6945; CX 6813 71 6946; CX 6945 71 6947; CX 6946 6945 6948; CA 6946 6947 6949; CX 6945 6949 6950; CX 6816 72 6951;
  CX 6950 72 6952; CX 6951 6950 6953; CA 6951 6952 6954; CX 6950 6954 6955; CX 6819 73 6956; CX 6955 73 6957; CX 6956 6955 6958; CA 6956 6957 6959;
  CX 6955 6959 6960; CX 6822 74 6961; CX 6960 74 6962; CX 6961 6960 6963; CA 6961 6962 6964; CX 6960 6964 6965; CX 6825 75 6966; CX 6965 75 6967;
  CX 6966 6965 6968; CA 6966 6967 6969; CX 6965 6969 6970; CX 6828 76 6971; CX 6970 76 6972; CX 6971 6970 6973; CA 6971 6972 6974; CX 6970 6974 6975;
  CX 6831 77 6976; CX 6975 77 6977; CX 6976 6975 6978; CA 6976 6977 6979; CX 6975 6979 6980; CX 6834 78 6981; CX 6980 78 6982; CX 6981 6980 6983;
  CA 6981 6982 6984; CX 6980 6984 6985; CX 6837 79 6986; CX 6985 79 6987; CX 6986 6985 6988; CA 6986 6987 6989; CX 6985 6989 6990; CX 6840 80 6991;
  CX 6990 80 6992; CX 6991 6990 6993; CA 6991 6992 6994; CX 6990 6994 6995; CX 6843 81 6996; CX 6995 81 6997; CX 6996 6995 6998; CA 6996 6997 6999;
  CX 6995 6999 7000; CX 6846 82 7001; CX 7000 82 7002; CX 7001 7000 7003; CA 7001 7002 7004; CX 7000 7004 7005; CX 6849 83 7006; CX 7005 83 7007;
  CX 7006 7005 7008; CA 7006 7007 7009; CX 7005 7009 7010; CX 6852 84 7011; CX 7010 84 7012; CX 7011 7010 7013; CA 7011 7012 7014; CX 7010 7014 7015;
  CX 6855 85 7016; CX 7015 85 7017; CX 7016 7015 7018; CA 7016 7017 7019; CX 7015 7019 7020; CX 6858 86 7021; CX 7020 86 7022; CX 7021 7020 7023;
  CA 7021 7022 7024; CX 7020 7024 7025; CX 6861 87 7026; CX 7025 87 7027; CX 7026 7025 7028; CA 7026 7027 7029; CX 7025 7029 7030; CX 6864 88 7031;
  CX 7030 88 7032; CX 7031 7030 7033; CA 7031 7032 7034; CX 7030 7034 7035; CX 6867 89 7036; CX 7035 89 7037; CX 7036 7035 7038; CA 7036 7037 7039;
  CX 7035 7039 7040; CX 6870 90 7041; CX 7040 90 7042; CX 7041 7040 7043; CA 7041 7042 7044; CX 7040 7044 7045; CX 6873 91 7046; CX 7045 91 7047;
  CX 7046 7045 7048; CA 7046 7047 7049; CX 7045 7049 7050; CX 6876 92 7051; CX 7050 92 7052; CX 7051 7050 7053; CA 7051 7052 7054; CX 7050 7054 7055;
  CX 6879 93 7056; CX 7055 93 7057; CX 7056 7055 7058; CA 7056 7057 7059; CX 7055 7059 7060; CX 6882 94 7061; CX 7060 94 7062; CX 7061 7060 7063;
  CA 7061 7062 7064; CX 7060 7064 7065; CX 6885 95 7066; CX 7065 95 7067; CX 7066 7065 7068; CA 7066 7067 7069; CX 7065 7069 7070; CX 6888 96 7071;
  CX 7070 96 7072; CX 7071 7070 7073; CA 7071 7072 7074; CX 7070 7074 7075; CX 6891 97 7076; CX 7075 97 7077; CX 7076 7075 7078; CA 7076 7077 7079;
  CX 7075 7079 7080; CX 6894 98 7081; CX 7080 98 7082; CX 7081 7080 7083; CA 7081 7082 7084; CX 7080 7084 7085; CX 6897 99 7086; CX 7085 99 7087;
  CX 7086 7085 7088; CA 7086 7087 7089; CX 7085 7089 7090; CX 6900 100 7091; CX 7090 100 7092; CX 7091 7090 7093; CA 7091 7092 7094; CX 7090 7094 7095;
  CX 6903 101 7096; CX 7095 101 7097; CX 7096 7095 7098; CA 7096 7097 7099; CX 7095 7099 7100; CX 6906 102 7101; CX 7100 102 7102; CX 7101 7100 7103;
  CA 7101 7102 7104; CX 7100 7104 7105; CX 6909 103 7106; CX 7105 103 7107; CX 7106 7105 7108; CA 7106 7107 7109; CX 7105 7109 7110; CX 6912 104 7111;
  CX 7110 104 7112; CX 7111 7110 7113; CA 7111 7112 7114; CX 7110 7114 7115; CA 7115 193 7116; CX 7115 193 7117; CX 7117 7116 7118; CX 23 6914 7119;
  CA 7118 7119 7120; CX 7120 6914 7121; CX 6795 6918 7122; CA 7118 7122 7123; CX 7123 6918 7124; CX 6798 6923 7125; CA 7118 7125 7126; CX 7126 6923 7127;
  CX 6801 6928 7128; CA 7118 7128 7129; CX 7129 6928 7130; CX 6804 6933 7131; CA 7118 7131 7132; CX 7132 6933 7133; CX 6807 6938 7134; CA 7118 7134 7135;
  CX 7135 6938 7136; CX 6810 6943 7137; CA 7118 7137 7138; CX 7138 6943 7139; CX 6813 6948 7140; CA 7118 7140 7141; CX 7141 6948 7142; CX 6816 6953 7143;
  CA 7118 7143 7144; CX 7144 6953 7145; CX 6819 6958 7146; CA 7118 7146 7147; CX 7147 6958 7148; CX 6822 6963 7149; CA 7118 7149 7150; CX 7150 6963 7151;
  CX 6825 6968 7152; CA 7118 7152 7153; CX 7153 6968 7154; CX 6828 6973 7155; CA 7118 7155 7156; CX 7156 6973 7157; CX 6831 6978 7158; CA 7118 7158 7159;
  CX 7159 6978 7160; CX 6834 6983 7161; CA 7118 7161 7162; CX 7162 6983 7163; CX 6837 6988 7164; CA 7118 7164 7165; CX 7165 6988 7166; CX 6840 6993 7167;
  CA 7118 7167 7168; CX 7168 6993 7169; CX 6843 6998 7170; CA 7118 7170 7171; CX 7171 6998 7172; CX 6846 7003 7173; CA 7118 7173 7174; CX 7174 7003 7175;
  CX 6849 7008 7176; CA 7118 7176 7177; CX 7177 7008 7178; CX 6852 7013 7179; CA 7118 7179 7180; CX 7180 7013 7181; CX 6855 7018 7182; CA 7118 7182 7183;
  CX 7183 7018 7184; CX 6858 7023 7185; CA 7118 7185 7186; CX 7186 7023 7187; CX 6861 7028 7188; CA 7118 7188 7189; CX 7189 7028 7190; CX 6864 7033 7191;
  CA 7118 7191 7192; CX 7192 7033 7193; CX 6867 7038 7194; CA 7118 7194 7195; CX 7195 7038 7196; CX 6870 7043 7197; CA 7118 7197 7198; CX 7198 7043 7199;
  CX 6873 7048 7200; CA 7118 7200 7201; CX 7201 7048 7202; CX 6876 7053 7203; CA 7118 7203 7204; CX 7204 7053 7205; CX 6879 7058 7206; CA 7118 7206 7207;
  CX 7207 7058 7208; CX 6882 7063 7209; CA 7118 7209 7210; CX 7210 7063 7211; CX 6885 7068 7212; CA 7118 7212 7213; CX 7213 7068 7214; CX 6888 7073 7215;
  CA 7118 7215 7216; CX 7216 7073 7217; CX 6891 7078 7218; CA 7118 7218 7219; CX 7219 7078 7220; CX 6894 7083 7221; CA 7118 7221 7222; CX 7222 7083 7223;
  CX 6897 7088 7224; CA 7118 7224 7225; CX 7225 7088 7226; CX 6900 7093 7227; CA 7118 7227 7228; CX 7228 7093 7229; CX 6903 7098 7230; CA 7118 7230 7231;
  CX 7231 7098 7232; CX 6906 7103 7233; CA 7118 7233 7234; CX 7234 7103 7235; CX 6909 7108 7236; CA 7118 7236 7237; CX 7237 7108 7238; CX 6912 7113 7239;
  CA 7118 7239 7240; CX 7240 7113 7241; CI 7118 7242; CX 22 64 7243; CA 7243 64 7244; CX 7121 65 7245; CX 7244 65 7246; CX 7245 7244 7247;
  CA 7245 7246 7248; CX 7244 7248 7249; CX 7124 66 7250; CX 7249 66 7251; CX 7250 7249 7252; CA 7250 7251 7253; CX 7249 7253 7254; CX 7127 67 7255;
  CX 7254 67 7256; CX 7255 7254 7257; CA 7255 7256 7258; CX 7254 7258 7259; CX 7130 68 7260; CX 7259 68 7261; CX 7260 7259 7262; CA 7260 7261 7263;
  CX 7259 7263 7264; CX 7133 69 7265; CX 7264 69 7266; CX 7265 7264 7267; CA 7265 7266 7268; CX 7264 7268 7269; CX 7136 70 7270; CX 7269 70 7271;
  CX 7270 7269 7272; CA 7270 7271 7273; CX 7269 7273 7274; CX 7139 71 7275; CX 7274 71 7276; CX 7275 7274 7277; CA 7275 7276 7278; CX 7274 7278 7279;
  CX 7142 72 7280; CX 7279 72 7281; CX 7280 7279 7282; CA 7280 7281 7283; CX 7279 7283 7284; CX 7145 73 7285; CX 7284 73 7286; CX 7285 7284 7287;
  CA 7285 7286 7288; CX 7284 7288 7289; CX 7148 74 7290; CX 7289 74 7291; CX 7290 7289 7292; CA 7290 7291 7293; CX 7289 7293 7294; CX 7151 75 7295;
  CX 7294 75 7296; CX 7295 7294 7297; CA 7295 7296 7298; CX 7294 7298 7299; CX 7154 76 7300; CX 7299 76 7301; CX 7300 7299 7302; CA 7300 7301 7303;
  CX 7299 7303 7304; CX 7157 77 7305; CX 7304 77 7306; CX 7305 7304 7307; CA 7305 7306 7308; CX 7304 7308 7309; CX 7160 78 7310; CX 7309 78 7311;
  CX 7310 7309 7312; CA 7310 7311 7313; CX 7309 7313 7314; CX 7163 79 7315; CX 7314 79 7316; CX 7315 7314 7317; CA 7315 7316 7318; CX 7314 7318 7319;
  CX 7166 80 7320; CX 7319 80 7321; CX 7320 7319 7322; CA 7320 7321 7323; CX 7319 7323 7324; CX 7169 81 7325; CX 7324 81 7326; CX 7325 7324 7327].
(** Lines 7205-7604 of the file. *)
Definition udivide64_18 : list cg := [
  CA 7325 7326 7328; CX 7324 7328 7329; CX 7172 82 7330; CX 7329 82 7331; CX 7330 7329 7332; CA 7330 7331 7333; CX 7329 7333 7334; CX 7175 83 7335;
  CX 7334 83 7336; CX 7335 7334 7337; CA 7335 7336 7338; CX 7334 7338 7339; CX 7178 84 7340; CX 7339 84 7341; CX 7340 7339 7342; CA 7340 7341 7343;
  CX 7339 7343 7344; CX 7181 85 7345; CX 7344 85 7346; CX 7345 7344 7347; CA 7345 7346 7348; CX 7344 7348 7349; CX 7184 86 7350; CX 7349 86 7351;
  CX 7350 7349 7352; CA 7350 7351 7353; CX 7349 7353 7354; CX 7187 87 7355; CX 7354 87 7356; CX 7355 7354 7357; CA 7355 7356 7358; CX 7354 7358 7359;
  CX 7190 88 7360; CX 7359 88 7361; CX 7360 7359 7362; CA 7360 7361 7363; CX 7359 7363 7364; CX 7193 89 7365; CX 7364 89 7366; CX 7365 7364 7367;
  CA 7365 7366 7368; CX 7364 7368 7369; CX 7196 90 7370; CX 7369 90 7371; CX 7370 7369 7372; CA 7370 7371 7373; CX 7369 7373 7374; CX 7199 91 7375;
  CX 7374 91 7376; CX 7375 7374 7377; CA 7375 7376 7378; CX 7374 7378 7379; CX 7202 92 7380; CX 7379 92 7381; CX 7380 7379 7382; CA 7380 7381 7383;
  CX 7379 7383 7384; CX 7205 93 7385; CX 7384 93 7386; CX 7385 7384 7387; CA 7385 7386 7388; CX 7384 7388 7389; CX 7208 94 7390; CX 7389 94 7391;
  CX 7390 7389 7392; CA 7390 7391 7393; CX 7389 7393 7394; CX 7211 95 7395; CX 7394 95 7396; CX 7395 7394 7397; CA 7395 7396 7398; CX 7394 7398 7399;
  CX 7214 96 7400; CX 7399 96 7401; CX 7400 7399 7402; CA 7400 7401 7403; CX 7399 7403 7404; CX 7217 97 7405; CX 7404 97 7406; CX 7405 7404 7407;
  CA 7405 7406 7408; CX 7404 7408 7409; CX 7220 98 7410; CX 7409 98 7411; CX 7410 7409 7412; CA 7410 7411 7413; CX 7409 7413 7414; CX 7223 99 7415;
  CX 7414 99 7416; CX 7415 7414 7417; CA 7415 7416 7418; CX 7414 7418 7419; CX 7226 100 7420; CX 7419 100 7421; CX 7420 7419 7422; CA 7420 7421 7423;
  CX 7419 7423 7424; CX 7229 101 7425; CX 7424 101 7426; CX 7425 7424 7427; CA 7425 7426 7428; CX 7424 7428 7429; CX 7232 102 7430; CX 7429 102 7431;
  CX 7430 7429 7432; CA 7430 7431 7433; CX 7429 7433 7434; CX 7235 103 7435; CX 7434 103 7436; CX 7435 7434 7437; CA 7435 7436 7438; CX 7434 7438 7439;
  CX 7238 104 7440; CX 7439 104 7441; CX 7440 7439 7442; CA 7440 7441 7443; CX 7439 7443 7444; CX 7241 105 7445; CX 7444 105 7446; CX 7445 7444 7447;
  CA 7445 7446 7448; CX 7444 7448 7449; CA 7449 190 7450; CX 7449 190 7451; CX 7451 7450 7452; CX 22 7243 7453; CA 7452 7453 7454; CX 7454 7243 7455;
  CX 7121 7247 7456; CA 7452 7456 7457; CX 7457 7247 7458; CX 7124 7252 7459; CA 7452 7459 7460; CX 7460 7252 7461; CX 7127 7257 7462; CA 7452 7462 7463;
  CX 7463 7257 7464; CX 7130 7262 7465; CA 7452 7465 7466; CX 7466 7262 7467; CX 7133 7267 7468; CA 7452 7468 7469; CX 7469 7267 7470; CX 7136 7272 7471;
  CA 7452 7471 7472; CX 7472 7272 7473; CX 7139 7277 7474; CA 7452 7474 7475; CX 7475 7277 7476; CX 7142 7282 7477; CA 7452 7477 7478; CX 7478 7282 7479;
  CX 7145 7287 7480; CA 7452 7480 7481; CX 7481 7287 7482; CX 7148 7292 7483; CA 7452 7483 7484; CX 7484 7292 7485; CX 7151 7297 7486; CA 7452 7486 7487;
  CX 7487 7297 7488; CX 7154 7302 7489; CA 7452 7489 7490; CX 7490 7302 7491; CX 7157 7307 7492; CA 7452 7492 7493; CX 7493 7307 7494; CX 7160 7312 7495;
  CA 7452 7495 7496; CX 7496 7312 7497; CX 7163 7317 7498; CA 7452 7498 7499; CX 7499 7317 7500; CX 7166 7322 7501; CA 7452 7501 7502; CX 7502 7322 7503;
  CX 7169 7327 7504; CA 7452 7504 7505; CX 7505 7327 7506; CX 7172 7332 7507; CA 7452 7507 7508; CX 7508 7332 7509; CX 7175 7337 7510; CA 7452 7510 7511;
  CX 7511 7337 7512; CX 7178 7342 7513; CA 7452 7513 7514; CX 7514 7342 7515; CX 7181 7347 7516; CA 7452 7516 7517; CX 7517 7347 7518; CX 7184 7352 7519;
  CA 7452 7519 7520; CX 7520 7352 7521; CX 7187 7357 7522; CA 7452 7522 7523; CX 7523 7357 7524; CX 7190 7362 7525; CA 7452 7525 7526; CX 7526 7362 7527;
  CX 7193 7367 7528; CA 7452 7528 7529; CX 7529 7367 7530; CX 7196 7372 7531; CA 7452 7531 7532; CX 7532 7372 7533; CX 7199 7377 7534; CA 7452 7534 7535;
  CX 7535 7377 7536; CX 7202 7382 7537; CA 7452 7537 7538; CX 7538 7382 7539; CX 7205 7387 7540; CA 7452 7540 7541; CX 7541 7387 7542; CX 7208 7392 7543;
  CA 7452 7543 7544; CX 7544 7392 7545; CX 7211 7397 7546; CA 7452 7546 7547; CX 7547 7397 7548; CX 7214 7402 7549; CA 7452 7549 7550; CX 7550 7402 7551;
  CX 7217 7407 7552; CA 7452 7552 7553; CX 7553 7407 7554; CX 7220 7412 7555; CA 7452 7555 7556; CX 7556 7412 7557; CX 7223 7417 7558; CA 7452 7558 7559;
  CX 7559 7417 7560; CX 7226 7422 7561; CA 7452 7561 7562; CX 7562 7422 7563; CX 7229 7427 7564; CA 7452 7564 7565; CX 7565 7427 7566; CX 7232 7432 7567;
  CA 7452 7567 7568; CX 7568 7432 7569; CX 7235 7437 7570; CA 7452 7570 7571; CX 7571 7437 7572; CX 7238 7442 7573; CA 7452 7573 7574; CX 7574 7442 7575;
  CX 7241 7447 7576; CA 7452 7576 7577; CX 7577 7447 7578; CI 7452 7579; CX 21 64 7580; CA 7580 64 7581; CX 7455 65 7582; CX 7581 65 7583;
  CX 7582 7581 7584; CA 7582 7583 7585; CX 7581 7585 7586; CX 7458 66 7587; CX 7586 66 7588; CX 7587 7586 7589; CA 7587 7588 7590; CX 7586 7590 7591;
  CX 7461 67 7592; CX 7591 67 7593; CX 7592 7591 7594; CA 7592 7593 7595; CX 7591 7595 7596; CX 7464 68 7597; CX 7596 68 7598; CX 7597 7596 7599;
  CA 7597 7598 7600; CX 7596 7600 7601; CX 7467 69 7602; CX 7601 69 7603; CX 7602 7601 7604; CA 7602 7603 7605; CX 7601 7605 7606; CX 7470 70 7607;
  CX 7606 70 7608; CX 7607 7606 7609; CA 7607 7608 7610; CX 7606 7610 7611; CX 7473 71 7612; CX 7611 71 7613; CX 7612 7611 7614; CA 7612 7613 7615;
  CX 7611 7615 7616; CX 7476 72 7617; CX 7616 72 7618; CX 7617 7616 7619; CA 7617 7618 7620; CX 7616 7620 7621; CX 7479 73 7622; CX 7621 73 7623;
  CX 7622 7621 7624; CA 7622 7623 7625; CX 7621 7625 7626; CX 7482 74 7627; CX 7626 74 7628; CX 7627 7626 7629; CA 7627 7628 7630; CX 7626 7630 7631;
  CX 7485 75 7632; CX 7631 75 7633; CX 7632 7631 7634; CA 7632 7633 7635; CX 7631 7635 7636; CX 7488 76 7637; CX 7636 76 7638; CX 7637 7636 7639;
  CA 7637 7638 7640; CX 7636 7640 7641; CX 7491 77 7642; CX 7641 77 7643; CX 7642 7641 7644; CA 7642 7643 7645; CX 7641 7645 7646; CX 7494 78 7647;
  CX 7646 78 7648; CX 7647 7646 7649; CA 7647 7648 7650; CX 7646 7650 7651; CX 7497 79 7652; CX 7651 79 7653; CX 7652 7651 7654; CA 7652 7653 7655;
  CX 7651 7655 7656; CX 7500 80 7657; CX 7656 80 7658; CX 7657 7656 7659; CA 7657 7658 7660; CX 7656 7660 7661; CX 7503 81 7662; CX 7661 81 7663;
  CX 7662 7661 7664; CA 7662 7663 7665; CX 7661 7665 7666; CX 7506 82 7667; CX 7666 82 7668; CX 7667 7666 7669; CA 7667 7668 7670; CX 7666 7670 7671;
  CX 7509 83 7672; CX 7671 83 7673; CX 7672 7671 7674; CA 7672 7673 7675; CX 7671 7675 7676; CX 7512 84 7677; CX 7676 84 7678; CX 7677 7676 7679;
  CA 7677 7678 7680; CX 7676 7680 7681; CX 7515 85 7682; CX 7681 85 7683; CX 7682 7681 7684; CA 7682 7683 7685; CX 7681 7685 7686; CX 7518 86 7687;
  CX 7686 86 7688; CX 7687 7686 7689; CA 7687 7688 7690; CX 7686 7690 7691; CX 7521 87 7692; CX 7691 87 7693; CX 7692 7691 7694; CA 7692 7693 7695;
  CX 7691 7695 7696; CX 7524 88 7697; CX 7696 88 7698; CX 7697 7696 7699; CA 7697 7698 7700; CX 7696 7700 7701; CX 7527 89 7702; CX 7701 89 7703;
  CX 7702 7701 7704; CA 7702 7703 7705; CX 7701 7705 7706; CX 7530 90 7707; CX 7706 90 7708; CX 7707 7706 7709; CA 7707 7708 7710; CX 7706 7710 7711;
  CX 7533 91 7712; CX 7711 91 7713; CX 7712 7711 7714; CA 7712 7713 7715; CX 7711 7715 7716; CX 7536 92 7717; CX 7716 92 7718; CX 7717 7716 7719;
  CA 7717 7718 7720; CX 7716 7720 7721; CX 7539 93 7722; CX 7721 93 7723; CX 7722 7721 7724; CA 7722 7723 7725; CX 7721 7725 7726; CX 7542 94 7727].
(** Lines 7605-8004 of the file. *)
Definition udivide64_19 : list cg := [
  CX 7726 94 7728; CX 7727 7726 7729; CA 7727 7728 7730; CX 7726 7730 7731; CX 7545 95 7732; CX 7731 95 7733; CX 7732 7731 7734; CA 7732 7733 7735;
  CX 7731 7735 7736; CX 7548 96 7737; CX 7736 96 7738; CX 7737 7736 7739; CA 7737 7738 7740; CX 7736 7740 7741; CX 7551 97 7742; CX 7741 97 7743;
  CX 7742 7741 7744; CA 7742 7743 7745; CX 7741 7745 7746; CX 7554 98 7747; CX 7746 98 7748; CX 7747 7746 7749; CA 7747 7748 7750; CX 7746 7750 7751;
  CX 7557 99 7752; CX 7751 99 7753; CX 7752 7751 7754; CA 7752 7753 7755; CX 7751 7755 7756; CX 7560 100 7757; CX 7756 100 7758; CX 7757 7756 7759;
  CA 7757 7758 7760; CX 7756 7760 7761; CX 7563 101 7762; CX 7761 101 7763; CX 7762 7761 7764; CA 7762 7763 7765; CX 7761 7765 7766; CX 7566 102 7767;
  CX 7766 102 7768; CX 7767 7766 7769; CA 7767 7768 7770; CX 7766 7770 7771; CX 7569 103 7772; CX 7771 103 7773; CX 7772 7771 7774; CA 7772 7773 7775;
  CX 7771 7775 7776; CX 7572 104 7777; CX 7776 104 7778; CX 7777 7776 7779; CA 7777 7778 7780; CX 7776 7780 7781; CX 7575 105 7782; CX 7781 105 7783;
  CX 7782 7781 7784; CA 7782 7783 7785; CX 7781 7785 7786; CX 7578 106 7787; CX 7786 106 7788; CX 7787 7786 7789; CA 7787 7788 7790; CX 7786 7790 7791;
  CA 7791 187 7792; CX 7791 187 7793; CX 7793 7792 7794; CX 21 7580 7795; CA 7794 7795 7796; CX 7796 7580 7797; CX 7455 7584 7798; CA 7794 7798 7799;
  CX 7799 7584 7800; CX 7458 7589 7801; CA 7794 7801 7802; CX 7802 7589 7803; CX 7461 7594 7804; CA 7794 7804 7805; CX 7805 7594 7806; CX 7464 7599 7807;
  CA 7794 7807 7808; CX 7808 7599 7809; CX 7467 7604 7810; CA 7794 7810 7811; CX 7811 7604 7812; CX 7470 7609 7813; CA 7794 7813 7814; CX 7814 7609 7815;
  CX 7473 7614 7816; CA 7794 7816 7817; CX 7817 7614 7818; CX 7476 7619 7819; CA 7794 7819 7820; CX 7820 7619 7821; CX 7479 7624 7822; CA 7794 7822 7823;
  CX 7823 7624 7824; CX 7482 7629 7825; CA 7794 7825 7826; CX 7826 7629 7827; CX 7485 7634 7828; CA 7794 7828 7829; CX 7829 7634 7830; CX 7488 7639 7831;
  CA 7794 7831 7832; CX 7832 7639 7833; CX 7491 7644 7834; CA 7794 7834 7835; CX 7835 7644 7836; CX 7494 7649 7837; CA 7794 7837 7838; CX 7838 7649 7839;
  CX 7497 7654 7840; CA 7794 7840 7841; CX 7841 7654 7842; CX 7500 7659 7843; CA 7794 7843 7844; CX 7844 7659 7845; CX 7503 7664 7846; CA 7794 7846 7847;
  CX 7847 7664 7848; CX 7506 7669 7849; CA 7794 7849 7850; CX 7850 7669 7851; CX 7509 7674 7852; CA 7794 7852 7853; CX 7853 7674 7854; CX 7512 7679 7855;
  CA 7794 7855 7856; CX 7856 7679 7857; CX 7515 7684 7858; CA 7794 7858 7859; CX 7859 7684 7860; CX 7518 7689 7861; CA 7794 7861 7862; CX 7862 7689 7863;
  CX 7521 7694 7864; CA 7794 7864 7865; CX 7865 7694 7866; CX 7524 7699 7867; CA 7794 7867 7868; CX 7868 7699 7869; CX 7527 7704 7870; CA 7794 7870 7871;
  CX 7871 7704 7872; CX 7530 7709 7873; CA 7794 7873 7874; CX 7874 7709 7875; CX 7533 7714 7876; CA 7794 7876 7877; CX 7877 7714 7878; CX 7536 7719 7879;
  CA 7794 7879 7880; CX 7880 7719 7881; CX 7539 7724 7882; CA 7794 7882 7883; CX 7883 7724 7884; CX 7542 7729 7885; CA 7794 7885 7886; CX 7886 7729 7887;
  CX 7545 7734 7888; CA 7794 7888 7889; CX 7889 7734 7890; CX 7548 7739 7891; CA 7794 7891 7892; CX 7892 7739 7893; CX 7551 7744 7894; CA 7794 7894 7895;
  CX 7895 7744 7896; CX 7554 7749 7897; CA 7794 7897 7898; CX 7898 7749 7899; CX 7557 7754 7900; CA 7794 7900 7901; CX 7901 7754 7902; CX 7560 7759 7903;
  CA 7794 7903 7904; CX 7904 7759 7905; CX 7563 7764 7906; CA 7794 7906 7907; CX 7907 7764 7908; CX 7566 7769 7909; CA 7794 7909 7910; CX 7910 7769 7911;
  CX 7569 7774 7912; CA 7794 7912 7913; CX 7913 7774 7914; CX 7572 7779 7915; CA 7794 7915 7916; CX 7916 7779 7917; CX 7575 7784 7918; CA 7794 7918 7919;
  CX 7919 7784 7920; CX 7578 7789 7921; CA 7794 7921 7922; CX 7922 7789 7923; CI 7794 7924; CX 20 64 7925; CA 7925 64 7926; CX 7797 65 7927;
  CX 7926 65 7928; CX 7927 7926 7929; CA 7927 7928 7930; CX 7926 7930 7931; CX 7800 66 7932; CX 7931 66 7933; CX 7932 7931 7934; CA 7932 7933 7935;
  CX 7931 7935 7936; CX 7803 67 7937; CX 7936 67 7938; CX 7937 7936 7939; CA 7937 7938 7940; CX 7936 7940 7941; CX 7806 68 7942; CX 7941 68 7943;
  CX 7942 7941 7944; CA 7942 7943 7945; CX 7941 7945 7946; CX 7809 69 7947; CX 7946 69 7948; CX 7947 7946 7949; CA 7947 7948 7950; CX 7946 7950 7951;
  CX 7812 70 7952; CX 7951 70 7953; CX 7952 7951 7954; CA 7952 7953 7955; CX 7951 7955 7956; CX 7815 71 7957; CX 7956 71 7958; CX 7957 7956 7959;
  CA 7957 7958 7960; CX 7956 7960 7961; CX 7818 72 7962; CX 7961 72 7963; CX 7962 7961 7964; CA 7962 7963 7965; CX 7961 7965 7966; CX 7821 73 7967;
  CX 7966 73 7968; CX 7967 7966 7969; CA 7967 7968 7970; CX 7966 7970 7971; CX 7824 74 7972; CX 7971 74 7973; CX 7972 7971 7974; CA 7972 7973 7975;
  CX 7971 7975 7976; CX 7827 75 7977; CX 7976 75 7978; CX 7977 7976 7979; CA 7977 7978 7980; CX 7976 7980 7981; CX 7830 76 7982; CX 7981 76 7983;
  CX 7982 7981 7984; CA 7982 7983 7985; CX 7981 7985 7986; CX 7833 77 7987; CX 7986 77 7988; CX 7987 7986 7989; CA 7987 7988 7990; CX 7986 7990 7991;
  CX 7836 78 7992; CX 7991 78 7993; CX 7992 7991 7994; CA 7992 7993 7995; CX 7991 7995 7996; CX 7839 79 7997; CX 7996 79 7998; CX 7997 7996 7999;
  CA 7997 7998 8000; CX 7996 8000 8001; CX 7842 80 8002; CX 8001 80 8003; CX 8002 8001 8004; CA 8002 8003 8005; CX 8001 8005 8006; CX 7845 81 8007;
  CX 8006 81 8008; CX 8007 8006 8009; CA 8007 8008 8010; CX 8006 8010 8011; CX 7848 82 8012; CX 8011 82 8013; CX 8012 8011 8014; CA 8012 8013 8015;
  CX 8011 8015 8016; CX 7851 83 8017; CX 8016 83 8018; CX 8017 8016 8019; CA 8017 8018 8020; CX 8016 8020 8021; CX 7854 84 8022; CX 8021 84 8023;
  CX 8022 8021 8024; CA 8022 8023 8025; CX 8021 8025 8026; CX 7857 85 8027; CX 8026 85 8028; CX 8027 8026 8029; CA 8027 8028 8030; CX 8026 8030 8031;
  CX 7860 86 8032; CX 8031 86 8033; CX 8032 8031 8034; CA 8032 8033 8035; CX 8031 8035 8036; CX 7863 87 8037; CX 8036 87 8038; CX 8037 8036 8039;
  CA 8037 8038 8040; CX 8036 8040 8041; CX 7866 88 8042; CX 8041 88 8043; CX 8042 8041 8044; CA 8042 8043 8045; CX 8041 8045 8046; CX 7869 89 8047;
  CX 8046 89 8048; CX 8047 8046 8049; CA 8047 8048 8050; CX 8046 8050 8051; CX 7872 90 8052; CX 8051 90 8053; CX 8052 8051 8054; CA 8052 8053 8055;
  CX 8051 8055 8056; CX 7875 91 8057; CX 8056 91 8058; CX 8057 8056 8059; CA 8057 8058 8060; CX 8056 8060 8061; CX 7878 92 8062; CX 8061 92 8063;
  CX 8062 8061 8064; CA 8062 8063 8065; CX 8061 8065 8066; CX 7881 93 8067; CX 8066 93 8068; CX 8067 8066 8069; CA 8067 8068 8070; CX 8066 8070 8071;
  CX 7884 94 8072; CX 8071 94 8073; CX 8072 8071 8074; CA 8072 8073 8075; CX 8071 8075 8076; CX 7887 95 8077; CX 8076 95 8078; CX 8077 8076 8079;
  CA 8077 8078 8080; CX 8076 8080 8081; CX 7890 96 8082; CX 8081 96 8083; CX 8082 8081 8084; CA 8082 8083 8085; CX 8081 8085 8086; CX 7893 97 8087;
  CX 8086 97 8088; CX 8087 8086 8089; CA 8087 8088 8090; CX 8086 8090 8091; CX 7896 98 8092; CX 8091 98 8093; CX 8092 8091 8094; CA 8092 8093 8095;
  CX 8091 8095 8096; CX 7899 99 8097; CX 8096 99 8098; CX 8097 8096 8099; CA 8097 8098 8100; CX 8096 8100 8101; CX 7902 100 8102; CX 8101 100 8103;
  CX 8102 8101 8104; CA 8102 8103 8105; CX 8101 8105 8106; CX 7905 101 8107; CX 8106 101 8108; CX 8107 8106 8109; CA 8107 8108 8110; CX 8106 8110 8111;
  CX 7908 102 8112; CX 8111 102 8113; CX 8112 8111 8114; CA 8112 8113 8115; CX 8111 8115 8116; CX 7911 103 8117; CX 8116 103 8118; CX 8117 8116 8119;
  CA 8117 8118 8120; CX 8116 8120 8121; CX 7914 104 8122; CX 8121 104 8123; CX 8122 8121 8124; CA 8122 8123 8125; CX 8121 8125 8126; CX 7917 105 8127].
(** Lines 8005-8404 of the file. *)
Definition udivide64_20 : list cg := [
  CX 8126 105 8128; CX 8127 8126 8129; CA 8127 8128 8130; CX 8126 8130 8131; CX 7920 106 8132; CX 8131 106 8133; CX 8132 8131 8134; CA 8132 8133 8135;
  CX 8131 8135 8136; CX 7923 107 8137; CX 8136 107 8138; CX 8137 8136 8139; CA 8137 8138 8140; CX 8136 8140 8141; CA 8141 184 8142; CX 8141 184 8143;
  CX 8143 8142 8144; CX 20 7925 8145; CA 8144 8145 8146; CX 8146 7925 8147; CX 7797 7929 8148; CA 8144 8148 8149; CX 8149 7929 8150; CX 7800 7934 8151;
  CA 8144 8151 8152; CX 8152 7934 8153; CX 7803 7939 8154; CA 8144 8154 8155; CX 8155 7939 8156; CX 7806 7944 8157; CA 8144 8157 8158; CX 8158 7944 8159;
  CX 7809 7949 8160; CA 8144 8160 8161; CX 8161 7949 8162; CX 7812 7954 8163; CA 8144 8163 8164; CX 8164 7954 8165; CX 7815 7959 8166; CA 8144 8166 8167;
  CX 8167 7959 8168; CX 7818 7964 8169; CA 8144 8169 8170; CX 8170 7964 8171; CX 7821 7969 8172; CA 8144 8172 8173; CX 8173 7969 8174; CX 7824 7974 8175;
  CA 8144 8175 8176; CX 8176 7974 8177; CX 7827 7979 8178; CA 8144 8178 8179; CX 8179 7979 8180; CX 7830 7984 8181; CA 8144 8181 8182; CX 8182 7984 8183;
  CX 7833 7989 8184; CA 8144 8184 8185; CX 8185 7989 8186; CX 7836 7994 8187; CA 8144 8187 8188; CX 8188 7994 8189; CX 7839 7999 8190; CA 8144 8190 8191;
  CX 8191 7999 8192; CX 7842 8004 8193; CA 8144 8193 8194; CX 8194 8004 8195; CX 7845 8009 8196; CA 8144 8196 8197; CX 8197 8009 8198; CX 7848 8014 8199;
  CA 8144 8199 8200; CX 8200 8014 8201; CX 7851 8019 8202; CA 8144 8202 8203; CX 8203 8019 8204; CX 7854 8024 8205; CA 8144 8205 8206; CX 8206 8024 8207;
  CX 7857 8029 8208; CA 8144 8208 8209; CX 8209 8029 8210; CX 7860 8034 8211; CA 8144 8211 8212; CX 8212 8034 8213; CX 7863 8039 8214; CA 8144 8214 8215;
  CX 8215 8039 8216; CX 7866 8044 8217; CA 8144 8217 8218; CX 8218 8044 8219; CX 7869 8049 8220; CA 8144 8220 8221; CX 8221 8049 8222; CX 7872 8054 8223;
  CA 8144 8223 8224; CX 8224 8054 8225; CX 7875 8059 8226; CA 8144 8226 8227; CX 8227 8059 8228; CX 7878 8064 8229; CA 8144 8229 8230; CX 8230 8064 8231;
  CX 7881 8069 8232; CA 8144 8232 8233; CX 8233 8069 8234; CX 7884 8074 8235; CA 8144 8235 8236; CX 8236 8074 8237; CX 7887 8079 8238; CA 8144 8238 8239;
  CX 8239 8079 8240; CX 7890 8084 8241; CA 8144 8241 8242; CX 8242 8084 8243; CX 7893 8089 8244; CA 8144 8244 8245; CX 8245 8089 8246; CX 7896 8094 8247;
  CA 8144 8247 8248; CX 8248 8094 8249; CX 7899 8099 8250; CA 8144 8250 8251; CX 8251 8099 8252; CX 7902 8104 8253; CA 8144 8253 8254; CX 8254 8104 8255;
  CX 7905 8109 8256; CA 8144 8256 8257; CX 8257 8109 8258; CX 7908 8114 8259; CA 8144 8259 8260; CX 8260 8114 8261; CX 7911 8119 8262; CA 8144 8262 8263;
  CX 8263 8119 8264; CX 7914 8124 8265; CA 8144 8265 8266; CX 8266 8124 8267; CX 7917 8129 8268; CA 8144 8268 8269; CX 8269 8129 8270; CX 7920 8134 8271;
  CA 8144 8271 8272; CX 8272 8134 8273; CX 7923 8139 8274; CA 8144 8274 8275; CX 8275 8139 8276; CI 8144 8277; CX 19 64 8278; CA 8278 64 8279;
  CX 8147 65 8280; CX 8279 65 8281; CX 8280 8279 8282; CA 8280 8281 8283; CX 8279 8283 8284; CX 8150 66 8285; CX 8284 66 8286; CX 8285 8284 8287;
  CA 8285 8286 8288; CX 8284 8288 8289; CX 8153 67 8290; CX 8289 67 8291; CX 8290 8289 8292; CA 8290 8291 8293; CX 8289 8293 8294; CX 8156 68 8295;
  CX 8294 68 8296; CX 8295 8294 8297; CA 8295 8296 8298; CX 8294 8298 8299; CX 8159 69 8300; CX 8299 69 8301; CX 8300 8299 8302; CA 8300 8301 8303;
  CX 8299 8303 8304; CX 8162 70 8305; CX 8304 70 8306; CX 8305 8304 8307; CA 8305 8306 8308; CX 8304 8308 8309; CX 8165 71 8310; CX 8309 71 8311;
  CX 8310 8309 8312; CA 8310 8311 8313; CX 8309 8313 8314; CX 8168 72 8315; CX 8314 72 8316; CX 8315 8314 8317; CA 8315 8316 8318; CX 8314 8318 8319;
  CX 8171 73 8320; CX 8319 73 8321; CX 8320 8319 8322; CA 8320 8321 8323; CX 8319 8323 8324; CX 8174 74 8325; CX 8324 74 8326; CX 8325 8324 8327;
  CA 8325 8326 8328; CX 8324 8328 8329; CX 8177 75 8330; CX 8329 75 8331; CX 8330 8329 8332; CA 8330 8331 8333; CX 8329 8333 8334; CX 8180 76 8335;
  CX 8334 76 8336; CX 8335 8334 8337; CA 8335 8336 8338; CX 8334 8338 8339; CX 8183 77 8340; CX 8339 77 8341; CX 8340 8339 8342; CA 8340 8341 8343;
  CX 8339 8343 8344; CX 8186 78 8345; CX 8344 78 8346; CX 8345 8344 8347; CA 8345 8346 8348; CX 8344 8348 8349; CX 8189 79 8350; CX 8349 79 8351;
  CX 8350 8349 8352; CA 8350 8351 8353; CX 8349 8353 8354; CX 8192 80 8355; CX 8354 80 8356; CX 8355 8354 8357; CA 8355 8356 8358; CX 8354 8358 8359;
  CX 8195 81 8360; CX 8359 81 8361; CX 8360 8359 8362; CA 8360 8361 8363; CX 8359 8363 8364; CX 8198 82 8365; CX 8364 82 8366; CX 8365 8364 8367;
  CA 8365 8366 8368; CX 8364 8368 8369; CX 8201 83 8370; CX 8369 83 8371; CX 8370 8369 8372; CA 8370 8371 8373; CX 8369 8373 8374; CX 8204 84 8375;
  CX 8374 84 8376; CX 8375 8374 8377; CA 8375 8376 8378; CX 8374 8378 8379; CX 8207 85 8380; CX 8379 85 8381; CX 8380 8379 8382; CA 8380 8381 8383;
  CX 8379 8383 8384; CX 8210 86 8385; CX 8384 86 8386; CX 8385 8384 8387; CA 8385 8386 8388; CX 8384 8388 8389; CX 8213 87 8390; CX 8389 87 8391;
  CX 8390 8389 8392; CA 8390 8391 8393; CX 8389 8393 8394; CX 8216 88 8395; CX 8394 88 8396; CX 8395 8394 8397; CA 8395 8396 8398; CX 8394 8398 8399;
  CX 8219 89 8400; CX 8399 89 8401; CX 8400 8399 8402; CA 8400 8401 8403; CX 8399 8403 8404; CX 8222 90 8405; CX 8404 90 8406; CX 8405 8404 8407;
  CA 8405 8406 8408; CX 8404 8408 8409; CX 8225 91 8410; CX 8409 91 8411; CX 8410 8409 8412; CA 8410 8411 8413; CX 8409 8413 8414; CX 8228 92 8415;
  CX 8414 92 8416; CX 8415 8414 8417; CA 8415 8416 8418; CX 8414 8418 8419; CX 8231 93 8420; CX 8419 93 8421; CX 8420 8419 8422; CA 8420 8421 8423;
  CX 8419 8423 8424; CX 8234 94 8425; CX 8424 94 8426; CX 8425 8424 8427; CA 8425 8426 8428; CX 8424 8428 8429; CX 8237 95 8430; CX 8429 95 8431;
  CX 8430 8429 8432; CA 8430 8431 8433; CX 8429 8433 8434; CX 8240 96 8435; CX 8434 96 8436; CX 8435 8434 8437; CA 8435 8436 8438; CX 8434 8438 8439;
  CX 8243 97 8440; CX 8439 97 8441; CX 8440 8439 8442; CA 8440 8441 8443; CX 8439 8443 8444; CX 8246 98 8445; CX 8444 98 8446; CX 8445 8444 8447;
  CA 8445 8446 8448; CX 8444 8448 8449; CX 8249 99 8450; CX 8449 99 8451; CX 8450 8449 8452; CA 8450 8451 8453; CX 8449 8453 8454; CX 8252 100 8455;
  CX 8454 100 8456; CX 8455 8454 8457; CA 8455 8456 8458; CX 8454 8458 8459; CX 8255 101 8460; CX 8459 101 8461; CX 8460 8459 8462; CA 8460 8461 8463;
  CX 8459 8463 8464; CX 8258 102 8465; CX 8464 102 8466; CX 8465 8464 8467; CA 8465 8466 8468; CX 8464 8468 8469; CX 8261 103 8470; CX 8469 103 8471;
  CX 8470 8469 8472; CA 8470 8471 8473; CX 8469 8473 8474; CX 8264 104 8475; CX 8474 104 8476; CX 8475 8474 8477; CA 8475 8476 8478; CX 8474 8478 8479;
  CX 8267 105 8480; CX 8479 105 8481; CX 8480 8479 8482; CA 8480 8481 8483; CX 8479 8483 8484; CX 8270 106 8485; CX 8484 106 8486; CX 8485 8484 8487;
  CA 8485 8486 8488; CX 8484 8488 8489; CX 8273 107 8490; CX 8489 107 8491; CX 8490 8489 8492; CA 8490 8491 8493; CX 8489 8493 8494; CX 8276 108 8495;
  CX 8494 108 8496; CX 8495 8494 8497; CA 8495 8496 8498; CX 8494 8498 8499; CA 8499 181 8500; CX 8499 181 8501; CX 8501 8500 8502; CX 19 8278 8503;
  CA 8502 8503 8504; CX 8504 8278 8505; CX 8147 8282 8506; CA 8502 8506 8507; CX 8507 8282 8508; CX 8150 8287 8509; CA 8502 8509 8510; CX 8510 8287 8511;
  CX 8153 8292 8512; CA 8502 8512 8513; CX 8513 8292 8514; CX 8156 8297 8515; CA 8502 8515 8516; CX 8516 8297 8517; CX 8159 8302 8518; CA 8502 8518 8519;
  CX 8519 8302 8520; CX 8162 8307 8521; CA 8502 8521 8522; CX 8522 8307 8523; CX 8165 8312 8524; CA 8502 8524 8525; CX 8525 8312 8526; CX 8168 8317 8527].
(** Lines 8405-8804 of the file. *)
Definition udivide64_21 : list cg := [
  CA 8502 8527 8528; CX 8528 8317 8529; CX 8171 8322 8530; CA 8502 8530 8531; CX 8531 8322 8532; CX 8174 8327 8533; CA 8502 8533 8534; CX 8534 8327 8535;
  CX 8177 8332 8536; CA 8502 8536 8537; CX 8537 8332 8538; CX 8180 8337 8539; CA 8502 8539 8540; CX 8540 8337 8541; CX 8183 8342 8542; CA 8502 8542 8543;
  CX 8543 8342 8544; CX 8186 8347 8545; CA 8502 8545 8546; CX 8546 8347 8547; CX 8189 8352 8548; CA 8502 8548 8549; CX 8549 8352 8550; CX 8192 8357 8551;
  CA 8502 8551 8552; CX 8552 8357 8553; CX 8195 8362 8554; CA 8502 8554 8555; CX 8555 8362 8556; CX 8198 8367 8557; CA 8502 8557 8558; CX 8558 8367 8559;
  CX 8201 8372 8560; CA 8502 8560 8561; CX 8561 8372 8562; CX 8204 8377 8563; CA 8502 8563 8564; CX 8564 8377 8565; CX 8207 8382 8566; CA 8502 8566 8567;
  CX 8567 8382 8568; CX 8210 8387 8569; CA 8502 8569 8570; CX 8570 8387 8571; CX 8213 8392 8572; CA 8502 8572 8573; CX 8573 8392 8574; CX 8216 8397 8575;
  CA 8502 8575 8576; CX 8576 8397 8577; CX 8219 8402 8578; CA 8502 8578 8579; CX 8579 8402 8580; CX 8222 8407 8581; CA 8502 8581 8582; CX 8582 8407 8583;
  CX 8225 8412 8584; CA 8502 8584 8585; CX 8585 8412 8586; CX 8228 8417 8587; CA 8502 8587 8588; CX 8588 8417 8589; CX 8231 8422 8590; CA 8502 8590 8591;
  CX 8591 8422 8592; CX 8234 8427 8593; CA 8502 8593 8594; CX 8594 8427 8595; CX 8237 8432 8596; CA 8502 8596 8597; CX 8597 8432 8598; CX 8240 8437 8599;
  CA 8502 8599 8600; CX 8600 8437 8601; CX 8243 8442 8602; CA 8502 8602 8603; CX 8603 8442 8604; CX 8246 8447 8605; CA 8502 8605 8606; CX 8606 8447 8607;
  CX 8249 8452 8608; CA 8502 8608 8609; CX 8609 8452 8610; CX 8252 8457 8611; CA 8502 8611 8612; CX 8612 8457 8613; CX 8255 8462 8614; CA 8502 8614 8615;
  CX 8615 8462 8616; CX 8258 8467 8617; CA 8502 8617 8618; CX 8618 8467 8619; CX 8261 8472 8620; CA 8502 8620 8621; CX 8621 8472 8622; CX 8264 8477 8623;
  CA 8502 8623 8624; CX 8624 8477 8625; CX 8267 8482 8626; CA 8502 8626 8627; CX 8627 8482 8628; CX 8270 8487 8629; CA 8502 8629 8630; CX 8630 8487 8631;
  CX 8273 8492 8632; CA 8502 8632 8633; CX 8633 8492 8634; CX 8276 8497 8635; CA 8502 8635 8636; CX 8636 8497 8637; CI 8502 8638; CX 18 64 8639;
  CA 8639 64 8640; CX 8505 65 8641; CX 8640 65 8642; CX 8641 8640 8643; CA 8641 8642 8644; CX 8640 8644 8645; CX 8508 66 8646; CX 8645 66 8647;
  CX 8646 8645 8648; CA 8646 8647 8649; CX 8645 8649 8650; CX 8511 67 8651; CX 8650 67 8652; CX 8651 8650 8653; CA 8651 8652 8654; CX 8650 8654 8655;
  CX 8514 68 8656; CX 8655 68 8657; CX 8656 8655 8658; CA 8656 8657 8659; CX 8655 8659 8660; CX 8517 69 8661; CX 8660 69 8662; CX 8661 8660 8663;
  CA 8661 8662 8664; CX 8660 8664 8665; CX 8520 70 8666; CX 8665 70 8667; CX 8666 8665 8668; CA 8666 8667 8669; CX 8665 8669 8670; CX 8523 71 8671;
  CX 8670 71 8672; CX 8671 8670 8673; CA 8671 8672 8674; CX 8670 8674 8675; CX 8526 72 8676; CX 8675 72 8677; CX 8676 8675 8678; CA 8676 8677 8679;
  CX 8675 8679 8680; CX 8529 73 8681; CX 8680 73 8682; CX 8681 8680 8683; CA 8681 8682 8684; CX 8680 8684 8685; CX 8532 74 8686; CX 8685 74 8687;
  CX 8686 8685 8688; CA 8686 8687 8689; CX 8685 8689 8690; CX 8535 75 8691; CX 8690 75 8692; CX 8691 8690 8693; CA 8691 8692 8694; CX 8690 8694 8695;
  CX 8538 76 8696; CX 8695 76 8697; CX 8696 8695 8698; CA 8696 8697 8699; CX 8695 8699 8700; CX 8541 77 8701; CX 8700 77 8702; CX 8701 8700 8703;
  CA 8701 8702 8704; CX 8700 8704 8705; CX 8544 78 8706; CX 8705 78 8707; CX 8706 8705 8708; CA 8706 8707 8709; CX 8705 8709 8710; CX 8547 79 8711;
  CX 8710 79 8712; CX 8711 8710 8713; CA 8711 8712 8714; CX 8710 8714 8715; CX 8550 80 8716; CX 8715 80 8717; CX 8716 8715 8718; CA 8716 8717 8719;
  CX 8715 8719 8720; CX 8553 81 8721; CX 8720 81 8722; CX 8721 8720 8723; CA 8721 8722 8724; CX 8720 8724 8725; CX 8556 82 8726; CX 8725 82 8727;
  CX 8726 8725 8728; CA 8726 8727 8729; CX 8725 8729 8730; CX 8559 83 8731; CX 8730 83 8732; CX 8731 8730 8733; CA 8731 8732 8734; CX 8730 8734 8735;
  CX 8562 84 8736; CX 8735 84 8737; CX 8736 8735 8738; CA 8736 8737 8739; CX 8735 8739 8740; CX 8565 85 8741; CX 8740 85 8742; CX 8741 8740 8743;
  CA 8741 8742 8744; CX 8740 8744 8745; CX 8568 86 8746; CX 8745 86 8747; CX 8746 8745 8748; CA 8746 8747 8749; CX 8745 8749 8750; CX 8571 87 8751;
  CX 8750 87 8752; CX 8751 8750 8753; CA 8751 8752 8754; CX 8750 8754 8755; CX 8574 88 8756; CX 8755 88 8757; CX 8756 8755 8758; CA 8756 8757 8759;
  CX 8755 8759 8760; CX 8577 89 8761; CX 8760 89 8762; CX 8761 8760 8763; CA 8761 8762 8764; CX 8760 8764 8765; CX 8580 90 8766; CX 8765 90 8767;
  CX 8766 8765 8768; CA 8766 8767 8769; CX 8765 8769 8770; CX 8583 91 8771; CX 8770 91 8772; CX 8771 8770 8773; CA 8771 8772 8774; CX 8770 8774 8775;
  CX 8586 92 8776; CX 8775 92 8777; CX 8776 8775 8778; CA 8776 8777 8779; CX 8775 8779 8780; CX 8589 93 8781; CX 8780 93 8782; CX 8781 8780 8783;
  CA 8781 8782 8784; CX 8780 8784 8785; CX 8592 94 8786; CX 8785 94 8787; CX 8786 8785 8788; CA 8786 8787 8789; CX 8785 8789 8790; CX 8595 95 8791;
  CX 8790 95 8792; CX 8791 8790 8793; CA 8791 8792 8794; CX 8790 8794 8795; CX 8598 96 8796; CX 8795 96 8797; CX 8796 8795 8798; CA 8796 8797 8799;
  CX 8795 8799 8800; CX 8601 97 8801; CX 8800 97 8802; CX 8801 8800 8803; CA 8801 8802 8804; CX 8800 8804 8805; CX 8604 98 8806; CX 8805 98 8807;
  CX 8806 8805 8808; CA 8806 8807 8809; CX 8805 8809 8810; CX 8607 99 8811; CX 8810 99 8812; CX 8811 8810 8813; CA 8811 8812 8814; CX 8810 8814 8815;
  CX 8610 100 8816; CX 8815 100 8817; CX 8816 8815 8818; CA 8816 8817 8819; CX 8815 8819 8820; CX 8613 101 8821; CX 8820 101 8822; CX 8821 8820 8823;
  CA 8821 8822 8824; CX 8820 8824 8825; CX 8616 102 8826; CX 8825 102 8827; CX 8826 8825 8828; CA 8826 8827 8829; CX 8825 8829 8830; CX 8619 103 8831;
  CX 8830 103 8832; CX 8831 8830 8833; CA 8831 8832 8834; CX 8830 8834 8835; CX 8622 104 8836; CX 8835 104 8837; CX 8836 8835 8838; CA 8836 8837 8839;
  CX 8835 8839 8840; CX 8625 105 8841; CX 8840 105 8842; CX 8841 8840 8843; CA 8841 8842 8844; CX 8840 8844 8845; CX 8628 106 8846; CX 8845 106 8847;
  CX 8846 8845 8848; CA 8846 8847 8849; CX 8845 8849 8850; CX 8631 107 8851; CX 8850 107 8852; CX 8851 8850 8853; CA 8851 8852 8854; CX 8850 8854 8855;
  CX 8634 108 8856; CX 8855 108 8857; CX 8856 8855 8858; CA 8856 8857 8859; CX 8855 8859 8860; CX 8637 109 8861; CX 8860 109 8862; CX 8861 8860 8863;
  CA 8861 8862 8864; CX 8860 8864 8865; CA 8865 178 8866; CX 8865 178 8867; CX 8867 8866 8868; CX 18 8639 8869; CA 8868 8869 8870; CX 8870 8639 8871;
  CX 8505 8643 8872; CA 8868 8872 8873; CX 8873 8643 8874; CX 8508 8648 8875; CA 8868 8875 8876; CX 8876 8648 8877; CX 8511 8653 8878; CA 8868 8878 8879;
  CX 8879 8653 8880; CX 8514 8658 8881; CA 8868 8881 8882; CX 8882 8658 8883; CX 8517 8663 8884; CA 8868 8884 8885; CX 8885 8663 8886; CX 8520 8668 8887;
  CA 8868 8887 8888; CX 8888 8668 8889; CX 8523 8673 8890; CA 8868 8890 8891; CX 8891 8673 8892; CX 8526 8678 8893; CA 8868 8893 8894; CX 8894 8678 8895;
  CX 8529 8683 8896; CA 8868 8896 8897; CX 8897 8683 8898; CX 8532 8688 8899; CA 8868 8899 8900; CX 8900 8688 8901; CX 8535 8693 8902; CA 8868 8902 8903;
  CX 8903 8693 8904; CX 8538 8698 8905; CA 8868 8905 8906; CX 8906 8698 8907; CX 8541 8703 8908; CA 8868 8908 8909; CX 8909 8703 8910; CX 8544 8708 8911;
  CA 8868 8911 8912; CX 8912 8708 8913; CX 8547 8713 8914; CA 8868 8914 8915; CX 8915 8713 8916; CX 8550 8718 8917; CA 8868 8917 8918; CX 8918 8718 8919;
  CX 8553 8723 8920; CA 8868 8920 8921; CX 8921 8723 8922; CX 8556 8728 8923; CA 8868 8923 8924; CX 8924 8728 8925; CX 8559 8733 8926; CA 8868 8926 8927].
(** Lines 8805-9204 of the file. *)
Definition udivide64_22 : list cg := [
  CX 8927 8733 8928; CX 8562 8738 8929; CA 8868 8929 8930; CX 8930 8738 8931; CX 8565 8743 8932; CA 8868 8932 8933; CX 8933 8743 8934; CX 8568 8748 8935;
  CA 8868 8935 8936; CX 8936 8748 8937; CX 8571 8753 8938; CA 8868 8938 8939; CX 8939 8753 8940; CX 8574 8758 8941; CA 8868 8941 8942; CX 8942 8758 8943;
  CX 8577 8763 8944; CA 8868 8944 8945; CX 8945 8763 8946; CX 8580 8768 8947; CA 8868 8947 8948; CX 8948 8768 8949; CX 8583 8773 8950; CA 8868 8950 8951;
  CX 8951 8773 8952; CX 8586 8778 8953; CA 8868 8953 8954; CX 8954 8778 8955; CX 8589 8783 8956; CA 8868 8956 8957; CX 8957 8783 8958; CX 8592 8788 8959;
  CA 8868 8959 8960; CX 8960 8788 8961; CX 8595 8793 8962; CA 8868 8962 8963; CX 8963 8793 8964; CX 8598 8798 8965; CA 8868 8965 8966; CX 8966 8798 8967;
  CX 8601 8803 8968; CA 8868 8968 8969; CX 8969 8803 8970; CX 8604 8808 8971; CA 8868 8971 8972; CX 8972 8808 8973; CX 8607 8813 8974; CA 8868 8974 8975;
  CX 8975 8813 8976; CX 8610 8818 8977; CA 8868 8977 8978; CX 8978 8818 8979; CX 8613 8823 8980; CA 8868 8980 8981; CX 8981 8823 8982; CX 8616 8828 8983;
  CA 8868 8983 8984; CX 8984 8828 8985; CX 8619 8833 8986; CA 8868 8986 8987; CX 8987 8833 8988; CX 8622 8838 8989; CA 8868 8989 8990; CX 8990 8838 8991;
  CX 8625 8843 8992; CA 8868 8992 8993; CX 8993 8843 8994; CX 8628 8848 8995; CA 8868 8995 8996; CX 8996 8848 8997; CX 8631 8853 8998; CA 8868 8998 8999;
  CX 8999 8853 9000; CX 8634 8858 9001; CA 8868 9001 9002; CX 9002 8858 9003; CX 8637 8863 9004; CA 8868 9004 9005; CX 9005 8863 9006; CI 8868 9007;
  CX 17 64 9008; CA 9008 64 9009; CX 8871 65 9010; CX 9009 65 9011; CX 9010 9009 9012; CA 9010 9011 9013; CX 9009 9013 9014; CX 8874 66 9015;
  CX 9014 66 9016; CX 9015 9014 9017; CA 9015 9016 9018; CX 9014 9018 9019; CX 8877 67 9020; CX 9019 67 9021; CX 9020 9019 9022; CA 9020 9021 9023;
  CX 9019 9023 9024; CX 8880 68 9025; CX 9024 68 9026; CX 9025 9024 9027; CA 9025 9026 9028; CX 9024 9028 9029; CX 8883 69 9030; CX 9029 69 9031;
  CX 9030 9029 9032; CA 9030 9031 9033; CX 9029 9033 9034; CX 8886 70 9035; CX 9034 70 9036; CX 9035 9034 9037; CA 9035 9036 9038; CX 9034 9038 9039;
  CX 8889 71 9040; CX 9039 71 9041; CX 9040 9039 9042; CA 9040 9041 9043; CX 9039 9043 9044; CX 8892 72 9045; CX 9044 72 9046; CX 9045 9044 9047;
  CA 9045 9046 9048; CX 9044 9048 9049; CX 8895 73 9050; CX 9049 73 9051; CX 9050 9049 9052; CA 9050 9051 9053; CX 9049 9053 9054; CX 8898 74 9055;
  CX 9054 74 9056; CX 9055 9054 9057; CA 9055 9056 9058; CX 9054 9058 9059; CX 8901 75 9060; CX 9059 75 9061; CX 9060 9059 9062; CA 9060 9061 9063;
  CX 9059 9063 9064; CX 8904 76 9065; CX 9064 76 9066; CX 9065 9064 9067; CA 9065 9066 9068; CX 9064 9068 9069; CX 8907 77 9070; CX 9069 77 9071;
  CX 9070 9069 9072; CA 9070 9071 9073; CX 9069 9073 9074; CX 8910 78 9075; CX 9074 78 9076; CX 9075 9074 9077; CA 9075 9076 9078; CX 9074 9078 9079;
  CX 8913 79 9080; CX 9079 79 9081; CX 9080 9079 9082; CA 9080 9081 9083; CX 9079 9083 9084; CX 8916 80 9085; CX 9084 80 9086; CX 9085 9084 9087;
  CA 9085 9086 9088; CX 9084 9088 9089; CX 8919 81 9090; CX 9089 81 9091; CX 9090 9089 9092; CA 9090 9091 9093; CX 9089 9093 9094; CX 8922 82 9095;
  CX 9094 82 9096; CX 9095 9094 9097; CA 9095 9096 9098; CX 9094 9098 9099; CX 8925 83 9100; CX 9099 83 9101; CX 9100 9099 9102; CA 9100 9101 9103;
  CX 9099 9103 9104; CX 8928 84 9105; CX 9104 84 9106; CX 9105 9104 9107; CA 9105 9106 9108; CX 9104 9108 9109; CX 8931 85 9110; CX 9109 85 9111;
  CX 9110 9109 9112; CA 9110 9111 9113; CX 9109 9113 9114; CX 8934 86 9115; CX 9114 86 9116; CX 9115 9114 9117; CA 9115 9116 9118; CX 9114 9118 9119;
  CX 8937 87 9120; CX 9119 87 9121; CX 9120 9119 9122; CA 9120 9121 9123; CX 9119 9123 9124; CX 8940 88 9125; CX 9124 88 9126; CX 9125 9124 9127;
  CA 9125 9126 9128; CX 9124 9128 9129; CX 8943 89 9130; CX 9129 89 9131; CX 9130 9129 9132; CA 9130 9131 9133; CX 9129 9133 9134; CX 8946 90 9135;
  CX 9134 90 9136; CX 9135 9134 9137; CA 9135 9136 9138; CX 9134 9138 9139; CX 8949 91 9140; CX 9139 91 9141; CX 9140 9139 9142; CA 9140 9141 9143;
  CX 9139 9143 9144; CX 8952 92 9145; CX 9144 92 9146; CX 9145 9144 9147; CA 9145 9146 9148; CX 9144 9148 9149; CX 8955 93 9150; CX 9149 93 9151;
  CX 9150 9149 9152; CA 9150 9151 9153; CX 9149 9153 9154; CX 8958 94 9155; CX 9154 94 9156; CX 9155 9154 9157; CA 9155 9156 9158; CX 9154 9158 9159;
  CX 8961 95 9160; CX 9159 95 9161; CX 9160 9159 9162; CA 9160 9161 9163; CX 9159 9163 9164; CX 8964 96 9165; CX 9164 96 9166; CX 9165 9164 9167;
  CA 9165 9166 9168; CX 9164 9168 9169; CX 8967 97 9170; CX 9169 97 9171; CX 9170 9169 9172; CA 9170 9171 9173; CX 9169 9173 9174; CX 8970 98 9175;
  CX 9174 98 9176; CX 9175 9174 9177; CA 9175 9176 9178; CX 9174 9178 9179; CX 8973 99 9180; CX 9179 99 9181; CX 9180 9179 9182; CA 9180 9181 9183;
  CX 9179 9183 9184; CX 8976 100 9185; CX 9184 100 9186; CX 9185 9184 9187; CA 9185 9186 9188; CX 9184 9188 9189; CX 8979 101 9190; CX 9189 101 9191;
  CX 9190 9189 9192; CA 9190 9191 9193; CX 9189 9193 9194; CX 8982 102 9195; CX 9194 102 9196; CX 9195 9194 9197; CA 9195 9196 9198; CX 9194 9198 9199;
  CX 8985 103 9200; CX 9199 103 9201; CX 9200 9199 9202; CA 9200 9201 9203; CX 9199 9203 9204; CX 8988 104 9205; CX 9204 104 9206; CX 9205 9204 9207;
  CA 9205 9206 9208; CX 9204 9208 9209; CX 8991 105 9210; CX 9209 105 9211; CX 9210 9209 9212; CA 9210 9211 9213; CX 9209 9213 9214; CX 8994 106 9215;
  CX 9214 106 9216; CX 9215 9214 9217; CA 9215 9216 9218; CX 9214 9218 9219; CX 8997 107 9220; CX 9219 107 9221; CX 9220 9219 9222; CA 9220 9221 9223;
  CX 9219 9223 9224; CX 9000 108 9225; CX 9224 108 9226; CX 9225 9224 9227; CA 9225 9226 9228; CX 9224 9228 9229; CX 9003 109 9230; CX 9229 109 9231;
  CX 9230 9229 9232; CA 9230 9231 9233; CX 9229 9233 9234; CX 9006 110 9235; CX 9234 110 9236; CX 9235 9234 9237; CA 9235 9236 9238; CX 9234 9238 9239;
  CA 9239 175 9240; CX 9239 175 9241; CX 9241 9240 9242; CX 17 9008 9243; CA 9242 9243 9244; CX 9244 9008 9245; CX 8871 9012 9246; CA 9242 9246 9247;
  CX 9247 9012 9248; CX 8874 9017 9249; CA 9242 9249 9250; CX 9250 9017 9251; CX 8877 9022 9252; CA 9242 9252 9253; CX 9253 9022 9254; CX 8880 9027 9255;
  CA 9242 9255 9256; CX 9256 9027 9257; CX 8883 9032 9258; CA 9242 9258 9259; CX 9259 9032 9260; CX 8886 9037 9261; CA 9242 9261 9262; CX 9262 9037 9263;
  CX 8889 9042 9264; CA 9242 9264 9265; CX 9265 9042 9266; CX 8892 9047 9267; CA 9242 9267 9268; CX 9268 9047 9269; CX 8895 9052 9270; CA 9242 9270 9271;
  CX 9271 9052 9272; CX 8898 9057 9273; CA 9242 9273 9274; CX 9274 9057 9275; CX 8901 9062 9276; CA 9242 9276 9277; CX 9277 9062 9278; CX 8904 9067 9279;
  CA 9242 9279 9280; CX 9280 9067 9281; CX 8907 9072 9282; CA 9242 9282 9283; CX 9283 9072 9284; CX 8910 9077 9285; CA 9242 9285 9286; CX 9286 9077 9287;
  CX 8913 9082 9288; CA 9242 9288 9289; CX 9289 9082 9290; CX 8916 9087 9291; CA 9242 9291 9292; CX 9292 9087 9293; CX 8919 9092 9294; CA 9242 9294 9295;
  CX 9295 9092 9296; CX 8922 9097 9297; CA 9242 9297 9298; CX 9298 9097 9299; CX 8925 9102 9300; CA 9242 9300 9301; CX 9301 9102 9302; CX 8928 9107 9303;
  CA 9242 9303 9304; CX 9304 9107 9305; CX 8931 9112 9306; CA 9242 9306 9307; CX 9307 9112 9308; CX 8934 9117 9309; CA 9242 9309 9310; CX 9310 9117 9311;
  CX 8937 9122 9312; CA 9242 9312 9313; CX 9313 9122 9314; CX 8940 9127 9315; CA 9242 9315 9316; CX 9316 9127 9317; CX 8943 9132 9318; CA 9242 9318 9319;
  CX 9319 9132 9320; CX 8946 9137 9321; CA 9242 9321 9322; CX 9322 9137 9323; CX 8949 9142 9324; CA 9242 9324 9325; CX 9325 9142 9326; CX 8952 9147 9327].
(** Lines 9205-9604 of the file. *)
Definition udivide64_23 : list cg := [
  CA 9242 9327 9328; CX 9328 9147 9329; CX 8955 9152 9330; CA 9242 9330 9331; CX 9331 9152 9332; CX 8958 9157 9333; CA 9242 9333 9334; CX 9334 9157 9335;
  CX 8961 9162 9336; CA 9242 9336 9337; CX 9337 9162 9338; CX 8964 9167 9339; CA 9242 9339 9340; CX 9340 9167 9341; CX 8967 9172 9342; CA 9242 9342 9343;
  CX 9343 9172 9344; CX 8970 9177 9345; CA 9242 9345 9346; CX 9346 9177 9347; CX 8973 9182 9348; CA 9242 9348 9349; CX 9349 9182 9350; CX 8976 9187 9351;
  CA 9242 9351 9352; CX 9352 9187 9353; CX 8979 9192 9354; CA 9242 9354 9355; CX 9355 9192 9356; CX 8982 9197 9357; CA 9242 9357 9358; CX 9358 9197 9359;
  CX 8985 9202 9360; CA 9242 9360 9361; CX 9361 9202 9362; CX 8988 9207 9363; CA 9242 9363 9364; CX 9364 9207 9365; CX 8991 9212 9366; CA 9242 9366 9367;
  CX 9367 9212 9368; CX 8994 9217 9369; CA 9242 9369 9370; CX 9370 9217 9371; CX 8997 9222 9372; CA 9242 9372 9373; CX 9373 9222 9374; CX 9000 9227 9375;
  CA 9242 9375 9376; CX 9376 9227 9377; CX 9003 9232 9378; CA 9242 9378 9379; CX 9379 9232 9380; CX 9006 9237 9381; CA 9242 9381 9382; CX 9382 9237 9383;
  CI 9242 9384; CX 16 64 9385; CA 9385 64 9386; CX 9245 65 9387; CX 9386 65 9388; CX 9387 9386 9389; CA 9387 9388 9390; CX 9386 9390 9391;
  CX 9248 66 9392; CX 9391 66 9393; CX 9392 9391 9394; CA 9392 9393 9395; CX 9391 9395 9396; CX 9251 67 9397; CX 9396 67 9398; CX 9397 9396 9399;
  CA 9397 9398 9400; CX 9396 9400 9401; CX 9254 68 9402; CX 9401 68 9403; CX 9402 9401 9404; CA 9402 9403 9405; CX 9401 9405 9406; CX 9257 69 9407;
  CX 9406 69 9408; CX 9407 9406 9409; CA 9407 9408 9410; CX 9406 9410 9411; CX 9260 70 9412; CX 9411 70 9413; CX 9412 9411 9414; CA 9412 9413 9415;
  CX 9411 9415 9416; CX 9263 71 9417; CX 9416 71 9418; CX 9417 9416 9419; CA 9417 9418 9420; CX 9416 9420 9421; CX 9266 72 9422; CX 9421 72 9423;
  CX 9422 9421 9424; CA 9422 9423 9425; CX 9421 9425 9426; CX 9269 73 9427; CX 9426 73 9428; CX 9427 9426 9429; CA 9427 9428 9430; CX 9426 9430 9431;
  CX 9272 74 9432; CX 9431 74 9433; CX 9432 9431 9434; CA 9432 9433 9435; CX 9431 9435 9436; CX 9275 75 9437; CX 9436 75 9438; CX 9437 9436 9439;
  CA 9437 9438 9440; CX 9436 9440 9441; CX 9278 76 9442; CX 9441 76 9443; CX 9442 9441 9444; CA 9442 9443 9445; CX 9441 9445 9446; CX 9281 77 9447;
  CX 9446 77 9448; CX 9447 9446 9449; CA 9447 9448 9450; CX 9446 9450 9451; CX 9284 78 9452; CX 9451 78 9453; CX 9452 9451 9454; CA 9452 9453 9455;
  CX 9451 9455 9456; CX 9287 79 9457; CX 9456 79 9458; CX 9457 9456 9459; CA 9457 9458 9460; CX 9456 9460 9461; CX 9290 80 9462; CX 9461 80 9463;
  CX 9462 9461 9464; CA 9462 9463 9465; CX 9461 9465 9466; CX 9293 81 9467; CX 9466 81 9468; CX 9467 9466 9469; CA 9467 9468 9470; CX 9466 9470 9471;
  CX 9296 82 9472; CX 9471 82 9473; CX 9472 9471 9474; CA 9472 9473 9475; CX 9471 9475 9476; CX 9299 83 9477; CX 9476 83 9478; CX 9477 9476 9479;
  CA 9477 9478 9480; CX 9476 9480 9481; CX 9302 84 9482; CX 9481 84 9483; CX 9482 9481 9484; CA 9482 9483 9485; CX 9481 9485 9486; CX 9305 85 9487;
  CX 9486 85 9488; CX 9487 9486 9489; CA 9487 9488 9490; CX 9486 9490 9491; CX 9308 86 9492; CX 9491 86 9493; CX 9492 9491 9494; CA 9492 9493 9495;
  CX 9491 9495 9496; CX 9311 87 9497; CX 9496 87 9498; CX 9497 9496 9499; CA 9497 9498 9500; CX 9496 9500 9501; CX 9314 88 9502; CX 9501 88 9503;
  CX 9502 9501 9504; CA 9502 9503 9505; CX 9501 9505 9506; CX 9317 89 9507; CX 9506 89 9508; CX 9507 9506 9509; CA 9507 9508 9510; CX 9506 9510 9511;
  CX 9320 90 9512; CX 9511 90 9513; CX 9512 9511 9514; CA 9512 9513 9515; CX 9511 9515 9516; CX 9323 91 9517; CX 9516 91 9518; CX 9517 9516 9519;
  CA 9517 9518 9520; CX 9516 9520 9521; CX 9326 92 9522; CX 9521 92 9523; CX 9522 9521 9524; CA 9522 9523 9525; CX 9521 9525 9526; CX 9329 93 9527;
  CX 9526 93 9528; CX 9527 9526 9529; CA 9527 9528 9530; CX 9526 9530 9531; CX 9332 94 9532; CX 9531 94 9533; CX 9532 9531 9534; CA 9532 9533 9535;
  CX 9531 9535 9536; CX 9335 95 9537; CX 9536 95 9538; CX 9537 9536 9539; CA 9537 9538 9540; CX 9536 9540 9541; CX 9338 96 9542; CX 9541 96 9543;
  CX 9542 9541 9544; CA 9542 9543 9545; CX 9541 9545 9546; CX 9341 97 9547; CX 9546 97 9548; CX 9547 9546 9549; CA 9547 9548 9550; CX 9546 9550 9551;
  CX 9344 98 9552; CX 9551 98 9553; CX 9552 9551 9554; CA 9552 9553 9555; CX 9551 9555 9556; CX 9347 99 9557; CX 9556 99 9558; CX 9557 9556 9559;
  CA 9557 9558 9560; CX 9556 9560 9561; CX 9350 100 9562; CX 9561 100 9563; CX 9562 9561 9564; CA 9562 9563 9565; CX 9561 9565 9566; CX 9353 101 9567;
  CX 9566 101 9568; CX 9567 9566 9569; CA 9567 9568 9570; CX 9566 9570 9571; CX 9356 102 9572; CX 9571 102 9573; CX 9572 9571 9574; CA 9572 9573 9575;
  CX 9571 9575 9576; CX 9359 103 9577; CX 9576 103 9578; CX 9577 9576 9579; CA 9577 9578 9580; CX 9576 9580 9581; CX 9362 104 9582; CX 9581 104 9583;
  CX 9582 9581 9584; CA 9582 9583 9585; CX 9581 9585 9586; CX 9365 105 9587; CX 9586 105 9588; CX 9587 9586 9589; CA 9587 9588 9590; CX 9586 9590 9591;
  CX 9368 106 9592; CX 9591 106 9593; CX 9592 9591 9594; CA 9592 9593 9595; CX 9591 9595 9596; CX 9371 107 9597; CX 9596 107 9598; CX 9597 9596 9599;
  CA 9597 9598 9600; CX 9596 9600 9601; CX 9374 108 9602; CX 9601 108 9603; CX 9602 9601 9604; CA 9602 9603 9605; CX 9601 9605 9606; CX 9377 109 9607;
  CX 9606 109 9608; CX 9607 9606 9609; CA 9607 9608 9610; CX 9606 9610 9611; CX 9380 110 9612; CX 9611 110 9613; CX 9612 9611 9614; CA 9612 9613 9615;
  CX 9611 9615 9616; CX 9383 111 9617; CX 9616 111 9618; CX 9617 9616 9619; CA 9617 9618 9620; CX 9616 9620 9621; CA 9621 172 9622; CX 9621 172 9623;
  CX 9623 9622 9624; CX 16 9385 9625; CA 9624 9625 9626; CX 9626 9385 9627; CX 9245 9389 9628; CA 9624 9628 9629; CX 9629 9389 9630; CX 9248 9394 9631;
  CA 9624 9631 9632; CX 9632 9394 9633; CX 9251 9399 9634; CA 9624 9634 9635; CX 9635 9399 9636; CX 9254 9404 9637; CA 9624 9637 9638; CX 9638 9404 9639;
  CX 9257 9409 9640; CA 9624 9640 9641; CX 9641 9409 9642; CX 9260 9414 9643; CA 9624 9643 9644; CX 9644 9414 9645; CX 9263 9419 9646; CA 9624 9646 9647;
  CX 9647 9419 9648; CX 9266 9424 9649; CA 9624 9649 9650; CX 9650 9424 9651; CX 9269 9429 9652; CA 9624 9652 9653; CX 9653 9429 9654; CX 9272 9434 9655;
  CA 9624 9655 9656; CX 9656 9434 9657; CX 9275 9439 9658; CA 9624 9658 9659; CX 9659 9439 9660; CX 9278 9444 9661; CA 9624 9661 9662; CX 9662 9444 9663;
  CX 9281 9449 9664; CA 9624 9664 9665; CX 9665 9449 9666; CX 9284 9454 9667; CA 9624 9667 9668; CX 9668 9454 9669; CX 9287 9459 9670; CA 9624 9670 9671;
  CX 9671 9459 9672; CX 9290 9464 9673; CA 9624 9673 9674; CX 9674 9464 9675; CX 9293 9469 9676; CA 9624 9676 9677; CX 9677 9469 9678; CX 9296 9474 9679;
  CA 9624 9679 9680; CX 9680 9474 9681; CX 9299 9479 9682; CA 9624 9682 9683; CX 9683 9479 9684; CX 9302 9484 9685; CA 9624 9685 9686; CX 9686 9484 9687;
  CX 9305 9489 9688; CA 9624 9688 9689; CX 9689 9489 9690; CX 9308 9494 9691; CA 9624 9691 9692; CX 9692 9494 9693; CX 9311 9499 9694; CA 9624 9694 9695;
  CX 9695 9499 9696; CX 9314 9504 9697; CA 9624 9697 9698; CX 9698 9504 9699; CX 9317 9509 9700; CA 9624 9700 9701; CX 9701 9509 9702; CX 9320 9514 9703;
  CA 9624 9703 9704; CX 9704 9514 9705; CX 9323 9519 9706; CA 9624 9706 9707; CX 9707 9519 9708; CX 9326 9524 9709; CA 9624 9709 9710; CX 9710 9524 9711;
  CX 9329 9529 9712; CA 9624 9712 9713; CX 9713 9529 9714; CX 9332 9534 9715; CA 9624 9715 9716; CX 9716 9534 9717; CX 9335 9539 9718; CA 9624 9718 9719;
  CX 9719 9539 9720; CX 9338 9544 9721; CA 9624 9721 9722; CX 9722 9544 9723; CX 9341 9549 9724; CA 9624 9724 9725; CX 9725 9549 9726; CX 9344 9554 9727].
(** Lines 9605-10004 of the file. *)
Definition udivide64_24 : list cg := [
  CA 9624 9727 9728; CX 9728 9554 9729; CX 9347 9559 9730; CA 9624 9730 9731; CX 9731 9559 9732; CX 9350 9564 9733; CA 9624 9733 9734; CX 9734 9564 9735;
  CX 9353 9569 9736; CA 9624 9736 9737; CX 9737 9569 9738; CX 9356 9574 9739; CA 9624 9739 9740; CX 9740 9574 9741; CX 9359 9579 9742; CA 9624 9742 9743;
  CX 9743 9579 9744; CX 9362 9584 9745; CA 9624 9745 9746; CX 9746 9584 9747; CX 9365 9589 9748; CA 9624 9748 9749; CX 9749 9589 9750; CX 9368 9594 9751;
  CA 9624 9751 9752; CX 9752 9594 9753; CX 9371 9599 9754; CA 9624 9754 9755; CX 9755 9599 9756; CX 9374 9604 9757; CA 9624 9757 9758; CX 9758 9604 9759;
  CX 9377 9609 9760; CA 9624 9760 9761; CX 9761 9609 9762; CX 9380 9614 9763; CA 9624 9763 9764; CX 9764 9614 9765; CX 9383 9619 9766; CA 9624 9766 9767;
  CX 9767 9619 9768; CI 9624 9769; CX 15 64 9770; CA 9770 64 9771; CX 9627 65 9772; CX 9771 65 9773; CX 9772 9771 9774; CA 9772 9773 9775;
  CX 9771 9775 9776; CX 9630 66 9777; CX 9776 66 9778; CX 9777 9776 9779; CA 9777 9778 9780; CX 9776 9780 9781; CX 9633 67 9782; CX 9781 67 9783;
  CX 9782 9781 9784; CA 9782 9783 9785; CX 9781 9785 9786; CX 9636 68 9787; CX 9786 68 9788; CX 9787 9786 9789; CA 9787 9788 9790; CX 9786 9790 9791;
  CX 9639 69 9792; CX 9791 69 9793; CX 9792 9791 9794; CA 9792 9793 9795; CX 9791 9795 9796; CX 9642 70 9797; CX 9796 70 9798; CX 9797 9796 9799;
  CA 9797 9798 9800; CX 9796 9800 9801; CX 9645 71 9802; CX 9801 71 9803; CX 9802 9801 9804; CA 9802 9803 9805; CX 9801 9805 9806; CX 9648 72 9807;
  CX 9806 72 9808; CX 9807 9806 9809; CA 9807 9808 9810; CX 9806 9810 9811; CX 9651 73 9812; CX 9811 73 9813; CX 9812 9811 9814; CA 9812 9813 9815;
  CX 9811 9815 9816; CX 9654 74 9817; CX 9816 74 9818; CX 9817 9816 9819; CA 9817 9818 9820; CX 9816 9820 9821; CX 9657 75 9822; CX 9821 75 9823;
  CX 9822 9821 9824; CA 9822 9823 9825; CX 9821 9825 9826; CX 9660 76 9827; CX 9826 76 9828; CX 9827 9826 9829; CA 9827 9828 9830; CX 9826 9830 9831;
  CX 9663 77 9832; CX 9831 77 9833; CX 9832 9831 9834; CA 9832 9833 9835; CX 9831 9835 9836; CX 9666 78 9837; CX 9836 78 9838; CX 9837 9836 9839;
  CA 9837 9838 9840; CX 9836 9840 9841; CX 9669 79 9842; CX 9841 79 9843; CX 9842 9841 9844; CA 9842 9843 9845; CX 9841 9845 9846; CX 9672 80 9847;
  CX 9846 80 9848; CX 9847 9846 9849; CA 9847 9848 9850; CX 9846 9850 9851; CX 9675 81 9852; CX 9851 81 9853; CX 9852 9851 9854; CA 9852 9853 9855;
  CX 9851 9855 9856; CX 9678 82 9857; CX 9856 82 9858; CX 9857 9856 9859; CA 9857 9858 9860; CX 9856 9860 9861; CX 9681 83 9862; CX 9861 83 9863;
  CX 9862 9861 9864; CA 9862 9863 9865; CX 9861 9865 9866; CX 9684 84 9867; CX 9866 84 9868; CX 9867 9866 9869; CA 9867 9868 9870; CX 9866 9870 9871;
  CX 9687 85 9872; CX 9871 85 9873; CX 9872 9871 9874; CA 9872 9873 9875; CX 9871 9875 9876; CX 9690 86 9877; CX 9876 86 9878; CX 9877 9876 9879;
  CA 9877 9878 9880; CX 9876 9880 9881; CX 9693 87 9882; CX 9881 87 9883; CX 9882 9881 9884; CA 9882 9883 9885; CX 9881 9885 9886; CX 9696 88 9887;
  CX 9886 88 9888; CX 9887 9886 9889; CA 9887 9888 9890; CX 9886 9890 9891; CX 9699 89 9892; CX 9891 89 9893; CX 9892 9891 9894; CA 9892 9893 9895;
  CX 9891 9895 9896; CX 9702 90 9897; CX 9896 90 9898; CX 9897 9896 9899; CA 9897 9898 9900; CX 9896 9900 9901; CX 9705 91 9902; CX 9901 91 9903;
  CX 9902 9901 9904; CA 9902 9903 9905; CX 9901 9905 9906; CX 9708 92 9907; CX 9906 92 9908; CX 9907 9906 9909; CA 9907 9908 9910; CX 9906 9910 9911;
  CX 9711 93 9912; CX 9911 93 9913; CX 9912 9911 9914; CA 9912 9913 9915; CX 9911 9915 9916; CX 9714 94 9917; CX 9916 94 9918; CX 9917 9916 9919;
  CA 9917 9918 9920; CX 9916 9920 9921; CX 9717 95 9922; CX 9921 95 9923; CX 9922 9921 9924; CA 9922 9923 9925; CX 9921 9925 9926; CX 9720 96 9927;
  CX 9926 96 9928; CX 9927 9926 9929; CA 9927 9928 9930; CX 9926 9930 9931; CX 9723 97 9932; CX 9931 97 9933; CX 9932 9931 9934; CA 9932 9933 9935;
  CX 9931 9935 9936; CX 9726 98 9937; CX 9936 98 9938; CX 9937 9936 9939; CA 9937 9938 9940; CX 9936 9940 9941; CX 9729 99 9942; CX 9941 99 9943;
  CX 9942 9941 9944; CA 9942 9943 9945; CX 9941 9945 9946; CX 9732 100 9947; CX 9946 100 9948; CX 9947 9946 9949; CA 9947 9948 9950; CX 9946 9950 9951;
  CX 9735 101 9952; CX 9951 101 9953; CX 9952 9951 9954; CA 9952 9953 9955; CX 9951 9955 9956; CX 9738 102 9957; CX 9956 102 9958; CX 9957 9956 9959;
  CA 9957 9958 9960; CX 9956 9960 9961; CX 9741 103 9962; CX 9961 103 9963; CX 9962 9961 9964; CA 9962 9963 9965; CX 9961 9965 9966; CX 9744 104 9967;
  CX 9966 104 9968; CX 9967 9966 9969; CA 9967 9968 9970; CX 9966 9970 9971; CX 9747 105 9972; CX 9971 105 9973; CX 9972 9971 9974; CA 9972 9973 9975;
  CX 9971 9975 9976; CX 9750 106 9977; CX 9976 106 9978; CX 9977 9976 9979; CA 9977 9978 9980; CX 9976 9980 9981; CX 9753 107 9982; CX 9981 107 9983;
  CX 9982 9981 9984; CA 9982 9983 9985; CX 9981 9985 9986; CX 9756 108 9987; CX 9986 108 9988; CX 9987 9986 9989; CA 9987 9988 9990; CX 9986 9990 9991;
  CX 9759 109 9992; CX 9991 109 9993; CX 9992 9991 9994; CA 9992 9993 9995; CX 9991 9995 9996; CX 9762 110 9997; CX 9996 110 9998; CX 9997 9996 9999;
  CA 9997 9998 10000; CX 9996 10000 10001; CX 9765 111 10002; CX 10001 111 10003; CX 10002 10001 10004; CA 10002 10003 10005; CX 10001 10005 10006; CX 9768 112 10007;
  CX 10006 112 10008; CX 10007 10006 10009; CA 10007 10008 10010; CX 10006 10010 10011; CA 10011 169 10012; CX 10011 169 10013; CX 10013 10012 10014; CX 15 9770 10015;
  CA 10014 10015 10016; CX 10016 9770 10017; CX 9627 9774 10018; CA 10014 10018 10019; CX 10019 9774 10020; CX 9630 9779 10021; CA 10014 10021 10022; CX 10022 9779 10023;
  CX 9633 9784 10024; CA 10014 10024 10025; CX 10025 9784 10026; CX 9636 9789 10027; CA 10014 10027 10028; CX 10028 9789 10029; CX 9639 9794 10030; CA 10014 10030 10031;
  CX 10031 9794 10032; CX 9642 9799 10033; CA 10014 10033 10034; CX 10034 9799 10035; CX 9645 9804 10036; CA 10014 10036 10037; CX 10037 9804 10038; CX 9648 9809 10039;
  CA 10014 10039 10040; CX 10040 9809 10041; CX 9651 9814 10042; CA 10014 10042 10043; CX 10043 9814 10044; CX 9654 9819 10045; CA 10014 10045 10046; CX 10046 9819 10047;
  CX 9657 9824 10048; CA 10014 10048 10049; CX 10049 9824 10050; CX 9660 9829 10051; CA 10014 10051 10052; CX 10052 9829 10053; CX 9663 9834 10054; CA 10014 10054 10055;
  CX 10055 9834 10056; CX 9666 9839 10057; CA 10014 10057 10058; CX 10058 9839 10059; CX 9669 9844 10060; CA 10014 10060 10061; CX 10061 9844 10062; CX 9672 9849 10063;
  CA 10014 10063 10064; CX 10064 9849 10065; CX 9675 9854 10066; CA 10014 10066 10067; CX 10067 9854 10068; CX 9678 9859 10069; CA 10014 10069 10070; CX 10070 9859 10071;
  CX 9681 9864 10072; CA 10014 10072 10073; CX 10073 9864 10074; CX 9684 9869 10075; CA 10014 10075 10076; CX 10076 9869 10077; CX 9687 9874 10078; CA 10014 10078 10079;
  CX 10079 9874 10080; CX 9690 9879 10081; CA 10014 10081 10082; CX 10082 9879 10083; CX 9693 9884 10084; CA 10014 10084 10085; CX 10085 9884 10086; CX 9696 9889 10087;
  CA 10014 10087 10088; CX 10088 9889 10089; CX 9699 9894 10090; CA 10014 10090 10091; CX 10091 9894 10092; CX 9702 9899 10093; CA 10014 10093 10094; CX 10094 9899 10095;
  CX 9705 9904 10096; CA 10014 10096 10097; CX 10097 9904 10098; CX 9708 9909 10099; CA 10014 10099 10100; CX 10100 9909 10101; CX 9711 9914 10102; CA 10014 10102 10103;
  CX 10103 9914 10104; CX 9714 9919 10105; CA 10014 10105 10106; CX 10106 9919 10107; CX 9717 9924 10108; CA 10014 10108 10109; CX 10109 9924 10110; CX 9720 9929 10111;
  CA 10014 10111 10112; CX 10112 9929 10113; CX 9723 9934 10114; CA 10014 10114 10115; CX 10115 9934 10116; CX 9726 9939 10117; CA 10014 10117 10118; CX 10118 9939 10119;
  CX 9729 9944 10120; CA 10014 10120 10121; CX 10121 9944 10122; CX 9732 9949 10123; CA 10014 10123 10124; CX 10124 9949 10125; CX 9735 9954 10126; CA 10014 10126 10127].
(** Lines 10005-10404 of the file. *)
Definition udivide64_25 : list cg := [
  CX 10127 9954 10128; CX 9738 9959 10129; CA 10014 10129 10130; CX 10130 9959 10131; CX 9741 9964 10132; CA 10014 10132 10133; CX 10133 9964 10134; CX 9744 9969 10135;
  CA 10014 10135 10136; CX 10136 9969 10137; CX 9747 9974 10138; CA 10014 10138 10139; CX 10139 9974 10140; CX 9750 9979 10141; CA 10014 10141 10142; CX 10142 9979 10143;
  CX 9753 9984 10144; CA 10014 10144 10145; CX 10145 9984 10146; CX 9756 9989 10147; CA 10014 10147 10148; CX 10148 9989 10149; CX 9759 9994 10150; CA 10014 10150 10151;
  CX 10151 9994 10152; CX 9762 9999 10153; CA 10014 10153 10154; CX 10154 9999 10155; CX 9765 10004 10156; CA 10014 10156 10157; CX 10157 10004 10158; CX 9768 10009 10159;
  CA 10014 10159 10160; CX 10160 10009 10161; CI 10014 10162; CX 14 64 10163; CA 10163 64 10164; CX 10017 65 10165; CX 10164 65 10166; CX 10165 10164 10167;
  CA 10165 10166 10168; CX 10164 10168 10169; CX 10020 66 10170; CX 10169 66 10171; CX 10170 10169 10172; CA 10170 10171 10173; CX 10169 10173 10174; CX 10023 67 10175;
  CX 10174 67 10176; CX 10175 10174 10177; CA 10175 10176 10178; CX 10174 10178 10179; CX 10026 68 10180; CX 10179 68 10181; CX 10180 10179 10182; CA 10180 10181 10183;
  CX 10179 10183 10184; CX 10029 69 10185; CX 10184 69 10186; CX 10185 10184 10187; CA 10185 10186 10188; CX 10184 10188 10189; CX 10032 70 10190; CX 10189 70 10191;
  CX 10190 10189 10192; CA 10190 10191 10193; CX 10189 10193 10194; CX 10035 71 10195; CX 10194 71 10196; CX 10195 10194 10197; CA 10195 10196 10198; CX 10194 10198 10199;
  CX 10038 72 10200; CX 10199 72 10201; CX 10200 10199 10202; CA 10200 10201 10203; CX 10199 10203 10204; CX 10041 73 10205; CX 10204 73 10206; CX 10205 10204 10207;
  CA 10205 10206 10208; CX 10204 10208 10209; CX 10044 74 10210; CX 10209 74 10211; CX 10210 10209 10212; CA 10210 10211 10213; CX 10209 10213 10214; CX 10047 75 10215;
  CX 10214 75 10216; CX 10215 10214 10217; CA 10215 10216 10218; CX 10214 10218 10219; CX 10050 76 10220; CX 10219 76 10221; CX 10220 10219 10222; CA 10220 10221 10223;
  CX 10219 10223 10224; CX 10053 77 10225; CX 10224 77 10226; CX 10225 10224 10227; CA 10225 10226 10228; CX 10224 10228 10229; CX 10056 78 10230; CX 10229 78 10231;
  CX 10230 10229 10232; CA 10230 10231 10233; CX 10229 10233 10234; CX 10059 79 10235; CX 10234 79 10236; CX 10235 10234 10237; CA 10235 10236 10238; CX 10234 10238 10239;
  CX 10062 80 10240; CX 10239 80 10241; CX 10240 10239 10242; CA 10240 10241 10243; CX 10239 10243 10244; CX 10065 81 10245; CX 10244 81 10246; CX 10245 10244 10247;
  CA 10245 10246 10248; CX 10244 10248 10249; CX 10068 82 10250; CX 10249 82 10251; CX 10250 10249 10252; CA 10250 10251 10253; CX 10249 10253 10254; CX 10071 83 10255;
  CX 10254 83 10256; CX 10255 10254 10257; CA 10255 10256 10258; CX 10254 10258 10259; CX 10074 84 10260; CX 10259 84 10261; CX 10260 10259 10262; CA 10260 10261 10263;
  CX 10259 10263 10264; CX 10077 85 10265; CX 10264 85 10266; CX 10265 10264 10267; CA 10265 10266 10268; CX 10264 10268 10269; CX 10080 86 10270; CX 10269 86 10271;
  CX 10270 10269 10272; CA 10270 10271 10273; CX 10269 10273 10274; CX 10083 87 10275; CX 10274 87 10276; CX 10275 10274 10277; CA 10275 10276 10278; CX 10274 10278 10279;
  CX 10086 88 10280; CX 10279 88 10281; CX 10280 10279 10282; CA 10280 10281 10283; CX 10279 10283 10284; CX 10089 89 10285; CX 10284 89 10286; CX 10285 10284 10287;
  CA 10285 10286 10288; CX 10284 10288 10289; CX 10092 90 10290; CX 10289 90 10291; CX 10290 10289 10292; CA 10290 10291 10293; CX 10289 10293 10294; CX 10095 91 10295;
  CX 10294 91 10296; CX 10295 10294 10297; CA 10295 10296 10298; CX 10294 10298 10299; CX 10098 92 10300; CX 10299 92 10301; CX 10300 10299 10302; CA 10300 10301 10303;
  CX 10299 10303 10304; CX 10101 93 10305; CX 10304 93 10306; CX 10305 10304 10307; CA 10305 10306 10308; CX 10304 10308 10309; CX 10104 94 10310; CX 10309 94 10311;
  CX 10310 10309 10312; CA 10310 10311 10313; CX 10309 10313 10314; CX 10107 95 10315; CX 10314 95 10316; CX 10315 10314 10317; CA 10315 10316 10318; CX 10314 10318 10319;
  CX 10110 96 10320; CX 10319 96 10321; CX 10320 10319 10322; CA 10320 10321 10323; CX 10319 10323 10324; CX 10113 97 10325; CX 10324 97 10326; CX 10325 10324 10327;
  CA 10325 10326 10328; CX 10324 10328 10329; CX 10116 98 10330; CX 10329 98 10331; CX 10330 10329 10332; CA 10330 10331 10333; CX 10329 10333 10334; CX 10119 99 10335;
  CX 10334 99 10336; CX 10335 10334 10337; CA 10335 10336 10338; CX 10334 10338 10339; CX 10122 100 10340; CX 10339 100 10341; CX 10340 10339 10342; CA 10340 10341 10343;
  CX 10339 10343 10344; CX 10125 101 10345; CX 10344 101 10346; CX 10345 10344 10347; CA 10345 10346 10348; CX 10344 10348 10349; CX 10128 102 10350; CX 10349 102 10351;
  CX 10350 10349 10352; CA 10350 10351 10353; CX 10349 10353 10354; CX 10131 103 10355; CX 10354 103 10356; CX 10355 10354 10357; CA 10355 10356 10358; CX 10354 10358 10359;
  CX 10134 104 10360; CX 10359 104 10361; CX 10360 10359 10362; CA 10360 10361 10363; CX 10359 10363 10364; CX 10137 105 10365; CX 10364 105 10366; CX 10365 10364 10367;
  CA 10365 10366 10368; CX 10364 10368 10369; CX 10140 106 10370; CX 10369 106 10371; CX 10370 10369 10372; CA 10370 10371 10373; CX 10369 10373 10374; CX 10143 107 10375;
  CX 10374 107 10376; CX 10375 10374 10377; CA 10375 10376 10378; CX 10374 10378 10379; CX 10146 108 10380; CX 10379 108 10381; CX 10380 10379 10382; CA 10380 10381 10383;
  CX 10379 10383 10384; CX 10149 109 10385; CX 10384 109 10386; CX 10385 10384 10387; CA 10385 10386 10388; CX 10384 10388 10389; CX 10152 110 10390; CX 10389 110 10391;
  CX 10390 10389 10392; CA 10390 10391 10393; CX 10389 10393 10394; CX 10155 111 10395; CX 10394 111 10396; CX 10395 10394 10397; CA 10395 10396 10398; CX 10394 10398 10399;
  CX 10158 112 10400; CX 10399 112 10401; CX 10400 10399 10402; CA 10400 10401 10403; CX 10399 10403 10404; CX 10161 113 10405; CX 10404 113 10406; CX 10405 10404 10407;
  CA 10405 10406 10408; CX 10404 10408 10409; CA 10409 166 10410; CX 10409 166 10411; CX 10411 10410 10412; CX 14 10163 10413; CA 10412 10413 10414; CX 10414 10163 10415;
  CX 10017 10167 10416; CA 10412 10416 10417; CX 10417 10167 10418; CX 10020 10172 10419; CA 10412 10419 10420; CX 10420 10172 10421; CX 10023 10177 10422; CA 10412 10422 10423;
  CX 10423 10177 10424; CX 10026 10182 10425; CA 10412 10425 10426; CX 10426 10182 10427; CX 10029 10187 10428; CA 10412 10428 10429; CX 10429 10187 10430; CX 10032 10192 10431;
  CA 10412 10431 10432; CX 10432 10192 10433; CX 10035 10197 10434; CA 10412 10434 10435; CX 10435 10197 10436; CX 10038 10202 10437; CA 10412 10437 10438; CX 10438 10202 10439;
  CX 10041 10207 10440; CA 10412 10440 10441; CX 10441 10207 10442; CX 10044 10212 10443; CA 10412 10443 10444; CX 10444 10212 10445; CX 10047 10217 10446; CA 10412 10446 10447;
  CX 10447 10217 10448; CX 10050 10222 10449; CA 10412 10449 10450; CX 10450 10222 10451; CX 10053 10227 10452; CA 10412 10452 10453; CX 10453 10227 10454; CX 10056 10232 10455;
  CA 10412 10455 10456; CX 10456 10232 10457; CX 10059 10237 10458; CA 10412 10458 10459; CX 10459 10237 10460; CX 10062 10242 10461; CA 10412 10461 10462; CX 10462 10242 10463;
  CX 10065 10247 10464; CA 10412 10464 10465; CX 10465 10247 10466; CX 10068 10252 10467; CA 10412 10467 10468; CX 10468 10252 10469; CX 10071 10257 10470; CA 10412 10470 10471;
  CX 10471 10257 10472; CX 10074 10262 10473; CA 10412 10473 10474; CX 10474 10262 10475; CX 10077 10267 10476; CA 10412 10476 10477; CX 10477 10267 10478; CX 10080 10272 10479;
  CA 10412 10479 10480; CX 10480 10272 10481; CX 10083 10277 10482; CA 10412 10482 10483; CX 10483 10277 10484; CX 10086 10282 10485; CA 10412 10485 10486; CX 10486 10282 10487;
  CX 10089 10287 10488; CA 10412 10488 10489; CX 10489 10287 10490; CX 10092 10292 10491; CA 10412 10491 10492; CX 10492 10292 10493; CX 10095 10297 10494; CA 10412 10494 10495;
  CX 10495 10297 10496; CX 10098 10302 10497; CA 10412 10497 10498; CX 10498 10302 10499; CX 10101 10307 10500; CA 10412 10500 10501; CX 10501 10307 10502; CX 10104 10312 10503;
  CA 10412 10503 10504; CX 10504 10312 10505; CX 10107 10317 10506; CA 10412 10506 10507; CX 10507 10317 10508; CX 10110 10322 10509; CA 10412 10509 10510; CX 10510 10322 10511;
  CX 10113 10327 10512; CA 10412 10512 10513; CX 10513 10327 10514; CX 10116 10332 10515; CA 10412 10515 10516; CX 10516 10332 10517; CX 10119 10337 10518; CA 10412 10518 10519;
  CX 10519 10337 10520; CX 10122 10342 10521; CA 10412 10521 10522; CX 10522 10342 10523; CX 10125 10347 10524; CA 10412 10524 10525; CX 10525 10347 10526; CX 10128 10352 10527].
(** Lines 10405-10804 of the file. *)
Definition udivide64_26 : list cg := [
  CA 10412 10527 10528; CX 10528 10352 10529; CX 10131 10357 10530; CA 10412 10530 10531; CX 10531 10357 10532; CX 10134 10362 10533; CA 10412 10533 10534; CX 10534 10362 10535;
  CX 10137 10367 10536; CA 10412 10536 10537; CX 10537 10367 10538; CX 10140 10372 10539; CA 10412 10539 10540; CX 10540 10372 10541; CX 10143 10377 10542; CA 10412 10542 10543;
  CX 10543 10377 10544; CX 10146 10382 10545; CA 10412 10545 10546; CX 10546 10382 10547; CX 10149 10387 10548; CA 10412 10548 10549; CX 10549 10387 10550; CX 10152 10392 10551;
  CA 10412 10551 10552; CX 10552 10392 10553; CX 10155 10397 10554; CA 10412 10554 10555; CX 10555 10397 10556; CX 10158 10402 10557; CA 10412 10557 10558; CX 10558 10402 10559;
  CX 10161 10407 10560; CA 10412 10560 10561; CX 10561 10407 10562; CI 10412 10563; CX 13 64 10564; CA 10564 64 10565; CX 10415 65 10566; CX 10565 65 10567;
  CX 10566 10565 10568; CA 10566 10567 10569; CX 10565 10569 10570; CX 10418 66 10571; CX 10570 66 10572; CX 10571 10570 10573; CA 10571 10572 10574; CX 10570 10574 10575;
  CX 10421 67 10576; CX 10575 67 10577; CX 10576 10575 10578; CA 10576 10577 10579; CX 10575 10579 10580; CX 10424 68 10581; CX 10580 68 10582; CX 10581 10580 10583;
  CA 10581 10582 10584; CX 10580 10584 10585; CX 10427 69 10586; CX 10585 69 10587; CX 10586 10585 10588; CA 10586 10587 10589; CX 10585 10589 10590; CX 10430 70 10591;
  CX 10590 70 10592; CX 10591 10590 10593; CA 10591 10592 10594; CX 10590 10594 10595; CX 10433 71 10596; CX 10595 71 10597; CX 10596 10595 10598; CA 10596 10597 10599;
  CX 10595 10599 10600; CX 10436 72 10601; CX 10600 72 10602; CX 10601 10600 10603; CA 10601 10602 10604; CX 10600 10604 10605; CX 10439 73 10606; CX 10605 73 10607;
  CX 10606 10605 10608; CA 10606 10607 10609; CX 10605 10609 10610; CX 10442 74 10611; CX 10610 74 10612; CX 10611 10610 10613; CA 10611 10612 10614; CX 10610 10614 10615;
  CX 10445 75 10616; CX 10615 75 10617; CX 10616 10615 10618; CA 10616 10617 10619; CX 10615 10619 10620; CX 10448 76 10621; CX 10620 76 10622; CX 10621 10620 10623;
  CA 10621 10622 10624; CX 10620 10624 10625; CX 10451 77 10626; CX 10625 77 10627; CX 10626 10625 10628; CA 10626 10627 10629; CX 10625 10629 10630; CX 10454 78 10631;
  CX 10630 78 10632; CX 10631 10630 10633; CA 10631 10632 10634; CX 10630 10634 10635; CX 10457 79 10636; CX 10635 79 10637; CX 10636 10635 10638; CA 10636 10637 10639;
  CX 10635 10639 10640; CX 10460 80 10641; CX 10640 80 10642; CX 10641 10640 10643; CA 10641 10642 10644; CX 10640 10644 10645; CX 10463 81 10646; CX 10645 81 10647;
  CX 10646 10645 10648; CA 10646 10647 10649; CX 10645 10649 10650; CX 10466 82 10651; CX 10650 82 10652; CX 10651 10650 10653; CA 10651 10652 10654; CX 10650 10654 10655;
  CX 10469 83 10656; CX 10655 83 10657; CX 10656 10655 10658; CA 10656 10657 10659; CX 10655 10659 10660; CX 10472 84 10661; CX 10660 84 10662; CX 10661 10660 10663;
  CA 10661 10662 10664; CX 10660 10664 10665; CX 10475 85 10666; CX 10665 85 10667; CX 10666 10665 10668; CA 10666 10667 10669; CX 10665 10669 10670; CX 10478 86 10671;
  CX 10670 86 10672; CX 10671 10670 10673; CA 10671 10672 10674; CX 10670 10674 10675; CX 10481 87 10676; CX 10675 87 10677; CX 10676 10675 10678; CA 10676 10677 10679;
  CX 10675 10679 10680; CX 10484 88 10681; CX 10680 88 10682; CX 10681 10680 10683; CA 10681 10682 10684; CX 10680 10684 10685; CX 10487 89 10686; CX 10685 89 10687;
  CX 10686 10685 10688; CA 10686 10687 10689; CX 10685 10689 10690; CX 10490 90 10691; CX 10690 90 10692; CX 10691 10690 10693; CA 10691 10692 10694; CX 10690 10694 10695;
  CX 10493 91 10696; CX 10695 91 10697; CX 10696 10695 10698; CA 10696 10697 10699; CX 10695 10699 10700; CX 10496 92 10701; CX 10700 92 10702; CX 10701 10700 10703;
  CA 10701 10702 10704; CX 10700 10704 10705; CX 10499 93 10706; CX 10705 93 10707; CX 10706 10705 10708; CA 10706 10707 10709; CX 10705 10709 10710; CX 10502 94 10711;
  CX 10710 94 10712; CX 10711 10710 10713; CA 10711 10712 10714; CX 10710 10714 10715; CX 10505 95 10716; CX 10715 95 10717; CX 10716 10715 10718; CA 10716 10717 10719;
  CX 10715 10719 10720; CX 10508 96 10721; CX 10720 96 10722; CX 10721 10720 10723; CA 10721 10722 10724; CX 10720 10724 10725; CX 10511 97 10726; CX 10725 97 10727;
  CX 10726 10725 10728; CA 10726 10727 10729; CX 10725 10729 10730; CX 10514 98 10731; CX 10730 98 10732; CX 10731 10730 10733; CA 10731 10732 10734; CX 10730 10734 10735;
  CX 10517 99 10736; CX 10735 99 10737; CX 10736 10735 10738; CA 10736 10737 10739; CX 10735 10739 10740; CX 10520 100 10741; CX 10740 100 10742; CX 10741 10740 10743;
  CA 10741 10742 10744; CX 10740 10744 10745; CX 10523 101 10746; CX 10745 101 10747; CX 10746 10745 10748; CA 10746 10747 10749; CX 10745 10749 10750; CX 10526 102 10751;
  CX 10750 102 10752; CX 10751 10750 10753; CA 10751 10752 10754; CX 10750 10754 10755; CX 10529 103 10756; CX 10755 103 10757; CX 10756 10755 10758; CA 10756 10757 10759;
  CX 10755 10759 10760; CX 10532 104 10761; CX 10760 104 10762; CX 10761 10760 10763; CA 10761 10762 10764; CX 10760 10764 10765; CX 10535 105 10766; CX 10765 105 10767;
  CX 10766 10765 10768; CA 10766 10767 10769; CX 10765 10769 10770; CX 10538 106 10771; CX 10770 106 10772; CX 10771 10770 10773; CA 10771 10772 10774; CX 10770 10774 10775;
  CX 10541 107 10776; CX 10775 107 10777; CX 10776 10775 10778; CA 10776 10777 10779; CX 10775 10779 10780; CX 10544 108 10781; CX 10780 108 10782; CX 10781 10780 10783;
  CA 10781 10782 10784; CX 10780 10784 10785; CX 10547 109 10786; CX 10785 109 10787; CX 10786 10785 10788; CA 10786 10787 10789; CX 10785 10789 10790; CX 10550 110 10791;
  CX 10790 110 10792; CX 10791 10790 10793; CA 10791 10792 10794; CX 10790 10794 10795; CX 10553 111 10796; CX 10795 111 10797; CX 10796 10795 10798; CA 10796 10797 10799;
  CX 10795 10799 10800; CX 10556 112 10801; CX 10800 112 10802; CX 10801 10800 10803; CA 10801 10802 10804; CX 10800 10804 10805; CX 10559 113 10806; CX 10805 113 10807;
  CX 10806 10805 10808; CA 10806 10807 10809; CX 10805 10809 10810; CX 10562 114 10811; CX 10810 114 10812; CX 10811 10810 10813; CA 10811 10812 10814; CX 10810 10814 10815;
  CA 10815 163 10816; CX 10815 163 10817; CX 10817 10816 10818; CX 13 10564 10819; CA 10818 10819 10820; CX 10820 10564 10821; CX 10415 10568 10822; CA 10818 10822 10823;
  CX 10823 10568 10824; CX 10418 10573 10825; CA 10818 10825 10826; CX 10826 10573 10827; CX 10421 10578 10828; CA 10818 10828 10829; CX 10829 10578 10830; CX 10424 10583 10831;
  CA 10818 10831 10832; CX 10832 10583 10833; CX 10427 10588 10834; CA 10818 10834 10835; CX 10835 10588 10836; CX 10430 10593 10837; CA 10818 10837 10838; CX 10838 10593 10839;
  CX 10433 10598 10840; CA 10818 10840 10841; CX 10841 10598 10842; CX 10436 10603 10843; CA 10818 10843 10844; CX 10844 10603 10845; CX 10439 10608 10846; CA 10818 10846 10847;
  CX 10847 10608 10848; CX 10442 10613 10849; CA 10818 10849 10850; CX 10850 10613 10851; CX 10445 10618 10852; CA 10818 10852 10853; CX 10853 10618 10854; CX 10448 10623 10855;
  CA 10818 10855 10856; CX 10856 10623 10857; CX 10451 10628 10858; CA 10818 10858 10859; CX 10859 10628 10860; CX 10454 10633 10861; CA 10818 10861 10862; CX 10862 10633 10863;
  CX 10457 10638 10864; CA 10818 10864 10865; CX 10865 10638 10866; CX 10460 10643 10867; CA 10818 10867 10868; CX 10868 10643 10869; CX 10463 10648 10870; CA 10818 10870 10871;
  CX 10871 10648 10872; CX 10466 10653 10873; CA 10818 10873 10874; CX 10874 10653 10875; CX 10469 10658 10876; CA 10818 10876 10877; CX 10877 10658 10878; CX 10472 10663 10879;
  CA 10818 10879 10880; CX 10880 10663 10881; CX 10475 10668 10882; CA 10818 10882 10883; CX 10883 10668 10884; CX 10478 10673 10885; CA 10818 10885 10886; CX 10886 10673 10887;
  CX 10481 10678 10888; CA 10818 10888 10889; CX 10889 10678 10890; CX 10484 10683 10891; CA 10818 10891 10892; CX 10892 10683 10893; CX 10487 10688 10894; CA 10818 10894 10895;
  CX 10895 10688 10896; CX 10490 10693 10897; CA 10818 10897 10898; CX 10898 10693 10899; CX 10493 10698 10900; CA 10818 10900 10901; CX 10901 10698 10902; CX 10496 10703 10903;
  CA 10818 10903 10904; CX 10904 10703 10905; CX 10499 10708 10906; CA 10818 10906 10907; CX 10907 10708 10908; CX 10502 10713 10909; CA 10818 10909 10910; CX 10910 10713 10911;
  CX 10505 10718 10912; CA 10818 10912 10913; CX 10913 10718 10914; CX 10508 10723 10915; CA 10818 10915 10916; CX 10916 10723 10917; CX 10511 10728 10918; CA 10818 10918 10919;
  CX 10919 10728 10920; CX 10514 10733 10921; CA 10818 10921 10922; CX 10922 10733 10923; CX 10517 10738 10924; CA 10818 10924 10925; CX 10925 10738 10926; CX 10520 10743 10927].
(** Lines 10805-11204 of the file. *)
Definition udivide64_27 : list cg := [
  CA 10818 10927 10928; CX 10928 10743 10929; CX 10523 10748 10930; CA 10818 10930 10931; CX 10931 10748 10932; CX 10526 10753 10933; CA 10818 10933 10934; CX 10934 10753 10935;
  CX 10529 10758 10936; CA 10818 10936 10937; CX 10937 10758 10938; CX 10532 10763 10939; CA 10818 10939 10940; CX 10940 10763 10941; CX 10535 10768 10942; CA 10818 10942 10943;
  CX 10943 10768 10944; CX 10538 10773 10945; CA 10818 10945 10946; CX 10946 10773 10947; CX 10541 10778 10948; CA 10818 10948 10949; CX 10949 10778 10950; CX 10544 10783 10951;
  CA 10818 10951 10952; CX 10952 10783 10953; CX 10547 10788 10954; CA 10818 10954 10955; CX 10955 10788 10956; CX 10550 10793 10957; CA 10818 10957 10958; CX 10958 10793 10959;
  CX 10553 10798 10960; CA 10818 10960 10961; CX 10961 10798 10962; CX 10556 10803 10963; CA 10818 10963 10964; CX 10964 10803 10965; CX 10559 10808 10966; CA 10818 10966 10967;
  CX 10967 10808 10968; CX 10562 10813 10969; CA 10818 10969 10970; CX 10970 10813 10971; CI 10818 10972; CX 12 64 10973; CA 10973 64 10974; CX 10821 65 10975;
  CX 10974 65 10976; CX 10975 10974 10977; CA 10975 10976 10978; CX 10974 10978 10979; CX 10824 66 10980; CX 10979 66 10981; CX 10980 10979 10982; CA 10980 10981 10983;
  CX 10979 10983 10984; CX 10827 67 10985; CX 10984 67 10986; CX 10985 10984 10987; CA 10985 10986 10988; CX 10984 10988 10989; CX 10830 68 10990; CX 10989 68 10991;
  CX 10990 10989 10992; CA 10990 10991 10993; CX 10989 10993 10994; CX 10833 69 10995; CX 10994 69 10996; CX 10995 10994 10997; CA 10995 10996 10998; CX 10994 10998 10999;
  CX 10836 70 11000; CX 10999 70 11001; CX 11000 10999 11002; CA 11000 11001 11003; CX 10999 11003 11004; CX 10839 71 11005; CX 11004 71 11006; CX 11005 11004 11007;
  CA 11005 11006 11008; CX 11004 11008 11009; CX 10842 72 11010; CX 11009 72 11011; CX 11010 11009 11012; CA 11010 11011 11013; CX 11009 11013 11014; CX 10845 73 11015;
  CX 11014 73 11016; CX 11015 11014 11017; CA 11015 11016 11018; CX 11014 11018 11019; CX 10848 74 11020; CX 11019 74 11021; CX 11020 11019 11022; CA 11020 11021 11023;
  CX 11019 11023 11024; CX 10851 75 11025; CX 11024 75 11026; CX 11025 11024 11027; CA 11025 11026 11028; CX 11024 11028 11029; CX 10854 76 11030; CX 11029 76 11031;
  CX 11030 11029 11032; CA 11030 11031 11033; CX 11029 11033 11034; CX 10857 77 11035; CX 11034 77 11036; CX 11035 11034 11037; CA 11035 11036 11038; CX 11034 11038 11039;
  CX 10860 78 11040; CX 11039 78 11041; CX 11040 11039 11042; CA 11040 11041 11043; CX 11039 11043 11044; CX 10863 79 11045; CX 11044 79 11046; CX 11045 11044 11047;
  CA 11045 11046 11048; CX 11044 11048 11049; CX 10866 80 11050; CX 11049 80 11051; CX 11050 11049 11052; CA 11050 11051 11053; CX 11049 11053 11054; CX 10869 81 11055;
  CX 11054 81 11056; CX 11055 11054 11057; CA 11055 11056 11058; CX 11054 11058 11059; CX 10872 82 11060; CX 11059 82 11061; CX 11060 11059 11062; CA 11060 11061 11063;
  CX 11059 11063 11064; CX 10875 83 11065; CX 11064 83 11066; CX 11065 11064 11067; CA 11065 11066 11068; CX 11064 11068 11069; CX 10878 84 11070; CX 11069 84 11071;
  CX 11070 11069 11072; CA 11070 11071 11073; CX 11069 11073 11074; CX 10881 85 11075; CX 11074 85 11076; CX 11075 11074 11077; CA 11075 11076 11078; CX 11074 11078 11079;
  CX 10884 86 11080; CX 11079 86 11081; CX 11080 11079 11082; CA 11080 11081 11083; CX 11079 11083 11084; CX 10887 87 11085; CX 11084 87 11086; CX 11085 11084 11087;
  CA 11085 11086 11088; CX 11084 11088 11089; CX 10890 88 11090; CX 11089 88 11091; CX 11090 11089 11092; CA 11090 11091 11093; CX 11089 11093 11094; CX 10893 89 11095;
  CX 11094 89 11096; CX 11095 11094 11097; CA 11095 11096 11098; CX 11094 11098 11099; CX 10896 90 11100; CX 11099 90 11101; CX 11100 11099 11102; CA 11100 11101 11103;
  CX 11099 11103 11104; CX 10899 91 11105; CX 11104 91 11106; CX 11105 11104 11107; CA 11105 11106 11108; CX 11104 11108 11109; CX 10902 92 11110; CX 11109 92 11111;
  CX 11110 11109 11112; CA 11110 11111 11113; CX 11109 11113 11114; CX 10905 93 11115; CX 11114 93 11116; CX 11115 11114 11117; CA 11115 11116 11118; CX 11114 11118 11119;
  CX 10908 94 11120; CX 11119 94 11121; CX 11120 11119 11122; CA 11120 11121 11123; CX 11119 11123 11124; CX 10911 95 11125; CX 11124 95 11126; CX 11125 11124 11127;
  CA 11125 11126 11128; CX 11124 11128 11129; CX 10914 96 11130; CX 11129 96 11131; CX 11130 11129 11132; CA 11130 11131 11133; CX 11129 11133 11134; CX 10917 97 11135;
  CX 11134 97 11136; CX 11135 11134 11137; CA 11135 11136 11138; CX 11134 11138 11139; CX 10920 98 11140; CX 11139 98 11141; CX 11140 11139 11142; CA 11140 11141 11143;
  CX 11139 11143 11144; CX 10923 99 11145; CX 11144 99 11146; CX 11145 11144 11147; CA 11145 11146 11148; CX 11144 11148 11149; CX 10926 100 11150; CX 11149 100 11151;
  CX 11150 11149 11152; CA 11150 11151 11153; CX 11149 11153 11154; CX 10929 101 11155; CX 11154 101 11156; CX 11155 11154 11157; CA 11155 11156 11158; CX 11154 11158 11159;
  CX 10932 102 11160; CX 11159 102 11161; CX 11160 11159 11162; CA 11160 11161 11163; CX 11159 11163 11164; CX 10935 103 11165; CX 11164 103 11166; CX 11165 11164 11167;
  CA 11165 11166 11168; CX 11164 11168 11169; CX 10938 104 11170; CX 11169 104 11171; CX 11170 11169 11172; CA 11170 11171 11173; CX 11169 11173 11174; CX 10941 105 11175;
  CX 11174 105 11176; CX 11175 11174 11177; CA 11175 11176 11178; CX 11174 11178 11179; CX 10944 106 11180; CX 11179 106 11181; CX 11180 11179 11182; CA 11180 11181 11183;
  CX 11179 11183 11184; CX 10947 107 11185; CX 11184 107 11186; CX 11185 11184 11187; CA 11185 11186 11188; CX 11184 11188 11189; CX 10950 108 11190; CX 11189 108 11191;
  CX 11190 11189 11192; CA 11190 11191 11193; CX 11189 11193 11194; CX 10953 109 11195; CX 11194 109 11196; CX 11195 11194 11197; CA 11195 11196 11198; CX 11194 11198 11199;
  CX 10956 110 11200; CX 11199 110 11201; CX 11200 11199 11202; CA 11200 11201 11203; CX 11199 11203 11204; CX 10959 111 11205; CX 11204 111 11206; CX 11205 11204 11207;
  CA 11205 11206 11208; CX 11204 11208 11209; CX 10962 112 11210; CX 11209 112 11211; CX 11210 11209 11212; CA 11210 11211 11213; CX 11209 11213 11214; CX 10965 113 11215;
  CX 11214 113 11216; CX 11215 11214 11217; CA 11215 11216 11218; CX 11214 11218 11219; CX 10968 114 11220; CX 11219 114 11221; CX 11220 11219 11222; CA 11220 11221 11223;
  CX 11219 11223 11224; CX 10971 115 11225; CX 11224 115 11226; CX 11225 11224 11227; CA 11225 11226 11228; CX 11224 11228 11229; CA 11229 160 11230; CX 11229 160 11231;
  CX 11231 11230 11232; CX 12 10973 11233; CA 11232 11233 11234; CX 11234 10973 11235; CX 10821 10977 11236; CA 11232 11236 11237; CX 11237 10977 11238; CX 10824 10982 11239;
  CA 11232 11239 11240; CX 11240 10982 11241; CX 10827 10987 11242; CA 11232 11242 11243; CX 11243 10987 11244; CX 10830 10992 11245; CA 11232 11245 11246; CX 11246 10992 11247;
  CX 10833 10997 11248; CA 11232 11248 11249; CX 11249 10997 11250; CX 10836 11002 11251; CA 11232 11251 11252; CX 11252 11002 11253; CX 10839 11007 11254; CA 11232 11254 11255;
  CX 11255 11007 11256; CX 10842 11012 11257; CA 11232 11257 11258; CX 11258 11012 11259; CX 10845 11017 11260; CA 11232 11260 11261; CX 11261 11017 11262; CX 10848 11022 11263;
  CA 11232 11263 11264; CX 11264 11022 11265; CX 10851 11027 11266; CA 11232 11266 11267; CX 11267 11027 11268; CX 10854 11032 11269; CA 11232 11269 11270; CX 11270 11032 11271;
  CX 10857 11037 11272; CA 11232 11272 11273; CX 11273 11037 11274; CX 10860 11042 11275; CA 11232 11275 11276; CX 11276 11042 11277; CX 10863 11047 11278; CA 11232 11278 11279;
  CX 11279 11047 11280; CX 10866 11052 11281; CA 11232 11281 11282; CX 11282 11052 11283; CX 10869 11057 11284; CA 11232 11284 11285; CX 11285 11057 11286; CX 10872 11062 11287;
  CA 11232 11287 11288; CX 11288 11062 11289; CX 10875 11067 11290; CA 11232 11290 11291; CX 11291 11067 11292; CX 10878 11072 11293; CA 11232 11293 11294; CX 11294 11072 11295;
  CX 10881 11077 11296; CA 11232 11296 11297; CX 11297 11077 11298; CX 10884 11082 11299; CA 11232 11299 11300; CX 11300 11082 11301; CX 10887 11087 11302; CA 11232 11302 11303;
  CX 11303 11087 11304; CX 10890 11092 11305; CA 11232 11305 11306; CX 11306 11092 11307; CX 10893 11097 11308; CA 11232 11308 11309; CX 11309 11097 11310; CX 10896 11102 11311;
  CA 11232 11311 11312; CX 11312 11102 11313; CX 10899 11107 11314; CA 11232 11314 11315; CX 11315 11107 11316; CX 10902 11112 11317; CA 11232 11317 11318; CX 11318 11112 11319;
  CX 10905 11117 11320; CA 11232 11320 11321; CX 11321 11117 11322; CX 10908 11122 11323; CA 11232 11323 11324; CX 11324 11122 11325; CX 10911 11127 11326; CA 11232 11326 11327].
(** Lines 11205-11604 of the file. *)
Definition udivide64_28 : list cg := [
  CX 11327 11127 11328; CX 10914 11132 11329; CA 11232 11329 11330; CX 11330 11132 11331; CX 10917 11137 11332; CA 11232 11332 11333; CX 11333 11137 11334; CX 10920 11142 11335;
  CA 11232 11335 11336; CX 11336 11142 11337; CX 10923 11147 11338; CA 11232 11338 11339; CX 11339 11147 11340; CX 10926 11152 11341; CA 11232 11341 11342; CX 11342 11152 11343;
  CX 10929 11157 11344; CA 11232 11344 11345; CX 11345 11157 11346; CX 10932 11162 11347; CA 11232 11347 11348; CX 11348 11162 11349; CX 10935 11167 11350; CA 11232 11350 11351;
  CX 11351 11167 11352; CX 10938 11172 11353; CA 11232 11353 11354; CX 11354 11172 11355; CX 10941 11177 11356; CA 11232 11356 11357; CX 11357 11177 11358; CX 10944 11182 11359;
  CA 11232 11359 11360; CX 11360 11182 11361; CX 10947 11187 11362; CA 11232 11362 11363; CX 11363 11187 11364; CX 10950 11192 11365; CA 11232 11365 11366; CX 11366 11192 11367;
  CX 10953 11197 11368; CA 11232 11368 11369; CX 11369 11197 11370; CX 10956 11202 11371; CA 11232 11371 11372; CX 11372 11202 11373; CX 10959 11207 11374; CA 11232 11374 11375;
  CX 11375 11207 11376; CX 10962 11212 11377; CA 11232 11377 11378; CX 11378 11212 11379; CX 10965 11217 11380; CA 11232 11380 11381; CX 11381 11217 11382; CX 10968 11222 11383;
  CA 11232 11383 11384; CX 11384 11222 11385; CX 10971 11227 11386; CA 11232 11386 11387; CX 11387 11227 11388; CI 11232 11389; CX 11 64 11390; CA 11390 64 11391;
  CX 11235 65 11392; CX 11391 65 11393; CX 11392 11391 11394; CA 11392 11393 11395; CX 11391 11395 11396; CX 11238 66 11397; CX 11396 66 11398; CX 11397 11396 11399;
  CA 11397 11398 11400; CX 11396 11400 11401; CX 11241 67 11402; CX 11401 67 11403; CX 11402 11401 11404; CA 11402 11403 11405; CX 11401 11405 11406; CX 11244 68 11407;
  CX 11406 68 11408; CX 11407 11406 11409; CA 11407 11408 11410; CX 11406 11410 11411; CX 11247 69 11412; CX 11411 69 11413; CX 11412 11411 11414; CA 11412 11413 11415;
  CX 11411 11415 11416; CX 11250 70 11417; CX 11416 70 11418; CX 11417 11416 11419; CA 11417 11418 11420; CX 11416 11420 11421; CX 11253 71 11422; CX 11421 71 11423;
  CX 11422 11421 11424; CA 11422 11423 11425; CX 11421 11425 11426; CX 11256 72 11427; CX 11426 72 11428; CX 11427 11426 11429; CA 11427 11428 11430; CX 11426 11430 11431;
  CX 11259 73 11432; CX 11431 73 11433; CX 11432 11431 11434; CA 11432 11433 11435; CX 11431 11435 11436; CX 11262 74 11437; CX 11436 74 11438; CX 11437 11436 11439;
  CA 11437 11438 11440; CX 11436 11440 11441; CX 11265 75 11442; CX 11441 75 11443; CX 11442 11441 11444; CA 11442 11443 11445; CX 11441 11445 11446; CX 11268 76 11447;
  CX 11446 76 11448; CX 11447 11446 11449; CA 11447 11448 11450; CX 11446 11450 11451; CX 11271 77 11452; CX 11451 77 11453; CX 11452 11451 11454; CA 11452 11453 11455;
  CX 11451 11455 11456; CX 11274 78 11457; CX 11456 78 11458; CX 11457 11456 11459; CA 11457 11458 11460; CX 11456 11460 11461; CX 11277 79 11462; CX 11461 79 11463;
  CX 11462 11461 11464; CA 11462 11463 11465; CX 11461 11465 11466; CX 11280 80 11467; CX 11466 80 11468; CX 11467 11466 11469; CA 11467 11468 11470; CX 11466 11470 11471;
  CX 11283 81 11472; CX 11471 81 11473; CX 11472 11471 11474; CA 11472 11473 11475; CX 11471 11475 11476; CX 11286 82 11477; CX 11476 82 11478; CX 11477 11476 11479;
  CA 11477 11478 11480; CX 11476 11480 11481; CX 11289 83 11482; CX 11481 83 11483; CX 11482 11481 11484; CA 11482 11483 11485; CX 11481 11485 11486; CX 11292 84 11487;
  CX 11486 84 11488; CX 11487 11486 11489; CA 11487 11488 11490; CX 11486 11490 11491; CX 11295 85 11492; CX 11491 85 11493; CX 11492 11491 11494; CA 11492 11493 11495;
  CX 11491 11495 11496; CX 11298 86 11497; CX 11496 86 11498; CX 11497 11496 11499; CA 11497 11498 11500; CX 11496 11500 11501; CX 11301 87 11502; CX 11501 87 11503;
  CX 11502 11501 11504; CA 11502 11503 11505; CX 11501 11505 11506; CX 11304 88 11507; CX 11506 88 11508; CX 11507 11506 11509; CA 11507 11508 11510; CX 11506 11510 11511;
  CX 11307 89 11512; CX 11511 89 11513; CX 11512 11511 11514; CA 11512 11513 11515; CX 11511 11515 11516; CX 11310 90 11517; CX 11516 90 11518; CX 11517 11516 11519;
  CA 11517 11518 11520; CX 11516 11520 11521; CX 11313 91 11522; CX 11521 91 11523; CX 11522 11521 11524; CA 11522 11523 11525; CX 11521 11525 11526; CX 11316 92 11527;
  CX 11526 92 11528; CX 11527 11526 11529; CA 11527 11528 11530; CX 11526 11530 11531; CX 11319 93 11532; CX 11531 93 11533; CX 11532 11531 11534; CA 11532 11533 11535;
  CX 11531 11535 11536; CX 11322 94 11537; CX 11536 94 11538; CX 11537 11536 11539; CA 11537 11538 11540; CX 11536 11540 11541; CX 11325 95 11542; CX 11541 95 11543;
  CX 11542 11541 11544; CA 11542 11543 11545; CX 11541 11545 11546; CX 11328 96 11547; CX 11546 96 11548; CX 11547 11546 11549; CA 11547 11548 11550; CX 11546 11550 11551;
  CX 11331 97 11552; CX 11551 97 11553; CX 11552 11551 11554; CA 11552 11553 11555; CX 11551 11555 11556; CX 11334 98 11557; CX 11556 98 11558; CX 11557 11556 11559;
  CA 11557 11558 11560; CX 11556 11560 11561; CX 11337 99 11562; CX 11561 99 11563; CX 11562 11561 11564; CA 11562 11563 11565; CX 11561 11565 11566; CX 11340 100 11567;
  CX 11566 100 11568; CX 11567 11566 11569; CA 11567 11568 11570; CX 11566 11570 11571; CX 11343 101 11572; CX 11571 101 11573; CX 11572 11571 11574; CA 11572 11573 11575;
  CX 11571 11575 11576; CX 11346 102 11577; CX 11576 102 11578; CX 11577 11576 11579; CA 11577 11578 11580; CX 11576 11580 11581; CX 11349 103 11582; CX 11581 103 11583;
  CX 11582 11581 11584; CA 11582 11583 11585; CX 11581 11585 11586; CX 11352 104 11587; CX 11586 104 11588; CX 11587 11586 11589; CA 11587 11588 11590; CX 11586 11590 11591;
  CX 11355 105 11592; CX 11591 105 11593; CX 11592 11591 11594; CA 11592 11593 11595; CX 11591 11595 11596; CX 11358 106 11597; CX 11596 106 11598; CX 11597 11596 11599;
  CA 11597 11598 11600; CX 11596 11600 11601; CX 11361 107 11602; CX 11601 107 11603; CX 11602 11601 11604; CA 11602 11603 11605; CX 11601 11605 11606; CX 11364 108 11607;
  CX 11606 108 11608; CX 11607 11606 11609; CA 11607 11608 11610; CX 11606 11610 11611; CX 11367 109 11612; CX 11611 109 11613; CX 11612 11611 11614; CA 11612 11613 11615;
  CX 11611 11615 11616; CX 11370 110 11617; CX 11616 110 11618; CX 11617 11616 11619; CA 11617 11618 11620; CX 11616 11620 11621; CX 11373 111 11622; CX 11621 111 11623;
  CX 11622 11621 11624; CA 11622 11623 11625; CX 11621 11625 11626; CX 11376 112 11627; CX 11626 112 11628; CX 11627 11626 11629; CA 11627 11628 11630; CX 11626 11630 11631;
  CX 11379 113 11632; CX 11631 113 11633; CX 11632 11631 11634; CA 11632 11633 11635; CX 11631 11635 11636; CX 11382 114 11637; CX 11636 114 11638; CX 11637 11636 11639;
  CA 11637 11638 11640; CX 11636 11640 11641; CX 11385 115 11642; CX 11641 115 11643; CX 11642 11641 11644; CA 11642 11643 11645; CX 11641 11645 11646; CX 11388 116 11647;
  CX 11646 116 11648; CX 11647 11646 11649; CA 11647 11648 11650; CX 11646 11650 11651; CA 11651 157 11652; CX 11651 157 11653; CX 11653 11652 11654; CX 11 11390 11655;
  CA 11654 11655 11656; CX 11656 11390 11657; CX 11235 11394 11658; CA 11654 11658 11659; CX 11659 11394 11660; CX 11238 11399 11661; CA 11654 11661 11662; CX 11662 11399 11663;
  CX 11241 11404 11664; CA 11654 11664 11665; CX 11665 11404 11666; CX 11244 11409 11667; CA 11654 11667 11668; CX 11668 11409 11669; CX 11247 11414 11670; CA 11654 11670 11671;
  CX 11671 11414 11672; CX 11250 11419 11673; CA 11654 11673 11674; CX 11674 11419 11675; CX 11253 11424 11676; CA 11654 11676 11677; CX 11677 11424 11678; CX 11256 11429 11679;
  CA 11654 11679 11680; CX 11680 11429 11681; CX 11259 11434 11682; CA 11654 11682 11683; CX 11683 11434 11684; CX 11262 11439 11685; CA 11654 11685 11686; CX 11686 11439 11687;
  CX 11265 11444 11688; CA 11654 11688 11689; CX 11689 11444 11690; CX 11268 11449 11691; CA 11654 11691 11692; CX 11692 11449 11693; CX 11271 11454 11694; CA 11654 11694 11695;
  CX 11695 11454 11696; CX 11274 11459 11697; CA 11654 11697 11698; CX 11698 11459 11699; CX 11277 11464 11700; CA 11654 11700 11701; CX 11701 11464 11702; CX 11280 11469 11703;
  CA 11654 11703 11704; CX 11704 11469 11705; CX 11283 11474 11706; CA 11654 11706 11707; CX 11707 11474 11708; CX 11286 11479 11709; CA 11654 11709 11710; CX 11710 11479 11711;
  CX 11289 11484 11712; CA 11654 11712 11713; CX 11713 11484 11714; CX 11292 11489 11715; CA 11654 11715 11716; CX 11716 11489 11717; CX 11295 11494 11718; CA 11654 11718 11719;
  CX 11719 11494 11720; CX 11298 11499 11721; CA 11654 11721 11722; CX 11722 11499 11723; CX 11301 11504 11724; CA 11654 11724 11725; CX 11725 11504 11726; CX 11304 11509 11727].
(** Lines 11605-12004 of the file. *)
Definition udivide64_29 : list cg := [
  CA 11654 11727 11728; CX 11728 11509 11729; CX 11307 11514 11730; CA 11654 11730 11731; CX 11731 11514 11732; CX 11310 11519 11733; CA 11654 11733 11734; CX 11734 11519 11735;
  CX 11313 11524 11736; CA 11654 11736 11737; CX 11737 11524 11738; CX 11316 11529 11739; CA 11654 11739 11740; CX 11740 11529 11741; CX 11319 11534 11742; CA 11654 11742 11743;
  CX 11743 11534 11744; CX 11322 11539 11745; CA 11654 11745 11746; CX 11746 11539 11747; CX 11325 11544 11748; CA 11654 11748 11749; CX 11749 11544 11750; CX 11328 11549 11751;
  CA 11654 11751 11752; CX 11752 11549 11753; CX 11331 11554 11754; CA 11654 11754 11755; CX 11755 11554 11756; CX 11334 11559 11757; CA 11654 11757 11758; CX 11758 11559 11759;
  CX 11337 11564 11760; CA 11654 11760 11761; CX 11761 11564 11762; CX 11340 11569 11763; CA 11654 11763 11764; CX 11764 11569 11765; CX 11343 11574 11766; CA 11654 11766 11767;
  CX 11767 11574 11768; CX 11346 11579 11769; CA 11654 11769 11770; CX 11770 11579 11771; CX 11349 11584 11772; CA 11654 11772 11773; CX 11773 11584 11774; CX 11352 11589 11775;
  CA 11654 11775 11776; CX 11776 11589 11777; CX 11355 11594 11778; CA 11654 11778 11779; CX 11779 11594 11780; CX 11358 11599 11781; CA 11654 11781 11782; CX 11782 11599 11783;
  CX 11361 11604 11784; CA 11654 11784 11785; CX 11785 11604 11786; CX 11364 11609 11787; CA 11654 11787 11788; CX 11788 11609 11789; CX 11367 11614 11790; CA 11654 11790 11791;
  CX 11791 11614 11792; CX 11370 11619 11793; CA 11654 11793 11794; CX 11794 11619 11795; CX 11373 11624 11796; CA 11654 11796 11797; CX 11797 11624 11798; CX 11376 11629 11799;
  CA 11654 11799 11800; CX 11800 11629 11801; CX 11379 11634 11802; CA 11654 11802 11803; CX 11803 11634 11804; CX 11382 11639 11805; CA 11654 11805 11806; CX 11806 11639 11807;
  CX 11385 11644 11808; CA 11654 11808 11809; CX 11809 11644 11810; CX 11388 11649 11811; CA 11654 11811 11812; CX 11812 11649 11813; CI 11654 11814; CX 10 64 11815;
  CA 11815 64 11816; CX 11657 65 11817; CX 11816 65 11818; CX 11817 11816 11819; CA 11817 11818 11820; CX 11816 11820 11821; CX 11660 66 11822; CX 11821 66 11823;
  CX 11822 11821 11824; CA 11822 11823 11825; CX 11821 11825 11826; CX 11663 67 11827; CX 11826 67 11828; CX 11827 11826 11829; CA 11827 11828 11830; CX 11826 11830 11831;
  CX 11666 68 11832; CX 11831 68 11833; CX 11832 11831 11834; CA 11832 11833 11835; CX 11831 11835 11836; CX 11669 69 11837; CX 11836 69 11838; CX 11837 11836 11839;
  CA 11837 11838 11840; CX 11836 11840 11841; CX 11672 70 11842; CX 11841 70 11843; CX 11842 11841 11844; CA 11842 11843 11845; CX 11841 11845 11846; CX 11675 71 11847;
  CX 11846 71 11848; CX 11847 11846 11849; CA 11847 11848 11850; CX 11846 11850 11851; CX 11678 72 11852; CX 11851 72 11853; CX 11852 11851 11854; CA 11852 11853 11855;
  CX 11851 11855 11856; CX 11681 73 11857; CX 11856 73 11858; CX 11857 11856 11859; CA 11857 11858 11860; CX 11856 11860 11861; CX 11684 74 11862; CX 11861 74 11863;
  CX 11862 11861 11864; CA 11862 11863 11865; CX 11861 11865 11866; CX 11687 75 11867; CX 11866 75 11868; CX 11867 11866 11869; CA 11867 11868 11870; CX 11866 11870 11871;
  CX 11690 76 11872; CX 11871 76 11873; CX 11872 11871 11874; CA 11872 11873 11875; CX 11871 11875 11876; CX 11693 77 11877; CX 11876 77 11878; CX 11877 11876 11879;
  CA 11877 11878 11880; CX 11876 11880 11881; CX 11696 78 11882; CX 11881 78 11883; CX 11882 11881 11884; CA 11882 11883 11885; CX 11881 11885 11886; CX 11699 79 11887;
  CX 11886 79 11888; CX 11887 11886 11889; CA 11887 11888 11890; CX 11886 11890 11891; CX 11702 80 11892; CX 11891 80 11893; CX 11892 11891 11894; CA 11892 11893 11895;
  CX 11891 11895 11896; CX 11705 81 11897; CX 11896 81 11898; CX 11897 11896 11899; CA 11897 11898 11900; CX 11896 11900 11901; CX 11708 82 11902; CX 11901 82 11903;
  CX 11902 11901 11904; CA 11902 11903 11905; CX 11901 11905 11906; CX 11711 83 11907; CX 11906 83 11908; CX 11907 11906 11909; CA 11907 11908 11910; CX 11906 11910 11911;
  CX 11714 84 11912; CX 11911 84 11913; CX 11912 11911 11914; CA 11912 11913 11915; CX 11911 11915 11916; CX 11717 85 11917; CX 11916 85 11918; CX 11917 11916 11919;
  CA 11917 11918 11920; CX 11916 11920 11921; CX 11720 86 11922; CX 11921 86 11923; CX 11922 11921 11924; CA 11922 11923 11925; CX 11921 11925 11926; CX 11723 87 11927;
  CX 11926 87 11928; CX 11927 11926 11929; CA 11927 11928 11930; CX 11926 11930 11931; CX 11726 88 11932; CX 11931 88 11933; CX 11932 11931 11934; CA 11932 11933 11935;
  CX 11931 11935 11936; CX 11729 89 11937; CX 11936 89 11938; CX 11937 11936 11939; CA 11937 11938 11940; CX 11936 11940 11941; CX 11732 90 11942; CX 11941 90 11943;
  CX 11942 11941 11944; CA 11942 11943 11945; CX 11941 11945 11946; CX 11735 91 11947; CX 11946 91 11948; CX 11947 11946 11949; CA 11947 11948 11950; CX 11946 11950 11951;
  CX 11738 92 11952; CX 11951 92 11953; CX 11952 11951 11954; CA 11952 11953 11955; CX 11951 11955 11956; CX 11741 93 11957; CX 11956 93 11958; CX 11957 11956 11959;
  CA 11957 11958 11960; CX 11956 11960 11961; CX 11744 94 11962; CX 11961 94 11963; CX 11962 11961 11964; CA 11962 11963 11965; CX 11961 11965 11966; CX 11747 95 11967;
  CX 11966 95 11968; CX 11967 11966 11969; CA 11967 11968 11970; CX 11966 11970 11971; CX 11750 96 11972; CX 11971 96 11973; CX 11972 11971 11974; CA 11972 11973 11975;
  CX 11971 11975 11976; CX 11753 97 11977; CX 11976 97 11978; CX 11977 11976 11979; CA 11977 11978 11980; CX 11976 11980 11981; CX 11756 98 11982; CX 11981 98 11983;
  CX 11982 11981 11984; CA 11982 11983 11985; CX 11981 11985 11986; CX 11759 99 11987; CX 11986 99 11988; CX 11987 11986 11989; CA 11987 11988 11990; CX 11986 11990 11991;
  CX 11762 100 11992; CX 11991 100 11993; CX 11992 11991 11994; CA 11992 11993 11995; CX 11991 11995 11996; CX 11765 101 11997; CX 11996 101 11998; CX 11997 11996 11999;
  CA 11997 11998 12000; CX 11996 12000 12001; CX 11768 102 12002; CX 12001 102 12003; CX 12002 12001 12004; CA 12002 12003 12005; CX 12001 12005 12006; CX 11771 103 12007;
  CX 12006 103 12008; CX 12007 12006 12009; CA 12007 12008 12010; CX 12006 12010 12011; CX 11774 104 12012; CX 12011 104 12013; CX 12012 12011 12014; CA 12012 12013 12015;
  CX 12011 12015 12016; CX 11777 105 12017; CX 12016 105 12018; CX 12017 12016 12019; CA 12017 12018 12020; CX 12016 12020 12021; CX 11780 106 12022; CX 12021 106 12023;
  CX 12022 12021 12024; CA 12022 12023 12025; CX 12021 12025 12026; CX 11783 107 12027; CX 12026 107 12028; CX 12027 12026 12029; CA 12027 12028 12030; CX 12026 12030 12031;
  CX 11786 108 12032; CX 12031 108 12033; CX 12032 12031 12034; CA 12032 12033 12035; CX 12031 12035 12036; CX 11789 109 12037; CX 12036 109 12038; CX 12037 12036 12039;
  CA 12037 12038 12040; CX 12036 12040 12041; CX 11792 110 12042; CX 12041 110 12043; CX 12042 12041 12044; CA 12042 12043 12045; CX 12041 12045 12046; CX 11795 111 12047;
  CX 12046 111 12048; CX 12047 12046 12049; CA 12047 12048 12050; CX 12046 12050 12051; CX 11798 112 12052; CX 12051 112 12053; CX 12052 12051 12054; CA 12052 12053 12055;
  CX 12051 12055 12056; CX 11801 113 12057; CX 12056 113 12058; CX 12057 12056 12059; CA 12057 12058 12060; CX 12056 12060 12061; CX 11804 114 12062; CX 12061 114 12063;
  CX 12062 12061 12064; CA 12062 12063 12065; CX 12061 12065 12066; CX 11807 115 12067; CX 12066 115 12068; CX 12067 12066 12069; CA 12067 12068 12070; CX 12066 12070 12071;
  CX 11810 116 12072; CX 12071 116 12073; CX 12072 12071 12074; CA 12072 12073 12075; CX 12071 12075 12076; CX 11813 117 12077; CX 12076 117 12078; CX 12077 12076 12079;
  CA 12077 12078 12080; CX 12076 12080 12081; CA 12081 154 12082; CX 12081 154 12083; CX 12083 12082 12084; CX 10 11815 12085; CA 12084 12085 12086; CX 12086 11815 12087;
  CX 11657 11819 12088; CA 12084 12088 12089; CX 12089 11819 12090; CX 11660 11824 12091; CA 12084 12091 12092; CX 12092 11824 12093; CX 11663 11829 12094; CA 12084 12094 12095;
  CX 12095 11829 12096; CX 11666 11834 12097; CA 12084 12097 12098; CX 12098 11834 12099; CX 11669 11839 12100; CA 12084 12100 12101; CX 12101 11839 12102; CX 11672 11844 12103;
  CA 12084 12103 12104; CX 12104 11844 12105; CX 11675 11849 12106; CA 12084 12106 12107; CX 12107 11849 12108; CX 11678 11854 12109; CA 12084 12109 12110; CX 12110 11854 12111;
  CX 11681 11859 12112; CA 12084 12112 12113; CX 12113 11859 12114; CX 11684 11864 12115; CA 12084 12115 12116; CX 12116 11864 12117; CX 11687 11869 12118; CA 12084 12118 12119;
  CX 12119 11869 12120; CX 11690 11874 12121; CA 12084 12121 12122; CX 12122 11874 12123; CX 11693 11879 12124; CA 12084 12124 12125; CX 12125 11879 12126; CX 11696 11884 12127].
(** Lines 12005-12404 of the file. *)
Definition udivide64_30 : list cg := [
  CA 12084 12127 12128; CX 12128 11884 12129; CX 11699 11889 12130; CA 12084 12130 12131; CX 12131 11889 12132; CX 11702 11894 12133; CA 12084 12133 12134; CX 12134 11894 12135;
  CX 11705 11899 12136; CA 12084 12136 12137; CX 12137 11899 12138; CX 11708 11904 12139; CA 12084 12139 12140; CX 12140 11904 12141; CX 11711 11909 12142; CA 12084 12142 12143;
  CX 12143 11909 12144; CX 11714 11914 12145; CA 12084 12145 12146; CX 12146 11914 12147; CX 11717 11919 12148; CA 12084 12148 12149; CX 12149 11919 12150; CX 11720 11924 12151;
  CA 12084 12151 12152; CX 12152 11924 12153; CX 11723 11929 12154; CA 12084 12154 12155; CX 12155 11929 12156; CX 11726 11934 12157; CA 12084 12157 12158; CX 12158 11934 12159;
  CX 11729 11939 12160; CA 12084 12160 12161; CX 12161 11939 12162; CX 11732 11944 12163; CA 12084 12163 12164; CX 12164 11944 12165; CX 11735 11949 12166; CA 12084 12166 12167;
  CX 12167 11949 12168; CX 11738 11954 12169; CA 12084 12169 12170; CX 12170 11954 12171; CX 11741 11959 12172; CA 12084 12172 12173; CX 12173 11959 12174; CX 11744 11964 12175;
  CA 12084 12175 12176; CX 12176 11964 12177; CX 11747 11969 12178; CA 12084 12178 12179; CX 12179 11969 12180; CX 11750 11974 12181; CA 12084 12181 12182; CX 12182 11974 12183;
  CX 11753 11979 12184; CA 12084 12184 12185; CX 12185 11979 12186; CX 11756 11984 12187; CA 12084 12187 12188; CX 12188 11984 12189; CX 11759 11989 12190; CA 12084 12190 12191;
  CX 12191 11989 12192; CX 11762 11994 12193; CA 12084 12193 12194; CX 12194 11994 12195; CX 11765 11999 12196; CA 12084 12196 12197; CX 12197 11999 12198; CX 11768 12004 12199;
  CA 12084 12199 12200; CX 12200 12004 12201; CX 11771 12009 12202; CA 12084 12202 12203; CX 12203 12009 12204; CX 11774 12014 12205; CA 12084 12205 12206; CX 12206 12014 12207;
  CX 11777 12019 12208; CA 12084 12208 12209; CX 12209 12019 12210; CX 11780 12024 12211; CA 12084 12211 12212; CX 12212 12024 12213; CX 11783 12029 12214; CA 12084 12214 12215;
  CX 12215 12029 12216; CX 11786 12034 12217; CA 12084 12217 12218; CX 12218 12034 12219; CX 11789 12039 12220; CA 12084 12220 12221; CX 12221 12039 12222; CX 11792 12044 12223;
  CA 12084 12223 12224; CX 12224 12044 12225; CX 11795 12049 12226; CA 12084 12226 12227; CX 12227 12049 12228; CX 11798 12054 12229; CA 12084 12229 12230; CX 12230 12054 12231;
  CX 11801 12059 12232; CA 12084 12232 12233; CX 12233 12059 12234; CX 11804 12064 12235; CA 12084 12235 12236; CX 12236 12064 12237; CX 11807 12069 12238; CA 12084 12238 12239;
  CX 12239 12069 12240; CX 11810 12074 12241; CA 12084 12241 12242; CX 12242 12074 12243; CX 11813 12079 12244; CA 12084 12244 12245; CX 12245 12079 12246; CI 12084 12247;
  CX 9 64 12248; CA 12248 64 12249; CX 12087 65 12250; CX 12249 65 12251; CX 12250 12249 12252; CA 12250 12251 12253; CX 12249 12253 12254; CX 12090 66 12255;
  CX 12254 66 12256; CX 12255 12254 12257; CA 12255 12256 12258; CX 12254 12258 12259; CX 12093 67 12260; CX 12259 67 12261; CX 12260 12259 12262; CA 12260 12261 12263;
  CX 12259 12263 12264; CX 12096 68 12265; CX 12264 68 12266; CX 12265 12264 12267; CA 12265 12266 12268; CX 12264 12268 12269; CX 12099 69 12270; CX 12269 69 12271;
  CX 12270 12269 12272; CA 12270 12271 12273; CX 12269 12273 12274; CX 12102 70 12275; CX 12274 70 12276; CX 12275 12274 12277; CA 12275 12276 12278; CX 12274 12278 12279;
  CX 12105 71 12280; CX 12279 71 12281; CX 12280 12279 12282; CA 12280 12281 12283; CX 12279 12283 12284; CX 12108 72 12285; CX 12284 72 12286; CX 12285 12284 12287;
  CA 12285 12286 12288; CX 12284 12288 12289; CX 12111 73 12290; CX 12289 73 12291; CX 12290 12289 12292; CA 12290 12291 12293; CX 12289 12293 12294; CX 12114 74 12295;
  CX 12294 74 12296; CX 12295 12294 12297; CA 12295 12296 12298; CX 12294 12298 12299; CX 12117 75 12300; CX 12299 75 12301; CX 12300 12299 12302; CA 12300 12301 12303;
  CX 12299 12303 12304; CX 12120 76 12305; CX 12304 76 12306; CX 12305 12304 12307; CA 12305 12306 12308; CX 12304 12308 12309; CX 12123 77 12310; CX 12309 77 12311;
  CX 12310 12309 12312; CA 12310 12311 12313; CX 12309 12313 12314; CX 12126 78 12315; CX 12314 78 12316; CX 12315 12314 12317; CA 12315 12316 12318; CX 12314 12318 12319;
  CX 12129 79 12320; CX 12319 79 12321; CX 12320 12319 12322; CA 12320 12321 12323; CX 12319 12323 12324; CX 12132 80 12325; CX 12324 80 12326; CX 12325 12324 12327;
  CA 12325 12326 12328; CX 12324 12328 12329; CX 12135 81 12330; CX 12329 81 12331; CX 12330 12329 12332; CA 12330 12331 12333; CX 12329 12333 12334; CX 12138 82 12335;
  CX 12334 82 12336; CX 12335 12334 12337; CA 12335 12336 12338; CX 12334 12338 12339; CX 12141 83 12340; CX 12339 83 12341; CX 12340 12339 12342; CA 12340 12341 12343;
  CX 12339 12343 12344; CX 12144 84 12345; CX 12344 84 12346; CX 12345 12344 12347; CA 12345 12346 12348; CX 12344 12348 12349; CX 12147 85 12350; CX 12349 85 12351;
  CX 12350 12349 12352; CA 12350 12351 12353; CX 12349 12353 12354; CX 12150 86 12355; CX 12354 86 12356; CX 12355 12354 12357; CA 12355 12356 12358; CX 12354 12358 12359;
  CX 12153 87 12360; CX 12359 87 12361; CX 12360 12359 12362; CA 12360 12361 12363; CX 12359 12363 12364; CX 12156 88 12365; CX 12364 88 12366; CX 12365 12364 12367;
  CA 12365 12366 12368; CX 12364 12368 12369; CX 12159 89 12370; CX 12369 89 12371; CX 12370 12369 12372; CA 12370 12371 12373; CX 12369 12373 12374; CX 12162 90 12375;
  CX 12374 90 12376; CX 12375 12374 12377; CA 12375 12376 12378; CX 12374 12378 12379; CX 12165 91 12380; CX 12379 91 12381; CX 12380 12379 12382; CA 12380 12381 12383;
  CX 12379 12383 12384; CX 12168 92 12385; CX 12384 92 12386; CX 12385 12384 12387; CA 12385 12386 12388; CX 12384 12388 12389; CX 12171 93 12390; CX 12389 93 12391;
  CX 12390 12389 12392; CA 12390 12391 12393; CX 12389 12393 12394; CX 12174 94 12395; CX 12394 94 12396; CX 12395 12394 12397; CA 12395 12396 12398; CX 12394 12398 12399;
  CX 12177 95 12400; CX 12399 95 12401; CX 12400 12399 12402; CA 12400 12401 12403; CX 12399 12403 12404; CX 12180 96 12405; CX 12404 96 12406; CX 12405 12404 12407;
  CA 12405 12406 12408; CX 12404 12408 12409; CX 12183 97 12410; CX 12409 97 12411; CX 12410 12409 12412; CA 12410 12411 12413; CX 12409 12413 12414; CX 12186 98 12415;
  CX 12414 98 12416; CX 12415 12414 12417; CA 12415 12416 12418; CX 12414 12418 12419; CX 12189 99 12420; CX 12419 99 12421; CX 12420 12419 12422; CA 12420 12421 12423;
  CX 12419 12423 12424; CX 12192 100 12425; CX 12424 100 12426; CX 12425 12424 12427; CA 12425 12426 12428; CX 12424 12428 12429; CX 12195 101 12430; CX 12429 101 12431;
  CX 12430 12429 12432; CA 12430 12431 12433; CX 12429 12433 12434; CX 12198 102 12435; CX 12434 102 12436; CX 12435 12434 12437; CA 12435 12436 12438; CX 12434 12438 12439;
  CX 12201 103 12440; CX 12439 103 12441; CX 12440 12439 12442; CA 12440 12441 12443; CX 12439 12443 12444; CX 12204 104 12445; CX 12444 104 12446; CX 12445 12444 12447;
  CA 12445 12446 12448; CX 12444 12448 12449; CX 12207 105 12450; CX 12449 105 12451; CX 12450 12449 12452; CA 12450 12451 12453; CX 12449 12453 12454; CX 12210 106 12455;
  CX 12454 106 12456; CX 12455 12454 12457; CA 12455 12456 12458; CX 12454 12458 12459; CX 12213 107 12460; CX 12459 107 12461; CX 12460 12459 12462; CA 12460 12461 12463;
  CX 12459 12463 12464; CX 12216 108 12465; CX 12464 108 12466; CX 12465 12464 12467; CA 12465 12466 12468; CX 12464 12468 12469; CX 12219 109 12470; CX 12469 109 12471;
  CX 12470 12469 12472; CA 12470 12471 12473; CX 12469 12473 12474; CX 12222 110 12475; CX 12474 110 12476; CX 12475 12474 12477; CA 12475 12476 12478; CX 12474 12478 12479;
  CX 12225 111 12480; CX 12479 111 12481; CX 12480 12479 12482; CA 12480 12481 12483; CX 12479 12483 12484; CX 12228 112 12485; CX 12484 112 12486; CX 12485 12484 12487;
  CA 12485 12486 12488; CX 12484 12488 12489; CX 12231 113 12490; CX 12489 113 12491; CX 12490 12489 12492; CA 12490 12491 12493; CX 12489 12493 12494; CX 12234 114 12495;
  CX 12494 114 12496; CX 12495 12494 12497; CA 12495 12496 12498; CX 12494 12498 12499; CX 12237 115 12500; CX 12499 115 12501; CX 12500 12499 12502; CA 12500 12501 12503;
  CX 12499 12503 12504; CX 12240 116 12505; CX 12504 116 12506; CX 12505 12504 12507; CA 12505 12506 12508; CX 12504 12508 12509; CX 12243 117 12510; CX 12509 117 12511;
  CX 12510 12509 12512; CA 12510 12511 12513; CX 12509 12513 12514; CX 12246 118 12515; CX 12514 118 12516; CX 12515 12514 12517; CA 12515 12516 12518; CX 12514 12518 12519;
  CA 12519 151 12520; CX 12519 151 12521; CX 12521 12520 12522; CX 9 12248 12523; CA 12522 12523 12524; CX 12524 12248 12525; CX 12087 12252 12526; CA 12522 12526 12527].
(** Lines 12405-12804 of the file. *)
Definition udivide64_31 : list cg := [
  CX 12527 12252 12528; CX 12090 12257 12529; CA 12522 12529 12530; CX 12530 12257 12531; CX 12093 12262 12532; CA 12522 12532 12533; CX 12533 12262 12534; CX 12096 12267 12535;
  CA 12522 12535 12536; CX 12536 12267 12537; CX 12099 12272 12538; CA 12522 12538 12539; CX 12539 12272 12540; CX 12102 12277 12541; CA 12522 12541 12542; CX 12542 12277 12543;
  CX 12105 12282 12544; CA 12522 12544 12545; CX 12545 12282 12546; CX 12108 12287 12547; CA 12522 12547 12548; CX 12548 12287 12549; CX 12111 12292 12550; CA 12522 12550 12551;
  CX 12551 12292 12552; CX 12114 12297 12553; CA 12522 12553 12554; CX 12554 12297 12555; CX 12117 12302 12556; CA 12522 12556 12557; CX 12557 12302 12558; CX 12120 12307 12559;
  CA 12522 12559 12560; CX 12560 12307 12561; CX 12123 12312 12562; CA 12522 12562 12563; CX 12563 12312 12564; CX 12126 12317 12565; CA 12522 12565 12566; CX 12566 12317 12567;
  CX 12129 12322 12568; CA 12522 12568 12569; CX 12569 12322 12570; CX 12132 12327 12571; CA 12522 12571 12572; CX 12572 12327 12573; CX 12135 12332 12574; CA 12522 12574 12575;
  CX 12575 12332 12576; CX 12138 12337 12577; CA 12522 12577 12578; CX 12578 12337 12579; CX 12141 12342 12580; CA 12522 12580 12581; CX 12581 12342 12582; CX 12144 12347 12583;
  CA 12522 12583 12584; CX 12584 12347 12585; CX 12147 12352 12586; CA 12522 12586 12587; CX 12587 12352 12588; CX 12150 12357 12589; CA 12522 12589 12590; CX 12590 12357 12591;
  CX 12153 12362 12592; CA 12522 12592 12593; CX 12593 12362 12594; CX 12156 12367 12595; CA 12522 12595 12596; CX 12596 12367 12597; CX 12159 12372 12598; CA 12522 12598 12599;
  CX 12599 12372 12600; CX 12162 12377 12601; CA 12522 12601 12602; CX 12602 12377 12603; CX 12165 12382 12604; CA 12522 12604 12605; CX 12605 12382 12606; CX 12168 12387 12607;
  CA 12522 12607 12608; CX 12608 12387 12609; CX 12171 12392 12610; CA 12522 12610 12611; CX 12611 12392 12612; CX 12174 12397 12613; CA 12522 12613 12614; CX 12614 12397 12615;
  CX 12177 12402 12616; CA 12522 12616 12617; CX 12617 12402 12618; CX 12180 12407 12619; CA 12522 12619 12620; CX 12620 12407 12621; CX 12183 12412 12622; CA 12522 12622 12623;
  CX 12623 12412 12624; CX 12186 12417 12625; CA 12522 12625 12626; CX 12626 12417 12627; CX 12189 12422 12628; CA 12522 12628 12629; CX 12629 12422 12630; CX 12192 12427 12631;
  CA 12522 12631 12632; CX 12632 12427 12633; CX 12195 12432 12634; CA 12522 12634 12635; CX 12635 12432 12636; CX 12198 12437 12637; CA 12522 12637 12638; CX 12638 12437 12639;
  CX 12201 12442 12640; CA 12522 12640 12641; CX 12641 12442 12642; CX 12204 12447 12643; CA 12522 12643 12644; CX 12644 12447 12645; CX 12207 12452 12646; CA 12522 12646 12647;
  CX 12647 12452 12648; CX 12210 12457 12649; CA 12522 12649 12650; CX 12650 12457 12651; CX 12213 12462 12652; CA 12522 12652 12653; CX 12653 12462 12654; CX 12216 12467 12655;
  CA 12522 12655 12656; CX 12656 12467 12657; CX 12219 12472 12658; CA 12522 12658 12659; CX 12659 12472 12660; CX 12222 12477 12661; CA 12522 12661 12662; CX 12662 12477 12663;
  CX 12225 12482 12664; CA 12522 12664 12665; CX 12665 12482 12666; CX 12228 12487 12667; CA 12522 12667 12668; CX 12668 12487 12669; CX 12231 12492 12670; CA 12522 12670 12671;
  CX 12671 12492 12672; CX 12234 12497 12673; CA 12522 12673 12674; CX 12674 12497 12675; CX 12237 12502 12676; CA 12522 12676 12677; CX 12677 12502 12678; CX 12240 12507 12679;
  CA 12522 12679 12680; CX 12680 12507 12681; CX 12243 12512 12682; CA 12522 12682 12683; CX 12683 12512 12684; CX 12246 12517 12685; CA 12522 12685 12686; CX 12686 12517 12687;
  CI 12522 12688; CX 8 64 12689; CA 12689 64 12690; CX 12525 65 12691; CX 12690 65 12692; CX 12691 12690 12693; CA 12691 12692 12694; CX 12690 12694 12695;
  CX 12528 66 12696; CX 12695 66 12697; CX 12696 12695 12698; CA 12696 12697 12699; CX 12695 12699 12700; CX 12531 67 12701; CX 12700 67 12702; CX 12701 12700 12703;
  CA 12701 12702 12704; CX 12700 12704 12705; CX 12534 68 12706; CX 12705 68 12707; CX 12706 12705 12708; CA 12706 12707 12709; CX 12705 12709 12710; CX 12537 69 12711;
  CX 12710 69 12712; CX 12711 12710 12713; CA 12711 12712 12714; CX 12710 12714 12715; CX 12540 70 12716; CX 12715 70 12717; CX 12716 12715 12718; CA 12716 12717 12719;
  CX 12715 12719 12720; CX 12543 71 12721; CX 12720 71 12722; CX 12721 12720 12723; CA 12721 12722 12724; CX 12720 12724 12725; CX 12546 72 12726; CX 12725 72 12727;
  CX 12726 12725 12728; CA 12726 12727 12729; CX 12725 12729 12730; CX 12549 73 12731; CX 12730 73 12732; CX 12731 12730 12733; CA 12731 12732 12734; CX 12730 12734 12735;
  CX 12552 74 12736; CX 12735 74 12737; CX 12736 12735 12738; CA 12736 12737 12739; CX 12735 12739 12740; CX 12555 75 12741; CX 12740 75 12742; CX 12741 12740 12743;
  CA 12741 12742 12744; CX 12740 12744 12745; CX 12558 76 12746; CX 12745 76 12747; CX 12746 12745 12748; CA 12746 12747 12749; CX 12745 12749 12750; CX 12561 77 12751;
  CX 12750 77 12752; CX 12751 12750 12753; CA 12751 12752 12754; CX 12750 12754 12755; CX 12564 78 12756; CX 12755 78 12757; CX 12756 12755 12758; CA 12756 12757 12759;
  CX 12755 12759 12760; CX 12567 79 12761; CX 12760 79 12762; CX 12761 12760 12763; CA 12761 12762 12764; CX 12760 12764 12765; CX 12570 80 12766; CX 12765 80 12767;
  CX 12766 12765 12768; CA 12766 12767 12769; CX 12765 12769 12770; CX 12573 81 12771; CX 12770 81 12772; CX 12771 12770 12773; CA 12771 12772 12774; CX 12770 12774 12775;
  CX 12576 82 12776; CX 12775 82 12777; CX 12776 12775 12778; CA 12776 12777 12779; CX 12775 12779 12780; CX 12579 83 12781; CX 12780 83 12782; CX 12781 12780 12783;
  CA 12781 12782 12784; CX 12780 12784 12785; CX 12582 84 12786; CX 12785 84 12787; CX 12786 12785 12788; CA 12786 12787 12789; CX 12785 12789 12790; CX 12585 85 12791;
  CX 12790 85 12792; CX 12791 12790 12793; CA 12791 12792 12794; CX 12790 12794 12795; CX 12588 86 12796; CX 12795 86 12797; CX 12796 12795 12798; CA 12796 12797 12799;
  CX 12795 12799 12800; CX 12591 87 12801; CX 12800 87 12802; CX 12801 12800 12803; CA 12801 12802 12804; CX 12800 12804 12805; CX 12594 88 12806; CX 12805 88 12807;
  CX 12806 12805 12808; CA 12806 12807 12809; CX 12805 12809 12810; CX 12597 89 12811; CX 12810 89 12812; CX 12811 12810 12813; CA 12811 12812 12814; CX 12810 12814 12815;
  CX 12600 90 12816; CX 12815 90 12817; CX 12816 12815 12818; CA 12816 12817 12819; CX 12815 12819 12820; CX 12603 91 12821; CX 12820 91 12822; CX 12821 12820 12823;
  CA 12821 12822 12824; CX 12820 12824 12825; CX 12606 92 12826; CX 12825 92 12827; CX 12826 12825 12828; CA 12826 12827 12829; CX 12825 12829 12830; CX 12609 93 12831;
  CX 12830 93 12832; CX 12831 12830 12833; CA 12831 12832 12834; CX 12830 12834 12835; CX 12612 94 12836; CX 12835 94 12837; CX 12836 12835 12838; CA 12836 12837 12839;
  CX 12835 12839 12840; CX 12615 95 12841; CX 12840 95 12842; CX 12841 12840 12843; CA 12841 12842 12844; CX 12840 12844 12845; CX 12618 96 12846; CX 12845 96 12847;
  CX 12846 12845 12848; CA 12846 12847 12849; CX 12845 12849 12850; CX 12621 97 12851; CX 12850 97 12852; CX 12851 12850 12853; CA 12851 12852 12854; CX 12850 12854 12855;
  CX 12624 98 12856; CX 12855 98 12857; CX 12856 12855 12858; CA 12856 12857 12859; CX 12855 12859 12860; CX 12627 99 12861; CX 12860 99 12862; CX 12861 12860 12863;
  CA 12861 12862 12864; CX 12860 12864 12865; CX 12630 100 12866; CX 12865 100 12867; CX 12866 12865 12868; CA 12866 12867 12869; CX 12865 12869 12870; CX 12633 101 12871;
  CX 12870 101 12872; CX 12871 12870 12873; CA 12871 12872 12874; CX 12870 12874 12875; CX 12636 102 12876; CX 12875 102 12877; CX 12876 12875 12878; CA 12876 12877 12879;
  CX 12875 12879 12880; CX 12639 103 12881; CX 12880 103 12882; CX 12881 12880 12883; CA 12881 12882 12884; CX 12880 12884 12885; CX 12642 104 12886; CX 12885 104 12887;
  CX 12886 12885 12888; CA 12886 12887 12889; CX 12885 12889 12890; CX 12645 105 12891; CX 12890 105 12892; CX 12891 12890 12893; CA 12891 12892 12894; CX 12890 12894 12895;
  CX 12648 106 12896; CX 12895 106 12897; CX 12896 12895 12898; CA 12896 12897 12899; CX 12895 12899 12900; CX 12651 107 12901; CX 12900 107 12902; CX 12901 12900 12903;
  CA 12901 12902 12904; CX 12900 12904 12905; CX 12654 108 12906; CX 12905 108 12907; CX 12906 12905 12908; CA 12906 12907 12909; CX 12905 12909 12910; CX 12657 109 12911;
  CX 12910 109 12912; CX 12911 12910 12913; CA 12911 12912 12914; CX 12910 12914 12915; CX 12660 110 12916; CX 12915 110 12917; CX 12916 12915 12918; CA 12916 12917 12919;
  CX 12915 12919 12920; CX 12663 111 12921; CX 12920 111 12922; CX 12921 12920 12923; CA 12921 12922 12924; CX 12920 12924 12925; CX 12666 112 12926; CX 12925 112 12927].
(** Lines 12805-13204 of the file. *)
Definition udivide64_32 : list cg := [
  CX 12926 12925 12928; CA 12926 12927 12929; CX 12925 12929 12930; CX 12669 113 12931; CX 12930 113 12932; CX 12931 12930 12933; CA 12931 12932 12934; CX 12930 12934 12935;
  CX 12672 114 12936; CX 12935 114 12937; CX 12936 12935 12938; CA 12936 12937 12939; CX 12935 12939 12940; CX 12675 115 12941; CX 12940 115 12942; CX 12941 12940 12943;
  CA 12941 12942 12944; CX 12940 12944 12945; CX 12678 116 12946; CX 12945 116 12947; CX 12946 12945 12948; CA 12946 12947 12949; CX 12945 12949 12950; CX 12681 117 12951;
  CX 12950 117 12952; CX 12951 12950 12953; CA 12951 12952 12954; CX 12950 12954 12955; CX 12684 118 12956; CX 12955 118 12957; CX 12956 12955 12958; CA 12956 12957 12959;
  CX 12955 12959 12960; CX 12687 119 12961; CX 12960 119 12962; CX 12961 12960 12963; CA 12961 12962 12964; CX 12960 12964 12965; CA 12965 148 12966; CX 12965 148 12967;
  CX 12967 12966 12968; CX 8 12689 12969; CA 12968 12969 12970; CX 12970 12689 12971; CX 12525 12693 12972; CA 12968 12972 12973; CX 12973 12693 12974; CX 12528 12698 12975;
  CA 12968 12975 12976; CX 12976 12698 12977; CX 12531 12703 12978; CA 12968 12978 12979; CX 12979 12703 12980; CX 12534 12708 12981; CA 12968 12981 12982; CX 12982 12708 12983;
  CX 12537 12713 12984; CA 12968 12984 12985; CX 12985 12713 12986; CX 12540 12718 12987; CA 12968 12987 12988; CX 12988 12718 12989; CX 12543 12723 12990; CA 12968 12990 12991;
  CX 12991 12723 12992; CX 12546 12728 12993; CA 12968 12993 12994; CX 12994 12728 12995; CX 12549 12733 12996; CA 12968 12996 12997; CX 12997 12733 12998; CX 12552 12738 12999;
  CA 12968 12999 13000; CX 13000 12738 13001; CX 12555 12743 13002; CA 12968 13002 13003; CX 13003 12743 13004; CX 12558 12748 13005; CA 12968 13005 13006; CX 13006 12748 13007;
  CX 12561 12753 13008; CA 12968 13008 13009; CX 13009 12753 13010; CX 12564 12758 13011; CA 12968 13011 13012; CX 13012 12758 13013; CX 12567 12763 13014; CA 12968 13014 13015;
  CX 13015 12763 13016; CX 12570 12768 13017; CA 12968 13017 13018; CX 13018 12768 13019; CX 12573 12773 13020; CA 12968 13020 13021; CX 13021 12773 13022; CX 12576 12778 13023;
  CA 12968 13023 13024; CX 13024 12778 13025; CX 12579 12783 13026; CA 12968 13026 13027; CX 13027 12783 13028; CX 12582 12788 13029; CA 12968 13029 13030; CX 13030 12788 13031;
  CX 12585 12793 13032; CA 12968 13032 13033; CX 13033 12793 13034; CX 12588 12798 13035; CA 12968 13035 13036; CX 13036 12798 13037; CX 12591 12803 13038; CA 12968 13038 13039;
  CX 13039 12803 13040; CX 12594 12808 13041; CA 12968 13041 13042; CX 13042 12808 13043; CX 12597 12813 13044; CA 12968 13044 13045; CX 13045 12813 13046; CX 12600 12818 13047;
  CA 12968 13047 13048; CX 13048 12818 13049; CX 12603 12823 13050; CA 12968 13050 13051; CX 13051 12823 13052; CX 12606 12828 13053; CA 12968 13053 13054; CX 13054 12828 13055;
  CX 12609 12833 13056; CA 12968 13056 13057; CX 13057 12833 13058; CX 12612 12838 13059; CA 12968 13059 13060; CX 13060 12838 13061; CX 12615 12843 13062; CA 12968 13062 13063;
  CX 13063 12843 13064; CX 12618 12848 13065; CA 12968 13065 13066; CX 13066 12848 13067; CX 12621 12853 13068; CA 12968 13068 13069; CX 13069 12853 13070; CX 12624 12858 13071;
  CA 12968 13071 13072; CX 13072 12858 13073; CX 12627 12863 13074; CA 12968 13074 13075; CX 13075 12863 13076; CX 12630 12868 13077; CA 12968 13077 13078; CX 13078 12868 13079;
  CX 12633 12873 13080; CA 12968 13080 13081; CX 13081 12873 13082; CX 12636 12878 13083; CA 12968 13083 13084; CX 13084 12878 13085; CX 12639 12883 13086; CA 12968 13086 13087;
  CX 13087 12883 13088; CX 12642 12888 13089; CA 12968 13089 13090; CX 13090 12888 13091; CX 12645 12893 13092; CA 12968 13092 13093; CX 13093 12893 13094; CX 12648 12898 13095;
  CA 12968 13095 13096; CX 13096 12898 13097; CX 12651 12903 13098; CA 12968 13098 13099; CX 13099 12903 13100; CX 12654 12908 13101; CA 12968 13101 13102; CX 13102 12908 13103;
  CX 12657 12913 13104; CA 12968 13104 13105; CX 13105 12913 13106; CX 12660 12918 13107; CA 12968 13107 13108; CX 13108 12918 13109; CX 12663 12923 13110; CA 12968 13110 13111;
  CX 13111 12923 13112; CX 12666 12928 13113; CA 12968 13113 13114; CX 13114 12928 13115; CX 12669 12933 13116; CA 12968 13116 13117; CX 13117 12933 13118; CX 12672 12938 13119;
  CA 12968 13119 13120; CX 13120 12938 13121; CX 12675 12943 13122; CA 12968 13122 13123; CX 13123 12943 13124; CX 12678 12948 13125; CA 12968 13125 13126; CX 13126 12948 13127;
  CX 12681 12953 13128; CA 12968 13128 13129; CX 13129 12953 13130; CX 12684 12958 13131; CA 12968 13131 13132; CX 13132 12958 13133; CX 12687 12963 13134; CA 12968 13134 13135;
  CX 13135 12963 13136; CI 12968 13137; CX 7 64 13138; CA 13138 64 13139; CX 12971 65 13140; CX 13139 65 13141; CX 13140 13139 13142; CA 13140 13141 13143;
  CX 13139 13143 13144; CX 12974 66 13145; CX 13144 66 13146; CX 13145 13144 13147; CA 13145 13146 13148; CX 13144 13148 13149; CX 12977 67 13150; CX 13149 67 13151;
  CX 13150 13149 13152; CA 13150 13151 13153; CX 13149 13153 13154; CX 12980 68 13155; CX 13154 68 13156; CX 13155 13154 13157; CA 13155 13156 13158; CX 13154 13158 13159;
  CX 12983 69 13160; CX 13159 69 13161; CX 13160 13159 13162; CA 13160 13161 13163; CX 13159 13163 13164; CX 12986 70 13165; CX 13164 70 13166; CX 13165 13164 13167;
  CA 13165 13166 13168; CX 13164 13168 13169; CX 12989 71 13170; CX 13169 71 13171; CX 13170 13169 13172; CA 13170 13171 13173; CX 13169 13173 13174; CX 12992 72 13175;
  CX 13174 72 13176; CX 13175 13174 13177; CA 13175 13176 13178; CX 13174 13178 13179; CX 12995 73 13180; CX 13179 73 13181; CX 13180 13179 13182; CA 13180 13181 13183;
  CX 13179 13183 13184; CX 12998 74 13185; CX 13184 74 13186; CX 13185 13184 13187; CA 13185 13186 13188; CX 13184 13188 13189; CX 13001 75 13190; CX 13189 75 13191;
  CX 13190 13189 13192; CA 13190 13191 13193; CX 13189 13193 13194; CX 13004 76 13195; CX 13194 76 13196; CX 13195 13194 13197; CA 13195 13196 13198; CX 13194 13198 13199;
  CX 13007 77 13200; CX 13199 77 13201; CX 13200 13199 13202; CA 13200 13201 13203; CX 13199 13203 13204; CX 13010 78 13205; CX 13204 78 13206; CX 13205 13204 13207;
  CA 13205 13206 13208; CX 13204 13208 13209; CX 13013 79 13210; CX 13209 79 13211; CX 13210 13209 13212; CA 13210 13211 13213; CX 13209 13213 13214; CX 13016 80 13215;
  CX 13214 80 13216; CX 13215 13214 13217; CA 13215 13216 13218; CX 13214 13218 13219; CX 13019 81 13220; CX 13219 81 13221; CX 13220 13219 13222; CA 13220 13221 13223;
  CX 13219 13223 13224; CX 13022 82 13225; CX 13224 82 13226; CX 13225 13224 13227; CA 13225 13226 13228; CX 13224 13228 13229; CX 13025 83 13230; CX 13229 83 13231;
  CX 13230 13229 13232; CA 13230 13231 13233; CX 13229 13233 13234; CX 13028 84 13235; CX 13234 84 13236; CX 13235 13234 13237; CA 13235 13236 13238; CX 13234 13238 13239;
  CX 13031 85 13240; CX 13239 85 13241; CX 13240 13239 13242; CA 13240 13241 13243; CX 13239 13243 13244; CX 13034 86 13245; CX 13244 86 13246; CX 13245 13244 13247;
  CA 13245 13246 13248; CX 13244 13248 13249; CX 13037 87 13250; CX 13249 87 13251; CX 13250 13249 13252; CA 13250 13251 13253; CX 13249 13253 13254; CX 13040 88 13255;
  CX 13254 88 13256; CX 13255 13254 13257; CA 13255 13256 13258; CX 13254 13258 13259; CX 13043 89 13260; CX 13259 89 13261; CX 13260 13259 13262; CA 13260 13261 13263;
  CX 13259 13263 13264; CX 13046 90 13265; CX 13264 90 13266; CX 13265 13264 13267; CA 13265 13266 13268; CX 13264 13268 13269; CX 13049 91 13270; CX 13269 91 13271;
  CX 13270 13269 13272; CA 13270 13271 13273; CX 13269 13273 13274; CX 13052 92 13275; CX 13274 92 13276; CX 13275 13274 13277; CA 13275 13276 13278; CX 13274 13278 13279;
  CX 13055 93 13280; CX 13279 93 13281; CX 13280 13279 13282; CA 13280 13281 13283; CX 13279 13283 13284; CX 13058 94 13285; CX 13284 94 13286; CX 13285 13284 13287;
  CA 13285 13286 13288; CX 13284 13288 13289; CX 13061 95 13290; CX 13289 95 13291; CX 13290 13289 13292; CA 13290 13291 13293; CX 13289 13293 13294; CX 13064 96 13295;
  CX 13294 96 13296; CX 13295 13294 13297; CA 13295 13296 13298; CX 13294 13298 13299; CX 13067 97 13300; CX 13299 97 13301; CX 13300 13299 13302; CA 13300 13301 13303;
  CX 13299 13303 13304; CX 13070 98 13305; CX 13304 98 13306; CX 13305 13304 13307; CA 13305 13306 13308; CX 13304 13308 13309; CX 13073 99 13310; CX 13309 99 13311;
  CX 13310 13309 13312; CA 13310 13311 13313; CX 13309 13313 13314; CX 13076 100 13315; CX 13314 100 13316; CX 13315 13314 13317; CA 13315 13316 13318; CX 13314 13318 13319;
  CX 13079 101 13320; CX 13319 101 13321; CX 13320 13319 13322; CA 13320 13321 13323; CX 13319 13323 13324; CX 13082 102 13325; CX 13324 102 13326; CX 13325 13324 13327].
(** Lines 13205-13604 of the file. *)
Definition udivide64_33 : list cg := [
  CA 13325 13326 13328; CX 13324 13328 13329; CX 13085 103 13330; CX 13329 103 13331; CX 13330 13329 13332; CA 13330 13331 13333; CX 13329 13333 13334; CX 13088 104 13335;
  CX 13334 104 13336; CX 13335 13334 13337; CA 13335 13336 13338; CX 13334 13338 13339; CX 13091 105 13340; CX 13339 105 13341; CX 13340 13339 13342; CA 13340 13341 13343;
  CX 13339 13343 13344; CX 13094 106 13345; CX 13344 106 13346; CX 13345 13344 13347; CA 13345 13346 13348; CX 13344 13348 13349; CX 13097 107 13350; CX 13349 107 13351;
  CX 13350 13349 13352; CA 13350 13351 13353; CX 13349 13353 13354; CX 13100 108 13355; CX 13354 108 13356; CX 13355 13354 13357; CA 13355 13356 13358; CX 13354 13358 13359;
  CX 13103 109 13360; CX 13359 109 13361; CX 13360 13359 13362; CA 13360 13361 13363; CX 13359 13363 13364; CX 13106 110 13365; CX 13364 110 13366; CX 13365 13364 13367;
  CA 13365 13366 13368; CX 13364 13368 13369; CX 13109 111 13370; CX 13369 111 13371; CX 13370 13369 13372; CA 13370 13371 13373; CX 13369 13373 13374; CX 13112 112 13375;
  CX 13374 112 13376; CX 13375 13374 13377; CA 13375 13376 13378; CX 13374 13378 13379; CX 13115 113 13380; CX 13379 113 13381; CX 13380 13379 13382; CA 13380 13381 13383;
  CX 13379 13383 13384; CX 13118 114 13385; CX 13384 114 13386; CX 13385 13384 13387; CA 13385 13386 13388; CX 13384 13388 13389; CX 13121 115 13390; CX 13389 115 13391;
  CX 13390 13389 13392; CA 13390 13391 13393; CX 13389 13393 13394; CX 13124 116 13395; CX 13394 116 13396; CX 13395 13394 13397; CA 13395 13396 13398; CX 13394 13398 13399;
  CX 13127 117 13400; CX 13399 117 13401; CX 13400 13399 13402; CA 13400 13401 13403; CX 13399 13403 13404; CX 13130 118 13405; CX 13404 118 13406; CX 13405 13404 13407;
  CA 13405 13406 13408; CX 13404 13408 13409; CX 13133 119 13410; CX 13409 119 13411; CX 13410 13409 13412; CA 13410 13411 13413; CX 13409 13413 13414; CX 13136 120 13415;
  CX 13414 120 13416; CX 13415 13414 13417; CA 13415 13416 13418; CX 13414 13418 13419; CA 13419 145 13420; CX 13419 145 13421; CX 13421 13420 13422; CX 7 13138 13423;
  CA 13422 13423 13424; CX 13424 13138 13425; CX 12971 13142 13426; CA 13422 13426 13427; CX 13427 13142 13428; CX 12974 13147 13429; CA 13422 13429 13430; CX 13430 13147 13431;
  CX 12977 13152 13432; CA 13422 13432 13433; CX 13433 13152 13434; CX 12980 13157 13435; CA 13422 13435 13436; CX 13436 13157 13437; CX 12983 13162 13438; CA 13422 13438 13439;
  CX 13439 13162 13440; CX 12986 13167 13441; CA 13422 13441 13442; CX 13442 13167 13443; CX 12989 13172 13444; CA 13422 13444 13445; CX 13445 13172 13446; CX 12992 13177 13447;
  CA 13422 13447 13448; CX 13448 13177 13449; CX 12995 13182 13450; CA 13422 13450 13451; CX 13451 13182 13452; CX 12998 13187 13453; CA 13422 13453 13454; CX 13454 13187 13455;
  CX 13001 13192 13456; CA 13422 13456 13457; CX 13457 13192 13458; CX 13004 13197 13459; CA 13422 13459 13460; CX 13460 13197 13461; CX 13007 13202 13462; CA 13422 13462 13463;
  CX 13463 13202 13464; CX 13010 13207 13465; CA 13422 13465 13466; CX 13466 13207 13467; CX 13013 13212 13468; CA 13422 13468 13469; CX 13469 13212 13470; CX 13016 13217 13471;
  CA 13422 13471 13472; CX 13472 13217 13473; CX 13019 13222 13474; CA 13422 13474 13475; CX 13475 13222 13476; CX 13022 13227 13477; CA 13422 13477 13478; CX 13478 13227 13479;
  CX 13025 13232 13480; CA 13422 13480 13481; CX 13481 13232 13482; CX 13028 13237 13483; CA 13422 13483 13484; CX 13484 13237 13485; CX 13031 13242 13486; CA 13422 13486 13487;
  CX 13487 13242 13488; CX 13034 13247 13489; CA 13422 13489 13490; CX 13490 13247 13491; CX 13037 13252 13492; CA 13422 13492 13493; CX 13493 13252 13494; CX 13040 13257 13495;
  CA 13422 13495 13496; CX 13496 13257 13497; CX 13043 13262 13498; CA 13422 13498 13499; CX 13499 13262 13500; CX 13046 13267 13501; CA 13422 13501 13502; CX 13502 13267 13503;
  CX 13049 13272 13504; CA 13422 13504 13505; CX 13505 13272 13506; CX 13052 13277 13507; CA 13422 13507 13508; CX 13508 13277 13509; CX 13055 13282 13510; CA 13422 13510 13511;
  CX 13511 13282 13512; CX 13058 13287 13513; CA 13422 13513 13514; CX 13514 13287 13515; CX 13061 13292 13516; CA 13422 13516 13517; CX 13517 13292 13518; CX 13064 13297 13519;
  CA 13422 13519 13520; CX 13520 13297 13521; CX 13067 13302 13522; CA 13422 13522 13523; CX 13523 13302 13524; CX 13070 13307 13525; CA 13422 13525 13526; CX 13526 13307 13527;
  CX 13073 13312 13528; CA 13422 13528 13529; CX 13529 13312 13530; CX 13076 13317 13531; CA 13422 13531 13532; CX 13532 13317 13533; CX 13079 13322 13534; CA 13422 13534 13535;
  CX 13535 13322 13536; CX 13082 13327 13537; CA 13422 13537 13538; CX 13538 13327 13539; CX 13085 13332 13540; CA 13422 13540 13541; CX 13541 13332 13542; CX 13088 13337 13543;
  CA 13422 13543 13544; CX 13544 13337 13545; CX 13091 13342 13546; CA 13422 13546 13547; CX 13547 13342 13548; CX 13094 13347 13549; CA 13422 13549 13550; CX 13550 13347 13551;
  CX 13097 13352 13552; CA 13422 13552 13553; CX 13553 13352 13554; CX 13100 13357 13555; CA 13422 13555 13556; CX 13556 13357 13557; CX 13103 13362 13558; CA 13422 13558 13559;
  CX 13559 13362 13560; CX 13106 13367 13561; CA 13422 13561 13562; CX 13562 13367 13563; CX 13109 13372 13564; CA 13422 13564 13565; CX 13565 13372 13566; CX 13112 13377 13567;
  CA 13422 13567 13568; CX 13568 13377 13569; CX 13115 13382 13570; CA 13422 13570 13571; CX 13571 13382 13572; CX 13118 13387 13573; CA 13422 13573 13574; CX 13574 13387 13575;
  CX 13121 13392 13576; CA 13422 13576 13577; CX 13577 13392 13578; CX 13124 13397 13579; CA 13422 13579 13580; CX 13580 13397 13581; CX 13127 13402 13582; CA 13422 13582 13583;
  CX 13583 13402 13584; CX 13130 13407 13585; CA 13422 13585 13586; CX 13586 13407 13587; CX 13133 13412 13588; CA 13422 13588 13589; CX 13589 13412 13590; CX 13136 13417 13591;
  CA 13422 13591 13592; CX 13592 13417 13593; CI 13422 13594; CX 6 64 13595; CA 13595 64 13596; CX 13425 65 13597; CX 13596 65 13598; CX 13597 13596 13599;
  CA 13597 13598 13600; CX 13596 13600 13601; CX 13428 66 13602; CX 13601 66 13603; CX 13602 13601 13604; CA 13602 13603 13605; CX 13601 13605 13606; CX 13431 67 13607;
  CX 13606 67 13608; CX 13607 13606 13609; CA 13607 13608 13610; CX 13606 13610 13611; CX 13434 68 13612; CX 13611 68 13613; CX 13612 13611 13614; CA 13612 13613 13615;
  CX 13611 13615 13616; CX 13437 69 13617; CX 13616 69 13618; CX 13617 13616 13619; CA 13617 13618 13620; CX 13616 13620 13621; CX 13440 70 13622; CX 13621 70 13623;
  CX 13622 13621 13624; CA 13622 13623 13625; CX 13621 13625 13626; CX 13443 71 13627; CX 13626 71 13628; CX 13627 13626 13629; CA 13627 13628 13630; CX 13626 13630 13631;
  CX 13446 72 13632; CX 13631 72 13633; CX 13632 13631 13634; CA 13632 13633 13635; CX 13631 13635 13636; CX 13449 73 13637; CX 13636 73 13638; CX 13637 13636 13639;
  CA 13637 13638 13640; CX 13636 13640 13641; CX 13452 74 13642; CX 13641 74 13643; CX 13642 13641 13644; CA 13642 13643 13645; CX 13641 13645 13646; CX 13455 75 13647;
  CX 13646 75 13648; CX 13647 13646 13649; CA 13647 13648 13650; CX 13646 13650 13651; CX 13458 76 13652; CX 13651 76 13653; CX 13652 13651 13654; CA 13652 13653 13655;
  CX 13651 13655 13656; CX 13461 77 13657; CX 13656 77 13658; CX 13657 13656 13659; CA 13657 13658 13660; CX 13656 13660 13661; CX 13464 78 13662; CX 13661 78 13663;
  CX 13662 13661 13664; CA 13662 13663 13665; CX 13661 13665 13666; CX 13467 79 13667; CX 13666 79 13668; CX 13667 13666 13669; CA 13667 13668 13670; CX 13666 13670 13671;
  CX 13470 80 13672; CX 13671 80 13673; CX 13672 13671 13674; CA 13672 13673 13675; CX 13671 13675 13676; CX 13473 81 13677; CX 13676 81 13678; CX 13677 13676 13679;
  CA 13677 13678 13680; CX 13676 13680 13681; CX 13476 82 13682; CX 13681 82 13683; CX 13682 13681 13684; CA 13682 13683 13685; CX 13681 13685 13686; CX 13479 83 13687;
  CX 13686 83 13688; CX 13687 13686 13689; CA 13687 13688 13690; CX 13686 13690 13691; CX 13482 84 13692; CX 13691 84 13693; CX 13692 13691 13694; CA 13692 13693 13695;
  CX 13691 13695 13696; CX 13485 85 13697; CX 13696 85 13698; CX 13697 13696 13699; CA 13697 13698 13700; CX 13696 13700 13701; CX 13488 86 13702; CX 13701 86 13703;
  CX 13702 13701 13704; CA 13702 13703 13705; CX 13701 13705 13706; CX 13491 87 13707; CX 13706 87 13708; CX 13707 13706 13709; CA 13707 13708 13710; CX 13706 13710 13711;
  CX 13494 88 13712; CX 13711 88 13713; CX 13712 13711 13714; CA 13712 13713 13715; CX 13711 13715 13716; CX 13497 89 13717; CX 13716 89 13718; CX 13717 13716 13719;
  CA 13717 13718 13720; CX 13716 13720 13721; CX 13500 90 13722; CX 13721 90 13723; CX 13722 13721 13724; CA 13722 13723 13725; CX 13721 13725 13726; CX 13503 91 13727].
(** Lines 13605-14004 of the file. *)
Definition udivide64_34 : list cg := [
  CX 13726 91 13728; CX 13727 13726 13729; CA 13727 13728 13730; CX 13726 13730 13731; CX 13506 92 13732; CX 13731 92 13733; CX 13732 13731 13734; CA 13732 13733 13735;
  CX 13731 13735 13736; CX 13509 93 13737; CX 13736 93 13738; CX 13737 13736 13739; CA 13737 13738 13740; CX 13736 13740 13741; CX 13512 94 13742; CX 13741 94 13743;
  CX 13742 13741 13744; CA 13742 13743 13745; CX 13741 13745 13746; CX 13515 95 13747; CX 13746 95 13748; CX 13747 13746 13749; CA 13747 13748 13750; CX 13746 13750 13751;
  CX 13518 96 13752; CX 13751 96 13753; CX 13752 13751 13754; CA 13752 13753 13755; CX 13751 13755 13756; CX 13521 97 13757; CX 13756 97 13758; CX 13757 13756 13759;
  CA 13757 13758 13760; CX 13756 13760 13761; CX 13524 98 13762; CX 13761 98 13763; CX 13762 13761 13764; CA 13762 13763 13765; CX 13761 13765 13766; CX 13527 99 13767;
  CX 13766 99 13768; CX 13767 13766 13769; CA 13767 13768 13770; CX 13766 13770 13771; CX 13530 100 13772; CX 13771 100 13773; CX 13772 13771 13774; CA 13772 13773 13775;
  CX 13771 13775 13776; CX 13533 101 13777; CX 13776 101 13778; CX 13777 13776 13779; CA 13777 13778 13780; CX 13776 13780 13781; CX 13536 102 13782; CX 13781 102 13783;
  CX 13782 13781 13784; CA 13782 13783 13785; CX 13781 13785 13786; CX 13539 103 13787; CX 13786 103 13788; CX 13787 13786 13789; CA 13787 13788 13790; CX 13786 13790 13791;
  CX 13542 104 13792; CX 13791 104 13793; CX 13792 13791 13794; CA 13792 13793 13795; CX 13791 13795 13796; CX 13545 105 13797; CX 13796 105 13798; CX 13797 13796 13799;
  CA 13797 13798 13800; CX 13796 13800 13801; CX 13548 106 13802; CX 13801 106 13803; CX 13802 13801 13804; CA 13802 13803 13805; CX 13801 13805 13806; CX 13551 107 13807;
  CX 13806 107 13808; CX 13807 13806 13809; CA 13807 13808 13810; CX 13806 13810 13811; CX 13554 108 13812; CX 13811 108 13813; CX 13812 13811 13814; CA 13812 13813 13815;
  CX 13811 13815 13816; CX 13557 109 13817; CX 13816 109 13818; CX 13817 13816 13819; CA 13817 13818 13820; CX 13816 13820 13821; CX 13560 110 13822; CX 13821 110 13823;
  CX 13822 13821 13824; CA 13822 13823 13825; CX 13821 13825 13826; CX 13563 111 13827; CX 13826 111 13828; CX 13827 13826 13829; CA 13827 13828 13830; CX 13826 13830 13831;
  CX 13566 112 13832; CX 13831 112 13833; CX 13832 13831 13834; CA 13832 13833 13835; CX 13831 13835 13836; CX 13569 113 13837; CX 13836 113 13838; CX 13837 13836 13839;
  CA 13837 13838 13840; CX 13836 13840 13841; CX 13572 114 13842; CX 13841 114 13843; CX 13842 13841 13844; CA 13842 13843 13845; CX 13841 13845 13846; CX 13575 115 13847;
  CX 13846 115 13848; CX 13847 13846 13849; CA 13847 13848 13850; CX 13846 13850 13851; CX 13578 116 13852; CX 13851 116 13853; CX 13852 13851 13854; CA 13852 13853 13855;
  CX 13851 13855 13856; CX 13581 117 13857; CX 13856 117 13858; CX 13857 13856 13859; CA 13857 13858 13860; CX 13856 13860 13861; CX 13584 118 13862; CX 13861 118 13863;
  CX 13862 13861 13864; CA 13862 13863 13865; CX 13861 13865 13866; CX 13587 119 13867; CX 13866 119 13868; CX 13867 13866 13869; CA 13867 13868 13870; CX 13866 13870 13871;
  CX 13590 120 13872; CX 13871 120 13873; CX 13872 13871 13874; CA 13872 13873 13875; CX 13871 13875 13876; CX 13593 121 13877; CX 13876 121 13878; CX 13877 13876 13879;
  CA 13877 13878 13880; CX 13876 13880 13881; CA 13881 142 13882; CX 13881 142 13883; CX 13883 13882 13884; CX 6 13595 13885; CA 13884 13885 13886; CX 13886 13595 13887;
  CX 13425 13599 13888; CA 13884 13888 13889; CX 13889 13599 13890; CX 13428 13604 13891; CA 13884 13891 13892; CX 13892 13604 13893; CX 13431 13609 13894; CA 13884 13894 13895;
  CX 13895 13609 13896; CX 13434 13614 13897; CA 13884 13897 13898; CX 13898 13614 13899; CX 13437 13619 13900; CA 13884 13900 13901; CX 13901 13619 13902; CX 13440 13624 13903;
  CA 13884 13903 13904; CX 13904 13624 13905; CX 13443 13629 13906; CA 13884 13906 13907; CX 13907 13629 13908; CX 13446 13634 13909; CA 13884 13909 13910; CX 13910 13634 13911;
  CX 13449 13639 13912; CA 13884 13912 13913; CX 13913 13639 13914; CX 13452 13644 13915; CA 13884 13915 13916; CX 13916 13644 13917; CX 13455 13649 13918; CA 13884 13918 13919;
  CX 13919 13649 13920; CX 13458 13654 13921; CA 13884 13921 13922; CX 13922 13654 13923; CX 13461 13659 13924; CA 13884 13924 13925; CX 13925 13659 13926; CX 13464 13664 13927;
  CA 13884 13927 13928; CX 13928 13664 13929; CX 13467 13669 13930; CA 13884 13930 13931; CX 13931 13669 13932; CX 13470 13674 13933; CA 13884 13933 13934; CX 13934 13674 13935;
  CX 13473 13679 13936; CA 13884 13936 13937; CX 13937 13679 13938; CX 13476 13684 13939; CA 13884 13939 13940; CX 13940 13684 13941; CX 13479 13689 13942; CA 13884 13942 13943;
  CX 13943 13689 13944; CX 13482 13694 13945; CA 13884 13945 13946; CX 13946 13694 13947; CX 13485 13699 13948; CA 13884 13948 13949; CX 13949 13699 13950; CX 13488 13704 13951;
  CA 13884 13951 13952; CX 13952 13704 13953; CX 13491 13709 13954; CA 13884 13954 13955; CX 13955 13709 13956; CX 13494 13714 13957; CA 13884 13957 13958; CX 13958 13714 13959;
  CX 13497 13719 13960; CA 13884 13960 13961; CX 13961 13719 13962; CX 13500 13724 13963; CA 13884 13963 13964; CX 13964 13724 13965; CX 13503 13729 13966; CA 13884 13966 13967;
  CX 13967 13729 13968; CX 13506 13734 13969; CA 13884 13969 13970; CX 13970 13734 13971; CX 13509 13739 13972; CA 13884 13972 13973; CX 13973 13739 13974; CX 13512 13744 13975;
  CA 13884 13975 13976; CX 13976 13744 13977; CX 13515 13749 13978; CA 13884 13978 13979; CX 13979 13749 13980; CX 13518 13754 13981; CA 13884 13981 13982; CX 13982 13754 13983;
  CX 13521 13759 13984; CA 13884 13984 13985; CX 13985 13759 13986; CX 13524 13764 13987; CA 13884 13987 13988; CX 13988 13764 13989; CX 13527 13769 13990; CA 13884 13990 13991;
  CX 13991 13769 13992; CX 13530 13774 13993; CA 13884 13993 13994; CX 13994 13774 13995; CX 13533 13779 13996; CA 13884 13996 13997; CX 13997 13779 13998; CX 13536 13784 13999;
  CA 13884 13999 14000; CX 14000 13784 14001; CX 13539 13789 14002; CA 13884 14002 14003; CX 14003 13789 14004; CX 13542 13794 14005; CA 13884 14005 14006; CX 14006 13794 14007;
  CX 13545 13799 14008; CA 13884 14008 14009; CX 14009 13799 14010; CX 13548 13804 14011; CA 13884 14011 14012; CX 14012 13804 14013; CX 13551 13809 14014; CA 13884 14014 14015;
  CX 14015 13809 14016; CX 13554 13814 14017; CA 13884 14017 14018; CX 14018 13814 14019; CX 13557 13819 14020; CA 13884 14020 14021; CX 14021 13819 14022; CX 13560 13824 14023;
  CA 13884 14023 14024; CX 14024 13824 14025; CX 13563 13829 14026; CA 13884 14026 14027; CX 14027 13829 14028; CX 13566 13834 14029; CA 13884 14029 14030; CX 14030 13834 14031;
  CX 13569 13839 14032; CA 13884 14032 14033; CX 14033 13839 14034; CX 13572 13844 14035; CA 13884 14035 14036; CX 14036 13844 14037; CX 13575 13849 14038; CA 13884 14038 14039;
  CX 14039 13849 14040; CX 13578 13854 14041; CA 13884 14041 14042; CX 14042 13854 14043; CX 13581 13859 14044; CA 13884 14044 14045; CX 14045 13859 14046; CX 13584 13864 14047;
  CA 13884 14047 14048; CX 14048 13864 14049; CX 13587 13869 14050; CA 13884 14050 14051; CX 14051 13869 14052; CX 13590 13874 14053; CA 13884 14053 14054; CX 14054 13874 14055;
  CX 13593 13879 14056; CA 13884 14056 14057; CX 14057 13879 14058; CI 13884 14059; CX 5 64 14060; CA 14060 64 14061; CX 13887 65 14062; CX 14061 65 14063;
  CX 14062 14061 14064; CA 14062 14063 14065; CX 14061 14065 14066; CX 13890 66 14067; CX 14066 66 14068; CX 14067 14066 14069; CA 14067 14068 14070; CX 14066 14070 14071;
  CX 13893 67 14072; CX 14071 67 14073; CX 14072 14071 14074; CA 14072 14073 14075; CX 14071 14075 14076; CX 13896 68 14077; CX 14076 68 14078; CX 14077 14076 14079;
  CA 14077 14078 14080; CX 14076 14080 14081; CX 13899 69 14082; CX 14081 69 14083; CX 14082 14081 14084; CA 14082 14083 14085; CX 14081 14085 14086; CX 13902 70 14087;
  CX 14086 70 14088; CX 14087 14086 14089; CA 14087 14088 14090; CX 14086 14090 14091; CX 13905 71 14092; CX 14091 71 14093; CX 14092 14091 14094; CA 14092 14093 14095;
  CX 14091 14095 14096; CX 13908 72 14097; CX 14096 72 14098; CX 14097 14096 14099; CA 14097 14098 14100; CX 14096 14100 14101; CX 13911 73 14102; CX 14101 73 14103;
  CX 14102 14101 14104; CA 14102 14103 14105; CX 14101 14105 14106; CX 13914 74 14107; CX 14106 74 14108; CX 14107 14106 14109; CA 14107 14108 14110; CX 14106 14110 14111;
  CX 13917 75 14112; CX 14111 75 14113; CX 14112 14111 14114; CA 14112 14113 14115; CX 14111 14115 14116; CX 13920 76 14117; CX 14116 76 14118; CX 14117 14116 14119;
  CA 14117 14118 14120; CX 14116 14120 14121; CX 13923 77 14122; CX 14121 77 14123; CX 14122 14121 14124; CA 14122 14123 14125; CX 14121 14125 14126; CX 13926 78 14127].
(** Lines 14005-14404 of the file. *)
Definition udivide64_35 : list cg := [
  CX 14126 78 14128; CX 14127 14126 14129; CA 14127 14128 14130; CX 14126 14130 14131; CX 13929 79 14132; CX 14131 79 14133; CX 14132 14131 14134; CA 14132 14133 14135;
  CX 14131 14135 14136; CX 13932 80 14137; CX 14136 80 14138; CX 14137 14136 14139; CA 14137 14138 14140; CX 14136 14140 14141; CX 13935 81 14142; CX 14141 81 14143;
  CX 14142 14141 14144; CA 14142 14143 14145; CX 14141 14145 14146; CX 13938 82 14147; CX 14146 82 14148; CX 14147 14146 14149; CA 14147 14148 14150; CX 14146 14150 14151;
  CX 13941 83 14152; CX 14151 83 14153; CX 14152 14151 14154; CA 14152 14153 14155; CX 14151 14155 14156; CX 13944 84 14157; CX 14156 84 14158; CX 14157 14156 14159;
  CA 14157 14158 14160; CX 14156 14160 14161; CX 13947 85 14162; CX 14161 85 14163; CX 14162 14161 14164; CA 14162 14163 14165; CX 14161 14165 14166; CX 13950 86 14167;
  CX 14166 86 14168; CX 14167 14166 14169; CA 14167 14168 14170; CX 14166 14170 14171; CX 13953 87 14172; CX 14171 87 14173; CX 14172 14171 14174; CA 14172 14173 14175;
  CX 14171 14175 14176; CX 13956 88 14177; CX 14176 88 14178; CX 14177 14176 14179; CA 14177 14178 14180; CX 14176 14180 14181; CX 13959 89 14182; CX 14181 89 14183;
  CX 14182 14181 14184; CA 14182 14183 14185; CX 14181 14185 14186; CX 13962 90 14187; CX 14186 90 14188; CX 14187 14186 14189; CA 14187 14188 14190; CX 14186 14190 14191;
  CX 13965 91 14192; CX 14191 91 14193; CX 14192 14191 14194; CA 14192 14193 14195; CX 14191 14195 14196; CX 13968 92 14197; CX 14196 92 14198; CX 14197 14196 14199;
  CA 14197 14198 14200; CX 14196 14200 14201; CX 13971 93 14202; CX 14201 93 14203; CX 14202 14201 14204; CA 14202 14203 14205; CX 14201 14205 14206; CX 13974 94 14207;
  CX 14206 94 14208; CX 14207 14206 14209; CA 14207 14208 14210; CX 14206 14210 14211; CX 13977 95 14212; CX 14211 95 14213; CX 14212 14211 14214; CA 14212 14213 14215;
  CX 14211 14215 14216; CX 13980 96 14217; CX 14216 96 14218; CX 14217 14216 14219; CA 14217 14218 14220; CX 14216 14220 14221; CX 13983 97 14222; CX 14221 97 14223;
  CX 14222 14221 14224; CA 14222 14223 14225; CX 14221 14225 14226; CX 13986 98 14227; CX 14226 98 14228; CX 14227 14226 14229; CA 14227 14228 14230; CX 14226 14230 14231;
  CX 13989 99 14232; CX 14231 99 14233; CX 14232 14231 14234; CA 14232 14233 14235; CX 14231 14235 14236; CX 13992 100 14237; CX 14236 100 14238; CX 14237 14236 14239;
  CA 14237 14238 14240; CX 14236 14240 14241; CX 13995 101 14242; CX 14241 101 14243; CX 14242 14241 14244; CA 14242 14243 14245; CX 14241 14245 14246; CX 13998 102 14247;
  CX 14246 102 14248; CX 14247 14246 14249; CA 14247 14248 14250; CX 14246 14250 14251; CX 14001 103 14252; CX 14251 103 14253; CX 14252 14251 14254; CA 14252 14253 14255;
  CX 14251 14255 14256; CX 14004 104 14257; CX 14256 104 14258; CX 14257 14256 14259; CA 14257 14258 14260; CX 14256 14260 14261; CX 14007 105 14262; CX 14261 105 14263;
  CX 14262 14261 14264; CA 14262 14263 14265; CX 14261 14265 14266; CX 14010 106 14267; CX 14266 106 14268; CX 14267 14266 14269; CA 14267 14268 14270; CX 14266 14270 14271;
  CX 14013 107 14272; CX 14271 107 14273; CX 14272 14271 14274; CA 14272 14273 14275; CX 14271 14275 14276; CX 14016 108 14277; CX 14276 108 14278; CX 14277 14276 14279;
  CA 14277 14278 14280; CX 14276 14280 14281; CX 14019 109 14282; CX 14281 109 14283; CX 14282 14281 14284; CA 14282 14283 14285; CX 14281 14285 14286; CX 14022 110 14287;
  CX 14286 110 14288; CX 14287 14286 14289; CA 14287 14288 14290; CX 14286 14290 14291; CX 14025 111 14292; CX 14291 111 14293; CX 14292 14291 14294; CA 14292 14293 14295;
  CX 14291 14295 14296; CX 14028 112 14297; CX 14296 112 14298; CX 14297 14296 14299; CA 14297 14298 14300; CX 14296 14300 14301; CX 14031 113 14302; CX 14301 113 14303;
  CX 14302 14301 14304; CA 14302 14303 14305; CX 14301 14305 14306; CX 14034 114 14307; CX 14306 114 14308; CX 14307 14306 14309; CA 14307 14308 14310; CX 14306 14310 14311;
  CX 14037 115 14312; CX 14311 115 14313; CX 14312 14311 14314; CA 14312 14313 14315; CX 14311 14315 14316; CX 14040 116 14317; CX 14316 116 14318; CX 14317 14316 14319;
  CA 14317 14318 14320; CX 14316 14320 14321; CX 14043 117 14322; CX 14321 117 14323; CX 14322 14321 14324; CA 14322 14323 14325; CX 14321 14325 14326; CX 14046 118 14327;
  CX 14326 118 14328; CX 14327 14326 14329; CA 14327 14328 14330; CX 14326 14330 14331; CX 14049 119 14332; CX 14331 119 14333; CX 14332 14331 14334; CA 14332 14333 14335;
  CX 14331 14335 14336; CX 14052 120 14337; CX 14336 120 14338; CX 14337 14336 14339; CA 14337 14338 14340; CX 14336 14340 14341; CX 14055 121 14342; CX 14341 121 14343;
  CX 14342 14341 14344; CA 14342 14343 14345; CX 14341 14345 14346; CX 14058 122 14347; CX 14346 122 14348; CX 14347 14346 14349; CA 14347 14348 14350; CX 14346 14350 14351;
  CA 14351 139 14352; CX 14351 139 14353; CX 14353 14352 14354; CX 5 14060 14355; CA 14354 14355 14356; CX 14356 14060 14357; CX 13887 14064 14358; CA 14354 14358 14359;
  CX 14359 14064 14360; CX 13890 14069 14361; CA 14354 14361 14362; CX 14362 14069 14363; CX 13893 14074 14364; CA 14354 14364 14365; CX 14365 14074 14366; CX 13896 14079 14367;
  CA 14354 14367 14368; CX 14368 14079 14369; CX 13899 14084 14370; CA 14354 14370 14371; CX 14371 14084 14372; CX 13902 14089 14373; CA 14354 14373 14374; CX 14374 14089 14375;
  CX 13905 14094 14376; CA 14354 14376 14377; CX 14377 14094 14378; CX 13908 14099 14379; CA 14354 14379 14380; CX 14380 14099 14381; CX 13911 14104 14382; CA 14354 14382 14383;
  CX 14383 14104 14384; CX 13914 14109 14385; CA 14354 14385 14386; CX 14386 14109 14387; CX 13917 14114 14388; CA 14354 14388 14389; CX 14389 14114 14390; CX 13920 14119 14391;
  CA 14354 14391 14392; CX 14392 14119 14393; CX 13923 14124 14394; CA 14354 14394 14395; CX 14395 14124 14396; CX 13926 14129 14397; CA 14354 14397 14398; CX 14398 14129 14399;
  CX 13929 14134 14400; CA 14354 14400 14401; CX 14401 14134 14402; CX 13932 14139 14403; CA 14354 14403 14404; CX 14404 14139 14405; CX 13935 14144 14406; CA 14354 14406 14407;
  CX 14407 14144 14408; CX 13938 14149 14409; CA 14354 14409 14410; CX 14410 14149 14411; CX 13941 14154 14412; CA 14354 14412 14413; CX 14413 14154 14414; CX 13944 14159 14415;
  CA 14354 14415 14416; CX 14416 14159 14417; CX 13947 14164 14418; CA 14354 14418 14419; CX 14419 14164 14420; CX 13950 14169 14421; CA 14354 14421 14422; CX 14422 14169 14423;
  CX 13953 14174 14424; CA 14354 14424 14425; CX 14425 14174 14426; CX 13956 14179 14427; CA 14354 14427 14428; CX 14428 14179 14429; CX 13959 14184 14430; CA 14354 14430 14431;
  CX 14431 14184 14432; CX 13962 14189 14433; CA 14354 14433 14434; CX 14434 14189 14435; CX 13965 14194 14436; CA 14354 14436 14437; CX 14437 14194 14438; CX 13968 14199 14439;
  CA 14354 14439 14440; CX 14440 14199 14441; CX 13971 14204 14442; CA 14354 14442 14443; CX 14443 14204 14444; CX 13974 14209 14445; CA 14354 14445 14446; CX 14446 14209 14447;
  CX 13977 14214 14448; CA 14354 14448 14449; CX 14449 14214 14450; CX 13980 14219 14451; CA 14354 14451 14452; CX 14452 14219 14453; CX 13983 14224 14454; CA 14354 14454 14455;
  CX 14455 14224 14456; CX 13986 14229 14457; CA 14354 14457 14458; CX 14458 14229 14459; CX 13989 14234 14460; CA 14354 14460 14461; CX 14461 14234 14462; CX 13992 14239 14463;
  CA 14354 14463 14464; CX 14464 14239 14465; CX 13995 14244 14466; CA 14354 14466 14467; CX 14467 14244 14468; CX 13998 14249 14469; CA 14354 14469 14470; CX 14470 14249 14471;
  CX 14001 14254 14472; CA 14354 14472 14473; CX 14473 14254 14474; CX 14004 14259 14475; CA 14354 14475 14476; CX 14476 14259 14477; CX 14007 14264 14478; CA 14354 14478 14479;
  CX 14479 14264 14480; CX 14010 14269 14481; CA 14354 14481 14482; CX 14482 14269 14483; CX 14013 14274 14484; CA 14354 14484 14485; CX 14485 14274 14486; CX 14016 14279 14487;
  CA 14354 14487 14488; CX 14488 14279 14489; CX 14019 14284 14490; CA 14354 14490 14491; CX 14491 14284 14492; CX 14022 14289 14493; CA 14354 14493 14494; CX 14494 14289 14495;
  CX 14025 14294 14496; CA 14354 14496 14497; CX 14497 14294 14498; CX 14028 14299 14499; CA 14354 14499 14500; CX 14500 14299 14501; CX 14031 14304 14502; CA 14354 14502 14503;
  CX 14503 14304 14504; CX 14034 14309 14505; CA 14354 14505 14506; CX 14506 14309 14507; CX 14037 14314 14508; CA 14354 14508 14509; CX 14509 14314 14510; CX 14040 14319 14511;
  CA 14354 14511 14512; CX 14512 14319 14513; CX 14043 14324 14514; CA 14354 14514 14515; CX 14515 14324 14516; CX 14046 14329 14517; CA 14354 14517 14518; CX 14518 14329 14519;
  CX 14049 14334 14520; CA 14354 14520 14521; CX 14521 14334 14522; CX 14052 14339 14523; CA 14354 14523 14524; CX 14524 14339 14525; CX 14055 14344 14526; CA 14354 14526 14527].
(** Lines 14405-14804 of the file. *)
Definition udivide64_36 : list cg := [
  CX 14527 14344 14528; CX 14058 14349 14529; CA 14354 14529 14530; CX 14530 14349 14531; CI 14354 14532; CX 4 64 14533; CA 14533 64 14534; CX 14357 65 14535;
  CX 14534 65 14536; CX 14535 14534 14537; CA 14535 14536 14538; CX 14534 14538 14539; CX 14360 66 14540; CX 14539 66 14541; CX 14540 14539 14542; CA 14540 14541 14543;
  CX 14539 14543 14544; CX 14363 67 14545; CX 14544 67 14546; CX 14545 14544 14547; CA 14545 14546 14548; CX 14544 14548 14549; CX 14366 68 14550; CX 14549 68 14551;
  CX 14550 14549 14552; CA 14550 14551 14553; CX 14549 14553 14554; CX 14369 69 14555; CX 14554 69 14556; CX 14555 14554 14557; CA 14555 14556 14558; CX 14554 14558 14559;
  CX 14372 70 14560; CX 14559 70 14561; CX 14560 14559 14562; CA 14560 14561 14563; CX 14559 14563 14564; CX 14375 71 14565; CX 14564 71 14566; CX 14565 14564 14567;
  CA 14565 14566 14568; CX 14564 14568 14569; CX 14378 72 14570; CX 14569 72 14571; CX 14570 14569 14572; CA 14570 14571 14573; CX 14569 14573 14574; CX 14381 73 14575;
  CX 14574 73 14576; CX 14575 14574 14577; CA 14575 14576 14578; CX 14574 14578 14579; CX 14384 74 14580; CX 14579 74 14581; CX 14580 14579 14582; CA 14580 14581 14583;
  CX 14579 14583 14584; CX 14387 75 14585; CX 14584 75 14586; CX 14585 14584 14587; CA 14585 14586 14588; CX 14584 14588 14589; CX 14390 76 14590; CX 14589 76 14591;
  CX 14590 14589 14592; CA 14590 14591 14593; CX 14589 14593 14594; CX 14393 77 14595; CX 14594 77 14596; CX 14595 14594 14597; CA 14595 14596 14598; CX 14594 14598 14599;
  CX 14396 78 14600; CX 14599 78 14601; CX 14600 14599 14602; CA 14600 14601 14603; CX 14599 14603 14604; CX 14399 79 14605; CX 14604 79 14606; CX 14605 14604 14607;
  CA 14605 14606 14608; CX 14604 14608 14609; CX 14402 80 14610; CX 14609 80 14611; CX 14610 14609 14612; CA 14610 14611 14613; CX 14609 14613 14614; CX 14405 81 14615;
  CX 14614 81 14616; CX 14615 14614 14617; CA 14615 14616 14618; CX 14614 14618 14619; CX 14408 82 14620; CX 14619 82 14621; CX 14620 14619 14622; CA 14620 14621 14623;
  CX 14619 14623 14624; CX 14411 83 14625; CX 14624 83 14626; CX 14625 14624 14627; CA 14625 14626 14628; CX 14624 14628 14629; CX 14414 84 14630; CX 14629 84 14631;
  CX 14630 14629 14632; CA 14630 14631 14633; CX 14629 14633 14634; CX 14417 85 14635; CX 14634 85 14636; CX 14635 14634 14637; CA 14635 14636 14638; CX 14634 14638 14639;
  CX 14420 86 14640; CX 14639 86 14641; CX 14640 14639 14642; CA 14640 14641 14643; CX 14639 14643 14644; CX 14423 87 14645; CX 14644 87 14646; CX 14645 14644 14647;
  CA 14645 14646 14648; CX 14644 14648 14649; CX 14426 88 14650; CX 14649 88 14651; CX 14650 14649 14652; CA 14650 14651 14653; CX 14649 14653 14654; CX 14429 89 14655;
  CX 14654 89 14656; CX 14655 14654 14657; CA 14655 14656 14658; CX 14654 14658 14659; CX 14432 90 14660; CX 14659 90 14661; CX 14660 14659 14662; CA 14660 14661 14663;
  CX 14659 14663 14664; CX 14435 91 14665; CX 14664 91 14666; CX 14665 14664 14667; CA 14665 14666 14668; CX 14664 14668 14669; CX 14438 92 14670; CX 14669 92 14671;
  CX 14670 14669 14672; CA 14670 14671 14673; CX 14669 14673 14674; CX 14441 93 14675; CX 14674 93 14676; CX 14675 14674 14677; CA 14675 14676 14678; CX 14674 14678 14679;
  CX 14444 94 14680; CX 14679 94 14681; CX 14680 14679 14682; CA 14680 14681 14683; CX 14679 14683 14684; CX 14447 95 14685; CX 14684 95 14686; CX 14685 14684 14687;
  CA 14685 14686 14688; CX 14684 14688 14689; CX 14450 96 14690; CX 14689 96 14691; CX 14690 14689 14692; CA 14690 14691 14693; CX 14689 14693 14694; CX 14453 97 14695;
  CX 14694 97 14696; CX 14695 14694 14697; CA 14695 14696 14698; CX 14694 14698 14699; CX 14456 98 14700; CX 14699 98 14701; CX 14700 14699 14702; CA 14700 14701 14703;
  CX 14699 14703 14704; CX 14459 99 14705; CX 14704 99 14706; CX 14705 14704 14707; CA 14705 14706 14708; CX 14704 14708 14709; CX 14462 100 14710; CX 14709 100 14711;
  CX 14710 14709 14712; CA 14710 14711 14713; CX 14709 14713 14714; CX 14465 101 14715; CX 14714 101 14716; CX 14715 14714 14717; CA 14715 14716 14718; CX 14714 14718 14719;
  CX 14468 102 14720; CX 14719 102 14721; CX 14720 14719 14722; CA 14720 14721 14723; CX 14719 14723 14724; CX 14471 103 14725; CX 14724 103 14726; CX 14725 14724 14727;
  CA 14725 14726 14728; CX 14724 14728 14729; CX 14474 104 14730; CX 14729 104 14731; CX 14730 14729 14732; CA 14730 14731 14733; CX 14729 14733 14734; CX 14477 105 14735;
  CX 14734 105 14736; CX 14735 14734 14737; CA 14735 14736 14738; CX 14734 14738 14739; CX 14480 106 14740; CX 14739 106 14741; CX 14740 14739 14742; CA 14740 14741 14743;
  CX 14739 14743 14744; CX 14483 107 14745; CX 14744 107 14746; CX 14745 14744 14747; CA 14745 14746 14748; CX 14744 14748 14749; CX 14486 108 14750; CX 14749 108 14751;
  CX 14750 14749 14752; CA 14750 14751 14753; CX 14749 14753 14754; CX 14489 109 14755; CX 14754 109 14756; CX 14755 14754 14757; CA 14755 14756 14758; CX 14754 14758 14759;
  CX 14492 110 14760; CX 14759 110 14761; CX 14760 14759 14762; CA 14760 14761 14763; CX 14759 14763 14764; CX 14495 111 14765; CX 14764 111 14766; CX 14765 14764 14767;
  CA 14765 14766 14768; CX 14764 14768 14769; CX 14498 112 14770; CX 14769 112 14771; CX 14770 14769 14772; CA 14770 14771 14773; CX 14769 14773 14774; CX 14501 113 14775;
  CX 14774 113 14776; CX 14775 14774 14777; CA 14775 14776 14778; CX 14774 14778 14779; CX 14504 114 14780; CX 14779 114 14781; CX 14780 14779 14782; CA 14780 14781 14783;
  CX 14779 14783 14784; CX 14507 115 14785; CX 14784 115 14786; CX 14785 14784 14787; CA 14785 14786 14788; CX 14784 14788 14789; CX 14510 116 14790; CX 14789 116 14791;
  CX 14790 14789 14792; CA 14790 14791 14793; CX 14789 14793 14794; CX 14513 117 14795; CX 14794 117 14796; CX 14795 14794 14797; CA 14795 14796 14798; CX 14794 14798 14799;
  CX 14516 118 14800; CX 14799 118 14801; CX 14800 14799 14802; CA 14800 14801 14803; CX 14799 14803 14804; CX 14519 119 14805; CX 14804 119 14806; CX 14805 14804 14807;
  CA 14805 14806 14808; CX 14804 14808 14809; CX 14522 120 14810; CX 14809 120 14811; CX 14810 14809 14812; CA 14810 14811 14813; CX 14809 14813 14814; CX 14525 121 14815;
  CX 14814 121 14816; CX 14815 14814 14817; CA 14815 14816 14818; CX 14814 14818 14819; CX 14528 122 14820; CX 14819 122 14821; CX 14820 14819 14822; CA 14820 14821 14823;
  CX 14819 14823 14824; CX 14531 123 14825; CX 14824 123 14826; CX 14825 14824 14827; CA 14825 14826 14828; CX 14824 14828 14829; CA 14829 136 14830; CX 14829 136 14831;
  CX 14831 14830 14832; CX 4 14533 14833; CA 14832 14833 14834; CX 14834 14533 14835; CX 14357 14537 14836; CA 14832 14836 14837; CX 14837 14537 14838; CX 14360 14542 14839;
  CA 14832 14839 14840; CX 14840 14542 14841; CX 14363 14547 14842; CA 14832 14842 14843; CX 14843 14547 14844; CX 14366 14552 14845; CA 14832 14845 14846; CX 14846 14552 14847;
  CX 14369 14557 14848; CA 14832 14848 14849; CX 14849 14557 14850; CX 14372 14562 14851; CA 14832 14851 14852; CX 14852 14562 14853; CX 14375 14567 14854; CA 14832 14854 14855;
  CX 14855 14567 14856; CX 14378 14572 14857; CA 14832 14857 14858; CX 14858 14572 14859; CX 14381 14577 14860; CA 14832 14860 14861; CX 14861 14577 14862; CX 14384 14582 14863;
  CA 14832 14863 14864; CX 14864 14582 14865; CX 14387 14587 14866; CA 14832 14866 14867; CX 14867 14587 14868; CX 14390 14592 14869; CA 14832 14869 14870; CX 14870 14592 14871;
  CX 14393 14597 14872; CA 14832 14872 14873; CX 14873 14597 14874; CX 14396 14602 14875; CA 14832 14875 14876; CX 14876 14602 14877; CX 14399 14607 14878; CA 14832 14878 14879;
  CX 14879 14607 14880; CX 14402 14612 14881; CA 14832 14881 14882; CX 14882 14612 14883; CX 14405 14617 14884; CA 14832 14884 14885; CX 14885 14617 14886; CX 14408 14622 14887;
  CA 14832 14887 14888; CX 14888 14622 14889; CX 14411 14627 14890; CA 14832 14890 14891; CX 14891 14627 14892; CX 14414 14632 14893; CA 14832 14893 14894; CX 14894 14632 14895;
  CX 14417 14637 14896; CA 14832 14896 14897; CX 14897 14637 14898; CX 14420 14642 14899; CA 14832 14899 14900; CX 14900 14642 14901; CX 14423 14647 14902; CA 14832 14902 14903;
  CX 14903 14647 14904; CX 14426 14652 14905; CA 14832 14905 14906; CX 14906 14652 14907; CX 14429 14657 14908; CA 14832 14908 14909; CX 14909 14657 14910; CX 14432 14662 14911;
  CA 14832 14911 14912; CX 14912 14662 14913; CX 14435 14667 14914; CA 14832 14914 14915; CX 14915 14667 14916; CX 14438 14672 14917; CA 14832 14917 14918; CX 14918 14672 14919;
  CX 14441 14677 14920; CA 14832 14920 14921; CX 14921 14677 14922; CX 14444 14682 14923; CA 14832 14923 14924; CX 14924 14682 14925; CX 14447 14687 14926; CA 14832 14926 14927].
(** Lines 14805-15204 of the file. *)
Definition udivide64_37 : list cg := [
  CX 14927 14687 14928; CX 14450 14692 14929; CA 14832 14929 14930; CX 14930 14692 14931; CX 14453 14697 14932; CA 14832 14932 14933; CX 14933 14697 14934; CX 14456 14702 14935;
  CA 14832 14935 14936; CX 14936 14702 14937; CX 14459 14707 14938; CA 14832 14938 14939; CX 14939 14707 14940; CX 14462 14712 14941; CA 14832 14941 14942; CX 14942 14712 14943;
  CX 14465 14717 14944; CA 14832 14944 14945; CX 14945 14717 14946; CX 14468 14722 14947; CA 14832 14947 14948; CX 14948 14722 14949; CX 14471 14727 14950; CA 14832 14950 14951;
  CX 14951 14727 14952; CX 14474 14732 14953; CA 14832 14953 14954; CX 14954 14732 14955; CX 14477 14737 14956; CA 14832 14956 14957; CX 14957 14737 14958; CX 14480 14742 14959;
  CA 14832 14959 14960; CX 14960 14742 14961; CX 14483 14747 14962; CA 14832 14962 14963; CX 14963 14747 14964; CX 14486 14752 14965; CA 14832 14965 14966; CX 14966 14752 14967;
  CX 14489 14757 14968; CA 14832 14968 14969; CX 14969 14757 14970; CX 14492 14762 14971; CA 14832 14971 14972; CX 14972 14762 14973; CX 14495 14767 14974; CA 14832 14974 14975;
  CX 14975 14767 14976; CX 14498 14772 14977; CA 14832 14977 14978; CX 14978 14772 14979; CX 14501 14777 14980; CA 14832 14980 14981; CX 14981 14777 14982; CX 14504 14782 14983;
  CA 14832 14983 14984; CX 14984 14782 14985; CX 14507 14787 14986; CA 14832 14986 14987; CX 14987 14787 14988; CX 14510 14792 14989; CA 14832 14989 14990; CX 14990 14792 14991;
  CX 14513 14797 14992; CA 14832 14992 14993; CX 14993 14797 14994; CX 14516 14802 14995; CA 14832 14995 14996; CX 14996 14802 14997; CX 14519 14807 14998; CA 14832 14998 14999;
  CX 14999 14807 15000; CX 14522 14812 15001; CA 14832 15001 15002; CX 15002 14812 15003; CX 14525 14817 15004; CA 14832 15004 15005; CX 15005 14817 15006; CX 14528 14822 15007;
  CA 14832 15007 15008; CX 15008 14822 15009; CX 14531 14827 15010; CA 14832 15010 15011; CX 15011 14827 15012; CI 14832 15013; CX 3 64 15014; CA 15014 64 15015;
  CX 14835 65 15016; CX 15015 65 15017; CX 15016 15015 15018; CA 15016 15017 15019; CX 15015 15019 15020; CX 14838 66 15021; CX 15020 66 15022; CX 15021 15020 15023;
  CA 15021 15022 15024; CX 15020 15024 15025; CX 14841 67 15026; CX 15025 67 15027; CX 15026 15025 15028; CA 15026 15027 15029; CX 15025 15029 15030; CX 14844 68 15031;
  CX 15030 68 15032; CX 15031 15030 15033; CA 15031 15032 15034; CX 15030 15034 15035; CX 14847 69 15036; CX 15035 69 15037; CX 15036 15035 15038; CA 15036 15037 15039;
  CX 15035 15039 15040; CX 14850 70 15041; CX 15040 70 15042; CX 15041 15040 15043; CA 15041 15042 15044; CX 15040 15044 15045; CX 14853 71 15046; CX 15045 71 15047;
  CX 15046 15045 15048; CA 15046 15047 15049; CX 15045 15049 15050; CX 14856 72 15051; CX 15050 72 15052; CX 15051 15050 15053; CA 15051 15052 15054; CX 15050 15054 15055;
  CX 14859 73 15056; CX 15055 73 15057; CX 15056 15055 15058; CA 15056 15057 15059; CX 15055 15059 15060; CX 14862 74 15061; CX 15060 74 15062; CX 15061 15060 15063;
  CA 15061 15062 15064; CX 15060 15064 15065; CX 14865 75 15066; CX 15065 75 15067; CX 15066 15065 15068; CA 15066 15067 15069; CX 15065 15069 15070; CX 14868 76 15071;
  CX 15070 76 15072; CX 15071 15070 15073; CA 15071 15072 15074; CX 15070 15074 15075; CX 14871 77 15076; CX 15075 77 15077; CX 15076 15075 15078; CA 15076 15077 15079;
  CX 15075 15079 15080; CX 14874 78 15081; CX 15080 78 15082; CX 15081 15080 15083; CA 15081 15082 15084; CX 15080 15084 15085; CX 14877 79 15086; CX 15085 79 15087;
  CX 15086 15085 15088; CA 15086 15087 15089; CX 15085 15089 15090; CX 14880 80 15091; CX 15090 80 15092; CX 15091 15090 15093; CA 15091 15092 15094; CX 15090 15094 15095;
  CX 14883 81 15096; CX 15095 81 15097; CX 15096 15095 15098; CA 15096 15097 15099; CX 15095 15099 15100; CX 14886 82 15101; CX 15100 82 15102; CX 15101 15100 15103;
  CA 15101 15102 15104; CX 15100 15104 15105; CX 14889 83 15106; CX 15105 83 15107; CX 15106 15105 15108; CA 15106 15107 15109; CX 15105 15109 15110; CX 14892 84 15111;
  CX 15110 84 15112; CX 15111 15110 15113; CA 15111 15112 15114; CX 15110 15114 15115; CX 14895 85 15116; CX 15115 85 15117; CX 15116 15115 15118; CA 15116 15117 15119;
  CX 15115 15119 15120; CX 14898 86 15121; CX 15120 86 15122; CX 15121 15120 15123; CA 15121 15122 15124; CX 15120 15124 15125; CX 14901 87 15126; CX 15125 87 15127;
  CX 15126 15125 15128; CA 15126 15127 15129; CX 15125 15129 15130; CX 14904 88 15131; CX 15130 88 15132; CX 15131 15130 15133; CA 15131 15132 15134; CX 15130 15134 15135;
  CX 14907 89 15136; CX 15135 89 15137; CX 15136 15135 15138; CA 15136 15137 15139; CX 15135 15139 15140; CX 14910 90 15141; CX 15140 90 15142; CX 15141 15140 15143;
  CA 15141 15142 15144; CX 15140 15144 15145; CX 14913 91 15146; CX 15145 91 15147; CX 15146 15145 15148; CA 15146 15147 15149; CX 15145 15149 15150; CX 14916 92 15151;
  CX 15150 92 15152; CX 15151 15150 15153; CA 15151 15152 15154; CX 15150 15154 15155; CX 14919 93 15156; CX 15155 93 15157; CX 15156 15155 15158; CA 15156 15157 15159;
  CX 15155 15159 15160; CX 14922 94 15161; CX 15160 94 15162; CX 15161 15160 15163; CA 15161 15162 15164; CX 15160 15164 15165; CX 14925 95 15166; CX 15165 95 15167;
  CX 15166 15165 15168; CA 15166 15167 15169; CX 15165 15169 15170; CX 14928 96 15171; CX 15170 96 15172; CX 15171 15170 15173; CA 15171 15172 15174; CX 15170 15174 15175;
  CX 14931 97 15176; CX 15175 97 15177; CX 15176 15175 15178; CA 15176 15177 15179; CX 15175 15179 15180; CX 14934 98 15181; CX 15180 98 15182; CX 15181 15180 15183;
  CA 15181 15182 15184; CX 15180 15184 15185; CX 14937 99 15186; CX 15185 99 15187; CX 15186 15185 15188; CA 15186 15187 15189; CX 15185 15189 15190; CX 14940 100 15191;
  CX 15190 100 15192; CX 15191 15190 15193; CA 15191 15192 15194; CX 15190 15194 15195; CX 14943 101 15196; CX 15195 101 15197; CX 15196 15195 15198; CA 15196 15197 15199;
  CX 15195 15199 15200; CX 14946 102 15201; CX 15200 102 15202; CX 15201 15200 15203; CA 15201 15202 15204; CX 15200 15204 15205; CX 14949 103 15206; CX 15205 103 15207;
  CX 15206 15205 15208; CA 15206 15207 15209; CX 15205 15209 15210; CX 14952 104 15211; CX 15210 104 15212; CX 15211 15210 15213; CA 15211 15212 15214; CX 15210 15214 15215;
  CX 14955 105 15216; CX 15215 105 15217; CX 15216 15215 15218; CA 15216 15217 15219; CX 15215 15219 15220; CX 14958 106 15221; CX 15220 106 15222; CX 15221 15220 15223;
  CA 15221 15222 15224; CX 15220 15224 15225; CX 14961 107 15226; CX 15225 107 15227; CX 15226 15225 15228; CA 15226 15227 15229; CX 15225 15229 15230; CX 14964 108 15231;
  CX 15230 108 15232; CX 15231 15230 15233; CA 15231 15232 15234; CX 15230 15234 15235; CX 14967 109 15236; CX 15235 109 15237; CX 15236 15235 15238; CA 15236 15237 15239;
  CX 15235 15239 15240; CX 14970 110 15241; CX 15240 110 15242; CX 15241 15240 15243; CA 15241 15242 15244; CX 15240 15244 15245; CX 14973 111 15246; CX 15245 111 15247;
  CX 15246 15245 15248; CA 15246 15247 15249; CX 15245 15249 15250; CX 14976 112 15251; CX 15250 112 15252; CX 15251 15250 15253; CA 15251 15252 15254; CX 15250 15254 15255;
  CX 14979 113 15256; CX 15255 113 15257; CX 15256 15255 15258; CA 15256 15257 15259; CX 15255 15259 15260; CX 14982 114 15261; CX 15260 114 15262; CX 15261 15260 15263;
  CA 15261 15262 15264; CX 15260 15264 15265; CX 14985 115 15266; CX 15265 115 15267; CX 15266 15265 15268; CA 15266 15267 15269; CX 15265 15269 15270; CX 14988 116 15271;
  CX 15270 116 15272; CX 15271 15270 15273; CA 15271 15272 15274; CX 15270 15274 15275; CX 14991 117 15276; CX 15275 117 15277; CX 15276 15275 15278; CA 15276 15277 15279;
  CX 15275 15279 15280; CX 14994 118 15281; CX 15280 118 15282; CX 15281 15280 15283; CA 15281 15282 15284; CX 15280 15284 15285; CX 14997 119 15286; CX 15285 119 15287;
  CX 15286 15285 15288; CA 15286 15287 15289; CX 15285 15289 15290; CX 15000 120 15291; CX 15290 120 15292; CX 15291 15290 15293; CA 15291 15292 15294; CX 15290 15294 15295;
  CX 15003 121 15296; CX 15295 121 15297; CX 15296 15295 15298; CA 15296 15297 15299; CX 15295 15299 15300; CX 15006 122 15301; CX 15300 122 15302; CX 15301 15300 15303;
  CA 15301 15302 15304; CX 15300 15304 15305; CX 15009 123 15306; CX 15305 123 15307; CX 15306 15305 15308; CA 15306 15307 15309; CX 15305 15309 15310; CX 15012 124 15311;
  CX 15310 124 15312; CX 15311 15310 15313; CA 15311 15312 15314; CX 15310 15314 15315; CA 15315 133 15316; CX 15315 133 15317; CX 15317 15316 15318; CX 3 15014 15319;
  CA 15318 15319 15320; CX 15320 15014 15321; CX 14835 15018 15322; CA 15318 15322 15323; CX 15323 15018 15324; CX 14838 15023 15325; CA 15318 15325 15326; CX 15326 15023 15327].
(** Lines 15205-15604 of the file. *)
Definition udivide64_38 : list cg := [
  CX 14841 15028 15328; CA 15318 15328 15329; CX 15329 15028 15330; CX 14844 15033 15331; CA 15318 15331 15332; CX 15332 15033 15333; CX 14847 15038 15334; CA 15318 15334 15335;
  CX 15335 15038 15336; CX 14850 15043 15337; CA 15318 15337 15338; CX 15338 15043 15339; CX 14853 15048 15340; CA 15318 15340 15341; CX 15341 15048 15342; CX 14856 15053 15343;
  CA 15318 15343 15344; CX 15344 15053 15345; CX 14859 15058 15346; CA 15318 15346 15347; CX 15347 15058 15348; CX 14862 15063 15349; CA 15318 15349 15350; CX 15350 15063 15351;
  CX 14865 15068 15352; CA 15318 15352 15353; CX 15353 15068 15354; CX 14868 15073 15355; CA 15318 15355 15356; CX 15356 15073 15357; CX 14871 15078 15358; CA 15318 15358 15359;
  CX 15359 15078 15360; CX 14874 15083 15361; CA 15318 15361 15362; CX 15362 15083 15363; CX 14877 15088 15364; CA 15318 15364 15365; CX 15365 15088 15366; CX 14880 15093 15367;
  CA 15318 15367 15368; CX 15368 15093 15369; CX 14883 15098 15370; CA 15318 15370 15371; CX 15371 15098 15372; CX 14886 15103 15373; CA 15318 15373 15374; CX 15374 15103 15375;
  CX 14889 15108 15376; CA 15318 15376 15377; CX 15377 15108 15378; CX 14892 15113 15379; CA 15318 15379 15380; CX 15380 15113 15381; CX 14895 15118 15382; CA 15318 15382 15383;
  CX 15383 15118 15384; CX 14898 15123 15385; CA 15318 15385 15386; CX 15386 15123 15387; CX 14901 15128 15388; CA 15318 15388 15389; CX 15389 15128 15390; CX 14904 15133 15391;
  CA 15318 15391 15392; CX 15392 15133 15393; CX 14907 15138 15394; CA 15318 15394 15395; CX 15395 15138 15396; CX 14910 15143 15397; CA 15318 15397 15398; CX 15398 15143 15399;
  CX 14913 15148 15400; CA 15318 15400 15401; CX 15401 15148 15402; CX 14916 15153 15403; CA 15318 15403 15404; CX 15404 15153 15405; CX 14919 15158 15406; CA 15318 15406 15407;
  CX 15407 15158 15408; CX 14922 15163 15409; CA 15318 15409 15410; CX 15410 15163 15411; CX 14925 15168 15412; CA 15318 15412 15413; CX 15413 15168 15414; CX 14928 15173 15415;
  CA 15318 15415 15416; CX 15416 15173 15417; CX 14931 15178 15418; CA 15318 15418 15419; CX 15419 15178 15420; CX 14934 15183 15421; CA 15318 15421 15422; CX 15422 15183 15423;
  CX 14937 15188 15424; CA 15318 15424 15425; CX 15425 15188 15426; CX 14940 15193 15427; CA 15318 15427 15428; CX 15428 15193 15429; CX 14943 15198 15430; CA 15318 15430 15431;
  CX 15431 15198 15432; CX 14946 15203 15433; CA 15318 15433 15434; CX 15434 15203 15435; CX 14949 15208 15436; CA 15318 15436 15437; CX 15437 15208 15438; CX 14952 15213 15439;
  CA 15318 15439 15440; CX 15440 15213 15441; CX 14955 15218 15442; CA 15318 15442 15443; CX 15443 15218 15444; CX 14958 15223 15445; CA 15318 15445 15446; CX 15446 15223 15447;
  CX 14961 15228 15448; CA 15318 15448 15449; CX 15449 15228 15450; CX 14964 15233 15451; CA 15318 15451 15452; CX 15452 15233 15453; CX 14967 15238 15454; CA 15318 15454 15455;
  CX 15455 15238 15456; CX 14970 15243 15457; CA 15318 15457 15458; CX 15458 15243 15459; CX 14973 15248 15460; CA 15318 15460 15461; CX 15461 15248 15462; CX 14976 15253 15463;
  CA 15318 15463 15464; CX 15464 15253 15465; CX 14979 15258 15466; CA 15318 15466 15467; CX 15467 15258 15468; CX 14982 15263 15469; CA 15318 15469 15470; CX 15470 15263 15471;
  CX 14985 15268 15472; CA 15318 15472 15473; CX 15473 15268 15474; CX 14988 15273 15475; CA 15318 15475 15476; CX 15476 15273 15477; CX 14991 15278 15478; CA 15318 15478 15479;
  CX 15479 15278 15480; CX 14994 15283 15481; CA 15318 15481 15482; CX 15482 15283 15483; CX 14997 15288 15484; CA 15318 15484 15485; CX 15485 15288 15486; CX 15000 15293 15487;
  CA 15318 15487 15488; CX 15488 15293 15489; CX 15003 15298 15490; CA 15318 15490 15491; CX 15491 15298 15492; CX 15006 15303 15493; CA 15318 15493 15494; CX 15494 15303 15495;
  CX 15009 15308 15496; CA 15318 15496 15497; CX 15497 15308 15498; CX 15012 15313 15499; CA 15318 15499 15500; CX 15500 15313 15501; CI 15318 15502; CX 2 64 15503;
  CA 15503 64 15504; CX 15321 65 15505; CX 15504 65 15506; CX 15505 15504 15507; CA 15505 15506 15508; CX 15504 15508 15509; CX 15324 66 15510; CX 15509 66 15511;
  CX 15510 15509 15512; CA 15510 15511 15513; CX 15509 15513 15514; CX 15327 67 15515; CX 15514 67 15516; CX 15515 15514 15517; CA 15515 15516 15518; CX 15514 15518 15519;
  CX 15330 68 15520; CX 15519 68 15521; CX 15520 15519 15522; CA 15520 15521 15523; CX 15519 15523 15524; CX 15333 69 15525; CX 15524 69 15526; CX 15525 15524 15527;
  CA 15525 15526 15528; CX 15524 15528 15529; CX 15336 70 15530; CX 15529 70 15531; CX 15530 15529 15532; CA 15530 15531 15533; CX 15529 15533 15534; CX 15339 71 15535;
  CX 15534 71 15536; CX 15535 15534 15537; CA 15535 15536 15538; CX 15534 15538 15539; CX 15342 72 15540; CX 15539 72 15541; CX 15540 15539 15542; CA 15540 15541 15543;
  CX 15539 15543 15544; CX 15345 73 15545; CX 15544 73 15546; CX 15545 15544 15547; CA 15545 15546 15548; CX 15544 15548 15549; CX 15348 74 15550; CX 15549 74 15551;
  CX 15550 15549 15552; CA 15550 15551 15553; CX 15549 15553 15554; CX 15351 75 15555; CX 15554 75 15556; CX 15555 15554 15557; CA 15555 15556 15558; CX 15554 15558 15559;
  CX 15354 76 15560; CX 15559 76 15561; CX 15560 15559 15562; CA 15560 15561 15563; CX 15559 15563 15564; CX 15357 77 15565; CX 15564 77 15566; CX 15565 15564 15567;
  CA 15565 15566 15568; CX 15564 15568 15569; CX 15360 78 15570; CX 15569 78 15571; CX 15570 15569 15572; CA 15570 15571 15573; CX 15569 15573 15574; CX 15363 79 15575;
  CX 15574 79 15576; CX 15575 15574 15577; CA 15575 15576 15578; CX 15574 15578 15579; CX 15366 80 15580; CX 15579 80 15581; CX 15580 15579 15582; CA 15580 15581 15583;
  CX 15579 15583 15584; CX 15369 81 15585; CX 15584 81 15586; CX 15585 15584 15587; CA 15585 15586 15588; CX 15584 15588 15589; CX 15372 82 15590; CX 15589 82 15591;
  CX 15590 15589 15592; CA 15590 15591 15593; CX 15589 15593 15594; CX 15375 83 15595; CX 15594 83 15596; CX 15595 15594 15597; CA 15595 15596 15598; CX 15594 15598 15599;
  CX 15378 84 15600; CX 15599 84 15601; CX 15600 15599 15602; CA 15600 15601 15603; CX 15599 15603 15604; CX 15381 85 15605; CX 15604 85 15606; CX 15605 15604 15607;
  CA 15605 15606 15608; CX 15604 15608 15609; CX 15384 86 15610; CX 15609 86 15611; CX 15610 15609 15612; CA 15610 15611 15613; CX 15609 15613 15614; CX 15387 87 15615;
  CX 15614 87 15616; CX 15615 15614 15617; CA 15615 15616 15618; CX 15614 15618 15619; CX 15390 88 15620; CX 15619 88 15621; CX 15620 15619 15622; CA 15620 15621 15623;
  CX 15619 15623 15624; CX 15393 89 15625; CX 15624 89 15626; CX 15625 15624 15627; CA 15625 15626 15628; CX 15624 15628 15629; CX 15396 90 15630; CX 15629 90 15631;
  CX 15630 15629 15632; CA 15630 15631 15633; CX 15629 15633 15634; CX 15399 91 15635; CX 15634 91 15636; CX 15635 15634 15637; CA 15635 15636 15638; CX 15634 15638 15639;
  CX 15402 92 15640; CX 15639 92 15641; CX 15640 15639 15642; CA 15640 15641 15643; CX 15639 15643 15644; CX 15405 93 15645; CX 15644 93 15646; CX 15645 15644 15647;
  CA 15645 15646 15648; CX 15644 15648 15649; CX 15408 94 15650; CX 15649 94 15651; CX 15650 15649 15652; CA 15650 15651 15653; CX 15649 15653 15654; CX 15411 95 15655;
  CX 15654 95 15656; CX 15655 15654 15657; CA 15655 15656 15658; CX 15654 15658 15659; CX 15414 96 15660; CX 15659 96 15661; CX 15660 15659 15662; CA 15660 15661 15663;
  CX 15659 15663 15664; CX 15417 97 15665; CX 15664 97 15666; CX 15665 15664 15667; CA 15665 15666 15668; CX 15664 15668 15669; CX 15420 98 15670; CX 15669 98 15671;
  CX 15670 15669 15672; CA 15670 15671 15673; CX 15669 15673 15674; CX 15423 99 15675; CX 15674 99 15676; CX 15675 15674 15677; CA 15675 15676 15678; CX 15674 15678 15679;
  CX 15426 100 15680; CX 15679 100 15681; CX 15680 15679 15682; CA 15680 15681 15683; CX 15679 15683 15684; CX 15429 101 15685; CX 15684 101 15686; CX 15685 15684 15687;
  CA 15685 15686 15688; CX 15684 15688 15689; CX 15432 102 15690; CX 15689 102 15691; CX 15690 15689 15692; CA 15690 15691 15693; CX 15689 15693 15694; CX 15435 103 15695;
  CX 15694 103 15696; CX 15695 15694 15697; CA 15695 15696 15698; CX 15694 15698 15699; CX 15438 104 15700; CX 15699 104 15701; CX 15700 15699 15702; CA 15700 15701 15703;
  CX 15699 15703 15704; CX 15441 105 15705; CX 15704 105 15706; CX 15705 15704 15707; CA 15705 15706 15708; CX 15704 15708 15709; CX 15444 106 15710; CX 15709 106 15711;
  CX 15710 15709 15712; CA 15710 15711 15713; CX 15709 15713 15714; CX 15447 107 15715; CX 15714 107 15716; CX 15715 15714 15717; CA 15715 15716 15718; CX 15714 15718 15719;
  CX 15450 108 15720; CX 15719 108 15721; CX 15720 15719 15722; CA 15720 15721 15723; CX 15719 15723 15724; CX 15453 109 15725; CX 15724 109 15726; CX 15725 15724 15727].
(** Lines 15605-16004 of the file. *)
Definition udivide64_39 : list cg := [
  CA 15725 15726 15728; CX 15724 15728 15729; CX 15456 110 15730; CX 15729 110 15731; CX 15730 15729 15732; CA 15730 15731 15733; CX 15729 15733 15734; CX 15459 111 15735;
  CX 15734 111 15736; CX 15735 15734 15737; CA 15735 15736 15738; CX 15734 15738 15739; CX 15462 112 15740; CX 15739 112 15741; CX 15740 15739 15742; CA 15740 15741 15743;
  CX 15739 15743 15744; CX 15465 113 15745; CX 15744 113 15746; CX 15745 15744 15747; CA 15745 15746 15748; CX 15744 15748 15749; CX 15468 114 15750; CX 15749 114 15751;
  CX 15750 15749 15752; CA 15750 15751 15753; CX 15749 15753 15754; CX 15471 115 15755; CX 15754 115 15756; CX 15755 15754 15757; CA 15755 15756 15758; CX 15754 15758 15759;
  CX 15474 116 15760; CX 15759 116 15761; CX 15760 15759 15762; CA 15760 15761 15763; CX 15759 15763 15764; CX 15477 117 15765; CX 15764 117 15766; CX 15765 15764 15767;
  CA 15765 15766 15768; CX 15764 15768 15769; CX 15480 118 15770; CX 15769 118 15771; CX 15770 15769 15772; CA 15770 15771 15773; CX 15769 15773 15774; CX 15483 119 15775;
  CX 15774 119 15776; CX 15775 15774 15777; CA 15775 15776 15778; CX 15774 15778 15779; CX 15486 120 15780; CX 15779 120 15781; CX 15780 15779 15782; CA 15780 15781 15783;
  CX 15779 15783 15784; CX 15489 121 15785; CX 15784 121 15786; CX 15785 15784 15787; CA 15785 15786 15788; CX 15784 15788 15789; CX 15492 122 15790; CX 15789 122 15791;
  CX 15790 15789 15792; CA 15790 15791 15793; CX 15789 15793 15794; CX 15495 123 15795; CX 15794 123 15796; CX 15795 15794 15797; CA 15795 15796 15798; CX 15794 15798 15799;
  CX 15498 124 15800; CX 15799 124 15801; CX 15800 15799 15802; CA 15800 15801 15803; CX 15799 15803 15804; CX 15501 125 15805; CX 15804 125 15806; CX 15805 15804 15807;
  CA 15805 15806 15808; CX 15804 15808 15809; CA 15809 130 15810; CX 15809 130 15811; CX 15811 15810 15812; CX 2 15503 15813; CA 15812 15813 15814; CX 15814 15503 15815;
  CX 15321 15507 15816; CA 15812 15816 15817; CX 15817 15507 15818; CX 15324 15512 15819; CA 15812 15819 15820; CX 15820 15512 15821; CX 15327 15517 15822; CA 15812 15822 15823;
  CX 15823 15517 15824; CX 15330 15522 15825; CA 15812 15825 15826; CX 15826 15522 15827; CX 15333 15527 15828; CA 15812 15828 15829; CX 15829 15527 15830; CX 15336 15532 15831;
  CA 15812 15831 15832; CX 15832 15532 15833; CX 15339 15537 15834; CA 15812 15834 15835; CX 15835 15537 15836; CX 15342 15542 15837; CA 15812 15837 15838; CX 15838 15542 15839;
  CX 15345 15547 15840; CA 15812 15840 15841; CX 15841 15547 15842; CX 15348 15552 15843; CA 15812 15843 15844; CX 15844 15552 15845; CX 15351 15557 15846; CA 15812 15846 15847;
  CX 15847 15557 15848; CX 15354 15562 15849; CA 15812 15849 15850; CX 15850 15562 15851; CX 15357 15567 15852; CA 15812 15852 15853; CX 15853 15567 15854; CX 15360 15572 15855;
  CA 15812 15855 15856; CX 15856 15572 15857; CX 15363 15577 15858; CA 15812 15858 15859; CX 15859 15577 15860; CX 15366 15582 15861; CA 15812 15861 15862; CX 15862 15582 15863;
  CX 15369 15587 15864; CA 15812 15864 15865; CX 15865 15587 15866; CX 15372 15592 15867; CA 15812 15867 15868; CX 15868 15592 15869; CX 15375 15597 15870; CA 15812 15870 15871;
  CX 15871 15597 15872; CX 15378 15602 15873; CA 15812 15873 15874; CX 15874 15602 15875; CX 15381 15607 15876; CA 15812 15876 15877; CX 15877 15607 15878; CX 15384 15612 15879;
  CA 15812 15879 15880; CX 15880 15612 15881; CX 15387 15617 15882; CA 15812 15882 15883; CX 15883 15617 15884; CX 15390 15622 15885; CA 15812 15885 15886; CX 15886 15622 15887;
  CX 15393 15627 15888; CA 15812 15888 15889; CX 15889 15627 15890; CX 15396 15632 15891; CA 15812 15891 15892; CX 15892 15632 15893; CX 15399 15637 15894; CA 15812 15894 15895;
  CX 15895 15637 15896; CX 15402 15642 15897; CA 15812 15897 15898; CX 15898 15642 15899; CX 15405 15647 15900; CA 15812 15900 15901; CX 15901 15647 15902; CX 15408 15652 15903;
  CA 15812 15903 15904; CX 15904 15652 15905; CX 15411 15657 15906; CA 15812 15906 15907; CX 15907 15657 15908; CX 15414 15662 15909; CA 15812 15909 15910; CX 15910 15662 15911;
  CX 15417 15667 15912; CA 15812 15912 15913; CX 15913 15667 15914; CX 15420 15672 15915; CA 15812 15915 15916; CX 15916 15672 15917; CX 15423 15677 15918; CA 15812 15918 15919;
  CX 15919 15677 15920; CX 15426 15682 15921; CA 15812 15921 15922; CX 15922 15682 15923; CX 15429 15687 15924; CA 15812 15924 15925; CX 15925 15687 15926; CX 15432 15692 15927;
  CA 15812 15927 15928; CX 15928 15692 15929; CX 15435 15697 15930; CA 15812 15930 15931; CX 15931 15697 15932; CX 15438 15702 15933; CA 15812 15933 15934; CX 15934 15702 15935;
  CX 15441 15707 15936; CA 15812 15936 15937; CX 15937 15707 15938; CX 15444 15712 15939; CA 15812 15939 15940; CX 15940 15712 15941; CX 15447 15717 15942; CA 15812 15942 15943;
  CX 15943 15717 15944; CX 15450 15722 15945; CA 15812 15945 15946; CX 15946 15722 15947; CX 15453 15727 15948; CA 15812 15948 15949; CX 15949 15727 15950; CX 15456 15732 15951;
  CA 15812 15951 15952; CX 15952 15732 15953; CX 15459 15737 15954; CA 15812 15954 15955; CX 15955 15737 15956; CX 15462 15742 15957; CA 15812 15957 15958; CX 15958 15742 15959;
  CX 15465 15747 15960; CA 15812 15960 15961; CX 15961 15747 15962; CX 15468 15752 15963; CA 15812 15963 15964; CX 15964 15752 15965; CX 15471 15757 15966; CA 15812 15966 15967;
  CX 15967 15757 15968; CX 15474 15762 15969; CA 15812 15969 15970; CX 15970 15762 15971; CX 15477 15767 15972; CA 15812 15972 15973; CX 15973 15767 15974; CX 15480 15772 15975;
  CA 15812 15975 15976; CX 15976 15772 15977; CX 15483 15777 15978; CA 15812 15978 15979; CX 15979 15777 15980; CX 15486 15782 15981; CA 15812 15981 15982; CX 15982 15782 15983;
  CX 15489 15787 15984; CA 15812 15984 15985; CX 15985 15787 15986; CX 15492 15792 15987; CA 15812 15987 15988; CX 15988 15792 15989; CX 15495 15797 15990; CA 15812 15990 15991;
  CX 15991 15797 15992; CX 15498 15802 15993; CA 15812 15993 15994; CX 15994 15802 15995; CX 15501 15807 15996; CA 15812 15996 15997; CX 15997 15807 15998; CI 15812 15999;
  CX 1 64 16000; CA 16000 64 16001; CX 15815 65 16002; CX 16001 65 16003; CX 16002 16001 16004; CA 16002 16003 16005; CX 16001 16005 16006; CX 15818 66 16007;
  CX 16006 66 16008; CX 16007 16006 16009; CA 16007 16008 16010; CX 16006 16010 16011; CX 15821 67 16012; CX 16011 67 16013; CX 16012 16011 16014; CA 16012 16013 16015;
  CX 16011 16015 16016; CX 15824 68 16017; CX 16016 68 16018; CX 16017 16016 16019; CA 16017 16018 16020; CX 16016 16020 16021; CX 15827 69 16022; CX 16021 69 16023;
  CX 16022 16021 16024; CA 16022 16023 16025; CX 16021 16025 16026; CX 15830 70 16027; CX 16026 70 16028; CX 16027 16026 16029; CA 16027 16028 16030; CX 16026 16030 16031;
  CX 15833 71 16032; CX 16031 71 16033; CX 16032 16031 16034; CA 16032 16033 16035; CX 16031 16035 16036; CX 15836 72 16037; CX 16036 72 16038; CX 16037 16036 16039;
  CA 16037 16038 16040; CX 16036 16040 16041; CX 15839 73 16042; CX 16041 73 16043; CX 16042 16041 16044; CA 16042 16043 16045; CX 16041 16045 16046; CX 15842 74 16047;
  CX 16046 74 16048; CX 16047 16046 16049; CA 16047 16048 16050; CX 16046 16050 16051; CX 15845 75 16052; CX 16051 75 16053; CX 16052 16051 16054; CA 16052 16053 16055;
  CX 16051 16055 16056; CX 15848 76 16057; CX 16056 76 16058; CX 16057 16056 16059; CA 16057 16058 16060; CX 16056 16060 16061; CX 15851 77 16062; CX 16061 77 16063;
  CX 16062 16061 16064; CA 16062 16063 16065; CX 16061 16065 16066; CX 15854 78 16067; CX 16066 78 16068; CX 16067 16066 16069; CA 16067 16068 16070; CX 16066 16070 16071;
  CX 15857 79 16072; CX 16071 79 16073; CX 16072 16071 16074; CA 16072 16073 16075; CX 16071 16075 16076; CX 15860 80 16077; CX 16076 80 16078; CX 16077 16076 16079;
  CA 16077 16078 16080; CX 16076 16080 16081; CX 15863 81 16082; CX 16081 81 16083; CX 16082 16081 16084; CA 16082 16083 16085; CX 16081 16085 16086; CX 15866 82 16087;
  CX 16086 82 16088; CX 16087 16086 16089; CA 16087 16088 16090; CX 16086 16090 16091; CX 15869 83 16092; CX 16091 83 16093; CX 16092 16091 16094; CA 16092 16093 16095;
  CX 16091 16095 16096; CX 15872 84 16097; CX 16096 84 16098; CX 16097 16096 16099; CA 16097 16098 16100; CX 16096 16100 16101; CX 15875 85 16102; CX 16101 85 16103;
  CX 16102 16101 16104; CA 16102 16103 16105; CX 16101 16105 16106; CX 15878 86 16107; CX 16106 86 16108; CX 16107 16106 16109; CA 16107 16108 16110; CX 16106 16110 16111;
  CX 15881 87 16112; CX 16111 87 16113; CX 16112 16111 16114; CA 16112 16113 16115; CX 16111 16115 16116; CX 15884 88 16117; CX 16116 88 16118; CX 16117 16116 16119;
  CA 16117 16118 16120; CX 16116 16120 16121; CX 15887 89 16122; CX 16121 89 16123; CX 16122 16121 16124; CA 16122 16123 16125; CX 16121 16125 16126; CX 15890 90 16127].
(** Lines 16005-16404 of the file. *)
Definition udivide64_40 : list cg := [
  CX 16126 90 16128; CX 16127 16126 16129; CA 16127 16128 16130; CX 16126 16130 16131; CX 15893 91 16132; CX 16131 91 16133; CX 16132 16131 16134; CA 16132 16133 16135;
  CX 16131 16135 16136; CX 15896 92 16137; CX 16136 92 16138; CX 16137 16136 16139; CA 16137 16138 16140; CX 16136 16140 16141; CX 15899 93 16142; CX 16141 93 16143;
  CX 16142 16141 16144; CA 16142 16143 16145; CX 16141 16145 16146; CX 15902 94 16147; CX 16146 94 16148; CX 16147 16146 16149; CA 16147 16148 16150; CX 16146 16150 16151;
  CX 15905 95 16152; CX 16151 95 16153; CX 16152 16151 16154; CA 16152 16153 16155; CX 16151 16155 16156; CX 15908 96 16157; CX 16156 96 16158; CX 16157 16156 16159;
  CA 16157 16158 16160; CX 16156 16160 16161; CX 15911 97 16162; CX 16161 97 16163; CX 16162 16161 16164; CA 16162 16163 16165; CX 16161 16165 16166; CX 15914 98 16167;
  CX 16166 98 16168; CX 16167 16166 16169; CA 16167 16168 16170; CX 16166 16170 16171; CX 15917 99 16172; CX 16171 99 16173; CX 16172 16171 16174; CA 16172 16173 16175;
  CX 16171 16175 16176; CX 15920 100 16177; CX 16176 100 16178; CX 16177 16176 16179; CA 16177 16178 16180; CX 16176 16180 16181; CX 15923 101 16182; CX 16181 101 16183;
  CX 16182 16181 16184; CA 16182 16183 16185; CX 16181 16185 16186; CX 15926 102 16187; CX 16186 102 16188; CX 16187 16186 16189; CA 16187 16188 16190; CX 16186 16190 16191;
  CX 15929 103 16192; CX 16191 103 16193; CX 16192 16191 16194; CA 16192 16193 16195; CX 16191 16195 16196; CX 15932 104 16197; CX 16196 104 16198; CX 16197 16196 16199;
  CA 16197 16198 16200; CX 16196 16200 16201; CX 15935 105 16202; CX 16201 105 16203; CX 16202 16201 16204; CA 16202 16203 16205; CX 16201 16205 16206; CX 15938 106 16207;
  CX 16206 106 16208; CX 16207 16206 16209; CA 16207 16208 16210; CX 16206 16210 16211; CX 15941 107 16212; CX 16211 107 16213; CX 16212 16211 16214; CA 16212 16213 16215;
  CX 16211 16215 16216; CX 15944 108 16217; CX 16216 108 16218; CX 16217 16216 16219; CA 16217 16218 16220; CX 16216 16220 16221; CX 15947 109 16222; CX 16221 109 16223;
  CX 16222 16221 16224; CA 16222 16223 16225; CX 16221 16225 16226; CX 15950 110 16227; CX 16226 110 16228; CX 16227 16226 16229; CA 16227 16228 16230; CX 16226 16230 16231;
  CX 15953 111 16232; CX 16231 111 16233; CX 16232 16231 16234; CA 16232 16233 16235; CX 16231 16235 16236; CX 15956 112 16237; CX 16236 112 16238; CX 16237 16236 16239;
  CA 16237 16238 16240; CX 16236 16240 16241; CX 15959 113 16242; CX 16241 113 16243; CX 16242 16241 16244; CA 16242 16243 16245; CX 16241 16245 16246; CX 15962 114 16247;
  CX 16246 114 16248; CX 16247 16246 16249; CA 16247 16248 16250; CX 16246 16250 16251; CX 15965 115 16252; CX 16251 115 16253; CX 16252 16251 16254; CA 16252 16253 16255;
  CX 16251 16255 16256; CX 15968 116 16257; CX 16256 116 16258; CX 16257 16256 16259; CA 16257 16258 16260; CX 16256 16260 16261; CX 15971 117 16262; CX 16261 117 16263;
  CX 16262 16261 16264; CA 16262 16263 16265; CX 16261 16265 16266; CX 15974 118 16267; CX 16266 118 16268; CX 16267 16266 16269; CA 16267 16268 16270; CX 16266 16270 16271;
  CX 15977 119 16272; CX 16271 119 16273; CX 16272 16271 16274; CA 16272 16273 16275; CX 16271 16275 16276; CX 15980 120 16277; CX 16276 120 16278; CX 16277 16276 16279;
  CA 16277 16278 16280; CX 16276 16280 16281; CX 15983 121 16282; CX 16281 121 16283; CX 16282 16281 16284; CA 16282 16283 16285; CX 16281 16285 16286; CX 15986 122 16287;
  CX 16286 122 16288; CX 16287 16286 16289; CA 16287 16288 16290; CX 16286 16290 16291; CX 15989 123 16292; CX 16291 123 16293; CX 16292 16291 16294; CA 16292 16293 16295;
  CX 16291 16295 16296; CX 15992 124 16297; CX 16296 124 16298; CX 16297 16296 16299; CA 16297 16298 16300; CX 16296 16300 16301; CX 15995 125 16302; CX 16301 125 16303;
  CX 16302 16301 16304; CA 16302 16303 16305; CX 16301 16305 16306; CX 15998 126 16307; CX 16306 126 16308; CX 16307 16306 16309; CA 16307 16308 16310; CX 16306 16310 16311;
  CA 16311 127 16312; CX 16311 127 16313; CX 16313 16312 16314; CX 1 16000 16315; CA 16314 16315 16316; CX 16316 16000 16317; CX 15815 16004 16318; CA 16314 16318 16319;
  CX 16319 16004 16320; CX 15818 16009 16321; CA 16314 16321 16322; CX 16322 16009 16323; CX 15821 16014 16324; CA 16314 16324 16325; CX 16325 16014 16326; CX 15824 16019 16327;
  CA 16314 16327 16328; CX 16328 16019 16329; CX 15827 16024 16330; CA 16314 16330 16331; CX 16331 16024 16332; CX 15830 16029 16333; CA 16314 16333 16334; CX 16334 16029 16335;
  CX 15833 16034 16336; CA 16314 16336 16337; CX 16337 16034 16338; CX 15836 16039 16339; CA 16314 16339 16340; CX 16340 16039 16341; CX 15839 16044 16342; CA 16314 16342 16343;
  CX 16343 16044 16344; CX 15842 16049 16345; CA 16314 16345 16346; CX 16346 16049 16347; CX 15845 16054 16348; CA 16314 16348 16349; CX 16349 16054 16350; CX 15848 16059 16351;
  CA 16314 16351 16352; CX 16352 16059 16353; CX 15851 16064 16354; CA 16314 16354 16355; CX 16355 16064 16356; CX 15854 16069 16357; CA 16314 16357 16358; CX 16358 16069 16359;
  CX 15857 16074 16360; CA 16314 16360 16361; CX 16361 16074 16362; CX 15860 16079 16363; CA 16314 16363 16364; CX 16364 16079 16365; CX 15863 16084 16366; CA 16314 16366 16367;
  CX 16367 16084 16368; CX 15866 16089 16369; CA 16314 16369 16370; CX 16370 16089 16371; CX 15869 16094 16372; CA 16314 16372 16373; CX 16373 16094 16374; CX 15872 16099 16375;
  CA 16314 16375 16376; CX 16376 16099 16377; CX 15875 16104 16378; CA 16314 16378 16379; CX 16379 16104 16380; CX 15878 16109 16381; CA 16314 16381 16382; CX 16382 16109 16383;
  CX 15881 16114 16384; CA 16314 16384 16385; CX 16385 16114 16386; CX 15884 16119 16387; CA 16314 16387 16388; CX 16388 16119 16389; CX 15887 16124 16390; CA 16314 16390 16391;
  CX 16391 16124 16392; CX 15890 16129 16393; CA 16314 16393 16394; CX 16394 16129 16395; CX 15893 16134 16396; CA 16314 16396 16397; CX 16397 16134 16398; CX 15896 16139 16399;
  CA 16314 16399 16400; CX 16400 16139 16401; CX 15899 16144 16402; CA 16314 16402 16403; CX 16403 16144 16404; CX 15902 16149 16405; CA 16314 16405 16406; CX 16406 16149 16407;
  CX 15905 16154 16408; CA 16314 16408 16409; CX 16409 16154 16410; CX 15908 16159 16411; CA 16314 16411 16412; CX 16412 16159 16413; CX 15911 16164 16414; CA 16314 16414 16415;
  CX 16415 16164 16416; CX 15914 16169 16417; CA 16314 16417 16418; CX 16418 16169 16419; CX 15917 16174 16420; CA 16314 16420 16421; CX 16421 16174 16422; CX 15920 16179 16423;
  CA 16314 16423 16424; CX 16424 16179 16425; CX 15923 16184 16426; CA 16314 16426 16427; CX 16427 16184 16428; CX 15926 16189 16429; CA 16314 16429 16430; CX 16430 16189 16431;
  CX 15929 16194 16432; CA 16314 16432 16433; CX 16433 16194 16434; CX 15932 16199 16435; CA 16314 16435 16436; CX 16436 16199 16437; CX 15935 16204 16438; CA 16314 16438 16439;
  CX 16439 16204 16440; CX 15938 16209 16441; CA 16314 16441 16442; CX 16442 16209 16443; CX 15941 16214 16444; CA 16314 16444 16445; CX 16445 16214 16446; CX 15944 16219 16447;
  CA 16314 16447 16448; CX 16448 16219 16449; CX 15947 16224 16450; CA 16314 16450 16451; CX 16451 16224 16452; CX 15950 16229 16453; CA 16314 16453 16454; CX 16454 16229 16455;
  CX 15953 16234 16456; CA 16314 16456 16457; CX 16457 16234 16458; CX 15956 16239 16459; CA 16314 16459 16460; CX 16460 16239 16461; CX 15959 16244 16462; CA 16314 16462 16463;
  CX 16463 16244 16464; CX 15962 16249 16465; CA 16314 16465 16466; CX 16466 16249 16467; CX 15965 16254 16468; CA 16314 16468 16469; CX 16469 16254 16470; CX 15968 16259 16471;
  CA 16314 16471 16472; CX 16472 16259 16473; CX 15971 16264 16474; CA 16314 16474 16475; CX 16475 16264 16476; CX 15974 16269 16477; CA 16314 16477 16478; CX 16478 16269 16479;
  CX 15977 16274 16480; CA 16314 16480 16481; CX 16481 16274 16482; CX 15980 16279 16483; CA 16314 16483 16484; CX 16484 16279 16485; CX 15983 16284 16486; CA 16314 16486 16487;
  CX 16487 16284 16488; CX 15986 16289 16489; CA 16314 16489 16490; CX 16490 16289 16491; CX 15989 16294 16492; CA 16314 16492 16493; CX 16493 16294 16494; CX 15992 16299 16495;
  CA 16314 16495 16496; CX 16496 16299 16497; CX 15995 16304 16498; CA 16314 16498 16499; CX 16499 16304 16500; CX 15998 16309 16501; CA 16314 16501 16502; CX 16502 16309 16503;
  CI 16314 16504; CX 0 64 16505; CA 16505 64 16506; CX 16317 65 16507; CX 16506 65 16508; CX 16507 16506 16509; CA 16507 16508 16510; CX 16506 16510 16511;
  CX 16320 66 16512; CX 16511 66 16513; CX 16512 16511 16514; CA 16512 16513 16515; CX 16511 16515 16516; CX 16323 67 16517; CX 16516 67 16518; CX 16517 16516 16519;
  CA 16517 16518 16520; CX 16516 16520 16521; CX 16326 68 16522; CX 16521 68 16523; CX 16522 16521 16524; CA 16522 16523 16525; CX 16521 16525 16526; CX 16329 69 16527].
(** Lines 16405-16804 of the file. *)
Definition udivide64_41 : list cg := [
  CX 16526 69 16528; CX 16527 16526 16529; CA 16527 16528 16530; CX 16526 16530 16531; CX 16332 70 16532; CX 16531 70 16533; CX 16532 16531 16534; CA 16532 16533 16535;
  CX 16531 16535 16536; CX 16335 71 16537; CX 16536 71 16538; CX 16537 16536 16539; CA 16537 16538 16540; CX 16536 16540 16541; CX 16338 72 16542; CX 16541 72 16543;
  CX 16542 16541 16544; CA 16542 16543 16545; CX 16541 16545 16546; CX 16341 73 16547; CX 16546 73 16548; CX 16547 16546 16549; CA 16547 16548 16550; CX 16546 16550 16551;
  CX 16344 74 16552; CX 16551 74 16553; CX 16552 16551 16554; CA 16552 16553 16555; CX 16551 16555 16556; CX 16347 75 16557; CX 16556 75 16558; CX 16557 16556 16559;
  CA 16557 16558 16560; CX 16556 16560 16561; CX 16350 76 16562; CX 16561 76 16563; CX 16562 16561 16564; CA 16562 16563 16565; CX 16561 16565 16566; CX 16353 77 16567;
  CX 16566 77 16568; CX 16567 16566 16569; CA 16567 16568 16570; CX 16566 16570 16571; CX 16356 78 16572; CX 16571 78 16573; CX 16572 16571 16574; CA 16572 16573 16575;
  CX 16571 16575 16576; CX 16359 79 16577; CX 16576 79 16578; CX 16577 16576 16579; CA 16577 16578 16580; CX 16576 16580 16581; CX 16362 80 16582; CX 16581 80 16583;
  CX 16582 16581 16584; CA 16582 16583 16585; CX 16581 16585 16586; CX 16365 81 16587; CX 16586 81 16588; CX 16587 16586 16589; CA 16587 16588 16590; CX 16586 16590 16591;
  CX 16368 82 16592; CX 16591 82 16593; CX 16592 16591 16594; CA 16592 16593 16595; CX 16591 16595 16596; CX 16371 83 16597; CX 16596 83 16598; CX 16597 16596 16599;
  CA 16597 16598 16600; CX 16596 16600 16601; CX 16374 84 16602; CX 16601 84 16603; CX 16602 16601 16604; CA 16602 16603 16605; CX 16601 16605 16606; CX 16377 85 16607;
  CX 16606 85 16608; CX 16607 16606 16609; CA 16607 16608 16610; CX 16606 16610 16611; CX 16380 86 16612; CX 16611 86 16613; CX 16612 16611 16614; CA 16612 16613 16615;
  CX 16611 16615 16616; CX 16383 87 16617; CX 16616 87 16618; CX 16617 16616 16619; CA 16617 16618 16620; CX 16616 16620 16621; CX 16386 88 16622; CX 16621 88 16623;
  CX 16622 16621 16624; CA 16622 16623 16625; CX 16621 16625 16626; CX 16389 89 16627; CX 16626 89 16628; CX 16627 16626 16629; CA 16627 16628 16630; CX 16626 16630 16631;
  CX 16392 90 16632; CX 16631 90 16633; CX 16632 16631 16634; CA 16632 16633 16635; CX 16631 16635 16636; CX 16395 91 16637; CX 16636 91 16638; CX 16637 16636 16639;
  CA 16637 16638 16640; CX 16636 16640 16641; CX 16398 92 16642; CX 16641 92 16643; CX 16642 16641 16644; CA 16642 16643 16645; CX 16641 16645 16646; CX 16401 93 16647;
  CX 16646 93 16648; CX 16647 16646 16649; CA 16647 16648 16650; CX 16646 16650 16651; CX 16404 94 16652; CX 16651 94 16653; CX 16652 16651 16654; CA 16652 16653 16655;
  CX 16651 16655 16656; CX 16407 95 16657; CX 16656 95 16658; CX 16657 16656 16659; CA 16657 16658 16660; CX 16656 16660 16661; CX 16410 96 16662; CX 16661 96 16663;
  CX 16662 16661 16664; CA 16662 16663 16665; CX 16661 16665 16666; CX 16413 97 16667; CX 16666 97 16668; CX 16667 16666 16669; CA 16667 16668 16670; CX 16666 16670 16671;
  CX 16416 98 16672; CX 16671 98 16673; CX 16672 16671 16674; CA 16672 16673 16675; CX 16671 16675 16676; CX 16419 99 16677; CX 16676 99 16678; CX 16677 16676 16679;
  CA 16677 16678 16680; CX 16676 16680 16681; CX 16422 100 16682; CX 16681 100 16683; CX 16682 16681 16684; CA 16682 16683 16685; CX 16681 16685 16686; CX 16425 101 16687;
  CX 16686 101 16688; CX 16687 16686 16689; CA 16687 16688 16690; CX 16686 16690 16691; CX 16428 102 16692; CX 16691 102 16693; CX 16692 16691 16694; CA 16692 16693 16695;
  CX 16691 16695 16696; CX 16431 103 16697; CX 16696 103 16698; CX 16697 16696 16699; CA 16697 16698 16700; CX 16696 16700 16701; CX 16434 104 16702; CX 16701 104 16703;
  CX 16702 16701 16704; CA 16702 16703 16705; CX 16701 16705 16706; CX 16437 105 16707; CX 16706 105 16708; CX 16707 16706 16709; CA 16707 16708 16710; CX 16706 16710 16711;
  CX 16440 106 16712; CX 16711 106 16713; CX 16712 16711 16714; CA 16712 16713 16715; CX 16711 16715 16716; CX 16443 107 16717; CX 16716 107 16718; CX 16717 16716 16719;
  CA 16717 16718 16720; CX 16716 16720 16721; CX 16446 108 16722; CX 16721 108 16723; CX 16722 16721 16724; CA 16722 16723 16725; CX 16721 16725 16726; CX 16449 109 16727;
  CX 16726 109 16728; CX 16727 16726 16729; CA 16727 16728 16730; CX 16726 16730 16731; CX 16452 110 16732; CX 16731 110 16733; CX 16732 16731 16734; CA 16732 16733 16735;
  CX 16731 16735 16736; CX 16455 111 16737; CX 16736 111 16738; CX 16737 16736 16739; CA 16737 16738 16740; CX 16736 16740 16741; CX 16458 112 16742; CX 16741 112 16743;
  CX 16742 16741 16744; CA 16742 16743 16745; CX 16741 16745 16746; CX 16461 113 16747; CX 16746 113 16748; CX 16747 16746 16749; CA 16747 16748 16750; CX 16746 16750 16751;
  CX 16464 114 16752; CX 16751 114 16753; CX 16752 16751 16754; CA 16752 16753 16755; CX 16751 16755 16756; CX 16467 115 16757; CX 16756 115 16758; CX 16757 16756 16759;
  CA 16757 16758 16760; CX 16756 16760 16761; CX 16470 116 16762; CX 16761 116 16763; CX 16762 16761 16764; CA 16762 16763 16765; CX 16761 16765 16766; CX 16473 117 16767;
  CX 16766 117 16768; CX 16767 16766 16769; CA 16767 16768 16770; CX 16766 16770 16771; CX 16476 118 16772; CX 16771 118 16773; CX 16772 16771 16774; CA 16772 16773 16775;
  CX 16771 16775 16776; CX 16479 119 16777; CX 16776 119 16778; CX 16777 16776 16779; CA 16777 16778 16780; CX 16776 16780 16781; CX 16482 120 16782; CX 16781 120 16783;
  CX 16782 16781 16784; CA 16782 16783 16785; CX 16781 16785 16786; CX 16485 121 16787; CX 16786 121 16788; CX 16787 16786 16789; CA 16787 16788 16790; CX 16786 16790 16791;
  CX 16488 122 16792; CX 16791 122 16793; CX 16792 16791 16794; CA 16792 16793 16795; CX 16791 16795 16796; CX 16491 123 16797; CX 16796 123 16798; CX 16797 16796 16799;
  CA 16797 16798 16800; CX 16796 16800 16801; CX 16494 124 16802; CX 16801 124 16803; CX 16802 16801 16804; CA 16802 16803 16805; CX 16801 16805 16806; CX 16497 125 16807;
  CX 16806 125 16808; CX 16807 16806 16809; CA 16807 16808 16810; CX 16806 16810 16811; CX 16500 126 16812; CX 16811 126 16813; CX 16812 16811 16814; CA 16812 16813 16815;
  CX 16811 16815 16816; CX 16503 127 16817; CX 16816 127 16818; CX 16817 16816 16819; CA 16817 16818 16820; CX 16816 16820 16821; CX 0 16505 16822; CA 16821 16822 16823;
  CX 16823 16505 16824; CX 16317 16509 16825; CA 16821 16825 16826; CX 16826 16509 16827; CX 16320 16514 16828; CA 16821 16828 16829; CX 16829 16514 16830; CX 16323 16519 16831;
  CA 16821 16831 16832; CX 16832 16519 16833; CX 16326 16524 16834; CA 16821 16834 16835; CX 16835 16524 16836; CX 16329 16529 16837; CA 16821 16837 16838; CX 16838 16529 16839;
  CX 16332 16534 16840; CA 16821 16840 16841; CX 16841 16534 16842; CX 16335 16539 16843; CA 16821 16843 16844; CX 16844 16539 16845; CX 16338 16544 16846; CA 16821 16846 16847;
  CX 16847 16544 16848; CX 16341 16549 16849; CA 16821 16849 16850; CX 16850 16549 16851; CX 16344 16554 16852; CA 16821 16852 16853; CX 16853 16554 16854; CX 16347 16559 16855;
  CA 16821 16855 16856; CX 16856 16559 16857; CX 16350 16564 16858; CA 16821 16858 16859; CX 16859 16564 16860; CX 16353 16569 16861; CA 16821 16861 16862; CX 16862 16569 16863;
  CX 16356 16574 16864; CA 16821 16864 16865; CX 16865 16574 16866; CX 16359 16579 16867; CA 16821 16867 16868; CX 16868 16579 16869; CX 16362 16584 16870; CA 16821 16870 16871;
  CX 16871 16584 16872; CX 16365 16589 16873; CA 16821 16873 16874; CX 16874 16589 16875; CX 16368 16594 16876; CA 16821 16876 16877; CX 16877 16594 16878; CX 16371 16599 16879;
  CA 16821 16879 16880; CX 16880 16599 16881; CX 16374 16604 16882; CA 16821 16882 16883; CX 16883 16604 16884; CX 16377 16609 16885; CA 16821 16885 16886; CX 16886 16609 16887;
  CX 16380 16614 16888; CA 16821 16888 16889; CX 16889 16614 16890; CX 16383 16619 16891; CA 16821 16891 16892; CX 16892 16619 16893; CX 16386 16624 16894; CA 16821 16894 16895;
  CX 16895 16624 16896; CX 16389 16629 16897; CA 16821 16897 16898; CX 16898 16629 16899; CX 16392 16634 16900; CA 16821 16900 16901; CX 16901 16634 16902; CX 16395 16639 16903;
  CA 16821 16903 16904; CX 16904 16639 16905; CX 16398 16644 16906; CA 16821 16906 16907; CX 16907 16644 16908; CX 16401 16649 16909; CA 16821 16909 16910; CX 16910 16649 16911;
  CX 16404 16654 16912; CA 16821 16912 16913; CX 16913 16654 16914; CX 16407 16659 16915; CA 16821 16915 16916; CX 16916 16659 16917; CX 16410 16664 16918; CA 16821 16918 16919;
  CX 16919 16664 16920; CX 16413 16669 16921; CA 16821 16921 16922; CX 16922 16669 16923; CX 16416 16674 16924; CA 16821 16924 16925; CX 16925 16674 16926; CX 16419 16679 16927].
(** Lines 16805-16956 of the file. *)
Definition udivide64_42 : list cg := [
  CA 16821 16927 16928; CX 16928 16679 16929; CX 16422 16684 16930; CA 16821 16930 16931; CX 16931 16684 16932; CX 16425 16689 16933; CA 16821 16933 16934; CX 16934 16689 16935;
  CX 16428 16694 16936; CA 16821 16936 16937; CX 16937 16694 16938; CX 16431 16699 16939; CA 16821 16939 16940; CX 16940 16699 16941; CX 16434 16704 16942; CA 16821 16942 16943;
  CX 16943 16704 16944; CX 16437 16709 16945; CA 16821 16945 16946; CX 16946 16709 16947; CX 16440 16714 16948; CA 16821 16948 16949; CX 16949 16714 16950; CX 16443 16719 16951;
  CA 16821 16951 16952; CX 16952 16719 16953; CX 16446 16724 16954; CA 16821 16954 16955; CX 16955 16724 16956; CX 16449 16729 16957; CA 16821 16957 16958; CX 16958 16729 16959;
  CX 16452 16734 16960; CA 16821 16960 16961; CX 16961 16734 16962; CX 16455 16739 16963; CA 16821 16963 16964; CX 16964 16739 16965; CX 16458 16744 16966; CA 16821 16966 16967;
  CX 16967 16744 16968; CX 16461 16749 16969; CA 16821 16969 16970; CX 16970 16749 16971; CX 16464 16754 16972; CA 16821 16972 16973; CX 16973 16754 16974; CX 16467 16759 16975;
  CA 16821 16975 16976; CX 16976 16759 16977; CX 16470 16764 16978; CA 16821 16978 16979; CX 16979 16764 16980; CX 16473 16769 16981; CA 16821 16981 16982; CX 16982 16769 16983;
  CX 16476 16774 16984; CA 16821 16984 16985; CX 16985 16774 16986; CX 16479 16779 16987; CA 16821 16987 16988; CX 16988 16779 16989; CX 16482 16784 16990; CA 16821 16990 16991;
  CX 16991 16784 16992; CX 16485 16789 16993; CA 16821 16993 16994; CX 16994 16789 16995; CX 16488 16794 16996; CA 16821 16996 16997; CX 16997 16794 16998; CX 16491 16799 16999;
  CA 16821 16999 17000; CX 17000 16799 17001; CX 16494 16804 17002; CA 16821 17002 17003; CX 17003 16804 17004; CX 16497 16809 17005; CA 16821 17005 17006; CX 17006 16809 17007;
  CX 16500 16814 17008; CA 16821 17008 17009; CX 17009 16814 17010; CX 16503 16819 17011; CA 16821 17011 17012; CX 17012 16819 17013; CI 16821 17014; CX 0 0 17015;
  CX 17015 17014 17016; CX 17015 16504 17017; CX 17015 15999 17018; CX 17015 15502 17019; CX 17015 15013 17020; CX 17015 14532 17021; CX 17015 14059 17022; CX 17015 13594 17023;
  CX 17015 13137 17024; CX 17015 12688 17025; CX 17015 12247 17026; CX 17015 11814 17027; CX 17015 11389 17028; CX 17015 10972 17029; CX 17015 10563 17030; CX 17015 10162 17031;
  CX 17015 9769 17032; CX 17015 9384 17033; CX 17015 9007 17034; CX 17015 8638 17035; CX 17015 8277 17036; CX 17015 7924 17037; CX 17015 7579 17038; CX 17015 7242 17039;
  CX 17015 6913 17040; CX 17015 6592 17041; CX 17015 6279 17042; CX 17015 5974 17043; CX 17015 5677 17044; CX 17015 5388 17045; CX 17015 5107 17046; CX 17015 4834 17047;
  CX 17015 4569 17048; CX 17015 4312 17049; CX 17015 4063 17050; CX 17015 3822 17051; CX 17015 3589 17052; CX 17015 3364 17053; CX 17015 3147 17054; CX 17015 2938 17055;
  CX 17015 2737 17056; CX 17015 2544 17057; CX 17015 2359 17058; CX 17015 2182 17059; CX 17015 2013 17060; CX 17015 1852 17061; CX 17015 1699 17062; CX 17015 1554 17063;
  CX 17015 1417 17064; CX 17015 1288 17065; CX 17015 1167 17066; CX 17015 1054 17067; CX 17015 949 17068; CX 17015 852 17069; CX 17015 763 17070; CX 17015 682 17071;
  CX 17015 609 17072; CX 17015 544 17073; CX 17015 487 17074; CX 17015 438 17075; CX 17015 397 17076; CX 17015 364 17077; CX 17015 339 17078; CX 17015 322 17079].
(** /repo/src/circuits/arithmetic/udivide64.txt; lines 1-4 are the header. *)
Definition udivide64_gates : list cg := concat [udivide64_0; udivide64_1; udivide64_2; udivide64_3; udivide64_4; udivide64_5; udivide64_6; udivide64_7; udivide64_8; udivide64_9; udivide64_10; udivide64_11; udivide64_12; udivide64_13; udivide64_14; udivide64_15; udivide64_16; udivide64_17; udivide64_18; udivide64_19; udivide64_20; udivide64_21; udivide64_22; udivide64_23; udivide64_24; udivide64_25; udivide64_26; udivide64_27; udivide64_28; udivide64_29; udivide64_30; udivide64_31; udivide64_32; udivide64_33; udivide64_34; udivide64_35; udivide64_36; udivide64_37; udivide64_38; udivide64_39; udivide64_40; udivide64_41; udivide64_42].
Definition udivide64 : netlist := NL ("16952 17080"%string, "2 64 64 "%string, "1 64"%string, "                                                                                                                                                                                   "%string) (16952, 17080, [64; 64], [64]) udivide64_gates (NoLF).
