(** Generated by /verif/tools/gen_netlists.py from /repo/src/circuits/cryptography/AES-non-expanded.txt. *)
From Verif Require Import Netlist.
Open Scope N_scope.
Open Scope list_scope.

(** Lines 5-404 of the file. *)
Definition aes128_0 : list cg := [
  CX 226 229 33736; CX 178 50 33663; CX 251 123 33552; CX 219 91 33561; CX 213 85 33698; CX 232 235 32593; CX 163 35 33582; CX 186 58 33722;
  CX 245 117 33683; CX 248 254 32596; CX 235 237 32226; CX 224 227 32556; CX 172 44 33692; CX 197 69 33671; CX 249 250 33651; CX 215 87 32601;
  CX 214 86 33575; CX 231 103 32527; CX 250 122 33711; CX 232 237 32477; CX 238 110 33540; CX 183 55 32532; CX 203 75 33527; CX 223 95 32524;
  CX 133 5 33725; CX 187 59 33526; CX 251 253 32250; CX 255 127 32586; CX 233 237 33649; CX 227 99 33563; CX 236 108 33656; CX 196 68 33734;
  CX 243 115 33572; CX 157 29 33701; CX 222 94 33555; CX 161 33 33668; CX 134 6 33538; CX 170 42 33731; CX 206 78 33537; CX 241 245 33636;
  CX 240 243 32530; CX 138 10 33719; CX 156 28 33700; CX 224 230 32546; CX 221 93 33716; CX 173 45 33670; CX 152 24 33717; CX 242 245 33720;
  CX 234 237 33657; CX 241 242 33643; CX 175 47 32603; CX 218 90 33689; CX 190 62 33573; CX 211 83 33553; CX 252 254 33678; CX 180 52 33742;
  CX 252 124 33738; CX 146 18 33672; CX 244 116 33741; CX 234 106 33661; CX 166 38 33574; CX 243 245 32251; CX 232 238 32568; CX 248 251 32615;
  CX 202 74 33730; CX 237 109 33674; CX 130 2 33712; CX 228 230 33686; CX 209 81 33707; CX 181 53 33664; CX 210 82 33697; CX 153 25 33737;
  CX 136 8 33681; CX 225 97 33739; CX 177 49 33726; CX 168 40 33728; CX 246 118 33560; CX 164 36 33709; CX 182 54 33544; CX 226 98 33727;
  CX 188 60 33740; CX 224 229 32484; CX 128 0 33659; CX 232 104 33693; CX 185 57 33723; CX 154 26 33714; CX 204 76 33729; CX 148 20 33704;
  CX 191 63 32602; CX 248 120 33676; CX 228 100 33743; CX 162 34 33721; CX 129 1 33713; CX 194 66 33679; CX 220 92 33703; CX 249 121 33696;
  CX 249 253 33620; CX 240 245 32500; CX 176 48 33735; CX 198 70 33543; CX 205 77 33685; CX 160 32 33702; CX 225 226 33641; CX 151 23 32565;
  CX 240 112 33667; CX 239 111 32558; CX 140 12 33732; CX 248 253 32488; CX 147 19 33532; CX 195 67 33566; CX 230 102 33584; CX 253 125 33677;
  CX 144 16 33675; CX 216 88 33715; CX 227 229 32280; CX 131 3 33535; CX 145 17 33673; CX 254 126 33551; CX 244 246 33699; CX 200 72 33680;
  CX 193 65 33710; CX 179 51 33529; CX 132 4 33688; CX 139 11 33547; CX 149 21 33660; CX 174 46 33525; CX 208 80 33718; CX 242 114 33708;
  CX 184 56 33694; CX 201 73 33684; CX 241 113 33691; CX 143 15 32540; CX 199 71 32576; CX 240 246 32549; CX 207 79 32536; CX 150 22 33536;
  CX 159 31 32534; CX 225 229 33642; CX 233 105 33662; CX 155 27 33534; CX 217 89 33690; CX 137 9 33706; CX 247 119 32578; CX 229 101 33669;
  CX 233 234 33637; CX 250 253 33665; CX 142 14 33549; CX 167 39 32598; CX 235 107 33557; CX 212 84 33733; CX 171 43 33541; CX 165 37 33666;
  CX 192 64 33724; CX 169 41 33705; CX 158 30 33531; CX 224 96 33687; CX 189 61 33695; CX 141 13 33682; CX 236 238 33658; CX 135 7 32587;
  CI 227 30918; CI 254 33653; CI 246 33655; CI 238 33652; CI 224 30734; CI 231 30730; CI 229 30753; CI 230 33654;
  CX 33656 33540 33618; CX 33657 33658 32580; CX 33535 33659 32324; CX 33532 33660 32054; CX 33661 33662 33564; CX 33663 33664 33630; CX 33665 32615 32209; CX 33582 33666 32037;
  CX 33667 33560 32364; CX 33668 33666 33579; CX 33563 33669 32096; CX 33541 33670 32053; CX 33566 33671 32040; CX 33672 33673 33539; CX 32250 32596 32465; CX 33557 33674 32134;
  CX 33532 33675 32347; CX 231 33641 32876; CX 33676 33677 32201; CX 32251 32549 32506; CX 33620 33678 32599; CX 33679 33671 33647; CX 33527 33680 32314; CX 33681 33682 32180;
  CX 33572 33683 32030; CX 33684 33685 33556; CX 33673 33660 33524; CX 33678 32615 32516; CX 33642 33686 32572; CX 33687 33584 32313; CX 33688 33538 33624; CX 33689 33690 33568;
  CX 33552 33677 32127; CX 33657 32593 32199; CX 33691 33683 33586; CX 33692 33525 33628; CX 33693 33674 32254; CX 33665 33678 32529; CX 33694 33695 32255; CX 33529 33664 32018;
  CX 33696 33677 33569; CX 33697 33698 33625; CX 33636 33699 32575; CX 33700 33531 33622; CX 33534 33701 32095; CX 33702 33666 32205; CX 33703 33555 33644; CX 33704 33536 33635;
  CX 33705 33670 33559; CX 33706 33682 33554; CX 33697 33707 33545; CX 33708 33691 33580; CX 33709 33574 33626; CX 33679 33710 33578; CX 33711 33677 33646; CX 33712 33713 33585;
  CX 33675 33536 32353; CX 33714 33701 33619; CX 33715 33716 32192; CX 33534 33717 32369; CX 33718 33698 32212; CX 32226 32568 32522; CX 33719 33706 33583; CX 33707 33698 33581;
  CX 33720 33699 32608; CX 33721 33666 33633; CX 33699 32530 32473; CX 33561 33715 32361; CX 33582 33702 32323; CX 33658 32593 32468; CX 33561 33716 32065; CX 33557 33693 32342;
  CX 33722 33723 33562; CX 33724 33543 32343; CX 33712 33725 33629; CX 33680 33537 32331; CX 247 33643 32877; CX 33661 33674 33617; CX 33527 33685 32122; CX 33663 33726 33577;
  CX 33553 33718 32317; CX 33721 33668 33533; CX 33715 33555 32311; CX 33681 33549 32374; CX 33727 33669 33614; CX 33667 33683 32256; CX 33541 33728 32339; CX 33717 33701 32273;
  CX 33729 33537 33632; CX 33730 33685 33631; CX 33675 33660 32190; CX 33681 33547 32332; CX 33687 33669 32285; CX 33731 33705 33542; CX 33659 33725 32220; CX 33731 33670 33648;
  CX 33732 33549 33650; CX 33680 33685 32211; CX 33733 33575 33634; CX 33553 33698 32142; CX 33734 33543 33621; CX 33687 33563 32301; CX 33529 33735 32309; CX 33667 33572 32289;
  CX 33736 32556 32279; CX 33735 33544 32321; CX 33728 33525 32398; CX 33713 33725 33571; CX 33714 33737 33565; CX 33686 32556 32501; CX 33662 33674 33548; CX 33693 33540 32319;
  CX 33738 33551 33612; CX 33723 33695 33570; CX 33689 33716 33627; CX 33672 33660 33640; CX 33727 33739 33558; CX 33552 33676 32388; CX 33719 33682 33613; CX 33728 33670 32225;
  CX 33736 33686 32574; CX 33526 33695 32020; CX 33702 33574 32336; CX 33676 33551 32307; CX 33710 33671 33576; CX 33724 33566 32333; CX 33649 33658 32552; CX 33526 33694 32370;
  CX 33659 33538 32297; CX 255 33651 32873; CX 33696 33711 33528; CX 33708 33683 33645; CX 33740 33573 33638; CX 33726 33664 33587; CX 33741 33560 33616; CX 33694 33573 32376;
  CX 239 33637 32906; CX 33547 33682 32084; CX 33735 33664 32210; CX 33690 33716 33546; CX 33535 33725 32045; CX 33742 33544 33639; CX 32280 32546 32462; CX 33739 33669 33550;
  CX 33718 33575 32399; CX 33724 33671 32240; CX 33720 32530 32236; CX 33737 33701 33567; CX 33717 33531 32377; CX 33730 33684 33530; CX 33743 33584 33615; CX 33722 33695 33623;
  CI 33551 33605; CI 33573 33600; CI 33560 33601; CI 33575 33603; CI 33574 33596; CI 33538 33599; CI 33525 33595; CI 33543 33606;
  CI 33584 33598; CI 33536 33594; CI 33549 33593; CI 33555 33592; CI 33537 33608; CI 33531 33590; CI 33540 33610; CI 33544 33589;
  CX 32053 32398 32217; CX 246 32877 32909; CX 33612 32388 32257; CX 33613 32332 32119; CX 32574 32876 32774; CX 32598 33533 32729; CX 33614 33615 32356; CX 32018 32321 32231;
  CX 32127 32307 32230; CX 33616 32289 32264; CX 32586 33528 32670; CX 32549 32608 33473; CX 32030 32364 32245; CX 243 32877 32773; CX 32134 32319 32189; CX 33617 33618 32329;
  CX 33619 32369 32012; CX 33620 32516 33520; CX 33621 32333 32177; CX 33576 33621 32325; CX 33619 33622 32305; CX 33623 32370 32055; CX 33624 32324 32263; CX 33625 32317 32124;
  CX 32045 32297 32265; CX 33626 32323 32268; CX 231 32501 32719; CX 33567 33622 32349; CX 33627 32361 32022; CX 33559 33628 32368; CX 33629 32324 32128; CX 32601 33545 32765;
  CX 227 32876 32769; CX 33630 32309 32126; CX 32527 33558 32682; CX 33631 33632 32396; CX 32587 33585 32761; CX 33633 33626 32357; CX 33634 32317 32233; CX 33635 32347 32187;
  CX 33636 32473 33498; CX 33637 32468 32456; CX 235 32906 32771; CX 33638 32370 32286; CX 32040 32343 32281; CX 32602 33562 32704; CX 247 32473 32660; CX 33587 33639 32328;
  CX 33640 32347 32005; CX 33641 32501 32519; CX 33642 32501 33508; CX 33643 32473 32508; CX 33556 33632 32395; CX 33631 32314 32103; CX 33586 33616 32348; CX 33644 32361 32253;
  CX 33645 32289 32063; CX 33646 32388 32034; CX 33579 33626 32384; CX 33627 33644 32351; CX 32532 33577 32663; CX 32576 33578 32692; CX 32096 32313 32267; CX 32608 32877 32775].
(** Lines 405-804 of the file. *)
Definition aes128_1 : list cg := [
  CX 32596 32529 33502; CX 33546 33644 32288; CX 32054 32353 32261; CX 32529 32873 32776; CX 33615 32301 32207; CX 33647 32333 32057; CX 32546 32574 33493; CX 33569 33612 32358;
  CX 32603 33542 32737; CX 33524 33635 32337; CX 33617 32342 32140; CX 33633 32323 32085; CX 33632 32314 32185; CX 33645 33616 32383; CX 33648 33628 32295; CX 33570 33638 32308;
  CX 32142 32399 32271; CX 32578 33580 32736; CX 33581 33634 32380; CX 32084 32374 32204; CX 33640 33635 32371; CX 32568 32580 33476; CX 33623 33638 32382; CX 251 32873 32778;
  CX 32122 32331 32224; CX 33639 32309 32214; CX 238 32906 32875; CX 33647 33621 32327; CX 33649 32468 33500; CX 32565 33539 32758; CX 32536 33530 32661; CX 32020 32376 32277;
  CX 33554 33650 32381; CX 33646 33612 32385; CX 33629 33624 32346; CX 33625 33634 32387; CX 33648 32339 32043; CX 32065 32311 32249; CX 32558 33564 32691; CX 33571 33624 32338;
  CX 33650 32332 32197; CX 32524 33568 32679; CX 254 32873 32878; CX 32580 32906 32768; CX 33614 32301 32087; CX 33651 32516 32457; CX 255 32516 32665; CX 32540 33583 32684;
  CX 33622 32369 32272; CX 33618 32342 32182; CX 32037 32336 32179; CX 33630 33639 32334; CX 239 32468 32735; CX 33550 33615 32316; CX 32534 33565 32762; CX 33613 33650 32300;
  CX 33548 33618 32365; CX 33628 32339 32203; CX 230 32876 32901; CX 32095 32377 32219; CA 32608 32549 33409; CA 32575 32530 33484; CA 32529 32596 33368; CA 32580 32568 33436;
  CA 32906 33652 33602; CA 32468 32522 33427; CA 32552 32593 33495; CA 32599 32615 33522; CA 32572 32556 33469; CA 32501 32462 33401; CA 32873 33653 33609; CA 32574 32546 33385;
  CA 32199 32226 33604; CA 32516 32465 33358; CA 32473 32506 33433; CA 32209 32250 33607; CA 32279 32280 33591; CA 32236 32251 33611; CA 32876 33654 33597; CA 32877 33655 33588;
  CX 33524 32187 33444; CX 32300 32374 33456; CX 33525 32737 32696; CX 32371 32353 33443; CX 33526 32704 32579; CX 33527 32661 32585; CX 32327 32343 33434; CX 33528 32257 32270;
  CX 32878 32488 32681; CX 33529 32663 32609; CX 32356 32313 33378; CX 32357 32729 32607; CX 33530 32185 32282; CX 32532 32214 32513; CX 32329 32319 33351; CX 32771 32593 32779;
  CX 33531 32762 32767; CX 33532 32758 32610; CX 33533 32268 32194; CX 33534 32762 32570; CX 32329 32691 32555; CX 33535 32761 32547; CX 32602 32286 32485; CX 32527 32207 32523;
  CX 32385 32307 33450; CX 33536 32758 32662; CX 33537 32661 32766; CX 32598 32268 32515; CX 33538 32761 32734; CX 33539 32187 32287; CX 33540 32691 32732; CX 32508 32500 33429;
  CX 33541 32737 32531; CX 33542 32203 32188; CX 33543 32692 32695; CX 32587 32263 32482; CX 33544 32663 32733; CX 33545 32233 32227; CX 32603 32203 32518; CX 33546 32253 33411;
  CX 32524 32253 32478; CX 32901 32484 32713; CX 32383 32364 33457; CX 32334 32321 33375; CX 32351 32311 33464; CX 32778 32615 32772; CX 33547 32684 32611; CX 33548 32182 33376;
  CX 32371 32758 32560; CX 32300 32684 32566; CX 32540 32197 32497; CX 32305 32377 33396; CX 33549 32684 32674; CX 33550 32207 33463; CX 32396 32661 32588; CX 32346 32297 33383;
  CX 33551 32670 32694; CX 33552 32670 32526; CX 33553 32765 32551; CX 33554 32197 33466; CX 32578 32264 32480; CX 32382 32376 33372; CX 32295 32737 32553; CX 32385 32670 32590;
  CX 32565 32187 32511; CX 32773 32530 32770; CX 33555 32679 32683; CX 32456 32477 33449; CX 33556 32185 33380; CX 33557 32691 32582; CX 33558 32207 32191; CX 32387 32765 32569;
  CX 33559 32203 33340; CX 32382 32704 32539; CX 32534 32272 32503; CX 33560 32736 32698; CX 33561 32679 32561; CX 33562 32286 32283; CX 32576 32177 32469; CX 33563 32682 32583;
  CX 32396 32331 33441; CX 33564 32182 32252; CX 33565 32272 32247; CX 33566 32692 32563; CX 33567 32272 33399; CX 32327 32692 32591; CX 32875 32477 32664; CX 33568 32253 32241;
  CX 33569 32257 33424; CX 32357 32336 33422; CX 33570 32286 33410; CX 32383 32736 32581; CX 33571 32263 33462; CX 33572 32736 32533; CX 33573 32704 32757; CX 32601 32233 32493;
  CX 33574 32729 32680; CX 33575 32765 32724; CX 33576 32177 33389; CX 32586 32257 32507; CX 33577 32214 32274; CX 33578 32177 32221; CX 32356 32682 32584; CX 33579 32268 33467;
  CX 33580 32264 32242; CX 32558 32182 32498; CX 33581 32233 33393; CX 32909 32500 32714; CX 33582 32729 32589; CX 32536 32185 32505; CX 32305 32762 32571; CX 32519 32484 33440;
  CX 32295 32398 33397; CX 33583 32197 32222; CX 33584 32682 32671; CX 32334 32663 32600; CX 33585 32263 32239; CX 32346 32761 32562; CX 32769 32556 32777; CX 32351 32679 32535;
  CX 33586 32264 33430; CX 33587 32214 33359; CX 32457 32488 33405; CX 32387 32399 33459; CA 32325 32333 33366; CA 32457 32488 33521; CA 32769 231 33519; CA 32778 255 33504;
  CA 32395 32314 33356; CA 32268 32179 33262; CA 32288 32361 33414; CA 32057 32040 33510; CA 32012 32095 33518; CA 32358 32388 33388; CX 33588 33409 33415; CA 32365 32342 33364;
  CA 32663 33589 33509; CA 32233 32271 33335; CA 32182 32189 33217; CA 32286 32277 33313; CA 32087 32096 33491; CA 32327 32343 33231; CA 32762 33590 33505; CA 32034 32127 33488;
  CA 32382 32376 33209; CA 32334 32321 33270; CA 32187 32261 33280; CX 33591 33469 33492; CA 32371 32353 33282; CA 32119 32084 33513; CA 32349 32369 33438; CA 32207 32267 33205;
  CA 32508 32500 33483; CA 32214 32231 33288; CA 32679 33592 33471; CA 32316 32301 33374; CA 32684 33593 33516; CA 32272 32219 33290; CA 32197 32204 33315; CA 32758 33594 33514;
  CA 32295 32398 33326; CA 32737 33595 33512; CA 32729 33596 33482; CA 32771 239 33511; CA 32085 32037 33486; CA 32338 32324 33461; CX 33597 33385 33417; CA 32308 32370 33362;
  CA 32519 32484 33468; CA 32263 32265 33284; CA 32682 33598 33470; CA 32385 32307 33268; CA 32384 32323 33403; CA 32351 32311 33292; CA 32761 33599 33489; CA 32356 32313 33249;
  CA 32380 32317 33452; CA 32704 33600 33503; CA 32736 33601 33490; CA 32124 32142 33479; CA 32005 32054 33506; CA 32300 32374 33324; CA 32305 32377 33227; CA 32383 32364 33299;
  CX 33602 33436 33406; CA 32765 33603 33485; CX 33604 33495 33475; CA 32670 33605 33523; CA 32692 33606 33480; CA 32368 32339 33454; CA 32140 32134 33499; CA 32185 32224 33251;
  CA 32063 32030 33481; CA 32337 32347 33348; CA 32773 247 33507; CX 33607 33522 33501; CA 32381 32332 33420; CA 32126 32018 33478; CA 32456 32477 33494; CA 32329 32319 33207;
  CA 32396 32331 33199; CA 32357 32336 33330; CA 32264 32245 33278; CA 32328 32309 33392; CA 32103 32122 33496; CA 32661 33608 33517; CA 32203 32217 33307; CA 32257 32230 33264;
  CA 32348 32289 33446; CA 32253 32249 33221; CA 32043 32053 33487; CA 32177 32281 33319; CA 32055 32020 33497; CA 32022 32065 33474; CA 32387 32399 33245; CX 33609 33368 33343;
  CA 32346 32297 33203; CA 32691 33610 33477; CX 33611 33484 33472; CA 32128 32045 33515; CX 32222 32180 33215; CX 32531 32339 32550; CX 32247 32273 33328; CX 32775 32770 33189;
  CX 32579 32370 32577; CX 32680 32205 32520; CX 32768 32779 33103; CX 32609 32309 32613; CX 32287 32190 33254; CX 32610 32347 32559; CX 32694 32201 32514; CX 32582 32342 32543;
  CX 32283 32255 33258; CX 32774 32777 33147; CX 32732 32254 32491; CX 32733 32210 32479; CX 32696 32225 32489; CX 32188 32225 33237; CX 32757 32255 32521; CX 32589 32323 32538;
  CX 32561 32361 32525; CX 32282 32211 33333; CX 32194 32205 33197; CX 32583 32301 32594; CX 32671 32285 32495; CX 32585 32314 32564; CX 32695 32240 32517; CX 32551 32317 32557;
  CX 32767 32273 32509; CX 32734 32220 32483; CX 32698 32256 32486; CX 32563 32333 32595; CX 32611 32332 32554; CX 32547 32324 32612; CX 32241 32192 33213; CX 32274 32210 33260;
  CX 32570 32369 32606; CX 32221 32240 33297; CX 32270 32201 33201; CX 32776 32772 33171; CX 32724 32212 32476; CX 32766 32211 32510; CX 32533 32289 32614; CX 32526 32388 32573;
  CX 32239 32220 33272; CX 32662 32190 32494; CX 32242 32256 33274; CX 32191 32285 33233; CX 32674 32180 32512; CX 32227 32212 33243; CX 32252 32254 33321; CX 32683 32192 32490;
  CX 33468 33469 33247; CX 33470 33249 33336; CX 33471 33292 33234; CA 32274 32210 33391; CA 32664 32735 33426; CX 33472 33473 33416; CX 33474 33414 33412; CX 33475 33476 33407;
  CX 33477 33207 33338; CX 33478 33392 33360; CX 33479 33452 33394; CX 33480 33231 33293; CA 32191 32285 33373; CA 32779 32768 33435; CA 32227 32212 33451; CA 32609 32532 33465;
  CA 32551 32601 33353; CA 32247 32273 33437; CX 33481 33446 33431; CA 32283 32255 33361; CX 33482 33330 33238; CA 32287 32190 33347; CX 33483 33484 33211; CX 33485 33245 33275;
  CX 33486 33403 33421; CX 33487 33454 33341; CA 32714 32660 33432; CX 33488 33388 33425; CX 33489 33203 33316; CA 32526 32586 33398; CA 32713 32719 33400; CX 33490 33299 33240;
  CA 32194 32205 33402; CA 32563 32576 33346; CX 33491 33374 33377; CX 33492 33493 33418; CX 33494 33495 33303; CX 33496 33356 33381; CA 32547 32587 33354; CA 32533 32578 33458;
  CA 32222 32180 33419; CX 33497 33362 33371; CX 33498 33472 33286; CX 33499 33364 33350; CA 32239 32220 33460; CA 32561 32524 33349; CX 33500 33475 33219; CX 33501 33502 33344].
(** Lines 805-1204 of the file. *)
Definition aes128_2 : list cg := [
  CA 32770 32775 33408; CA 32585 32536 33379; CX 33503 33209 33308; CX 33504 33358 33404; CX 33505 33227 33300; CA 32610 32565 33345; CA 32579 32602 33369; CX 33506 33348 33442;
  CX 33507 33433 33428; CX 33508 33492 33311; CA 32589 32598 33423; CX 33509 33270 33265; CA 32681 32665 33357; CX 33510 33366 33390; CX 33511 33427 33448; CX 33512 33326 33228;
  CX 33513 33420 33455; CA 32270 32201 33387; CX 33514 33282 33255; CX 33515 33461 33382; CA 32772 32776 33367; CX 33516 33324 33222; CX 33517 33199 33304; CA 32531 32603 33447;
  CX 33518 33438 33395; CA 32252 32254 33363; CA 32570 32534 33370; CA 32221 32240 33365; CA 32282 32211 33355; CX 33519 33401 33439; CA 32241 32192 33413; CA 32188 32225 33453;
  CA 32582 32558 33386; CA 32777 32774 33384; CX 33520 33501 33225; CX 33521 33522 33193; CA 32611 32540 33352; CA 32583 32527 33342; CA 32242 32256 33445; CX 33523 33268 33194;
  CX 32557 32569 33063; CX 32525 32535 33059; CX 32577 32539 33040; CX 32606 32571 33025; CX 32550 32553 33080; CX 32564 32588 33091; CX 32538 32607 33017; CX 32614 32581 33083;
  CX 32573 32590 33046; CX 32613 32600 33038; CX 32595 32591 33020; CX 32554 32566 33088; CX 32543 32555 33077; CX 32559 32560 33085; CX 32594 32584 33070; CX 32612 32562 33042;
  CX 33340 33341 33109; CA 32483 32482 33283; CX 33342 33205 33232; CA 32525 32535 33291; CX 33343 33344 33065; CA 32517 32469 33318; CX 33345 33280 33253; CX 33346 33319 33296;
  CA 32486 32480 33277; CX 33347 33348 33134; CX 33349 33221 33212; CX 33350 33351 33339; CX 33352 33315 33214; CX 33353 33335 33242; CX 33354 33284 33271; CX 33355 33356 33150;
  CX 33357 33358 33224; CA 32489 32518 33306; CX 33359 33360 33163; CX 33361 33362 33181; CX 33363 33364 33105; CX 33365 33366 33176; CX 33367 33368 33252; CX 33369 33313 33257;
  CX 33370 33290 33327; CX 33371 33372 33309; CX 33373 33374 33167; CX 33360 33375 33266; CX 33376 33350 33113; CX 33377 33378 33337; CX 33379 33251 33332; CX 33380 33381 33136;
  CA 32476 32493 33334; CX 33382 33383 33317; CX 33384 33385 33246; CX 33386 33217 33320; CX 33387 33388 33158; CA 32573 32590 33267; CA 32557 32569 33244; CX 33389 33390 33156;
  CA 32491 32498 33216; CX 33391 33392 33143; CA 32559 32560 33281; CX 33393 33394 33173; CX 33395 33396 33301; CX 33341 33397 33229; CX 33398 33264 33200; CA 32612 32562 33202;
  CX 33399 33395 33121; CA 32509 32503 33289; CX 33400 33401 33310; CA 32490 32478 33220; CA 32550 32553 33325; CA 32564 32588 33198; CA 32520 32515 33261; CA 32495 32523 33204;
  CA 32595 32591 33230; CX 33402 33403 33129; CX 33404 33405 33192; CX 33406 33407 33050; CX 33408 33409 33322; CX 33410 33371 33119; CX 33411 33412 33097; CA 32514 32507 33263;
  CX 33413 33414 33145; CA 32554 32566 33323; CX 33415 33416 33064; CX 33417 33418 33060; CX 33419 33420 33117; CX 33421 33422 33239; CA 32543 32555 33206; CX 33423 33262 33196;
  CX 33424 33425 33187; CX 33426 33427 33218; CA 32613 32600 33269; CX 33428 33429 33210; CX 33430 33431 33179; CA 32521 32485 33312; CX 33432 33433 33285; CX 33390 33434 33294;
  CX 33435 33436 33331; CX 33437 33438 33099; CX 33439 33440 33295; CX 33381 33441 33305; CX 33442 33443 33256; CA 32538 32607 33329; CA 32614 32581 33298; CX 33444 33442 33111;
  CA 32510 32505 33250; CA 32494 32511 33279; CX 33445 33446 33115; CX 33447 33307 33236; CX 33448 33449 33302; CX 33425 33450 33195; CX 33451 33452 33123; CX 33453 33454 33132;
  CX 33455 33456 33223; CX 33431 33457 33241; CA 32577 32539 33208; CA 32606 32571 33226; CX 33458 33278 33273; CX 33394 33459 33276; CX 33460 33461 33126; CX 33462 33382 33185;
  CX 33463 33377 33138; CX 33412 33464 33235; CA 32594 32584 33248; CX 33465 33288 33259; CX 33466 33455 33160; CA 32512 32497 33314; CA 32479 32513 33287; CX 33467 33421 33153;
  CX 33192 33193 32898; CX 33194 33195 32931; CX 33196 33197 33169; CX 33198 33199 33151; CX 33200 33201 33157; CX 33202 33203 33125; CX 33204 33205 33137; CX 33206 33207 33174;
  CX 33208 33209 33180; CX 33210 33211 32888; CX 33212 33213 33144; CX 33214 33215 33116; CX 33216 33217 33112; CX 33218 33219 33100; CX 33220 33221 33096; CX 33222 33223 32945;
  CX 33224 33225 33140; CX 33226 33227 33098; CX 33228 33229 32934; CX 33230 33231 33177; CX 33232 33233 33166; CX 33234 33235 32966; CX 33236 33237 33131; CX 33238 33239 32926;
  CX 33240 33241 32978; CX 33242 33243 33122; CX 33244 33245 33127; CX 33246 33247 33146; CX 33248 33249 33190; CX 33250 33251 33135; CX 33252 33193 33170; CX 33253 33254 33133;
  CX 33255 33256 32948; CX 33257 33258 33182; CX 33259 33260 33142; CX 33261 33262 33152; CX 33263 33264 33186; CX 33265 33266 32967; CX 33267 33268 33183; CX 33269 33270 33148;
  CX 33271 33272 33154; CX 33273 33274 33114; CX 33275 33276 32958; CX 33277 33278 33178; CX 33279 33280 33110; CX 33281 33282 33168; CX 33283 33284 33184; CX 33285 33286 33164;
  CX 33287 33288 33162; CX 33289 33290 33120; CX 33291 33292 33191; CX 33293 33294 32979; CX 33295 33247 32908; CX 33296 33297 33175; CX 33298 33299 33124; CX 33300 33301 32932;
  CX 33302 33303 32853; CX 33304 33305 32927; CX 33306 33307 33108; CX 33308 33309 32930; CX 33310 33311 33106; CX 33312 33313 33118; CX 33314 33315 33159; CX 33316 33317 32933;
  CX 33318 33319 33155; CX 33320 33321 33104; CX 33322 33211 33188; CX 33323 33324 33130; CX 33325 33326 33161; CX 33327 33328 33139; CX 33329 33330 33128; CX 33331 33303 33102;
  CX 33332 33333 33149; CX 33334 33335 33172; CX 33336 33337 32957; CX 33338 33339 32961; CX 33096 33097 33018; CX 33098 33099 33024; CX 33102 33103 32900; CX 33104 33105 32712;
  CX 33108 33109 33057; CX 33110 33111 33023; CX 33112 33113 33028; CX 33114 33115 32690; CX 33116 33117 32731; CX 33118 33119 33033; CX 33120 33121 33034; CX 33122 33123 32760;
  CX 33124 33115 33082; CX 33125 33126 33041; CX 33127 33123 33062; CX 33128 33129 33016; CX 33130 33117 33087; CX 33131 33132 32754; CX 33133 33134 32706; CX 33135 33136 33047;
  CX 33137 33138 33073; CX 33139 33099 32726; CX 33142 33143 32740; CX 33144 33145 32669; CX 33146 33147 32896; CX 33148 33143 33037; CX 33149 33150 32688; CX 33151 33150 33090;
  CX 33152 33153 33066; CX 33154 33126 32701; CX 33155 33156 33043; CX 33157 33158 32721; CX 33159 33160 33048; CX 33161 33132 33079; CX 33162 33163 33052; CX 33166 33167 32752;
  CX 33168 33134 33084; CX 33169 33129 32703; CX 33140 32898 33014; CX 33106 32908 33002; CX 33170 33171 32885; CX 33172 33173 33026; CX 33100 32853 32995; CX 33174 33105 33076;
  CX 33175 33176 32748; CX 33177 33176 33019; CX 33178 33179 33030; CX 33180 33181 33039; CX 33182 33181 32673; CX 33183 33158 33045; CX 33184 33185 33071; CX 33186 33187 33054;
  CX 33188 33189 32919; CX 33190 33167 33069; CX 33164 32888 32989; CX 33191 33145 33058; CA 33100 33050 32928; CA 32853 33050 33035; CA 32898 33065 33021; CA 33164 33064 32939;
  CA 32908 33060 33067; CA 33106 33060 32955; CA 33140 33065 32972; CA 32888 33064 33031; CI 32898 33141; CI 32908 33107; CI 32888 33165; CI 32853 33101;
  CX 33016 33017 32723; CX 33018 32669 32872; CX 33019 33020 32710; CX 33023 32706 32868; CX 33024 33025 32764; CX 33030 32690 32880; CX 33033 32673 32892; CX 33034 32726 32862;
  CX 32939 32989 32925; CX 33037 33038 32686; CX 33039 33040 32667; CX 33041 33042 32718; CX 33045 33046 32708; CX 33047 32688 32917; CX 33050 32900 32929; CX 32972 33014 32971;
  CX 33057 32754 32903; CX 33026 32760 32866; CX 33058 33059 32744; CX 33052 32740 32882; CX 32955 32896 33001; CX 33060 32896 32956; CX 32955 33002 32944; CX 32928 32995 32983;
  CX 33062 33063 32728; CX 33064 32919 32940; CX 33065 32885 32973; CX 33066 32703 32858; CX 33069 33070 32678; CX 33071 32701 32855; CX 33073 32752 32864; CX 32972 32885 33013;
  CX 33054 32721 32905; CX 33076 33077 32716; CX 33079 33080 32746; CX 33043 32748 32894; CX 33048 32731 32911; CX 33028 32712 32860; CX 33082 33083 32756; CX 33084 33085 32676;
  CX 32939 32919 32988; CX 33087 33088 32742; CX 32928 32900 32994; CX 33090 33091 32750; CA 33054 32931 32792; CA 32754 32934 32984; CA 33052 32967 32782; CA 32748 32979 32951;
  CA 32703 32926 32949; CA 33043 32979 32828; CA 33018 32966 32836; CA 32706 32948 32968; CA 33057 32934 32844; CX 32939 32888 32992; CA 32690 32978 32976; CA 32740 32967 32941;
  CA 32688 32927 32980; CA 33028 32961 32824; CA 33071 32933 32826; CX 32928 32853 32991; CA 33030 32978 32846; CA 33023 32948 32786; CA 33048 32945 32808; CA 32760 32958 32937;
  CA 32712 32961 32946; CA 33033 32930 32834; CA 32726 32932 32959; CA 33066 32926 32830; CX 32955 32908 32999; CA 33026 32958 32842; CA 33047 32927 32848; CA 32669 32966 32953;
  CA 32731 32945 32986; CA 32701 32933 32935; CA 33073 32957 32838; CA 33034 32932 32802; CA 32673 32930 32964; CA 32721 32931 32962; CX 32972 32898 32996; CA 32752 32957 32974;
  CI 32731 33049; CI 32726 33072; CI 32688 33061; CI 32690 33074; CI 32885 33022; CI 32721 33055; CI 32701 33075; CI 32752 33081].
(** Lines 1205-1604 of the file. *)
Definition aes128_3 : list cg := [
  CI 32706 33051; CI 32748 33044; CI 32754 33086; CI 32896 33068; CI 32900 33036; CI 32760 33027; CI 32703 33089; CI 32669 33056;
  CI 32673 33078; CI 32919 33032; CI 32712 33029; CI 32740 33053; CA 33100 33101 33093; CA 33106 33107 33095; CA 33140 33141 33092; CA 33164 33165 33094;
  CX 32828 32894 32819; CX 32926 32723 32831; CX 32834 32892 32797; CX 32927 32750 32849; CX 32928 32929 32823; CX 32930 32667 32835; CX 32826 32718 32854; CX 32931 32708 32793;
  CX 32808 32911 32815; CX 32932 32764 32803; CX 32786 32676 32867; CX 32826 32855 32781; CX 32933 32718 32827; CX 32846 32756 32879; CX 32830 32858 32841; CX 32934 32746 32845;
  CX 32836 32872 32833; CX 32792 32905 32813; CX 32830 32723 32857; CX 32844 32746 32902; CX 32939 32940 32807; CX 32786 32868 32821; CX 32792 32708 32904; CX 32844 32903 32799;
  CX 32848 32750 32916; CX 32808 32742 32910; CX 32945 32742 32809; CX 32948 32676 32787; CX 32782 32686 32881; CX 32955 32956 32791; CX 32957 32678 32839; CX 32958 32728 32843;
  CX 32848 32917 32801; CX 32961 32716 32825; CX 32802 32764 32861; CX 32782 32882 32817; CX 32966 32744 32837; CX 32828 32710 32893; CX 32846 32880 32851; CX 32824 32716 32859;
  CX 32967 32686 32783; CX 32842 32728 32865; CX 32838 32864 32811; CX 32972 32973 32805; CX 32838 32678 32863; CX 32824 32860 32785; CX 32978 32756 32847; CX 32979 32710 32829;
  CX 32836 32744 32871; CX 32834 32667 32891; CX 32802 32862 32789; CX 32842 32866 32795; CX 32782 32740 32914; CA 32988 32989 32887; CX 32848 32688 32912; CX 32786 32706 32869;
  CX 32830 32703 32923; CA 32991 32929 32899; CA 32992 32940 32918; CX 32842 32760 32920; CA 32994 32995 32852; CA 32996 32973 32884; CA 32999 32956 32895; CA 33001 33002 32907;
  CX 32828 32748 32883; CX 32824 32712 32913; CX 32846 32690 32915; CX 32826 32701 32890; CX 32836 32669 32921; CX 32834 32673 32886; CX 32844 32754 32856; CX 32792 32721 32889;
  CX 32802 32726 32870; CX 32808 32731 32874; CA 33013 33014 32897; CX 32838 32752 32922; CI 32723 32950; CI 32667 32965; CI 32756 32977; CI 32728 32938;
  CI 32676 32969; CI 32744 32954; CI 32718 32936; CI 32678 32975; CI 32710 32952; CI 32746 32985; CI 32716 32947; CI 32764 32960;
  CI 32750 32981; CI 32708 32963; CI 32686 32942; CI 32742 32987; CA 33021 33022 32804; CA 33026 33027 33010; CA 33028 33029 33012; CA 33031 33032 32806;
  CA 33035 33036 32822; CA 33043 33044 33000; CA 33048 33049 33004; CA 33023 33051 33005; CA 33052 33053 33003; CA 33054 33055 32997; CA 33018 33056 32993; CA 33047 33061 33009;
  CA 33067 33068 32790; CA 33034 33072 33008; CA 33030 33074 33007; CA 33071 33075 33015; CA 33033 33078 33011; CA 33073 33081 32998; CA 33057 33086 33006; CA 33066 33089 32990;
  CA 33092 32885 32970; CA 33093 32900 32982; CA 33094 32919 32924; CA 33095 32896 32943; CX 32782 32783 32655; CX 32786 32787 32644; CX 32790 32791 32626; CX 32792 32793 32623;
  CX 32802 32803 32629; CX 32804 32805 32624; CX 32806 32807 32647; CX 32808 32809 32653; CX 32822 32823 32645; CX 32824 32825 32617; CX 32826 32827 32640; CX 32828 32829 32638;
  CX 32830 32831 32650; CX 32834 32835 32631; CX 32836 32837 32636; CX 32838 32839 32633; CX 32842 32843 32621; CX 32844 32845 32642; CX 32846 32847 32659; CX 32848 32849 32619;
  CX 32852 32853 32697; CA 32854 32855 32700; CA 32856 32845 32745; CA 32857 32858 32702; CA 32859 32860 32711; CA 32861 32862 32725; CA 32863 32864 32751; CA 32865 32866 32759;
  CA 32867 32868 32705; CA 32869 32787 32675; CA 32870 32803 32763; CA 32871 32872 32668; CA 32874 32809 32741; CA 32879 32880 32689; CA 32881 32882 32739; CA 32883 32829 32709;
  CX 32884 32885 32651; CA 32886 32835 32666; CX 32887 32888 32738; CA 32889 32793 32707; CA 32890 32827 32717; CA 32891 32892 32672; CA 32893 32894 32747; CX 32895 32896 32627;
  CX 32897 32898 32699; CX 32899 32900 32646; CA 32902 32903 32753; CA 32904 32905 32720; CX 32907 32908 32693; CA 32910 32911 32730; CA 32912 32849 32749; CA 32913 32825 32715;
  CA 32914 32783 32685; CA 32915 32847 32755; CA 32916 32917 32687; CX 32918 32919 32648; CA 32920 32843 32727; CA 32921 32837 32743; CA 32922 32839 32677; CA 32923 32831 32722;
  CX 32924 32925 32657; CA 32935 32936 32639; CA 32937 32938 32620; CA 32941 32942 32654; CX 32943 32944 32634; CA 32946 32947 32616; CA 32949 32950 32649; CA 32951 32952 32637;
  CA 32953 32954 32635; CA 32959 32960 32628; CA 32962 32963 32622; CA 32964 32965 32630; CA 32968 32969 32643; CX 32970 32971 32625; CA 32974 32975 32632; CA 32976 32977 32658;
  CA 32980 32981 32618; CX 32982 32983 32656; CA 32984 32985 32641; CA 32986 32987 32652; CA 32990 32723 32840; CA 32993 32744 32832; CA 32997 32708 32812; CA 32998 32678 32810;
  CA 33000 32710 32818; CA 33003 32686 32816; CA 33004 32742 32814; CA 33005 32676 32820; CA 33006 32746 32798; CA 33007 32756 32850; CA 33008 32764 32788; CA 33009 32750 32800;
  CA 33010 32728 32794; CA 33011 32667 32796; CA 33012 32716 32784; CA 33015 32718 32780; CX 32616 32617 32417; CX 32618 32619 32402; CX 32620 32621 32400; CX 32622 32623 32422;
  CX 32624 32625 32446; CX 32626 32627 32461; CX 32628 32629 32414; CX 32630 32631 32408; CX 32632 32633 32424; CX 32626 32634 32449; CX 32635 32636 32419; CX 32637 32638 32443;
  CX 32639 32640 32404; CX 32641 32642 32437; CX 32643 32644 32432; CX 32645 32646 32467; CX 32647 32648 32472; CX 32649 32650 32410; CX 32624 32651 32464; CX 32652 32653 32412;
  CX 32654 32655 32439; CX 32645 32656 32406; CX 32647 32657 32427; CX 32658 32659 32434; CA 32647 32660 32237; CA 32645 32664 31936; CA 32624 32665 32275; CX 32666 32667 32436;
  CX 32668 32669 32466; CX 32672 32673 32499; CX 32675 32676 32448; CX 32677 32678 32425; CA 32624 32681 31778; CX 32685 32686 32455; CX 32687 32688 32487; CX 32689 32690 32460;
  CX 32634 32693 32545; CX 32656 32697 32567; CX 32699 32651 32447; CX 32700 32701 32481; CX 32702 32703 32463; CX 32705 32706 32502; CX 32707 32708 32423; CX 32709 32710 32451;
  CX 32711 32712 32471; CA 32626 32713 31792; CA 32647 32714 31780; CX 32715 32716 32418; CX 32717 32718 32429; CA 32626 32719 32183; CX 32720 32721 32470; CX 32722 32723 32411;
  CX 32725 32726 32496; CX 32625 32699 32528; CX 32727 32728 32401; CX 32730 32731 32492; CX 32693 32627 32450; CA 32645 32735 32266; CX 32697 32646 32407; CX 32738 32648 32428;
  CX 32739 32740 32475; CX 32741 32742 32416; CX 32743 32744 32430; CX 32745 32746 32441; CX 32657 32738 32548; CX 32747 32748 32459; CX 32749 32750 32403; CX 32751 32752 32474;
  CX 32753 32754 32504; CX 32755 32756 32435; CX 32759 32760 32458; CX 32763 32764 32415; CA 32697 32768 32592; CA 32646 239 32243; CA 32627 32769 32215; CA 32648 247 32269;
  CA 32738 32770 32100; CA 32646 32771 32223; CA 32699 32772 32125; CA 32648 32773 32193; CA 32693 32774 32542; CA 32738 32775 32537; CA 32699 32776 32604; CA 32651 255 32258;
  CA 32693 32777 32059; CA 32651 32778 32200; CA 32627 231 32259; CA 32697 32779 32091; CX 32780 32781 32405; CX 32784 32785 32452; CX 32788 32789 32431; CX 32794 32795 32426;
  CX 32796 32797 32409; CX 32798 32799 32438; CX 32800 32801 32421; CX 32810 32811 32445; CX 32812 32813 32453; CX 32814 32815 32413; CX 32816 32817 32440; CX 32818 32819 32444;
  CX 32820 32821 32433; CX 32832 32833 32420; CX 32840 32841 32442; CX 32850 32851 32454; CA 32625 32873 31801; CA 32656 32875 32597; CA 32634 32876 31876; CA 32657 32877 31849;
  CA 32625 32878 32605; CA 32634 32901 32541; CA 32656 32906 31960; CA 32657 32909 32544; CX 32400 32401 32232; CX 32402 32403 32184; CX 32404 32405 32160; CX 32406 32407 32198;
  CX 32408 32409 32152; CX 32410 32411 32178; CX 32412 32413 32166; CX 32414 32415 32218; CX 32412 32416 32196; CX 32417 32418 32181; CX 32419 32420 32158; CX 32402 32421 32162;
  CX 32422 32423 32229; CX 32424 32425 32206; CX 32400 32426 32164; CX 32427 32428 32235; CX 32404 32429 32262; CX 32419 32430 32248; CX 32414 32431 32154; CX 32432 32433 32172;
  CX 32434 32435 32244; CX 32408 32436 32276; CX 32437 32438 32150; CX 32439 32440 32148; CX 32437 32441 32202; CX 32410 32442 32170; CX 32443 32444 32146; CX 32424 32445 32174;
  CX 32446 32447 32208; CX 32432 32448 32186; CX 32449 32450 32278; CX 32443 32451 32176; CX 32417 32452 32168; CX 32422 32453 32144; CX 32434 32454 32156; CX 32439 32455 32213;
  CA 32406 32456 32238; CA 32446 32457 32234; CX 32426 32458 32386; CX 32459 32451 32147; CX 32460 32435 32157; CA 32461 32462 31688; CX 32442 32463 32335; CA 32464 32465 31759;
  CX 32466 32430 32159; CA 32467 32468 32143; CA 32443 32469 32092; CX 32453 32470 32306; CX 32452 32471 32318; CA 32472 32473 32135; CX 32474 32425 32175; CX 32475 32455 32149;
  CA 32400 32476 31741; CX 32444 32459 32326; CA 32406 32477 32195; CA 32419 32478 32031; CA 32439 32479 31739; CA 32434 32480 32071; CX 32481 32429 32161; CA 32404 32482 32132].
(** Lines 1605-2004 of the file. *)
Definition aes128_4 : list cg := [
  CA 32404 32483 31760; CA 32449 32484 32246; CX 31778 31801 31826; CA 32408 32485 32111; CX 32458 32401 32165; CA 32434 32486 31742; CX 32421 32487 32330; CA 32446 32488 32228;
  CA 32437 32489 31761; CA 32419 32490 31571; CA 32417 32491 31603; CX 32413 32492 32299; CA 32400 32493 32048; CX 31936 31960 31905; CA 32432 32494 31772; CX 32440 32475 32320;
  CX 32445 32474 32312; CX 32405 32481 32296; CX 32471 32418 32169; CA 32424 32495 31727; CX 32431 32496 32304; CA 32412 32497 32094; CA 32417 32498 32072; CX 32499 32436 32153;
  CX 32470 32423 32145; CA 32427 32500 32216; CA 32461 32501 32114; CX 32502 32448 32173; CX 31792 31876 31991; CA 32414 32503 32089; CX 32409 32499 32375; CX 32504 32441 32151;
  CX 32463 32411 32171; CA 32402 32505 32064; CA 32472 32506 31607; CA 32422 32507 32032; CA 32427 32508 32284; CA 32414 32509 31685; CA 32402 32510 31737; CX 32454 32460 32363;
  CA 32432 32511 32109; CA 32412 32512 31767; CA 32439 32513 32108; CX 32433 32502 32352; CX 32420 32466 32310; CA 32422 32514 31709; CA 32410 32515 32080; CX 31780 31849 31975;
  CX 32492 32416 32167; CA 32464 32516 32075; CA 32443 32517 31694; CX 32496 32415 32155; CX 32487 32403 32163; CA 32437 32518 32117; CA 32449 32519 32260; CA 32410 32520 31689;
  CX 32438 32504 32294; CA 32408 32521 31658; CA 32467 32522 31560; CA 32424 32523 32139; CA 32430 32524 32093; CA 32466 32525 31835; CA 32423 32526 32035; CA 32425 32527 32056;
  CA 32528 32529 31921; CA 32428 32530 32052; CA 32441 32531 32098; CA 32455 32532 32006; CA 32435 32533 32141; CA 32415 32534 32049; CA 32466 32535 32367; CA 32403 32536 32121;
  CX 32269 32537 31412; CA 32463 32538 31786; CA 32499 32539 32291; CA 32416 32540 32067; CX 32541 32542 31992; CA 32471 32543 31995; CX 32544 32537 31998; CA 32545 32546 31558;
  CA 32429 32547 32015; CA 32548 32549 31593; CA 32504 32550 31929; CA 32401 32551 32079; CA 32407 32552 32046; CA 32504 32553 32362; CA 32492 32554 31909; CA 32471 32555 32391;
  CA 32450 32556 32025; CA 32458 32557 31970; CA 32418 32558 32050; CA 32502 32559 31812; CA 32502 32560 32355; CA 32430 32561 32097; CA 32481 32562 32360; CA 32451 32563 32041;
  CA 32487 32564 31959; CA 32448 32565 32136; CA 32492 32566 32315; CA 32567 32568 31621; CA 32458 32569 32344; CA 32415 32570 32009; CA 32496 32571 32373; CA 32450 32572 32027;
  CA 32470 32573 31981; CA 32545 32574 31824; CA 32428 32575 32061; CA 32451 32576 32110; CA 32499 32577 31912; CA 32435 32578 32038; CA 32436 32579 32116; CA 32567 32580 31989;
  CA 32460 32581 32378; CA 32418 32582 32078; CA 32425 32583 32026; CA 32474 32584 32298; CA 32403 32585 32106; CA 32423 32586 32010; CA 32429 32587 32081; CA 32487 32588 32322;
  CA 32411 32589 32016; CA 32470 32590 32341; CA 32459 32591 32303; CX 32243 32592 31478; CA 32407 32593 32003; CX 32259 32542 31350; CA 32474 32594 31974; CA 32459 32595 31892;
  CA 32528 32596 31678; CX 32597 32592 31986; CA 32411 32598 32088; CA 32447 32599 32105; CA 32475 32600 32393; CA 32401 32601 32104; CA 32436 32602 32068; CA 32441 32603 32000;
  CX 32258 32604 31484; CX 32605 32604 31906; CA 32496 32606 31941; CA 32463 32607 32293; CA 32548 32608 31968; CA 32455 32609 32131; CA 32448 32610 32113; CA 32416 32611 32069;
  CA 32481 32612 31994; CA 32475 32613 31839; CA 32460 32614 31954; CA 32447 32615 32074; CA 32421 32661 31642; CA 32433 32662 32354; CA 32440 32663 31758; CA 32453 32670 31648;
  CA 32445 32671 32350; CA 32413 32674 32392; CA 32420 32679 31681; CA 32442 32680 32292; CA 32445 32682 31769; CA 32420 32683 32366; CA 32413 32684 31719; CA 32452 32691 31773;
  CA 32444 32692 31605; CA 32453 32694 32340; CA 32444 32695 32302; CA 32438 32696 32397; CA 32454 32698 32389; CA 32409 32704 31712; CA 32426 32724 32379; CA 32442 32729 31599;
  CA 32452 32732 32390; CA 32440 32733 32394; CA 32405 32734 32359; CA 32454 32736 31680; CA 32438 32737 31707; CA 32409 32757 32290; CA 32433 32758 31726; CA 32405 32761 31614;
  CA 32431 32762 31699; CA 32426 32765 31766; CA 32421 32766 32345; CA 32431 32767 32372; CX 32144 32145 32033; CX 32146 32147 32039; CX 32148 32149 32017; CX 32150 32151 32042;
  CX 32152 32153 32019; CX 32154 32155 32011; CX 32156 32157 32029; CX 32158 32159 32021; CX 32160 32161 32044; CX 32162 32163 32102; CX 32164 32165 32123; CX 32166 32167 32083;
  CX 32168 32169 32133; CX 32170 32171 32036; CX 32172 32173 32004; CX 32174 32175 32086; CA 32176 32177 31782; CA 32178 32179 31505; CA 32166 32180 31841; CA 32181 32182 31993;
  CX 31737 31642 31706; CX 32183 31688 32014; CA 32184 32185 31851; CA 32186 32187 31818; CA 32150 32188 32013; CA 32181 32189 31541; CA 32172 32190 31797; CA 32174 32191 32008;
  CA 32158 32192 31784; CX 32193 31975 31178; CX 31742 31680 31708; CA 32170 32194 32115; CX 130 32195 31743; CX 31739 31758 31686; CA 32196 32197 31894; CA 32198 32199 32023;
  CX 32200 31826 31228; CA 32144 32201 31917; CA 32202 32203 31867; CA 32196 32204 31307; CA 32170 32205 31873; CA 32206 32207 31870; CA 32208 32209 32058; CA 32148 32210 31847;
  CA 32162 32211 31816; CA 32164 32212 31969; CA 32213 32214 31963; CX 32215 31991 31203; CX 138 32216 31615; CA 32202 32217 31435; CA 32218 32219 31545; CA 32160 32220 31814;
  CA 32146 32221 32137; CA 32166 32222 32047; CX 31772 31726 31672; CX 32223 31905 31282; CA 32184 32224 31483; CX 31694 31605 31631; CA 32150 32225 31807; CX 31760 31614 31575;
  CA 32198 32226 32002; CA 32164 32227 32070; CX 146 32228 31774; CA 32229 32230 31416; CA 32213 32231 31455; CA 32232 32233 31943; CX 32234 31678 31874; CA 32235 32236 32062;
  CX 32237 31607 32118; CX 32238 31621 31887; CA 32160 32239 32077; CA 32146 32240 31840; CX 31658 31712 31637; CA 32158 32241 32112; CA 32156 32242 32138; CX 32243 32143 32082;
  CA 32244 32245 31547; CX 154 32246 31750; CA 32154 32247 32130; CA 32248 32249 31321; CX 31709 31648 31598; CA 32208 32250 32073; CA 32235 32251 32051; CA 32168 32252 32129;
  CA 32248 32253 31983; CA 32168 32254 31925; CA 32152 32255 31922; CX 31603 31773 31674; CA 32156 32256 31857; CA 32229 32257 31967; CX 32258 32075 32120; CX 32259 32114 32060;
  CX 32260 31558 31999; CA 32186 32261 31411; CA 32262 32263 31883; CX 31685 31699 31583; CX 31571 31681 31579; CA 32244 32264 31928; CA 32262 32265 31551; CX 32266 31560 32001;
  CA 32206 32267 31332; CX 31767 31719 31656; CA 32178 32268 31976; CX 32269 32135 32101; CA 32144 32270 32066; CA 32232 32271 31548; CA 32218 32272 31955; CA 32154 32273 31853;
  CA 32148 32274 32090; CX 32275 31759 32076; CX 31727 31769 31702; CA 32276 32277 31374; CA 32278 32279 32028; CA 32278 32280 32024; CA 32176 32281 31431; CX 31741 31766 31585;
  CX 31761 31707 31644; CA 32162 32282 32099; CA 32152 32283 32107; CX 32284 31593 31988; CA 32174 32285 31898; CX 31689 31599 31675; CA 32276 32286 31957; CA 32172 32287 32007;
  CA 32159 32288 31932; CA 32157 32289 31830; CX 32290 32291 31738; CX 32292 32293 31594; CA 32294 32295 31683; CA 32296 32297 31470; CX 32056 32298 31859; CA 32299 32300 31731;
  CA 32175 32301 31897; CX 32302 32303 31745; CA 32304 32305 31645; CA 32306 32307 31504; CA 32153 32308 31911; CA 32149 32309 31791; CA 32310 32311 31292; CA 32312 32313 31352;
  CA 32163 32314 31846; CX 32067 32315 31919; CA 32175 32316 31914; CA 32165 32317 31838; CA 32318 32319 31540; CA 32320 32321 31554; CX 32121 32322 31987; CA 32171 32323 31900;
  CA 32161 32324 31962; CA 32147 32325 31926; CX 32046 32003 31421; CA 32326 32327 31762; CA 32149 32328 31949; CX 32105 32074 31427; CA 32318 32329 31659; CA 32330 32331 31539;
  CA 32167 32332 31924; CA 32147 32333 31953; CA 32320 32334 31771; CA 32335 32336 31465; CA 32173 32337 31820; CX 32061 32052 31398; CA 32161 32338 31997; CA 32151 32339 31980;
  CX 32340 32341 31700; CA 32169 32342 31828; CA 32326 32343 31517; CX 32104 32344 31938; CX 32345 32322 31730; CA 32296 32346 31601; CA 32173 32347 31965; CA 32157 32348 31855;
  CA 32155 32349 31877; CX 32350 32298 31669; CA 32310 32351 31650; CA 32352 32353 31544; CX 32110 32303 31982; CX 32354 32355 31723; CA 32312 32356 31580; CX 32027 32025 31425;
  CX 32010 32341 31950; CA 32335 32357 31657; CA 32145 32358 31803; CX 32359 32360 31670; CA 32159 32361 31902; CX 32000 32362 31869; CA 32363 32364 31420; CA 32169 32365 31903;
  CX 32366 32367 31703; CA 32151 32368 31831; CA 32155 32369 31973; CA 32153 32370 31985; CX 32093 32367 31871; CA 32352 32371 31776; CX 32372 32373 31777; CA 32299 32374 31407;
  CA 32375 32376 31315; CA 32304 32377 31410; CX 32038 32378 31861; CX 32379 32344 31651; CA 32165 32380 31934; CA 32167 32381 31833; CX 32049 32373 31978; CA 32375 32382 31567;
  CA 32363 32383 31652; CA 32171 32384 31931; CA 32306 32385 31729; CA 32386 32387 31638; CA 32145 32388 31886; CX 32389 32378 31735; CX 32390 32391 31756; CX 32392 32315 31768;
  CX 32068 32291 31795; CX 32006 32393 31799; CX 32394 32393 31564; CX 32081 32360 31996; CA 32163 32395 31843; CA 32330 32396 31610; CX 32050 32391 31879; CX 32136 32355 31990].
(** Lines 2005-2404 of the file. *)
Definition aes128_5 : list cg := [
  CX 32088 32293 31945; CX 32397 32362 31625; CA 32294 32398 31454; CA 32386 32399 31299; CX 32000 31867 31930; CX 32001 31905 31609; CX 32002 32003 31937; CA 32004 32005 31821;
  CX 32006 31963 31811; CX 32007 31544 31798; CX 32008 31352 31890; CX 32009 31583 31721; CX 32010 31967 31794; CA 32011 32012 31878; CX 32013 31454 31808; CX 32014 31991 31718;
  CX 32015 31575 31734; CX 32016 31675 31752; CA 32017 32018 31790; CA 32019 32020 31984; CA 32021 32022 31933; CX 32023 31887 31971; CX 32024 32025 31793; CX 32026 31702 31647;
  CX 32027 32028 31947; CA 32029 32030 31829; CX 32031 31321 31872; CX 32032 31416 31951; CA 32033 32034 31804; CX 32035 31598 31612; CX 32028 31999 31810; CA 32036 32037 31899;
  CX 32038 31928 31920; CA 32039 32040 31952; CX 32041 31631 31654; CA 32042 32043 31832; CA 32044 32045 31961; CX 32046 32023 31904; CX 32047 31407 31842; CX 32048 31548 31939;
  CX 32049 31955 31942; CX 32050 31993 31977; CX 32051 32052 31850; CA 32042 32053 31979; CA 32004 32054 31964; CA 32019 32055 31805; CX 32056 31870 31908; CA 32039 32057 31788;
  CX 32058 31874 31907; CX 32059 32060 31809; CX 32061 32062 31881; CA 32029 32063 31856; CX 32064 31483 31852; CA 32021 32065 31901; CX 32066 31504 31918; CX 32067 31894 31910;
  CX 32068 31957 31913; CX 32069 31656 31663; CX 32070 31299 31864; CX 32071 31547 31862; CX 32072 31541 31880; CX 32073 32074 31802; CX 32075 32076 31944; CX 32077 31470 31815;
  CX 32078 31674 31632; CX 32079 31585 31724; CX 32080 31505 31946; CX 32081 31883 31940; CX 31986 32082 31341; CA 32083 32084 31923; CX 31992 32060 31295; CA 32036 32085 31865;
  CA 32086 32087 31889; CX 32088 31976 31787; CX 32089 31545 31956; CX 32090 31554 31848; CX 32091 32082 31888; CX 32092 31431 31783; CX 32093 31983 31836; CX 32094 31307 31895;
  CA 32011 32095 31972; CA 32086 32096 31896; CX 32097 31579 31705; CX 32098 31644 31753; CX 32099 31539 31817; CX 32100 32101 31915; CA 32102 32103 31844; CX 32104 31943 31927;
  CX 32105 32058 31825; CX 32106 31706 31576; CX 32107 31315 31806; CX 32108 31455 31800; CX 32109 31411 31819; CX 32110 31782 31893; CX 32111 31374 31796; CX 32112 31292 31785;
  CX 32113 31672 31627; CX 32114 32014 31948; CX 32115 31465 31866; CX 32116 31637 31595; CX 32117 31435 31868; CX 32118 31975 31747; CA 32083 32119 31834; CX 31906 32120 31436;
  CX 32121 31851 31958; CA 32102 32122 31845; CA 32123 32124 31863; CX 32125 32120 31875; CA 32017 32126 31935; CA 32033 32127 31885; CA 32044 32128 31891; CX 32129 31540 31823;
  CX 32130 31410 31854; CX 32131 31686 31770; CX 31998 32101 31476; CX 32132 31551 31884; CX 32076 31826 31755; CA 32133 32134 31827; CX 32135 32118 31882; CX 32136 31818 31813;
  CX 32137 31517 31789; CX 32138 31420 31858; CX 32139 31332 31860; CA 32133 32140 31822; CX 32062 31988 31916; CX 32141 31708 31763; CA 32123 32142 31837; CX 32143 32001 31966;
  CX 31831 31980 31628; CX 31997 31962 31617; CX 31932 31902 31692; CX 31803 31886 31668; CX 31855 31830 31713; CX 31843 31846 31764; CX 31949 31791 31619; CX 31926 31953 31640;
  CX 31877 31973 31765; CX 31903 31828 31757; CX 31931 31900 31695; CX 31833 31924 31748; CX 31914 31897 31634; CX 31820 31965 31589; CX 31911 31985 31728; CX 31934 31838 31565;
  CX 31782 31783 31630; CX 31784 31785 31515; CX 31786 31787 31696; CX 31788 31789 31536; CX 31790 31791 31740; CX 31792 31793 31690; CX 31700 31794 31210; CX 31795 31796 31532;
  CX 31797 31798 31446; CX 31799 31800 31522; CX 31801 31802 31587; CX 31803 31804 31569; CX 31805 31806 31373; CX 31807 31808 31466; CX 31809 31810 31389; CX 31564 31811 31249;
  CX 31812 31813 31590; CX 31814 31815 31486; CX 31816 31817 31317; CX 148 31802 31754; CX 31818 31819 31732; CX 31820 31821 31671; CX 31822 31823 31442; CX 31824 31793 31682;
  CX 31825 31826 31496; CX 31827 31828 31604; CX 31829 31830 31653; CX 31831 31832 31643; CX 31833 31834 31655; CX 31835 31836 31693; CX 31837 31838 31639; CX 31839 31811 31620;
  CX 31840 31789 31386; CX 31841 31842 31396; CX 31843 31844 31749; CX 31845 31846 31611; CX 31847 31848 31481; CX 31849 31850 31623; CX 31851 31852 31710; CX 31853 31854 31401;
  CX 31855 31856 31715; CX 31857 31858 31325; CX 31859 31860 31524; CX 31861 31862 31362; CX 31863 31864 31457; CX 156 31793 31717; CX 31865 31866 31543; CX 31867 31868 31725;
  CX 31869 31868 31433; CX 31870 31860 31711; CX 31871 31872 31492; CX 31873 31866 31338; CX 31874 31875 31775; CX 31594 31787 31283; CX 31876 31793 31661; CX 31877 31878 31626;
  CX 31879 31880 31403; CX 31881 31882 31557; CX 31883 31884 31574; CX 140 31850 31746; CX 31885 31886 31649; CX 31887 31888 31744; CX 31889 31890 31480; CX 31891 31815 31468;
  CX 31832 31808 31305; CX 31892 31893 31641; CX 31894 31895 31736; CX 31896 31897 31581; CX 31898 31890 31405; CX 31899 31900 31600; CX 31901 31902 31572; CX 31903 31822 31673;
  CX 31904 31905 31298; CX 31906 31907 31588; CX 31669 31908 31174; CX 31909 31910 31664; CX 31856 31858 31376; CX 31911 31805 31636; CX 31723 31813 31242; CX 31912 31913 31596;
  CX 31914 31889 31701; CX 31915 31916 31343; CX 31917 31918 31377; CX 31919 31895 31429; CX 31834 31842 31353; CX 31735 31920 31224; CX 31921 31802 31679; CX 31922 31806 31408;
  CX 31923 31924 31720; CX 31925 31823 31518; CX 31926 31788 31665; CX 31768 31910 31168; CX 31651 31927 31256; CX 31928 31862 31716; CX 31929 31930 31629; CX 31931 31865 31666;
  CX 31932 31933 31586; CX 31934 31863 31662; CX 31878 31854 31508; CX 31935 31848 31458; CX 31936 31937 31697; CX 31938 31939 31488; CX 31670 31940 31254; CX 31941 31942 31722;
  CX 31943 31939 31584; CX 31825 31944 31563; CX 31945 31946 31463; CX 31625 31930 31222; CX 31933 31785 31379; CX 31947 31948 31691; CX 31949 31935 31591; CX 31950 31951 31366;
  CX 31952 31953 31606; CX 132 31937 31608; CX 31954 31920 31714; CX 31955 31956 31582; CX 31957 31796 31733; CX 31730 31958 31244; CX 31959 31958 31577; CX 31960 31937 31677;
  CX 31961 31962 31602; CX 31963 31800 31592; CX 31777 31942 31231; CX 31964 31965 31687; CX 31904 31966 31698; CX 31967 31951 31570; CX 31968 31850 31573; CX 31844 31817 31432;
  CX 31969 31864 31303; CX 31970 31927 31566; CX 31888 31971 31451; CX 31821 31798 31494; CX 31972 31973 31646; CX 31703 31836 31155; CX 31974 31908 31635; CX 31882 31975 31474;
  CX 31976 31946 31667; CX 31756 31977 31289; CX 31978 31956 31301; CX 31979 31980 31684; CX 31981 31794 31613; CX 31982 31783 31513; CX 31983 31872 31578; CX 31984 31985 31568;
  CX 31804 31918 31445; CX 31881 31975 31460; CX 31986 31971 31676; CX 31944 31826 31361; CX 31987 31852 31380; CX 31738 31913 31247; CX 31988 31915 31616; CX 31989 31937 31622;
  CX 31966 31905 31328; CX 31990 31819 31371; CX 31947 31991 31503; CX 31948 31991 31331; CX 31875 31907 31441; CX 31992 31810 31660; CX 31993 31880 31704; CX 31994 31940 31618;
  CX 31995 31977 31633; CX 31996 31884 31344; CX 31745 31893 31170; CX 31997 31891 31597; CX 31998 31916 31624; CX 31999 31809 31751; CI 31802 31779; CI 31850 31781;
  CX 31564 31458 31336; CX 31565 31566 31304; CX 31567 31568 31316; CX 31569 31570 31538; CX 31571 31572 31418; CX 141 31573 31342; CX 31574 31575 31501; CX 31576 31577 31272;
  CX 31578 31579 31475; CX 31580 31581 31333; CX 31582 31583 31382; CX 31584 31585 31329; CX 31578 31586 31419; CX 31587 31588 31368; CX 31589 31590 31447; CX 31591 31592 31395;
  CX 31593 31573 31477; CX 31594 31543 31448; CX 31595 31596 31216; CX 31574 31597 31439; CX 31570 31598 31531; CX 31599 31600 31449; CX 31601 31602 31469; CX 31603 31604 31414;
  CX 31605 31606 31385; CX 31607 31573 31459; CX 31608 31609 31479; CX 31610 31611 31312; CX 31612 31613 31240; CX 31614 31602 31324; CX 31615 31616 31399; CX 31617 31618 31487;
  CX 31619 31620 31482; CX 31621 31622 31340; CX 31623 31624 31546; CX 31625 31305 31520; CX 31582 31626 31462; CX 31627 31590 31213; CX 31628 31629 31467; CX 31630 31631 31390;
  CX 31632 31633 31234; CX 31634 31635 31406; CX 31636 31637 31277; CX 31638 31639 31300; CX 31640 31641 31387; CX 31642 31611 31529; CX 31643 31644 31167; CX 31645 31646 31383;
  CX 31647 31635 31218; CX 31648 31649 31500; CX 31650 31572 31322; CX 31651 31457 31392; CX 31652 31653 31357; CX 31654 31641 31196; CX 31655 31656 31237; CX 31579 31572 31493;
  CX 31657 31600 31310; CX 31658 31568 31443; CX 31659 31604 31349; CX 31660 31661 31530; CX 31584 31662 31498; CX 31663 31664 31278; CX 31630 31665 31527; CX 31666 31667 31370;
  CX 31668 31613 31378; CX 131 31622 31327; CX 31669 31480 31534; CX 31670 31468 31323; CX 31585 31639 31489; CX 31671 31672 31262; CX 31673 31674 31159; CX 31666 31675 31288;
  CX 31676 31677 31375; CX 31678 31679 31437; CX 31680 31653 31510; CX 31681 31572 31355; CX 157 31682 31388; CX 31683 31684 31306; CX 31685 31646 31461; CX 31592 31686 31555;
  CX 31672 31687 31372; CX 31688 31682 31502; CX 31689 31600 31369; CX 31690 31691 31347; CX 31692 31693 31516; CX 31674 31604 31404; CX 31694 31606 31526; CX 31695 31696 31339].
(** Lines 2405-2804 of the file. *)
Definition aes128_6 : list cg := [
  CX 31697 31698 31542; CX 31699 31646 31491; CX 31700 31445 31499; CX 31701 31702 31180; CX 31703 31379 31354; CX 31704 31674 31348; CX 31705 31693 31192; CX 31706 31611 31381;
  CX 31583 31646 31302; CX 31707 31684 31521; CX 31708 31653 31363; CX 31675 31600 31464; CX 31709 31649 31537; CX 31598 31649 31367; CX 31710 31706 31311; CX 31711 31702 31400;
  CX 31712 31568 31550; CX 31644 31684 31434; CX 155 31682 31330; CX 31631 31606 31514; CX 31713 31714 31326; CX 31715 31716 31335; CX 31637 31568 31533; CX 31717 31718 31351;
  CX 31715 31708 31253; CX 31719 31720 31453; CX 31721 31722 31274; CX 31723 31494 31552; CX 31724 31566 31259; CX 31643 31725 31320; CX 133 31622 31450; CX 31726 31687 31553;
  CX 31569 31598 31200; CX 31727 31581 31471; CX 31586 31579 31208; CX 31728 31596 31409; CX 31729 31649 31417; CX 31730 31432 31528; CX 31731 31720 31308; CX 31671 31732 31424;
  CX 31733 31637 31346; CX 31734 31618 31189; CX 31735 31376 31509; CX 31575 31602 31345; CX 31732 31672 31313; CX 31736 31656 31359; CX 31737 31611 31364; CX 31738 31373 31549;
  CX 31739 31740 31394; CX 31662 31585 31269; CX 31741 31639 31497; CX 31742 31653 31334; CX 31743 31744 31422; CX 31673 31704 31415; CX 31745 31536 31384; CX 31746 31747 31413;
  CX 31626 31583 31271; CX 31748 31664 31397; CX 139 31573 31473; CX 31665 31631 31221; CX 31710 31749 31365; CX 31702 31581 31525; CX 31656 31720 31430; CX 31686 31740 31523;
  CX 31750 31751 31426; CX 31752 31696 31186; CX 31753 31629 31266; CX 31749 31706 31161; CX 31754 31755 31485; CX 31756 31442 31506; CX 31757 31633 31519; CX 31758 31740 31337;
  CX 31759 31679 31495; CX 31760 31602 31438; CX 147 31679 31360; CX 31761 31684 31319; CX 31762 31606 31391; CX 31763 31714 31285; CX 31597 31575 31230; CX 31764 31577 31318;
  CX 31765 31722 31402; CX 31766 31639 31393; CX 31725 31644 31358; CX 31767 31720 31511; CX 31768 31353 31452; CX 31667 31675 31309; CX 31769 31581 31535; CX 31655 31736 31512;
  CX 31770 31620 31156; CX 31771 31740 31456; CX 31636 31733 31444; CX 31772 31687 31423; CX 31773 31604 31507; CX 149 31679 31440; CX 31591 31686 31182; CX 31716 31708 31356;
  CX 31774 31775 31428; CX 31776 31687 31314; CX 31777 31508 31490; CX 31701 31711 31472; CI 31682 31559; CX 31778 31779 31562; CX 31780 31781 31556; CI 31622 31561;
  CX 31299 31300 31257; CX 31301 31302 31130; CX 31303 31304 31226; CX 31305 31306 31267; CX 31307 31308 31236; CX 31309 31310 30626; CX 31311 31312 31201; CX 31313 31314 31172;
  CX 31315 31316 31248; CX 31317 31318 31209; CX 31319 31320 31195; CX 31321 31322 31207; CX 31323 31324 30998; CX 31325 31326 31251; CX 31327 31328 28549; CX 31329 31300 31204;
  CX 31330 31331 28588; CX 31332 31333 31179; CX 31334 31335 31238; CX 31336 31337 30987; CX 31338 31339 31122; CX 31340 31341 31239; CX 31342 31343 31177; CX 31344 31345 30989;
  CX 31346 31316 31056; CX 153 31347 28356; CX 31348 31349 31173; CX 31350 31351 28796; CX 31352 31333 31175; CX 31353 31308 31279; CX 31354 31355 30697; CX 31356 31357 31206;
  CX 31358 31306 31265; CX 31359 31308 31164; CX 31360 31361 28589; CX 31362 31363 31054; CX 31364 31365 31258; CX 31366 31367 31110; CX 150 31368 28298; CX 31369 31370 30921;
  CX 31371 31372 30958; CX 31373 31316 31217; CX 31374 31316 31276; CX 134 31375 28243; CX 31376 31357 31286; CX 31377 31378 31194; CX 31379 31322 31193; CX 31380 31381 31120;
  CX 31382 31383 31113; CX 31384 31385 31006; CX 31386 31387 31150; CX 31388 31389 31202; CX 31390 31391 30669; CX 31392 31393 31068; CX 31394 31395 31123; CX 31396 31397 31184;
  CX 31398 31399 29112; CX 31400 31333 30632; CX 31401 31402 31114; CX 31403 31404 31147; CX 31405 31406 31137; CX 31407 31308 31169; CX 31408 31409 31002; CX 31410 31383 31232;
  CX 31411 31314 31261; CX 31412 31413 28785; CX 31414 31415 31162; CX 31416 31417 31199; CX 31418 31419 30684; CX 31420 31357 31225; CX 31421 31422 29057; CX 31423 31424 31163;
  CX 31425 31426 29182; CX 31427 31428 29110; CX 31429 31430 31145; CX 31431 31391 31220; CX 31432 31312 31273; CX 31433 31434 31144; CX 31435 31306 31166; CX 31436 31437 31263;
  CX 31438 31439 31115; CX 31440 31441 31227; CX 31442 31349 31235; CX 31443 31444 30827; CX 31445 31417 31241; CX 31446 31447 31212; CX 31448 31449 31024; CX 31450 31451 31281;
  CX 31452 31453 31246; CX 31454 31306 31223; CX 31455 31456 31181; CX 31457 31300 31260; CX 31458 31456 31157; CX 31459 31460 31233; CX 31461 31462 30935; CX 31463 31464 31008;
  CX 31465 31310 31284; CX 31466 31467 31215; CX 31468 31469 31190; CX 31470 31469 31255; CX 31471 31472 31036; CX 31473 31474 28587; CX 31475 31322 30733; CX 31476 31477 31176;
  CX 31478 31479 28751; CX 31480 31333 31219; CX 31481 31482 31185; CX 31483 31312 31160; CX 31484 31485 28802; CX 31486 31487 31139; CX 31488 31489 30954; CX 31490 31491 31033;
  CX 31492 31493 30767; CX 31494 31314 31214; CX 31495 31496 31264; CX 31497 31498 30968; CX 31499 31500 31149; CX 31501 31469 30628; CX 31502 31503 31165; CX 31504 31417 31211;
  CX 31505 31310 31287; CX 31506 31507 31280; CX 31508 31383 31275; CX 31509 31510 30938; CX 31511 31512 31125; CX 31513 31514 30984; CX 31515 31516 30722; CX 31517 31391 31171;
  CX 31518 31519 31205; CX 31520 31521 31188; CX 31522 31523 30976; CX 31524 31525 30969; CX 31526 31527 30906; CX 31528 31529 31183; CX 158 31530 28282; CX 31531 31417 31198;
  CX 31532 31533 31032; CX 31534 31535 31071; CX 31536 31391 31197; CX 31537 31538 31143; CX 31539 31312 31245; CX 31540 31349 31290; CX 31541 31349 31158; CX 129 31542 28280;
  CX 31543 31310 31187; CX 31544 31314 31243; CX 31545 31383 31270; CX 142 31546 28294; CX 31547 31357 31252; CX 31548 31300 31268; CX 31549 31550 30821; CX 31551 31469 31229;
  CX 31552 31553 31021; CX 31554 31456 31250; CX 31555 31456 31191; CX 31556 31557 31291; CX 31558 31559 31294; CX 31560 31561 31297; CX 31562 31563 31296; CI 31322 31293;
  CX 31156 31157 31050; CX 31158 31159 31104; CX 31160 31161 31096; CX 31162 31163 30848; CX 31164 30632 30800; CX 31120 31054 30527; CX 152 31165 28070; CX 31166 31167 31111;
  CX 28243 31149 30653; CX 28802 31110 30503; CX 31168 31169 30749; CX 31170 31171 30716; CX 31172 31173 30861; CX 31174 31175 30607; CX 161 28280 28038; CX 143 31176 28117;
  CX 31147 30958 30533; CX 31177 31178 28590; CX 31179 31180 31100; CX 180 28802 28089; CX 31181 31182 30923; CX 30938 31033 31044; CX 31183 30938 30789; CX 31068 31149 31017;
  CX 31184 31185 31128; CX 31137 31036 31118; CX 31186 31187 30865; CX 31185 30722 31136; CX 31188 31068 30850; CX 31189 31190 30859; CX 31191 30733 30966; CX 31192 31193 30616;
  CX 29057 31194 31018; CX 31195 30968 31131; CX 166 28243 27974; CX 31196 31197 30846; CX 28589 31198 30618; CX 190 28282 28019; CX 31199 31200 31109; CX 31150 30906 31140;
  CX 28356 31194 30983; CX 31201 30626 30896; CX 171 28587 28090; CX 182 28298 28037; CX 30987 30697 30943; CX 31202 31203 28603; CX 31204 31198 30965; CX 31205 31150 31107;
  CX 31123 30684 31037; CX 31206 31113 31074; CX 174 28294 28014; CX 31122 30626 31141; CX 31207 31208 30593; CX 31209 31122 31092; CX 164 28751 28015; CX 31210 31211 31094;
  CX 31212 31002 31117; CX 31213 31214 31012; CX 28785 31110 30536; CX 31215 31139 31105; CX 31216 31217 30844; CX 31120 31008 30839; CX 31218 31219 30856; CX 29110 31194 31048;
  CX 31143 28280 30991; CX 31220 31221 30586; CX 31125 31036 30993; CX 31222 31223 31099; CX 31123 31125 31119; CX 162 29057 28056; CX 31224 31225 31138; CX 31226 31194 31124;
  CX 31227 31228 28554; CX 187 28588 28080; CX 31229 31230 31083; CX 178 29110 28076; CX 31205 31212 31146; CX 31231 31232 30951; CX 136 31233 28095; CX 31234 31235 31103;
  CX 179 28589 28078; CX 31236 31237 31106; CX 31238 30935 31009; CX 186 29182 28101; CX 31150 30669 31148; CX 135 31239 28035; CX 31139 31115 31132; CX 31162 30906 31077;
  CX 31240 31241 31097; CX 185 28356 28079; CX 31226 31215 31102; CX 31242 31243 31135; CX 31244 31245 30765; CX 31246 31071 30732; CX 163 28549 28036; CX 31247 31248 30735;
  CX 31246 30987 30796; CX 31249 31250 31134; CX 31251 31114 31121; CX 31252 31253 30941; CX 28549 31198 30675; CX 31195 31115 30919; CX 31206 31201 30870; CX 31145 30976 30528;
  CX 31145 30969 30900; CX 31164 31191 30820; CX 31254 31255 31098; CX 172 28785 28083; CX 31256 31257 31129; CX 31163 30827 30995; CX 31258 30921 31078; CX 31259 31260 30981;
  CX 31261 31262 30641; CX 29182 31198 31066; CX 31021 30821 31061; CX 31144 30954 30535; CX 151 31263 28103; CX 170 29112 28075; CX 144 31264 28097; CX 31137 30632 31127;
  CX 31265 30628 30816; CX 31266 31267 31116; CX 31268 31269 31112; CX 28294 31149 30704; CX 31204 31265 30877; CX 28751 31110 30808; CX 31258 31238 31093; CX 31270 31271 30901;
  CX 188 28796 28073; CX 31272 31273 31095; CX 31183 31024 30794; CX 31122 30921 31133; CX 31274 31275 31003; CX 31276 31277 30477; CX 31147 30984 30798; CX 31278 31279 31126].
(** Lines 2805-3204 of the file. *)
Definition aes128_7 : list cg := [
  CX 31139 30628 31101; CX 31280 31006 30875; CX 31188 30998 30747; CX 31281 31282 28532; CX 28298 31149 30601; CX 31184 31137 31108; CX 31283 31284 30622; CX 31285 31286 31063;
  CX 31287 31288 31091; CX 31289 31290 30785; CX 31173 30669 30804; CX 31144 30989 30758; CX 31209 31251 31142; CX 31280 31021 30837; CX 31172 31056 30931; CI 31056 30917;
  CX 137 31291 28360; CX 31292 31293 31154; CX 31294 31295 31152; CX 145 31296 28316; CX 31297 31298 31153; CI 31143 31151; CI 30733 30756; CX 31032 30477 30975;
  CX 30622 31091 30986; CX 30859 30998 31045; CX 31092 31093 31069; CX 28035 31094 30741; CX 202 28075 27897; CX 31095 31063 30992; CX 30622 31096 31073; CX 168 28095 27911;
  CX 30767 30593 30857; CX 30850 31097 30980; CX 194 28056 27883; CX 31098 31099 30930; CX 30856 31100 30937; CX 183 28103 27907; CX 31101 31102 31067; CX 31093 31091 30940;
  CX 28103 31094 30745; CX 31103 31104 30961; CX 31105 30965 31047; CX 31050 30923 30944; CX 30921 31091 31058; CX 30641 31104 31030; CX 31092 31074 30973; CX 30616 30593 30853;
  CX 30749 31106 31038; CX 31095 31096 31041; CX 30969 31100 31028; CX 31103 30846 31060; CX 28038 30935 31070; CX 31106 30923 30994; CX 30859 31083 30988; CX 30846 30586 30962;
  CX 30931 31107 30887; CX 31108 30966 30658; CX 28117 31094 30806; CX 30906 30586 31029; CX 31012 30641 30959; CX 31008 31091 31042; CX 30607 31106 31076; CX 31109 31110 31027;
  CX 31098 31111 31023; CX 30981 31112 30916; CX 28078 31113 30639; CX 31098 31083 30952; CX 31099 31111 30997; CX 28076 31114 30974; CX 31115 31083 30912; CX 30856 31071 30999;
  CX 31116 30981 31046; CX 31077 31117 30719; CX 189 28603 27898; CX 220 28073 27912; CX 31118 31119 30596; CX 30976 30923 30949; CX 28036 31113 30624; CX 31120 31096 30829;
  CX 28101 31113 30978; CX 31121 31122 30957; CX 196 28015 27881; CX 31123 30923 30933; CX 210 28076 27908; CX 31103 31012 31001; CX 30919 31124 31064; CX 31125 31100 30934;
  CX 31126 31050 31000; CX 30984 30586 31051; CX 31127 31128 30609; CX 31129 31112 30914; CX 28089 31130 30584; CX 30716 30586 30948; CX 30844 30477 30953; CX 30865 31024 31031;
  CX 31131 31083 30927; CX 31132 31131 30982; CX 28056 31114 30956; CX 198 27974 27817; CX 204 28083 27903; CX 31133 31093 30971; CX 30951 30901 31004; CX 28532 31097 30762;
  CX 31109 28097 30743; CX 173 28590 27902; CX 175 28117 27889; CX 30800 31128 30707; CX 31134 30749 31013; CX 203 28090 27909; CX 27974 31033 30710; CX 31037 31128 31035;
  CX 31104 30586 30996; CX 211 28078 27894; CX 30789 31003 31062; CX 30716 31104 31034; CX 31135 30785 30947; CX 31136 31137 30963; CX 206 28014 30950; CX 30865 31091 31007;
  CX 30785 31104 31005; CX 193 28038 27844; CX 30958 30641 30932; CX 30765 31096 30985; CX 31138 30765 31055; CX 31107 30848 30782; CX 184 28070 27888; CX 31106 31100 31014;
  CX 30607 31100 31039; CX 219 28080 27899; CX 31102 31115 30967; CX 31138 30941 30939; CX 31126 30856 30942; CX 31063 30941 30945; CX 31096 30941 31059; CX 31116 30859 31016;
  CX 31124 31139 30960; CX 31135 30641 31022; CX 181 28554 27900; CX 30816 31102 31019; CX 176 28097 27910; CX 30796 30616 31049; CX 31096 31091 31010; CX 31140 30848 30776;
  CX 31141 31142 30979; CX 217 28079 31057; CX 28037 31033 30693; CX 31143 28070 30760; CX 222 28019 27848; CX 31054 30941 31026; CX 31126 31106 30936; CX 31144 31111 30891;
  CX 31145 31106 30764; CX 31121 31078 30903; CX 30804 31146 30770; CX 28079 31114 30972; CX 30896 31142 30955; CX 31136 30993 30594; CX 214 28037 31015; CX 31036 31100 31053;
  CX 31105 31131 30990; CX 31116 31111 31052; CX 31130 30901 30970; CX 31134 30923 30929; CX 31147 31104 30812; CX 30735 30477 30977; CX 31148 31146 30729; CX 30846 31006 31075;
  CX 28603 31149 30886; CX 165 28532 27854; CX 30989 31083 31025; CX 28014 31033 30701; CX 31129 31099 30926; CX 31003 30901 30946; CX 30954 31112 30964; CX 167 28035 27840;
  CX 212 28089 27921; CX 28015 31130 30833; CX 30837 30844 31011; CX 31108 31119 30670; CX 31117 31150 31020; CX 28083 31130 30579; CX 28554 31097 30880; CX 31095 30865 31043;
  CI 30593 31089; CX 169 28360 28100; CI 31112 31087; CX 30968 31151 30924; CI 30844 30755; CI 28036 31090; CX 28360 31151 30834; CI 31142 31088;
  CI 30477 30754; CX 177 28316 28077; CI 31094 31080; CX 159 31152 28072; CI 31097 31086; CX 128 31153 28040; CI 30951 31040; CI 30641 31072;
  CI 31111 31082; CI 28101 31084; CI 30901 30922; CX 31154 31155 30605; CI 31146 31085; CI 31109 31081; CX 28316 31151 31065; CX 30931 30932 30811;
  CX 30933 30934 30562; CX 27888 30935 30787; CX 30936 30937 30642; CX 30938 30939 30881; CX 30940 30941 30825; CX 30942 30943 30547; CX 30944 30853 30899; CX 30945 30946 30838;
  CX 30947 30948 30604; CX 30857 30949 30799; CX 30950 30821 30686; CX 30951 27889 30769; CX 30926 30952 30822; CX 200 27911 27796; CX 27912 30953 30801; CX 30916 30954 30780;
  CX 30955 30956 30678; CX 30957 30870 30867; CX 236 27903 27802; CX 30958 30959 30840; CX 27817 30821 30690; CX 27844 30827 30783; CX 30960 30877 30824; CX 213 27900 27787;
  CX 30961 30962 30813; CX 207 27889 27794; CX 30963 30820 30854; CX 30964 30965 30890; CX 221 27898 27804; CX 30966 30949 30763; CX 30967 30968 30835; CX 251 27899 27777;
  CX 30936 30969 30779; CX 28080 30970 30711; CX 30971 30972 30691; CX 252 27912 27801; CX 30973 30974 30699; CX 27899 30975 30646; CX 225 27844 30894; CX 30976 30944 30778;
  CX 27848 30977 30713; CX 30978 30979 30683; CX 230 27817 27734; CX 228 27881 30831; CX 30980 30981 30858; CX 30982 30983 30660; CX 30961 30984 30841; CX 30985 30986 30788;
  CX 30987 30929 30862; CX 30988 30989 30737; CX 30990 30991 30665; CX 30794 30992 30851; CX 30993 30994 30517; CX 30995 30996 30656; CX 30997 30998 30792; CX 30999 31000 30544;
  CX 30875 31001 30599; CX 27908 31002 30888; CX 27854 31003 30852; CX 28019 31004 30629; CX 31005 31006 30884; CX 31007 31008 30773; CX 31009 31010 30809; CX 31011 31012 30845;
  CX 31013 31014 30520; CX 216 27888 27810; CX 31015 30821 30688; CX 31016 31017 30879; CX 30947 30996 30612; CX 31018 31019 30680; CX 31020 30861 30868; CX 31021 31022 30883;
  CX 31023 30914 30805; CX 28073 30946 30772; CX 31024 30986 30790; CX 234 27897 27780; CX 31025 30628 30878; CX 30985 31024 30882; CX 31026 30970 30895; CX 30891 31025 30876;
  CX 30964 31027 30815; CX 30764 31028 30847; CX 31029 31030 30636; CX 31031 30992 30842; CX 226 27883 30897; CX 27881 31032 30814; CX 27898 31033 30843; CX 31034 31022 30663;
  CX 31035 31036 30717; CX 31037 31014 30580; CX 30937 30969 30662; CX 31038 31039 30795; CX 27910 30901 30810; CX 31040 27840 30818; CX 31041 31008 30873; CX 31042 30626 30869;
  CX 31043 31044 30774; CX 254 27848 27765; CX 31045 31046 30885; CX 31004 30941 30766; CX 27900 31003 30775; CX 31047 31048 30698; CX 31042 30829 30871; CX 31049 31050 30855;
  CX 30997 30952 30849; CX 31051 30669 30860; CX 31022 30977 30874; CX 31052 30988 30807; CX 31051 30812 30866; CX 31006 30948 30892; CX 31053 30994 30568; CX 30998 30952 30889;
  CX 31054 30945 30872; CX 31055 30986 30726; CX 27894 31056 30651; CX 27921 31032 30587; CX 31057 31002 30777; CX 28588 31027 30672; CX 30959 30953 30797; CX 31013 31039 30490;
  CX 243 27894 27815; CX 30732 31000 30497; CX 208 27910 27799; CX 31058 31059 30786; CX 31004 30939 30793; CX 31041 31007 30832; CX 242 27908 30898; CX 31060 31061 30619;
  CX 30962 30984 30802; CX 244 27921 27792; CX 27911 30901 30826; CX 31062 31063 30864; CX 27883 31002 30771; CX 30747 31046 30761; CX 31064 31065 30702; CX 205 27902 27798;
  CX 31052 30989 30781; CX 30932 30975 30803; CX 31066 31067 30679; CX 31068 30914 30791; CX 31069 31070 30649; CX 31071 31039 30893; CX 31072 30977 30784; CX 31073 30939 30768;
  CX 31074 31026 30828; CX 31028 30632 30819; CX 27903 31032 30550; CX 31055 31010 30817; CX 31075 31001 30695; CX 235 27909 27797; CX 31076 30929 30509; CX 31005 30948 30836;
  CX 31077 31030 30611; CX 31038 31071 30863; CX 31078 31059 30723; CX 31080 31081 30913; CX 209 28077 27913; CX 31082 31083 30925; CI 27907 30909; CI 31015 27871;
  CX 218 31084 27915; CX 31085 30995 30905; CI 31057 27914; CX 31086 31081 30910; CI 30950 27843; CX 201 28100 27922; CI 27840 30908; CI 27854 30915;
  CX 31087 31082 30911; CX 191 28072 27904; CX 28072 31081 30823; CX 31088 31009 30920; CX 31087 31081 30928; CX 160 28040 30907; CX 28040 31081 30739; CX 30605 31089 30830;
  CX 195 31090 27856; CI 28077 31079; CX 30761 30762 30541; CX 30763 30764 30631; CX 30765 30766 30621; CX 27792 30767 30488; CX 30678 30649 30292; CX 30768 30769 29365;
  CX 30770 30771 30495; CX 30772 30773 30469; CX 30774 30775 30588; CX 239 27794 27674; CX 30776 30777 30572; CX 30778 30779 30418; CX 30780 30781 30465; CX 30782 30783 30513].
(** Lines 3205-3604 of the file. *)
Definition aes128_8 : list cg := [
  CX 30784 30785 30715; CX 30786 30787 30534; CX 30788 30789 30709; CX 30790 30789 30630; CX 232 27796 27642; CX 30791 30792 30703; CX 30793 30794 30692; CX 30795 30796 30633;
  CX 30797 30798 30457; CX 30702 30698 30285; CX 30799 30800 30705; CX 30801 30802 30448; CX 30803 30804 30650; CX 248 27810 27643; CX 30805 30806 29310; CX 30807 30808 30486;
  CX 30809 30810 30582; CX 30811 30812 30668; CX 30813 30814 30443; CX 30815 30816 30617; CX 30817 30818 29368; CX 30819 30820 30655; CX 253 27804 27671; CX 27804 30821 30696;
  CX 30822 30823 29362; CX 30824 29112 30578; CX 30825 30826 30464; CX 27810 30827 30637; CX 30828 30829 30625; CX 27765 30830 30682; CX 30831 30767 30643; CX 30832 30833 30441;
  CX 30834 30835 30556; CX 30683 30691 30298; CX 30836 30837 30689; CX 30838 30839 30467; CX 30840 30841 30484; CX 30842 30843 30567; CX 237 27798 27670; CX 27787 30844 30620;
  CX 30845 30846 30694; CX 30847 30820 30614; CX 27796 30848 30640; CX 30849 30850 30652; CX 30735 27794 30664; CX 30851 30852 30566; CX 27801 30853 30661; CX 30854 27780 30575;
  CX 27799 30477 30657; CX 30733 27815 30706; CX 30855 30856 30677; CX 30857 27777 30654; CX 30665 30680 30322; CX 30858 30859 30674; CX 30860 30861 30647; CX 30862 30863 30589;
  CX 30864 30865 30648; CX 30866 30861 30667; CX 30867 28075 30554; CX 30868 27897 30583; CX 30869 30870 30712; CX 27802 30767 30492; CX 30660 30679 30317; CX 30871 30870 30623;
  CX 30872 30873 30461; CX 30874 30875 30687; CX 30876 30877 30676; CX 30878 30877 30673; CX 30879 30880 30526; CX 30881 30882 30700; CX 30883 30884 30685; CX 240 27799 27640;
  CX 30885 30886 30557; CX 30887 30888 30576; CX 30889 30850 30645; CX 30890 30891 30627; CX 30892 30837 30714; CX 30893 30796 30681; CX 30894 30684 30671; CX 27734 30697 30634;
  CX 30895 30896 30638; CX 30897 30722 30708; CX 30898 30722 30659; CX 245 27787 27673; CX 30899 30900 30410; CX 246 27871 30522; CI 27765 30499; CX 30905 30906 30751;
  CX 192 30907 27752; CX 199 30908 27688; CX 215 30909 27788; CX 30910 28796 30736; CI 30898 27755; CX 30911 30912 30759; CX 30913 28282 30644; CX 223 27904 27784;
  CX 238 27843 30489; CX 30913 30914 30746; CI 27734 30516; CX 197 30915 27725; CX 30910 30916 30757; CX 27856 30917 30666; CX 233 27922 27813; CX 250 27915 27805;
  CX 30918 27856 27751; CX 30911 30919 30738; CI 30897 27737; CX 30920 30921 30752; CX 30922 27904 30727; CX 30830 30923 30750; CX 30924 30925 30742; CX 30926 30925 30740;
  CI 30831 27750; CX 30927 30928 30748; CX 241 27913 27814; CX 30830 30929 30731; CI 30894 27702; CX 249 27914 27803; CX 30930 30928 30744; CX 27915 30917 30728;
  CI 27913 30902; CX 31079 30935 30904; CI 30907 27857; CX 30617 30618 30505; CX 30619 30620 30538; CX 30621 30622 30573; CX 27815 27640 29398; CX 30623 30624 30565;
  CX 27777 27671 29197; CX 30625 30626 30561; CX 30627 30628 30546; CX 27777 27643 29470; CX 30629 30630 30514; CX 30631 30632 30564; CX 30633 30634 30361; CX 30636 30637 30537;
  CX 30638 30639 30394; CX 30640 30641 30585; CX 30642 30643 30445; CX 30644 30645 30552; CX 30646 30647 30423; CX 27797 27670 29177; CX 30489 27642 29469; CX 27643 27671 29327;
  CX 30648 27902 30453; CX 27755 27673 30539; CX 27640 27673 29394; CX 30582 30588 29045; CX 27805 27671 30549; CX 30649 30566 30318; CX 30650 30651 30380; CX 30652 30653 30500;
  CX 30654 30655 30351; CX 30656 30657 30555; CX 30658 30659 30438; CX 30660 30557 30332; CX 30616 27673 30548; CX 30661 30662 30471; CX 30663 30664 29156; CX 27797 27642 29390;
  CX 30556 30578 30300; CX 30665 30541 30331; CX 30666 30667 30422; CX 30668 30669 30525; CX 30670 30671 30420; CX 27640 30593 30581; CX 30292 29368 29434; CX 30672 30673 30524;
  CX 30674 28590 30455; CX 30675 30676 30507; CX 27815 27673 29199; CX 30677 27670 30452; CX 30522 27640 29485; CX 30678 30566 30406; CX 30679 30557 30378; CX 30680 30541 30407;
  CX 30513 30495 30327; CX 30681 30682 30350; CX 27803 27671 30434; CX 30683 30567 30401; CX 27642 27670 29263; CX 30684 27643 30569; CX 27813 27670 30475; CX 30685 30686 30388;
  CX 30687 30688 30381; CX 30534 30567 29067; CX 30689 30690 30430; CX 30317 29362 29444; CX 27642 30593 30563; CX 30691 30567 30323; CX 30692 30693 30387; CX 30694 27798 30405;
  CX 27814 27673 30456; CX 30695 30696 30542; CX 30697 27671 30545; CX 30698 30526 30366; CX 27643 30499 29487; CX 30699 30588 30368; CX 30700 30701 30432; CX 30702 30526 30279;
  CX 30703 30704 30479; CX 30705 30706 30336; CX 30707 30708 30427; CX 30709 30710 30532; CX 30711 30712 30506; CX 30713 30714 30431; CX 30715 30716 30558; CX 30726 30727 29328;
  CX 30728 30729 30553; CX 30730 27688 27543; CX 30731 30732 30591; CX 30733 27751 30615; CX 30734 27752 27617; CX 30489 27802 30502; CX 27688 30735 30613; CX 30736 30737 30480;
  CX 255 27784 29684; CX 30738 30739 30559; CX 30740 30741 29345; CX 30742 30743 30519; CX 30744 30745 29303; CX 30746 30747 30600; CX 30748 28095 30460; CX 27750 27734 30508;
  CX 30749 30750 30606; CX 30751 27922 30577; CX 27814 27755 30436; CX 30752 28100 30571; CX 30753 27725 27551; CX 27752 30754 30610; CX 27784 30754 30603; CX 30522 27792 30540;
  CX 27803 27805 30459; CX 27737 27702 30426; CX 30755 27725 30598; CX 30756 27805 30608; CX 30757 30758 30428; CI 27674 29615; CX 247 27788 29692; CI 27670 30602;
  CX 30759 30760 30523; CX 27801 30499 30543; CX 27857 30901 30724; CI 27813 30718; CI 30489 27770; CI 27814 30725; CI 30522 27771; CX 30902 30827 30720;
  CI 27803 30721; CX 30903 30904 30635; CX 30523 30524 29091; CX 30525 27909 30384; CX 30505 30526 28770; CX 30527 30514 30470; CX 30528 30361 30446; CX 30505 30519 29078;
  CX 30528 30350 30472; CX 30527 30532 30442; CX 30533 30431 30449; CX 30534 30514 29098; CX 30535 30500 30487; CX 30536 30479 30466; CX 30533 30430 30444; CX 30537 30431 29089;
  CX 30380 30538 28880; CX 30539 30540 29497; CX 30507 30541 28813; CX 30423 30542 28877; CX 30300 29310 29429; CX 30434 30543 29461; CX 30544 30545 30451; CX 30420 30427 30276;
  CX 30546 28587 30454; CX 30547 30548 30439; CX 30549 29470 29241; CX 30550 30388 30485; CX 30552 29444 29409; CX 30553 30542 30377; CX 30554 30453 30395; CX 30456 30540 29445;
  CX 30555 30380 29139; CX 30460 30455 29036; CX 30555 30538 29064; CX 30556 30455 30309; CX 30555 30381 29115; CX 30535 30552 30481; CX 29177 29469 29383; CX 30502 29390 29391;
  CX 30543 29470 29441; CX 30524 30557 28873; CX 30540 29398 29414; CX 30558 27788 29340; CX 30507 30559 29149; CX 30549 30543 29544; CX 30561 28090 30433; CX 30559 30500 29128;
  CX 30562 30563 30447; CX 30564 27797 30360; CX 30523 30552 29084; CX 30565 30566 28842; CX 30506 30567 28833; CX 30537 30542 29073; CX 30568 30569 30440; CX 30571 30453 30316;
  CX 30537 30423 29165; CX 30532 29434 29415; CX 30572 30542 30315; CX 30573 27907 29316; CX 30575 30452 30337; CX 30460 30479 29107; CX 30576 30538 30403; CX 30577 30405 30231;
  CX 30578 30455 30399; CX 30565 29434 29370; CX 30579 30432 30462; CX 30580 30581 30473; CX 29199 29485 29475; CX 30506 30534 29154; CX 30524 29444 29325; CX 30475 30502 29337;
  CX 30582 30387 29116; CX 30583 30405 30330; CX 30584 30387 30468; CX 30464 30432 29170; CX 30585 30586 30476; CX 30464 30453 29014; CX 30539 29398 29250; CX 30394 30582 29093;
  CX 30587 30381 30458; CX 29197 29487 29474; CX 30394 30588 28849; CI 29394 30404; CX 30459 29684 29663; CI 30431 30435; CX 30523 30557 29060; CX 27751 27551 29239;
  CI 30432 30482; CI 30532 30560; CX 30598 30599 30494; CI 30552 30529; CX 27617 27551 29395; CI 29327 30398; CX 30436 29692 29649; CX 30600 30601 30504;
  CX 30602 27780 30501; CX 30426 27543 29656; CX 27737 27551 30511; CX 30516 27617 29520; CX 30603 30604 29372; CI 30514 30570; CI 30479 30493; CI 29263 30390;
  CI 30361 30397; CX 30554 30571 30321; CI 30350 30362; CX 30605 29615 30510; CX 30572 30553 30291; CI 30381 30414; CX 30606 30607 30512; CX 27617 27751 29424;
  CX 30559 30541 29046; CX 27702 27551 30425; CI 30500 30530; CX 30322 29345 29416; CI 30387 30413; CI 30430 30437; CX 30519 30526 28957; CI 30388 30483;
  CX 27617 30593 30518; CX 30608 30609 30463; CX 30285 29303 29356; CX 30583 30577 30232; CX 30298 29328 29453; CX 30605 27543 30521; CX 30610 30611 30515; CX 30612 30613 29357;
  CX 30614 30615 30359; CX 30616 27551 30498; CX 30635 30588 30329; CX 30717 30718 30531; CX 30719 30720 30551; CX 27771 30697 30592; CX 30635 30699 30333; CX 27770 30697 30590;
  CX 30721 30722 30597; CI 29684 27676; CX 30718 27780 30450; CX 30723 30724 30574; CX 30725 30684 30595; CI 29692 27641; CX 30434 29441 30340; CX 30436 29414 29387;
  CX 30333 29316 29401; CX 30378 29091 28838; CX 30438 30439 30355; CX 29544 29487 30349; CX 30351 30440 28974; CX 29409 29060 29297; CX 30441 30442 30396; CX 30443 30444 30373].
(** Lines 3605-4004 of the file. *)
Definition aes128_9 : list cg := [
  CX 29497 29649 29645; CX 30445 30446 30357; CX 28877 29089 29035; CX 30448 30449 30370; CX 30450 29391 29278; CX 30440 30451 28899; CX 30447 30452 28915; CX 30384 30405 28681;
  CX 30433 30453 28865; CX 30454 30455 28866; CX 29692 29414 29598; CX 29391 29615 29555; CX 30407 29149 28835; CX 30456 29414 30352; CX 30457 30458 30383; CX 30459 29441 29396;
  CX 28813 29128 29066; CX 29325 29091 29371; CX 30460 30454 29146; CX 28880 29115 29068; CX 30461 30462 30374; CX 30377 29165 28868; CX 30463 30451 30371; CX 30401 29154 28879;
  CX 30464 30433 29121; CX 30336 30439 28742; CX 30465 30466 30391; CX 30467 30468 30369; CX 30469 30470 30375; CX 30471 30472 30386; CX 28873 29084 29012; CX 30473 30439 28911;
  CX 30440 30350 28964; CX 30336 30473 28944; CX 30351 30451 28728; CX 28849 29116 29049; CX 30360 30452 28755; CX 30475 29391 30308; CX 28833 29098 29063; CX 30476 30477 30385;
  CX 29684 29441 29628; CX 30368 29093 28875; CX 30479 29429 29402; CX 30480 30481 30379; CX 30447 30360 28993; CX 29544 29663 29613; CX 30454 29429 29354; CX 30403 29139 28817;
  CX 29497 29485 30354; CX 30366 29078 28800; CX 30484 30485 30293; CX 30486 30487 30376; CA 29370 29368 30253; CA 29441 29474 30311; CA 29445 29398 30346; CA 29461 29470 30348;
  CA 29325 29362 30268; CA 29241 29197 30415; CA 29337 29390 30344; CA 29497 29485 30289; CA 29414 29475 30313; CA 29544 29487 30335; CA 29429 30493 30258; CA 29391 29383 30282;
  CA 29250 29199 30417; CX 30422 30494 28819; CX 30495 30494 30372; CX 29663 27777 29667; CX 30497 30498 30421; CX 29663 30499 29664; CX 30500 29416 29435; CX 30327 29357 29457;
  CX 29649 27815 29672; CX 30501 30502 29428; CX 30503 30504 30429; CX 30505 29356 29264; CX 30506 29453 29315; CX 30507 29416 29369; CX 30508 29424 29437; CX 30509 30510 29236;
  CX 30511 30508 29499; CX 30512 27641 29184; CX 30425 30508 29448; CX 30321 29365 29432; CX 29239 29520 29456; CX 30513 30494 30307; CX 30232 29156 29235; CX 30504 29356 29379;
  CX 30514 29453 29454; CX 30515 30422 29117; CX 30515 30430 29138; CX 30291 29372 29412; CX 30516 29656 29665; CX 30511 29424 29216; CX 29656 27751 29659; CX 30517 30518 30424;
  CX 30519 30504 29025; CX 30520 30521 29300; CX 30501 29390 29119; CX 30522 29649 29700; CX 30515 30494 29070; CA 29656 27734 30408; CA 29444 30529 30243; CA 29416 30530 30248;
  CX 30531 30452 30270; CA 29649 27771 30412; CX 30551 30538 30290; CA 29434 30560 30274; CA 29663 27765 30416; CA 29453 30570 30269; CX 30574 30532 29082; CX 30565 30574 29094;
  CX 30589 30590 30363; CI 29395 30365; CX 30574 30566 29040; CI 30504 30496; CX 30551 30576 30326; CX 30591 30592 30342; CX 30450 29615 29640; CX 27676 30593 30491;
  CX 30531 30575 30249; CX 30594 30595 30474; CX 30596 30597 30478; CX 30368 30369 29086; CX 30370 29165 29032; CX 30371 28974 28756; CX 30372 30373 29152; CX 28865 29170 29039;
  CX 30316 30374 29125; CX 29154 30375 29062; CX 29149 30376 29010; CX 30315 30370 29168; CX 30377 30370 29080; CX 30330 30293 28895; CX 30378 30379 29108; CX 30231 30293 28893;
  CX 30383 29139 29052; CX 30384 30385 28910; CX 30371 30386 28959; CX 30387 29401 29405; CX 30388 30385 28900; CX 30390 29278 30284; CX 29402 29036 29296; CX 30391 29146 29016;
  CX 30374 29121 29041; CX 29091 30379 29055; CX 30369 29093 29058; CX 30394 29401 29376; CX 28728 28964 28916; CX 30395 30374 29162; CX 29094 30396 29037; CX 30386 28974 28897;
  CX 30373 29117 29003; CX 30309 30391 29088; CX 28866 29107 29059; CX 30318 30396 29105; CX 30398 29396 30295; CX 30399 29146 28846; CX 30331 30376 29143; CX 30399 30391 29159;
  CX 30329 30369 29100; CX 30401 30375 29171; CX 30332 30379 29092; CX 30337 28993 28726; CX 30403 30383 29103; CX 29354 29146 29311; CX 30355 28944 28752; CX 30404 29387 30320;
  CX 30405 30385 28863; CX 30307 30373 29126; CX 30395 29121 28878; CX 30406 30396 29169; CX 30407 30376 29140; CX 30290 30383 29145; CX 30323 30375 29158; CX 30412 30289 30265;
  CA 28800 28770 30230; CA 28875 28849 30263; CA 29401 30413 30254; CA 29387 29394 30345; CA 29278 29263 30343; CX 30415 30348 30341; CA 28817 28880 30271; CA 28835 28813 30237;
  CA 28879 28833 30246; CA 28868 28877 30275; CX 30416 30335 30240; CA 29396 29327 30347; CA 29354 29310 30272; CA 28838 28873 30250; CX 30417 30346 30353; CX 30420 30421 30280;
  CX 28819 29138 29022; CX 29454 29067 29282; CX 30422 29457 29367; CX 30423 29412 29339; CX 29435 29046 29273; CX 29369 29149 29352; CX 29659 29424 29596; CX 29664 29327 29599;
  CX 28770 29025 28986; CX 30359 30424 29008; CX 30425 29437 30314; CX 29315 29154 29334; CX 30426 29437 29385; CX 29379 28957 29247; CX 30427 30421 30356; CX 29264 29078 29258;
  CX 30428 30429 30367; CX 30276 29300 29338; CX 29667 29470 29619; CX 29672 29398 29643; CX 30249 29236 29304; CX 30424 30421 28942; CX 29428 29469 30304; CX 29428 29640 29549;
  CX 30430 29457 29451; CX 30388 29235 29201; CX 30431 29412 29452; CX 29499 29520 30302; CX 30384 29235 29141; CX 29437 27543 29644; CX 30424 30361 29034; CX 30372 29117 28860;
  CX 30432 29432 29433; CX 29700 29394 29614; CX 29499 29656 29605; CX 30359 30421 28791; CX 30433 29432 29335; CX 29665 29395 29633; CA 29412 30435 30256; CA 29457 30437 30255;
  CA 29369 29345 30242; CX 30326 29340 29462; CX 29415 29040 29288; CX 29370 29094 29346; CX 30447 30363 28930; CA 29216 29239 30393; CA 29672 29692 30392; CA 29667 29684 30409;
  CX 30473 30342 28946; CA 29315 29328 30235; CX 30474 30439 30262; CA 29119 29177 30400; CA 29659 27543 30389; CA 29499 29520 30306; CA 29448 29424 30325; CX 30478 30451 30299;
  CA 29437 29456 30297; CA 29432 30482 30267; CA 29264 29303 30228; CA 29235 30483 30261; CX 30406 29094 28881; CX 28842 29082 29021; CA 29428 29469 30287; CX 30478 30463 30328;
  CX 30488 30342 30411; CX 29640 27797 29594; CX 30489 29640 29641; CX 30438 30474 30239; CX 30490 30491 29212; CX 30492 30363 30419; CA 29356 30496 30225; CA 29640 27770 30402;
  CI 30363 30382; CI 30342 30364; CX 29159 29429 29324; CX 29086 29116 30113; CX 28895 28900 29994; CX 29103 29115 30139; CX 29345 29010 29289; CX 30290 29052 30104;
  CX 29212 28897 29180; CX 30291 29032 29053; CX 29162 29170 30097; CX 30292 29037 29069; CX 29103 29462 29361; CX 30293 28910 28870; CX 28681 28900 28876; CX 29310 29016 29266;
  CX 30298 29062 29026; CX 29376 29093 29344; CX 29365 29041 29261; CX 30299 28897 30180; CX 29340 29052 29259; CX 30300 29016 29013; CX 29162 29432 29349; CX 29108 29444 29359;
  CX 29405 29045 29265; CX 30307 29003 30095; CX 29201 28863 29071; CX 30309 29016 30147; CX 29368 29037 29299; CX 30315 29032 30140; CX 29316 29058 29260; CX 29169 29082 30138;
  CX 29080 29412 29317; CX 29171 29453 29366; CX 28895 29235 29160; CX 30316 29041 30164; CX 29357 29003 29291; CX 30317 29055 29065; CX 28959 28964 30178; CX 30318 29037 30184;
  CX 30321 29041 29017; CX 30322 29010 29027; CX 30323 29062 30159; CX 29159 29107 30154; CX 29372 29032 29283; CX 30326 29052 29044; CX 30327 29003 29042; CX 30328 28897 28898;
  CX 30329 29058 30183; CX 29140 29416 29341; CX 29169 29434 29351; CX 29171 29098 30107; CX 29152 29138 30142; CX 29152 29457 29350; CX 29086 29401 29360; CX 30330 28910 28648;
  CX 29080 29089 30179; CX 29108 29084 30115; CX 29140 29128 30162; CX 29141 28910 29104; CX 29362 29055 29254; CX 29328 29062 29279; CX 30331 29010 30099; CX 30332 29055 30185;
  CX 30333 29058 29047; CA 29055 29012 30134; CA 29145 29139 30182; CA 29103 29115 30152; CX 30340 30341 30215; CA 28897 28916 30032; CA 29088 29146 30128; CA 29140 29128 30132;
  CA 28846 28866 30247; CX 30343 30344 30200; CX 30345 30346 30213; CA 29159 29107 30136; CX 30347 30348 30217; CX 30341 30349 30241; CA 29158 29154 30126; CA 29032 29035 30150;
  CA 28959 28964 30040; CA 28878 28865 30259; CA 28893 28910 29953; CA 29062 29063 30117; CX 30352 30353 30224; CX 30353 30354 30266; CA 29152 29138 30124; CA 29169 29082 30158;
  CA 29376 29316 30238; CA 29058 29049 30166; CA 29041 29039 30176; CA 29108 29084 30146; CA 28756 28728 30260; CA 28726 28755 30204; CA 29086 29116 30191; CA 29171 29098 30187;
  CA 29016 29059 30174; CA 29168 29165 30168; CA 29052 29068 30109; CA 29037 29021 30193; CA 29105 29094 30144; CA 29162 29170 30121; CA 29143 29149 30161; CA 29125 29121 30119;
  CA 29080 29089 30172; CA 29092 29091 30111; CA 29010 29066 30156; CA 29126 29117 30195; CA 28752 28742 30208; CA 29003 29022 30102; CA 29100 29093 30189; CA 28895 28900 30130;
  CX 30356 30357 29054; CX 30359 29338 29275; CX 30360 29304 29204; CX 29645 29643 30054; CX 30361 29338 29329; CX 29451 29070 29298; CX 29605 29596 30050; CX 30363 29304 29302;
  CX 29367 29117 29375; CX 29613 29619 30069; CX 29335 29121 29358; CX 29433 29014 29287; CX 30280 30357 29072; CX 29452 29073 29284; CX 30365 29385 30278; CX 30366 30367 29007;
  CX 30279 30367 29005; CX 29078 30367 28928; CX 30356 29008 28801; CX 28791 29034 28954; CX 30357 29008 28973; CX 29339 29165 29378; CA 28860 28819 30244; CX 28742 28946 28909].
(** Lines 4005-4404 of the file. *)
Definition aes128_10 : list cg := [
  CA 29633 29644 30296; CA 29599 29628 30310; CX 30380 29462 29353; CA 29596 29605 30305; CX 30381 29462 29406; CA 29304 30382 30198; CX 30299 30386 28991; CA 29339 29372 30251;
  CX 30389 30297 30277; CA 29141 29156 30163; CX 30392 30313 30319; CX 30393 30325 30301; CA 29614 29598 30312; CA 29335 29365 30257; CX 28755 28930 28917; CA 29338 30397 30226;
  CA 29643 29645 30288; CA 29367 29357 30236; CX 30400 30344 30303; CX 30402 30287 30219; CA 29619 29613 30334; CA 29385 29395 30324; CX 30408 30306 30210; CX 30409 30311 30294;
  CX 30410 30411 30339; CX 29641 29263 29554; CA 28881 28842 30264; CX 30328 29212 29355; CX 29594 29390 29572; CA 29462 30414 30245; CX 30239 29184 29276; CX 30418 30419 30338;
  CA 29594 29615 30358; CX 28898 28899 30028; CX 29375 29350 29859; CX 29053 29073 30059; CX 29351 29346 29851; CX 29311 29324 29861; CX 29026 29067 30048; CX 29358 29349 29849;
  CX 29156 28870 29050; CX 29017 29014 30074; CX 29341 29352 29872; CX 29359 29371 29853; CX 29027 29046 30083; CX 29360 29344 29847; CX 29042 29070 30092; CX 30231 28870 29971;
  CX 29047 29045 30081; CX 29065 29060 30088; CX 29104 29160 29750; CX 29044 29064 30052; CX 29378 29317 29874; CX 29013 29036 30094; CX 29069 29040 30067; CX 29366 29334 29841;
  CX 30232 28870 28872; CX 30235 30117 30047; CA 29265 29260 30165; CA 29291 29298 30101; CA 29013 29036 30127; CX 30236 30102 30091; CX 30237 30161 30100; CA 29261 29287 30175;
  CX 30238 30166 30080; CA 29279 29282 30116; CA 29350 29375 30123; CA 29254 29297 30133; CA 29299 29288 30192; CA 29026 29067 30125; CA 29266 29296 30173; CA 29360 29344 30190;
  CX 30240 30241 29935; CX 30242 30156 30082; CA 29289 29273 30155; CX 30243 30146 29987; CX 30244 30195 30096; CX 30245 30152 29973; CA 29324 29311 30135; CX 30246 30126 30106;
  CA 29042 29070 30194; CA 28648 28681 30122; CX 30247 30128 30148; CX 30248 30132 29954; CA 29069 29040 30143; CA 29341 29352 30131; CA 29351 29346 30157; CX 30250 30111 30114;
  CX 30251 30150 30058; CX 30253 30193 30066; CX 30254 30191 29961; CX 30255 30124 29956; CX 30256 30172 29981; CA 29044 29064 30181; CX 30257 30176 30073; CX 30258 30136 29948;
  CX 30259 30119 30098; CA 28898 28899 30169; CA 29160 29104 30129; CA 29317 29378 30171; CA 28870 28876 29951; CA 29027 29046 30160; CX 30261 30130 29854; CA 29366 29334 30186;
  CA 29017 29014 30118; CX 30263 30189 30112; CA 29065 29060 30110; CX 30264 30144 30137; CA 29284 29283 30149; CX 30265 30266 29918; CA 29349 29358 30120; CA 29047 29045 30188;
  CA 29359 29371 30145; CA 29053 29073 30167; CX 30267 30121 29964; CX 30268 30134 30087; CX 30269 30187 30000; CX 30271 30182 30105; CX 30272 30174 30093; CX 30274 30158 29990;
  CX 30275 30168 30141; CX 30276 28973 28987; CX 30277 30278 30196; CX 29275 29008 29301; CX 30279 28928 30055; CX 30280 28973 30075; CX 29007 29025 30063; CX 29054 29338 29293;
  CX 29204 28993 29207; CX 30285 28928 28977; CX 29303 28928 29246; CX 29054 29034 30072; CX 29007 29356 29305; CX 29329 28942 29234; CX 29300 28973 29251; CX 29302 28915 29178;
  CA 29072 29008 30077; CX 30288 30289 30218; CA 28928 28986 30079; CA 29005 29078 30061; CX 29406 29064 29253; CX 29353 29139 29314; CX 30294 30295 30216; CX 30296 30297 30221;
  CA 28973 28954 30085; CX 30301 30302 30211; CX 30303 30304 30220; CX 30305 30306 30229; CX 30308 30303 30202; CX 30310 30311 30214; CX 30312 30313 30223; CX 30314 30301 30222;
  CA 29007 29025 30065; CA 29054 29034 30090; CX 30319 30320 30212; CX 30324 30325 30197; CX 28959 29355 29211; CA 29204 29236 30207; CA 29275 29300 30227; CA 28801 28791 30234;
  CX 30334 30335 30233; CX 30336 29276 29249; CX 30337 30338 28943; CX 30339 28944 28918; CX 30342 29276 29280; CX 29549 29572 30021; CX 30338 28993 28903; CX 30350 29355 29377;
  CX 30351 29355 29240; CA 29353 29340 30273; CX 30262 30339 28952; CX 30270 30338 28992; CA 28991 28974 30170; CX 30355 30339 28962; CX 30358 30282 30283; CA 29355 30362 30252;
  CA 29554 29555 30281; CA 29572 29549 30286; CA 29276 30364 30209; CX 30047 30048 29916; CX 30058 30059 29925; CX 30066 30067 29903; CX 28872 28863 29932; CX 30073 30074 29929;
  CX 30080 30081 29939; CX 30082 30083 29923; CX 30087 30088 29920; CX 30091 30092 29936; CX 30093 30094 29941; CX 30095 30096 30006; CX 30097 30098 29965; CX 30099 30100 29968;
  CX 30101 30102 30005; CX 30104 30105 29980; CX 30106 30107 30001; CX 30110 30111 29921; CX 30112 30113 29962; CX 30114 30115 29988; CX 30116 30117 29976; CX 30118 30119 29930;
  CX 30120 30121 29959; CX 30122 29953 29972; CX 30123 30124 29966; CX 30125 30126 29917; CX 30127 30128 29942; CX 30129 30130 29839; CX 30131 30132 29970; CX 30133 30134 29945;
  CX 30135 30136 29978; CX 30137 30138 29991; CX 30105 30139 29974; CA 28872 28863 29952; CX 30140 30141 30010; CX 30096 30142 29957; CX 30143 30144 29904; CX 30145 30146 30011;
  CX 30147 30148 30008; CX 30149 30150 30009; CX 30148 30154 29949; CX 30155 30156 29967; CX 30157 30158 30004; CX 30159 30106 29977; CX 30160 30161 29924; CX 30100 30162 29955;
  CX 30163 29951 29931; CA 29050 29071 29950; CX 30164 30098 29986; CX 30165 30166 30002; CX 30167 30168 29926; CX 30169 30170 29882; CX 30171 30172 29975; CX 30173 30174 30007;
  CX 30175 30176 29985; CX 30141 30179 29982; CX 30181 30182 29928; CX 30183 30112 30003; CX 30184 30137 29998; CX 30185 30114 29946; CX 30186 30187 29958; CX 30188 30189 29940;
  CX 30190 30191 29947; CX 30192 30193 29997; CX 30194 30195 29937; CX 30196 30197 29775; CX 29293 29301 29814; CX 28977 28957 30044; CX 29305 29258 29811; CX 28987 28942 30013;
  CX 30210 30211 29938; CX 30212 30213 29747; CA 29293 29301 30089; CX 30214 30215 30103; CX 30216 30217 29745; CX 30218 30213 30053; CX 30219 30220 29899; CX 30221 30222 30062;
  CX 30223 30224 30153; CA 28987 28942 30076; CX 30225 30065 29914; CA 29234 29251 30084; CA 28977 28957 30060; CX 30226 30090 29943; CX 30227 30085 30012; CX 29314 29361 29857;
  CX 30228 30079 30043; CX 30229 30197 30049; CA 29246 29247 30078; CX 30230 30061 30056; CA 29305 29258 30064; CX 30233 30217 30068; CX 30234 30077 30071; CX 29184 28918 29179;
  CX 30239 28918 28912; CX 29377 28899 29090; CX 28962 28946 30015; CA 29253 29259 30108; CX 29240 28974 29194; CX 29236 28903 29099; CX 30249 28903 28901; CX 30252 30040 29995;
  CX 30260 30170 30177; CX 30262 28918 30033; CX 28962 29276 29193; CA 29361 29314 30151; CX 28943 29304 29228; CX 28943 28930 30024; CX 29280 28911 29166; CX 29249 28944 29203;
  CX 30270 28903 30038; CX 30273 30109 30051; CA 28992 28993 30030; CA 28962 28946 30035; CA 28918 28909 30042; CX 30281 30282 30201; CX 30283 30284 30205; CA 28903 28917 30019;
  CA 29240 29212 30203; CA 29249 29184 30206; CA 28943 28930 30046; CA 28952 28944 30037; CX 30286 30287 30199; CX 29903 29904 29524; CX 29916 29917 29538; CX 29920 29921 29503;
  CX 29923 29924 29534; CX 29925 29926 29522; CX 29929 29930 29540; CX 29931 29932 29825; CX 29936 29937 29536; CX 29939 29940 29491; CX 29941 29942 29513; CX 29945 29946 29812;
  CX 29947 29940 29846; CX 29948 29949 29748; CX 29950 29951 29844; CX 29952 29953 29826; CX 29954 29955 29733; CX 29956 29957 29769; CX 29958 29917 29840; CX 29959 29930 29848;
  CX 29961 29962 29754; CX 29964 29965 29757; CX 29966 29937 29858; CX 29967 29968 29815; CX 29970 29924 29871; CX 29971 29972 29845; CX 29973 29974 29753; CX 29975 29926 29873;
  CX 29976 29977 29817; CX 29978 29942 29860; CX 29981 29982 29778; CX 29985 29986 29824; CX 29987 29988 29766; CX 29990 29991 29765; CX 29972 29994 29855; CX 29997 29998 29829;
  CX 30000 30001 29755; CX 30002 30003 29819; CX 30004 29904 29850; CX 30005 30006 29818; CX 30007 30008 29820; CX 30009 30010 29809; CX 30011 29921 29852; CX 30012 30013 29887;
  CX 30043 30044 29889; CX 30049 30050 29726; CX 30051 30052 29927; CX 30053 30054 29730; CX 30055 30056 29911; CX 30060 30061 29890; CA 30062 29775 29999; CX 30056 30063 29915;
  CX 30064 30065 29922; CX 30068 30069 29728; CX 30071 30072 29944; CX 30075 30071 29906; CX 30076 30077 29888; CX 30078 30079 29910; CX 30084 30085 29905; CX 30089 30090 29919;
  CA 30103 29745 29960; CX 30108 30109 29979; CX 29228 29207 29787; CX 28901 28915 29993; CI 29775 30026; CX 29193 29203 29803; CX 30151 30152 29989; CX 29211 29194 29801;
  CA 30153 29918 29832; CA 30103 29935 29821; CA 30062 29938 29804; CX 30177 30178 29996; CX 30180 30177 29886; CA 30153 29747 29969; CX 28912 28911 29984; CA 29178 29099 30018;
  CI 29745 30086; CA 28912 28911 30036; CA 29166 29179 30041; CA 29211 29194 30039; CI 29747 30057; CX 30198 30046 29900; CX 30199 30200 30020; CI 30062 30016;
  CX 30201 30202 30070; CA 29207 29228 30045; CX 30203 30032 30027; CX 30204 30030 30023; CI 30103 30017; CI 30153 30022; CX 30205 30200 29712; CX 30206 30042 29983;
  CX 30207 30019 29992; CA 29193 29203 30034; CA 28901 28915 30029; CA 29090 29180 30031; CX 30208 30037 30014; CX 30209 30035 29892; CX 29812 29503 29668; CX 29815 29534 29673].
(** Lines 4405-4804 of the file. *)
Definition aes128_11 : list cg := [
  CX 29817 29538 29646; CX 29818 29536 29650; CX 29809 29522 29690; CX 29819 29491 29688; CX 29820 29513 29675; CX 29824 29540 29670; CX 29825 29826 29295; CX 29829 29524 29701;
  CA 29536 29769 29740; CA 29524 29765 29734; CX 29839 29826 29749; CX 29840 29841 29501; CX 29844 29845 29713; CX 29846 29847 29532; CX 29848 29849 29515; CX 29850 29851 29505;
  CX 29852 29853 29495; CX 29854 29855 29638; CX 29858 29859 29530; CA 29522 29778 29770; CA 29540 29757 29767; CA 29513 29748 29751; CX 29860 29861 29489; CA 29491 29754 29736;
  CA 29534 29733 29742; CX 29871 29872 29483; CX 29873 29874 29493; CA 29538 29755 29760; CA 29503 29766 29738; CA 29812 29766 29622; CA 29820 29748 29606; CA 29829 29765 29634;
  CA 29818 29769 29600; CA 29809 29778 29616; CI 29522 29808; CI 29503 29816; CI 29536 29836; CI 29513 29827; CA 29819 29754 29608; CA 29824 29757 29602;
  CI 29540 29830; CX 29887 29888 29420; CX 29889 29890 29468; CI 29534 29823; CI 29491 29831; CA 29817 29755 29636; CI 29524 29828; CI 29538 29837;
  CA 29815 29733 29624; CX 29804 29726 29876; CX 29905 29906 29795; CX 29910 29911 29790; CX 29914 29915 29723; CX 29918 29730 29833; CX 29919 29888 29813; CX 29922 29890 29810;
  CX 29821 29728 29868; CX 29927 29928 29526; CX 29935 29728 29822; CX 29938 29726 29805; CX 29943 29944 29710; CX 29832 29730 29864; CA 29960 29728 29793; CA 29969 29730 29791;
  CX 29979 29980 29806; CX 29983 29984 29862; CX 29989 29928 29856; CX 29992 29993 29842; CX 29995 29996 29681; CA 29999 29726 29798; CX 30014 30015 29893; CI 29730 29913;
  CX 30016 29775 29877; CX 30017 29745 29869; CX 30018 30019 29895; CX 30020 30021 29704; CX 30022 29747 29865; CX 30023 30024 29901; CI 29728 29934; CA 30026 29938 29908;
  CX 30027 30028 29894; CX 30029 30030 29843; CX 30031 30032 29885; CX 30033 30014 29879; CX 30034 30035 29883; CX 30036 30037 29863; CX 30038 30023 29896; CX 30039 30040 29881;
  CX 30041 30042 29878; CX 30045 30046 29884; CI 29726 29909; CA 30057 29918 29912; CI 29804 29891; CI 29832 29880; CI 29821 29902; CA 30070 29899 29784;
  CA 30086 29935 29933; CA 30070 29712 29907; CI 30070 29963; CI 29712 30025; CX 29608 29688 29569; CX 29600 29650 29575; CX 29606 29675 29577; CX 29616 29690 29567;
  CX 29634 29701 29585; CX 29624 29673 29571; CX 29713 29295 29506; CX 29636 29646 29551; CX 29602 29670 29565; CX 29622 29668 29561; CX 29606 29489 29676; CA 29295 29638 29620;
  CX 29733 29483 29625; CX 29748 29489 29607; CX 29749 29750 29272; CX 29624 29483 29674; CX 29754 29532 29609; CX 29755 29501 29637; CX 29757 29515 29603; CX 29636 29501 29647;
  CX 29602 29515 29671; CX 29608 29532 29687; CX 29765 29505 29635; CX 29766 29495 29623; CX 29634 29505 29702; CX 29616 29493 29691; CX 29769 29530 29601; CX 29778 29493 29617;
  CX 29622 29495 29669; CX 29600 29530 29651; CA 29713 29638 29446; CX 29790 29468 29626; CI 29295 29714; CX 29600 29536 29653; CX 29634 29524 29686; CX 29795 29420 29630;
  CX 29606 29513 29683; CX 29602 29540 29666; CX 29608 29491 29689; CX 29624 29534 29680; CX 29622 29503 29654; CX 29616 29522 29677; CX 29636 29538 29685; CX 29804 29805 29706;
  CA 29420 29710 29720; CI 29530 29741; CA 29808 29809 29783; CX 29810 29811 29411; CX 29813 29814 29426; CI 29501 29761; CA 29816 29812 29732; CA 29468 29723 29717;
  CI 29515 29768; CI 29505 29735; CI 29532 29737; CI 29495 29739; CX 29821 29822 29716; CA 29823 29815 29781; CX 29806 29526 29679; CA 29827 29820 29758;
  CA 29828 29829 29764; CA 29830 29824 29724; CA 29819 29831 29773; CX 29832 29833 29709; CI 29489 29752; CI 29493 29771; CA 29836 29818 29756; CI 29483 29743;
  CA 29837 29817 29772; CX 29842 29843 29333; CA 29790 29723 29586; CX 29856 29857 29517; CI 29420 29796; CX 29862 29863 29374; CA 29864 29865 29746; CA 29795 29710 29588;
  CI 29468 29797; CA 29526 29753 29779; CA 29868 29869 29744; CA 29876 29877 29774; CX 29784 29704 29834; CX 29878 29879 29759; CX 29865 29880 29792; CX 29881 29882 29800;
  CX 29883 29863 29802; CX 29884 29843 29786; CX 29885 29886 29788; CI 29526 29807; CX 29877 29891 29799; CX 29892 29893 29682; CX 29894 29882 29319; CX 29895 29896 29731;
  CX 29899 29704 29785; CX 29900 29901 29657; CA 29806 29753 29631; CX 29869 29902 29794; CA 29907 29704 29762; CA 29908 29909 29705; CA 29912 29913 29708; CX 29902 29745 29867;
  CX 29880 29747 29875; CA 29933 29934 29715; CX 29891 29775 29870; CI 29704 29898; CX 29963 29712 29835; CI 29784 29866; CA 30025 29899 29897; CX 29446 29506 29313;
  CX 29600 29601 29439; CX 29602 29603 29443; CX 29606 29607 29450; CX 29446 29272 29507; CX 29608 29609 29477; CX 29616 29617 29459; CX 29622 29623 29418; CX 29624 29625 29473;
  CX 29634 29635 29431; CX 29636 29637 29464; CX 29638 29272 29447; CA 29646 29647 29537; CX 29586 29626 29509; CA 29650 29651 29535; CA 29601 29653 29529; CA 29623 29654 29494;
  CA 29603 29666 29514; CA 29668 29669 29502; CA 29670 29671 29539; CA 29673 29674 29533; CA 29675 29676 29512; CX 29588 29630 29543; CA 29617 29677 29492; CA 29625 29680 29482;
  CA 29607 29683 29488; CA 29637 29685 29500; CA 29635 29686 29504; CA 29687 29688 29490; CA 29689 29609 29531; CA 29690 29691 29521; CX 29446 29295 29541; CA 29701 29702 29523;
  CX 29705 29706 29557; CX 29588 29426 29629; CX 29631 29679 29547; CX 29708 29709 29562; CX 29710 29426 29589; CX 29586 29411 29627; CA 29714 29713 29593; CI 29272 29621;
  CX 29715 29716 29581; CX 29723 29411 29587; CA 29724 29515 29564; CX 29731 29333 29553; CA 29732 29495 29560; CA 29734 29735 29430; CA 29736 29737 29476; CA 29738 29739 29417;
  CA 29740 29741 29438; CA 29742 29743 29472; CX 29744 29745 29610; CX 29746 29747 29611; CA 29751 29752 29449; CX 29753 29517 29632; CA 29756 29530 29574; CX 29631 29517 29678;
  CX 29586 29468 29597; CA 29758 29489 29576; CX 29759 29374 29591; CA 29760 29761 29463; CA 29764 29505 29584; CA 29767 29768 29442; CA 29770 29771 29458; CA 29772 29501 29550;
  CA 29773 29532 29568; CX 29774 29775 29604; CA 29781 29483 29570; CX 29588 29420 29618; CA 29783 29493 29566; CX 29784 29785 29661; CX 29786 29787 29389; CX 29788 29319 29579;
  CX 29791 29792 29573; CX 29793 29794 29583; CI 29411 29718; CI 29426 29721; CA 29795 29796 29719; CA 29797 29790 29722; CX 29798 29799 29556; CA 29333 29657 29695;
  CA 29374 29682 29698; CX 29800 29801 29331; CX 29631 29526 29658; CX 29802 29803 29321; CA 29806 29807 29777; CA 29731 29657 29527; CI 29374 29776; CI 29333 29782;
  CA 29759 29682 29518; CA 29319 29681 29693; CI 29517 29780; CA 29834 29835 29711; CA 29788 29681 29480; CI 29319 29789; CX 29835 29866 29763; CA 29867 29822 29727;
  CA 29870 29805 29725; CA 29875 29833 29729; CX 29866 29712 29838; CA 29897 29898 29660; CX 29417 29418 29191; CX 29430 29431 29230; CX 29438 29439 29185; CX 29442 29443 29187;
  CX 29446 29447 29206; CX 29449 29450 29213; CX 29458 29459 29208; CX 29463 29464 29218; CX 29472 29473 29237; CX 29476 29477 29189; CX 29482 29483 29243; CX 29488 29489 29214;
  CX 29490 29491 29281; CX 29492 29493 29224; CX 29494 29495 29192; CX 29500 29501 29242; CX 29502 29503 29267; CX 29504 29505 29231; CA 29506 29507 29294; CX 29512 29513 29255;
  CX 29514 29515 29252; CX 29521 29522 29257; CX 29523 29524 29268; CX 29529 29530 29225; CX 29531 29532 29222; CX 29533 29534 29274; CX 29535 29536 29292; CX 29537 29538 29277;
  CX 29539 29540 29256; CA 29447 29541 29271; CX 29550 29551 29219; CX 29556 29557 29380; CX 29560 29561 29195; CX 29564 29565 29188; CX 29566 29567 29209; CX 29568 29569 29190;
  CX 29570 29571 29238; CX 29573 29562 29342; CX 29574 29575 29186; CX 29576 29577 29245; CX 29583 29581 29363; CX 29584 29585 29244; CX 29586 29587 29393; CX 29588 29589 29348;
  CA 29593 29272 29312; CX 29527 29553 29404; CA 29587 29597 29410; CA 29562 29598 29217; CA 29581 29599 28773; CX 29573 29611 29484; CX 29556 29604 29498; CA 29562 29614 28776;
  CX 29583 29610 29486; CA 29618 29589 29425; CX 29518 29591 29400; CA 29620 29621 29205; CA 29626 29627 29467; CA 29581 29628 29229; CA 29629 29630 29419; CX 29631 29632 29466;
  CA 29557 29633 28804; CA 29557 29644 29220; CX 29480 29331 29578; CX 29518 29321 29590; CX 29657 29389 29528; CA 29658 29632 29516; CX 29527 29389 29552; CX 29660 29661 29478;
  CX 29480 29579 29511; CA 29678 29679 29525; CX 29681 29331 29481; CX 29682 29321 29519; CX 29527 29333 29545; CI 29611 29642; CI 29604 29595; CX 29711 29712 29559;
  CI 29610 29612; CX 29480 29319 29592; CA 29717 29718 29392; CA 29719 29426 29542; CX 29518 29374 29558; CA 29720 29721 29347; CA 29722 29411 29508; CX 29725 29726 29580;
  CX 29727 29728 29582; CI 29389 29696; CI 29331 29694; CX 29729 29730 29563; CI 29573 29648; CX 29762 29763 29496; CI 29556 29655; CI 29583 29662].
(** Lines 4805-5204 of the file. *)
Definition aes128_12 : list cg := [
  CA 29776 29759 29652; CA 29777 29517 29546; CI 29321 29699; CA 29779 29780 29465; CA 29731 29782 29697; CA 29788 29789 29707; CA 29838 29785 29703; CX 29185 29186 28933;
  CX 29187 29188 28984; CX 29189 29190 28998; CX 29191 29192 29011; CX 29191 29195 28969; CX 29205 29206 28937; CX 29208 29209 28935; CX 29213 29214 29015; CX 29218 29219 28931;
  CX 29189 29222 29048; CX 29208 29224 29031; CX 29185 29225 29002; CX 29230 29231 29020; CX 29237 29238 28925; CX 29218 29242 29061; CX 29237 29243 29009; CX 29230 29244 28995;
  CX 29213 29245 28960; CX 29187 29252 29038; CA 29191 29254 28844; CX 29245 29255 29106; CX 29188 29256 29161; CX 29209 29257 29079; CA 29189 29260 28885; CA 29187 29261 28854;
  CX 29257 29224 28936; CA 29189 29265 28475; CA 29213 29266 28840; CX 29195 29267 29083; CX 29244 29268 29081; CX 29271 29272 28941; CA 29237 29273 28476; CX 29274 29243 28926;
  CX 29219 29277 29097; CA 29218 29279 28820; CX 29281 29222 28999; CA 29218 29282 28497; CA 29208 29283 28836; CX 29277 29242 28932; CA 29208 29284 28479; CA 29187 29287 28492;
  CA 29230 29288 28446; CX 29238 29274 29127; CA 29237 29289 28847; CX 29267 29192 28970; CA 29185 29291 28882; CX 29186 29292 29137; CX 29294 29295 29043; CX 29190 29281 29085;
  CX 29255 29214 28961; CA 29213 29296 28379; CA 29191 29297 28426; CA 29185 29298 28377; CA 29230 29299 28811; CX 29256 29252 28985; CX 29268 29231 28996; CX 29292 29225 28934;
  CA 29214 29310 28834; CA 29255 29311 28705; CX 29312 29313 28938; CA 29242 29315 28856; CA 29222 29316 28852; CA 29257 29317 29144; CA 29255 29324 29176; CA 29192 29325 28853;
  CA 29242 29328 28822; CA 29277 29334 28701; CA 29252 29335 28843; CA 29224 29339 28859; CA 29274 29341 29142; CA 29281 29344 28687; CA 29243 29345 28858; CA 29268 29346 28611;
  CX 29347 29348 29123; CA 29256 29349 29114; CA 29292 29350 29135; CA 29268 29351 29120; CA 29274 29352 28700; CA 29214 29354 28851; CA 29225 29357 28826; CA 29256 29358 28626;
  CA 29267 29359 29096; CA 29281 29360 29167; CA 29192 29362 28871; CA 29252 29365 28862; CA 29277 29366 29132; CA 29225 29367 28839; CA 29231 29368 28808; CA 29243 29369 28855;
  CA 29231 29370 28874; CA 29267 29371 28724; CA 29224 29372 28883; CA 29292 29375 28723; CA 29222 29376 28850; CA 29257 29378 28680; CX 29392 29393 29147; CA 29190 29401 28465;
  CA 29245 29402 29175; CA 29190 29405 29174; CA 29195 29409 29095; CX 29410 29411 29148; CA 29209 29412 28435; CA 29244 29415 29122; CA 29238 29416 28444; CX 29419 29420 29200;
  CX 29425 29426 29133; CA 29245 29429 28458; CA 29188 29432 28391; CA 29188 29433 29113; CA 29244 29434 28386; CA 29238 29435 29172; CA 29195 29444 28473; CA 29186 29451 29134;
  CA 29209 29452 29173; CA 29219 29453 28403; CA 29219 29454 29131; CA 29186 29457 28383; CX 29465 29466 29226; CX 29467 29468 29183; CX 29480 29481 29309; CA 29484 29485 28563;
  CA 29486 29487 28604; CI 29363 29326; CX 29496 29478 29306; CA 29484 29497 28806; CA 29498 29499 28799; CI 29342 29386; CX 29508 29509 29153; CX 29516 29517 29227;
  CX 29518 29519 29270; CA 29498 29520 28565; CI 29380 29384; CX 29525 29526 29290; CX 29527 29528 29286; CX 29542 29543 29124; CA 29486 29544 28764; CA 29545 29528 29388;
  CX 29546 29547 29233; CA 29552 29553 29332; CA 29478 29554 28729; CA 29478 29555 29130; CA 29558 29519 29320; CX 29562 29563 29413; CA 29578 29579 29318; CX 29557 29580 29436;
  CX 29581 29582 29440; CA 29590 29591 29373; CA 29592 29481 29330; CX 29496 29559 29427; CA 29595 29596 28980; CX 29604 29580 29381; CA 29595 29605 29408; CX 29610 29582 29364;
  CA 29612 29613 29455; CA 29612 29619 28981; CX 29611 29563 29343; CA 29642 29643 28939; CA 29642 29645 29422; CA 29648 29649 28803; CA 29652 29321 29399; CI 29559 29548;
  CA 29655 29656 28766; CA 29580 29659 29248; CA 29580 27543 29223; CA 29662 29663 28778; CA 29662 29664 29471; CA 29655 29665 29407; CA 29582 29667 29210; CA 29563 29672 29202;
  CA 29582 29684 29221; CA 29563 29692 29232; CA 29693 29694 29308; CA 29695 29696 29285; CA 29697 29389 29403; CA 29698 29699 29269; CA 29648 29700 29421; CX 29703 29704 29479;
  CA 29707 29331 29510; CI 29496 29639; CX 28925 28926 28812; CX 28931 28932 28832; CX 28933 28934 28818; CX 28935 28936 28867; CX 28937 28938 28771; CX 28937 28941 28869;
  CX 28960 28961 28845; CX 28969 28970 28837; CX 28984 28985 28864; CX 28995 28996 28841; CX 28998 28999 28848; CA 29002 29003 28685; CX 28497 28403 28456; CA 29009 29010 28702;
  CA 29011 29012 28155; CA 28960 29013 28821; CA 28984 29014 28676; CA 29015 29016 28719; CA 28984 29017 28857; CA 29020 29021 28177; CA 29002 29022 28259; CA 28931 29026 28814;
  CA 28925 29027 28810; CX 28377 28383 28419; CA 29031 29032 28609; CX 28426 28473 28401; CA 29031 29035 28248; CA 28960 29036 28721; CX 28479 28435 28429; CX 28492 28391 28409;
  CA 29020 29037 28661; CA 29038 29039 28256; CA 28995 29040 28618; CA 29038 29041 28607; CA 28933 29042 28815; CX 28938 29043 28894; CX 29043 28941 28772; CA 28998 29045 28718;
  CA 28925 29046 28652; CX 28379 28458 28467; CA 28998 29047 28807; CA 29048 29049 28222; CA 28937 29050 28710; CA 28935 29053 28827; CA 29011 29055 28720; CA 29048 29058 28620;
  CA 29015 29059 28120; CA 28969 29060 28722; CA 29061 29062 28644; CA 29061 29063 28246; CA 28969 29065 28809; CA 29009 29066 28247; CA 28931 29067 28698; CA 28995 29069 28823;
  CA 28933 29070 28665; CX 28476 28444 28382; CA 28937 29071 28140; CX 28446 28386 28390; CX 28475 28465 28394; CA 28935 29073 28704; CA 29079 29080 28427; CA 29081 29082 28223;
  CA 29083 29084 28166; CA 29085 29086 28450; CA 28961 29088 28706; CA 29079 29089 28142; CA 28970 29091 28629; CA 28970 29092 28711; CA 28999 29093 28616; CA 28996 29094 28709;
  CX 29095 29096 28434; CA 29097 29098 28200; CA 28999 29100 28656; CA 29043 29104 28399; CA 28996 29105 28670; CA 29106 29107 28201; CA 29083 29108 28388; CX 28871 29096 28633;
  CX 29113 29114 28485; CA 29085 29116 28132; CA 28934 29117 28625; CX 28808 29120 28678; CA 28985 29121 28664; CX 29122 29120 28494; CX 29123 29124 28889; CA 28985 29125 28671;
  CA 28934 29126 28707; CA 29127 29128 28180; CX 29131 29132 28490; CX 29123 29133 28953; CX 29134 29135 28470; CA 29137 29138 28161; CA 29127 29140 28459; CA 28941 29141 28617;
  CX 28858 29142 28639; CA 28926 29143 28717; CX 28883 29144 28697; CA 28961 29146 28669; CX 29147 29148 28927; CA 28926 29149 28715; CX 28862 29114 28695; CA 29137 29152 28480;
  CX 29147 29153 28913; CA 28932 29154 28614; CA 28941 29156 28659; CA 28932 29158 28666; CA 29106 29159 28478; CA 29043 29160 28904; CA 29161 29162 28493; CA 28936 29165 28713;
  CX 29167 28852 28684; CA 28936 29168 28641; CA 29081 29169 28425; CA 29161 29170 28113; CA 29097 29171 28457; CX 29172 29142 28417; CX 29173 29144 28454; CX 29174 29167 28431;
  CX 28826 29135 28694; CX 29175 29176 28468; CX 28834 29176 28691; CX 28822 29132 28683; CX 29153 29183 29006; CX 29124 29200 29033; CA 28938 29201 28924; CX 29226 29227 29051;
  CX 29226 29233 28982; CX 29183 29148 28914; CA 29123 29234 28319; CA 28938 29235 28197; CX 29200 29133 28890; CA 29147 29246 28795; CA 29147 29247 28372; CA 29123 29251 28784;
  CA 29226 29253 28477; CA 29183 29258 28572; CA 29226 29259 28861; CA 29148 29264 28798; CX 29269 29270 29000; CA 29133 29275 28768; CX 29285 29286 29023; CX 29233 29290 29102;
  CA 29200 29293 29076; CX 29290 29227 28983; CA 29133 29300 28797; CA 29200 29301 28580; CA 29148 29303 28789; CA 29183 29305 29019; CX 29308 29309 29028; CA 29290 29314 28703;
  CX 29318 29319 29164; CX 29320 29321 29001; CA 29326 29327 29109; CA 29124 29329 29075; CX 29330 29331 29029; CX 29332 29333 29129; CA 29124 29338 28348; CA 29227 29340 28884;
  CX 29342 29343 29198; CA 29227 29353 28830; CA 29153 29356 28317; CA 29290 29361 29151; CX 29363 29364 29196; CX 29373 29374 29087; CA 29153 29379 29018; CX 29380 29381 29215;
  CA 29384 29385 29157; CA 29386 29387 29155; CX 29388 29389 29024; CA 29386 29394 29111; CA 29384 29395 29181; CA 29326 29396 29163; CX 29399 29400 29004; CX 28773 28778 28788;
  CX 29403 29404 29030; CA 29233 29406 29150; CX 29407 29408 28757; CA 29413 29414 28971; CX 29421 29422 28738; CX 29422 29232 28333; CA 29427 29428 28732; CX 29408 29223 28357;
  CA 29436 29437 28988; CA 29440 29441 28947; CX 29455 29221 28321; CA 29436 29456 28592; CI 29306 29262; CA 29233 29462 28441; CX 28776 28803 28794; CA 29427 29469 28530;
  CX 29471 29455 28746; CA 29440 29474 28569; CX 28804 28766 28775; CA 29413 29475 28591; CX 29478 29479 29382; CX 29510 29511 29074; CA 29548 29549 29323; CI 29343 29397;
  CX 29559 29479 29307; CA 29548 29572 28906; CI 29381 29423; CI 29364 29460; CA 29479 29594 29101; CA 29479 29615 29136; CA 29639 29640 28748; CA 29639 29641 29322;
  CX 28771 28772 28647; CX 28807 28132 28699; CX 28808 28661 28612; CX 28809 28166 28623; CX 28810 28180 28606; CX 28811 28177 28662; CA 28812 28813 28714; CX 28814 28200 28631].
(** Lines 5205-5604 of the file. *)
Definition aes128_13 : list cg := [
  CX 28815 28161 28651; CA 28818 28819 28624; CX 28820 28246 28645; CX 28821 28201 28638; CX 28822 28644 28693; CX 28823 28223 28619; CX 28826 28685 28690; CX 28827 28142 28675;
  CA 28832 28833 28613; CX 28834 28719 28632; CA 28812 28835 28605; CX 28836 28248 28610; CA 28837 28838 28622; CX 28839 28419 28466; CX 28840 28120 28692; CA 28841 28842 28708;
  CX 28843 28409 28440; CX 28844 28155 28634; CA 28845 28846 28637; CX 28847 28247 28640; CA 28848 28849 28615; CX 28850 28394 28412; CX 28851 28467 28482; CX 28620 28852 28658;
  CX 28853 28401 28442; CX 28854 28256 28608; CX 28855 28382 28495; CX 28856 28456 28448; CX 28857 28113 28677; CX 28858 28702 28682; CX 28859 28429 28436; CA 28818 28860 28650;
  CX 28862 28607 28627; CA 28771 28863 28486; CA 28864 28865 28663; CA 28845 28866 28668; CA 28867 28868 28642; CX 28140 28197 28154; CA 28869 28870 28452; CX 28871 28720 28696;
  CA 28771 28872 28649; CA 28837 28873 28628; CX 28874 28390 28471; CA 28848 28875 28657; CA 28869 28876 27990; CA 28867 28877 28712; CA 28864 28878 28672; CA 28832 28879 28630;
  CA 28841 28881 28646; CX 28882 28259 28686; CX 28883 28609 28655; CX 28885 28222 28621; CX 28889 28890 28790; CX 28671 28664 28405; CA 28772 28893 28463; CA 28894 28895 28176;
  CA 28894 28900 27932; CX 28706 28669 28422; CX 28659 28904 28491; CX 28666 28614 28481; CX 28641 28713 28461; CX 28670 28709 28498; CA 28772 28910 28488; CX 28913 28914 28769;
  CX 28717 28715 28395; CX 28711 28629 28462; CX 28656 28616 28469; CX 28924 28904 28226; CX 28707 28625 28438; CA 28927 28928 28581; CA 28889 28942 28585; CA 28953 28954 28063;
  CA 28913 28957 28599; CX 28319 28348 28314; CA 28953 28973 28600; CA 28913 28977 28793; CX 28982 28983 28816; CA 28927 28986 28108; CA 28889 28987 28805; CX 28372 28317 28325;
  CX 29000 29001 28908; CX 29000 29004 28824; CA 28914 29005 28602; CA 29006 29007 28323; CA 28890 29008 28553; CX 29018 29019 28363; CX 29023 29024 28902; CA 29006 29025 28068;
  CX 29028 29029 28896; CX 29023 29030 28828; CA 29033 29034 28059; CA 28982 29044 28831; CX 28477 28441 28384; CA 29051 29052 28667; CX 28789 29019 28586; CA 29033 29054 28371;
  CA 28982 29064 28679; CA 29051 29068 28168; CA 28890 29072 28601; CX 29028 29074 28887; CX 29075 29076 28332; CX 28797 29076 28593; CA 28914 29078 28579; CX 29087 29001 28825;
  CA 29028 29090 28312; CA 29023 29099 28733; CA 29102 29103 28496; CX 29109 29110 28575; CX 29111 29112 28558; CA 29102 29115 28173; CX 29129 29024 28829; CX 29030 29129 28929;
  CA 28983 29139 28689; CA 28983 29145 28653; CX 29150 29151 28499; CX 29004 29087 28945; CX 29155 28563 28779; CX 29157 28565 28792; CX 29163 28604 28786; CX 29074 29164 28958;
  CX 29029 29164 28888; CA 29000 29166 28277; CA 29023 29178 28311; CA 29000 29179 28749; CA 29028 29180 28762; CX 28884 29151 28635; CX 29181 29182 28551; CA 29001 29184 28761;
  CA 29087 29193 28976; CA 29164 29194 28502; CA 29196 29197 28966; CA 29198 29199 28989; CX 29202 28794 28092; CA 29087 29203 28523; CA 29024 29204 28754; CA 29129 29207 28543;
  CX 29210 28788 28107; CA 29164 29211 28949; CA 29029 29212 28734; CA 29215 29216 28891; CX 29217 28591 28972; CX 29220 28592 28956; CX 28947 29221 28955; CX 28988 29223 28968;
  CA 29129 29228 28950; CX 29229 28569 28948; CX 28971 29232 28940; CA 29024 29236 28737; CA 29215 29239 28978; CA 29029 29240 28731; CA 29196 29241 28892; CX 29248 28775 28105;
  CA 29001 29249 28763; CA 29198 29250 28920; CA 29262 29263 29056; CA 29004 29276 28301; CA 29262 29278 29077; CA 29004 29280 28975; CA 29030 29302 28994; CA 29030 29304 28265;
  CX 29306 29307 29118; CX 29322 29323 28716; CX 28729 28748 28744; CA 29074 29355 28287; CX 29323 29136 28267; CA 29074 29377 28997; CA 29382 29383 28533; CA 29382 29391 28921;
  CA 29397 29398 28990; CA 29423 29424 28979; CA 29397 29445 28963; CA 29423 29448 28965; CA 29460 29461 28951; CA 29460 29470 28967; CI 29307 29336; CX 28605 28606 28171;
  CX 28607 28608 28414; CX 28609 28610 28408; CX 28611 28612 28472; CX 28613 28614 28404; CX 28615 28616 28451; CX 28617 28154 28227; CX 28618 28619 28216; CX 28620 28621 28474;
  CX 28622 28623 28207; CX 28624 28625 28378; CX 28626 28627 28406; CX 28628 28629 28389; CX 28630 28631 28174; CX 28468 28632 27964; CX 28633 28634 28128; CX 28494 28612 27991;
  CX 28637 28638 28251; CX 28639 28640 28169; CX 28641 28642 28407; CX 28644 28645 28460; CX 28646 28619 28189; CA 28647 28648 28397; CX 28649 27932 28398; CX 28650 28651 28163;
  CX 28652 28606 28257; CX 28454 28655 27995; CX 28485 28627 27927; CX 28656 28657 28393; CX 28431 28658 27945; CX 28659 28452 28400; CX 28661 28662 28420; CX 28663 28664 28392;
  CX 28665 28651 28254; CX 28666 28630 28455; CX 28668 28669 28380; CX 28670 28646 28402; CX 28671 28672 28484; CX 28642 28675 28122; CX 28676 28677 28145; CX 28678 28662 28183;
  CX 28680 28655 28437; CA 28647 28681 28487; CX 28417 28682 27999; CX 28683 28645 28118; CX 28684 28621 28244; CX 28685 28686 28418; CX 28687 28658 28413; CX 28470 28690 27928;
  CX 28691 28692 28205; CX 28490 28693 27972; CX 28694 28686 28159; CX 28695 28608 28210; CX 28434 28696 27950; CX 28697 28610 28252; CX 28698 28631 28238; CX 28672 28677 28194;
  CX 28657 28699 28221; CX 28700 28682 28396; CX 28701 28693 28449; CX 28702 28640 28430; CX 28704 28675 28234; CX 28705 28632 28423; CX 28706 28637 28410; CX 28707 28650 28489;
  CX 28708 28709 28387; CX 28710 27990 28453; CX 28711 28622 28464; CX 28712 28713 28428; CX 28714 28715 28445; CX 28717 28605 28381; CX 28718 28699 28187; CX 28719 28692 28411;
  CX 28720 28634 28447; CX 28721 28638 28130; CX 28722 28623 28232; CX 28723 28690 28439; CX 28724 28696 28443; CX 28463 28488 28212; CX 28768 28314 28328; CA 28769 28770 28578;
  CX 28784 28063 28594; CX 28789 28581 28573; CA 28790 28791 28552; CX 28793 28068 28577; CX 28795 28108 28582; CX 28797 28600 28556; CX 28798 28325 28368; CA 28769 28800 28576;
  CA 28790 28801 28570; CX 28805 28059 28571; CA 28816 28817 28654; CX 28824 28825 28741; CX 28828 28829 28725; CX 28830 28384 28432; CX 28831 28173 28660; CX 28861 28168 28636;
  CA 28816 28880 28688; CX 28884 28667 28643; CX 28602 28579 28364; CX 28601 28553 28331; CX 28887 28888 28727; CX 28891 28792 28740; CX 28892 28786 28747; CA 28896 28897 28520;
  CA 28887 28898 28745; CA 28887 28899 28515; CA 28828 28901 28759; CA 28902 28903 28548; CA 28908 28909 28009; CA 28824 28911 28504; CA 28824 28912 28760; CA 28828 28915 28506;
  CA 28896 28916 28055; CA 28902 28917 28020; CA 28908 28918 28508; CX 28920 28779 28736; CX 28312 28287 28261; CX 28311 28265 28262; CX 28653 28689 28483; CX 28277 28301 28272;
  CA 28929 28930 28022; CX 28939 28940 28735; CA 28929 28943 28276; CA 28825 28944 28525; CA 28945 28946 28013; CX 28947 28948 28783; CX 28734 28949 28522; CX 28737 28950 28513;
  CX 28951 28892 28782; CA 28825 28952 28518; CX 28746 28955 28361; CX 28956 28775 28560; CA 28958 28959 28270; CA 28945 28962 28310; CX 28963 28920 28780; CA 28958 28964 28052;
  CX 28965 28891 28774; CX 28966 28967 28765; CX 28757 28968 28375; CX 28738 28940 28369; CX 28971 28972 28781; CA 28888 28974 28527; CX 28975 28976 28292; CX 28976 28761 28517;
  CX 28978 28979 28767; CX 28980 28968 28739; CX 28972 28794 28568; CX 28948 28788 28562; CX 28981 28955 28753; CX 28988 28956 28787; CX 28989 28990 28777; CA 28888 28991 28511;
  CA 28829 28992 28547; CA 28829 28993 28546; CX 28994 28950 28308; CX 28997 28949 28269; CX 29056 29057 28529; CX 29077 28530 28750; CX 29101 28744 28024; CA 29118 29119 28886;
  CX 29130 28533 28919; CX 28921 29136 28907; CA 29118 29177 28922; CX 28965 28979 28339; CX 28951 28967 28342; CX 28963 28990 28373; CA 29336 29337 28905; CA 29336 29390 28923;
  CX 28377 28378 28228; CX 28379 28380 28192; CX 28381 28382 27934; CX 28383 28378 28199; CX 28386 28387 28250; CX 28388 28389 28156; CX 28390 28387 28184; CX 28391 28392 28186;
  CX 28393 28394 27961; CX 28395 28396 28258; CX 28397 28398 27930; CX 28399 28400 28213; CX 28401 28389 28129; CX 28402 28390 27957; CX 28403 28404 28137; CX 28405 28406 28146;
  CX 28407 28408 28191; CX 28409 28392 28211; CX 28410 28411 28193; CX 28412 28413 27988; CX 28414 28409 28218; CX 28417 28171 28181; CX 28418 28419 28219; CX 28420 28390 28152;
  CX 28422 28423 28131; CX 28425 28387 28153; CX 28426 28389 28134; CX 28427 28428 28123; CX 28408 28429 28151; CX 28430 28382 28204; CX 28431 28221 28208; CX 28381 28430 28203;
  CX 28434 28207 28149; CX 28435 28428 28231; CX 28436 28437 27966; CX 28438 28439 28255; CX 28440 28406 27954; CX 28442 28443 27970; CX 28444 28445 28182; CX 28446 28387 28143;
  CX 28447 28401 28196; CX 28448 28449 27982; CX 28450 28451 28133; CX 28452 28453 28125; CX 28454 28122 28230; CX 28455 28456 27953; CX 28457 28404 28158; CX 28458 28380 28215;
  CX 28459 28445 28172; CX 28455 28460 28225; CX 28461 28437 28235; CX 28462 28443 28233; CX 28463 28397 28124; CX 28447 28464 28135; CX 28465 28451 28209; CX 28466 28439 27958].
(** Lines 5605-6004 of the file. *)
Definition aes128_14 : list cg := [
  CX 28410 28467 28002; CX 28468 28251 28214; CX 28469 28413 28188; CX 28429 28428 28253; CX 28470 28163 28198; CX 28471 28472 27968; CX 28473 28389 28150; CX 28474 28394 28220;
  CX 28419 28378 28160; CX 28456 28404 28119; CX 28382 28445 28170; CX 28467 28380 28206; CX 28460 28456 28157; CX 28475 28451 28240; CX 28476 28445 28202; CX 28478 28380 28121;
  CX 28479 28428 28190; CX 28480 28378 28162; CX 28481 28449 28239; CX 28482 28423 27936; CX 28407 28429 27963; CX 28402 28420 28144; CX 28414 28484 28139; CX 28226 28400 27838;
  CX 28485 28194 28185; CX 28393 28474 28241; CX 28486 28398 27997; CX 28487 28488 28141; CX 28418 28489 28229; CX 28490 28174 28136; CX 28491 28453 28005; CX 28492 28392 28138;
  CX 28464 28401 27943; CX 28493 28392 28195; CX 28411 28467 28175; CX 28394 28451 28245; CX 28494 28189 28249; CX 28495 28396 28003; CX 28497 28404 28224; CX 28498 28472 28217;
  CX 28484 28409 27948; CX 28489 28419 27981; CX 28552 28553 28320; CX 28332 28556 27905; CX 28570 28571 28115; CX 28572 28573 28365; CX 28576 28577 28088; CX 28578 28579 28318;
  CX 28580 28556 28329; CX 28581 28582 28324; CX 28585 28571 28086; CX 28363 28573 27890; CX 28586 28582 28061; CX 28593 28594 28066; CX 28599 28577 28084; CX 28600 28594 28341;
  CX 28601 28570 28313; CX 28602 28576 28330; CX 28635 28636 28126; CX 28499 28643 27975; CX 28653 28654 28424; CX 28654 28660 28167; CX 28667 28636 28421; CX 28679 28660 28236;
  CX 28688 28689 28385; CX 28703 28643 28433; CA 28725 28726 28544; CA 28727 28728 28526; CX 28731 28261 28303; CX 28733 28020 28514; CX 28734 28520 28503; CX 28735 28736 28337;
  CX 28737 28548 28534; CX 28738 28736 28539; CX 28739 28740 28353; CA 28741 28742 28524; CX 28745 28052 28516; CX 28746 28747 28537; CX 28749 28009 28509; CA 28741 28752 28519;
  CX 28753 28747 28366; CX 28754 28262 28302; CA 28725 28755 28545; CA 28727 28756 28512; CX 28757 28740 28541; CX 28759 28022 28507; CX 28760 28013 28505; CX 28508 28761 28510;
  CX 28762 28055 28521; CX 28763 28272 28305; CX 28764 28765 28555; CX 28766 28767 28542; CX 28773 28765 28583; CX 28774 28775 28350; CX 28776 28777 28595; CX 28778 28765 28538;
  CX 28779 28735 28557; CX 28780 28781 28596; CX 28782 28783 28584; CX 28785 28777 28567; CX 28786 28753 28574; CX 28787 28775 28336; CX 28782 28788 28352; CX 28792 28739 28550;
  CX 28547 28546 28283; CX 28781 28794 28327; CX 28780 28794 28345; CX 28796 28767 28559; CX 28799 28767 28566; CX 28802 28765 28561; CX 28783 28788 28347; CX 28803 28777 28540;
  CX 28774 28787 28598; CX 28804 28767 28597; CX 28511 28527 28309; CX 28806 28777 28564; CX 28518 28525 28288; CX 28886 28750 28674; CX 28905 28886 28743; CX 28906 28907 28673;
  CX 28919 28744 28501; CX 28716 28907 28285; CX 28921 28919 28758; CX 28922 28923 28730; CX 28905 28923 28306; CX 28118 28119 27760; CX 28120 28121 28001; CX 28122 28123 27967;
  CX 28124 28125 27978; CX 28128 28129 27824; CX 28130 28131 27919; CX 28132 28133 27946; CX 28134 28135 27774; CX 28136 28137 27677; CX 28138 28139 27940; CX 28140 28141 27977;
  CX 28142 28123 27996; CX 28143 28144 27516; CX 28145 28146 27935; CX 28149 28150 27789; CX 28151 28123 27545; CX 28152 28153 27235; CX 28154 28141 28006; CX 28155 28156 27942;
  CX 28157 28158 27793; CX 28159 28160 27600; CX 28161 28162 27929; CX 28163 28162 27959; CX 28166 28156 27951; CX 28169 28170 27711; CX 28171 28172 28004; CX 28174 28158 27983;
  CX 28175 28121 27920; CX 28176 28141 27931; CX 28177 28153 27956; CX 28180 28172 28000; CX 28181 28182 27664; CX 28183 28184 27518; CX 28185 28186 27979; CX 28187 28188 27941;
  CX 28189 28153 27969; CX 28190 28191 27458; CX 28192 28193 27916; CX 28194 28195 27955; CX 28125 28154 27938; CX 28196 28156 27855; CX 28197 28141 27994; CX 28198 28199 27602;
  CX 28200 28158 27973; CX 28124 28154 27829; CX 28201 28121 27965; CX 28202 28203 27834; CX 28204 28172 27293; CX 28205 28206 27841; CX 28207 28156 27971; CX 28208 28209 27728;
  CX 28210 28211 27842; CX 28212 28213 27998; CX 28214 28215 27925; CX 28216 28217 27745; CX 28218 28195 27949; CX 28219 28162 27268; CX 28220 28133 27944; CX 28221 28133 27989;
  CX 28222 28133 27960; CX 28223 28153 27992; CX 28224 28225 27658; CX 28226 27930 27993; CX 28227 28213 27831; CX 28228 28229 27604; CX 28230 28231 27444; CX 28232 28233 27863;
  CX 28234 28235 27548; CX 28238 28239 27764; CX 28240 28241 27939; CX 28244 28245 27716; CX 28246 28158 27952; CX 28247 28172 27933; CX 28248 28123 27962; CX 28249 28250 27517;
  CX 28251 28121 27937; CX 28252 28253 27657; CX 28254 28255 27869; CX 28256 28195 27947; CX 28257 28258 27766; CX 28259 28162 27980; CX 28313 28314 27918; CX 28317 28318 28110;
  CX 28319 28320 28111; CX 28323 28318 28065; CX 28324 28325 28064; CX 28328 28329 27923; CX 28324 28330 28082; CX 28331 28329 28087; CX 28332 28115 28098; CI 28195 28114;
  CX 28313 28341 28112; CX 28348 28320 28099; CX 28325 28318 28062; CX 28363 28088 28109; CX 28364 28365 28085; CX 28368 28365 27895; CX 28371 28320 28060; CX 28372 28318 28081;
  CX 28314 28320 28067; CX 28330 28325 27893; CX 28341 28314 28093; CX 28384 28385 28127; CX 28421 28384 28164; CX 28421 28424 28179; CX 28432 28433 27984; CX 28441 28385 28148;
  CX 28424 28384 27987; CX 28477 28385 28178; CX 28483 28433 28237; CX 28496 28385 28165; CX 28499 28167 28147; CX 28502 28503 28304; CX 28504 28505 28045; CX 28506 28507 28053;
  CX 28508 28509 28275; CX 28292 28510 27846; CX 28511 28512 28278; CX 28269 28503 27851; CX 28513 28514 28017; CX 28515 28516 28032; CX 28517 28509 28057; CX 28518 28519 28274;
  CX 28520 28521 28260; CX 28519 28505 28051; CX 28512 28516 28027; CX 28522 28521 28025; CX 28523 28510 28289; CX 28524 28525 28273; CX 28526 28527 28271; CX 28308 28534 27886;
  CX 28537 28538 28297; CX 28539 28540 28293; CX 28541 28542 28281; CX 28543 28534 28284; CX 28544 28507 28042; CX 28545 28546 28263; CX 28547 28544 28264; CX 28548 28514 28266;
  CX 28550 28551 28340; CX 28554 28555 28367; CX 28557 28558 28374; CX 28559 28560 28358; CX 28561 28562 28322; CX 28563 28564 28370; CX 28565 28566 28376; CX 28567 28568 28334;
  CX 28569 28555 28351; CX 28574 28575 28343; CX 28583 28584 28315; CX 28587 28564 28326; CX 28588 28566 28335; CX 28589 28555 28346; CX 28590 28564 28338; CX 28591 28564 28344;
  CX 28592 28566 28349; CX 28595 28596 28359; CX 28597 28598 28355; CX 28603 28566 28354; CX 28604 28555 28362; CX 28673 28674 28295; CX 28716 28674 28415; CX 28729 28730 28535;
  CX 28732 28730 28531; CX 28743 28744 28300; CX 28748 28730 28416; CX 28750 28673 28528; CX 28751 28730 28500; CX 28743 28758 28536; CX 28758 28744 28291; CX 27928 27929 27322;
  CX 27930 27931 27832; CX 27932 27931 27839; CX 27933 27934 27826; CX 27935 27766 27732; CX 27936 27937 27786; CX 27938 27931 27820; CX 27916 27939 27431; CX 27728 27444 27645;
  CX 27941 27548 27785; CX 27942 27943 27812; CX 27920 27944 27441; CX 27945 27946 27835; CX 27745 27235 27723; CX 27947 27948 27783; CX 27950 27951 27632; CX 27952 27953 27575;
  CX 27944 27545 27691; CX 27841 27716 27175; CX 27954 27955 27822; CX 27956 27957 27704; CX 27958 27959 27380; CX 27960 27961 27264; CX 27962 27963 27087; CX 27939 27458 27679;
  CX 27964 27965 27562; CX 27966 27967 27332; CX 27968 27969 27366; CX 27970 27971 27694; CX 27766 27834 27837; CX 27869 27604 27768; CX 27972 27973 27561; CX 27919 27941 27795;
  CX 27977 27978 27818; CX 27745 27516 27736; CX 27925 27728 27446; CX 27979 27664 27420; CX 27940 27834 27720; CX 27980 27981 27739; CX 27982 27983 27544; CX 27988 27989 27708;
  CX 27990 27931 27828; CX 27991 27992 27347; CX 27993 27994 27823; CX 27995 27996 27333; CX 27842 27711 27422; CX 27997 27998 27827; CX 27949 27293 27410; CX 27999 28000 27781;
  CX 28001 28002 27800; CX 28003 28004 27382; CX 28005 28006 27735; CI 27869 27808; CX 28059 28060 27906; CX 28061 28062 27669; CX 28063 28060 27917; CX 28064 28065 27874;
  CX 28066 28067 27665; CX 28068 28065 27891; CX 28081 28082 27885; CX 28084 28085 27878; CI 27677 27746; CX 28086 28087 27819; CX 28088 28065 27896; CX 28093 28060 27304;
  CX 28098 28099 27663; CI 27657 27596; CI 27793 27757; CX 28108 28065 27892; CX 28109 28110 27668; CX 28111 28112 27710; CI 27766 27901; CX 28113 28114 27926;
  CX 28115 28060 27924; CX 28126 28127 27733; CX 28147 28148 27701; CX 28164 28165 27853; CX 28167 28165 27985; CX 28168 28165 27986; CX 28173 28165 27976; CX 28178 28179 27719;
  CX 28236 28237 27864; CX 28260 28261 28041; CX 28262 28263 28018; CX 28264 28262 27850; CX 28265 28263 28012; CX 28266 28262 28029; CX 28269 28027 28047; CX 28270 28271 28028;
  CX 28272 28273 28058; CX 28274 28275 28050; CX 28276 28263 28021; CX 28277 28273 28049; CX 28278 28261 27862; CX 28281 28282 24851; CX 28275 28272 28016; CX 28283 28284 28054;
  CX 28287 28271 28048; CX 28288 28289 28046; CX 28292 28051 28007; CX 28264 28266 28044; CX 28293 28294 27882; CX 28297 28298 27866; CX 28278 28260 28031; CX 28274 28272 27873].
(** Lines 6005-6404 of the file. *)
Definition aes128_15 : list cg := [
  CX 28301 28273 28008; CX 28302 28284 27858; CX 28303 28304 27876; CX 28305 28289 27879; CX 28308 28042 28011; CX 28309 28304 28033; CX 28310 28273 28010; CX 28261 28271 28026;
  CX 28311 28263 28043; CX 28312 28271 28030; CX 28315 28316 25124; CX 28321 28322 25560; CX 28326 28327 25352; CX 28333 28334 25592; CX 28335 28336 25106; CX 28337 28338 28091;
  CX 28339 28340 25781; CX 28342 28343 25927; CX 28344 28345 28094; CX 28346 28347 25318; CX 28349 28350 28069; CX 28351 28352 28096; CX 28353 28354 28104; CX 28355 28356 24865;
  CX 28357 28358 25320; CX 28359 28360 25126; CX 28361 28362 28102; CX 28366 28367 28106; CX 28369 28370 28116; CX 28373 28374 28074; CX 28375 28376 28071; CX 28415 28416 28242;
  CX 28500 28501 28268; CX 28528 28529 28307; CX 28530 28531 28286; CX 28532 28531 28296; CX 28533 28531 28299; CX 28535 28536 28279; CX 28549 28531 28290; CX 27786 27708 27667;
  CX 27380 27739 27589; CX 27785 27819 27693; CX 27382 27664 27699; CX 27823 27517 27424; CX 27716 27264 27692; CX 27824 27812 27584; CX 27711 27826 27705; CX 27827 27745 27690;
  CX 27347 27704 27481; CX 27828 27829 27696; CX 27831 27832 27695; CX 27657 27087 27653; CX 27760 27575 27678; CX 27516 27704 27473; CX 27679 27795 27709; CX 27822 27382 27697;
  CX 27835 27264 27651; CX 27561 27575 27639; CX 27544 27575 27656; CX 27786 27800 27633; CX 27562 27800 27637; CX 27518 27704 27475; CX 27604 27739 27588; CX 27332 27087 27647;
  CX 27708 27264 27706; CX 27781 27826 27649; CX 27822 27783 27685; CX 27632 27812 27571; CX 27818 27516 27536; CX 27602 27380 27605; CX 27600 27739 27587; CX 27834 27826 27730;
  CX 27835 27562 27646; CX 27838 27839 27499; CX 27818 27704 27628; CX 27841 27800 27556; CX 27366 27517 27522; CX 27800 27264 27684; CX 27322 27739 27573; CX 27820 27235 27415;
  CX 27694 27812 27582; CX 27446 27332 27707; CX 27382 27826 27686; CX 27842 27783 27502; CX 27333 27087 27574; CX 27366 27704 27487; CX 27735 27518 27426; CX 27819 27304 27809;
  CI 27735 27816; CI 27561 27654; CX 27885 27658 27610; CX 27890 27891 27762; CX 27892 27893 27577; CX 27819 27710 27811; CI 27783 27806; CX 27895 27896 27620;
  CI 27826 27782; CX 27808 27268 27748; CX 27841 27665 27540; CX 27878 27764 27747; CI 27812 27772; CX 27901 27293 27790; CX 27905 27906 27358; CX 27874 27793 27661;
  CX 27916 27710 27729; CX 27917 27918 27183; CX 27919 27819 27779; CX 27920 27304 27514; CX 27668 27677 27585; CX 27923 27924 27560; CX 27925 27663 27542; CX 27926 27927 27776;
  CX 27940 27719 27836; CX 27935 27864 27791; CX 27949 27853 27493; CX 27975 27976 27775; CX 27979 27701 27449; CX 27984 27985 27594; CX 27986 27987 27773; CX 27842 27733 27174;
  CX 28007 28008 27608; CX 28009 28010 27872; CX 28011 28012 27870; CX 28013 28010 27847; CX 27882 28014 24839; CX 28016 28010 27821; CX 28017 28018 27769; CX 28019 24851 24621;
  CX 28020 28021 27849; CX 28022 28021 27887; CX 28025 28026 27758; CX 28027 28028 27877; CX 28029 28021 27875; CX 28030 28031 27860; CX 28032 28033 27865; CX 27866 28037 24824;
  CX 28041 28028 27845; CX 28042 28021 27859; CX 28043 28044 27884; CX 28045 28046 27830; CX 28047 28048 27867; CX 28049 28050 27761; CX 28051 28010 27880; CX 28052 28028 27852;
  CX 28053 28054 27868; CX 28055 28028 27861; CX 28057 28058 27609; CX 28069 28070 24723; CX 28071 28072 24721; CX 25320 28073 24714; CX 28074 28075 24907; CX 25927 28076 24909;
  CX 28077 25124 24906; CX 25318 28078 24902; CX 28079 24865 24622; CX 25106 28080 24713; CX 25592 28083 24904; CX 25560 28089 24905; CX 25352 28090 24895; CX 28091 28092 25350;
  CX 28094 28095 24891; CX 28096 28097 24894; CX 28100 25126 24859; CX 28101 25781 24715; CX 28102 28103 24975; CX 28104 28105 25204; CX 28106 28107 25349; CX 28116 28117 24918;
  CI 27866 25076; CI 27882 25053; CX 28242 28243 25047; CX 28267 28268 25629; CX 28279 28280 25128; CX 28285 28286 28034; CX 28290 28291 25355; CX 28295 28296 28023;
  CX 28299 28300 28039; CX 28306 28307 25985; CI 28074 25987; CX 27685 27686 27524; CX 27637 27663 27483; CX 27487 27518 27485; CX 27691 27692 27555; CX 27693 27441 27554;
  CX 27695 27696 27486; CX 27651 27574 27541; CX 27704 27696 27519; CX 27574 27264 27563; CX 27695 27366 27526; CX 27347 27696 27476; CX 27475 27235 27497; CX 27692 27653 27513;
  CX 27502 27705 27492; CX 27706 27647 27539; CX 27707 27708 27559; CX 27602 27573 27503; CX 27517 27481 27504; CX 27705 27293 27498; CX 27709 27710 27530; CX 27685 27711 27470;
  CX 27589 27600 27565; CX 27686 27711 27402; CX 27716 27706 27557; CX 27582 24714 27484; CX 27728 27651 27482; CX 27584 24713 27364; CX 27729 27684 27236; CX 27499 27696 27480;
  CX 27664 27649 27505; CX 27587 27268 27496; CX 24621 27571 27298; CX 27542 27667 27209; CX 27639 27577 27494; CX 27735 27696 27392; CX 27633 27665 27558; CX 27775 27776 27635;
  CX 27779 27431 27340; CX 27560 27663 27666; CX 27781 27776 27607; CX 27782 27783 27636; CX 27729 27785 27456; CX 27786 27560 27644; CX 27710 27183 27683; CX 27790 27791 27659;
  CX 27779 27691 27427; CX 27514 27795 27336; CX 27620 27577 27655; CX 27358 27800 27650; CX 27560 27183 27634; CX 27776 27806 27648; CX 27781 27806 27672; CX 27665 27183 27652;
  CX 27669 27577 27662; CX 27762 27577 27615; CX 27747 27808 27630; CX 27809 27795 27459; CX 27358 27183 27638; CX 27811 27431 27454; CX 27800 27183 27680; CX 27816 27609 27074;
  CX 27818 27761 27689; CX 27820 27821 27320; CX 27822 27594 27700; CX 27827 27830 27722; CX 27823 27608 27349; CX 27791 27834 27718; CX 27733 27773 27618; CX 27732 27836 27712;
  CX 27836 27826 27591; CX 27594 27773 27616; CX 27837 27836 27714; CX 27783 27773 27721; CX 27775 27773 27579; CX 27843 24839 24608; CX 25355 27845 27368; CX 27608 27789 27527;
  CX 25318 27845 27239; CX 27846 27847 27717; CX 27848 24621 24435; CX 24824 27789 27244; CX 27849 27850 27743; CX 27851 27852 27754; CX 24839 27789 27206; CX 27853 27845 27727;
  CX 25629 27758 27525; CX 27821 27855 27597; CX 27858 27859 27741; CX 25560 27758 27129; CX 27860 24723 27489; CX 27861 27862 27753; CX 27864 27865 27742; CX 27866 27867 27249;
  CX 27860 25124 27624; CX 27868 27869 27740; CX 27870 27602 27451; CX 27701 27867 27698; CX 27871 24824 24607; CX 27872 27873 27703; CX 27874 27875 27404; CX 27876 27877 27744;
  CX 25985 27865 27682; CX 27878 27868 27749; CX 27879 27880 27491; CX 27860 25126 27532; CX 25047 27867 27283; CX 27882 27867 27281; CX 25592 27758 27148; CX 27669 27769 27153;
  CX 25204 27867 27510; CX 27769 27600 27453; CX 27761 27774 27535; CX 25927 27865 27550; CX 27875 27268 27468; CX 27870 27668 27406; CX 27884 27604 27567; CX 27885 27884 27738;
  CX 27830 27863 27724; CX 27886 27887 27495; CX 25781 27845 27660; CX 27888 24723 24509; CX 27889 24918 24645; CX 24906 27774 27538; CI 27791 27778; CX 27894 24902 24741;
  CX 27897 24907 24652; CX 25204 27898 24508; CX 27863 24909 27479; CX 27899 24713 24507; CX 25349 27900 24643; CX 25350 27902 24646; CX 27903 24904 24745; CX 27904 24721 24510;
  CX 27824 24904 27118; CX 27907 24975 24628; CX 27908 24909 27807; CX 27909 24895 24738; CX 27910 24894 24641; CX 27911 24891 24742; CX 27912 24714 24511; CX 27913 24906 24647;
  CX 27914 24622 24436; CX 24902 27855 27251; CX 27915 24715 24441; CX 24715 27855 27508; CX 27863 24622 27534; CX 27824 24905 27146; CX 27921 24905 24648; CX 27922 24859 24639;
  CI 27860 27825; CX 27974 25047 24838; CI 27865 27833; CX 25629 28015 24892; CX 28023 28024 25353; CX 28034 28035 27767; CX 25355 28036 24903; CX 28038 25128 24860;
  CX 28039 28040 24914; CX 25985 28056 24908; CX 27392 27475 27319; CX 27480 27481 27348; CX 27482 27483 27301; CX 27484 27485 27079; CX 27486 27487 27352; CX 27492 27493 27367;
  CX 27494 27495 27321; CX 27496 27404 27343; CX 27497 27320 27363; CX 27498 27493 27307; CX 27503 27406 27350; CX 27504 27349 27297; CX 27505 27449 27290; CX 27513 27514 27305;
  CX 27480 27517 27316; CX 27486 27518 27312; CX 27524 27525 27092; CX 27526 27527 27326; CX 27535 27519 27317; CX 27539 27540 27109; CX 27541 27542 27361; CX 27555 27556 27303;
  CX 27557 27558 27117; CX 27559 27560 27325; CX 27562 27563 27357; CX 27630 27404 27443; CX 27633 27634 27396; CX 27635 27636 27437; CX 27637 27638 27445; CX 27615 27639 27450;
  CX 27644 27645 27273; CX 27646 27638 27230; CX 27648 27649 27448; CX 27650 27651 27265; CX 27652 27304 27442; CX 27652 27556 27440; CX 27655 27656 27452; CX 27635 27649 27465;
  CX 27659 27660 27354; CX 27661 27662 27463; CX 27663 27638 27447; CX 27648 27664 27462; CX 27634 27665 27439; CX 27666 27667 27286; CX 27668 27615 27429; CX 27669 27655 27389;
  CX 27672 27579 27433; CX 27662 27678 27467; CX 27679 27680 27271; CX 27683 27684 27258; CX 27646 27680 27212; CX 27689 27690 27552; CX 27349 27694 27490; CX 27697 27698 27511;
  CX 27699 27700 27509; CX 27701 27579 27461; CX 27703 27696 27474; CX 24435 27639 27351; CX 27571 27703 27500; CX 27695 27491 27523; CX 24507 27678 27342; CX 27717 27499 27506].
(** Lines 6405-6804 of the file. *)
Definition aes128_16 : list cg := [
  CX 27718 27719 27531; CX 27720 27721 27471; CX 27420 27700 27520; CX 27535 27722 27515; CX 27723 27722 27507; CX 27597 27690 27478; CX 27536 27724 27537; CX 27727 27618 27501;
  CX 24511 27656 27564; CX 27730 27721 27488; CX 27616 27733 27469; CX 27736 27689 27533; CX 27415 27722 27528; CX 27738 27739 27576; CX 27740 27738 27621; CX 27741 27380 27586;
  CX 27720 27742 27623; CX 27322 27743 27614; CX 27495 27743 27601; CX 25349 27744 27512; CX 27724 27745 27627; CX 27491 27703 27581; CX 24608 27746 27252; CX 27747 27567 27569;
  CX 27748 27749 27599; CX 27577 27743 27568; CX 27744 27753 27595; CX 27754 27753 27578; CX 24918 27754 27432; CX 24975 27754 27388; CX 27741 27620 27566; CX 27741 27743 27590;
  CX 27449 27744 27593; CX 24607 27746 27284; CX 27758 27753 27580; CX 27609 27703 27583; CX 27761 27703 27629; CX 27762 27495 27572; CX 27717 27703 27477; CX 27765 24435 24316;
  CX 27742 27766 27613; CX 27468 27749 27625; CX 27610 27749 27603; CX 27767 27754 27436; CX 27768 27738 27611; CX 27769 27743 27464; CX 24608 27770 27256; CX 24607 27771 27257;
  CX 27739 27743 27606; CX 24894 27753 27435; CX 27773 27753 27592; CX 27544 27406 27619; CX 25353 27744 27521; CX 27774 24509 27314; CX 24436 27764 27612; CX 27757 24441 27598;
  CX 27777 24507 24365; CX 27632 24645 27356; CX 27778 27410 27681; CX 27780 24652 24467; CX 27784 24510 24366; CX 27787 24643 24456; CX 27788 24628 24418; CX 24508 27789 27329;
  CX 27792 24648 24462; CX 27793 24741 27270; CX 27760 24745 27127; CX 27794 24645 24458; CX 24647 27658 27570; CX 27796 24742 24457; CX 27797 24738 24454; CX 27798 24646 24459;
  CX 27799 24641 24460; CX 27801 24511 24368; CX 27802 24745 24463; CX 27803 24436 24292; CX 27804 24508 24367; CX 27805 24441 24369; CX 24643 27694 27327; CX 27760 24648 27152;
  CX 27807 27764 27547; CX 27810 24509 24337; CX 24641 27812 27318; CX 27813 24639 24446; CX 24742 27812 27394; CX 27814 24647 24465; CX 27815 24741 24453; CX 24510 27812 27300;
  CX 27817 24838 24609; CX 25128 27825 27713; CX 24838 27789 27222; CX 27833 24865 27715; CI 27753 27726; CX 27719 27825 27675; CI 27727 27731; CI 27740 27687;
  CX 27844 24860 27759; CX 27774 24860 27553; CX 25353 27854 27756; CX 27856 24903 24640; CX 27857 24914 24644; CX 27863 24908 27529; CX 24903 27855 27199; CX 27881 24892 24649;
  CI 27807 24651; CX 27883 24908 27763; CX 27824 24892 27353; CI 27767 24916; CX 27297 27298 27112; CX 27303 27304 27219; CX 27317 27318 27139; CX 27319 27320 27198;
  CX 27321 27322 27194; CX 27326 27327 27140; CX 27342 27343 27138; CX 27348 27349 27221; CX 27350 27351 27177; CX 27352 27353 27003; CX 27357 27358 27197; CX 27363 27364 27132;
  CX 27367 27368 27169; CX 27432 27433 25904; CX 27436 27437 25914; CX 27440 27441 27276; CX 27442 27441 27279; CX 27443 24652 27155; CX 27445 27446 27260; CX 27447 27446 27288;
  CX 27448 27449 27282; CX 27450 27451 27285; CX 27452 27453 27057; CX 27461 27462 27280; CX 27463 27464 27267; CX 27467 27468 27269; CX 27469 27470 27068; CX 27473 27474 27313;
  CX 27476 27477 27355; CX 27478 27479 27204; CX 27488 27489 27168; CX 27490 27491 27365; CX 27499 27500 27346; CX 27501 27502 27292; CX 27506 27481 27299; CX 27507 27508 27203;
  CX 27509 27510 27216; CX 27511 27512 27142; CX 27515 27516 27294; CX 27506 27519 27309; CX 27520 27521 27223; CX 27522 27523 27328; CX 27528 27529 27202; CX 27530 24446 27192;
  CX 27531 27532 27154; CX 27533 27534 27215; CX 27536 27474 27359; CX 27424 27523 27295; CX 27537 27538 27201; CX 27552 27553 27345; CX 27554 24467 27220; CX 27564 27565 27088;
  CX 27566 27451 27338; CX 27567 27568 27397; CX 27569 27570 27233; CX 24462 27257 27227; CX 24463 27256 27229; CX 27477 27571 27423; CX 27572 27573 27374; CX 24316 27574 27289;
  CX 27576 27577 27383; CX 27578 27579 27419; CX 25106 27580 27308; CX 27581 27582 27425; CX 27583 27584 27414; CX 27585 27586 27411; CX 27587 27464 27403; CX 27588 27568 27399;
  CX 27589 27590 27369; CX 27591 27592 27378; CX 27593 27594 27381; CX 27578 24851 27291; CX 25320 27595 27401; CX 27597 27583 27391; CX 27598 27599 27246; CX 27590 27600 27390;
  CX 27601 27602 27430; CX 27603 27604 27417; CX 27605 27566 27407; CX 27572 27606 27334; CX 27607 27592 27387; CX 27608 27477 27315; CX 27609 27581 27311; CX 27610 27606 27385;
  CX 27611 27612 27232; CX 27613 27493 27418; CX 27601 27573 27405; CX 27614 27615 27377; CX 27616 27595 27421; CX 27618 27580 27409; CX 27619 27620 27379; CX 27623 27624 27330;
  CX 27627 27320 27416; CX 27628 27629 27393; CX 27548 24292 27455; CX 24460 27575 27386; CX 24446 24467 27185; CX 27640 24460 24340; CX 27641 24418 26400; CX 27642 24457 24339;
  CX 27643 24337 24273; CX 24292 24369 27171; CX 24366 27575 27375; CX 24457 27575 27384; CX 27545 24369 27460; CX 27647 24368 27438; CX 27653 24365 27278; CX 27654 24458 27376;
  CX 27657 24462 27195; CX 27657 24463 27196; CX 24337 27658 27400; CX 27670 24459 24333; CX 27671 24367 24208; CX 27545 24453 27306; CX 27673 24456 24334; CX 27674 24458 24336;
  CX 27675 27636 27434; CX 27544 24456 27412; CX 24366 27676 26401; CX 27677 24367 27408; CX 27681 27682 27323; CX 27458 24465 27457; CX 27687 27661 27546; CX 27677 24609 27255;
  CI 27256 24411; CX 27712 27713 27331; CX 27714 27715 27344; CI 24316 27262; CI 27257 24420; CX 24914 27726 27472; CX 24721 27726 27466; CX 27731 27732 27549;
  CX 27734 24609 24419; CX 27750 24649 24464; CX 24640 27751 24449; CX 27752 24644 24461; CX 24651 27755 24466; CX 27756 27694 27296; CX 27757 24640 27240; CX 27759 27658 27622;
  CX 27760 24649 27370; CX 27763 27764 27626; CX 27772 24644 27360; CI 27756 24642; CX 27840 24916 24637; CI 27763 24638; CI 27759 24650; CX 27139 27140 25591;
  CX 27194 24418 25908; CX 27198 27199 27113; CX 27201 27140 26916; CX 27204 27140 26977; CX 27219 24454 26988; CX 27221 27222 27134; CX 27169 27223 25347; CI 27177 27135;
  CX 27267 27268 27156; CX 27269 27270 27032; CX 27278 27279 27071; CX 27280 27281 27094; CX 27282 27283 27167; CX 27284 27285 27062; CX 27288 27289 27073; CI 27112 27133;
  CX 27290 27291 27207; CX 27292 27293 27188; CX 27294 24859 27119; CX 27295 27296 27114; CX 27299 27300 25965; CX 27192 27220 26849; CX 27305 27306 27030; CX 27307 27308 27170;
  CX 27311 27312 27034; CX 27313 27314 27190; CX 27315 27316 27205; CX 27323 27223 27001; CX 27325 24333 26996; CX 27328 27329 27191; CX 27201 27204 26914; CX 27330 27142 26892;
  CX 27331 27223 26931; CX 27344 27216 26922; CX 27345 27202 26834; CX 27203 27215 26921; CX 27346 27347 27193; CX 27354 27216 27002; CX 27355 27356 25822; CX 27359 27360 27077;
  CX 27168 27216 25553; CX 27365 27366 27214; CX 27369 27370 27066; CX 27374 27375 25953; CX 27376 27377 25849; CX 27378 24891 27115; CX 27379 27380 27242; CX 27381 27382 27247;
  CX 27383 27384 27083; CX 27385 27386 27141; CX 27387 27388 25709; CX 27389 27390 27023; CX 27391 27392 27234; CX 27393 27394 27065; CX 27399 27400 27165; CX 27401 27402 27090;
  CX 27403 27404 27241; CX 27405 27406 27254; CX 27407 27408 27189; CX 27409 27410 27238; CX 27411 27412 27184; CX 27246 27232 26932; CX 27414 27415 27250; CX 27416 24907 27120;
  CX 27417 24639 27145; CX 27418 25987 27147; CX 27419 27420 27248; CX 27421 27422 27041; CX 27423 27424 27243; CX 27425 27426 27055; CX 27429 27430 27253; CX 24333 24339 26122;
  CX 24340 27087 27272; CX 24454 24333 26051; CX 27431 24339 27263; CX 24340 24334 26175; CX 24454 24339 26223; CX 24365 24208 26017; CX 24273 24208 26174; CX 24453 24334 26052;
  CX 27257 24340 26240; CX 27262 24273 26250; CX 27256 24339 26266; CX 27332 24334 27274; CX 27434 27435 27130; CX 27438 27439 27084; CX 27444 24208 27287; CX 27331 27323 26925;
  CX 27344 27354 26933; CX 27454 27455 27186; CX 27456 27457 27187; CI 27345 27200; CX 27458 24273 27259; CX 27459 27460 27173; CX 24340 24453 26224; CX 24336 27333 27266;
  CX 24365 24273 26225; CX 27465 27466 26007; CX 27171 26401 26406; CX 27471 27472 27166; CX 24368 27262 27225; CX 27444 24420 27362; CX 27444 24411 27302; CX 27546 27547 27245;
  CX 27549 27550 27324; CX 27444 24419 27261; CI 26401 24278; CI 26400 24319; CI 24336 26387; CI 24334 27372; CI 24208 27371; CI 24333 27373;
  CX 24466 24465 27172; CX 24461 27575 27398; CX 27596 24464 27395; CX 27617 24461 24383; CX 27621 27622 27413; CX 27548 24466 27428; CX 27625 27626 27218; CI 24419 27211;
  CX 27688 24637 24532; CI 24449 27180; CX 24650 27702 24533; CX 27725 24642 24455; CX 24638 27737 24468; CI 24637 27631; CX 26988 26996 25235; CX 27077 27113 25323;
  CX 27113 27114 25121; CX 27156 24738 27064; CX 27165 27135 25729; CX 27166 27167 25614; CI 27134 27075; CX 27174 27167 27093; CX 27153 27135 27089; CX 27175 27073 27085;
  CX 27133 27074 27080; CX 27032 27184 25343; CX 27032 27141 25563; CX 27188 25352 27059; CX 27138 27189 25408; CX 27190 27191 25665; CX 27170 27168 25654; CX 27166 27169 25676].
(** Lines 6805-7204 of the file. *)
Definition aes128_17 : list cg := [
  CX 27192 26996 26852; CX 27193 24628 25873; CX 27197 24319 26033; CX 26921 25965 26030; CX 27200 27114 26833; CX 27202 27114 26910; CX 27203 27191 27000; CX 27205 27206 27027;
  CX 27120 27119 26874; CX 27214 24646 27053; CX 27215 27191 26930; CX 27170 27216 25404; CX 27112 27190 25737; CX 27077 27114 25342; CX 27132 27191 25412; CX 27220 26996 26926;
  CX 27132 27190 25735; CX 27138 27165 25651; CX 27141 27184 25491; CX 27165 27189 25539; CI 27073 27095; CX 26932 25953 25930; CX 27232 27189 26928; CX 27233 27184 26909;
  CI 27062 27026; CX 27234 27235 27151; CX 27238 27239 27125; CX 27240 27241 27124; CX 27242 24459 27076; CX 27243 27244 27028; CX 27245 27184 26975; CX 27246 27189 27018;
  CX 27147 27154 26915; CI 27167 27176; CI 27094 27072; CX 27247 25350 27131; CX 27248 27249 27150; CX 27250 27251 27049; CX 27252 27253 27096; CX 27145 27155 26893;
  CX 27254 27255 27122; CX 27258 27259 27158; CX 27260 27261 27070; CX 27227 26224 26208; CX 26051 26266 26189; CX 26406 27262 26413; CX 26052 26240 26192; CX 26017 26250 26206;
  CX 27229 26223 26190; CX 27225 26225 26207; CI 25553 26851; CX 27263 27264 27182; CX 27173 27186 26924; CX 27265 27266 25730; CI 27207 27157; CX 27271 27272 27159;
  CX 26925 25914 25955; CX 27273 27274 27160; CX 27286 27287 27161; CX 26406 24365 26402; CX 26933 26007 25952; CX 27130 27142 25446; CA 26406 24316 27097; CX 27301 27302 26998;
  CX 27324 27142 26958; CX 27245 27233 26913; CX 27324 27330 26869; CX 27166 27223 25490; CX 27361 27362 27029; CX 24383 27180 26006; CI 26122 27078; CI 26175 27081;
  CX 24419 24383 26009; CX 27371 24292 27162; CX 27372 24465 27163; CX 24446 27373 27164; CX 27185 26387 26410; CX 27172 26400 26408; CX 24466 27372 27228; CX 27373 24467 27226;
  CX 27371 24369 27224; CX 24278 27087 27231; CX 24383 27087 27237; CX 27395 27396 27105; CX 27397 27398 27143; CX 27413 27218 26912; CX 27427 27428 27181; CI 26174 27082;
  CX 27211 24464 27179; CX 24532 27543 24335; CX 24468 24533 27144; CX 27544 24455 27339; CX 27545 27180 27277; CX 27548 24468 27337; CX 27551 24455 24384; CX 27458 24533 27341;
  CI 27413 27217; CX 27561 24532 27335; CX 27631 27632 27310; CX 26910 25323 25122; CX 27074 27075 27004; CX 27064 27076 25286; CX 27077 27075 25329; CX 27079 27080 26995;
  CX 27083 27064 25513; CX 25408 25729 25640; CX 26975 25563 25339; CX 25347 25614 25582; CX 27084 27085 26985; CX 27088 27089 26979; CX 27092 27093 26999; CX 26914 25873 25958;
  CX 27065 27027 25570; CX 27112 26030 26037; CX 27065 27053 25451; CX 27115 27059 25611; CX 27000 25735 25419; CX 25412 25737 25672; CX 27001 25676 25335; CX 27002 25654 25409;
  CX 26913 25908 25913; CX 27118 27027 27035; CX 26874 25822 25890; CX 27119 27053 26876; CX 27120 27053 26967; CX 27059 27131 25312; CX 27132 26030 25959; CX 27018 25651 25410;
  CX 27125 27130 25439; CA 26030 27133 26885; CX 25930 27135 25943; CX 27083 27076 25437; CX 27138 25930 25945; CX 27049 27139 25648; CX 27049 27140 25348; CX 27139 27028 25680;
  CX 27141 27026 25674; CX 27125 27142 25202; CX 27143 27122 25516; CX 27115 27072 25656; CX 26893 25849 25857; CX 27145 27076 26891; CX 27146 27028 27056; CX 27147 27131 26978;
  CX 27148 27072 27069; CX 27115 27131 25492; CX 27151 24895 27033; CX 27152 27026 27058; CX 26915 25904 25880; CX 27153 27122 27067; CX 27124 27143 25514; CX 27154 27131 26902;
  CX 27155 27076 26957; CX 25952 27157 25957; CX 27071 27158 25734; CX 27159 27160 25723; CX 27158 27161 25652; CX 27030 27160 25456; CX 26413 26174 26354; CX 26400 26208 26351;
  CX 26190 26387 26329; CX 27162 26207 26990; CX 27163 26208 26982; CX 27164 26190 26980; CX 27168 27157 25726; CX 27169 25955 25915; CX 27170 25952 25988; CX 26849 25730 25815;
  CX 27171 26207 26166; CX 27172 26208 26133; CX 27173 27161 26984; CI 27027 27054; CA 25955 27176 26879; CA 25930 27177 26889; CX 26402 26225 26365; CX 27071 27161 25416;
  CX 27030 27159 25821; CI 25342 26652; CX 27181 27160 27031; CX 27167 25955 25956; CX 27182 27183 27086; CX 27070 27175 27106; CX 27185 26190 26167; CX 26401 26207 26352;
  CX 27174 27157 27091; CX 27186 27161 26927; CX 27187 27160 26966; CX 27158 27073 25739; CX 27159 27029 25816; CX 27195 27029 27110; CX 27196 26998 27116; CA 25952 27207 26881;
  CA 26207 26206 27037; CA 26208 26192 27022; CI 25491 26817; CI 25539 26853; CI 27096 27063; CX 26869 25709 25848; CI 27028 27060; CI 27150 27123;
  CA 26402 26401 27121; CI 27122 27149; CA 26190 26189 27011; CX 26410 24454 26404; CX 27224 27225 26268; CX 27226 26223 26050; CX 26408 24453 26403; CX 27179 26006 26068;
  CX 27224 26225 26046; CX 27162 27225 26219; CX 27163 27227 26221; CX 27228 27227 26248; CX 27226 27229 26269; CI 25446 26811; CX 27230 27231 25960; CX 27236 27237 27107;
  CX 27228 26224 26048; CI 27070 27040; CX 27256 26410 26412; CX 27257 26408 26411; CX 27181 27187 26953; CX 27164 27229 26226; CI 26998 27111; CA 26408 24420 27099;
  CA 26410 24411 27100; CX 27276 27277 27048; CI 27029 27061; CX 27309 27310 25509; CX 24383 24384 26003; CX 27180 24384 25862; CX 27332 24384 27210; CX 27333 24335 27213;
  CX 27334 27335 25776; CX 27336 27337 27128; CX 27338 27339 27136; CX 27340 27341 27208; CI 24335 26280; CI 24384 27275; CA 25122 25121 26786; CX 26928 26979 25650;
  CX 25651 26979 25657; CX 26984 26985 25733; CX 26985 25734 25667; CX 25735 26995 25635; CX 26927 26985 25731; CX 25676 26999 25581; CX 27000 26995 25693; CX 26931 26999 25661;
  CX 27001 26999 25609; CX 27003 27004 26929; CX 26930 26995 25738; CX 27018 26979 25736; CX 25121 25329 25337; CX 26957 25513 25285; CX 25913 27026 25917; CX 27027 25890 25891;
  CX 26978 25611 25332; CX 27028 25958 25967; CX 27032 25913 25888; CX 26037 25665 25896; CX 27033 25890 25793; CX 25312 25656 25568; CX 27034 27035 26954; CA 25339 25343 26861;
  CX 27049 25958 25919; CX 25959 25735 25963; CX 25343 25674 25576; CX 27033 27053 25276; CX 25943 25539 25894; CA 25890 27054 26822; CX 27055 27056 26972; CX 27057 27058 26973;
  CX 27059 25880 25925; CA 25335 25347 26872; CA 25409 25404 26875; CA 25958 27060 26865; CA 25410 25408 26882; CA 25913 27062 26857; CA 25959 25965 26886; CA 25419 25412 26878;
  CX 25857 27063 25858; CX 25945 25651 25910; CX 27064 25857 25853; CX 27065 27033 25571; CX 26958 25439 25105; CX 27066 27067 26974; CX 27068 27069 26968; CX 25880 27072 25916;
  CX 25348 25680 25589; CX 26977 25648 25331; CX 27078 26167 26987; CX 25456 25816 25695; CX 25957 25553 25893; CX 25956 25490 25838; CX 26998 25815 25824; CX 26988 25815 25742;
  CX 25416 25739 25670; CX 26984 25734 25417; CX 27081 26133 26993; CX 27082 26166 27006; CX 25988 25654 25906; CX 25915 25676 25921; CX 27086 27087 26989; CX 27090 27091 26994;
  CA 25880 27094 26866; CA 25857 27096 26839; CX 27031 25821 25459; CX 27105 27106 26997; CX 25404 25726 25659; CA 25945 25953 26877; CX 27109 27110 27025; CA 25815 27111 26870;
  CA 25988 26007 26887; CX 27116 27117 26923; CA 26166 26174 27038; CA 26167 26122 27043; CA 26354 26352 27036; CA 25915 25914 26884; CX 27121 27037 27005; CX 25848 27123 25818;
  CI 25514 27047; CI 25437 26810; CI 25492 26813; CX 27083 27063 25567; CX 27125 25848 25768; CX 27127 27063 27024; CX 27129 27123 27042; CX 27130 27123 25607;
  CA 26133 26175 27051; CX 26953 26033 26088; CX 26248 26240 27008; CX 27048 27107 25617; CX 26248 26408 26368; CX 26269 26410 26367; CX 26268 26406 26366; CX 26268 26250 27009;
  CX 26269 26266 27007; CX 26403 26224 26363; CX 26068 26280 26233; CX 27107 27040 25613; CX 27124 27136 25203; CX 27144 26068 26002; CA 25848 27150 26837; CX 26411 26175 26353;
  CX 26924 25960 26034; CX 26404 26223 26361; CX 26412 26122 26340; CA 26048 26052 27102; CA 26248 26240 27015; CA 26403 26400 27101; CA 26404 26387 27104; CA 26050 26051 27103;
  CA 26046 26017 27098; CA 26268 26250 27017; CA 26269 26266 27020; CA 26221 26224 27052; CA 26226 26223 27044; CA 26219 26225 27039; CX 26834 25509 25718; CX 25862 26009 26069;
  CX 27143 27136 25396; CX 27208 27128 26911; CX 26912 25776 25918; CX 27209 27210 27108; CX 27212 27213 25779; CX 27217 27136 26901; CX 27218 27136 26976; CX 24533 27275 27137;
  CX 27144 26280 26323; CX 24468 27275 27178; CI 27208 27126; CX 25609 25955 25889; CX 25953 25657 25895; CX 25609 25614 26753; CX 26921 25635 25673; CX 26924 25667 25669;
  CX 25729 25736 26764; CX 26925 25581 25489; CX 25733 26034 25962; CX 25733 25739 26776; CX 25960 25667 25883; CX 26927 25667 26768; CX 25736 25930 25911; CX 25693 25737 26766;
  CX 25693 26030 25966; CX 26928 25657 26782; CX 25965 25635 25886; CX 26929 26833 25382; CX 26930 25635 26777; CX 25914 25581 25839; CX 26931 25581 26781; CX 26932 25657 25579;
  CA 25667 25670 26762; CX 25891 25451 25721; CX 25919 25648 25922; CX 25917 25491 25835; CX 25888 25563 25851; CX 26954 25571 25466; CX 25967 25591 25836; CX 25793 25571 25823].
(** Lines 7205-7604 of the file. *)
Definition aes128_18 : list cg := [
  CA 25661 25676 26792; CA 25657 25640 26807; CA 25285 25286 26840; CA 25736 25729 26785; CA 25609 25614 26760; CA 25650 25651 26805; CA 25738 25735 26796; CA 25635 25672 26800;
  CA 25733 25739 26802; CA 25693 25737 26751; CA 25731 25734 26788; CX 26876 26954 25569; CX 26967 26954 25559; CA 25581 25582 26794; CX 25858 25437 25759; CX 26968 25611 25526;
  CI 26929 26908; CX 26902 26968 25612; CA 25888 25908 26858; CA 25332 25312 26862; CA 25919 25873 26860; CA 25793 25822 26824; CX 26972 25648 25590; CX 26973 25563 25578;
  CX 25853 25513 25771; CX 25514 26974 25435; CX 26909 26973 25615; CX 26975 26973 25637; CX 26976 26974 26907; CX 26901 26974 25503; CX 25925 25611 25796; CX 25916 25492 25812;
  CX 25276 25570 25464; CX 26967 25571 25271; CX 26977 26972 25679; CX 26916 26972 25677; CX 26978 26968 25681; CA 25331 25348 26856; CA 25105 25202 26836; CX 26988 26989 25471;
  CX 25654 26994 25664; CX 26996 26989 25400; CX 26998 26989 25473; CX 25286 25567 25483; CX 26922 26994 25675; CX 27002 26994 25740; CX 27005 27006 26919; CA 25925 25904 26863;
  CA 25853 25849 26835; CX 27023 27024 26956; CA 25459 25456 26903; CX 26966 27025 25805; CX 26926 26923 25474; CX 27025 25821 25724; CX 26852 26923 25470; CX 27029 26088 26085;
  CX 27030 26088 26032; CX 27031 27025 25786; CA 25742 25730 26767; CA 25417 25416 26873; CX 27036 27037 26947; CX 27038 27039 26920; CX 27041 27042 26955; CX 27043 27044 26937;
  CX 27047 26976 25115; CX 25202 25607 25433; CX 25818 25446 25647; CX 25768 25439 25767; CX 27051 27052 26935; CX 26367 26361 26842; CA 26088 27061 26905; CX 26002 26003 26960;
  CX 26366 26365 26846; CX 26368 26363 26844; CX 25203 25516 25394; CI 26997 26970; CA 25768 25709 26838; CX 27071 26034 25944; CX 27073 26034 26036; CA 26353 26351 27021;
  CA 26367 26361 27019; CA 26368 26363 27014; CA 26366 26365 27016; CA 26034 27095 26888; CA 26002 26003 27012; CX 27097 27017 26939; CX 27098 27039 26991; CX 27099 27015 26941;
  CX 27100 27020 26944; CX 27101 27022 26992; CX 27102 27052 26983; CX 27103 27044 26981; CX 27104 27011 26986; CI 25607 26890; CX 25718 27075 25727; CA 26340 26329 27010;
  CX 27107 27108 25587; CX 27122 25918 25882; CX 27048 27108 25345; CX 27124 25918 25775; CX 27126 27108 26906; CX 27128 27108 26969; CX 26911 25779 25964; CX 27113 25718 25510;
  CA 25718 27134 26731; CX 27137 26068 26961; CA 25918 27149 26816; CA 26068 26069 26963; CX 26323 24419 26369; CX 27178 26006 25861; CX 27178 27179 26070; CX 27137 27179 26005;
  CX 26323 27180 26237; CA 26323 27211 27045; CX 25673 25665 26708; CX 25489 25490 26710; CX 25966 25963 26482; CX 25669 25652 26706; CX 26853 25579 26712; CX 25910 25911 26478;
  CX 25822 25466 25722; CX 26872 26792 26752; CA 25382 25323 26576; CX 25559 25570 26649; CX 26873 26788 26769; CX 26874 25466 25465; CX 26876 25466 26640; CX 25559 25890 25820;
  CX 26877 26807 26711; CX 26878 26796 26765; CX 26879 26760 26591; CA 25911 25910 26784; CA 25889 25921 26759; CA 25579 25539 26804; CA 25489 25490 26791; CA 25839 25838 26793;
  CA 25966 25963 26750; CA 25669 25652 26787; CA 25886 25896 26799; CA 25894 25895 26806; CA 25673 25665 26795; CX 26882 26805 26763; CX 26884 26794 26709; CX 26885 26751 26615;
  CX 26886 26800 26707; CX 26888 26802 26600; CX 26889 26785 26618; CX 26901 25435 26721; CX 25776 25435 25760; CX 26902 25526 26696; CA 25466 25464 26639; CA 25559 25570 26651;
  CA 25569 25571 26643; CX 25637 25913 25852; CX 25637 25674 26717; CX 26907 25516 26702; CX 25679 25958 25920; CX 25323 26908 25341; CX 25679 25680 26720; CX 25681 25880 25847;
  CX 25681 25656 26714; CX 25908 25578 25834; CI 25889 26818; CX 25873 25590 25837; CX 26909 25578 26715; CX 25904 25526 25819; CX 26910 26908 25383; CX 26912 25435 25436;
  CX 26913 25578 25487; CX 26914 25590 25524; CX 26915 25526 25458; CX 26916 25590 26718; CA 25612 25611 26689; CA 25503 25514 26691; CX 26919 26920 26475; CX 26922 25664 26778;
  CX 26923 25471 25414; CA 25590 25589 26733; CA 25271 25276 26827; CA 25615 25563 26726; CA 25681 25656 26737; CX 25740 25952 25907; CX 25235 25473 25418; CX 26926 25471 25234;
  CX 25740 25726 26780; CX 26007 25664 25887; CX 26933 25664 25577; CA 25526 25568 26693; CA 25578 25576 26730; CA 25637 25674 26745; CA 25435 25394 26687; CA 25677 25648 26735;
  CA 25679 25680 26724; CX 25742 25471 25743; CX 25824 25400 25671; CX 25474 25473 26607; CX 25474 25815 25741; CX 26033 25724 25938; CX 26953 25724 25720; CX 25786 25816 26815;
  CA 25675 25654 26798; CA 25664 25659 26749; CX 25786 26088 26031; CX 26085 25723 25946; CX 26032 25821 26035; CA 25740 25726 26773; CA 25473 25474 26790; CA 25471 25470 26622;
  CX 25439 26955 25434; CX 25513 26956 25444; CI 26907 25507; CX 26957 26956 25616; CX 26891 26956 25515; CX 26958 26955 25618; CX 26892 26955 25440; CX 26966 25724 26823;
  CX 26969 26970 25565; CX 26970 25617 25586; CA 25786 25816 26829; CA 26032 26033 26904; CA 25724 25695 26826; CX 26036 25652 25897; CX 25944 25734 25961; CA 25115 25203 26847;
  CA 25805 25821 26821; CX 26980 26981 26950; CX 26982 26983 26918; CX 25727 25342 25461; CA 25944 25960 26871; CX 26986 26987 26936; CX 26990 26991 26948; CX 26992 26993 26934;
  CX 26997 26906 25532; CX 26981 27007 26945; CX 26983 27008 26942; CX 26991 27009 26940; CX 27010 27011 26949; CX 27014 27015 26938; CX 27016 27017 26946; CX 27019 27020 26943;
  CX 27021 27022 26917; CX 25775 25514 25859; CX 27040 25964 25942; CX 25345 25613 25584; CX 25882 25396 25704; CX 26969 25617 25346; CX 27048 25964 25778; CX 25510 25323 25511;
  CA 25510 25509 26722; CA 25964 27070 26864; CA 25775 25776 26859; CX 26070 26323 26235; CX 26070 26009 26952; CI 25587 26832; CX 26369 26003 26232; CX 26237 26006 26236;
  CA 26237 26280 27050; CA 26005 26006 27013; CA 25861 25862 27046; CA 26070 26009 26965; CX 26707 26708 26546; CX 26709 26710 26538; CX 26711 26712 26542; CX 26750 26751 26588;
  CX 25823 25820 26383; CX 26752 26753 26592; CX 26759 26760 26613; CX 26763 26764 26619; CX 26765 26766 26616; CX 26768 26769 26590; CX 25465 25451 26603; CX 26769 26776 26601;
  CX 26777 26765 26582; CX 26781 26752 26612; CX 26782 26763 26605; CX 26784 26785 26595; CX 26786 26576 26610; CX 26787 26788 26545; CX 26791 26792 26539; CX 26793 26794 26611;
  CX 26795 26796 26547; CX 26799 26800 26581; CX 26804 26805 26543; CX 26806 26807 26604; CX 25920 25922 26444; CX 26813 25458 26657; CX 26817 25487 26661; CX 25383 25718 25505;
  CX 26818 25921 26457; CX 26822 26651 26514; CA 25465 25451 26642; CA 25722 25721 26638; CX 26824 26639 26602; CX 26827 26643 26641; CX 25436 25396 26663; CX 25383 25329 26620;
  CX 25524 25591 26665; CX 25851 25852 26430; CX 25509 25341 25484; CX 25796 25847 26442; CX 26833 25341 26609; CX 26834 25341 25340; CA 25820 25823 26650; CX 26847 26691 26701;
  CA 25847 25796 26736; CX 26849 25414 25420; CX 25730 25414 25668; CX 25907 25906 26459; CX 26851 25577 26704; CA 25920 25922 26723; CX 26852 25414 26614; CX 25962 25961 26484;
  CX 25743 25741 26338; CA 25341 25337 26574; CA 25852 25851 26744; CA 25383 25329 26572; CA 25458 25492 26688; CA 25487 25491 26725; CA 25436 25396 26690; CA 25835 25834 26729;
  CA 25760 25704 26686; CA 25836 25837 26732; CA 25524 25591 26734; CA 25819 25812 26692; CX 26856 26735 26719; CX 26857 26745 26561; CX 26858 26730 26660; CX 26859 26687 26662;
  CX 26860 26733 26664; CX 26861 26726 26716; CX 26862 26689 26697; CX 26863 26693 26656; CX 26865 26724 26559; CX 26866 26737 26569; CA 25962 25961 26801; CX 25618 25848 25769;
  CA 25887 25893 26748; CX 26869 25434 25485; CA 25897 25883 26761; CX 26870 26790 26460; CX 26871 26762 26705; CX 26031 26035 26505; CX 26875 26798 26779; CX 25720 25723 26771;
  CA 25743 25741 26789; CA 25577 25553 26797; CA 25907 25906 26772; CA 25414 25418 26585; CA 25234 25235 26803; CX 26881 26773 26596; CX 26887 26749 26703; CX 25507 25918 25855;
  CX 25616 25857 25772; CX 25616 25567 26669; CX 26890 25618 26636; CX 25849 25444 25710; CX 26891 25444 26667; CX 25709 25434 25690; CX 26892 25434 26666; CX 26893 25444 25398;
  CA 25515 25513 26681; CX 26903 26821 26814; CX 25565 25964 25773; CA 25434 25433 26673; CA 25946 25938 26825; CA 25720 25723 26820; CX 26904 26826 26770; CX 26905 26829 26644;
  CX 25613 25565 26757; CX 25779 25586 25702; CX 26906 25586 26783; CX 26911 25586 25585; CI 26475 26848; CA 25444 25483 26679; CA 25618 25607 26677; CA 25616 25567 26683;
  CA 25507 25516 26671; CA 25440 25439 26675; CA 26031 26035 26828; CX 26917 26918 26867; CA 25586 25584 26747; CX 26934 26935 26469; CX 26936 26937 26467; CA 25565 25613 26728;
  CX 26938 26935 26843; CX 26939 26940 26713; CX 26941 26942 26741; CX 26943 26937 26841; CX 26944 26945 26698; CX 26946 26920 26845; CX 26947 26948 26880; CX 26949 26950 26868;
  CA 25532 25617 26743; CX 25942 25587 25705; CX 25778 25617 25716; CA 25778 25779 26850; CA 25346 25345 26883; CX 27012 27013 26895; CA 26232 26233 26962; CX 27045 26965 26897].
(** Lines 7605-8004 of the file. *)
Definition aes128_19 : list cg := [
  CX 27046 27013 26951; CX 27050 26963 26959; CA 26235 26236 26964; CI 26236 26971; CX 26538 26539 26026; CX 26542 26543 26098; CX 26546 26547 26096; CX 26581 26582 26428;
  CX 26588 26547 26481; CX 26591 26592 26291; CX 26595 26543 26477; CX 26600 26601 26343; CX 26602 26603 26470; CX 26604 26605 26479; CX 26609 26610 26425; CX 26611 26612 26417;
  CX 26613 26539 26456; CX 26615 26616 26345; CX 26618 26619 26344; CX 26610 26620 26453; CX 26638 26639 26517; CX 26640 26641 26518; CX 26642 26643 26471; CX 26649 26641 26515;
  CX 26650 26651 26516; CX 26652 25340 26520; CX 26656 26657 26521; CX 26660 26661 26508; CX 26662 26663 26506; CX 26664 26665 26512; CX 26686 26687 26534; CX 26688 26689 26522;
  CX 26690 26691 26507; CX 26692 26693 26554; CX 26696 26697 26555; CX 25420 25400 26549; CX 26701 26702 26564; CA 25505 25511 26571; CX 26703 26704 26540; CX 26705 26706 26544;
  CA 25484 25461 26573; CA 25340 25342 26575; CX 26697 26714 26570; CX 26715 26716 26537; CX 26716 26717 26562; CX 26718 26719 26566; CX 26719 26720 26560; CX 26721 26701 26535;
  CX 26722 26574 26519; CX 26723 26724 26568; CX 26725 26726 26509; CX 26729 26730 26536; CX 26731 26572 26452; CX 26732 26733 26565; CX 26734 26735 26513; CX 26736 26737 26578;
  CX 26744 26745 26556; CX 26748 26749 26579; CI 25505 26629; CX 26761 26762 26589; CX 26767 26585 26548; CX 26770 26771 26593; CX 26772 26773 26608; CA 25668 25671 26584;
  CA 25420 25400 26621; CX 26778 26779 26580; CX 26779 26780 26597; CX 26789 26790 26480; CX 26797 26798 26541; CX 26801 26802 26617; CX 26803 26622 26606; CX 26810 25398 26632;
  CX 25771 25772 26373; CX 26811 25485 26587; CX 25769 25767 26380; CX 26814 26815 26645; CX 26816 26671 26563; CA 25772 25771 26682; CX 26820 26821 26594; CX 26823 26814 26648;
  CX 26825 26826 26647; CX 26828 26829 26646; CX 26832 25585 26659; CA 25769 25767 26676; CA 25485 25446 26674; CA 25855 25859 26670; CA 25398 25437 26680; CA 25690 25647 26672;
  CA 25710 25759 26678; CX 26835 26679 26631; CX 26836 26675 26637; CX 26837 26677 26527; CX 26838 26673 26586; CX 26839 26683 26530; CX 26840 26681 26668; CX 26841 26842 26488;
  CX 26843 26844 26486; CX 26845 26846 26490; CA 26848 26713 26738; CA 25705 25702 26746; CX 26850 26747 26658; CA 25773 25716 26727; CA 25585 25587 26742; CX 26864 26728 26634;
  CI 25855 26740; CA 26867 26741 26532; CA 26868 26698 26552; CA 26868 26467 26808; CA 26880 26475 26755; CA 26867 26469 26758; CX 26883 26743 26756; CA 26880 26713 26550;
  CI 25773 26754; CI 26469 26854; CI 26467 26855; CI 26868 26819; CI 26867 26831; CI 26880 26830; CX 26951 26952 26898; CX 26959 26960 26894;
  CX 26961 26951 26900; CX 26962 26963 26899; CX 26964 26965 26896; CX 26971 26235 26775; CX 26417 26026 26202; CX 26428 26096 26260; CX 26452 26453 26151; CX 26456 26457 26389;
  CX 26470 26471 25948; CX 26477 26478 26094; CA 26026 26291 26388; CA 26096 26345 26347; CA 26098 26479 26390; CX 26481 26482 26073; CA 26479 26344 26181; CA 26417 26291 26158;
  CX 26506 26507 25994; CX 26508 26509 26020; CX 26512 26513 26015; CX 26514 26515 26251; CX 26516 26471 26382; CX 26517 26518 26339; CA 26428 26345 26196; CI 26096 26439;
  CI 26026 26427; CI 26098 26437; CX 26519 26520 26395; CX 26521 26522 26028; CX 26534 26535 26391; CX 26536 26537 26421; CX 26540 26541 26080; CX 26544 26545 26100;
  CX 26548 26549 26434; CX 26554 26555 26431; CI 26479 26426; CX 26556 26509 26429; CX 26559 26560 26312; CX 26561 26562 26311; CX 26563 26564 26270; CX 26565 26566 26377;
  CX 26568 26513 26443; CX 26569 26570 26300; CX 26571 26572 26445; CX 26573 26574 26424; CX 26575 26576 26396; CX 26578 26522 26441; CX 26579 26580 26476; CX 26584 26585 26462;
  CX 26586 26587 26472; CX 26589 26590 26432; CX 26593 26594 26131; CX 26596 26597 26336; CX 26606 26607 26461; CX 26608 26541 26458; CX 26614 26606 26463; CX 26617 26545 26483;
  CX 26621 26622 26435; CX 26629 25511 26293; CX 26631 26632 26464; CX 26636 26637 26528; CX 26644 26645 26386; CX 26646 26594 26504; CX 26647 26648 26455; CX 26658 26659 26510;
  CX 26666 26637 26497; CX 26667 26668 26503; CX 26668 26669 26531; CX 26670 26671 26525; CX 26672 26673 26496; CX 26674 26675 26473; CX 26676 26677 26529; CX 26678 26679 26502;
  CX 26680 26681 26465; CX 26682 26683 26526; CX 26532 26486 26625; CX 26698 26488 26553; CX 26713 26490 26551; CX 26552 26488 26627; CX 26727 26728 26567; CX 26550 26490 26598;
  CX 26740 25859 26416; CX 26741 26486 26533; CX 26742 26743 26511; CX 26746 26747 26557; CX 26754 25716 26423; CA 26755 26490 26523; CX 26756 26757 26635; CA 26758 26486 26500;
  CX 26783 26756 26558; CA 26808 26488 26498; CX 26819 26467 26628; CX 26830 26475 26599; CX 26831 26469 26626; CI 26486 26695; CI 26488 26700; CI 26490 26739;
  CI 26532 26654; CA 26854 26741 26694; CA 26855 26698 26699; CI 26550 26653; CI 26552 26655; CX 26894 26895 26328; CX 26896 26895 26774; CX 26897 26898 26577;
  CX 26899 26900 26809; CX 26196 26260 26179; CX 26339 25948 26138; CX 26344 26094 26182; CX 26345 26073 26197; CX 26196 26073 26261; CX 26181 26094 26247; CX 26196 26096 26241;
  CX 26158 26026 26212; CX 26382 26383 25940; CA 25948 26251 26244; CA 26388 26389 25972; CA 26390 26094 26123; CX 26391 25994 26160; CX 26377 26015 26214; CX 26395 26396 25712;
  CA 26421 26020 26356; CX 26424 26425 26281; CX 26426 26098 26246; CA 26427 26417 26346; CI 25948 26341; CX 26429 26430 26013; CA 26339 26251 26083; CA 26028 26431 26357;
  CX 26432 26100 26258; CX 26434 26435 25901; CA 26437 26344 26349; CA 26439 26428 26355; CA 26015 26312 26287; CI 26389 26058; CX 26441 26442 26056; CI 26073 26348;
  CI 26094 26350; CX 26443 26444 26060; CX 26445 26396 26292; CA 26431 26300 26152; CI 26181 26298; CA 26421 26311 26154; CI 26028 26397; CX 26458 26459 26092;
  CX 26460 26461 26195; CX 26462 26463 26302; CX 26464 26465 25996; CX 26472 26473 25932; CA 26080 26476 26381; CX 26455 26131 26304; CA 26100 26343 26324; CX 26480 26435 26337;
  CX 26483 26484 26078; CI 26158 26305; CA 26377 26312 26134; CI 26015 26376; CI 26020 26398; CI 25994 26399; CI 26431 26394; CA 26432 26343 26198;
  CX 26496 26497 26374; CA 26476 26336 26200; CX 26502 26503 26414; CA 26131 26386 26384; CX 26504 26505 26142; CX 26510 26511 25998; CI 26100 26440; CI 26080 26436;
  CX 26525 26507 26415; CX 26526 26465 26372; CI 26421 26393; CX 26527 26528 26238; CX 26529 26473 26379; CI 26270 26438; CX 26530 26531 26271; CA 26455 26386 26252;
  CX 26532 26533 26449; CI 26131 26454; CX 26550 26551 26420; CX 26552 26553 26447; CX 26557 26558 26392; CX 26567 26511 26422; CI 26476 26433; CA 26598 26599 26474;
  CA 26625 26626 26468; CA 26627 26628 26466; CX 26634 26635 26310; CX 26653 26599 26524; CX 26654 26626 26501; CX 26655 26628 26499; CX 26655 26467 26623; CA 26694 26695 26448;
  CA 26699 26700 26446; CA 26738 26739 26419; CX 26653 26475 26624; CX 26654 26469 26583; CX 26774 26775 26685; CX 26809 26328 26494; CA 26809 26577 26450; CA 26328 26577 26684;
  CI 26328 26812; CX 26181 26182 26043; CX 26083 26138 26011; CX 26196 26197 26023; CA 26197 26241 26072; CA 26246 26247 26097; CX 26083 25940 26139; CX 26251 25940 26084;
  CA 26260 26261 26095; CX 26134 26214 26106; CX 26281 25712 25982; CX 26198 26258 26148; CX 26291 26058 26159; CX 26292 26293 25714; CX 26246 26298 26124; CX 26083 25948 26140;
  CX 26154 26013 26209; CX 26300 26056 26153; CX 26302 25901 26089; CX 26305 26202 26146; CX 26311 26013 26155; CX 26312 26060 26135; CX 26152 26056 26187; CX 26158 26058 26203;
  CX 26134 26060 26213; CX 26298 26098 26243; CX 26336 26092 26201; CX 26337 26338 25868; CA 26341 26339 26256; CX 26252 26304 26194; CA 25901 26195 26183; CX 26343 26078 26199;
  CX 26200 26092 26255; CX 26198 26078 26257; CI 25940 26245; CA 26346 26058 26145; CA 26347 26348 26022; CA 26349 26350 26042; CA 26355 26073 26178; CA 26356 26013 26086;
  CA 26357 26056 26107; CX 26134 26015 26211; CI 25712 26267; CX 26372 26373 25990; CA 26376 26377 26317; CX 26379 26380 25875; CX 26198 26100 26259; CA 26381 26092 26143;
  CI 26013 26286; CX 26252 26142 26303; CX 26386 26142 26253; CA 26302 26195 26038; CX 26392 25998 26173; CX 26393 26020 26210; CX 26394 26028 26186; CI 25901 26301;
  CA 26397 26300 26289; CA 26398 26311 26285; CA 26399 26391 26275; CA 25996 26414 26318; CA 25932 26374 26316; CX 26415 26416 25992; CI 26056 26290; CI 26060 26288;
  CI 26281 26284; CX 26252 26131 26299; CX 26419 26420 26283; CX 26422 26423 25936; CI 26092 26332; CX 26433 26080 26254; CA 26436 26336 26331; CA 25994 26438 26315;
  CA 26432 26440 26321; CI 26078 26325; CX 26446 26447 26297; CX 26448 26449 26295; CA 26391 26438 26074; CI 26152 26264; CA 26414 26271 26110; CI 26154 26262].
(** Lines 8005-8404 of the file. *)
Definition aes128_20 : list cg := [
  CI 25996 26359; CI 25932 26334; CI 26142 26385; CA 26454 26455 26375; CX 26466 26467 26326; CX 26468 26469 26342; CX 26474 26475 26330; CI 26200 26306;
  CI 25998 26378; CI 26238 26335; CI 26374 26358; CI 26414 26333; CX 26498 26499 26296; CX 26500 26501 26294; CX 26523 26524 26282; CI 26392 26418;
  CA 26583 26533 26485; CA 26623 26553 26487; CA 26624 26551 26489; CA 26684 26685 26319; CX 26450 26328 26495; CI 26685 26371; CA 26809 26812 26633; CI 26450 26630;
  CX 26022 26023 25828; CX 26042 26043 25826; CX 26072 26073 25829; CX 26083 26084 25870; CX 26095 26096 25899; CX 26097 26098 25876; CX 26123 26124 25831; CX 26134 26135 25975;
  CX 26038 26089 25950; CA 26138 26139 25947; CA 26084 26140 25939; CX 26145 26146 25707; CX 26151 25714 25969; CX 26152 26153 25979; CX 26154 26155 25971; CX 26158 26159 25973;
  CX 26178 26179 25830; CX 26038 25868 26090; CA 26186 26187 26027; CX 26195 25868 26039; CX 26198 26199 26041; CX 26200 26201 26045; CA 26202 26203 26025; CA 26209 26210 26019;
  CA 26135 26211 26059; CA 26159 26212 26057; CA 26213 26214 26014; CX 26110 25990 26171; CX 26238 25875 26113; CA 26182 26243 26093; CA 26244 26245 25869; CX 26252 26253 26082;
  CA 26254 26255 26079; CA 26256 25940 26010; CA 26257 26258 26099; CA 26259 26199 26077; CX 26038 25901 26076; CX 26262 26210 26087; CX 26186 26264 26108; CA 26267 26151 26176;
  CX 26270 25992 26075; CX 26271 25990 26111; CI 25714 26109; CX 26282 26283 26126; CA 26284 26151 25968; CA 26285 26286 25970; CA 26287 26288 25974; CA 26289 26290 25978;
  CX 26294 26295 26136; CX 26296 26297 26149; CA 26299 26253 26141; CA 26301 26302 26215; CA 26303 26304 26130; CX 26254 26306 26144; CA 25712 26284 26164; CX 26310 25936 26157;
  CI 25868 26184; CA 26315 25992 25871; CA 26316 25875 26061; CA 26317 26060 26105; CA 26318 25990 26063; CX 26264 26028 26185; CX 26262 26020 26204; CX 26074 25994 26177;
  CA 26321 26078 26147; CA 26324 26325 26040; CA 26297 26329 26024; CX 26296 26326 26265; CX 26282 26330 26249; CA 26331 26332 26044; CX 26333 25996 26170; CA 26334 26335 26273;
  CA 26297 26340 25602; CA 26295 26351 26066; CA 26283 26352 26018; CA 26295 26353 25546; CA 26283 26354 25597; CX 26358 25932 26162; CX 26294 26342 26239; CX 26306 26080 26242;
  CA 26359 26271 26277; CI 25990 26278; CI 25992 26276; CI 25875 26274; CA 26374 26335 26112; CA 26375 26142 26193; CI 25936 26272; CA 26378 26310 26314;
  CA 26384 26385 26081; CI 26074 26263; CI 26110 26216; CA 26418 26310 26156; CA 26418 25998 26313; CI 26330 26364; CI 26342 26362; CI 26326 26360;
  CX 26485 26486 26308; CX 26487 26488 26309; CX 26489 26490 26307; CI 26282 26405; CI 26294 26407; CI 26296 26409; CX 26577 26371 26451; CX 26450 26371 26493;
  CX 26630 26494 26492; CA 26633 26371 26491; CX 25828 25829 25634; CX 25828 25830 25630; CX 25831 25826 25554; CX 25869 25870 25643; CX 25831 25876 25728; CA 25828 25886 25422;
  CA 25826 25894 25021; CA 25826 25895 25429; CA 25828 25896 25018; CX 25899 25829 25631; CX 25830 25899 25692; CX 25939 25940 25645; CX 25947 25948 25719; CA 25829 25959 25402;
  CA 25899 25963 25242; CA 25829 25965 25392; CA 25899 25966 25757; CX 25968 25969 25755; CX 25970 25971 25747; CX 25972 25973 25750; CX 25974 25975 25699; CX 25978 25979 25698;
  CX 26010 26011 25644; CX 26014 26015 25794; CI 25876 25909; CX 26019 26020 25784; CX 26025 26026 25797; CX 26027 26028 25783; CA 25830 26030 25004; CA 25830 26037 25756;
  CX 26038 26039 25833; CX 26040 26041 25813; CX 26044 26045 25807; CX 26057 26058 25751; CX 26059 26060 25749; CX 26074 26075 25872; CI 25969 25980; CA 26039 26076 25867;
  CX 25968 25982 25903; CX 26077 26078 25814; CX 26079 26080 25866; CX 26081 26082 25884; CX 26086 26087 25753; CA 26089 26090 25900; CX 26093 26094 25827; CX 26099 26100 25898;
  CI 25831 25929; CI 25707 25954; CX 26105 26106 25700; CX 26107 26108 25697; CX 25968 26109 25983; CX 26110 26111 25924; CX 26112 26113 25878; CX 26130 26131 25928;
  CX 26141 26142 25892; CX 26143 26144 25811; CX 26147 26148 25825; CX 26156 26157 25977; CA 26164 26109 25902; CA 26170 26171 25995; CA 26176 25714 25754; CA 26075 26177 25991;
  CI 26113 26114; CA 26183 26184 25832; CA 26153 26185 26055; CX 26193 26194 25885; CA 26204 26155 26012; CA 26215 25868 25949; CX 26170 26216 26064; CA 26239 26240 25364;
  CA 26201 26242 26091; CI 25968 26116; CI 26136 26132; CA 26239 26248 25561; CA 26249 26250 25308; CX 26160 26263 26102; CX 26156 26173 26104; CA 26265 26266 25365;
  CA 26249 26268 25549; CA 26265 26269 25601; CI 26149 26121; CI 26126 26165; CI 26157 26169; CX 26112 25875 26163; CX 26263 25992 26161; CX 26156 26272 26172;
  CA 26273 26274 25877; CA 26275 26276 26101; CA 26277 26278 25923; CX 26216 25996 26125; CX 26283 26307 26205; CX 26295 26308 26191; CX 26297 26309 26188; CA 26313 26272 26103;
  CA 26314 25936 25976; CX 26326 26309 26150; CX 26342 26308 26137; CX 26330 26307 26127; CA 26360 26361 25843; CA 26362 26363 25842; CA 26364 26365 25809; CA 26364 26366 26180;
  CA 26360 26367 26230; CA 26362 26368 26227; CI 26112 26217; CA 26309 26387 26071; CA 26308 26400 26065; CA 26307 26401 26021; CA 26307 26402 26053; CA 26308 26403 26054;
  CA 26309 26404 26029; CA 26405 26406 25598; CA 26407 26408 25533; CA 26409 26410 25599; CA 26407 26411 26229; CA 26409 26412 26231; CA 26405 26413 26228; CI 26156 26279;
  CX 26450 26451 26320; CX 26491 26492 26129; CA 26493 26494 26327; CA 26495 26451 26370; CX 25630 25631 25411; CA 25634 25635 25210; CX 25643 25644 25405; CX 25643 25645 25463;
  CA 25630 25665 25243; CA 25634 25672 24764; CA 25630 25673 25425; CX 25018 25004 25014; CA 25692 25693 24981; CX 25697 25698 25453; CX 25699 25700 25480; CX 25644 25719 25558;
  CA 25643 25721 24833; CA 25643 25722 25269; CX 25719 25645 25406; CA 25728 25729 24784; CA 25631 25735 25248; CA 25728 25736 25019; CA 25692 25737 24760; CA 25631 25738 25250;
  CX 25699 25749 25588; CX 25750 25751 25580; CI 25554 25538; CX 25753 25747 25478; CX 25750 25707 25450; CX 25754 25755 25452; CX 25756 25757 24999; CX 25392 25757 25212;
  CX 25697 25783 25655; CA 25645 25793 25262; CX 25794 25749 25481; CX 25751 25797 25660; CX 25811 25807 25573; CA 25698 25812 24932; CX 25753 25784 25636; CX 25813 25814 25666;
  CA 25698 25819 25379; CA 25719 25820 25548; CA 25645 25822 25281; CA 25719 25823 25048; CX 25813 25825 25556; CX 25826 25827 25639; CX 25832 25833 25527; CA 25747 25834 25321;
  CA 25747 25835 24857; CA 25699 25836 24926; CA 25699 25837 25319; CA 25750 25838 24925; CA 25750 25839 25376; CX 25700 25794 25678; CX 25811 25866 25725; CX 25867 25868 25572;
  CX 25871 25872 25703; CA 25749 25873 25377; CX 25877 25878 25620; CA 25813 25883 25423; CX 25884 25885 25662; CA 25807 25887 25427; CA 25797 25889 25686; CA 25644 25890 24829;
  CA 25644 25891 25547; CX 25884 25892 25694; CA 25807 25893 25042; CA 25813 25897 25016; CX 25825 25898 25732; CX 25898 25814 25557; CX 25876 25827 25555; CX 25900 25901 25641;
  CX 25902 25903 25717; CA 25909 25910 25244; CA 25909 25911 25638; CA 25751 25914 25375; CA 25751 25915 25310; CA 25749 25919 25388; CA 25794 25920 25688; CA 25797 25921 25172;
  CA 25794 25922 25177; CX 25923 25924 25632; CX 25885 25928 25785; CA 25929 25930 24997; CA 25884 25938 25469; CA 25929 25943 25683; CA 25814 25944 25401; CA 25827 25945 25391;
  CA 25884 25946 25064; CX 25928 25892 25663; CX 25949 25950 25528; CA 25827 25953 25426; CA 25954 25955 24930; CA 25954 25956 25687; CA 25700 25958 24928; CA 25814 25960 25424;
  CA 25898 25961 25240; CA 25898 25962 25696; CA 25700 25967 25689; CX 25976 25977 25744; CA 25982 25983 25711; CI 25783 25795; CI 25797 25706; CX 25991 25992 25619;
  CI 25784 25850; CX 25995 25996 25762; CX 26012 26013 25748; CI 25697 25879; CI 25866 25905; CA 25928 26031 25790; CA 25892 26032 25467; CA 25892 26033 25448;
  CA 25825 26034 25010; CA 25928 26035 25280; CA 25825 26036 25758; CX 26055 26056 25752; CI 25753 25912; CX 26063 26064 25642; CI 25811 25951; CA 25885 26085 25789;
  CA 25885 26088 25066; CX 26091 26092 25808; CX 26101 26102 25544; CX 26103 26104 25941; CX 26116 25712 25981; CA 26121 26122 25984; CA 26111 26125 25989; CX 26126 26127 26016;
  CA 26132 26133 25937; CX 26136 26137 26047; CX 26149 26150 26049; CA 26160 26161 25993; CA 26162 26163 25931; CA 26165 26166 25999; CA 26121 26167 26000; CA 26172 26173 25997;
  CA 26165 26174 25926; CA 26132 26175 25986; CX 26180 26021 25098; CA 26188 26189 25366; CA 26188 26190 25804; CA 26191 26192 25362; CA 26205 26206 25363; CA 26205 26207 25841;
  CA 26191 26208 25791; CX 26162 26217 26062; CX 25597 25598 25595; CX 25546 25533 25551; CX 25602 25599 25594; CX 26227 26065 25145; CX 26228 26180 25493; CX 26229 26227 25495].
(** Lines 8405-8804 of the file. *)
Definition aes128_21 : list cg := [
  CX 26230 26071 25112; CX 26231 26230 25497; CX 26217 25932 26115; CX 26279 25998 26168; CI 26150 26222; CI 26137 26220; CI 26127 26218; CX 26319 26320 26128;
  CX 26327 26328 26234; CX 26370 26371 26120; CI 26129 26322; CX 25392 25210 25213; CX 25402 25014 24990; CX 25405 25406 25270; CA 25411 25412 25247; CA 25411 25419 25231;
  CX 25422 24764 25211; CX 25425 24760 25232; CA 25405 25451 25062; CA 25463 25464 24629; CA 25405 25465 25272; CA 25463 25466 25071; CX 25480 25481 25330; CX 25250 25248 25022;
  CX 24833 24829 24831; CA 25480 25524 25381; CX 25527 25528 25306; CA 25538 25539 25166; CX 25547 25548 24821; CX 25281 25548 25068; CX 25554 25555 25407; CX 25556 25557 25415;
  CA 25558 25559 24832; CA 25406 25569 25074; CA 25558 25570 24623; CA 25406 25571 25073; CX 25527 25572 25413; CA 25538 25579 25378; CA 25580 25581 25173; CA 25580 25582 24670;
  CA 25588 25589 24669; CA 25588 25590 25181; CA 25480 25591 25175; CX 24926 24928 24867; CX 24925 24930 24898; CX 25016 25010 24979; CA 25636 25637 24927; CI 25450 25488;
  CX 25426 25638 25214; CA 25639 25640 24758; CX 25528 25641 25472; CX 25642 25632 25430; CA 25481 25648 25199; CA 25556 25652 25241; CA 25655 25656 24674; CA 25639 25657 25260;
  CA 25660 25661 25191; CX 25021 24997 24986; CX 25662 25663 25455; CA 25666 25667 25225; CA 25527 25668 25251; CA 25556 25669 25399; CA 25666 25670 24783; CA 25527 25671 24777;
  CX 25641 25572 25307; CA 25636 25674 24673; CA 25660 25676 25188; CA 25481 25677 25200; CA 25678 25679 24886; CA 25678 25680 24677; CA 25655 25681 24972; CI 25478 25486;
  CI 25453 25457; CI 25452 25460; CX 25683 25638 24861; CX 25375 25686 25141; CX 25687 25686 24848; CX 25377 25688 25156; CX 25689 25688 24868; CA 25694 25695 24856;
  CX 25424 25696 25238; CA 25703 25704 24732; CX 25706 25707 25608; CA 25632 25710 25265; CX 25711 25712 25442; CA 25717 25718 24661; CA 25662 25720 25468; CA 25662 25723 25279;
  CA 25694 25724 25278; CA 25725 25726 24782; CA 25717 25727 25298; CA 25572 25730 25246; CA 25557 25731 25249; CA 25732 25733 25017; CA 25557 25734 25253; CA 25732 25739 24810;
  CA 25725 25740 25008; CA 25641 25741 25462; CA 25572 25742 25236; CA 25641 25743 24988; CX 25747 25748 25575; CX 25698 25752 25525; CI 25573 25552; CX 25758 25696 24980;
  CA 25632 25759 24815; CA 25703 25760 25255; CX 25642 25762 25566; CI 25660 25449; CX 25064 25066 25055; CX 25783 25752 25454; CX 25784 25748 25479; CA 25785 25786 25088;
  CX 25789 25790 25045; CA 25795 25796 25179; CA 25663 25805 25263; CX 25807 25808 25658; CA 25528 25815 24778; CA 25785 25816 24825; CA 25663 25821 25267; CA 25528 25824 25482;
  CX 25790 25448 25274; CI 25555 25649; CI 25717 25441; CA 25795 25847 25540; CA 25850 25851 25169; CA 25850 25852 25536; CI 25620 25646; CI 25703 25545;
  CI 25744 25701; CA 25879 25880 24900; CA 25748 25888 25360; CX 25866 25808 25574; CA 25752 25904 25380; CA 25905 25906 25239; CA 25905 25907 25685; CA 25748 25908 25322;
  CA 25912 25913 24931; CA 25879 25916 25623; CA 25912 25917 25535; CI 25619 25774; CI 25762 25770; CA 25752 25925 25361; CX 25926 25927 25368; CX 25931 25932 25624;
  CX 25937 25364 25604; CA 25941 25942 25522; CA 25951 25952 25020; CA 25951 25957 25684; CA 25941 25964 24971; CA 25980 25981 25713; CX 25984 25985 25370; CX 25986 25987 25389;
  CA 25808 25988 25421; CX 25989 25990 25633; CX 25993 25994 25854; CX 25997 25998 25761; CI 25642 25856; CX 25999 25308 25603; CX 26000 25365 25605; CA 25808 26007 25428;
  CA 26016 26017 25844; CX 26018 25363 25840; CX 25841 26021 25810; CX 26024 25366 25787; CX 26029 25594 24863; CA 26016 26046 25765; CA 26047 26048 25763; CA 26049 26050 25764;
  CA 26049 26051 25798; CA 26047 26052 25800; CX 26053 25595 24889; CX 26054 25551 24920; CI 25544 25881; CI 25941 25746; CX 26061 26062 25682; CX 25791 26065 25806;
  CX 26066 25362 25792; CX 25804 26071 25788; CA 26114 26115 25874; CX 26128 26129 25934; CA 26168 26169 25935; CX 26128 26120 26067; CA 26218 26219 25803; CA 26220 26221 25802;
  CA 26222 26223 25799; CA 26220 26224 25801; CA 26218 26225 25845; CA 26222 26226 25846; CA 26128 26232 25385; CA 26128 26233 25865; CA 26234 26235 26118; CA 26234 26236 25625;
  CA 26120 26237 25863; CA 26120 26280 25864; CI 26234 26119; CA 26322 26323 25386; CA 26322 26369 26117; CX 25210 25211 25015; CX 25212 25211 24797; CX 24999 25213 24578;
  CX 25231 25232 24770; CX 25242 25213 24991; CX 25243 25232 24806; CX 25247 25248 24982; CX 25250 25231 25013; CX 25262 24831 24852; CX 25269 24629 25069; CA 25270 25271 25070;
  CX 25272 24623 25063; CA 25270 25276 25072; CX 25281 25071 25049; CX 25306 25307 25233; CX 25310 24898 24875; CX 25319 24669 25157; CA 25330 25331 25182; CX 25074 25073 24836;
  CA 25330 25348 25198; CX 25375 25173 25149; CX 25376 24670 25142; CX 25377 25181 25161; CX 25378 24784 25165; CX 25381 24677 25176; CX 25388 24867 24946; CX 25391 24986 25025;
  CX 25399 24810 25222; CA 25306 25400 25028; CX 25401 24979 25005; CX 25200 25199 24940; CX 24777 24778 24768; CA 25407 25408 25219; CA 25407 25410 25164; CA 25413 25414 25027;
  CA 25415 25416 25252; CA 25415 25417 25221; CA 25413 25418 24569; CA 25306 25420 25229; CX 25423 24783 25226; CX 25424 25225 25218; CX 25426 25260 25209; CX 25429 24758 25215;
  CX 25191 25188 24938; CX 25441 25442 25328; CX 25278 25448 25277; CX 25449 25450 25334; CX 25452 25441 25282; CX 25453 25454 25311; CA 25455 25456 25266; CA 25457 25458 25268;
  CA 25455 25459 25264; CA 25460 25461 24663; CX 25246 25462 24994; CX 25467 25055 25091; CX 25468 24825 25273; CX 25469 24856 25275; CA 25307 25470 25031; CA 25307 25471 24984;
  CA 25472 25473 24568; CA 25472 25474 24779; CX 25478 25479 25338; CX 25249 25253 25007; CX 25482 25462 24805; CA 25460 25484 25184; CA 25486 25487 25295; CA 25488 25489 25296;
  CA 25488 25490 25082; CA 25486 25491 25083; CA 25457 25492 25081; CA 25525 25526 25174; CX 25535 25536 24818; CX 25380 25540 25159; CX 25544 25545 25395; CA 25552 25553 25178;
  CX 25263 25267 25089; CA 25566 25567 24612; CA 25525 25568 24675; CX 25573 25574 25403; CA 25575 25576 24671; CA 25552 25577 25317; CA 25575 25578 25100; CX 24932 24900 24911;
  CA 25608 25609 24929; CA 25608 25614 24672; CA 25566 25616 24843; CX 25545 25619 25393; CI 25430 25397; CX 24857 24931 24910; CX 25322 25536 25155; CX 25623 25540 24817;
  CX 25632 25633 25443; CA 25646 25647 24729; CA 25649 25650 25228; CA 25649 25651 25220; CA 25658 25659 24756; CA 25658 25664 25216; CX 25042 25020 25012; CX 25620 25682 25445;
  CX 25684 25685 24973; CX 25428 25685 25237; CA 25646 25690 25227; CI 25442 25504; CI 25454 25610; CA 25701 25702 25315; CA 25701 25705 24924; CX 25713 25714 25477;
  CX 25744 25746 25475; CX 25746 25761 25564; CI 25479 25562; CX 25762 25633 25431; CX 25682 25624 25606; CX 25763 25604 25496; CX 25764 25605 25498; CX 25765 25603 25494;
  CA 25770 25771 25084; CA 25770 25772 25521; CA 25774 25775 25289; CA 25774 25776 25257; CX 25787 25594 25359; CX 25497 25788 25110; CX 25791 25792 25530; CI 25574 25653;
  CX 25798 25799 25600; CX 25800 25801 25534; CX 25802 25763 25529; CX 25803 25765 25541; CX 25804 25787 25596; CX 25495 25806 25153; CX 25809 25810 25501; CX 25840 25595 25357;
  CX 25792 25551 25325; CX 25493 25810 25143; CX 25841 25840 25542; CX 25842 25806 25500; CX 25843 25788 25499; CX 25844 25845 25550; CX 25846 25764 25593; CA 25633 25849 25261;
  CA 25633 25853 25287; CA 25854 25855 25519; CA 25856 25857 24844; CA 25856 25858 25520; CA 25854 25859 25041; CX 25874 25875 25708; CA 25881 25882 25622; CI 25624 25766;
  CA 25881 25918 24731; CI 25854 25691; CI 25761 25715; CX 25935 25936 25745; CI 25682 25817; CX 25803 25845 25137; CX 25802 25801 25162; CX 25846 25799 25150;
  CA 26067 26068 25537; CA 26067 26069 25205; CX 25385 25386 25327; CI 25934 26001; CX 26117 26118 25299; CX 26118 25864 24958; CX 26119 26120 25933; CX 26129 26119 26008;
  CX 24981 24982 24761; CX 24990 24991 24552; CX 24999 24770 24795; CX 25004 24982 24796; CX 25013 25014 24566; CX 25015 25014 24775; CX 25018 24982 24803; CX 25022 24991 24807;
  CX 25013 25015 24804; CX 25014 24982 24798; CX 25048 25049 24837; CX 25062 25063 24601; CX 25068 25069 24605; CX 25070 25063 24596; CX 25071 25069 24823; CX 25072 25073 24830;
  CX 25074 25070 24822; CX 24821 25049 24406; CX 25141 25142 24743; CX 24848 25149 24501; CX 25156 25157 24707; CX 24868 25161 24499; CX 25164 25165 24802; CX 25166 25165 24813;
  CX 25172 25149 24876; CX 25173 25142 24885; CX 25175 25176 24711; CX 25177 25161 24941; CX 25181 25157 24881; CX 25182 25176 24631; CX 25198 25199 24887; CX 25200 25182 24866;
  CX 24861 25209 24586; CX 25214 25215 24808; CX 24980 25218 24548; CX 25219 25220 24998; CX 25221 25222 24780; CX 25225 25226 24978; CX 25228 25164 24987; CX 25229 24568 25029].
(** Lines 8805-9204 of the file. *)
Definition aes128_22 : list cg := [
  CA 25233 25234 25030; CA 25233 25235 24983; CX 25236 24768 24793; CX 25238 25226 24762; CX 25240 25218 25006; CX 25241 25222 24787; CX 25244 25209 25024; CX 25246 25027 24989;
  CX 25249 25221 24996; CX 25251 24569 24995; CX 25252 25253 25011; CX 25260 25215 24985; CX 25263 25264 25067; CX 25266 25267 25065; CX 25268 24674 25057; CX 25264 25273 24855;
  CX 25031 24984 24801; CX 25274 25275 24853; CX 25045 25277 24594; CX 25278 25275 25054; CX 25279 25273 24819; CX 25280 25277 25090; CX 24663 24661 24653; CX 25295 24673 25051;
  CX 25296 24672 25080; CA 25311 25312 25196; CX 25317 24782 25168; CX 25321 24671 25101; CX 25322 25100 25152; CA 25328 25329 24494; CA 25311 25332 25056; CA 25334 25335 25079;
  CA 25338 25339 25050; CA 25282 25340 25201; CA 25282 25342 24948; CA 25338 25343 25185; CA 25334 25347 25187; CX 25360 24910 24896; CX 25361 24911 24934; CX 25379 24675 25160;
  CX 25380 25174 25158; CA 25328 25383 24662; CA 25393 25394 24519; CA 25395 25396 25038; CA 25397 25398 25259; CA 25403 25404 25223; CA 25403 25409 25167; CX 25421 25012 24976;
  CX 25427 24756 25217; CX 25428 25216 25230; CX 25430 25431 25284; CX 25228 25220 25023; CA 25393 25435 25039; CA 25395 25436 25258; CA 25397 25437 25034; CA 25443 25444 25061;
  CA 25445 25446 25060; CX 24732 24731 24718; CX 25452 25477 25336; CA 25443 25483 24588; CA 25445 25485 25294; CX 25477 25442 25283; CX 25493 25494 25290; CX 25495 25496 25302;
  CX 25497 25498 25292; CX 25499 25498 25147; CX 25500 25496 25139; CX 25501 25494 25102; CX 24924 24971 24883; CX 24815 24844 24840; CA 25504 25505 25297; CA 25504 25511 24869;
  CX 25257 25519 25000; CX 25520 25521 24749; CX 25261 25521 25043; CX 25529 25530 25305; CX 25533 25534 25303; CX 25541 25542 25374; CX 25546 25534 25304; CX 25549 25550 25309;
  CX 25530 25551 25132; CX 25560 25550 25356; CX 25561 25534 25351; CA 25562 25563 25186; CA 25564 25565 24933; CA 25475 25585 25316; CA 25475 25587 25170; CX 25592 25534 25324;
  CX 25593 25594 25093; CX 25542 25595 25134; CX 25541 25595 25130; CX 25529 25551 25095; CX 25596 25594 25119; CX 25597 25550 25373; CX 25598 25550 25291; CX 25599 25600 25293;
  CX 25601 25600 25354; CX 25602 25600 25371; CX 25603 25501 25367; CX 25604 25500 25390; CX 25605 25499 25369; CX 25593 25596 25372; CA 25606 25607 24520; CA 25610 25611 25197;
  CA 25610 25612 25190; CA 25564 25613 24676; CA 25562 25615 25189; CA 25606 25618 24728; CX 25622 25519 24736; CX 25629 25600 25358; CI 25431 25512; CA 25653 25654 25224;
  CA 25653 25675 25245; CX 25544 25691 25506; CX 25691 25619 25502; CI 25477 25508; CA 25708 25709 25256; CA 25715 25716 25096; CX 25744 25745 25583; CX 25745 25761 25476;
  CA 25766 25767 25037; CA 25708 25768 25254; CA 25766 25769 25518; CA 25715 25773 25447; CI 25708 25621; CA 25817 25818 25517; CA 25817 25848 24733; CX 25863 25327 24725;
  CX 25537 25864 25543; CX 25865 25205 25531; CI 25745 25777; CX 25933 25934 25860; CA 26001 26002 25782; CA 26001 26003 25780; CA 26008 26009 25206; CA 26008 26070 25313;
  CI 25933 26004; CX 25395 25502 25114; CX 24760 24761 24579; CX 24764 24761 24565; CX 24770 24761 24553; CX 24775 24761 24370; CX 24795 24796 24206; CX 24797 24798 24395;
  CX 24803 24804 24205; CX 24806 24807 24401; CX 24821 24596 24624; CX 24822 24823 24604; CX 24829 24830 24625; CX 24823 24831 24598; CX 24832 24830 24597; CX 24833 24830 24603;
  CX 24822 24831 24434; CX 24836 24837 24602; CX 24852 24837 24431; CX 24831 24830 24606; CX 24861 24802 24703; CX 24866 24867 24443; CX 24868 24631 24693; CX 24875 24876 24447;
  CX 24881 24867 24739; CX 24886 24887 24632; CX 24867 24887 24708; CX 24885 24898 24655; CX 24926 24887 24705; CX 24928 24887 24694; CX 24938 24876 24634; CX 24940 24941 24712;
  CX 24866 24881 24706; CX 24946 24941 24479; CX 24978 24979 24773; CX 24980 24780 24789; CX 24983 24984 24771; CX 24985 24986 24769; CX 24987 24986 24551; CX 24988 24989 24794;
  CX 24994 24995 24576; CX 24996 24979 24555; CX 24997 24998 24704; CX 25005 25006 24546; CX 25007 25006 24788; CX 24986 24998 24809; CX 25010 25011 24790; CX 24979 25011 24763;
  CX 25016 25011 24765; CX 25017 25011 24774; CX 25019 24998 24759; CX 25021 24998 24811; CX 24996 24978 24766; CX 24805 24989 24399; CX 25023 25024 24814; CX 24987 24985 24812;
  CX 25025 25024 24584; CX 25027 24995 24776; CX 25028 25029 24574; CX 25030 25029 24567; CX 25031 25030 24767; CX 25045 24855 24834; CX 25050 25051 24664; CX 25054 25055 24849;
  CX 25056 25057 24668; CX 25064 25065 24827; CX 25066 25065 24835; CX 25067 25055 24627; CX 25067 25054 24828; CX 25079 25080 24666; CX 25081 25057 24701; CX 25082 25080 24633;
  CX 25083 25051 24685; CX 25055 25065 24854; CX 25088 25065 24826; CX 25089 25090 24820; CX 25091 25090 24599; CX 25100 25101 24872; CA 25114 25115 24878; CX 24818 25152 24503;
  CX 25155 25101 24697; CX 24817 25158 24540; CX 25159 25160 24709; CX 25167 25168 24781; CX 25169 25152 24897; CX 25174 25160 24922; CX 25178 25168 24791; CX 25179 25158 24935;
  CX 25185 25186 24858; CX 25187 25188 24899; CX 25189 25050 24871; CX 25190 25056 24923; CX 25191 25079 24884; CX 25196 25197 24901; CX 25201 24494 24880; CA 25114 25203 24968;
  CX 25216 25217 25003; CX 25223 25224 25009; CX 24973 25230 24544; CX 25237 25217 24785; CX 25239 25230 24977; CX 25245 25167 25002; CX 25255 24519 25001; CX 25257 25039 25032;
  CX 25259 24612 25035; CX 25261 25061 25078; CX 25265 24588 25044; CX 25282 25283 25120; CA 25284 25285 25040; CA 25284 25286 25086; CX 25287 24840 24847; CX 25289 24718 24799;
  CX 25290 25291 25075; CX 25292 25293 25046; CX 25294 24520 24965; CX 25298 25297 24630; CX 25302 25303 25052; CX 25304 25305 25125; CX 25308 25309 25144; CX 25316 24676 25171;
  CX 25318 25309 25133; CA 25283 25323 24951; CX 25324 25325 25146; CX 25190 25197 24947; CA 25336 25337 24495; CA 25336 25341 24970; CX 25349 25309 25103; CX 25350 25351 25140;
  CX 25352 25351 25131; CX 25353 25354 25148; CX 25355 25354 25118; CX 25356 25357 25099; CX 25358 25359 25113; CX 25362 25351 25094; CX 25363 25309 25129; CX 25364 25351 25154;
  CX 25365 25354 25111; CX 25366 25354 25092; CX 25367 25368 25138; CX 25369 25370 25151; CX 25371 25372 25127; CX 25373 25374 25123; CA 25283 25382 24949; CX 25189 25186 24939;
  CX 25389 25390 25163; CX 25245 25224 25026; CX 24729 24733 24716; CX 25475 25476 25344; CA 25502 25503 24877; CA 25506 25507 24730; CA 25508 25509 25192; CA 25508 25510 25077;
  CA 25512 25513 25087; CA 25502 25514 24969; CA 25512 25515 25085; CA 25506 25516 24521; CX 25517 25518 24734; CX 25522 25447 24944; CX 25256 25518 24992; CX 25531 25327 25117;
  CA 25476 25532 25195; CX 25537 25531 25384; CX 25299 25543 24960; CA 25583 25584 24635; CA 25583 25586 25180; CA 25476 25617 25194; CX 25620 25621 25432; CX 25621 25624 25438;
  CX 25625 25543 25301; CA 25777 25778 25288; CA 25777 25779 25333; CX 25780 25781 25208; CX 25782 25206 25387; CA 25860 25861 25523; CA 25860 25862 25626; CA 26004 26005 25628;
  CA 26004 26006 25627; CX 25445 25438 25104; CX 24552 24553 24280; CX 24565 24566 24343; CX 24578 24579 24311; CX 24596 24597 24432; CX 24598 24597 24413; CX 24601 24602 24415;
  CX 24603 24604 24408; CX 24605 24606 24304; CX 24623 24597 24407; CX 24624 24625 24414; CX 24629 24597 24433; CX 24631 24632 24480; CX 24633 24634 24416; CI 24370 24470;
  CX 24669 24632 24442; CX 24677 24632 24500; CI 24401 24317; CI 24205 24474; CX 24693 24694 24251; CX 24703 24704 24121; CX 24705 24706 24324; CX 24707 24708 24218;
  CX 24711 24712 24492; CX 24739 24632 24450; CX 24758 24759 24550; CX 24762 24763 24388; CX 24765 24766 24472; CX 24767 24768 24398; CX 24769 24759 24204; CX 24768 24771 24577;
  CX 24773 24774 24476; CX 24776 24768 24559; CX 24777 24771 24570; CX 24778 24771 24573; CX 24779 24771 24560; CX 24780 24774 24547; CX 24783 24774 24554; CX 24784 24759 24587;
  CX 24787 24788 24491; CX 24789 24790 24422; CX 24793 24794 24403; CX 24801 24794 24575; CX 24802 24759 24585; CX 24767 24776 24571; CX 24805 24567 24572; CX 24808 24809 24346;
  CX 24810 24774 24549; CX 24811 24812 24124; CX 24813 24814 24199; CX 24817 24668 24617; CX 24818 24664 24613; CX 24819 24820 24405; CX 24825 24826 24595; CX 24827 24828 24410;
  CX 24834 24835 24323; CX 24848 24666 24592; CX 24849 24826 24424; CX 24853 24854 24318; CX 24855 24826 24600; CX 24856 24826 24626; CX 24857 24858 24687; CX 24871 24872 24688;
  CX 24877 24878 24727; CX 24884 24885 24684; CX 24896 24897 24477; CX 24898 24899 24744; CX 24900 24901 24618; CX 24910 24858 24698; CX 24911 24901 24710; CX 24872 24910 24737;
  CX 24871 24910 24484; CX 24922 24911 24657; CX 24884 24898 24535; CX 24923 24911 24486; CX 24925 24899 24683; CX 24927 24858 24665; CX 24929 24899 24656; CX 24930 24899 24593;
  CX 24931 24858 24614; CX 24932 24901 24695; CX 24934 24935 24481; CX 24939 24897 24686; CX 24947 24935 24702; CX 24948 24880 24497; CX 24968 24969 24719; CX 24972 24901 24658].
(** Lines 9205-9604 of the file. *)
Definition aes128_23 : list cg := [
  CX 24973 24781 24678; CX 24923 24922 24696; CX 24976 24977 24563; CX 25000 25001 24530; CX 25002 25003 24755; CX 25008 25009 24757; CX 25012 25009 24786; CX 25002 25012 24562;
  CX 25003 25012 24772; CX 25020 25009 24679; CX 25026 24977 24792; CX 24736 25032 24379; CX 25034 25035 24619; CX 25039 25001 24748; CX 25040 25035 24611; CX 25041 25032 24751;
  CX 25042 25009 24754; CX 25043 25044 24615; CX 25046 25047 21838; CX 25052 25053 21812; CX 25060 24965 24542; CX 25061 25044 24841; CX 25075 25076 21666; CX 25077 24653 24682;
  CX 24749 25078 24429; CX 25084 25078 24846; CX 25085 25040 24842; CX 25086 25087 24816; CX 25092 25093 24913; CX 25094 25095 24890; CX 25098 25099 22181; CX 25102 25103 24888;
  CA 25104 25105 24964; CX 25110 25111 24915; CX 25112 25113 22409; CX 25118 25119 24556; CA 25120 25121 24950; CA 25120 25122 24879; CX 25123 25124 21730; CX 25125 25126 21840;
  CX 25127 25128 21911; CX 25129 25130 24893; CX 25131 25132 22070; CX 25133 25134 21955; CX 25137 25138 22565; CX 25139 25140 24919; CX 25143 25144 24974; CX 25145 25146 22345;
  CX 25147 25148 24862; CX 25150 25151 22717; CX 25153 25154 24917; CX 25162 25163 22673; CX 25170 25171 24699; CX 25184 24495 24943; CX 25192 24970 24870; CX 24949 24951 24680;
  CA 25104 25202 24873; CX 25254 24716 24752; CX 25258 24521 24966; CX 24877 24969 24750; CX 25288 24883 24945; CX 25192 25297 24942; CX 25085 25087 24845; CX 25315 24635 25136;
  CX 25333 25180 25097; CA 25344 25345 25193; CA 25344 25346 25183; CX 25384 25327 24955; CX 25387 25301 25207; CX 25195 25194 24936; CA 25432 25433 24518; CA 25432 25434 25036;
  CA 25438 25439 24874; CA 25438 25440 24967; CX 25333 25447 25135; CX 25523 25387 25300; CX 25626 25627 25314; CX 25628 25523 25326; CX 25628 25627 24962; CX 24311 24343 24111;
  CX 24395 24343 24116; CX 24280 24343 24118; CX 24406 24407 24296; CX 24415 24416 24320; CX 24431 24432 24299; CX 24433 24434 24303; CI 24343 24207; CX 24442 24443 24287;
  CX 24324 24124 24257; CX 24251 24121 24255; CX 24450 24204 24243; CX 24479 24480 24150; CX 24492 24199 24332; CX 24499 24500 24349; CX 22717 24491 24180; CX 24546 24547 24322;
  CX 24548 24549 24391; CX 24550 24551 24114; CX 24554 24555 24385; CX 24556 24476 23806; CX 24472 21911 24173; CX 24422 21838 23810; CX 22181 24388 23749; CX 22409 24388 23997;
  CX 22345 24388 23712; CX 22565 24491 24179; CX 24559 24560 24351; CX 24567 24560 24404; CX 24568 24560 24400; CX 24569 24560 24397; CX 24570 24571 24276; CX 24572 24573 24356;
  CX 24574 24575 24390; CX 24576 24577 24282; CX 24584 24585 24232; CX 21955 24476 23858; CX 24586 24587 24235; CX 24592 24593 24167; CX 24594 24595 24321; CX 24599 24600 24138;
  CI 24416 24329; CX 24613 24614 24279; CX 24617 24618 24409; CX 24626 24627 24286; CX 24655 24656 23850; CX 24657 24658 24444; CX 24664 24665 24478; CX 24666 24656 24448;
  CX 24668 24658 24482; CX 24670 24656 24534; CX 24671 24665 24483; CX 24672 24656 24502; CX 24673 24665 24504; CX 24674 24658 24541; CX 24675 24658 24485; CX 24678 24679 24371;
  CI 24472 24445; CX 24683 24684 24294; CX 24685 24686 24417; CX 24687 24688 24152; CI 24422 24471; CX 24695 24696 24348; CX 24697 24698 24253; CX 24701 24702 24496;
  CI 24346 24345; CX 24709 24710 24347; CX 24718 24719 24531; CX 24727 24718 24387; CX 24730 24719 24513; CX 24731 24719 24527; CX 24732 24719 24528; CX 24737 24665 24412;
  CX 24743 24744 24168; CX 24727 24748 24529; CX 24749 24611 24580; CX 24750 24751 24583; CX 24754 24755 24372; CX 24756 24757 24561; CX 24772 24757 24469; CX 24781 24757 24564;
  CX 24782 24757 24545; CX 24785 24786 24396; CX 24791 24792 24423; CX 24748 24718 24512; CX 24799 24751 24377; CX 24815 24816 24590; CX 21666 24824 21456; CX 24838 21838 21630;
  CX 21812 24839 21610; CX 24840 24816 24616; CX 24841 24840 24610; CX 24842 24840 24428; CX 24843 24816 24589; CX 24844 24816 24581; CX 24845 24846 24620; CX 24847 24846 24425;
  CX 24842 24841 24591; CX 24859 21840 21631; CX 24860 21911 21688; CX 24862 24863 22150; CX 24869 24870 24681; CX 24873 24874 24717; CX 24879 24880 24493; CX 24888 24889 21957;
  CX 24890 24891 21638; CX 22409 24892 24557; CX 24893 24894 21526; CX 22070 24895 21628; CX 21955 24902 21521; CX 24556 24903 21686; CX 22345 24904 21632; CX 22181 24905 21523;
  CX 24906 21730 21522; CX 22673 24907 21636; CX 22717 24908 21690; CX 22565 24909 21524; CX 24913 24914 21694; CX 24915 24916 21692; CX 24917 24918 24394; CX 24919 24920 22072;
  CX 24630 24870 24363; CX 24942 24943 24538; CX 24949 24879 24660; CX 24950 24951 24654; CX 24964 24965 24517; CX 24878 24966 24516; CX 24967 24964 24726; CX 24970 24943 24659;
  CX 24974 24975 24402; CX 25038 24966 24582; CI 24556 22152; CX 25096 25097 24937; CX 25135 25136 24689; CX 24944 25097 24505; CX 25180 25136 24921; CX 25183 25171 24667;
  CX 25193 25194 24912; CX 25195 25183 24882; CX 25207 25208 24963; CX 25227 24518 24993; CX 25256 25036 25033; CX 24967 24874 24800; CX 25299 25300 25058; CX 25301 25300 24956;
  CX 25313 25314 25107; CX 25320 25314 25116; CX 25326 25327 24953; CX 25385 25314 25108; CX 25386 25314 25059; CX 25326 25384 25109; CX 24304 24303 24057; CX 24296 24303 24166;
  CX 24299 24303 24162; CX 24324 24287 24214; CX 24150 24287 24213; CX 24349 24287 24225; CX 24218 24287 24244; CX 24388 24385 24242; CX 24391 24385 24228; CX 21692 24391 23959;
  CX 24322 24385 24240; CX 21526 24385 23955; CX 24232 24114 24212; CX 24394 24391 23991; CX 21957 24322 23942; CX 24235 24114 24185; CX 24346 24114 24234; CX 24397 24398 24224;
  CX 24399 24400 23975; CX 24402 24391 23993; CX 24403 24404 24226; CX 24318 24286 24289; CX 24408 24152 24301; CX 24409 24251 24059; CX 24410 24286 24047; CX 24253 24304 23682;
  CX 24304 24168 24104; CX 24321 24286 24012; CX 24412 24413 23963; CX 24414 24279 23989; CX 24414 24167 24095; CX 24408 24294 24157; CX 24417 24415 24293; CX 24279 24422 24176;
  CX 24138 24286 24283; CX 24413 23850 24066; CX 21840 24445 23986; CX 24447 24448 23953; CI 24385 24341; CX 24323 24371 24091; CX 24347 24218 23715; CX 24444 24450 23999;
  CX 21730 24445 24160; CX 21812 24471 23792; CX 21666 24471 23888; CX 24348 24324 24354; CX 24371 21630 23744; CX 24152 24472 24147; CX 24416 24294 24300; CX 24412 24476 24245;
  CX 24416 23850 24307; CX 24477 24478 24201; CX 24481 24482 24325; CX 24483 24484 24305; CI 24322 24344; CX 24485 24486 24338; CX 24417 24491 24308; CX 24496 24492 24330;
  CX 24501 24502 24306; CX 24503 24504 24295; CX 24512 24513 23771; CX 24516 24513 24378; CX 24519 24513 24386; CX 24521 24513 24380; CX 24528 24529 24080; CX 24530 24531 24001;
  CX 24534 24535 24302; CX 24540 24541 24133; CX 24544 24545 24392; CX 24424 24469 24195; CX 21521 24469 23928; CX 21686 24469 23755; CX 24410 24372 24100; CX 24396 21632 23690;
  CX 24372 21522 24008; CX 24557 24396 23920; CX 24423 21690 24130; CX 24423 21524 23977; CX 24561 24562 24342; CX 24563 24564 24291; CX 24405 24423 24275; CX 24580 24581 24357;
  CX 24582 24583 24290; CX 24396 21523 23735; CX 24588 24589 24427; CX 24590 24591 24246; CX 24607 21456 21234; CX 24608 21610 21399; CX 24609 21630 21420; CX 24610 24589 24350;
  CX 24611 24589 24426; CX 24612 24589 24430; CI 24371 24421; CX 24615 24616 24313; CX 24619 24620 24326; CX 24630 24493 24451; CX 21692 24637 21476; CX 24638 21690 21480;
  CX 24639 21631 21422; CX 21686 24640 21474; CX 21526 24641 21298; CX 22150 24642 21477; CX 21957 24643 21300; CX 24644 21694 21475; CX 24394 24645 21415; CX 22072 24646 21417;
  CX 24647 21522 21301; CX 24648 21523 21302; CX 24557 24649 21479; CX 24650 21688 21478; CX 24651 21524 21303; CX 24652 21636 21426; CX 24653 24654 24539; CX 24659 24653 24439;
  CX 24660 24653 24362; CX 24661 24654 24452; CX 24662 24654 24440; CX 24663 24654 24536; CX 24680 24681 24498; CI 24372 24473; CX 24660 24659 24537; CX 24682 24681 24359;
  CX 24716 24717 24438; CX 24726 24716 24374; CX 24728 24717 24515; CX 24729 24717 24522; CX 24733 24717 24525; CX 24734 24517 24524; CX 24736 24516 24526; CX 24738 21628 21412;
  CX 21521 24741 21297; CX 24742 21638 21414; CX 24745 21632 21421; CI 24557 21687; CI 24402 21528; CI 24394 21640; CX 24882 24883 24488; CX 24883 24912 24690;
  CX 24921 24883 24740; CX 24924 24912 24691; CX 24933 24912 24636; CX 24936 24937 24700; CX 24882 24921 24692; CX 24944 24667 24746; CX 24945 24937 24489; CX 24962 24963 22764;
  CX 24971 24912 24747; CX 24992 24993 24437; CX 24734 25033 24381; CX 25036 24993 24735; CX 25037 25033 24753; CX 25058 25059 24850; CX 25106 25107 24954; CX 25108 25109 24864;
  CX 25116 25117 24959; CX 25204 25107 24957; CX 25205 25107 24952; CX 25206 25107 24961; CX 24166 24167 23957; CX 24162 24168 23995; CX 24212 24213 24105; CX 24218 24213 24044;
  CX 24225 24185 24013; CX 24243 24244 24018; CX 24251 24225 24028; CX 24234 24244 24071; CX 24282 24224 23819; CX 24185 24287 24134; CX 24226 24224 24030; CX 23975 24224 24024].
(** Lines 9605-10004 of the file. *)
Definition aes128_24 : list cg := [
  CX 24293 24294 24151; CX 24295 24296 24153; CX 24195 24289 24163; CX 24201 24299 24171; CX 24066 24293 24181; CX 24300 24301 24174; CX 24302 24303 24148; CX 24301 24302 24155;
  CX 24305 24303 24158; CX 24306 24296 24169; CX 24299 23953 24177; CX 24306 24303 24182; CX 24307 24293 24198; CX 24308 24157 24159; CX 24059 24232 24149; CX 24318 24283 23972;
  CX 24245 24320 24178; CX 24320 24301 24172; CX 24322 23989 24200; CX 24323 24012 23938; CX 24329 24308 24269; CX 24257 24330 24247; CX 24168 24302 24165; CX 21694 24341 23946;
  CX 23953 24302 24161; CX 24325 24150 24250; CX 24201 24305 24239; CX 24344 22150 23949; CX 24133 24338 24230; CX 24325 24338 24219; CX 24306 24302 24154; CX 24276 24080 24098;
  CX 24282 24001 23917; CX 24167 23953 24170; CX 24294 24302 24164; CX 24253 24305 24241; CX 24347 24338 24019; CX 24349 24133 24281; CX 24351 23771 23911; CX 24295 24305 24183;
  CX 24290 24080 24216; CX 24290 23771 24265; CX 24377 24378 23854; CX 24379 24380 23789; CX 24338 24287 24238; CX 24305 24385 24156; CX 24386 24387 24231; CX 24392 21476 23874;
  CX 21475 24342 23971; CX 21414 24342 23868; CX 21298 24342 23924; CX 24291 24342 24284; CX 24392 24342 24285; CX 21477 24291 23979; CX 24396 24342 24288; CX 24390 24290 24272;
  CX 21300 24291 23895; CX 24357 24323 23890; CX 24326 24405 24315; CX 21399 24206 23737; CX 21234 24206 23714; CX 21399 24411 21172; CX 24419 21420 21199; CX 21234 24420 21043;
  CX 24313 24318 23601; CX 24246 24410 24262; CX 24421 21610 23800; CX 24421 21456 23929; CX 21420 24206 23739; CX 24350 24424 23885; CX 24425 24426 24227; CX 24427 24428 24222;
  CX 24429 24430 24141; CX 24437 24438 24126; CX 24439 24440 23951; CX 24446 21422 21197; CX 24449 21474 21253; CX 24451 24452 24061; CX 24453 21297 21100; CX 24454 21412 21193;
  CX 21477 24455 21251; CX 21300 24456 21098; CX 21414 24457 21188; CX 21415 24458 21171; CX 24459 21417 21190; CX 21298 24460 21097; CX 21475 24461 21250; CX 24462 21302 21101;
  CX 24463 21421 21195; CX 24464 21479 21254; CX 21301 24465 21102; CX 21303 24466 21103; CX 21426 24467 21201; CX 21480 24468 21256; CX 24470 21474 23750; CX 21297 24370 23773;
  CX 24473 21688 24108; CX 24395 21479 23882; CX 21478 24205 24110; CX 24395 21302 23612; CX 24474 21301 24096; CX 24395 21421 23600; CX 21303 24401 24068; CX 21480 24401 24074;
  CX 24493 24440 24360; CX 24494 24440 24364; CX 24495 24440 24361; CX 24497 24498 24327; CX 24517 24515 24376; CX 24518 24515 24373; CX 24520 24515 24382; CX 24524 24525 24125;
  CX 24526 24527 24122; CX 21476 24532 21252; CX 21478 24533 21255; CX 24536 24537 24190; CX 24538 24539 24078; CX 22764 24476 24197; CI 21415 24393; CX 21528 24628 21299;
  CX 24635 24636 24487; CX 24667 24636 24490; CX 24676 24636 24506; CX 24689 24690 24220; CX 24691 24692 24248; CX 24699 24700 24475; CX 22764 24715 21689; CX 24726 24735 24523;
  CX 24740 24636 23852; CX 24746 24747 24210; CX 24735 24716 24514; CX 24752 24753 24375; CX 24800 24753 24543; CX 24850 24851 21844; CX 24864 24865 24558; CX 24952 24953 24722;
  CX 24954 24955 22075; CX 24956 24957 24724; CX 24958 24959 22347; CX 24960 24961 24720; CX 24018 24019 23851; CX 24133 24134 23933; CX 24024 24122 23876; CX 24030 24001 23880;
  CX 24147 24148 23954; CX 24149 24150 23968; CX 24151 24152 23985; CX 24153 24148 23958; CX 24153 24154 23943; CX 24155 24156 23987; CX 24157 24158 23945; CX 24159 24160 23795;
  CX 24161 24162 23996; CX 24164 24158 23960; CX 24165 24057 23962; CX 24169 24156 23992; CX 24170 24171 23964; CX 24172 24173 23794; CX 24176 24177 23941; CX 24178 24179 23790;
  CX 24180 24181 23797; CX 24182 24183 23990; CX 24171 24095 23948; CX 24197 24198 23798; CX 24200 24201 23952; CX 24166 24154 23988; CX 23854 24122 24084; CX 24219 24220 24045;
  CX 24226 23854 24089; CX 23789 24224 24026; CX 24228 24183 24094; CX 24231 24224 24086; CX 24165 23850 24052; CX 24239 24240 24103; CX 24241 24242 24065; CX 24167 24154 24060;
  CX 24245 24241 24056; CX 24230 24210 24029; CX 24161 24168 24043; CX 24247 24248 24093; CX 24253 24239 23994; CX 24269 23963 24131; CX 23854 24231 24000; CX 23789 24231 24025;
  CX 24001 24231 24031; CX 24080 24231 24032; CX 24276 24231 24120; CX 24279 24183 23956; CX 24283 24284 24143; CX 24285 24286 24142; CX 22075 24242 23822; CX 22347 24240 24042;
  CX 24288 24289 24139; CX 24285 24012 24135; CX 23890 24291 24137; CX 24228 21844 23828; CX 21254 21199 24023; CX 21172 24121 23817; CX 24227 24138 24088; CX 24227 24222 24020;
  CX 24141 24222 24128; CX 24121 21199 23844; CX 21043 24121 23840; CX 24313 24222 24016; CX 24315 24100 24189; CX 24321 24141 24063; CX 24222 24286 24006; CX 24326 24327 24270;
  CX 24333 21190 21014; CX 24334 21098 20957; CX 21252 24335 21056; CX 24336 21171 21002; CX 24339 21188 21011; CX 24280 21098 23824; CX 24340 21097 20955; CX 21256 21255 23837;
  CX 21250 24343 23864; CX 21097 24343 23870; CX 21188 24343 23906; CX 24280 21251 23830; CX 24204 21253 23872; CX 24126 24282 23613; CX 24246 24190 24191; CX 24345 21254 24048;
  CX 24346 21195 23777; CX 24346 21101 23731; CX 24124 21102 24260; CX 24327 24190 24261; CX 24350 23951 24140; CX 24327 23951 24264; CX 24356 24125 23892; CX 24356 24122 23915;
  CX 24357 24061 24136; CX 24359 24360 23926; CX 24361 24362 24223; CX 24363 24364 23932; CX 24125 24206 24090; CX 24373 24374 24209; CX 24375 24376 24054; CX 24381 24382 24252;
  CX 24383 21250 21055; CX 24384 21251 24221; CX 24313 24078 24144; CX 24204 21100 23856; CX 24275 24327 24277; CI 21172 23940; CX 24393 24392 23845; CI 21199 23947;
  CI 21043 23936; CI 24315 24263; CX 24418 21299 21099; CI 21252 24312; CI 21171 24310; CI 21255 24298; CI 21201 24297; CX 24409 24210 24014;
  CI 21103 24309; CI 21256 24314; CX 21689 24441 21481; CX 24444 23852 24072; CX 21689 24469 24010; CX 24348 24248 24256; CX 24347 24220 24106; CX 24475 24248 24353;
  CX 24475 23852 24355; CX 24487 24488 24328; CX 24489 24490 23969; CX 24505 24506 23934; CX 24514 24515 24352; CX 24522 24523 24274; CX 24496 24475 24358; CX 24542 24543 24389;
  CX 24558 24491 24175; CI 24475 24331; CX 24621 21844 21634; CX 22075 24713 21629; CX 22347 24714 21635; CX 24720 24721 21644; CX 24722 24723 21642; CX 24724 24725 22073;
  CI 24558 21842; CX 23851 23852 23778; CX 23933 23934 23781; CX 23941 23942 23729; CX 23945 23946 23697; CX 23948 23949 23701; CX 23952 23953 23808; CX 23790 23795 23478;
  CX 23954 23955 23717; CX 23956 23957 23791; CX 23958 23959 22381; CX 23962 23963 23807; CX 23797 23794 23431; CX 23968 23969 23803; CX 23985 23986 23704; CX 23987 21638 23618;
  CX 23988 23989 23809; CX 23990 23991 22451; CX 23992 23993 22514; CX 23994 23995 23590; CX 23996 23997 23578; CX 24000 24001 23904; CX 24013 24014 23839; CX 24024 24025 23891;
  CX 24028 24029 23816; CX 24000 24030 23881; CX 24031 23819 23883; CX 24042 24043 23644; CX 24044 24045 23646; CX 24052 23963 23821; CX 24056 24057 23849; CX 24060 23989 23827;
  CX 24065 24066 23857; CX 24071 24072 23855; CX 24089 24090 23823; CX 24093 21197 23707; CX 24094 24095 23887; CX 24103 24104 23642; CX 24105 24106 23621; CX 24031 23771 23811;
  CX 24122 24025 23909; CX 24131 22673 23705; CX 24135 24136 23930; CX 24137 24138 23925; CX 24139 24140 23927; CX 24141 24142 23931; CX 24143 24144 23640; CX 24020 24078 23973;
  CX 24163 24016 23950; CX 24174 24175 23796; CX 24128 24061 23939; CX 24189 24190 23937; CX 24136 24088 23978; CX 24191 24006 23970; CX 23926 24061 24087; CX 24126 24209 24115;
  CX 20955 20957 22816; CX 21193 21011 22913; CX 21253 21055 22915; CX 21100 20957 22712; CX 21193 21014 22757; CX 21253 24221 22701; CX 21055 24221 22885; CX 21011 21014 22848;
  CX 23936 20955 22910; CX 23940 21011 22937; CX 21255 24221 23832; CX 24222 24223 24081; CX 24209 24224 24033; CX 21201 21014 24015; CX 21103 20957 24022; CX 23926 24223 24021;
  CX 20955 24114 24051; CX 21011 24114 24041; CX 21055 24114 24035; CX 24054 24226 24085; CX 24227 23926 24092; CX 23932 24223 24062; CX 23932 24222 24011; CX 24232 20957 24076;
  CX 24232 24221 24083; CX 24235 21002 24112; CX 24235 21056 24037; CX 24078 24223 24017; CX 24246 24223 24046; CX 24252 23975 24064; CX 24256 24238 24034; CX 24261 24262 24003;
  CX 24140 24263 24129; CX 24264 24263 24009; CX 24270 24262 24107; CX 24274 24209 24119; CX 24252 24209 24027; CX 24190 24223 24005; CX 24054 24209 24117; CX 21256 24221 24002;
  CX 20955 21100 22851; CX 24191 24275 24007; CX 23947 21055 22908; CX 24277 23885 24055; CX 24280 23892 24053; CX 24014 24250 24082; CX 21634 24285 23741; CX 24284 21635 23921;
  CX 24288 21629 23753; CX 21101 23936 23966; CX 21195 23940 23967; CX 24297 21197 23836; CX 24298 24124 24193; CI 24221 21057; CI 21056 23002; CI 21002 23074;
  CI 20957 24184; CI 21014 24146; CX 24309 21102 23835; CX 24310 24311 23825; CX 24312 24311 23860; CX 24314 24199 24203; CX 24309 24199 24188; CI 24209 24186].
(** Lines 10005-10404 of the file. *)
Definition aes128_25 : list cg := [
  CX 21099 24319 20956; CI 24270 24194; CX 24325 23969 24254; CX 24220 24328 24233; CX 24248 24328 24237; CX 24331 24332 24268; CX 24274 24276 24217; CX 23934 24338 24229;
  CX 24338 24328 24258; CX 21644 24341 23944; CX 23969 24328 24236; CX 23934 24328 24211; CX 23969 24210 24249; CX 24348 24328 24215; CX 24351 24352 23812; CX 24353 24354 23983;
  CX 24072 24330 24202; CX 24355 24330 23981; CX 24358 24354 24192; CX 24256 24332 24259; CX 24358 24243 24187; CX 21481 24369 21257; CX 21481 24370 24070; CX 24274 24205 24099;
  CX 24352 24370 24123; CX 24389 24390 24266; CX 24389 24401 24271; CX 21634 24435 21424; CX 22073 24422 23965; CX 24507 21629 21413; CX 22073 24508 21419; CX 21642 24509 21416;
  CX 21644 24510 21418; CX 24511 21635 21425; CX 21642 24472 23961; CX 21842 24622 21633; CX 23778 21193 23625; CX 23781 20956 22528; CX 23790 23729 23549; CX 23791 23792 23614;
  CX 23431 22381 22449; CX 23794 23701 23433; CX 23795 23729 23493; CX 23797 23701 23511; CX 23803 21014 23626; CX 23704 23705 23466; CX 23697 23701 22044; CX 23806 23807 23699;
  CX 23717 23729 22223; CX 23808 22072 23634; CX 23809 23810 23721; CX 23478 22514 22573; CX 23811 23812 23775; CX 23816 23817 23670; CX 23821 23822 23703; CX 23823 23824 23665;
  CX 23827 23828 23700; CX 23839 23840 23577; CX 23849 23850 23745; CX 23855 23856 23588; CX 23857 23858 23702; CX 23881 23882 23537; CX 23883 23812 23751; CX 23887 23888 23711;
  CX 23891 23892 23738; CX 23909 23892 23768; CX 23925 23926 23784; CX 23927 23928 23576; CX 23929 23930 23593; CX 23931 23932 23787; CX 23937 21631 23691; CX 23938 23939 23801;
  CX 23943 23944 22526; CX 23796 23798 23482; CX 23950 23951 23793; CX 23960 23961 23728; CX 23964 23965 23730; CX 23970 23971 23599; CX 23972 23973 23583; CX 23978 23979 23632;
  CX 24002 22915 22713; CX 24005 24006 23861; CX 24007 24008 23742; CX 22757 22937 22879; CX 24009 24010 23757; CX 22712 22910 22843; CX 24011 24012 23846; CX 23967 22913 22882;
  CX 24015 22913 22751; CX 24016 24017 23886; CX 24020 24021 23919; CX 22701 22908 22899; CX 24022 22851 22707; CX 23966 22851 22844; CX 24002 24023 22911; CX 24022 23966 22916;
  CX 23832 24023 22906; CX 24015 23967 22939; CX 24026 24027 23826; CX 24032 24033 23877; CX 24034 24035 23722; CX 24046 24047 23867; CX 24053 24054 23853; CX 24055 21636 23692;
  CX 24061 24062 23893; CX 24063 24062 23841; CX 24064 24025 23848; CX 24021 24078 23922; CX 24063 24081 23873; CX 24082 24083 23726; CX 24084 24085 23896; CX 24064 24086 23859;
  CX 24087 24088 23898; CX 24091 24092 23894; CX 24085 23915 23829; CX 24098 24033 23863; CX 24099 24086 23869; CX 24100 24081 23923; CX 24107 24108 23799; CX 24027 24111 23914;
  CX 24115 24116 23910; CX 24117 24118 23916; CX 24119 24120 23905; CX 24123 24115 23818; CX 24125 24027 23875; CX 24126 24117 23879; CX 24128 24062 23889; CX 24017 23951 23884;
  CX 24129 24130 23802; CX 24023 22915 22887; CX 24146 21197 23831; CI 22816 23780; CI 22848 23716; CX 24184 21102 23833; CX 23837 23002 23116; CX 24186 24111 23974;
  CX 24187 24188 23838; CX 24192 24193 23918; CX 24194 24195 23976; CX 24202 24203 23820; CX 23836 23074 23078; CX 24210 24211 24058; CX 24214 24215 24040; CX 24216 24217 24102;
  CX 24229 24225 24113; CX 24230 24211 24127; CX 24233 23852 23998; CX 24233 24019 24132; CX 24219 24236 24049; CX 24237 24238 23907; CX 24236 24220 24039; CX 24249 24250 23912;
  CX 24254 24255 24075; CX 24257 24258 24050; CX 24259 24260 23834; CX 24265 24266 24069; CX 24266 23911 24073; CX 24268 23999 24077; CX 24098 24271 24097; CX 24123 24272 24067;
  CX 24217 24272 24109; CX 24281 24258 24036; CX 24281 24211 23901; CX 24116 21413 23774; CI 20956 23051; CX 24271 24290 24145; CX 21424 24111 23769; CX 24118 21425 23903;
  CI 21257 24196; CX 21424 24316 21200; CX 24337 21416 21189; CX 21418 24342 23842; CI 24266 24267; CX 24365 21413 21194; CX 21418 24366 21191; CX 24367 21419 21192;
  CX 24368 21425 21196; CX 24371 21419 23899; CX 24372 21416 23862; CX 24423 21633 24004; CX 24436 21633 21423; CX 23625 23626 21983; CX 23699 22449 22382; CX 23699 23697 22120;
  CX 23699 23701 21815; CX 23618 23634 22111; CX 23702 22573 22530; CX 23466 22451 22500; CX 23704 23634 23465; CX 23705 23634 23525; CX 23707 23626 23486; CX 23711 22573 22578;
  CX 23618 23614 22198; CX 23712 23614 23591; CX 23717 23711 22313; CA 22449 23721 23392; CX 23702 23717 22298; CX 23703 23728 22310; CX 23728 23700 22317; CX 23702 23729 21989;
  CX 23703 23730 21995; CX 23731 23577 23622; CX 23738 23739 23620; CX 23745 22070 23592; CX 23749 23711 23643; CX 23750 23751 23623; CX 23682 23700 23645; CX 23768 23769 23679;
  CX 23774 23775 23627; CX 23777 23670 23647; CI 23721 23683; CI 23614 23629; CX 23784 21417 23678; CX 23787 21299 22483; CX 23728 23730 22230; CX 23793 21628 23597;
  CX 23796 23730 23494; CX 23798 23730 23550; CX 23599 23632 21898; CI 23577 23589; CI 23670 23685; CX 23799 23632 23397; CX 23800 23801 23651; CI 23700 23718;
  CI 23711 23720; CX 23802 23632 23471; CX 23692 23691 23459; CX 23482 22526 22577; CX 23818 23819 23770; CX 23820 23726 23545; CX 22916 22910 23653; CX 23825 23826 22245;
  CX 22882 23074 23043; CX 23829 23830 23671; CX 22911 23116 23080; CX 22939 22937 23655; CX 22844 23051 22995; CX 22887 23002 22997; CX 23831 22882 23672; CX 23832 22887 23687;
  CX 23833 22844 23656; CX 23835 22844 22815; CX 23836 22882 22846; CX 23837 22887 22884; CX 23841 23842 22237; CX 23845 23846 22429; CI 23593 23587; CX 23853 23854 23756;
  CX 23859 23860 22287; CX 23861 23862 23598; CX 23863 23864 23624; CX 23867 23868 23677; CX 23869 23870 23609; CX 23873 23874 22096; CX 23875 23876 23736; CX 23879 23880 23520;
  CX 23884 23885 23752; CX 23886 23885 23754; CX 23889 23890 23743; CX 23893 23890 23740; CX 23894 23895 23727; CX 23898 23899 23633; CX 23903 23904 23526; CX 23905 23906 23564;
  CX 23910 23911 23772; CX 23914 23915 23713; CX 23916 23917 23528; CX 23918 23726 23485; CX 23919 23920 23518; CX 22939 23078 23052; CX 23921 23922 23530; CX 23799 23802 23400;
  CX 23722 23726 22145; CX 22911 22908 23696; CX 23923 23924 23719; CA 22939 22937 23658; CA 22751 22757 23761; CA 22707 22712 23760; CA 22844 22843 23605; CA 22911 22908 23660;
  CA 22713 22701 23786; CA 22906 22915 23681; CA 22916 22910 23607; CA 22887 22899 23662; CA 22882 22879 23674; CX 23078 23940 23079; CX 23947 23116 23117; CX 23116 21253 23001;
  CX 23078 21193 23073; CX 23833 23966 22850; CX 23831 23967 22914; CX 23918 23820 23490; CX 23974 23975 23788; CX 23976 23977 23758; CX 23838 23834 23491; CX 23998 23999 23866;
  CX 24003 24004 23776; CX 24036 24037 22489; CX 24040 24041 23630; CX 24048 24049 23637; CX 24050 24051 23724; CX 24058 24059 23814; CX 24067 24068 23748; CX 24069 24070 23747;
  CX 24073 24074 23746; CX 24075 24076 23779; CX 24077 21201 23708; CX 24096 24097 23733; CX 24109 24110 23734; CA 23078 21172 23785; CA 23116 21199 23783; CX 24112 24113 22516;
  CX 24127 24059 23843; CX 24132 23999 23871; CX 23835 23051 23054; CX 24145 23812 23935; CX 21200 24185 23815; CX 24196 24204 23982; CX 24205 21189 23878; CX 21192 24206 23897;
  CX 24207 21191 23847; CX 24208 21192 21015; CX 24234 21194 23865; CX 24267 24099 24079; CX 24273 21189 21012; CX 24278 21191 21013; CX 24212 21196 24038; CI 21200 23804;
  CX 21423 24292 21198; CX 24317 21423 24101; CX 23590 23591 23515; CX 22382 22120 22383; CX 23592 22500 22453; CX 23511 22120 21816; CX 22578 22223 22460; CX 22530 22298 22512;
  CX 23614 22500 22499; CX 23618 23592 22199; CX 23621 23622 23543; CX 23623 23624 22022; CA 22382 22381 23394; CA 22500 23629 23417; CA 22530 22514 23437; CX 23630 23625 22307;
  CX 23592 23634 21884; CX 23624 23620 22050; CX 21989 22313 22218; CX 21995 22317 22210; CX 23549 22298 21991; CX 23550 22310 21981; CX 23642 23643 23539; CX 23644 23645 23536;
  CX 23646 23647 23548; CX 23613 23620 23538; CX 23623 23671 21750; CX 23677 23678 22033; CX 23597 23678 21833; CX 23682 23683 23579; CX 23691 23678 23458; CX 23692 23678 23512;
  CX 22449 23683 22454; CX 23491 22528 22574; CX 23697 23683 22117; CX 23677 23597 22099; CX 23700 22577 22580; CX 23703 22577 22513; CX 23630 23626 22228; CX 23708 23626 23547;
  CI 23620 23650; CX 23459 22429 22432; CI 23679 23611; CX 23713 23714 23540; CX 23400 22096 22256; CX 23716 22846 23617; CX 22884 22885 23649; CA 22577 23718 23450;
  CX 23576 23719 22172; CX 23609 23665 21880; CA 22573 23720 23454; CX 23588 23724 22318; CX 23630 23670 22304; CX 23724 23577 22319; CX 23598 23633 21835; CX 23576 23727 21834;
  CX 23719 23727 22226; CX 23733 23665 23410; CX 23734 23671 23421; CX 23735 23587 23641; CX 23736 23737 23580; CX 23740 23741 23684; CX 23742 23727 23492; CX 23743 23744 23686;
  CX 23746 23671 23476; CX 23748 23665 23474; CX 23752 23753 23619; CX 23754 23755 23631; CX 23756 21190 23565; CX 23757 23633 23470; CX 23758 23727 23566; CX 23770 23771 23666].
(** Lines 10405-10804 of the file. *)
Definition aes128_26 : list cg := [
  CX 23772 23773 23517; CX 23776 23633 23398; CX 23624 23671 21901; CX 23719 23587 22289; CX 23588 23779 21993; CX 23780 22815 23603; CA 22884 22885 23680; CA 22815 22816 23694;
  CA 22846 22848 23675; CX 23783 23660 23581; CI 23651 23595; CX 23785 23658 23560; CX 23786 23681 23688; CX 23788 23789 23709; CX 23001 22915 23076; CX 23073 22913 23049;
  CX 23117 22885 23018; CX 23079 22848 23044; CX 23490 22489 22522; CX 23742 23758 23506; CI 22145 23418; CX 23814 23815 23615; CX 23733 23748 23391; CX 22916 23054 23005;
  CX 23724 23779 22211; CX 23834 23779 23487; CX 23838 23779 23574; CX 23708 23707 23479; CX 23843 23844 23698; CX 23847 23848 22272; CX 23734 23746 23420; CX 23865 23866 23608;
  CX 23871 23872 23706; CX 23877 23878 23610; CX 23776 23757 23401; CX 23896 23897 23664; CA 23001 23002 23762; CA 23073 23074 23763; CA 22850 22851 23695; CA 22914 22913 23676;
  CX 23054 21100 23050; CX 23935 21426 23639; CX 23054 23936 23055; CA 23054 21043 23782; CX 23981 23982 23767; CX 24038 24039 23635; CX 24079 24080 23900; CX 24101 24102 23732;
  CX 21194 21012 22777; CX 21012 21015 22731; CX 21194 21015 22632; CX 23804 21012 22822; CX 21257 21015 23813; CX 21013 24114 23902; CX 24121 21015 23913; CX 24124 21012 23908;
  CX 21196 23804 23805; CI 21015 23980; CX 24196 21198 23766; CX 24199 21198 23984; CI 21013 22950; CX 23465 23515 22200; CX 22499 22111 22379; CX 22199 23515 22113;
  CX 22453 22199 22450; CX 23525 23515 22197; CX 21750 22050 21979; CX 22310 23536 22229; CX 23537 23538 23477; CX 23493 23539 22303; CA 21816 21815 23393; CA 22453 22451 23416;
  CX 21983 22304 22214; CX 23543 22318 22233; CX 23547 23548 22297; CX 23487 23543 22312; CX 23476 22022 21751; CX 23549 23539 22300; CX 23494 23536 22316; CX 23550 23536 22302;
  CX 23547 22307 21986; CX 23548 22307 22213; CX 21884 22198 22115; CX 23486 23548 22315; CX 23574 23543 22295; CX 23525 22199 21885; CX 22298 23539 22219; CX 22454 22044 22284;
  CX 23512 22099 21828; CX 23577 22574 22579; CX 21815 22117 22048; CX 23578 23579 23510; CA 21991 21989 23440; CA 21981 21995 23448; CX 23588 22574 22520; CA 22574 23589 23451;
  CX 22580 22230 22462; CX 22513 22310 22525; CX 22432 23595 22433; CX 23597 22432 22430; CX 23610 23611 22039; CX 23613 23611 23527; CX 23627 23610 21971; CA 22513 22526 23449;
  CX 23574 22318 21994; CX 21993 22319 22235; CX 23598 23619 21940; CX 23631 23599 21941; CX 23631 23632 21626; CX 23619 23633 21684; CX 23631 22256 22095; CX 23566 22172 21826;
  CX 23639 23565 23460; CX 23640 23641 23532; CA 22432 23651 23406; CX 23517 23609 21968; CX 23627 23664 21728; CX 23517 23665 21727; CI 22033 23388; CX 23666 21412 23533;
  CX 21834 22289 22137; CX 23564 23565 21836; CX 23675 23676 23556; CX 23680 23681 23552; CX 23506 22483 22510; CA 22256 23686 23298; CX 23687 23688 23558; CX 23677 23595 22167;
  CX 23690 23595 23584; CX 23694 23695 23523; CX 23688 23696 23582; CX 23698 22522 22517; CX 23706 22522 22490; CX 23052 23049 23499; CI 21880 23261; CI 21901 23273;
  CI 21835 23247; CI 22226 23419; CX 23709 21099 22271; CI 23684 23594; CI 23686 23596; CI 23540 23516; CI 22289 23488; CI 23580 23541;
  CX 23715 23615 23636; CA 23044 23043 23673; CX 23706 23722 22259; CX 23706 23726 21906; CX 23722 23698 22258; CX 23420 22287 22292; CX 23732 23664 23411; CX 23401 22237 22244;
  CX 23747 23664 23475; CX 23715 23698 23638; CA 23052 23049 23657; CA 23080 23076 23659; CA 23018 22997 23661; CX 23760 23695 23652; CX 23761 23676 23654; CX 23762 23662 23648;
  CX 23763 23674 23616; CX 23479 22516 22581; CX 23610 23664 21879; CX 23782 23607 23562; CX 23055 22816 22994; CX 23050 22851 23004; CI 23076 23689; CI 23615 23667;
  CI 23698 23759; CA 23050 23051 23710; CX 23813 23805 22823; CX 23732 23747 23412; CX 23900 21422 23628; CX 22632 22822 22771; CX 23813 22777 22627; CX 23805 22777 22772;
  CX 23901 23902 22518; CX 23907 23908 23723; CX 23912 23913 23725; CI 22731 23663; CX 23980 21198 23764; CX 23766 22950 22953; CX 23983 23984 23765; CX 22451 22113 22378;
  CX 23465 22113 23264; CX 23466 22113 22114; CX 22197 22198 23266; CX 22197 22500 22452; CX 23476 23477 22051; CX 22300 22313 23321; CX 23478 22219 22222; CX 23479 22213 22227;
  CX 23482 22229 22231; CA 22200 22199 23270; CA 22197 22198 23272; CA 22113 22115 23268; CX 22297 22581 22515; CX 22295 22574 22523; CX 22297 22304 23318; CX 22295 22319 23336;
  CX 23486 22213 23319; CX 23487 22233 23337; CX 22516 22213 22458; CX 22528 22233 22466; CX 22300 22573 22532; CX 22302 22577 22519; CX 22022 23477 21987; CX 22302 22317 23333;
  CX 23421 23477 22023; CX 23491 22233 22234; CX 22514 22219 22463; CX 22526 22229 22457; CX 23493 22219 23322; CX 23494 22229 23331; CA 22303 22298 23374; CA 21885 21884 23415;
  CA 21751 21750 23341; CX 22579 22211 22465; CX 22520 22318 22533; CX 22120 23510 22047; CX 23511 23510 22118; CX 23433 23510 22119; CA 22315 22307 23368; CA 22297 22304 23352;
  CA 22219 22218 23360; CA 22300 22313 23339; CA 22213 22214 23366; CA 21986 21983 23434; CA 22302 22317 23345; CA 22229 22210 23372; CA 22312 22318 23376; CA 22233 22235 23380;
  CA 22316 22310 23370; CA 22295 22319 23378; CA 22520 22528 23453; CA 21828 21833 23405; CX 22433 22033 22341; CX 22430 22099 22371; CX 21728 22039 21952; CX 23526 23527 23462;
  CX 23474 21968 21726; CX 23532 22172 22138; CA 22430 22429 23407; CX 22095 21941 22260; CX 23492 23532 22173; CX 23470 21940 21681; CX 23564 23533 21943; CX 23533 23565 21685;
  CX 23566 23532 22314; CX 23475 21971 21724; CX 23471 21941 21627; CA 21994 21993 23452; CX 21833 22167 22064; CX 23576 22510 22487; CA 22095 22096 23295; CX 23581 23582 23423;
  CX 23583 23584 23508; CX 22510 23587 22511; CA 21826 21834 23441; CX 22490 22259 22491; CA 22510 23593 23447; CX 22244 23594 22255; CX 22256 23596 22242; CI 21836 23246;
  CX 23564 23541 22020; CX 23598 23594 22018; CX 23599 23596 21936; CX 23600 23541 23521; CX 23391 22271 22278; CX 23601 23596 23519; CX 23601 23594 23531; CX 23609 23516 22037;
  CX 23612 23516 23529; CX 22517 22145 22406; CX 23616 23617 23575; CX 23619 22244 22238; CX 23620 22292 22293; CX 23623 22292 22290; CX 23628 23565 23396; CX 23545 22259 21907;
  CX 23625 22581 22521; CX 23635 23636 23544; CX 23637 23638 23542; CX 23648 23649 23551; CA 22292 23650 23340; CA 22490 22489 23443; CX 23652 23653 23563; CX 23654 23655 23561;
  CX 23656 23652 23514; CX 23657 23658 23555; CX 23659 23660 23559; CX 23661 23662 23557; CX 23670 22581 22582; CX 23672 23654 23554; CX 21906 22258 22142; CX 23673 23674 23553;
  CA 22244 23684 23299; CA 22581 23685 23436; CX 23005 23004 23464; CX 23689 23080 23481; CA 22994 22995 23604; CI 21879 23262; CX 23710 23605 23602; CA 23005 23004 23606;
  CX 23608 23723 22305; CX 23608 23725 21985; CX 23723 23615 22309; CX 23628 23639 23399; CA 22522 23759 23445; CX 22823 22953 22924; CX 22823 22822 23535; CX 23723 23725 22220;
  CX 22772 22950 22920; CX 23764 22772 23569; CX 23765 23725 23484; CX 23766 22772 22730; CX 23767 23725 23546; CX 23412 22272 22276; CA 22772 22771 23573; CA 22627 22632 23668;
  CA 22823 22822 23571; CX 22953 23804 22954; CX 22953 21194 22951; CX 23764 23805 22776; CX 23765 23767 23489; CA 22953 21200 23693; CX 22114 22111 23236; CX 22450 22452 22958;
  CA 22114 22111 23269; CA 22452 22450 23271; CA 22378 22379 23267; CX 23415 23270 23265; CX 23416 23268 23235; CX 23417 23272 23094; CX 22227 22228 23275; CX 22234 22211 23285;
  CX 22523 22533 23040; CX 22051 22292 22247; CX 22051 22050 23181; CX 22287 21987 22208; CX 23420 21987 21908; CX 23421 21987 23186; CX 22222 22223 23277; CX 22231 22230 23287;
  CX 22532 22512 23038; CX 22519 22525 23036; CX 23431 22047 22045; CX 22118 22449 22384; CX 22118 22117 23238; CX 22381 22047 22285; CX 23433 22047 23239; CA 22227 22228 23367;
  CA 22222 22223 23373; CA 22051 22050 23218; CA 22023 22022 23220; CA 22523 22533 23377; CA 22463 22460 23359; CA 22532 22512 23338; CA 22457 22462 23371; CA 22231 22230 23369;
  CA 22519 22525 23344; CA 22234 22211 23375; CA 22465 22466 23379; CX 23434 23368 23317; CX 23436 23352 23182; CX 23437 23360 23276; CX 23440 23374 23320; CX 23448 23370 23332;
  CX 23449 23372 23286; CX 23450 23345 23200; CX 23451 23378 23212; CX 23452 23376 23335; CX 23453 23380 23284; CX 23454 23339 23178; CA 21987 21979 23216; CX 23462 21971 21954;
  CA 22118 22117 23243; CA 22047 22048 23245; CA 22119 22120 23241; CX 23475 23462 22041; CX 23411 23462 21970; CX 22314 22510 22486; CX 23488 22314 23326; CX 22483 22138 22404;
  CX 23492 22138 23334; CX 21685 22020 21895; CX 23460 21943 21683; CX 23506 22138 22207; CX 23508 22099 22067; CA 21627 21626 23294; CX 22487 22172 22485; CA 22138 22137 23354;
  CA 21681 21684 23297; CA 22173 22172 23364; CX 23458 23508 22098; CX 23512 23508 22174; CA 21726 21727 23309; CA 21724 21728 23312; CA 22314 22289 23358; CX 22511 22226 22405].
(** Lines 10805-11204 of the file. *)
Definition aes128_27 : list cg := [
  CX 22255 21835 22139; CA 22487 22483 23442; CX 22278 23516 22279; CX 23517 22278 22274; CX 22242 21898 22068; CX 21684 22018 21893; CX 21626 21936 21909; CX 23518 23519 23469;
  CX 23520 23521 23461; CX 21727 22037 21950; CX 23528 23529 23473; CX 23530 23531 23468; CA 22278 23540 23310; CX 22582 22228 22459; CX 22521 22307 22527; CX 23542 22259 22146;
  CX 23484 23544 22306; CX 23485 23542 22252; CX 23545 23542 22254; CX 23546 23544 22311; CX 22290 22022 22248; CX 22238 21940 22164; CX 23551 23552 23227; CX 23553 23554 23509;
  CX 23555 23556 23498; CX 23557 23558 23483; CX 23559 23552 23480; CX 23560 23561 23424; CX 23562 23563 23403; CX 23544 22305 22216; CX 22293 21901 22221; CX 23575 23556 23225;
  CA 22238 22237 23296; CA 22290 22287 23348; CA 21907 21906 23444; CA 22521 22516 23435; CX 23602 23603 23522; CX 23604 23605 23513; CX 23606 23607 23524; CX 22276 23611 22280;
  CX 23546 22305 21990; CX 21985 22309 22224; CX 23627 22276 22273; CX 23663 22730 23568; CX 23399 22245 22251; CA 22730 22731 23585; CA 22276 23679 23313; CX 23693 23571 23500;
  CX 22954 22731 22919; CX 22951 22777 22923; CX 23489 22518 22576; CA 22776 22777 23586; CA 22951 22950 23669; CX 23235 23236 23060; CX 23264 23265 23098; CX 23265 23266 23095;
  CX 23267 23268 23097; CX 23269 23270 23061; CX 23271 23272 23096; CX 23273 21908 23102; CX 22247 22248 22873; CX 23276 23277 23103; CX 23284 23285 23099; CX 23286 23287 23113;
  CX 22045 22044 23176; CX 22384 22383 22956; CA 22247 22248 23217; CA 21908 21901 23219; CA 22208 22221 23215; CX 23317 23318 23183; CX 23319 23317 23204; CX 23320 23321 23179;
  CX 23322 23320 23209; CX 23331 23332 23199; CX 23332 23333 23201; CX 23335 23336 23213; CX 23337 23335 23207; CX 23338 23339 23195; CX 23340 23218 23041; CX 23341 23220 23180;
  CX 23344 23345 23202; CX 23348 23216 23101; CX 23359 23360 23208; CX 23367 23368 23110; CX 23369 23370 23114; CX 23371 23372 23198; CX 23373 23374 23104; CX 23375 23376 23100;
  CX 23377 23378 23205; CX 23379 23380 23206; CA 22384 22383 23242; CA 22045 22044 23240; CA 22285 22284 23244; CX 23392 23243 23062; CX 23393 23241 23237; CX 23394 23245 23175;
  CX 22041 22276 22193; CX 22041 22039 23161; CX 22272 21954 22175; CX 23411 21954 23159; CX 23412 21954 21878; CX 22515 22527 23025; CX 23419 22207 23281; CX 22486 22485 23034;
  CA 21954 21952 23172; CA 22041 22039 23174; CA 21970 21971 23170; CX 22174 22432 22372; CA 22486 22485 23357; CA 22207 22226 23363; CA 22527 22515 23351; CA 22405 22404 23353;
  CA 22459 22458 23365; CX 23435 23366 23274; CX 23441 23364 23327; CX 23442 23354 23280; CX 23447 23358 23189; CX 22174 22167 23254; CX 22429 22067 22342; CX 23458 22067 23252;
  CX 23459 22067 22032; CA 21683 21685 23300; CX 23460 23461 22025; CX 22279 21880 22178; CX 22274 21968 22194; CX 21943 23461 21902; CX 21940 23468 21896; CX 21941 23469 21904;
  CX 23398 23468 21939; CX 23470 23468 22024; CX 23397 23469 21934; CX 23471 23469 21937; CA 22067 22064 23258; CX 23473 21968 21953; CX 23410 23473 21967; CX 23474 23473 22040;
  CA 22174 22167 23256; CA 22098 22099 23260; CX 23396 23461 21944; CX 23480 23481 23152; CX 23483 23227 23385; CX 22311 22576 22531; CX 22311 22309 23324; CX 22254 22258 23330;
  CX 23484 22216 23325; CX 23485 22146 23328; CX 22518 22216 22461; CX 22489 22146 22407; CX 23489 22216 22225; CX 23490 22146 22147; CA 22274 22271 23311; CX 23498 23499 23223;
  CX 22254 22522 22488; CA 22254 22258 23356; CA 23483 23423 23292; CA 22252 22259 23362; CA 23509 23225 23455; CA 22146 22142 23350; CA 22216 22224 23343; CA 22306 22305 23347;
  CA 23227 23423 23456; CA 22311 22309 23382; CA 23509 23424 23290; CX 23513 23514 23497; CI 23509 23467; CI 23225 23495; CX 22280 21879 22176; CI 23227 23496;
  CX 23522 23523 23154; CX 23524 23523 23463; CX 23533 22251 22249; CX 22251 23541 22257; CX 22273 21971 22195; CA 22273 22272 23314; CA 22251 23580 23302; CA 21990 21985 23438;
  CX 23585 23586 23503; CX 23608 22576 22524; CX 22924 22923 23414; CX 23615 22576 22575; CA 22924 22923 23570; CA 22576 23667 23439; CA 22919 22920 23572; CX 23668 23586 23534;
  CX 23669 23573 23567; CX 23060 23061 22570; CX 23094 23095 22824; CX 23096 23061 22957; CX 23097 23098 22926; CX 23099 23100 22665; CX 23101 23102 22965; CX 23103 23104 22651;
  CX 23113 23114 22653; CX 23175 23176 23020; CX 23178 23179 22871; CX 23180 23181 23042; CX 23182 23183 22867; CX 23186 23180 23029; CX 23195 23104 23037; CX 23198 23199 22963;
  CX 23200 23201 22870; CX 23202 23114 23035; CX 23205 23100 23039; CX 23206 23207 22961; CX 23208 23209 22962; CX 23212 23213 22869; CX 23215 23216 23028; CX 23217 23218 23032;
  CX 23219 23220 22966; CX 23237 23238 23063; CX 23239 23237 23065; CX 23240 23241 23021; CX 23242 23243 23066; CX 23244 23245 23064; CX 23262 21878 23091; CX 22193 22195 22860;
  CX 23274 23275 23109; CX 23280 23281 23107; CA 22193 22195 23173; CA 21878 21879 23169; CA 22176 22175 23171; CX 23312 23170 23160; CX 23313 23174 23008; CX 23314 23172 23090;
  CX 23326 23327 23190; CX 23334 23327 23188; CX 23351 23352 23177; CX 23353 23354 23187; CX 23357 23358 23197; CX 23363 23364 23108; CX 23365 23366 23203; CX 23388 22032 23229;
  CX 22371 22372 22944; CX 23391 21953 21876; CX 22025 22251 22170; CX 22025 22020 23125; CX 21937 22256 22240; CX 22024 22244 22165; CX 21937 21936 23120; CX 22024 22018 23122;
  CX 22245 21902 22144; CX 23396 21902 23126; CX 22237 21896 22140; CX 22096 21904 22066; CX 23397 21904 23118; CX 23398 21896 23123; CX 23399 21902 21832; CX 23400 21904 21899;
  CX 23401 21896 21830; CA 22372 22371 23255; CA 22032 22033 23259; CA 22342 22341 23257; CX 23405 23260 23253; CX 23406 23256 23084; CX 23407 23258 23228; CX 22040 22278 22191;
  CX 22040 22037 23158; CX 22271 21953 22177; CX 23410 21953 23162; CA 21953 21950 23168; CX 22225 22220 23279; CX 23418 22147 23283; CA 21896 21893 23134; CA 21934 21941 23144;
  CA 21937 21936 23138; CA 21902 21895 23140; CA 22024 22018 23136; CA 22025 22020 23146; CA 21904 21909 23148; CA 21939 21940 23132; CA 21944 21943 23142; CX 23423 23152 23293;
  CX 23424 23223 23291; CX 23290 23223 23386; CA 22040 22037 23166; CA 21967 21968 23164; CA 22488 22491 23355; CA 22406 22407 23349; CA 22147 22145 23361; CA 22225 22220 23346;
  CX 23438 23347 23323; CX 23439 23382 23184; CX 23443 23350 23282; CX 23444 23362 23329; CX 23445 23356 23191; CA 23455 23223 23248; CA 23456 23152 23127; CX 23292 23227 23304;
  CX 23463 23464 23150; CX 23467 23225 23387; CI 22488 23395; CI 23223 23426; CI 23152 23428; CX 22249 21943 22169; CA 23495 23424 23425; CA 23483 23496 23427;
  CA 23497 23154 23429; CA 23497 23403 23250; CI 23290 23402; CI 23292 23422; CX 22257 21836 22143; CA 22249 22245 23301; CI 23154 23472; CI 23497 23457;
  CX 22575 22220 22464; CX 22524 22305 22529; CX 23534 23535 23501; CX 23567 23568 23507; CA 22524 22518 23446; CX 23569 23534 23505; CX 23570 23571 23502; CX 23572 23573 23504;
  CX 22926 22570 22733; CA 22570 22824 22825; CX 22957 22958 22568; CX 22961 22665 22800; CX 22962 22651 22786; CX 22963 22653 22795; CX 22965 22966 22475; CA 22926 22824 22677;
  CI 22570 22927; CX 23020 23021 22506; CA 22651 22871 22874; CA 22653 22870 22876; CA 22665 22869 22893; CX 23028 23029 22866; CX 23032 22966 22872; CX 23035 23036 22649;
  CX 23037 23038 22647; CX 23039 23040 22659; CX 23041 23042 22735; CX 23062 23063 22781; CX 23064 23065 22864; CX 23066 23021 22955; CA 22961 22869 22746; CA 22963 22870 22742;
  CA 22962 22871 22738; CI 22665 22973; CI 22651 22969; CI 22653 22970; CX 23090 23091 22946; CX 23107 23108 22676; CX 23109 23110 22661; CX 23159 23160 23007;
  CX 23160 23161 23009; CX 23169 23170 22947; CX 23171 23172 23006; CX 23173 23174 23015; CX 23177 23110 23024; CX 23187 23188 23023; CX 23189 23190 22925; CX 23197 23108 23033;
  CX 23203 23204 22960; CX 23228 23229 23046; CX 23246 21832 23072; CX 21899 21898 23068; CX 23247 21830 23070; CX 22169 22170 22841; CX 22165 22164 22837; CX 23252 23253 23083;
  CX 23254 23253 23085; CX 23255 23256 23081; CX 23257 23258 23082; CX 23259 23260 23047; CX 23261 21876 23089; CX 22191 22194 22858; CX 23282 23283 23105; CA 22165 22164 23135;
  CA 22170 22169 23145; CA 21899 21898 23143; CA 22240 22260 23137; CA 21830 21835 23131; CA 22066 22068 23147; CA 21832 21836 23141; CA 22140 22139 23133; CA 22144 22143 23139;
  CX 23290 23291 23130; CX 23292 23293 23128; CX 23294 23144 23119; CX 23295 23148 23067; CX 23296 23134 23069; CX 23297 23132 23121; CX 23298 23138 22982; CX 23299 23136 22984;
  CX 23300 23142 23124; CX 23301 23140 23071; CX 23302 23146 22991; CA 22191 22194 23165; CA 21876 21880 23163; CA 22178 22177 23167; CX 23309 23164 23157; CX 23310 23166 23011;
  CX 23311 23168 23088; CX 23323 23324 23185; CX 23325 23323 23211; CX 23328 23329 23194; CX 23329 23330 23192; CX 23346 23347 23112; CX 23349 23350 23193; CX 23355 23356 23196].
(** Lines 11205-11604 of the file. *)
Definition aes128_28 : list cg := [
  CX 23361 23362 23106; CA 23386 23387 23224; CI 22240 23221; CX 23395 22491 23031; CI 23293 23305; CX 23387 23402 23249; CX 23403 23150 23251; CX 23250 23150 23306;
  CX 23402 23225 23383; CX 22531 22529 23027; CX 23385 23422 23289; CX 23422 23152 23384; CA 23425 23426 23129; CA 23427 23428 23288; CA 23429 23150 23230; CA 22531 22529 23381;
  CA 22464 22461 23342; CX 23446 23343 23278; CX 23457 23154 23307; CI 23150 23409; CA 23472 23403 23408; CI 23250 23389; CX 23500 23501 23308; CX 23502 23503 23413;
  CX 23504 23505 23432; CX 23507 23503 23059; CX 22677 22733 22637; CX 22824 22568 22678; CX 22677 22568 22734; CX 22738 22786 22683; CX 22742 22795 22693; CX 22746 22800 22685;
  CX 22864 22506 22679; CX 22677 22570 22780; CA 22475 22866 22797; CX 22869 22659 22747; CX 22870 22649 22743; CX 22871 22647 22739; CX 22738 22647 22787; CX 22742 22649 22796;
  CX 22746 22659 22799; CX 22872 22873 22473; CA 22506 22781 22782; CA 22927 22926 22827; CI 22568 22826; CA 22866 22735 22583; CX 22738 22651 22789; CX 22742 22653 22794;
  CX 22746 22665 22798; CI 22475 22830; CX 22946 22947 22442; CX 22955 22956 22504; CA 22864 22781 22638; CX 22960 22661 22802; CI 22506 22865; CA 22969 22962 22902;
  CA 22970 22963 22900; CA 22973 22961 22901; CI 22866 22828; CI 22649 22877; CI 22647 22875; CI 22659 22894; CX 23006 23007 22853; CX 23008 23009 22724;
  CX 23015 22947 22859; CA 22661 22867 22891; CA 22676 23023 22928; CX 23024 23025 22655; CX 23033 23034 22608; CX 23046 23047 22548; CA 22960 22867 22736; CX 23067 23068 22930;
  CI 22676 22967; CI 22661 22971; CX 23069 23070 22932; CX 23071 23072 22934; CX 23081 23047 22943; CX 23082 23083 22938; CX 23084 23085 22811; CX 23088 23089 22948;
  CX 23105 23106 23022; CX 23118 23119 22989; CX 23119 23120 22983; CX 23121 23122 22985; CX 23123 23121 22987; CI 23023 22964; CI 22925 22968; CX 23124 23125 22992;
  CX 23126 23124 22980; CX 23127 23128 22974; CX 23129 23130 22976; CX 23131 23132 22933; CX 23133 23134 22986; CX 23135 23136 22990; CX 23137 23138 22981; CX 23139 23140 22979;
  CX 23141 23142 22935; CX 23143 23144 22931; CX 23145 23146 22993; CX 23147 23148 22988; CX 23157 23158 23012; CX 23162 23157 23014; CX 23163 23164 22949; CX 23165 23166 23010;
  CX 23167 23168 23013; CX 23184 23185 22868; CX 23191 23192 22835; CX 23193 23194 22929; CX 23196 23106 23030; CX 23221 22260 22839; CX 23224 23225 23045; CX 23248 23249 23019;
  CX 23250 23251 23087; CX 23278 23279 23111; CX 23288 23289 22978; CA 23304 23305 23151; CA 23306 23307 23153; CX 23342 23343 23210; CX 23381 23382 23214; CA 23383 23291 23222;
  CA 23384 23385 23226; CX 23389 23307 23231; CX 23389 23154 23303; CA 23408 23409 23086; CX 23413 23414 23057; CA 23432 23308 23155; CA 23432 23059 23390; CI 23059 23430;
  CI 23432 23404; CX 22677 22678 22502; CA 22733 22734 22569; CX 22638 22679 22572; CX 22735 22473 22584; CX 22583 22473 22642; CX 22738 22739 22586; CX 22742 22743 22596;
  CX 22746 22747 22592; CA 22678 22780 22567; CX 22781 22504 22639; CX 22638 22504 22680; CA 22786 22787 22650; CA 22739 22789 22646; CA 22743 22794 22648; CA 22795 22796 22652;
  CA 22797 22473 22507; CA 22798 22747 22658; CA 22799 22800 22664; CA 22825 22826 22501; CA 22827 22568 22636; CX 22828 22475 22641; CX 22638 22506 22732; CX 22736 22802 22691;
  CA 22830 22735 22752; CI 22473 22753; CA 22442 22853 22774; CX 22859 22860 22438; CA 22865 22864 22793; CX 22867 22655 22737; CX 22736 22655 22801; CI 22504 22783;
  CA 22874 22875 22585; CA 22876 22877 22595; CA 22893 22894 22591; CI 22583 22681; CA 22900 22649 22692; CA 22901 22659 22684; CA 22902 22647 22682; CA 22853 22724 22562;
  CI 22442 22820; CX 22925 22608 22741; CA 22928 22608 22688; CX 22736 22661 22788; CX 22930 22931 22424; CX 22932 22933 22422; CX 22934 22935 22426; CA 22548 22938 22847;
  CX 22943 22944 22546; CX 22948 22949 22440; CI 22853 22818; CX 22964 22676 22785; CA 22967 22968 22880; CA 22960 22971 22896; CX 22974 22978 22883; CX 22979 22980 22832;
  CX 22981 22931 22838; CX 22982 22983 22695; CX 22984 22985 22696; CX 22986 22987 22831; CI 22655 22892; CX 22988 22989 22803; CX 22990 22933 22836; CI 22608 22881;
  CX 22991 22992 22694; CX 22993 22935 22840; CA 22938 22811 22668; CI 22548 22904; CX 23010 22949 22857; CX 23011 23012 22723; CX 23013 23014 22852; CX 23019 22976 22833;
  CA 22929 23022 22890; CX 23030 23031 22898; CA 23023 22968 22740; CA 22976 23043 22766; CA 22976 23044 22415; CX 23019 23045 22936; CI 22938 22903; CA 22929 22835 22697;
  CI 23022 22612; CX 23086 23087 22940; CI 22974 22996; CX 23111 23112 22663; CX 23151 23152 22975; CX 23153 23154 22998; CI 23045 23048; CX 23210 23211 22959;
  CX 23214 23112 23026; CX 23222 23223 22977; CX 23226 23227 23075; CX 23230 23231 22942; CI 23019 23077; CI 22978 23115; CA 23303 23251 23149; CX 23308 23057 23156;
  CX 23155 23057 23233; CA 23390 23057 23092; CI 23057 23316; CX 23404 23059 23234; CA 23430 23308 23315; CI 23155 23263; CX 22501 22502 22281; CX 22567 22568 22282;
  CX 22569 22570 22380; CX 22583 22584 22402; CX 22585 22586 22396; CX 22591 22592 22389; CX 22595 22596 22394; CX 22636 22637 22283; CX 22638 22639 22456; CA 22641 22642 22474;
  CX 22646 22647 22397; CX 22648 22649 22395; CX 22650 22651 22471; CX 22652 22653 22470; CX 22658 22659 22390; CX 22664 22665 22469; CA 22679 22680 22505; CX 22641 22681 22508;
  CX 22682 22683 22400; CX 22684 22685 22393; CX 22692 22693 22399; CX 22724 22438 22563; CX 22562 22438 22631; CA 22639 22732 22503; CX 22736 22737 22594; CX 22740 22741 22590;
  CA 22752 22753 22401; CX 22681 22475 22640; CA 22774 22438 22495; CA 22782 22783 22455; CA 22788 22737 22654; CA 22793 22504 22571; CA 22801 22802 22660; CX 22803 22424 22598;
  CX 22811 22546 22669; CX 22668 22546 22711; CX 22818 22442 22630; CA 22820 22724 22727; CI 22438 22728; CA 22422 22831 22759; CA 22426 22832 22760; CA 22424 22695 22758;
  CI 22741 22749; CX 22836 22837 22418; CX 22838 22839 22361; CX 22840 22841 22420; CA 22847 22546 22617; CA 22440 22852 22773; CX 22857 22858 22436; CI 22562 22670;
  CX 22740 22608 22784; CA 22831 22696 22534; CA 22832 22694 22538; CA 22803 22695 22536; CA 22880 22881 22589; CA 22883 22884 22768; CA 22883 22885 22763; CA 22891 22892 22593;
  CA 22896 22655 22690; CX 22903 22548 22710; CI 22424 22808; CI 22422 22806; CI 22426 22807; CA 22904 22811 22812; CI 22546 22813; CA 22852 22723 22560;
  CI 22440 22819; CX 22929 22612 22755; CX 22697 22612 22756; CA 22936 22937 22155; CA 22936 22939 22416; CX 22942 22940 22809; CI 22833 22845; CI 22832 22804;
  CI 22831 22805; CI 22668 22761; CI 22852 22817; CX 22959 22663 22792; CA 22612 22835 22897; CX 22974 22975 22886; CX 22976 22977 22878; CI 22898 22610;
  CI 22740 22829; CA 22940 22994 22355; CA 22940 22995 22718; CA 22996 22997 22769; CX 22942 22998 22909; CA 22996 23018 22358; CA 22663 22868 22888; CX 23026 23027 22657;
  CX 23045 22977 22834; CA 23048 23049 22615; CA 23048 23052 22918; CA 22959 22868 22744; CI 22663 22972; CA 22977 23073 22762; CA 22977 23074 22765; CA 23075 23076 22620;
  CA 23077 23078 22414; CA 23077 23079 22917; CA 23075 23080 22863; CI 22975 23000; CI 22998 23003; CA 23115 23116 22359; CA 23115 23117 22945; CX 23149 23150 22941;
  CI 23075 22999; CI 22942 23053; CX 23155 23156 23017; CA 23233 23234 23058; CX 23263 23234 23093; CA 23315 23316 23016; CX 23263 23059 23232; CX 22281 22282 22112;
  CX 22281 22283 22042; CA 22281 22378 21888; CA 22281 22379 21468; CX 22283 22380 22196; CX 22380 22282 22043; CX 22389 22390 22232; CX 22389 22393 22125; CX 22394 22395 22209;
  CX 22396 22397 22217; CX 22394 22399 22132; CX 22396 22400 22130; CX 22401 22402 22127; CA 22380 22450 21673; CA 22282 22451 21887; CA 22380 22452 22205; CA 22282 22453 21886;
  CX 22455 22456 22201; CA 22394 22457 22006; CA 22396 22460 21578; CA 22394 22462 21570; CA 22396 22463 22008; CA 22389 22465 21580; CA 22389 22466 22012; CX 22469 22390 22126;
  CX 22393 22469 22294; CX 22399 22470 22301; CX 22400 22471 22299; CX 22470 22395 22133; CX 22471 22397 22131; CX 22474 22475 22236; CA 22283 22499 22204; CA 22283 22500 21469;
  CX 22503 22504 22202; CX 22505 22506 22286; CX 22507 22508 22129; CA 22471 22512 21777; CA 22395 22513 21998; CA 22397 22514 22003; CA 22470 22519 22332; CA 22390 22520 22000;
  CA 22469 22523 22331; CA 22470 22525 21789; CA 22395 22526 22009; CA 22390 22528 22016; CA 22397 22530 21997; CA 22471 22532 22337; CA 22469 22533 21784; CX 22562 22563 22376;
  CX 22571 22572 22203; CA 22400 22573 21579; CA 22393 22574 21569; CA 22399 22577 21577; CA 22400 22578 22340; CA 22393 22579 22338; CA 22399 22580 22339; CX 22589 22590 22323].
(** Lines 11605-12004 of the file. *)
Definition aes128_29 : list cg := [
  CX 22593 22594 22387; CA 22630 22631 22441; CA 22584 22640 22472; CX 22654 22655 22388; CX 22660 22661 22467; CX 22668 22669 22493; CX 22630 22670 22496; CX 22690 22691 22392;
  CX 22694 22420 22539; CX 22695 22361 22537; CX 22696 22418 22535; CX 22534 22418 22602; CX 22538 22420 22604; CA 22710 22711 22547; CX 22723 22436 22561; CX 22560 22436 22629;
  CA 22727 22728 22375; CX 22670 22442 22625; CA 22758 22361 22329; CA 22759 22418 22478; CA 22760 22420 22480; CX 22536 22424 22543; CX 22710 22761 22618; CX 22763 22764 22162;
  CA 22773 22436 22497; CA 22784 22785 22675; CX 22804 22426 22603; CX 22805 22422 22601; CX 22697 22755 22667; CA 22806 22696 22702; CA 22807 22694 22708; CA 22808 22803 22704;
  CI 22418 22703; CI 22361 22705; CI 22420 22709; CA 22812 22813 22492; CX 22817 22440 22628; CX 22761 22548 22699; CA 22819 22723 22725; CI 22436 22726;
  CX 22785 22829 22689; CX 22744 22792 22687; CX 22833 22834 22750; CX 22835 22610 22698; CX 22697 22610 22754; CI 22534 22644; CI 22538 22645; CI 22536 22643;
  CA 22845 22846 22720; CA 22845 22848 22716; CX 22829 22676 22748; CX 22358 22359 22353; CI 22560 22671; CX 22868 22657 22745; CX 22744 22657 22791; CA 22878 22879 22156;
  CA 22878 22882 22616; CA 22886 22887 22619; CA 22890 22610 22666; CA 22897 22898 22540; CA 22886 22899 22082; CX 22415 22414 22412; CA 22909 22910 22081; CA 22909 22916 22357;
  CI 22809 22814; CX 22917 22918 22364; CX 22918 22765 21918; CX 22744 22663 22790; CX 22940 22941 22842; CX 22945 22863 22367; CA 22959 22972 22895; CI 22657 22889;
  CX 22978 22999 22907; CX 22998 22941 22810; CI 22834 22912; CX 22999 22975 22905; CA 23000 23001 22715; CA 23000 23002 22767; CA 23003 23004 22552; CA 23003 23005 22862;
  CX 23016 23017 22854; CA 22941 23050 22714; CA 22941 23051 22719; CA 23053 23054 22354; CA 23053 23055 22861; CX 23058 23059 22921; CX 23092 23093 22856; CA 23232 23156 23056;
  CX 22883 22905 22700; CX 22042 22043 21883; CA 22042 22111 21674; CA 22112 22113 21672; CA 22042 22114 21889; CA 22112 22115 21240; CX 21468 21469 21463; CX 22125 22126 21992;
  CX 22129 22127 21890; CX 22130 22131 21988; CX 22132 22133 21980; CA 22196 22197 21467; CA 22196 22198 21241; CA 22043 22199 21678; CA 22043 22200 21679; CX 22201 22202 22046;
  CX 22201 22203 21976; CX 22204 22205 21470; CX 21887 22205 21670; CA 22127 22208 21798; CA 22209 22210 21355; CA 22125 22211 21788; CA 22217 22218 21353; CA 22217 22219 21774;
  CA 22127 22221 21339; CA 22130 22222 22004; CA 22130 22223 21778; CA 22209 22229 21772; CA 22132 22230 21790; CA 22132 22231 22015; CA 22232 22233 21792; CA 22125 22234 22002;
  CA 22232 22235 21347; CX 22129 22236 22049; CX 21578 21579 21553; CX 21580 21569 21551; CX 21570 21577 21547; CA 22201 22284 21407; CA 22201 22285 21818; CX 22203 22286 22116;
  CX 22286 22202 21977; CA 22294 22295 21567; CA 22131 22298 21804; CA 22299 22300 21581; CA 22301 22302 21568; CA 22131 22303 21796; CA 22133 22310 21795; CA 22126 22312 21810;
  CA 22299 22313 21351; CA 22133 22316 21802; CA 22301 22317 21346; CA 22126 22318 21809; CA 22294 22319 21354; CX 22016 22331 21766; CX 22009 22332 21763; CX 22003 22337 21760;
  CX 22338 22331 21582; CX 22339 22332 21598; CX 22340 22337 21583; CX 22375 22376 22102; CA 22202 22381 21819; CA 22202 22382 21817; CA 22286 22383 21620; CA 22286 22384 22134;
  CX 22387 22388 22212; CX 22387 22392 22121; CI 22236 22246; CX 22441 22442 22179; CA 22203 22449 21405; CA 22203 22454 22135; CA 22387 22458 22001; CA 22387 22459 21573;
  CX 22467 22388 22122; CX 22392 22467 22296; CX 22472 22473 22128; CI 22129 22291; CX 22492 22493 22261; CX 22495 22496 22105; CA 22467 22515 22334; CA 22388 22516 22011;
  CA 22388 22521 21996; CA 22467 22527 21781; CX 22534 22535 22326; CX 22536 22537 22330; CX 22538 22539 22328; CI 22323 22403; CX 22547 22548 22343; CX 22560 22561 22374;
  CA 22392 22581 21575; CA 22392 22582 22333; CA 22601 22602 22421; CA 22603 22604 22425; CX 22617 22618 22263; CA 22563 22625 22437; CA 22628 22629 22439; CX 22598 22643 22477;
  CX 22601 22644 22479; CX 22603 22645 22481; CX 22666 22667 22322; CI 22537 22542; CX 22628 22671 22498; CX 22675 22676 22344; CX 22688 22689 22398; CX 22643 22361 22599;
  CX 22697 22698 22541; CA 22669 22699 22545; CA 22700 22701 22557; CA 22702 22703 22325; CA 22704 22705 22476; CA 22708 22709 22327; CA 22700 22713 22553; CX 22644 22422 22597;
  CX 22645 22426 22600; CX 22715 22353 21648; CX 22716 22717 22158; CX 22720 22155 22428; CA 22725 22726 22373; CX 22671 22440 22624; CX 22744 22745 22588; CA 22748 22749 22607;
  CA 22750 22751 22550; CA 22754 22755 22611; CA 22756 22698 22609; CA 22750 22757 22621; CX 22762 22412 21696; CX 22616 22765 22613; CX 22766 22156 22605; CX 22619 22767 22614;
  CX 22769 22082 22606; CA 22790 22745 22656; CA 22791 22792 22662; CX 22809 22810 22706; CA 22814 22815 22674; CA 22814 22816 22672; CA 22842 22843 22080; CA 22842 22844 22551;
  CX 22355 22354 22350; CX 22856 22854 22721; CX 22861 22862 22270; CX 22862 22719 21856; CX 22863 22767 21864; CA 22888 22889 22587; CA 22895 22657 22686; CA 22905 22906 22559;
  CA 22907 22908 22083; CA 22907 22911 22356; CA 22912 22913 22622; CA 22912 22914 22623; CA 22905 22915 22558; CA 22854 22919 22187; CA 22854 22920 22634; CX 22856 22921 22821;
  CI 22810 22849; CI 22921 22922; CX 23056 23057 22855; CI 22856 22952; CA 21883 21884 21677; CA 21883 21885 21676; CX 21886 21463 21473; CX 21887 21672 21669;
  CX 21888 21240 21671; CX 21889 21241 21675; CX 21976 21977 21814; CX 21679 21678 21471; CA 21980 21981 21770; CA 21988 21989 21803; CA 21988 21991 21791; CA 21992 21993 21808;
  CA 21992 21994 21768; CA 21980 21995 21794; CX 21997 21553 21597; CX 21998 21547 21600; CX 22000 21551 21589; CX 22002 21354 21769; CX 22003 21774 21762; CX 22004 21351 21779;
  CX 22006 21355 21764; CX 22008 21353 21761; CX 22009 21772 21765; CX 22012 21347 21767; CX 22015 21346 21771; CX 22016 21792 21753; CA 21976 22044 21617; CA 21976 22045 21820;
  CA 22046 22047 21621; CA 22046 22048 21178; CX 21407 21405 21401; CA 22049 22050 21153; CA 22049 22051 21338; CI 21890 21900; CX 21796 21804 21591; CX 21810 21809 21584;
  CX 21802 21795 21604; CX 22105 22102 21872; CA 22116 22117 21179; CA 22116 22118 21406; CA 21977 22119 21624; CA 21977 22120 21623; CX 22121 22122 21982; CX 22127 22128 21978;
  CX 21819 22134 21615; CX 22135 22134 21410; CA 22102 22175 21746; CA 22102 22176 21316; CX 22105 22179 22038; CA 22212 22213 21773; CA 22212 22214 21348; CA 22121 22227 22013;
  CA 22121 22228 21775; CX 22236 22128 21891; CX 21573 21575 21549; CA 22246 22247 22030; CA 22246 22248 21606; CX 22263 22261 22026; CA 22128 22287 21805; CA 22128 22290 21752;
  CA 22291 22292 21340; CA 22291 22293 22029; CA 22296 22297 21571; CA 22296 22304 21350; CA 22122 22307 21807; CA 22122 22315 21799; CX 22325 22326 22056; CX 22327 22328 22054;
  CX 22329 22330 22058; CX 22333 22334 21593; CX 22011 22334 21756; CA 22261 22341 21438; CA 22261 22342 21868; CX 22263 22343 22166; CX 22373 22374 22100; CI 22179 22192;
  CX 22323 22398 22206; CA 22403 22404 21929; CA 22403 22405 21436; CX 22421 22422 22149; CX 22425 22426 22148; CX 22437 22438 22103; CX 22439 22440 22180; CI 22105 22275;
  CX 22398 22344 22288; CX 22476 22477 22061; CX 22478 22479 22062; CX 22480 22481 22060; CI 22343 22370; CX 22497 22498 22104; CA 22322 22517 22265; CA 22322 22522 21487;
  CX 22540 22541 22320; CA 22542 22543 22360; CX 22545 22546 22262; CX 22550 22428 22363; CI 22263 22431; CX 22557 22558 22348; CX 22559 22553 22352; CX 22587 22588 22385;
  CA 22535 22597 22417; CA 22598 22599 22423; CA 22539 22600 22419; CX 22605 22412 22154; CX 22606 22353 22079; CX 22607 22608 22482; CI 22344 22484; CX 22609 22610 22321;
  CX 22611 22612 22408; CX 22364 22613 21922; CX 22367 22614 21862; CX 22615 22613 22362; CX 22616 22605 22411; CX 22619 22606 22366; CX 22620 22614 22369; CX 22621 22622 22410;
  CX 22623 22550 22413; CA 22561 22624 22435; CX 22656 22657 22386; CX 22662 22663 22468; CI 22398 22509; CX 22672 22673 22089; CX 22674 22081 22365; CX 22686 22687 22391;
  CA 22706 22707 22494; CA 22706 22712 22555; CX 22714 22350 21646; CX 22718 22080 22544; CX 22551 22719 22549; CX 22768 22083 22427; CX 22623 22622 21924; CX 22559 22558 21926;
  CA 22821 22822 21961; CA 22821 22823 22186; CI 22721 22729; CA 22849 22850 22554; CA 22849 22851 22556; CX 22854 22855 22770; CX 22921 22855 22722; CA 22922 22923 22445;
  CA 22922 22924 22779; CA 22855 22950 22635; CA 22855 22951 22633; CA 22952 22953 22188; CA 22952 22954 22778; CX 21470 21669 21053; CX 21670 21671 21248; CX 21672 21671 21466;
  CX 21673 21669 21472; CX 21674 21675 21244; CX 21676 21675 21239; CX 21677 21678 21464; CX 21679 21676 21465; CX 21582 21753 21157; CX 21760 21761 21387; CX 21583 21762 21165].
(** Lines 12005-12404 of the file. *)
Definition aes128_30 : list cg := [
  CX 21763 21764 21362; CX 21598 21765 21155; CX 21766 21767 21358; CX 21768 21769 21341; CX 21770 21771 21342; CX 21772 21764 21559; CX 21774 21761 21561; CX 21777 21762 21592;
  CX 21778 21779 21374; CX 21784 21753 21585; CX 21788 21769 21368; CX 21789 21765 21601; CX 21790 21771 21395; CX 21791 21779 21345; CX 21792 21767 21557; CX 21794 21795 21548;
  CX 21796 21791 21563; CX 21802 21770 21566; CX 21803 21804 21554; CX 21808 21809 21552; CX 21810 21768 21558; CA 21814 21815 21622; CA 21814 21816 21619; CX 21817 21401 21408;
  CX 21818 21178 21616; CX 21819 21621 21614; CX 21820 21179 21618; CX 21890 21891 21749; CX 21624 21623 21411; CA 21900 21901 21509; CA 21900 21908 21716; CA 21978 21979 21154;
  CA 21982 21983 21806; CA 21982 21986 21793; CA 21978 21987 21605; CX 21996 21549 21586; CX 22001 21348 21757; CX 21339 21340 21324; CX 22011 21773 21758; CX 22013 21350 21776;
  CX 22029 22030 21296; CX 21805 22030 21602; CA 22038 22039 21113; CA 22038 22041 21315; CI 21872 21877; CX 22060 22054 21821; CX 22058 22061 21897; CX 22062 22056 21823;
  CX 21799 21807 21590; CX 22102 22103 21951; CX 22104 22100 21871; CA 22056 22139 21270; CA 22056 22140 21714; CA 22054 22143 21273; CA 22054 22144 21721; CX 22060 22148 22019;
  CX 22062 22149 22017; CI 21891 22021; CA 22166 22167 21215; CA 22166 22174 21437; CI 22026 22031; CA 22100 22177 21748; CA 22100 22178 21314; CX 22104 22180 22036;
  CX 22179 22103 21873; CA 22192 22193 21972; CA 22192 22195 21540; CA 22206 22207 22014; CA 22206 22226 21787; CX 22261 22262 22063; CI 22058 22065; CA 22103 22272 21747;
  CA 22103 22273 21736; CA 22275 22276 21313; CA 22275 22280 21975; CA 22288 22289 21217; CA 22288 22314 21434; CX 22320 22321 22141; CX 22320 22322 22052; CX 22343 22262 22027;
  CX 22347 22348 22078; CX 22352 22353 21850; CX 22356 22348 22074; CX 22358 22348 22092; CX 22359 22348 22091; CX 22360 22361 22059; CI 22149 22163; CI 22148 22168;
  CX 22362 22363 21920; CX 22364 22363 22084; CX 22352 22366 22093; CA 22370 22371 21654; CA 22370 22372 22106; CI 22180 22190; CX 22385 22386 22215; CX 22385 22391 22123;
  CA 22320 22406 21488; CA 22320 22407 21931; CX 22321 22408 22053; CX 22322 22408 22253; CX 22409 22410 22153; CX 22411 22412 21915; CX 22413 22412 21913; CX 22366 22353 21852;
  CX 22414 22410 22085; CX 22415 22410 22159; CX 22416 22410 22151; CX 22417 22418 22057; CX 22419 22420 22055; CX 22423 22424 22239; CX 22413 22411 22160; CX 22427 22369 22161;
  CX 22428 22362 22157; CI 22061 22241; CI 22062 22243; CI 22060 22250; CA 22262 22429 21869; CA 22262 22430 21853; CA 22431 22432 21439; CA 22431 22433 22107;
  CX 22435 22436 22101; CI 22104 22277; CA 22385 22461 22007; CA 22385 22464 21572; CX 22468 22386 22124; CX 22391 22468 22308; CA 22482 22483 21928; CA 22484 22485 21711;
  CA 22484 22486 22264; CA 22482 22487 21917; CA 22408 22488 22266; CA 22321 22489 21930; CA 22321 22490 21916; CA 22408 22491 21709; CX 22494 22365 22269; CA 22509 22510 21435;
  CA 22509 22511 22267; CA 22386 22518 22005; CA 22386 22524 21999; CA 22468 22529 21786; CA 22468 22531 22336; CX 22544 22350 22077; CI 22482 22324; CX 22270 22549 21854;
  CX 22551 22544 22349; CX 22552 22549 22268; CX 22553 22427 22368; CX 22554 22494 22351; CX 22555 22556 22346; CA 22391 22575 22335; CA 22391 22576 21574; CX 22721 22722 22626;
  CX 22554 22556 21858; CA 22729 22730 22566; CA 22729 22731 22564; CA 22770 22771 21960; CA 22770 22772 22444; CX 22187 22188 22184; CX 22778 22779 22110; CX 22779 22635 21739;
  CI 22722 22775; CX 21463 21464 21249; CX 21465 21463 21049; CX 21466 21463 21237; CX 21467 21464 21238; CX 21468 21464 21246; CX 21469 21464 21243; CX 21470 21239 21242;
  CX 21471 21472 21245; CX 21473 21472 21050; CX 21465 21466 21247; CX 21547 21548 21363; CX 21551 21552 21359; CX 21553 21554 21388; CX 21557 21551 21326; CX 21558 21551 21136;
  CX 21559 21547 21328; CX 21561 21553 21332; CX 21563 21553 21142; CX 21566 21547 21134; CX 21567 21552 21327; CX 21568 21548 21329; CX 21569 21552 21361; CX 21570 21548 21364;
  CX 21577 21548 21357; CX 21578 21554 21376; CX 21579 21554 21379; CX 21580 21552 21397; CX 21581 21554 21333; CX 21582 21341 21360; CX 21583 21345 21378; CX 21566 21559 21365;
  CX 21584 21585 21369; CX 21589 21585 21147; CX 21591 21592 21375; CX 21563 21561 21377; CX 21597 21592 21149; CX 21598 21342 21356; CX 21600 21601 21131; CX 21604 21601 21396;
  CX 21558 21557 21398; CX 21410 21614 21009; CX 21615 21616 21182; CX 21617 21618 21184; CX 21619 21618 21177; CX 21620 21614 21409; CX 21621 21616 21403; CX 21622 21623 21402;
  CX 21624 21619 21404; CX 21716 21153 21507; CA 21749 21750 21608; CA 21749 21751 21506; CX 21752 21324 21366; CX 21756 21757 21370; CX 21593 21758 21163; CX 21773 21757 21560;
  CX 21775 21776 21393; CX 21781 21758 21587; CX 21793 21776 21343; CX 21798 21154 21603; CX 21799 21793 21562; CX 21805 21605 21594; CX 21806 21807 21550; CX 21872 21873 21723;
  CA 21877 21878 21668; CA 21877 21879 21460; CA 21897 21898 21513; CA 21897 21899 21717; CA 21951 21952 21112; CA 21951 21954 21538; CX 21316 21313 21306; CX 21747 21972 21532;
  CX 21975 21972 21235; CX 22014 21217 21656; CA 22017 22018 21078; CA 22019 22020 21076; CA 22021 22022 21609; CA 22021 22023 21607; CA 22017 22024 21269; CA 22019 22025 21268;
  CI 21821 21831; CI 21823 21829; CX 22026 22027 21827; CA 22031 22032 21813; CA 22031 22033 21613; CA 22036 22037 21111; CA 22036 22040 21312; CI 21871 21875;
  CX 22052 22053 21905; CX 22054 22055 21894; CX 22056 22057 21892; CX 22058 22059 21903; CA 22063 22064 21214; CA 22065 22066 21722; CA 22063 22067 21653; CA 22065 22068 21211;
  CX 22073 22074 21867; CX 22075 22074 21851; CX 22078 22079 21865; CX 22082 22074 21849; CX 22083 22074 21863; CX 22084 22085 21837; CX 22092 22093 21841; CX 21438 21439 21427;
  CX 22100 22101 21949; CX 21869 22106 21650; CX 22107 22106 21400; CI 21873 21969; CX 22123 22124 21984; CA 22141 22142 21275; CA 22052 22145 21707; CA 22141 22146 21706;
  CA 22052 22147 21932; CX 22148 22055 21822; CX 22149 22057 21824; CX 22150 22151 21921; CX 22152 22151 21914; CX 22153 22154 21919; CX 22155 22151 21923; CX 22156 22151 21912;
  CX 22157 22158 21925; CX 22159 22160 21910; CX 22161 22162 21927; CX 21488 21487 21482; CX 21436 21435 21429; CA 22163 22164 21508; CA 22163 22165 21946; CA 22168 22169 21505;
  CA 22168 22170 21947; CX 22180 22101 21870; CA 22190 22191 21974; CA 22190 22194 21537; CA 22215 22216 21780; CA 22123 22220 21785; CA 22215 22224 21349; CA 22123 22225 22010;
  CX 21572 21574 21555; CA 22057 22237 21715; CA 22057 22238 21698; CA 22239 22240 21874; CA 22241 22242 22028; CA 22243 22244 21271; CA 22055 22245 21713; CA 22055 22249 21697;
  CA 22250 22251 21272; CA 22053 22252 21718; CA 22253 22254 21486; CA 22243 22255 21945; CA 22241 22256 21210; CA 22250 22257 21948; CA 22253 22258 21276; CA 22053 22259 21720;
  CA 22239 22260 21512; CX 22264 21928 21699; CX 22265 22266 21502; CX 21930 22266 21702; CX 22267 22264 21444; CI 22027 22097; CI 22059 22094; CX 22268 22269 21860;
  CX 22270 22269 22034; CA 22101 22271 21745; CA 22101 22274 21735; CA 22277 22278 21317; CA 22277 22279 21973; CA 22124 22305 21801; CA 22124 22306 21797; CA 22308 22309 21352;
  CA 22308 22311 21576; CX 22323 22324 22136; CX 22335 22336 21588; CX 22005 22336 21754; CX 22324 22344 22171; CX 22345 22346 22076; CX 22349 22350 21848; CX 22351 22350 21846;
  CX 22354 22346 22035; CX 22355 22346 22086; CX 22357 22346 22071; CI 22239 22069; CX 22351 22349 22087; CX 22365 22268 22088; CX 22367 22368 22090; CX 22369 22368 21866;
  CX 22564 22565 21963; CX 22566 21961 22189; CA 22626 22627 22377; CA 22626 22632 22447; CX 22633 22184 21530; CX 22634 21960 22434; CX 22444 22635 22443; CA 22775 22776 22446;
  CA 22775 22777 22448; CX 22206 22171 21825; CX 21237 21238 21003; CX 21239 21238 21051; CX 21240 21238 21048; CX 21241 21238 21054; CX 21242 21243 21004; CX 21244 21245 21052;
  CX 21246 21247 20935; CX 21248 21249 20924; CX 21326 21327 20937; CX 21328 21329 21126; CX 21332 21333 20936; CX 21341 21327 21148; CX 21342 21329 21132; CX 21345 21333 21150;
  CX 21346 21329 21156; CX 21347 21327 21135; CX 21351 21333 21166; CX 21353 21333 21141; CX 21354 21327 21158; CX 21355 21329 21133; CX 21356 21357 21128; CX 21358 21359 20889;
  CX 21360 21361 20887; CX 21362 21363 20990; CX 21364 21365 21127; CX 21368 21369 20952; CX 21374 21375 20948; CX 21376 21377 20933; CX 21378 21379 20886; CX 21387 21388 20888;
  CX 21395 21396 21151; CX 21397 21398 20932; CX 21401 21402 21183; CX 21403 21401 21175; CX 21404 21401 21006; CX 21405 21402 21181; CX 21406 21402 21176; CX 21407 21402 21186;
  CX 21408 21409 21007; CX 21404 21403 21187; CX 21410 21177 21180; CX 21411 21409 21185; CX 21506 21507 21152; CX 21509 21507 21167; CX 21549 21550 21371; CX 21560 21549 21330].
(** Lines 12405-12804 of the file. *)
Definition aes128_31 : list cg := [
  CX 21562 21549 21140; CX 21571 21550 21331; CX 21573 21550 21372; CX 21575 21550 21381; CX 21586 21587 21137; CX 21562 21560 21373; CX 21590 21587 21394; CX 21593 21343 21380;
  CX 21296 21594 21000; CX 21602 21603 21159; CX 21605 21603 21337; CX 21606 21594 21367; CX 21607 21506 21336; CX 21608 21609 21325; CX 21668 21113 21461; CA 21723 21724 21462;
  CA 21723 21728 21544; CX 21736 21306 21323; CX 21746 21112 21533; CX 21747 21538 21536; CX 21787 21656 21289; CX 21607 21609 21386; CX 21813 21215 21612; CX 21821 21822 21682;
  CX 21823 21824 21680; CA 21825 21826 21655; CA 21827 21828 21611; CA 21829 21830 21662; CA 21831 21832 21657; CA 21827 21833 21663; CA 21825 21834 21660; CA 21829 21835 21450;
  CA 21831 21836 21447; CX 21837 21838 18496; CX 21841 21842 18640; CX 21849 21850 21641; CX 21851 21852 18915; CX 21853 21427 21442; CX 21862 21863 21643; CX 21864 21865 19123;
  CX 21866 21867 21647; CX 21211 21210 21202; CX 21868 21214 21651; CX 21869 21653 21652; CX 21870 21871 21725; CA 21875 21876 21667; CA 21875 21880 21459; CA 21892 21893 21077;
  CA 21894 21895 21075; CA 21892 21896 21511; CA 21894 21902 21514; CA 21903 21904 21510; CA 21905 21906 21719; CA 21905 21907 21710; CA 21903 21909 21027; CX 21910 21911 18578;
  CX 21912 21913 21693; CX 21914 21915 18848; CX 21916 21482 21500; CX 21917 21429 21498; CX 21918 21919 19063; CX 21920 21921 21695; CX 21922 21923 21691; CX 21924 21925 19335;
  CX 21926 21927 19447; CX 21930 21706 21701; CX 21273 21272 21258; CX 21931 21275 21703; CX 21270 21271 21260; CX 21932 21276 21708; CX 21945 21946 21221; CX 21713 21947 21496;
  CX 21715 21946 21493; CX 21948 21947 21220; CA 21949 21950 21110; CA 21949 21953 21539; CX 21314 21317 21304; CA 21969 21970 21546; CA 21969 21971 21545; CX 21973 21974 21236;
  CX 21745 21974 21534; CA 21984 21985 21800; CA 21984 21990 21782; CX 21999 21555 21599; CX 22005 21780 21759; CX 22007 21349 21755; CX 22010 21352 21783; CX 22028 21874 21219;
  CX 21718 21720 21503; CX 22034 22035 21811; CX 21797 21801 21595; CX 22061 22069 21935; CI 21822 21942; CI 21824 21938; CX 22069 22059 21933; CX 22070 22071 21847;
  CX 22072 22071 21861; CX 22076 22077 21857; CX 22080 22071 21845; CX 22081 22071 21855; CX 22086 22087 21839; CX 22088 22089 21859; CX 22090 22091 21843; CA 22094 22095 21649;
  CA 22094 22096 21712; CA 22097 22098 21658; CA 22097 22099 21664; CI 21870 21966; CA 22136 22137 21216; CA 22136 22138 21705; CA 22171 22172 21661; CA 22171 22173 21659;
  CX 22377 22189 22109; CX 22434 22184 21959; CX 22110 22443 21741; CX 22444 22434 22183; CX 22445 22443 22108; CX 22446 22377 22185; CX 22447 22448 22182; CX 22446 22448 21737;
  CX 21897 21933 21625; CX 21048 21049 20896; CX 21050 21051 20898; CX 21053 21054 20498; CX 21127 20932 20635; CX 20887 21128 20634; CX 20937 21126 20861; CX 21131 21132 20804;
  CX 21133 21134 20983; CX 21135 21136 20835; CX 21141 21142 20982; CX 21147 21148 20615; CX 21149 21150 20672; CX 21151 20952 20820; CX 21155 21156 20985; CX 21157 21158 20846;
  CX 21165 21166 20992; CX 21175 21176 20353; CX 21177 21176 21008; CX 21178 21176 21005; CX 21179 21176 21010; CX 21180 21181 20781; CX 21182 21183 20784; CX 21184 21185 20875;
  CX 21186 21187 20873; CI 21126 21058; CI 20990 21062; CI 21127 21063; CI 21151 21064; CX 21296 21152 21083; CX 21324 21325 21160; CX 21330 21331 20993;
  CX 21336 21324 20996; CX 21337 21324 21129; CX 21338 21325 21130; CX 21339 21325 21161; CX 21340 21325 21084; CX 21343 21331 21138; CX 21348 21331 21139; CX 21350 21331 21164;
  CX 21366 21367 20997; CX 21370 21371 20989; CX 21372 21373 20885; CX 21380 21381 20939; CX 21386 21367 21168; CX 21393 21394 20999; CX 21336 21337 21162; CX 21460 21461 21122;
  CX 21462 21461 21108; CX 21532 21533 21124; CX 21235 21536 20980; CX 21538 21533 21309; CX 21540 21536 21319; CX 21544 21545 21307; CX 21546 21462 21311; CX 21611 21612 21213;
  CX 21613 21612 21222; CA 21625 21626 21454; CA 21625 21627 21448; CX 18915 21629 18381; CX 18496 21630 18292; CX 18640 21633 18385; CX 19123 21635 18383; CX 21641 21642 18390;
  CX 21643 21644 18392; CX 21647 21648 18913; CX 21649 21202 21279; CX 21650 21651 21224; CX 21400 21652 21033; CX 21653 21651 21431; CX 21654 21652 21441; CX 21655 21656 21212;
  CX 21657 21076 21446; CX 21658 21611 21432; CX 21659 21655 21433; CX 21660 21661 21430; CX 21662 21078 21451; CX 21663 21664 21428; CX 21667 21111 21458; CA 21680 21681 21452;
  CA 21682 21683 21445; CA 21680 21684 21515; CA 21682 21685 21518; CX 18848 21686 18342; CX 21687 19063 18343; CX 18578 21688 18344; CX 19447 21689 18388; CX 19335 21690 18295;
  CX 21691 21692 18348; CX 21693 21694 18350; CX 21695 21696 18850; CX 21697 21258 21277; CX 21698 21260 21293; CX 21502 21701 21091; CX 21702 21703 21287; CX 21706 21703 21485;
  CX 21707 21708 21294; CX 21709 21701 21501; CX 21710 21708 21274; CX 21712 21510 21491; CX 21713 21514 21492; CX 21714 21077 21494; CX 21715 21511 21495; CX 21718 21710 21484;
  CX 21719 21720 21483; CX 21721 21075 21497; CX 21722 21027 21490; CA 21725 21726 21457; CA 21725 21727 21541; CX 21735 21304 21320; CX 21745 21539 21531; CX 21748 21110 21535;
  CX 21546 21545 21318; CX 21754 21755 21384; CX 21588 21759 21169; CX 21780 21755 21565; CX 21782 21783 21344; CX 21785 21783 21389; CX 21786 21759 21596; CX 21797 21782 21564;
  CX 21800 21801 21556; CX 21811 21812 18415; CX 21839 21840 18498; CX 21843 21844 18638; CX 21845 21846 21637; CX 21847 21848 18754; CX 21854 21855 21639; CX 21856 21857 18999;
  CX 21858 21859 19292; CX 21860 21861 21645; CX 21658 21664 21440; CX 21712 21874 21489; CX 21705 21928 21704; CX 21929 21216 21700; CA 21933 21934 21453; CA 21935 21936 21028;
  CA 21935 21937 21209; CA 21938 21939 21517; CA 21938 21940 21516; CA 21933 21941 21455; CA 21942 21943 21519; CA 21942 21944 21520; CX 21659 21661 21504; CA 21966 21967 21543;
  CA 21966 21968 21542; CX 22108 22109 21743; CX 22110 22109 21881; CX 22181 22182 21958; CX 22183 22184 21734; CX 22185 22184 21732; CX 22186 22182 21956; CX 22187 22182 21964;
  CX 22188 22182 21882; CX 22189 22108 21962; CX 22185 22183 21965; CX 20898 20896 20824; CX 20498 20896 20823; CX 20924 20896 20604; CX 20804 20983 20881; CX 20672 20982 20666;
  CX 20615 20835 20883; CX 20985 20983 20878; CX 20990 20983 20882; CX 20933 20982 20737; CX 20888 20982 20665; CX 20932 20835 20611; CX 20889 20835 20884; CX 20992 20982 20653;
  CX 20846 20835 20599; CX 20875 20873 20845; CX 21005 21006 20841; CX 21007 21008 20438; CX 21009 21010 20897; CX 21058 18388 20620; CX 21058 18342 20288; CX 21062 18343 20414;
  CX 21063 18344 20707; CX 18295 21064 20621; CX 18385 21064 20638; CI 20804 20931; CI 20983 20927; CI 20835 20879; CI 20982 20655; CX 21083 21084 20747;
  CX 20933 20885 20891; CX 20888 20989 20227; CX 18292 21128 20282; CX 20936 20993 20545; CX 20939 20886 20550; CX 21129 21130 20449; CX 21137 21138 20880; CX 21139 21140 20876;
  CX 21152 21130 20998; CX 21153 21130 21001; CX 21154 21130 20995; CX 21159 21160 20755; CX 21161 21162 20690; CX 20948 20999 20892; CX 21163 21164 20473; CI 20875 20994;
  CX 21167 21168 20848; CX 21235 21108 21044; CX 21306 21307 21125; CX 21309 21306 21106; CX 21311 21306 20973; CX 21313 21307 21045; CX 21315 21307 21107; CX 21316 21307 21120;
  CX 21311 21309 21121; CX 21318 21319 21123; CX 21323 21319 20970; CX 21400 21213 21173; CX 18381 21413 18199; CX 18390 21416 18202; CX 18392 21418 18203; CX 18913 21419 18201;
  CX 18292 21420 18105; CX 18385 21423 18209; CX 21425 18383 18207; CX 21427 21428 21225; CX 21429 21430 21229; CX 21431 21427 21206; CX 21432 21427 21023; CX 21433 21429 21021;
  CX 21434 21430 21205; CX 21435 21430 21231; CX 21436 21430 21232; CX 21437 21428 21207; CX 21438 21428 21226; CX 21439 21428 21174; CX 21440 21441 21223; CX 21442 21441 21018;
  CX 21444 21212 21230; CX 21432 21431 21227; CX 21445 21446 21073; CX 21447 21446 21081; CX 21450 21451 21093; CX 21452 21451 21074; CX 21453 21448 21208; CX 21454 21455 21203;
  CX 21457 21458 21109; CX 21459 21458 21116; CX 21474 18342 18169; CX 18350 21475 18171; CX 21476 18348 20987; CX 18850 21477 18170; CX 21478 18344 18174; CX 18343 21479 18173;
  CX 21480 18295 18108; CX 18388 21481 18212; CX 21482 21483 21288; CX 21484 21482 21072; CX 21485 21482 21262; CX 21486 21483 21263; CX 21487 21483 21286; CX 21488 21483 21291;
  CX 21489 21490 21031; CX 21219 21491 20919; CX 21220 21492 20950; CX 21493 21494 21087; CX 21221 21495 20953; CX 21496 21497 21089; CX 21484 21485 21292; CX 21500 21501 21069;
  CX 21502 21274 21285; CX 21503 21501 21295; CX 21505 21492 21278; CX 21508 21495 21284; CX 21510 21490 21218; CX 21511 21494 21266; CX 21512 21491 21280; CX 21514 21497 21264;
  CX 21515 21516 21261; CX 21517 21452 21267; CX 21518 21519 21259; CX 21520 21445 21265; CX 21236 21531 20977; CX 21534 21535 21118; CX 21537 21531 21321; CX 21539 21535 21310].
(** Lines 12805-13204 of the file. *)
Definition aes128_32 : list cg := [
  CX 21541 21542 21305; CX 21543 21457 21308; CX 21555 21556 21385; CX 21564 21555 21146; CX 21565 21555 21334; CX 21572 21556 21391; CX 21574 21556 21383; CX 21576 21556 21335;
  CX 21588 21344 21382; CX 21595 21596 21390; CX 21564 21565 21392; CX 21599 21596 21143; CX 18415 21610 18219; CX 18754 21628 18291; CX 21631 18498 18294; CX 18999 21632 18293;
  CX 21634 18638 18384; CX 19292 21636 18296; CX 21637 21638 18300; CX 21639 21640 18298; CX 21645 21646 18756; CX 21699 21700 21228; CX 21444 21704 21039; CX 21705 21700 21443;
  CX 21711 21704 21499; CX 21717 21028 21449; CX 21517 21516 21283; CX 21520 21519 21281; CX 21453 21455 21282; CX 21543 21542 21322; CX 21881 21882 21665; CX 21955 21956 21733;
  CX 21957 21956 21744; CX 21958 21959 21740; CX 21960 21956 21731; CX 21961 21956 21742; CX 21962 21963 21738; CX 21964 21965 21729; CX 18384 20878 20280; CX 20878 20599 20764;
  CX 20879 20878 20745; CX 20881 18383 20409; CX 20882 18381 20287; CX 20881 20883 20762; CX 20882 20884 20751; CX 20861 20884 20664; CX 20886 20653 20739; CX 20887 20599 20462;
  CX 20888 20666 20741; CX 20889 20883 20464; CX 20438 20841 20777; CX 20897 20841 20676; CX 20438 20781 20691; CX 20784 20841 20776; CX 20873 20841 20660; CX 18203 20927 20401;
  CX 18171 20927 20458; CX 20931 18170 20480; CX 20939 20747 20486; CX 20982 20876 20744; CX 20880 20672 20758; CX 20473 20876 20731; CX 20880 20876 20735; CX 20985 20987 20416;
  CX 20885 20690 20860; CX 20989 20755 20484; CX 20989 20876 20663; CX 20848 20690 20890; CX 20992 20473 20748; CX 20993 20449 20477; CX 20994 20353 20851; CX 20848 20449 20893;
  CX 20995 20996 20877; CX 20997 20998 20453; CX 20999 20848 20859; CX 21000 21001 20327; CX 21044 21045 20904; CI 20227 20226; CI 20892 20850; CX 21106 21107 20958;
  CX 21108 21107 20971; CX 21112 21107 20972; CX 21113 21107 20981; CX 21120 21121 20909; CX 21122 21123 20964; CX 21124 21125 20870; CX 18219 21128 20319; CX 18201 21128 20428;
  CX 20990 18293 20183; CX 21127 18202 20412; CX 21173 21174 20922; CX 21189 18202 17991; CX 18203 21191 17992; CX 18201 21192 17990; CX 21194 18199 17996; CX 21196 18207 17998;
  CX 18209 21198 18000; CX 18105 21199 17890; CX 21202 21203 21032; CX 21206 21207 20963; CX 21208 21202 20918; CX 21209 21203 21017; CX 21210 21203 21038; CX 21211 21203 21041;
  CX 21212 21205 21025; CX 21213 21207 21019; CX 21214 21207 21022; CX 21215 21207 21034; CX 21216 21205 21020; CX 21217 21205 21040; CX 21208 21218 21042; CX 21220 21073 21029;
  CX 21221 21074 21035; CX 21222 21223 20979; CX 21224 21225 20908; CX 21226 21227 20965; CX 21228 21229 20812; CX 21230 21231 20811; CX 21236 21109 21046; CX 18171 21250 17958;
  CX 21251 18170 17957; CX 21252 20987 17956; CX 21253 18169 17959; CX 21254 18173 17960; CX 18174 21255 17961; CX 18108 21256 17891; CX 21257 18212 18003; CX 21258 21259 21090;
  CX 21260 21261 21088; CX 21262 21263 20406; CX 21264 21258 21065; CX 21265 21258 20943; CX 21218 21202 21016; CX 21266 21260 21067; CX 21267 21260 20947; CX 21268 21259 21066;
  CX 21269 21261 21068; CX 21270 21261 21085; CX 21271 21261 21036; CX 21272 21259 21030; CX 21273 21259 21095; CX 21274 21263 21070; CX 21275 21263 21071; CX 21276 21263 21092;
  CX 21277 21278 20940; CX 21279 21280 20915; CX 21265 21264 21096; CX 21281 21278 21082; CX 21282 21280 21080; CX 21283 21284 21094; CX 21267 21266 21086; CX 21285 21286 20831;
  CX 21287 21288 20832; CX 21291 21292 20688; CX 21293 21284 20944; CX 21294 21295 20874; CX 21304 21305 21119; CX 21308 21304 20967; CX 21310 21304 21104; CX 21312 21305 21105;
  CX 21314 21305 21114; CX 21317 21305 21047; CX 21320 21321 20968; CX 21322 21321 21117; CX 21308 21310 21115; CX 21334 21335 20961; CX 21344 21335 21144; CX 21349 21335 21145;
  CX 21352 21335 21170; CX 21382 21383 20921; CX 21384 21385 20991; CX 21389 21390 20976; CX 21391 21392 20959; CX 18219 21399 18023; CX 21412 18291 18101; CI 20987 18172;
  CX 18300 21414 18103; CX 18298 21415 20988; CX 18756 21417 18104; CX 21421 18293 18106; CX 21422 18294 18107; CX 18384 21424 18208; CX 21426 18296 18109; CX 21433 21443 21233;
  CX 21448 21449 21026; CX 21443 21429 21204; CX 21498 21499 21024; CX 21504 21499 21290; CX 21513 21449 21079; CX 21665 21666 18580; CX 21729 21730 18642; CX 21731 21732 21525;
  CX 21733 21734 18916; CX 21737 21738 19367; CX 21739 21740 19125; CX 21741 21742 21527; CX 21743 21744 21529; CX 20776 20353 20576; CX 20781 20676 20579; CX 20777 20784 20563;
  CX 20823 20831 20565; CX 20824 20832 20573; CX 20486 20758 20630; CX 20876 20877 20756; CX 20453 20877 20736; CX 20880 20453 20759; CX 20327 20877 20732; CX 20327 20876 20733;
  CX 20747 20453 20757; CX 20755 20877 20734; CX 20690 20877 20743; CX 20885 20877 20738; CX 20731 20747 20740; CX 20735 20755 20742; CX 20860 20744 20606; CX 20890 20891 20765;
  CX 20477 20892 20749; CX 20893 20892 20753; CX 20859 20891 20767; CX 20811 20904 20792; CX 20904 17890 20523; CX 18003 20958 20828; CX 20958 17959 20440; CX 17960 20870 20648;
  CX 20909 17961 20797; CX 20964 17891 20830; CX 20964 18000 20794; CX 20970 20971 20839; CX 20972 20973 20865; CX 20980 20981 20868; CX 18103 20983 20418; CX 20988 20985 20403;
  CX 20922 20781 20513; CX 20908 20784 20515; CX 20963 20353 20506; CX 21004 20811 20652; CX 20965 20873 20728; CX 20979 20875 20853; CX 18003 18000 20595; CX 21012 17991 17784;
  CX 21013 17992 17785; CX 17990 21015 17788; CX 17960 17890 20799; CX 21016 21017 20455; CX 21018 21019 20866; CX 21020 21021 20713; CX 21022 21023 20863; CX 21024 21025 20670;
  CX 21026 21017 20916; CX 21027 21017 20917; CX 21028 21017 20920; CX 21029 21030 20914; CX 21031 21032 20625; CX 21033 21034 20872; CX 21035 21036 20903; CX 21039 21040 20899;
  CX 21041 21042 20627; CX 21046 21047 20724; CX 20935 20688 20795; CX 20924 20832 20519; CX 21003 20406 20508; CX 21004 20831 20517; CX 21052 20874 20857; CX 17891 17961 20593;
  CX 17958 21055 17749; CX 21056 17956 19728; CX 21057 17957 20869; CX 20874 20688 20900; CX 20874 20406 20925; CX 21065 21066 20911; CX 21067 21068 20928; CX 21069 21070 20451;
  CX 21071 21072 20923; CX 21073 21066 20941; CX 21074 21068 20945; CX 21075 21066 20942; CX 21076 21066 20951; CX 21077 21068 20946; CX 21078 21068 20954; CX 21079 21080 20910;
  CX 21081 21082 20949; CX 21085 21086 20934; CX 21087 21088 20842; CX 21089 21090 20844; CX 21091 21092 20359; CX 21093 21094 20938; CX 21095 21096 20810; CX 21104 21105 20960;
  CX 21109 21105 20969; CX 21110 21105 20966; CX 21111 21105 20978; CX 21114 21115 20726; CX 21116 21117 20975; CX 21118 21119 20727; CX 19447 20961 20678; CX 18916 20961 20355;
  CX 18642 20959 20700; CX 20921 18496 20390; CX 18498 20959 20521; CX 18390 20959 20471; CX 18913 20921 20475; CX 19125 20991 20202; CX 19063 20991 20567; CX 18999 20991 20201;
  CX 19367 20976 20686; CX 19335 20976 20624; CX 18640 20976 20696; CX 21143 21144 20822; CX 21145 21146 20864; CX 21169 21170 20984; CI 17890 20834; CX 21172 18023 17804;
  CI 20812 20986; CX 18103 21188 17885; CX 21190 18104 17886; CX 21193 18101 17887; CX 21195 18106 17888; CX 18107 21197 17889; CX 18208 21200 18002; CX 18109 21201 17892;
  CX 21204 21205 20962; CX 21219 21026 21037; CX 21232 21233 20907; CI 20961 21059; CI 20921 21060; CI 20959 21061; CX 21289 21290 20974; CI 20988 18102;
  CX 18580 21456 18345; CX 18916 21521 18382; CX 18642 21522 18387; CX 19125 21523 18386; CX 19367 21524 18346; CX 21525 21526 18394; CX 21527 21528 18396; CX 21529 21530 18918;
  CX 20731 20732 20549; CX 20733 20653 20529; CX 20734 20449 20548; CX 20734 20663 20544; CX 20735 20736 20534; CX 20737 20738 20538; CX 20739 20740 20526; CX 20741 20742 20225;
  CX 20743 20744 20542; CX 20747 20732 20551; CX 20748 20732 20531; CX 20736 20755 20469; CX 20748 20756 20536; CX 20757 20758 20552; CX 20652 20839 20669; CX 20839 20865 20715;
  CX 17785 20865 20559; CX 20868 20865 20711; CX 20869 20839 20589; CX 20870 20865 20716; CX 20841 20863 20694; CX 20896 20713 20780; CX 20897 20872 20693; CX 20898 20670 20786;
  CX 20866 20438 20789; CX 20897 20863 20656; CX 20899 20498 20782; CX 17996 17784 19546; CX 17996 17788 19406; CX 17788 17784 19493; CX 20670 20713 20717; CX 20866 20863 20778;
  CX 20872 20863 20775; CX 20810 20627 20701; CX 20844 20625 20763; CX 20886 20903 20760; CX 18105 20903 20377; CX 18023 20903 20527; CX 17990 20903 20553; CX 20904 17788 20587;
  CX 20907 20713 20807; CX 20812 20713 20718; CX 20908 20863 20502; CX 20909 17784 20569; CX 20910 20627 20813; CX 20911 20455 20752; CX 20899 20713 20712; CX 20910 20455 20815;
  CX 20914 20887 20425; CX 20915 20916 20408; CX 20917 20918 20800; CX 20919 20920 20547; CX 20724 20921 20788; CX 17804 20904 20385; CX 20922 20724 20580; CX 20896 20923 20787;
  CX 20898 20451 20791; CX 20359 20896 20774; CX 20869 17959 19405; CX 20593 19728 19843; CX 20451 20923 20825; CX 20359 20923 20783; CX 18212 20928 20754; CX 18169 20928 20372].
(** Lines 13205-13604 of the file. *)
Definition aes128_33 : list cg := [
  CX 20810 20932 20814; CX 20933 20934 20761; CX 20451 20831 20785; CX 20688 20923 20779; CX 20832 20923 20826; CX 20934 18174 20768; CX 20842 18106 20313; CX 20935 20923 20808;
  CX 20934 17991 20543; CX 20936 20928 20843; CX 20911 20937 20422; CX 20938 18108 20750; CX 20940 20941 20803; CX 20942 20943 20801; CX 20944 20945 20836; CX 20946 20947 20837;
  CX 20948 20938 20847; CX 20949 20910 20856; CX 20950 20951 20746; CX 20949 20952 20816; CX 20953 20954 20838; CX 20908 20727 20254; CX 20907 20909 20833; CX 20726 20959 20790;
  CX 17888 20870 20272; CX 20960 20961 20723; CX 20962 20958 20809; CX 20960 20963 20577; CX 20965 20726 20840; CX 20966 20967 20862; CX 20968 20969 20644; CX 20974 20964 20858;
  CX 20975 20976 20855; CX 20977 20978 20871; CX 20975 20979 20852; CX 18392 20864 20442; CX 18394 20864 20561; CX 20822 20864 20722; CX 20984 20864 20714; CX 18918 20822 20583;
  CX 18396 20984 20457; CX 18298 20984 20446; CX 20986 20924 20292; CX 20991 20864 20720; CI 20853 20854; CI 17785 19795; CI 17788 20895; CX 20935 20907 20901;
  CX 21003 20962 20650; CX 17892 17889 20594; CI 17749 20867; CX 21011 17885 17686; CI 19728 17748; CI 20869 17750; CX 21014 17886 17687; CI 20910 20913;
  CI 20934 20906; CX 21037 21038 20617; CI 20842 20905; CI 20844 20902; CI 20938 20912; CX 21052 20974 20849; CX 21059 18848 20394; CX 18580 21060 20349;
  CX 18415 21060 20351; CX 21061 18578 20698; CX 21063 18387 20636; CX 18346 21064 20681; CI 20822 20929; CI 20864 20926; CI 20984 20930; CI 17804 20710;
  CX 21126 18382 20533; CX 18345 21128 20525; CX 20990 18386 20314; CX 18102 21171 17803; CI 18002 20769; CX 18345 21234 18175; CX 21297 18382 18200; CX 18394 21298 18205;
  CX 18396 21299 18206; CX 18918 21300 18204; CX 21301 18387 18211; CX 21302 18386 18210; CX 21303 18346 18176; CX 20526 20527 20153; CX 20542 20543 20214; CX 20544 20545 20371;
  CX 20548 20545 20374; CX 20549 20550 20376; CX 20551 20550 20369; CX 20552 20553 20252; CX 20576 20577 20391; CX 20579 20580 20387; CX 20669 20670 20450; CX 20711 20712 20516;
  CX 18002 20711 20444; CX 20711 20713 20499; CX 17998 20715 20494; CX 20716 17996 20466; CX 20717 20715 20518; CX 20716 20718 20507; CX 20745 20746 20546; CX 20749 20750 20400;
  CX 20751 20752 20532; CX 20753 20754 20368; CX 20759 20760 20554; CX 20761 20756 20540; CX 20762 20763 20223; CX 20767 20768 20399; CX 20774 20712 20556; CX 20775 20676 20581;
  CX 20777 20778 20566; CX 20776 20502 20578; CX 20779 20780 20568; CX 20782 20783 20558; CX 20785 20786 20586; CX 20782 20787 20570; CX 20788 20789 20582; CX 20790 20694 20560;
  CX 20791 20792 20584; CX 20795 20780 20574; CX 20517 20786 20588; CX 20800 20801 20632; CX 20408 20800 20609; CX 20803 20408 20633; CX 20547 20800 20597; CX 20547 20801 20598;
  CX 20804 20425 20614; CX 20617 20408 20628; CX 20807 20808 20607; CX 20625 20800 20600; CX 20627 20800 20601; CX 20809 20718 20603; CX 20810 20800 20612; CX 20778 20784 20504;
  CX 20775 20781 20497; CX 20811 20712 20564; CX 20812 20717 20572; CX 20813 20814 20639; CX 20815 20816 20619; CX 20816 20752 20622; CX 20820 20701 20637; CX 20580 20822 20643;
  CX 20823 20783 20651; CX 20824 20825 20647; CX 20604 20826 20649; CX 20833 20787 20645; CX 20834 19843 19844; CX 19843 17959 19727; CX 20835 20801 20602; CX 20836 20837 20658;
  CX 17885 20837 20539; CX 20803 20615 20629; CX 20746 20801 20596; CX 20803 20801 20610; CX 20838 20837 20654; CX 20836 20550 20671; CX 20840 20841 20667; CX 20826 20406 20673;
  CX 20838 17956 20537; CX 20842 20837 20659; CX 20831 20783 20674; CX 20843 20665 20662; CX 20844 20801 20613; CX 20825 20832 20495; CX 20845 20840 20695; CX 20846 20746 20618;
  CX 20847 20848 20709; CX 20833 20849 20687; CX 20850 20761 20689; CX 20851 20852 20677; CX 20853 20840 20697; CX 20854 20723 20685; CX 20728 20855 20699; CX 20856 20814 20708;
  CX 20809 20857 20679; CX 20858 20795 20703; CX 20859 20843 20683; CX 20860 20847 20706; CX 20861 20856 20682; CX 20862 20863 20661; CX 20862 20864 20668; CX 20644 20866 20692;
  CX 17686 20865 20608; CX 20867 20865 20575; CX 20644 20862 20721; CX 20868 17748 20571; CX 20727 20862 20719; CX 20871 20872 20675; CX 20871 20862 20657; CX 20852 20873 20725;
  CX 20858 20874 20729; CX 20855 20875 20730; CX 20714 18638 20388; CX 19123 20722 20562; CX 18915 20720 20392; CA 19843 17890 20487; CI 19493 20397; CX 20895 18000 20592;
  CX 20595 19795 19797; CX 20895 18003 20771; CX 20900 20901 20793; CX 20857 20901 20796; CX 20867 17959 19601; CX 17887 17686 19501; CX 17749 17750 19592; CX 17686 17687 19460;
  CX 17887 17687 19362; CX 20834 20867 19597; CX 20710 17686 19544; CX 20769 17784 19599; CX 17961 17750 20590; CX 17891 17750 20798; CX 20902 20889 20186; CX 18175 20903 20317;
  CX 20905 18173 20535; CX 20906 18211 20705; CX 20912 18209 20766; CX 20913 20820 20819; CX 20914 20617 20702; CI 20836 20805; CI 20837 20802; CI 20816 20818;
  CI 20838 20806; CI 20852 20817; CX 20925 20849 20827; CX 20508 20849 20829; CX 20926 18350 20493; CX 20929 18850 20511; CX 20930 18348 20461; CX 18200 20928 20323;
  CX 20842 18210 20182; CX 20938 18176 20684; CX 17888 20710 20772; CX 18205 20983 20420; CX 20804 18204 20430; CX 21002 17803 17620; CI 17687 20894; CX 17998 20769 20773;
  CX 21043 18175 17962; CX 18205 21097 17994; CX 21098 18204 17993; CX 21099 18206 17995; CX 21100 18200 17997; CX 21101 18210 17999; CX 18211 21102 18001; CX 21103 18176 17963;
  CX 20214 20252 18540; CX 20368 20252 20064; CX 20371 20372 20249; CX 20376 20377 20273; CX 20387 20388 20255; CX 20391 20392 20217; CI 20153 20119; CX 20450 20451 20330;
  CX 20494 20495 20180; CX 20498 20499 20358; CX 20507 20508 20356; CX 20516 20517 20345; CX 20518 20519 20138; CX 20399 20400 19996; CX 20532 20533 20148; CX 20534 20535 20127;
  CX 20536 20537 18885; CX 20538 20539 20210; CX 20546 20547 20366; CX 20558 20559 19062; CX 20560 20561 20200; CX 20562 20563 20149; CX 20564 20565 20384; CX 20566 20567 20151;
  CX 20568 20569 20311; CX 20570 20571 19020; CX 20572 20573 20163; CX 20574 20575 20308; CX 20578 20577 20393; CX 20581 20580 20389; CX 20582 20583 20236; CX 20586 20587 20312;
  CX 20588 20589 20309; CX 20596 20597 20426; CX 20598 20599 20404; CX 20600 20455 20421; CX 20601 20602 20411; CX 20603 20604 20405; CX 20607 20608 20169; CX 20609 20610 20413;
  CX 20611 20612 20417; CX 20600 20613 20423; CX 20614 20615 20407; CX 20617 20597 20424; CX 20618 20597 20402; CX 20619 20620 20283; CX 20621 20622 20321; CX 20609 20625 20410;
  CX 20628 20629 20427; CX 20618 20632 20415; CX 20633 20634 20429; CX 20635 20632 20419; CX 20636 20637 20277; CX 20638 20639 20278; CX 20643 20644 20437; CX 20647 20648 20205;
  CX 20649 20650 20439; CX 20651 20652 20522; CX 19844 19592 19719; CX 19727 19601 19841; CX 20653 20654 20485; CX 18208 20654 20370; CX 20655 20654 20472; CX 20656 20657 20445;
  CX 20658 18207 20468; CX 20659 18199 20373; CX 20660 20661 20470; CX 20662 20663 20448; CX 20664 20613 20454; CX 20659 20665 20476; CX 20658 20666 20483; CX 20667 20668 20447;
  CX 20671 20672 20452; CX 20673 20650 20467; CX 20674 20652 20443; CX 20675 20676 20441; CX 20677 20678 20328; CX 20681 20682 20284; CX 20683 20684 20367; CX 20685 20686 20395;
  CX 20687 20688 20482; CX 20689 20690 20481; CX 20610 20625 20465; CX 20596 20617 20463; CX 20691 20692 20474; CX 20693 20668 20456; CX 20675 20694 20460; CX 20695 20696 20320;
  CX 20697 20698 20347; CX 20699 20700 20386; CX 20701 20602 20459; CX 20629 20702 20479; CX 20705 20706 20365; CX 20707 20708 20315; CX 20709 20545 20478; CX 20714 20657 20512;
  CX 20719 20720 20505; CX 20721 20722 20514; CX 20723 20719 20501; CX 20724 20657 20496; CX 20725 20726 20520; CX 20721 20727 20503; CX 20513 20692 20510; CX 20728 20661 20492;
  CX 20729 20650 20509; CX 20730 20577 20500; CX 20764 20702 20524; CX 20765 20766 20364; CA 19727 19728 20489; CX 19797 20769 19798; CX 19797 17996 19794; CX 20771 19546 19404;
  CX 20771 20773 19602; CX 20592 20773 19547; CX 20793 20794 20380; CX 20796 20797 20379; CX 20798 19601 19402; CX 19362 19544 19489; CX 19597 19405 19589; CX 19406 19599 19539;
  CX 20799 19601 19590; CX 20772 19501 19490; CX 20773 19546 19540; CX 20798 20799 19600; CX 20590 20799 19595; CX 17958 20802 20605; CX 17992 20802 20530; CX 20805 17957 20631;
  CX 20806 17803 20528; CX 20817 20506 20623; CX 20818 20635 20626; CX 20819 20422 20616; CA 19797 18002 20434; CX 20827 20828 20382; CX 20829 20830 20383; CX 17994 20837 20541;
  CX 20836 17993 20555; CX 20868 17620 20557; CI 19460 20396; CX 20894 17889 20591; CX 20894 17892 20770; CX 17962 20904 20346; CX 17963 18001 20491; CX 20955 17994 17786;
  CI 17620 19732; CX 20956 17995 17787; CX 17993 20957 17774; CX 20958 17997 20357; CX 17999 20870 20237; CX 20909 18001 20704; CX 20964 17963 20680; CI 17962 20640].
(** Lines 13605-14004 of the file. *)
Definition aes128_34 : list cg := [
  CI 18540 19868; CX 20210 20119 18894; CX 20313 20119 20224; CI 20273 20207; CX 20330 17687 20170; CX 20345 20346 20072; CX 20356 20357 20074; CX 20358 20359 20238;
  CX 19996 18885 18892; CX 20364 20252 19995; CX 20366 18206 19099; CX 20369 20370 20274; CI 20255 20209; CX 20373 20374 20250; CX 20311 20312 18720; CX 20308 20309 18689;
  CX 20200 20236 18413; CX 20379 20309 20056; CX 20380 20312 20036; CX 20382 20312 20097; CX 20383 20309 20117; CX 20384 20385 20118; CX 20386 20236 19982; CX 20389 20390 20167;
  CX 20393 20394 20179; CX 20395 20236 20054; CX 20401 20402 18801; CX 20403 20404 18803; CX 20405 20406 20285; CX 20407 20408 20290; CX 20283 20278 19972; CX 20315 20321 19973;
  CX 20277 20284 20067; CX 20409 20410 20099; CX 20411 20412 20156; CX 20413 20414 20101; CX 20415 20416 18802; CX 20417 20418 20177; CX 20419 20420 20275; CX 20421 20422 20286;
  CX 20423 20422 20289; CX 20424 20425 20279; CX 20426 20425 20281; CX 20427 20428 20174; CX 20429 20430 20276; CX 20437 20438 20307; CX 20439 20440 20268; CX 20365 20367 19971;
  CX 20441 20442 18954; CX 20443 20444 20265; CX 20445 20446 18862; CX 20447 18300 20135; CX 20448 20449 20325; CX 20452 20453 20329; CX 20454 20455 20324; CX 20456 20457 18861;
  CX 20458 20459 20173; CX 20460 20461 18896; CX 20462 20463 20318; CX 20464 20465 20105; CX 20466 20467 20267; CX 20468 20469 20128; CX 20470 20471 20253; CX 20472 20473 20326;
  CX 20328 20320 20019; CX 20474 20475 20270; CX 20395 20386 19984; CX 20476 20477 20322; CX 20478 18109 20221; CX 20479 20480 20175; CX 20481 18107 20219; CX 20482 17889 20215;
  CX 20483 20484 20103; CX 20485 20486 20316; CX 20492 20493 20269; CX 20496 20497 20350; CX 20500 19292 20204; CX 20501 20502 20352; CX 20503 20504 20115; CX 20505 20506 20354;
  CX 20509 17892 20218; CX 20510 20511 20271; CX 20512 20513 20348; CX 20514 20515 20113; CX 20520 20521 20203; CX 20522 20523 20266; CX 20524 20525 20165; CX 20364 20368 19997;
  CX 20528 20529 19103; CX 20530 20531 18815; CX 20540 20541 20178; CX 20554 20555 20212; CX 19602 19797 19733; CX 19798 19493 19721; CX 19602 19599 20302; CX 19794 19546 19730;
  CX 20382 20380 20042; CX 20383 20379 20057; CX 20556 20557 19024; CX 19600 19843 19845; CX 19597 19600 20332; CI 19841 20398; CX 19540 19795 19720; CX 19728 19590 19718;
  CX 19490 19732 19643; CX 20590 19590 20333; CX 20591 19490 20297; CX 20592 19540 20300; CX 20593 19590 19593; CX 20594 19490 19459; CX 20595 19540 19492; CX 20605 20606 20213;
  CX 20616 18296 20185; CX 20623 20624 20360; CX 20626 20627 20431; CX 20630 20631 20251; CA 19794 19795 20436; CA 19404 19406 20435; CA 19602 19599 20304; CA 19547 19546 20343;
  CX 20679 20680 20381; CX 20703 20704 20378; CA 19490 19489 20260; CA 19540 19539 20306; CA 19600 19597 20335; CA 19595 19601 20337; CA 19590 19589 20339; CA 19402 19405 20488;
  CX 20770 19501 19361; CX 20770 20772 19548; CX 20591 20772 19502; CX 17997 17786 19463; CX 17774 17786 19426; CX 17774 17997 19327; CX 20640 17786 19499; CX 20594 19732 19735;
  CX 17786 20865 20646; CX 20839 17774 20585; CX 17999 20640 20642; CI 17787 19652; CI 17774 20821; CX 18892 20207 18897; CX 20169 20170 18688; CX 20213 20207 18607;
  CX 20215 20170 20034; CX 20218 20170 20093; CX 20224 20225 20122; CX 20226 20207 20126; CX 20237 20072 20139; CX 20238 17787 18939; CX 20213 20249 18557; CX 20214 20250 18478;
  CX 20249 20251 18312; CX 20250 20252 18198; CX 20249 18892 18888; CX 20253 20209 18691; CX 20067 19099 19102; CX 20254 20209 20150; CX 20169 20118 18778; CX 20217 20253 18611;
  CX 20179 20269 18466; CX 20217 20270 18359; CX 20179 20271 18310; CX 20167 20269 18555; CX 20272 20118 20164; CA 18892 20273 19929; CX 20148 20275 18826; CX 20156 20174 18379;
  CX 20275 20276 18722; CX 20148 20276 18537; CX 19972 18801 18808; CX 19973 18802 18811; CX 20277 20276 20065; CX 20278 20174 19968; CX 20279 20280 20187; CX 20281 20282 20166;
  CX 20283 20174 20043; CX 20284 20276 20125; CX 20285 17887 20120; CX 20286 20287 20171; CX 20288 20289 20172; CX 20290 18104 20176; CI 20072 20087; CX 20307 18756 20137;
  CX 20268 20308 18782; CX 20268 20309 18421; CX 20308 20266 18776; CX 20292 20266 20206; CX 20267 20311 18836; CX 20267 20312 18455; CX 20265 20311 18837; CX 20173 20175 18378;
  CX 20253 20270 18539; CX 20218 20215 20035; CX 20315 20175 19969; CX 20316 20317 20084; CX 20219 20221 20066; CX 20318 20319 20130; CI 20274 20208; CX 19984 18861 18866;
  CX 20019 18954 18957; CX 20320 20270 20017; CX 20321 20175 20044; CX 20322 20323 20059; CX 20324 18291 20098; CX 20325 18101 20121; CX 20326 20327 20220; CX 20328 20270 20082;
  CX 20329 17886 20211; CX 20269 20271 18439; CX 20347 20271 20018; CX 20348 20349 20256; CX 20350 20351 20159; CX 20352 20353 20239; CX 20354 20355 20216; CX 20360 20271 20083;
  CX 20203 20204 19985; CI 18689 19987; CX 20178 20212 18457; CI 18413 19848; CX 19997 18815 18890; CX 20365 20212 19967; CX 20367 20212 20038; CI 20118 20154;
  CI 20167 20228; CX 19733 19730 20111; CX 20042 19062 19109; CX 20057 19020 19087; CI 20266 20310; CX 19593 19592 20294; CX 20396 19459 20258; CX 20397 19492 20296;
  CX 20398 19845 20133; CX 20213 20251 18447; CX 20399 20251 19994; CX 20400 20251 20063; CI 20265 20291; CX 20360 20347 20020; CX 20431 18294 20184; CA 19730 19733 20303;
  CA 19721 19720 20305; CX 20434 20304 20196; CX 20435 20343 20301; CX 20436 20306 20295; CX 20378 20381 20009; CI 20165 20147; CA 19841 19845 20334; CA 19719 19718 20338;
  CA 19459 19460 20340; CA 19492 19493 20342; CA 19593 19592 20336; CX 20487 20335 20230; CX 20488 20337 20331; CX 20489 20339 20293; CX 19548 19735 19654; CX 19548 19544 20299;
  CX 20584 20585 20235; CA 19361 19362 20433; CA 19548 19544 20262; CA 19502 19501 20341; CX 20645 20646 20234; CX 19735 20710 19736; CX 19735 17887 19731; CX 19327 19499 19456;
  CX 20642 19463 19457; CA 19735 17804 20432; CI 19426 20344; CX 20821 18001 20490; CX 20491 19652 19656; CX 20821 17963 20641; CX 18897 18447 18797; CX 18312 18607 18536;
  CX 20126 20127 20060; CX 20009 18939 18996; CX 20138 20139 20075; CX 19102 20147 19107; CX 18888 18557 18818; CX 20063 18557 18313; CX 20064 18478 18197; CX 20148 19102 19100;
  CX 18359 18691 18604; CX 20149 20150 20080; CX 18310 18555 18524; CX 20082 18611 18358; CX 20083 18466 18314; CX 20163 20164 20092; CA 18888 18885 19930; CA 19102 20165 20025;
  CX 20166 18811 18810; CX 20169 20120 18780; CX 20120 20170 18417; CX 20171 20156 18468; CX 20172 20173 18470; CX 20171 20174 18250; CX 20172 20175 18252; CX 20098 20176 18251;
  CX 20177 20176 18380; CX 20171 18808 18804; CX 20172 18811 18805; CX 20125 18826 18526; CX 20173 20166 18562; CX 20184 20176 19970; CX 20185 20176 20045; CX 20186 20166 20102;
  CX 20187 20186 20100; CX 20135 20137 18412; CX 20203 20137 19983; CX 20204 20137 20055; CX 20117 18782 18420; CX 18421 18776 18683; CX 20205 20206 20116; CX 18890 20208 18898;
  CX 18957 20209 18958; CX 20097 18836 18456; CX 18455 18837 18718; CX 20210 20121 18829; CX 20059 20178 18402; CX 20121 20211 18538; CX 20210 20211 18716; CX 20059 20212 18168;
  CX 20177 20098 18474; CX 20214 20208 18609; CX 20035 19024 19086; CX 20216 18866 18863; CX 20217 18957 18955; CX 20066 19103 19106; CX 20219 20211 20062; CX 20220 17995 18740;
  CX 20221 20211 20123; CX 20227 20208 20129; CA 18808 20187 19881; CX 20074 20234 18667; CX 20074 20235 18340; CX 20234 20072 18669; CX 20216 20200 18513; CX 20216 20236 18289;
  CX 19985 18862 18868; CX 20239 18754 20136; CX 20250 18890 18822; CX 20228 20254 20152; CA 18957 20255 19961; CA 18866 20256 19909; CI 18379 19835; CI 18722 19993;
  CI 20187 20155; CI 20166 20192; CX 20265 19109 19110; CX 20266 19087 19088; CX 20267 19109 19060; CX 20268 19087 19021; CA 18890 20274 19946; CI 18378 19836;
  CI 18539 19922; CX 20275 20147 18887; CI 20084 20058; CI 20130 20095; CX 20020 18896 18960; CX 20184 20185 19974; CX 20291 20292 20181; CX 20293 20294 20188;
  CX 20295 20296 20190; CX 20300 20301 20199; CX 20301 20302 20197; CX 20303 20304 20195; CX 20305 20306 20198; CI 20256 20168; CI 20159 20134; CA 19087 20310 20016;
  CI 18457 19834; CX 20314 20147 20222; CX 20331 20332 20231; CX 20333 20331 20233; CX 20334 20335 20229; CX 20336 20337 20189; CX 20338 20339 20232; CX 20340 20341 20158;
  CX 20342 20343 20191; CA 19109 20291 20002; CI 18447 19867; CX 20234 20235 18575; CX 20378 20235 20008; CX 20381 20235 20076; CX 20432 20262 20193; CX 20433 20341 20298;
  CX 19736 19460 19644; CX 19731 19501 19651; CX 19457 19652 19611; CX 20490 19457 20244; CX 20491 19457 19425; CA 19731 19732 20375; CA 19457 19456 20248; CX 19656 20640 19657;
  CX 19656 17997 19653; CX 20641 19463 19326; CX 20641 20642 19503; CX 20490 20642 19462; CA 19656 17962 20363; CX 18557 20060 18535; CX 19994 20060 18558; CX 20063 20060 18613].
(** Lines 14005-14404 of the file. *)
Definition aes128_35 : list cg := [
  CX 20072 18996 18995; CX 20074 18996 18940; CX 20075 18667 18573; CX 20076 20075 18666; CX 20008 20075 18668; CX 19107 18722 19029; CX 19100 18826 19054; CX 18611 20080 18605;
  CX 20017 20080 18612; CX 20082 20080 18692; CA 18996 20087 19951; CX 20092 18780 18685; CX 20093 20092 18779; CX 20034 20092 18781; CA 19100 19099 20023; CA 18313 18312 19931;
  CA 18197 18198 19944; CX 20093 18780 18418; CX 18417 18778 18686; CX 18810 18378 18704; CX 18804 18468 18732; CX 18805 18470 18734; CX 18252 18562 18453; CX 20043 18468 18245;
  CX 20044 18470 18249; CX 20045 18474 18247; CX 20099 20100 20039; CX 20101 20102 20040; CX 20116 18782 18681; CX 20117 20116 18775; CX 20056 20116 18773; CA 18358 18359 19962;
  CX 20118 19086 19085; CX 19106 20119 19108; CX 20120 19086 19025; CX 18898 18540 18714; CX 20121 19106 19104; CX 20122 18829 18799; CX 18538 18894 18794; CX 18198 18609 18442;
  CX 20123 18829 18531; CX 20038 18402 18167; CX 20123 20122 18899; CX 20062 20122 18830; CX 18958 18539 18878; CX 18863 18513 18768; CX 18955 18611 18881; CX 19971 18740 18824;
  CX 20128 20129 20061; CA 18804 18801 19880; CA 18805 18802 19885; CA 18526 18537 20024; CX 18868 20134 18869; CX 20076 18667 18341; CX 18340 18669 18572; CX 20135 20136 18515;
  CX 20136 20137 18290; CX 20136 18868 18864; CX 20054 18513 18286; CA 18314 18310 19963; CA 18420 18421 20015; CX 18822 18478 18821; CX 20151 20152 20081; CA 18955 18954 19960;
  CA 18863 18861 19908; CA 19106 20153 20022; CA 19086 20154 19989; CA 18456 18455 20000; CX 20155 18808 18832; CI 18380 19837; CX 20155 20156 18550; CA 18868 20159 19912;
  CI 18412 19849; CX 19110 18720 18974; CX 19088 18689 18951; CX 19060 18836 19059; CX 19021 18782 19022; CA 18822 18815 19945; CX 20167 18960 18961; CX 18866 20168 18870;
  CI 18716 19992; CX 20178 20058 18554; CI 18609 19991; CX 18537 18887 18791; CX 20179 18960 18895; CX 20177 20095 18552; CX 20180 20181 20096; CX 20182 20058 20104;
  CX 20183 20095 20106; CX 19974 18803 18813; CX 20188 20189 19948; CX 20190 20191 19902; CA 18811 20192 19884; CX 20195 20191 20110; CX 20196 20197 20047; CX 20198 20199 20131;
  CX 20200 20168 18594; CX 20135 20134 18596; CX 20201 20134 20114; CX 20202 20168 20112; CA 19060 19062 20001; CA 19021 19020 20014; CX 20222 20223 20124; CA 18960 20228 19965;
  CX 20229 20189 20132; CX 20230 20231 20068; CX 20232 20233 20094; CX 20297 20298 20162; CX 20298 20299 20194; CX 20344 19425 20241; CX 19654 19651 20091; CA 19651 19654 20261;
  CA 19425 19426 20263; CA 19644 19643 20259; CX 20375 20260 20257; CX 19503 19656 19616; CX 19657 19426 19612; CX 19503 19499 20243; CX 19653 19463 19615; CA 19653 19652 20362;
  CA 19326 19327 20361; CA 19503 19499 20246; CA 19462 19463 20264; CX 18613 18892 18817; CX 18613 18607 19768; CX 18885 18535 18798; CX 19994 18535 19766; CX 19996 18535 18452;
  CX 18666 18996 18937; CX 18995 18575 18846; CX 18666 18669 19800; CX 18940 18667 18938; CX 20008 18573 19801; CX 18939 18573 18845; CX 20009 18573 18574; CX 18692 18957 18882;
  CX 18692 18691 19818; CX 18954 18605 18877; CX 20017 18605 19816; CX 20019 18605 18529; CA 18613 18607 19783; CA 18558 18557 19787; CA 18535 18536 19785; CA 18668 18667 19807;
  CA 18573 18572 19809; CA 18940 18939 19953; CA 18666 18669 19805; CX 18779 19086 19023; CX 18779 18778 19860; CX 20034 18685 19858; CX 19024 18685 18950; CX 20035 18685 18687;
  CA 18605 18604 19827; CA 18692 18691 19823; CA 18612 18611 19825; CX 20039 18468 18443; CX 18470 20040 18451; CX 20043 20039 18559; CX 20044 20040 18561; CX 19969 20040 18471;
  CX 19968 20039 18475; CX 18775 19087 19019; CX 18775 18776 19914; CX 20056 18681 19915; CX 19020 18681 18948; CX 20057 18681 18682; CA 18779 18778 19866; CA 18781 18780 19862;
  CA 18685 18686 19864; CX 18824 20058 18833; CX 19085 18688 18949; CX 19025 18780 19026; CX 18899 19106 19058; CX 18899 18894 19924; CX 19108 18716 19031; CX 19104 18829 19057;
  CX 20059 18824 18744; CX 19103 18799 19032; CX 18478 20061 18445; CX 20062 18799 19925; CX 19995 20061 18477; CX 20064 20061 18614; CX 20066 18799 18708; CA 18245 18250 19879;
  CA 18249 18252 19883; CA 18247 18251 19886; CA 18418 18417 19988; CX 18869 18412 18750; CX 18864 18515 18770; CX 18290 18596 18492; CX 20055 18515 18288; CA 18773 18782 19919;
  CA 18775 18776 19917; CA 18681 18683 19921; CX 18466 20081 18527; CX 20083 20081 18548; CX 20018 20081 18465; CA 19104 19103 20026; CA 18799 18794 19937; CA 18531 18538 20021;
  CA 18167 18168 19895; CA 18899 18894 19933; CA 18824 20084 19896; CA 19025 19024 19990; CA 18830 18829 19935; CX 18832 18379 18709; CX 18250 18550 18435; CA 18864 18862 19911;
  CA 18286 18289 19907; CA 18341 18340 19952; CX 20094 19948 20028; CX 18813 20095 18831; CX 20096 18836 18719; CX 20036 20096 18838; CX 20097 20096 18835; CX 18554 18168 18370;
  CX 20098 18813 18806; CX 18870 18413 18748; CX 18961 18439 18792; CX 18895 18466 18901; CX 18251 18552 18437; CX 20103 20104 20037; CX 20105 20106 20041; CX 20110 20111 19900;
  CX 18289 18594 18490; CX 20112 20113 20052; CX 20114 20115 20053; CX 20124 18826 18796; CX 20065 20124 18827; CX 20125 20124 18900; CA 18813 20130 19887; CA 19948 20068 20085;
  CA 18895 18896 19964; CA 20131 19902 20071; CX 20132 20133 19898; CA 20131 20047 19977; CA 20094 20068 19998; CI 18554 19966; CI 19948 20108; CI 19902 20107;
  CI 20131 20086; CX 20193 20194 20030; CX 20257 20258 20157; CX 20259 20260 20161; CX 20261 20262 20160; CX 20263 20264 20141; CX 19616 19615 20079; CA 19615 19616 20245;
  CA 19612 19611 20247; CX 20361 20264 20242; CX 20362 20248 20240; CX 20363 20246 20142; CX 19867 18452 19666; CX 18818 18817 19439; CX 18574 18575 19725; CX 18937 18938 19454;
  CX 19922 18529 19763; CX 18882 18881 19471; CA 18817 18818 19782; CA 18798 18797 19784; CA 18452 18447 19786; CX 19929 19783 19574; CX 19930 19785 19665; CX 19931 19787 19767;
  CA 18937 18938 19804; CA 18574 18575 19806; CA 18846 18845 19808; CX 19951 19805 19607; CX 19952 19807 19799; CX 19953 19809 19724; CX 18687 18688 19815; CX 19023 19026 19508;
  CA 18882 18881 19822; CA 18529 18539 19824; CA 18877 18878 19826; CX 19960 19827 19762; CX 19961 19823 19624; CX 19962 19825 19817; CX 18559 18808 18731; CX 18561 18811 18735;
  CX 18559 18550 19678; CX 18561 18562 19682; CX 18801 18443 18710; CX 18802 18451 18721; CX 19968 18443 19676; CX 19969 18451 19683; CX 19972 18443 18374; CX 19973 18451 18372;
  CX 19987 18682 19857; CA 19026 19023 19865; CA 18687 18688 19861; CA 18949 18950 19863; CX 19988 19862 19859; CX 19989 19866 19660; CX 19990 19864 19814; CX 18614 18890 18820;
  CX 19991 18614 19780; CX 19992 18708 19871; CX 18833 18457 18635; CX 18744 18402 18742; CX 18815 18445 18715; CX 19058 19057 19580; CX 19995 18445 19778; CX 19997 18445 18533;
  CA 18443 18435 19694; CA 18559 18550 19698; CA 18451 18453 19704; CA 18475 18468 19696; CA 18561 18562 19700; CA 18471 18470 19702; CA 19019 19022 19916; CA 18682 18689 19918;
  CA 18951 18948 19920; CX 20014 19921 19856; CX 20015 19919 19913; CX 20016 19917 19758; CX 18548 18960 18884; CX 18548 18555 19821; CX 18896 18527 18795; CX 20018 18527 19819;
  CX 20020 18527 18440; CA 18744 18740 19894; CA 19058 19057 19932; CA 18445 18442 19789; CA 18614 18609 19793; CA 18708 18716 19934; CA 19032 19031 19936; CA 18477 18478 19791;
  CX 20021 19935 19923; CX 20022 19933 19769; CX 20026 19937 19870; CA 18288 18290 19910; CI 19019 19959; CA 18527 18524 19829; CA 18465 18466 19831; CA 18548 18555 19833;
  CX 18835 19109 19061; CX 18835 18837 19876; CX 20036 18719 19874; CX 19062 18719 18975; CX 20037 18402 18377; CX 18831 18380 18711; CX 18806 18474 18737; CX 19967 20037 18403;
  CX 20038 20037 18564; CX 20041 18474 18444; CX 20042 18719 18723; CX 19970 20041 18473; CX 20045 20041 18563; CX 20047 19900 19978; CX 19977 19900 20006; CX 18513 20052 18493;
  CX 20053 18515 18494; CX 19982 20052 18512; CX 20054 20052 18597; CX 20055 20053 18598; CX 19983 20053 18516; CX 18900 19102 19055; CX 18900 18887 19928; CX 19099 18796 19030;
  CX 20065 18796 19926; CX 20067 18796 18706; CA 18806 18803 19882; CA 18838 18836 19891; CA 18835 18837 19893; CA 18719 18718 19889; CX 20068 19898 19999; CA 20071 19900 19957;
  CA 18796 18791 19943; CA 18900 18887 19941; CA 18827 18826 19939; CA 20085 19898 19877; CX 20086 19902 20007; CX 19998 19948 20004; CI 19900 20049; CA 20107 20047 20048;
  CA 20094 20108 20069; CI 19898 20070; CI 19977 20029; CI 19998 20046; CX 20157 20158 19853; CX 20160 20158 20090; CX 20161 20162 20109; CX 20240 20241 20140;
  CX 20242 20243 20143; CX 20244 20242 20145; CX 20245 20246 20146; CX 20247 20248 20144; CX 19665 19666 19511; CX 19724 19725 19541; CX 19762 19763 19568; CX 19766 19767 19578;
  CX 19767 19768 19575; CX 19782 19783 19576; CX 19784 19785 19577; CX 19786 19787 19512; CX 19799 19800 19608; CX 19801 19799 19610; CX 19804 19805 19606; CX 19806 19807 19542].
(** Lines 14405-14804 of the file. *)
Definition aes128_36 : list cg := [
  CX 19808 19809 19609; CX 19814 19815 19619; CX 19816 19817 19623; CX 19817 19818 19625; CX 19822 19823 19621; CX 19824 19825 19569; CX 19826 19827 19622; CX 19835 18374 19632;
  CX 19836 18372 19638; CX 18731 18732 19394; CX 18735 18734 19396; CX 19856 19857 19658; CX 19858 19859 19663; CX 19859 19860 19661; CX 19861 19862 19620; CX 19863 19864 19662;
  CX 19865 19866 19664; CX 19868 18533 19672; CX 18820 18821 19441; CX 19870 19871 19667; CA 18731 18732 19697; CA 18735 18734 19699; CA 18721 18704 19703; CA 18374 18379 19695;
  CA 18372 18378 19701; CA 18709 18710 19693; CX 19879 19696 19677; CX 19880 19694 19631; CX 19881 19698 19519; CX 19883 19702 19681; CX 19884 19700 19521; CX 19885 19704 19637;
  CX 19913 19914 19759; CX 19915 19913 19761; CX 19916 19917 19757; CX 19918 19919 19659; CX 19920 19921 19760; CX 18440 18439 19765; CA 18820 18821 19792; CA 18533 18540 19790;
  CA 18715 18714 19788; CX 19923 19924 19770; CX 19925 19923 19773; CX 19932 19933 19771; CX 19934 19935 19668; CX 19936 19937 19772; CX 19944 19791 19779; CX 19945 19789 19671;
  CX 19946 19793 19585; CX 19959 19022 19567; CA 18795 18792 19828; CA 18440 18439 19830; CA 18884 18901 19832; CX 19963 19831 19820; CX 19964 19829 19764; CX 19965 19833 19629;
  CX 18723 18720 19839; CX 19061 19059 19531; CX 18564 18824 18743; CX 19966 18564 19692; CX 18563 18813 18738; CX 18563 18552 19685; CX 18740 18377 18634; CX 19967 18377 19690;
  CX 18803 18444 18712; CX 19970 18444 19686; CX 19971 18377 18449; CX 19974 18444 18376; CX 19977 19978 19847; CX 18597 18866 18771; CX 18598 18868 18772; CX 18597 18594 19739;
  CX 18598 18596 19742; CX 18861 18493 18749; CX 18862 18494 18751; CX 19982 18493 19737; CX 19983 18494 19740; CX 19984 18493 18409; CX 19985 18494 18411; CI 18884 19869;
  CX 19993 18706 19873; CX 19055 19054 19582; CA 18444 18437 19706; CA 18377 18370 19714; CA 18563 18552 19716; CA 18564 18554 19712; CA 18974 18975 19888; CA 18723 18720 19890;
  CA 19061 19059 19892; CA 18403 18402 19710; CX 19998 19999 19878; CX 20000 19891 19875; CX 20001 19889 19838; CX 20002 19893 19688; CA 20006 20007 19901; CA 18493 18490 19746;
  CA 18494 18492 19756; CA 18597 18594 19750; CA 18598 18596 19752; CA 18512 18513 19748; CA 18516 18515 19754; CA 18473 18474 19708; CA 19055 19054 19940; CA 18706 18722 19938;
  CA 19029 19030 19942; CX 20023 19943 19872; CX 20024 19939 19927; CX 20025 19941 19776; CX 20029 20007 19958; CX 20028 20046 19976; CI 19999 20005; CA 20048 20049 19846;
  CX 20029 19902 20003; CX 20046 19898 20027; CA 20069 20070 19975; CX 20090 20091 19851; CA 20109 19853 20050; CA 20109 20030 19949; CI 19853 20088; CX 20140 20141 19813;
  CX 20142 20143 20011; CI 20109 20073; CX 20144 20145 20089; CX 20146 20141 20078; CX 19511 19512 19042; CX 19541 19542 19074; CX 19568 19569 19084; CX 19574 19575 19302;
  CX 19576 19512 19438; CX 19577 19578 19434; CX 19606 19542 19453; CX 19607 19608 19324; CX 19609 19610 19410; CX 19619 19620 19155; CX 19621 19569 19470; CX 19622 19623 19469;
  CX 19624 19625 19340; CX 19631 19632 19477; CX 19637 19638 19479; CX 19658 19659 19565; CX 19660 19661 19373; CX 19662 19663 19467; CX 19664 19620 19507; CX 19667 19668 19231;
  CX 19671 19672 19513; CX 19676 19677 19517; CX 19677 19678 19520; CX 19681 19682 19522; CX 19683 19681 19524; CX 19693 19694 19516; CX 19695 19696 19478; CX 19697 19698 19518;
  CX 19699 19700 19537; CX 19701 19702 19480; CX 19703 19704 19523; CX 19757 19659 19566; CX 19758 19759 19374; CX 19760 19761 19466; CX 19764 19765 19570; CX 19769 19770 19436;
  CX 19771 19668 19579; CX 19772 19773 19572; CX 19778 19779 19584; CX 19780 19779 19586; CX 19788 19789 19583; CX 19790 19791 19514; CX 19792 19793 19587; CX 19819 19820 19627;
  CX 19820 19821 19630; CX 19828 19829 19626; CX 19830 19831 19571; CX 19832 19833 19628; CX 19834 18449 19640; CX 18743 18742 19400; CX 19837 18376 19634; CX 18737 18738 19398;
  CX 19838 19839 19635; CX 19846 19847 19618; CX 19848 18409 19647; CX 19849 18411 19649; CX 18771 18768 19421; CX 18770 18772 19423; CX 19869 18901 19473; CX 19872 19873 19669;
  CA 18738 18737 19715; CA 18743 18742 19711; CA 18376 18380 19707; CA 18449 18457 19709; CA 18712 18711 19705; CA 18635 18634 19713; CX 19874 19875 19680; CX 19876 19875 19689;
  CX 19877 19878 19673; CX 19882 19706 19633; CX 19886 19708 19684; CX 19887 19716 19525; CX 19888 19889 19679; CX 19890 19891 19636; CX 19892 19893 19687; CX 19894 19714 19639;
  CX 19895 19710 19691; CX 19896 19712 19535; CX 19901 19902 19723; CA 18771 18768 19749; CA 18772 18770 19751; CA 18409 18413 19747; CA 18411 18412 19753; CA 18749 18748 19745;
  CA 18751 18750 19755; CX 19907 19748 19738; CX 19908 19746 19646; CX 19909 19750 19554; CX 19910 19754 19741; CX 19911 19756 19648; CX 19912 19752 19560; CX 19926 19927 19775;
  CX 19927 19928 19777; CX 19938 19939 19670; CX 19940 19941 19781; CX 19942 19943 19774; CX 19957 19958 19617; CX 19975 19976 19675; CA 20003 19978 19899; CA 20004 20005 19897;
  CA 20027 20028 19947; CX 20030 19851 19950; CX 19949 19851 19980; CA 20050 19851 19903; CX 20073 19853 19981; CI 19851 20032; CX 20078 20079 19811; CA 20088 20030 20031;
  CA 20089 19813 20033; CI 19949 20010; CA 20089 20011 19905; CI 19813 20077; CI 20089 20051; CX 19410 19074 19236; CA 19042 19434 19349; CX 19438 19439 19040;
  CA 19074 19324 19328; CX 19453 19454 19072; CX 19467 19155 19298; CA 19084 19469 19378; CX 19470 19471 19094; CA 19434 19302 19162; CX 19477 19478 18986; CI 19042 19385;
  CX 19479 19480 18988; CA 19410 19324 19190; CI 19074 19415; CA 19155 19373 19375; CX 19507 19508 19151; CA 19469 19340 19210; CI 19084 19432; CX 19513 19514 19044;
  CX 19516 19517 19388; CX 19518 19478 19393; CX 19519 19520 19261; CI 19434 19381; CX 19521 19522 19262; CX 19523 19524 19389; CX 19537 19480 19395; CA 19467 19373 19247;
  CA 19565 19466 19427; CX 19566 19567 19429; CI 19155 19468; CX 19570 19571 19038; CA 19231 19572 19475; CI 19469 19431; CX 19579 19580 19227; CX 19583 19584 19435;
  CX 19585 19586 19303; CX 19587 19514 19440; CX 19617 19618 19486; CA 19466 19374 19249; CI 19565 19157; CX 19626 19627 19430; CX 19628 19571 19472; CX 19629 19630 19304;
  CA 19572 19436 19305; CI 19231 19515; CX 19633 19634 19481; CX 19635 19636 19188; CX 19639 19640 19483; CX 19646 19647 19494; CX 19648 19649 19496; CX 19669 19670 19229;
  CX 19673 19675 19591; CX 19679 19680 19476; CI 19572 19509; CX 19684 19685 19526; CX 19686 19684 19528; CX 19687 19636 19530; CX 19688 19689 19392; CX 19690 19691 19534;
  CX 19692 19691 19536; CX 19705 19706 19527; CX 19707 19708 19482; CX 19709 19710 19484; CX 19711 19712 19532; CX 19713 19714 19533; CX 19715 19716 19529; CA 19618 19720 19413;
  CA 19618 19721 19137; CX 19617 19723 19598; CX 19737 19738 19553; CX 19738 19739 19555; CX 19740 19741 19559; CX 19741 19742 19561; CX 19745 19746 19552; CX 19747 19748 19495;
  CX 19749 19750 19556; CX 19751 19752 19557; CX 19753 19754 19497; CX 19755 19756 19558; CX 19774 19775 19573; CX 19776 19777 19437; CX 19781 19670 19581; CI 19673 19717;
  CI 19723 19729; CX 19897 19898 19674; CX 19899 19900 19641; CI 19617 19796; CX 19947 19948 19840; CI 19675 19842; CX 19949 19950 19803; CA 19980 19981 19852;
  CX 20010 19981 19904; CX 20011 19811 19906; CX 19905 19811 19955; CA 20031 20032 19802; CA 20033 19811 19854; CX 20010 19853 19979; CX 20051 19813 19956; CI 19811 20013;
  CA 20077 20011 20012; CI 19905 19986; CX 19190 19236 19144; CX 19302 19040 19163; CX 19162 19040 19216; CX 19324 19072 19191; CX 19190 19072 19235; CX 19247 19298 19207;
  CX 19340 19094 19211; CX 19210 19094 19253; CA 19349 19040 19095; CX 19190 19074 19234; CX 19373 19151 19248; CX 19247 19151 19297; CA 19378 19094 19158; CX 19381 19042 19215;
  CA 19385 19302 19311; CA 18986 19388 19313; CA 18988 19389 19318; CX 19393 19394 18978; CI 19040 19312; CX 19395 19396 18980; CA 19415 19410 19332; CI 19072 19329;
  CX 19430 19038 19212; CX 19431 19084 19252; CX 19247 19155 19299; CA 19432 19340 19342; CA 19044 19435 19350; CX 19436 19227 19306; CX 19305 19227 19348; CI 19094 19343;
  CX 19440 19441 18984; CA 19388 19261 19111; CI 19162 19254; CA 19389 19262 19113; CI 18986 19355; CI 18988 19359; CX 19466 19157 19295; CX 19249 19157 19296;
  CA 19038 19304 19379; CA 19467 19468 19377; CX 19472 19473 19380; CI 19151 19376; CI 19210 19300; CA 19475 19227 19256; CX 19476 19188 19317; CX 19481 19482 18990;
  CX 19483 19484 18992; CI 19044 19386; CI 19388 19352; CI 19389 19353; CX 19494 19495 19012; CX 19496 19497 19014; CA 19157 19374 19428; CI 19429 19153;
  CA 19430 19304 19166; CX 19509 19231 19347; CI 19038 19433; CA 19515 19436 19444; CA 19188 19392 19407; CI 19227 19445; CX 19525 19526 19263; CX 19527 19528 19390].
(** Lines 14805-15204 of the file. *)
Definition aes128_37 : list cg := [
  CX 19529 19482 19397; CX 19530 19531 19186; CX 19532 19484 19399; CX 19533 19534 19391; CX 19535 19536 19260; CI 19435 19382; CI 19303 19387; CX 19552 19553 19416;
  CX 19554 19555 19285; CX 19556 19495 19420; CX 19557 19497 19422; CX 19558 19559 19417; CX 19560 19561 19286; CA 19229 19573 19474; CX 19581 19582 19225; CI 19305 19383;
  CA 19591 19592 19446; CA 19591 19593 19450; CA 19476 19392 19264; CI 19188 19485; CA 19598 19599 18926; CA 19598 19602 19135; CI 19486 19491; CA 19573 19437 19307;
  CI 19229 19506; CX 19618 19641 19538; CX 19673 19674 19588; CI 19573 19510; CA 19717 19718 19448; CA 19717 19719 19134; CX 19723 19641 19487; CA 19729 19730 19278;
  CA 19729 19733 19563; CA 19641 19794 19412; CA 19641 19795 19414; CA 19796 19797 19136; CA 19796 19798 19564; CX 19802 19803 19603; CA 19840 19841 19323; CA 19842 19843 19133;
  CA 19842 19844 19642; CA 19840 19845 19562; CI 19674 19726; CX 19852 19853 19645; CI 19840 19722; CX 19903 19904 19605; CX 19905 19906 19744; CA 19955 19956 19812;
  CA 19979 19950 19850; CX 19986 19956 19855; CA 20012 20013 19743; CX 19986 19813 19954; CX 19162 19163 18969; CX 19190 19191 18998; CX 19210 19211 19028; CA 19215 19216 19041;
  CA 19234 19191 19071; CA 19235 19236 19073; CX 19247 19248 19092; CA 19252 19253 19083; CX 19215 19254 19096; CX 19261 18978 19112; CX 19262 18980 19114; CX 19111 18978 19178;
  CX 19113 18980 19180; CA 19297 19298 19154; CA 19299 19248 19150; CX 19252 19300 19159; CX 19303 18984 19165; CX 19305 19306 19169; CA 19311 19312 18968; CA 19313 18978 19045;
  CA 19318 18980 19047; CX 19254 19042 19214; CA 19328 19329 18997; CA 19332 19072 19143; CX 19249 19295 19209; CA 19342 19343 19027; CA 19347 19348 19230; CA 19350 18984 19097;
  CX 19352 18986 19177; CX 19353 18988 19179; CX 19300 19084 19251; CX 19264 19317 19233; CA 19355 19261 19266; CA 19359 19262 19270; CI 18978 19267; CI 18980 19271;
  CX 19374 19153 19250; CX 19249 19153 19294; CA 19375 19376 19091; CA 19377 19151 19206; CA 19379 19380 18970; CX 19382 19044 19217; CX 19166 19038 19219; CX 19347 19383 19257;
  CA 19386 19387 19309; CA 18990 19390 19314; CA 18992 19391 19319; CX 19392 19186 19265; CX 19264 19186 19316; CX 19397 19398 18982; CX 19399 19400 18928; CI 18984 19310;
  CI 19111 19220; CI 19113 19223; CA 19012 19416 19330; CA 19014 19417 19331; CX 19420 19421 19008; CX 19422 19423 19010; CA 19427 19153 19208; CA 19428 19429 19089;
  CA 19433 19430 19344; CX 19437 19225 19308; CX 19307 19225 19346; CI 19380 19036; CA 19390 19263 19115; CA 19435 19387 19164; CA 19444 19445 19168; CX 19383 19231 19341;
  CX 19264 19188 19315; CX 19446 19447 18994; CI 18990 19356; CI 18992 19357; CA 19416 19285 19145; CA 19417 19286 19147; CI 19012 19371; CI 19014 19372;
  CI 19166 19301; CA 19474 19225 19258; CA 19476 19485 19409; CX 19486 19487 19403; CI 19390 19354; CI 19186 19408; CI 19391 19351; CI 19260 19358;
  CA 19491 19492 19370; CA 19491 19493 19366; CI 19416 19363; CI 19417 19364; CA 19506 19437 19442; CX 19510 19229 19345; CI 19225 19443; CA 19538 19539 18925;
  CA 19538 19540 19277; CX 19134 19133 19128; CX 19137 19136 19130; CX 19563 19414 18663; CX 19564 19563 19078; CI 19307 19384; CA 19588 19589 18923; CA 19588 19590 19322;
  CX 19605 19603 19451; CX 19642 19562 19140; CA 19603 19643 19368; CA 19603 19644 19070; CX 19605 19645 19543; CI 19487 19545; CX 19675 19722 19596; CX 19722 19674 19594;
  CA 19726 19727 19411; CA 19726 19728 19449; CX 19743 19744 19549; CI 19645 19650; CX 19812 19813 19613; CX 19850 19851 19604; CI 19605 19734; CX 19854 19855 19551;
  CA 19954 19906 19810; CX 19591 19594 19401; CX 18968 18969 18693; CX 18997 18998 18745; CX 19027 19028 18783; CX 19041 19042 18800; CX 19071 19072 18746; CX 19073 19074 18847;
  CX 19083 19084 18879; CX 19091 19092 18871; CX 19095 19096 18695; CX 19111 19112 18906; CX 19113 19114 18908; CX 19143 19144 18747; CX 19150 19151 18872; CX 19154 19155 18952;
  CX 19158 19159 18785; CX 19164 19165 18973; CX 19168 19169 18962; CA 19177 19178 18985; CA 19179 19180 18987; CX 19206 19207 18875; CX 19208 19209 18876; CA 19163 19214 19039;
  CX 19177 19220 19046; CX 19179 19223 19048; CX 19230 19231 19033; CX 19249 19250 19090; CA 19211 19251 19093; CX 19256 19257 18966; CX 19260 18928 19118; CI 19165 19174;
  CX 19263 18982 19116; CX 19115 18982 19182; CX 19264 19265 19120; CA 19266 19267 18905; CA 19270 19271 18907; CX 19220 18986 19172; CX 19223 18988 19176; CX 19285 19008 19146;
  CX 19286 19010 19148; CX 19145 19008 19195; CX 19147 19010 19197; CA 19294 19295 19156; CA 19296 19250 19152; CX 19301 19212 19161; CX 19304 19036 19167; CX 19166 19036 19213;
  CX 19164 18984 19218; CX 19307 19308 19171; CA 19309 19310 18972; CA 19314 18982 19049; CA 19315 19265 19185; CA 19316 19317 19187; CA 19319 18928 19051; CA 19330 19008 19079;
  CA 19331 19010 19081; CA 19306 19341 19226; CA 19344 19036 19160; CA 19345 19346 19228; CX 19351 18992 19183; CX 19354 18990 19181; CA 19356 19263 19268; CA 19357 19358 19272;
  CI 18982 19269; CI 18928 19273; CX 19363 19012 19194; CX 19364 19014 19196; CX 19366 19367 18936; CX 19370 18926 19142; CA 19371 19285 19287; CA 19372 19286 19289;
  CI 19008 19288; CI 19010 19290; CX 19345 19384 19259; CI 19115 19221; CA 19391 19358 19117; CI 19164 19255; CA 19401 19402 19276; CA 19403 19404 19243;
  CA 19401 19405 19280; CA 19403 19406 19282; CA 19407 19408 19119; CA 19409 19186 19232; CX 19411 19128 18398; CX 19412 19130 18400; CX 19413 18925 19274; CX 19277 19414 19275;
  CI 19145 19237; CI 19147 19238; CA 19442 19443 19170; CX 19384 19229 19339; CX 19448 18923 19320; CX 19322 19449 19321; CA 19543 19544 18853; CA 19545 19546 19283;
  CA 19545 19547 19284; CA 19543 19548 19069; CI 19451 19458; CX 19551 19549 19418; CX 19562 19449 18653; CA 19594 19595 19279; CA 19596 19597 18924; CA 19596 19600 19132;
  CA 19594 19601 19281; CX 19603 19604 19488; CA 19549 19611 19337; CA 19549 19612 19005; CX 19551 19613 19498; CX 19645 19604 19452; CA 19650 19651 19241; CA 19650 19654 19505;
  CA 19604 19731 19365; CA 19604 19732 19369; CA 19734 19735 19068; CA 19734 19736 19504; CI 19613 19614; CX 19810 19811 19550; CI 19551 19655; CX 18695 18693 18430;
  CX 18745 18746 18571; CX 18745 18747 18479; CX 18785 18783 18521; CA 18693 18797 17927; CA 18693 18798 18328; CX 18695 18800 18606; CA 18745 18845 18354; CA 18745 18846 17970;
  CX 18847 18746 18480; CX 18747 18847 18665; CX 18871 18872 18684; CX 18871 18875 18599; CA 18783 18877 18362; CA 18783 18878 17986; CX 18785 18879 18690; CX 18905 18906 18619;
  CX 18907 18908 18621; CA 18847 18937 18677; CA 18847 18938 18183; CA 18746 18939 18356; CA 18746 18940 18353; CA 18871 18949 18040; CA 18871 18950 18424; CX 18952 18872 18600;
  CX 18875 18952 18777; CX 18966 18962 18698; CX 18972 18973 18617; CX 18985 18986 18724; CX 18987 18988 18725; CI 18800 18816; CA 18747 18995 18676; CA 18747 18996 17969;
  CA 18952 19023 18787; CA 18872 19024 18425; CA 18872 19025 18423; CA 18952 19026 18233; CA 18962 19031 18139; CA 18962 19032 18546; CX 18966 19033 18893; CI 18879 18880;
  CX 19039 19040 18694; CX 19045 19046 18626; CI 18695 18891; CX 19047 19048 18627; CA 18875 19085 18786; CA 18875 19086 18039; CA 18876 19087 18043; CA 18876 19088 18789;
  CX 19089 19090 18873; CX 19093 19094 18784; CI 18785 18956; CX 19115 19116 18910; CX 19117 19118 18912; CX 19119 19120 18902; CX 19145 19146 18942; CX 19147 19148 18944;
  CX 19152 19153 18874; CX 19156 19157 18953; CX 19160 19161 18703; CX 19166 19167 18971; CX 19170 19171 18964; CA 19112 19172 18977; CA 19114 19176 18979; CA 19181 19182 18989;
  CI 19033 19056; CX 19185 19186 18903; CX 19187 19188 18976; CA 19194 19195 19011; CA 19196 19197 19013; CA 19212 19213 19037; CA 19217 19218 19043; CA 19167 19219 19035;
  CX 19181 19221 19050; CX 19226 19227 18963; CX 19228 19229 19034; CI 18966 19105; CX 19232 19233 18904; CI 19118 19121; CX 19194 19237 19080; CX 19196 19238 19082;
  CX 19243 19142 19077; CX 19217 19255 19098; CX 19258 19259 18967; CX 19117 18928 19184; CA 19268 19269 18909; CA 19272 19273 18911; CX 19221 18990 19173; CX 19255 19044 19175;
  CX 19274 19130 18922; CX 19078 19275 18657; CX 19277 19274 19129; CX 19278 19275 19076; CX 19279 19276 19127; CX 19280 19281 19124; CX 19282 19283 19126; CX 19284 19243 19131;
  CA 19287 19288 18941; CA 19289 19290 18943; CX 19237 19012 19192; CX 19238 19014 19193; CX 19320 19128 18920; CX 19140 19321 18655; CX 19322 19320 19141; CX 19323 19321 19138;
  CA 19308 19339 19224; CI 19117 19222; CX 19284 19283 18661; CX 19450 18924 19189; CX 19451 19452 19360; CX 19279 19281 18728; CA 19458 19459 19336; CA 19458 19460 19334].
(** Lines 15205-15604 of the file. *)
Definition aes128_38 : list cg := [
  CA 19488 19489 18854; CA 19488 19490 19242; CX 19070 19068 19066; CA 19498 19499 18759; CA 19498 19503 19004; CI 19418 19424; CX 19504 19505 19015; CX 19505 19369 18591;
  CX 19549 19550 19455; CI 19452 19500; CX 19613 19550 19419; CA 19614 19615 19202; CA 19614 19616 19465; CA 19550 19652 19338; CA 19550 19653 19333; CA 19655 19656 19006;
  CA 19655 19657 19464; CX 18479 18480 18339; CA 18571 18572 17761; CA 18571 18573 18180; CA 18479 18574 18355; CA 18479 18575 18184; CX 17970 17969 17964; CX 18599 18600 18416;
  CA 18606 18607 17725; CA 18606 18613 17925; CI 18430 18446; CX 18626 18619 18363; CX 18627 18621 18367; CA 18665 18666 17968; CA 18480 18667 18186; CA 18480 18668 18187;
  CA 18665 18669 17760; CX 18676 18677 17971; CX 18677 18356 18177; CA 18684 18685 18234; CA 18684 18686 17814; CA 18599 18687 18426; CA 18599 18688 18229; CX 18040 18039 18030;
  CA 18690 18691 17779; CA 18690 18692 17984; CX 18693 18694 18534; CI 18521 18528; CA 18621 18704 17852; CA 18619 18709 17849; CA 18619 18710 18272; CA 18621 18721 18275;
  CX 18626 18724 18549; CX 18627 18725 18560; CA 18777 18778 17813; CA 18777 18779 18038; CA 18600 18780 18240; CA 18600 18781 18238; CX 18783 18784 18603; CX 18786 18787 18044;
  CX 18425 18787 18223; CX 18800 18694 18431; CA 18816 18817 18568; CA 18816 18818 18153; CX 18873 18874 18680; CX 18873 18876 18601; CX 18879 18784 18522; CA 18880 18881 18191;
  CA 18880 18882 18630; CA 18694 18885 18327; CA 18694 18888 18315; CA 18891 18892 17926; CA 18893 18894 17933; CA 18891 18897 18567; CA 18893 18899 18134; CX 18902 18903 18717;
  CX 18902 18904 18615; CI 18698 18707; CX 18909 18910 18623; CX 18911 18912 18565; CI 18617 18713; CI 18724 18730; CI 18725 18733; CX 18941 18942 18670;
  CX 18943 18944 18672; CA 18873 18948 18429; CA 18873 18951 18042; CX 18874 18953 18602; CX 18876 18953 18774; CA 18784 18954 18361; CA 18784 18955 18360; CA 18956 18957 17985;
  CA 18956 18958 18629; CX 18962 18963 18793; CX 18967 18964 18701; CX 18970 18971 18699; CA 18902 18974 18057; CA 18902 18975 18460; CX 18976 18903 18616; CX 18904 18976 18834;
  CX 18977 18978 18620; CX 18979 18980 18622; CX 18989 18990 18726; CI 18626 18807; CI 18627 18809; CX 19011 19012 18752; CX 19013 19014 18753; CA 18953 19019 18788;
  CA 18874 19020 18428; CA 18874 19021 18422; CA 18953 19022 18231; CA 18964 19029 18138; CA 18964 19030 18544; CX 18967 19034 18886; CX 19033 18963 18697; CX 19035 19036 18700;
  CX 19037 19038 18883; CX 19043 19044 18636; CX 19049 19050 18628; CA 19056 19057 18323; CA 19056 19058 18840; CA 18976 19059 18266; CA 18903 19060 18458; CA 18976 19061 18841;
  CA 18903 19062 18462; CX 19076 19077 18659; CX 19078 19077 18859; CX 19079 19080 18674; CX 19081 19082 18675; CI 18703 18959; CX 19097 19098 18696; CA 18963 19103 18543;
  CA 18963 19104 18541; CA 19105 19106 18135; CA 19105 19108 18839; CA 18904 19109 18058; CA 18904 19110 18842; CX 19123 19124 18919; CX 19125 19126 18921; CX 19127 19128 18646;
  CX 19129 19130 18648; CX 19131 19130 18650; CX 19132 19124 18914; CX 19133 19124 18930; CX 19134 19124 18931; CX 19135 19126 18917; CX 19136 19126 18860; CX 19137 19126 18933;
  CX 19127 19141 18932; CX 19142 19076 18935; CX 19131 19129 18934; CA 19116 19173 18981; CA 19174 19175 18983; CA 19183 19184 18991; CX 19141 19128 18644; CI 19034 19053;
  CX 19189 19138 18993; CA 19146 19192 19007; CA 19148 19193 19009; CX 19183 19222 19052; CX 19224 19225 18965; CI 18967 19101; CX 19222 18992 19122; CX 19276 19189 19139;
  CX 19334 19335 18858; CX 19336 18853 19075; CA 19360 19361 19201; CA 19360 19362 19245; CX 19365 19066 18352; CX 19368 18854 19239; CX 19242 19369 19240; CX 19418 19419 19325;
  CA 19424 19425 19293; CA 19424 19426 19291; CA 19455 19456 18760; CA 19455 19457 19200; CX 19005 19006 19002; CX 19464 19465 18945; CX 19465 19338 18509; CA 19500 19501 19246;
  CA 19500 19502 19244; CI 19419 19461; CA 18339 18340 18185; CA 18339 18341 18181; CX 18353 17964 17972; CX 18354 17761 18178; CX 18355 17760 18182; CX 18180 18356 18179;
  CX 18187 18186 17974; CA 18416 18417 18239; CA 18416 18418 18232; CX 18423 18030 18047; CX 18424 17814 18224; CX 18425 18234 18222; CX 18426 17813 18230; CX 18430 18431 18311;
  CA 18446 18447 18077; CA 18446 18452 18273; CX 18521 18522 18357; CX 18238 18240 18045; CA 18528 18529 18329; CA 18534 18535 18152; CA 18534 18536 17724; CA 18528 18539 18154;
  CX 17927 17926 17913; CA 18549 18550 17654; CA 18549 18559 17847; CA 18560 18561 17850; CA 18560 18562 17655; CI 18363 18373; CI 18367 18371; CX 18567 18568 17864;
  CX 18327 18568 18141; CX 18601 18602 18419; CA 18603 18604 17778; CA 18603 18605 18192; CX 17986 17985 17980; CX 18615 18616 18454; CX 18619 18620 18434; CX 18621 18622 18450;
  CX 18628 18623 18366; CX 18629 18630 17942; CX 18361 18630 18188; CX 18674 18670 18404; CX 18675 18672 18406; CA 18680 18681 18228; CA 18601 18682 18427; CA 18680 18683 17815;
  CA 18601 18689 18237; CX 18042 18043 18032; CX 18617 18696 18532; CX 18697 18698 18530; CX 18699 18700 18523; CX 18699 18703 18432; CA 18707 18708 18459; CA 18623 18711 17854;
  CA 18623 18712 18276; CA 18713 18714 17794; CA 18713 18715 18283; CA 18707 18716 18260; CA 18717 18718 17858; CA 18717 18719 18263; CA 18615 18720 18267; CA 18615 18723 18461;
  CX 18628 18726 18551; CI 18431 18556; CX 18724 18620 18364; CX 18725 18622 18368; CX 18057 18058 18052; CA 18730 18731 18482; CA 18730 18732 18079; CA 18733 18734 18082;
  CA 18733 18735 18483; CA 18670 18748 17903; CA 18670 18749 18306; CA 18672 18750 17906; CA 18672 18751 18308; CX 18674 18752 18593; CX 18675 18753 18595; CA 18602 18773 18241;
  CA 18774 18775 18041; CA 18774 18776 17816; CA 18602 18782 18243; CX 18428 18788 18226; CX 18789 18788 18051; CA 18699 18792 17930; CA 18793 18794 17934; CA 18699 18795 18333;
  CA 18793 18799 18324; CX 18696 18636 18608; CI 18522 18610; CX 18139 18135 18126; CA 18620 18801 18271; CA 18622 18802 18274; CA 18620 18804 18253; CA 18622 18805 18254;
  CA 18807 18808 17848; CA 18809 18810 18484; CA 18809 18811 17851; CA 18807 18832 18481; CA 18834 18835 18056; CA 18616 18836 18278; CA 18834 18837 17857; CA 18616 18838 18279;
  CI 18565 18633; CX 18839 18840 18062; CX 18543 18840 18317; CX 18462 18841 18257; CX 18842 18841 18071; CX 18859 18860 18579; CA 18883 18884 18632; CA 18886 18887 17936;
  CA 18700 18895 18316; CA 18700 18896 18334; CA 18886 18900 18137; CA 18883 18901 18158; CI 18701 18705; CX 18913 18914 18652; CX 18915 18914 18643; CX 18916 18917 18647;
  CX 18918 18917 18660; CX 18919 18920 18654; CX 18921 18922 18664; CX 18923 18914 18645; CX 18924 18914 18656; CX 18925 18917 18649; CX 18926 18917 18658; CI 18726 18736;
  CX 18931 18932 18639; CX 18933 18934 18641; CX 18935 18936 18662; CI 18752 18767; CI 18753 18769; CA 18959 18960 17929; CA 18959 18961 18631; CX 18964 18965 18790;
  CI 18697 18828; CX 18981 18982 18624; CI 18883 18727; CX 18983 18984 18814; CX 18991 18992 18576; CI 18636 18819; CX 18993 18994 18729; CI 18628 18812;
  CX 19007 19008 18671; CX 19009 19010 18673; CI 18674 18865; CI 18675 18867; CX 19034 18965 18702; CX 19051 19052 18625; CI 18696 18889; CA 19053 19054 18326;
  CA 19053 19055 18844; CA 18965 19099 18545; CA 18965 19100 18542; CA 19101 19102 18136; CA 19101 19107 18843; CA 19121 19122 18927; CX 19138 19139 18651; CX 19140 19139 18929;
  CX 19201 19075 19016; CX 19239 19066 18852; CX 19015 19240 18587; CX 19241 19240 19017; CX 19242 19239 19067; CX 19244 19201 19065; CX 19245 19246 19064; CX 19291 19292 18764;
  CX 19293 18759 19018; CA 19325 19326 19149; CA 19325 19327 19203; CX 19333 19002 18302; CX 19337 18760 19198; CX 19200 19338 19199; CX 19244 19246 18585; CA 19461 19462 19205;
  CA 19461 19463 19204; CX 18177 18178 17766; CX 17971 18179 17583; CX 18180 18178 17966; CX 18181 18182 17759; CX 18183 18179 17973; CX 18184 18182 17764; CX 18185 18186 17965;
  CX 18187 18181 17967; CX 18044 18222 17633; CX 18223 18224 17823; CX 18229 18230 17821; CX 18232 18230 17811; CX 18233 18222 18046; CX 18234 18224 18034; CX 18238 18232 18035;
  CX 18239 18240 18031; CX 18273 17725 18078; CA 18311 18312 18160; CA 18311 18313 18081; CX 18315 17913 17937; CX 18327 18152 18140; CX 18328 17724 18142; CX 18329 17779 18155;
  CA 18357 18358 18156; CA 18357 18359 18193; CX 18360 17980 17989; CX 18361 18192 18190; CX 18362 17778 18189; CX 18363 18364 18244; CX 18367 18368 18248; CA 18371 18372 18215;
  CA 18373 18374 18214; CA 18371 18378 18010; CA 18373 18379 18009; CA 18419 18420 18235; CA 18419 18421 18242; CX 18422 18032 18048; CX 18427 17816 18236; CX 18428 18228 18225;
  CX 18429 17815 18227; CA 18434 18435 17653; CA 18434 18443 18080; CA 18450 18451 18083; CA 18450 18453 17656; CA 18454 18455 18277; CA 18454 18456 18264; CX 18458 18052 18068].
(** Lines 15605-16004 of the file. *)
Definition aes128_39 : list cg := [
  CX 17849 17848 17833; CX 18459 17933 18261; CX 17852 17851 17835; CX 18460 17858 18258; CX 18461 17857 18265; CX 18462 18263 18259; CX 18481 18482 17795; CX 18271 18482 18060;
  CX 18274 18483 18063; CX 18484 18483 17796; CX 18241 18243 18050; CA 18523 18524 17726; CA 18523 18527 18157; CA 18530 18531 18262; CA 18532 18533 18337; CA 18530 18538 18330;
  CA 18532 18540 18159; CX 18541 18126 18145; CX 18543 18324 18319; CX 17930 17929 17915; CX 18546 17934 18318; CA 18551 18552 17658; CA 18556 18557 18161; CA 18556 18558 18162;
  CA 18551 18563 17853; CI 18366 18375; CX 18279 18278 18070; CX 18579 18580 15479; CA 18593 18594 17694; CA 18595 18596 17697; CA 18593 18597 17901; CA 18595 18598 17904;
  CI 18404 18408; CI 18406 18410; CA 18608 18609 17603; CA 18610 18611 18194; CA 18610 18612 18195; CA 18608 18614 17793; CX 18623 18624 18436; CX 18565 18625 18448;
  CI 18432 18438; CX 18631 18632 17878; CX 18334 18632 18146; CA 18633 18634 18216; CA 18633 18635 17757; CI 18364 18467; CI 18368 18469; CX 18639 18640 15359;
  CX 18641 18642 15481; CX 18643 18644 15612; CX 18645 18646 18389; CX 18647 18648 15731; CX 18649 18650 18393; CX 18651 18652 18397; CX 18653 18654 15740; CX 18655 18656 18391;
  CX 18657 18658 18395; CX 18659 18660 18399; CX 18661 18662 17638; CX 18663 18664 15835; CX 18670 18671 18489; CX 18672 18673 18491; CX 18701 18702 18525; CA 18705 18706 18463;
  CA 18705 18722 18270; CX 18625 18576 18553; CX 18703 18727 18547; CX 18726 18624 18365; CX 18727 18700 18433; CX 18728 18729 17637; CA 18736 18737 18086; CA 18736 18738 18485;
  CX 18752 18671 18405; CX 18753 18673 18407; CA 18767 18768 18118; CA 18769 18770 18119; CA 18767 18771 18518; CA 18769 18772 18519; CA 18790 18791 17935; CA 18790 18796 18325;
  CX 18138 18136 18128; CA 18624 18803 18282; CA 18624 18806 18255; CA 18812 18813 17855; CA 18814 18815 18284; CA 18819 18820 18570; CA 18819 18821 18090; CA 18814 18822 18256;
  CA 18828 18829 18331; CA 18828 18830 18332; CA 18812 18831 18488; CX 18843 18844 18072; CX 18545 18844 18320; CA 18671 18861 18305; CA 18673 18862 18307; CA 18671 18863 18304;
  CA 18673 18864 18303; CA 18865 18866 17902; CA 18867 18868 17905; CA 18867 18869 18520; CA 18865 18870 18517; CA 18889 18890 17792; CA 18889 18898 18569; CX 18927 18928 18739;
  CI 18814 18618; CI 18576 18741; CX 18929 18930 18637; CI 18702 18825; CI 18625 18823; CX 19015 19016 18761; CX 19017 19016 18589; CX 19063 19064 18851;
  CX 19065 19066 18584; CX 19067 19066 18582; CX 19068 19064 18762; CX 19069 19064 18849; CX 19070 19064 18855; CX 19075 19017 18857; CX 19065 19067 18856; CX 19149 19018 18946;
  CX 19198 19002 18758; CX 18945 19199 18507; CX 19200 19198 19001; CX 19202 19199 18947; CX 19203 19204 19000; CX 19205 19149 19003; CX 19205 19204 18505; CX 17964 17965 17767;
  CX 17966 17964 17753; CX 17967 17964 17577; CX 17968 17965 17754; CX 17969 17965 17763; CX 17970 17965 17768; CX 17971 17759 17762; CX 17972 17973 17578; CX 17974 17973 17765;
  CX 17967 17966 17769; CX 18030 18031 17824; CX 18034 18030 17807; CX 18035 18030 17626; CX 18038 18031 17808; CX 18039 18031 17820; CX 18040 18031 17817; CX 18035 18034 17818;
  CX 18044 17811 17819; CX 18045 18046 17822; CX 18047 18046 17627; CX 18077 18078 17732; CX 18081 18078 17722; CX 17864 18140 17570; CX 18141 18142 17730; CX 18152 18142 17921;
  CX 18153 18140 17938; CX 18154 18155 17780; CX 18156 18155 17777; CX 18160 18161 17914; CX 18162 18081 17924; CX 18188 18189 17782; CX 17942 18190 17595; CX 18191 18190 17988;
  CX 18192 18189 17982; CX 18193 18194 17981; CX 18195 18156 17983; CX 18214 17654 18008; CX 18215 17655 18011; CX 18051 18225 17635; CX 18226 18227 17825; CX 18228 18227 18037;
  CX 18231 18225 18049; CX 18235 18236 17812; CX 18237 18236 17829; CX 18241 18235 18036; CX 18242 18243 18033; CA 18244 18245 18007; CA 18248 18249 18012; CA 18244 18250 18092;
  CA 18248 18252 18094; CX 18253 17833 17859; CX 18254 17835 17865; CX 18257 18258 17876; CX 18071 18259 17681; CX 18260 18261 17940; CX 18262 18261 17931; CX 18263 18258 18054;
  CX 18264 18265 17856; CX 18266 18259 18069; CX 18267 18265 17874; CX 18271 18080 18059; CX 18272 17653 18061; CX 18274 18083 18065; CX 18275 17656 18064; CX 18277 18278 18053;
  CX 18279 18264 18055; CX 18316 17915 17947; CX 18317 18318 17943; CX 18062 18319 17738; CX 18323 18319 18144; CX 18324 18318 18130; CX 18330 18331 18127; CX 18332 18262 18131;
  CX 18333 17726 18147; CX 18334 18157 18148; CX 18337 17603 18019; CX 18162 18161 17939; CX 15479 18345 15250; CX 18365 18366 18246; CX 18195 18194 17987; CA 18375 18376 18218;
  CA 18375 18380 18017; CX 15612 18381 15091; CX 15731 18382 15248; CX 15740 18383 15094; CX 15359 18385 15095; CX 15835 18386 15251; CX 15481 18387 15252; CX 18389 18390 15101;
  CX 18391 18392 15103; CX 18393 18394 15263; CX 18395 18396 15259; CX 18397 18398 15611; CX 18399 18400 15732; CX 18404 18405 18285; CX 18406 18407 18287; CA 18408 18409 18220;
  CA 18410 18411 18221; CA 18410 18412 18029; CA 18408 18413 18026; CX 18432 18433 18309; CA 18436 18437 17657; CA 18438 18439 18088; CA 18438 18440 18280; CA 18436 18444 18085;
  CA 18448 18449 18281; CA 18448 18457 18087; CX 17794 17792 17789; CX 17854 17855 17837; CX 18463 17936 18269; CA 18467 18468 18093; CA 18469 18470 18095; CA 18469 18471 18096;
  CA 18467 18475 18100; CX 18282 18485 18066; CX 18488 18485 17799; CA 18489 18490 17695; CA 18491 18492 17696; CA 18489 18493 18117; CA 18491 18494 18116; CX 17903 17902 17893;
  CX 17906 17905 17895; CX 18517 18518 17805; CX 18305 18518 18110; CX 18307 18519 18114; CX 18520 18519 17806; CA 18525 18526 18268; CA 18525 18537 18335; CX 18542 18128 18149;
  CX 18544 17935 18321; CX 18545 18325 18322; CA 18547 18548 17928; CA 18553 18554 17582; CA 18547 18555 17727; CA 18553 18564 17756; CX 18332 18331 18143; CX 18569 18570 17801;
  CX 18284 18570 18074; CI 17638 16085; CX 18617 18618 18441; CX 18618 18636 18476; CI 18365 18472; CI 18433 18464; CX 18637 18638 15357; CI 17637 16052;
  CI 18405 18511; CI 18407 18514; CA 18739 18740 18217; CA 18741 18742 18014; CA 18741 18743 18486; CA 18739 18744 18213; CX 18761 18762 18495; CA 18823 18824 17758;
  CA 18825 18826 18336; CA 18825 18827 18338; CA 18823 18833 18487; CX 18848 18849 18581; CX 18850 18849 18590; CX 18851 18852 18592; CX 18853 18849 18588; CX 18854 18849 18583;
  CI 18739 18566; CX 18855 18856 18577; CX 18857 18858 18586; CX 18945 18946 18678; CX 18947 18946 18503; CX 18999 19000 18757; CX 19001 19002 18500; CX 19003 19002 18502;
  CX 19004 19000 18755; CX 19005 19000 18765; CX 19006 19000 18679; CX 19018 18947 18763; CX 19003 19001 18766; CX 18532 18476 18196; CX 17753 17754 17555; CX 17759 17754 17579;
  CX 17760 17754 17584; CX 17761 17754 17576; CX 17762 17763 17358; CX 17764 17765 17567; CX 17766 17767 17362; CX 17768 17769 17450; CX 17807 17808 17509; CX 17811 17808 17628;
  CX 17813 17808 17634; CX 17814 17808 17625; CX 17817 17818 17438; CX 17819 17820 17481; CX 17821 17822 17533; CX 17823 17824 17498; CX 17864 17722 17663; CX 17913 17914 17731;
  CX 17921 17913 17710; CX 17924 17913 17559; CX 17925 17914 17711; CX 17926 17914 17664; CX 17927 17914 17728; CX 17937 17938 17560; CX 17924 17921 17729; CX 17939 17938 17733;
  CX 17942 17777 17736; CX 17980 17981 17783; CX 17982 17980 17775; CX 17983 17980 17594; CX 17984 17981 17776; CX 17985 17981 17737; CX 17986 17981 17772; CX 17987 17988 17781;
  CX 17989 17988 17591; CX 17983 17982 17773; CX 18007 18008 17650; CX 18009 18008 17659; CX 18010 18011 17667; CX 18012 18011 17651; CX 18032 18033 17826; CX 18036 18032 17630;
  CX 18037 18032 17809; CX 18041 18033 17810; CX 18042 18033 17827; CX 18043 18033 17832; CX 18048 18049 17631; CX 18036 18037 17828; CX 18050 18049 17830; CX 18051 17812 17831;
  CX 18052 18053 17877; CX 18054 18052 17839; CX 18055 18052 17647; CX 18056 18053 17840; CX 18057 18053 17870; CX 18058 18053 17863; CX 17795 18059 17531; CX 18060 18061 17661;
  CX 18062 17931 17868; CX 18063 18064 17669; CX 17796 18065 17534; CX 18068 18069 17648; CX 18055 18054 17871; CX 18070 18069 17875; CX 18071 17856 17862; CX 18079 18059 17860;
  CX 18080 18061 17841; CX 18082 18065 17866; CX 18083 18064 17842; CX 18092 18093 17834; CX 18094 18095 17836; CX 18096 18012 17843; CX 18100 18007 17846; CX 18126 18127 17944;
  CX 18130 18126 17917; CX 18131 18126 17721; CX 18134 18127 17918; CX 18135 18127 17869; CX 18139 18127 17945; CX 18143 18144 17941; CX 18145 18144 17714; CX 18131 18130 17946;
  CX 18146 18147 17744; CX 17878 18148 17568; CX 18157 18147 17922; CX 18158 18148 17948; CX 18159 18019 17683; CX 18175 15250 15017; CA 18196 18197 18018; CA 18196 18198 18020;
  CX 15091 18199 14899; CX 15248 18200 15007; CX 15611 18201 14901; CX 15101 18202 14902; CX 15103 18203 14903; CX 15732 18204 15010; CX 15263 18205 15009; CX 18206 15259 15011].
(** Lines 16005-16404 of the file. *)
Definition aes128_40 : list cg := [
  CX 18207 15094 14908; CX 15095 18209 14909; CX 18210 15251 15018; CX 18211 15252 15016; CX 18218 17658 18016; CX 18220 17694 18025; CX 18221 17697 18028; CA 18246 18247 18015;
  CA 18246 18251 18098; CX 18255 17837 17879; CX 18256 17789 17884; CX 18268 18269 17932; CX 18270 18269 17954; CX 18276 17657 18067; CX 18280 17727 18089; CX 18281 17582 17976;
  CX 18282 18085 18076; CX 18100 18093 17861; CX 18096 18095 17867; CA 18285 18286 18024; CA 18287 18288 18027; CA 18285 18289 18121; CA 18287 18290 18123; CX 18303 17895 17912;
  CX 18304 17893 17909; CX 18305 18117 18112; CX 18306 17695 18111; CX 18307 18116 18113; CX 18308 17696 18115; CA 18309 18310 18163; CA 18309 18314 18091; CX 18320 18321 17950;
  CX 18072 18322 17740; CX 18325 18321 18132; CX 18326 18322 18150; CX 18335 18336 18129; CX 18338 18268 18133; CX 16085 18346 15256; CX 18384 15357 15093; CX 16052 18388 15179;
  CX 17757 17758 17751; CA 18441 18442 17604; CA 18441 18445 18084; CA 18464 18465 18165; CA 18464 18466 18164; CA 18472 18473 18097; CA 18472 18474 18099; CA 18476 18477 18022;
  CA 18476 18478 18021; CX 18486 18217 18004; CX 18487 18486 17771; CX 18495 18496 15361; CA 18511 18512 18120; CA 18511 18513 18122; CA 18514 18515 18124; CA 18514 18516 18125;
  CX 18565 18566 18369; CX 18338 18336 18151; CX 18566 18576 18401; CX 18577 18578 15363; CX 18581 18582 15614; CX 18583 18584 18349; CX 18585 18586 17639; CX 18587 18588 18347;
  CX 18589 18590 18351; CX 18591 18592 15742; CX 18678 18679 18414; CX 18754 18755 18499; CX 18756 18755 18504; CX 18757 18758 18510; CX 18759 18755 18508; CX 18760 18755 18501;
  CX 18763 18764 18506; CX 18765 18766 18497; CX 18448 18401 18166; CX 17576 17577 17445; CX 17578 17579 17342; CX 17583 17584 17451; CX 17625 17626 17435; CX 17627 17628 17396;
  CX 17633 17634 17070; CX 17663 17664 17343; CX 17710 17711 16885; CX 17722 17711 17561; CX 17724 17711 17558; CX 17725 17711 17571; CX 17728 17729 17206; CX 17730 17731 17344;
  CX 17732 17733 17408; CX 17736 17737 17552; CX 17772 17773 17551; CX 17775 17776 17556; CX 17777 17776 17592; CX 17778 17776 17593; CX 17779 17776 17596; CX 17780 17781 17566;
  CX 17782 17783 17469; CX 17795 17650 17605; CX 17796 17651 17607; CX 17809 17810 16969; CX 17812 17810 17632; CX 17815 17810 17629; CX 17816 17810 17636; CX 17825 17826 17328;
  CX 17827 17828 17208; CX 17829 17830 17527; CX 17831 17832 17327; CX 17833 17834 17662; CX 17835 17836 17670; CX 17839 17840 17453; CX 17841 17833 17640; CX 17842 17835 17642;
  CX 17843 17835 17520; CX 17846 17833 17514; CX 17847 17834 17641; CX 17848 17834 17606; CX 17849 17834 17665; CX 17850 17836 17643; CX 17851 17836 17608; CX 17852 17836 17671;
  CX 17856 17840 17649; CX 17857 17840 17682; CX 17858 17840 17646; CX 17859 17860 17515; CX 17861 17860 17660; CX 17862 17863 17447; CX 17846 17841 17666; CX 17865 17866 17517;
  CX 17867 17866 17668; CX 17868 17869 17482; CX 17843 17842 17672; CX 17870 17871 17448; CX 17874 17875 17490; CX 17876 17877 17503; CX 17917 17918 17506; CX 17922 17915 17712;
  CX 17931 17918 17715; CX 17933 17918 17739; CX 17934 17918 17720; CX 17940 17941 17525; CX 17943 17944 17501; CX 17945 17946 17403; CX 17947 17948 17562; CX 15017 17962 17495;
  CX 17990 14901 14715; CX 17991 14902 14716; CX 17992 14903 14717; CX 17993 15010 14843; CX 15009 17994 14841; CX 17995 15011 14842; CX 17996 14899 14721; CX 17997 15007 14847;
  CX 17998 14908 14723; CX 17999 15018 14849; CX 14909 18000 14725; CX 15016 18001 14851; CX 18015 18016 17652; CX 18017 18016 17677; CX 18018 18019 17602; CX 18020 18021 17790;
  CX 18022 18018 17791; CX 18024 18025 17692; CX 18026 18025 17704; CX 18027 18028 17693; CX 18029 18028 17708; CX 18066 18067 17673; CX 18072 17932 17880; CX 17799 18076 17536;
  CX 18085 18067 17845; CX 18086 18076 17873; CX 18087 17976 17611; CX 18088 18089 17734; CX 18091 18089 17723; CX 18097 18015 17844; CX 18098 18099 17838; CX 18110 18111 17702;
  CX 17805 18112 17546; CX 17806 18113 17548; CX 18114 18115 17706; CX 18116 18115 17898; CX 18117 18111 17897; CX 18118 18112 17908; CX 18119 18113 17911; CX 18120 18024 17899;
  CX 18121 18122 17894; CX 18123 18124 17896; CX 18125 18027 17900; CX 18128 18129 17951; CX 18132 18128 17919; CX 18133 18128 17717; CX 18136 18129 17881; CX 18137 18129 17920;
  CX 18138 18129 17952; CX 18149 18150 17718; CX 18133 18132 17953; CX 18151 18150 17955; CX 18163 18164 17916; CX 18165 18091 17923; CA 18166 18167 17975; CA 18166 18168 17977;
  CX 15256 18176 15021; CX 15093 18208 14907; CX 15179 18212 14958; CX 18213 17751 17797; CX 18283 17604 18075; CX 18284 18084 18073; CX 18097 18099 17872; CX 18022 18021 17882;
  CX 18165 18164 17949; CX 15361 18292 15096; CX 18120 18122 17907; CX 18125 18124 17910; CX 15614 18342 15092; CX 15742 18343 15097; CX 15363 18344 15098; CX 18347 18348 15107;
  CX 18349 18350 15105; CX 18351 18352 15613; CA 18369 18370 17581; CA 18369 18377 18013; CA 18401 18402 17978; CA 18401 18403 17979; CX 18414 18415 15483; CX 18497 18498 15485;
  CX 18499 18500 15733; CX 18501 18502 18299; CI 17639 16018; CX 18503 18504 18301; CX 18505 18506 16087; CX 18507 18508 18297; CX 18509 18510 15837; CX 17342 17445 17335;
  CX 17362 17445 17337; CX 17450 17445 17255; CX 17451 17445 17235; CX 17070 17435 17333; CX 17396 17435 17339; CX 17498 17435 17108; CX 17481 17343 17100; CI 17445 17365;
  CX 17450 17551 17303; CX 17438 17206 17211; CX 17498 17344 17098; CX 17358 17552 17293; CX 17552 15096 16860; CX 17552 14901 17087; CX 17408 17206 17411; CX 17555 17556 17357;
  CX 17509 16885 17091; CX 17408 16885 17415; CX 17558 17559 17433; CX 17560 17561 16965; CX 17566 17567 17422; CX 17533 17408 17423; CX 17570 17571 16877; CX 17403 17450 17414;
  CX 17501 17362 16765; CX 17506 17555 17065; CX 17482 17358 17074; CX 17525 17567 17417; CX 15248 17556 16906; CX 15092 17556 16871; CX 17469 15251 16787; CX 17551 15098 17315;
  CX 17551 14902 17051; CI 17435 17370; CX 17591 17592 17436; CX 17593 17594 17466; CX 17595 17596 17467; CX 17605 17606 17475; CX 17607 17608 17257; CX 17527 17208 17406;
  CX 17527 16969 17419; CX 17629 17630 17393; CX 17631 17632 16967; CX 17635 17636 16821; CX 17637 17453 17201; CX 15731 17453 16805; CX 15614 17453 16874; CX 17448 15363 17177;
  CX 17447 15361 16864; CX 15611 17447 16941; CX 17448 15101 16931; CX 15837 17503 16706; CX 15835 17503 16707; CX 15742 17503 17057; CX 17638 17490 17165; CX 17639 17490 17203;
  CX 17640 17641 17499; CX 17642 17643 16925; CX 17646 17647 17352; CX 17648 17649 17354; CX 17650 17641 17516; CX 17651 17643 17518; CX 17653 17641 17513; CX 17654 17641 17532;
  CX 17655 17643 17535; CX 17656 17643 17519; CX 17659 17660 17510; CX 17661 17662 17401; CX 17665 17666 17502; CX 17667 17668 17505; CI 17552 17504; CX 17669 17670 17280;
  CX 17671 17672 17282; CX 17681 17682 17500; CI 17556 17550; CX 17714 17715 17398; CX 17720 17721 17391; CI 17566 17557; CI 17469 17554; CI 17551 17553;
  CX 17738 17739 17183; CX 17774 14843 14636; CI 17527 17409; CX 17784 14716 14523; CX 17785 14717 14524; CX 14841 17786 14632; CX 17787 14842 14633; CX 17788 14715 14527;
  CX 17789 17790 17616; CX 17791 17789 17486; CX 17792 17790 17614; CX 17793 17790 17601; CX 17794 17790 17617; CI 17447 17597; CX 17799 17652 17609; CI 17448 17598;
  CI 17490 17599; CX 17801 17602 17613; CX 17805 17692 17621; CX 17806 17693 17623; CX 17837 17838 17674; CX 17844 17837 17522; CX 17845 17837 17644; CX 17853 17838 17645;
  CX 17854 17838 17675; CX 17855 17838 17610; CX 17844 17845 17676; CX 17872 17873 17678; CX 17878 17723 17679; CX 17879 17873 17523; CX 17880 17881 17439; CI 17495 14853;
  CX 17893 17894 17703; CX 17895 17896 17707; CX 17897 17893 17688; CX 17898 17895 17690; CX 17899 17893 17541; CX 17900 17895 17543; CX 17901 17894 17689; CX 17902 17894 17622;
  CX 17903 17894 17700; CX 17904 17896 17691; CX 17905 17896 17624; CX 17906 17896 17698; CX 17899 17897 17701; CX 17907 17908 17705; CX 17909 17908 17538; CX 17910 17911 17709;
  CX 17912 17911 17544; CX 17900 17898 17699; CX 17915 17916 17745; CX 17919 17920 17478; CX 17923 17915 17565; CX 17928 17916 17713; CX 17929 17916 17680; CX 17930 17916 17742;
  CX 17932 17920 17719; CX 17935 17920 17716; CX 17936 17920 17741; CX 17949 17948 17735; CX 17950 17951 17440; CX 17952 17953 17483; CX 17954 17955 17529; CX 17923 17922 17743;
  CI 14725 17746; CI 14851 17747; CX 15021 17963 14855; CX 17975 17976 17580; CX 17977 17978 17752; CX 17979 17975 17755; CX 18002 14907 14727; CX 14958 18003 14782;
  CX 17801 18073 17492; CX 18074 18075 17615; CX 18084 18075 17802; CX 18090 18073 17883; CX 18105 15096 14910; CX 15092 18169 14900; CX 15613 18170 14904; CX 15105 18171 14905;
  CX 18172 15107 14906; CX 15097 18173 14911; CX 18174 15098 14912; CX 18216 17581 18005; CX 18013 18217 18006; CX 17979 17978 17800; CX 15483 18219 15255; CX 15733 18291 15249].
(** Lines 16405-16804 of the file. *)
Definition aes128_41 : list cg := [
  CX 15837 18293 15254; CX 18294 15485 15253; CX 16018 18295 15099; CX 16087 18296 15257; CX 18297 18298 15265; CX 18299 18300 15261; CX 18301 18302 15730; CX 17357 17337 17154;
  CX 17358 17235 17152; CX 17362 17335 17150; CX 17333 17343 17035; CX 17339 17344 17037; CX 17398 17342 17291; CX 16965 17433 17340; CX 17396 16965 17346; CX 16877 17433 17259;
  CX 16877 17435 17229; CX 17436 17074 17341; CX 16965 17343 17283; CX 17206 17433 17190; CX 17344 17433 17334; CX 17438 17433 17243; CX 17451 17183 17260; CX 17445 17391 17247;
  CX 17436 17466 17336; CX 15009 17466 17027; CX 14905 17466 17147; CX 17467 17466 17332; CX 17436 15010 17081; CX 17467 14906 17041; CX 17469 17466 17338; CX 17475 14910 16904;
  CX 17475 14715 17079; CX 17482 17257 17137; CX 16967 17393 17240; CX 16821 17393 17228; CX 16967 17327 17287; CX 17328 17393 17241; CX 17208 17393 17248; CX 15263 17352 17047;
  CX 14958 17499 17263; CX 15732 17354 17085; CX 17500 15107 16933; CX 15007 17499 16867; CX 17501 17280 17139; CX 17403 17282 17363; CX 17503 17352 17159; CX 17504 15250 16897;
  CX 17504 15255 16917; CX 17401 14911 17122; CX 17401 15018 16762; CX 17502 14716 16971; CX 17505 17282 17413; CX 17506 16925 17132; CX 17505 16925 17418; CX 17510 15021 17277;
  CI 17433 17394; CX 17513 17514 17395; CX 17515 17516 17375; CX 17517 17518 17118; CX 17519 17520 17392; CX 17525 17505 17421; CX 17531 17532 17400; CX 17534 17535 16963;
  CI 17417 17420; CX 17354 17352 17161; CX 17500 17352 17141; CX 17183 17391 17230; CX 17398 17391 17244; CX 17550 15179 17273; CX 17553 15252 17302; CX 17554 15097 17043;
  CX 17501 17391 17155; CX 15256 17557 17264; CX 15099 17557 17268; CX 15095 17557 17307; CI 17436 17437; CI 17466 17434; CI 17475 17449; CX 17469 15254 16793;
  CX 14721 14523 16345; CX 14632 14847 16349; CX 14721 14527 16078; CX 14523 14527 16259; CX 14847 14636 16081; CX 14632 14636 16266; CX 14523 14727 16344; CX 14632 14853 16351;
  CX 14782 14527 17497; CX 14855 14636 17464; CX 15479 17597 16799; CX 15485 17598 16984; CX 15483 17597 16797; CX 15481 17598 17213; CX 17599 15359 17175; CI 17499 17472;
  CI 17352 17465; CI 17354 17471; CX 17602 17601 17488; CX 17603 17601 17493; CX 17604 17601 17485; CI 17510 17479; CI 17502 17476; CI 17505 17441;
  CX 17609 17610 17456; CI 17500 17470; CX 17613 17614 17474; CX 17615 17616 17379; CX 17621 17622 17329; CX 17623 17624 17484; CX 17644 17645 17454; CX 17652 17645 17524;
  CX 17657 17645 17521; CX 17658 17645 17537; CX 17673 17674 17402; CX 17675 17676 17455; CX 17677 17678 17491; CX 17679 17680 17278; CX 14849 14853 17432; CX 17688 17689 17508;
  CX 17690 17691 17507; CX 17692 17689 17539; CX 17693 17691 17545; CX 17694 17689 17547; CX 17695 17689 17540; CX 17696 17691 17542; CX 17697 17691 17549; CX 17698 17699 17512;
  CX 17700 17701 17428; CX 17702 17703 17330; CX 17704 17705 17528; CX 17706 17707 17427; CX 17708 17709 17526; CX 17712 17713 16801; CX 17716 17717 17186; CX 17718 17719 17198;
  CX 17723 17713 17563; CX 17726 17713 17564; CX 17727 17713 17569; CX 17734 17735 17530; CX 17740 17741 17429; CX 17742 17743 17382; CX 17744 17745 17279; CX 17746 14782 17368;
  CX 17747 14855 17369; CI 14524 16476; CI 14633 16478; CI 14527 17572; CI 14636 17573; CX 17751 17752 17586; CX 17755 17751 17458; CX 17756 17752 17575;
  CX 17757 17752 17587; CX 17758 17752 17590; CX 17771 17580 17589; CX 14723 14727 17431; CX 17791 17802 17618; CX 17802 17789 17600; CX 17882 17883 17684; CX 17884 17883 17487;
  CX 17890 14910 14728; CX 14906 17956 14720; CX 17957 14904 14718; CX 14905 17958 14719; CX 14900 17959 14722; CX 17960 14911 14724; CX 14912 17961 14726; CI 14727 17494;
  CX 18004 18005 17585; CX 17771 18006 17461; CX 18013 18005 17770; CX 18014 18006 17798; CX 18023 15255 15019; CX 18101 15249 15008; CX 18102 15265 15014; CX 15261 18103 15012;
  CX 15730 18104 15013; CX 18106 15254 15015; CX 18107 15253 15020; CX 15099 18108 14913; CX 18109 15257 15022; CX 17154 17155 16924; CX 17235 17332 17136; CX 17333 17259 17130;
  CX 17334 16885 17123; CX 17335 17336 17138; CX 17337 17338 17131; CX 17339 17340 17121; CX 17108 17334 17126; CX 17341 17342 17117; CX 17343 17259 17127; CX 17340 17344 17025;
  CX 17363 17247 17146; CX 17137 17291 17168; CX 15093 17332 16862; CX 17365 17332 17182; CX 17336 15094 17052; CX 17338 15091 16873; CX 17241 16969 17221; CX 17327 17228 17222;
  CX 17240 17328 16975; CX 17391 17392 17286; CX 17394 17370 17289; CX 17118 17392 17245; CX 17375 17395 17237; CX 14841 17395 17059; CX 17398 17118 17292; CX 16963 17392 17231;
  CX 16963 17391 17234; CX 17400 17395 17224; CX 15740 17161 17119; CX 17141 15357 16902; CX 17375 14843 17134; CX 15612 17159 16909; CX 17257 17118 17290; CX 17280 17392 17236;
  CX 17282 17392 17246; CX 17401 17395 17238; CX 17403 17392 17256; CX 17413 17414 17308; CX 17132 17417 17269; CX 17418 17417 17272; CX 17420 17303 17281; CX 17421 17357 17265;
  CX 17422 17363 17301; CX 17421 17414 17314; CX 17434 14903 17013; CX 17437 14904 17169; CX 17244 17280 17151; CX 17230 17257 17153; CX 17441 17422 17347; CX 17449 15019 16857;
  CX 17449 15017 16853; CX 17464 17432 16348; CX 15105 17465 16935; CX 15012 17466 17061; CX 15103 17465 16916; CX 17431 16345 16258; CX 17464 16349 16080; CX 16081 16351 16264;
  CX 17470 15265 16920; CX 17470 15259 16927; CX 17471 15613 16945; CX 17472 14900 16912; CX 17439 17474 17295; CX 17329 17475 17345; CX 17474 14728 16856; CX 17474 14853 16816;
  CX 17474 14527 17089; CX 17476 14912 17318; CX 17476 15016 17311; CX 14724 17379 17029; CX 14849 17379 16705; CX 17479 14909 17300; CX 17481 17329 17128; CX 17484 17327 16986;
  CX 17456 17278 16947; CI 17395 17373; CI 17375 17376; CX 17485 17486 17372; CX 17487 17488 17371; CI 17400 17377; CX 17492 17493 17374; CX 17484 17439 17072;
  CX 17497 16345 16077; CX 16078 16344 16261; CX 17432 16349 16265; CX 17497 17431 16350; CX 17498 17330 16767; CX 17438 17428 17412; CX 17502 17428 17313; CX 17427 17328 16988;
  CX 17402 17279 16949; CX 17401 15015 16761; CX 17507 16969 16980; CX 17508 17499 17326; CX 17454 16801 16943; CX 17508 17509 17124; CX 17510 14913 17271; CX 17512 17208 17331;
  CX 17455 17382 17179; CX 17521 17522 17351; CX 17523 17524 17353; CX 17526 17527 17388; CX 17528 17510 17407; CX 17491 17530 17364; CX 17528 17533 17416; CX 17536 17537 17361;
  CX 17427 17440 16733; CX 17507 17478 17063; CX 17538 17539 17196; CX 17540 17541 17426; CX 17542 17543 17390; CX 17544 17545 17399; CX 17512 17483 17404; CX 17546 17547 17405;
  CX 17548 17549 16976; CX 17526 17529 17387; CX 17198 17186 17192; CX 17440 17186 17191; CX 17530 17382 17359; CX 17429 17186 17184; CX 17530 16801 17386; CX 17562 17563 16923;
  CX 17564 17565 17356; CX 17568 17569 17397; CX 17572 14725 17367; CX 17573 14851 17366; CX 17368 16476 16534; CX 17369 16478 16536; CX 17580 17575 17460; CX 17581 17575 17457;
  CX 17582 17575 17462; CX 17585 17586 17178; CX 17589 17590 17167; CX 17600 17601 17473; CX 17617 17618 17477; CI 17530 17383; CX 17683 17684 17511; CX 14724 14728 17443;
  CX 17748 14720 14526; CX 14719 17749 14525; CX 14718 17750 14528; CX 17755 17770 17588; CX 17770 17751 17574; CX 17797 17798 17459; CX 17800 17798 17612; CI 14728 17463;
  CX 15019 17804 17430; CX 15012 17885 14844; CX 17886 15013 14845; CX 17887 15008 14848; CI 14722 17425; CX 17888 15015 14850; CI 14726 17685; CX 15020 17889 14852;
  CX 14913 17891 14729; CX 15022 17892 14856; CI 15014 17468; CX 16924 16925 16806; CX 17117 17118 16913; CX 17121 17122 16661; CX 17123 17124 16908; CX 17126 17124 16911;
  CX 17127 17128 16899; CX 17130 17128 16903; CX 17131 17132 16905; CX 17136 17137 16898; CX 17138 17139 16690; CX 17146 17147 16755; CX 17150 17151 16711; CX 17152 17153 16918;
  CX 17168 17169 16758; CX 17182 17183 16962; CX 17221 17063 16961; CX 17222 17072 16958; CX 14907 17224 16900; CX 17230 17231 17073; CX 17234 17235 17023; CX 17236 16925 17066;
  CX 17237 14908 17024; CX 17238 14899 16907; CX 17236 17155 17064; CX 17244 17245 17042; CX 17246 17247 17050; CX 17255 17256 17060; CX 17257 17231 17077; CX 17260 17231 17012;
  CX 17264 17265 16851; CX 17268 17269 16914; CX 17272 17273 16852; CX 17245 17280 17053; CX 17281 17282 17096; CX 17260 17286 17040; CX 17290 17291 17086; CX 17292 17293 17080;
  CX 17301 17302 16846; CX 17303 17286 17026; CX 17307 17308 16847; CX 17289 17313 17058; CX 17314 17315 16881; CX 17345 17346 17133; CX 17347 17065 17135; CX 16350 16534 16480;
  CX 16348 16536 16485; CX 16350 16344 16994; CX 16348 16351 17001; CX 17366 16265 16999; CX 17367 16258 16995; CX 16258 16476 16441; CX 16265 16478 16444; CX 17368 16258 16260;
  CX 17369 16265 16262; CX 17371 17372 17187; CX 14717 17373 17020; CX 14719 17373 16972; CX 14525 17372 17106; CX 14632 17372 17039; CX 14524 17372 17019; CX 17374 17372 17185].
(** Lines 16805-17204 of the file. *)
Definition aes128_42 : list cg := [
  CX 17375 17128 17195; CX 17072 17371 17197; CX 17376 14718 17095; CX 17371 14528 17114; CX 17371 14636 17083; CX 17377 14720 17049; CX 14526 17374 17031; CX 17379 17372 17188;
  CX 17390 17186 17249; CX 17390 17393 17285; CX 17356 17351 17173; CX 14844 17395 17033; CX 17396 17196 17284; CX 17397 17361 17172; CX 17399 16967 17294; CX 17353 16923 17298;
  CX 17361 17351 17233; CX 17353 17351 17251; CX 17397 17351 17143; CX 16821 17390 17232; CX 17402 17351 16937; CX 17404 17393 17226; CX 17405 17070 17258; CX 17406 17404 17310;
  CX 17407 17408 17320; CX 17411 17412 17299; CX 17415 17416 17262; CX 17388 17404 17316; CX 16980 17387 17267; CX 17091 17416 17270; CX 17419 17387 17275; CX 17407 17211 17312;
  CX 17423 17412 17319; CX 17326 17423 17276; CA 16258 16261 17005; CA 16350 16344 17003; CA 16077 16078 17215; CA 16080 16081 17217; CA 16265 16264 17011; CA 16348 16351 17009;
  CX 17399 17198 17288; CX 16976 17390 17227; CX 17399 17390 17239; CX 17196 17426 17254; CX 17427 17390 17194; CX 17330 17426 17253; CX 17428 17426 17242; CX 17429 16976 17261;
  CX 17405 17426 17223; CX 17367 17431 16342; CX 16534 14727 16535; CX 17366 17432 16346; CX 16923 17356 17250; CX 17397 17356 17163; CX 17278 16923 17170; CX 17382 17356 17148;
  CX 17279 17356 17252; CX 17439 17184 17109; CX 17440 17192 17111; CX 16534 14721 16479; CX 17178 17402 16764; CX 17167 17447 17297; CX 17456 17167 17076; CX 17457 17458 17350;
  CX 17459 17460 17157; CX 17461 17462 17360; CX 16536 14853 16537; CX 16536 14847 16484; CX 17467 17468 17022; CX 17473 14847 16818; CX 14850 17379 16742; CX 17477 14726 17317;
  CX 17477 14851 17306; CX 17477 14523 17055; CX 17478 17473 17380; CX 17483 17477 17304; CI 17416 17385; CA 16534 17494 17322; CA 16536 17495 17323; CI 17426 17225;
  CX 17511 14725 17309; CX 17529 17511 17410; CX 17425 14525 16154; CX 14525 14528 16219; CX 17425 14528 16012; CX 14525 14728 16223; CX 14726 14528 17348; CX 14729 14528 17444;
  CX 17574 17575 17452; CI 17473 17446; CX 17587 17588 17210; CX 17611 17612 17489; CI 17511 17480; CI 17443 17442; CX 17685 14729 17349; CI 14526 16429;
  CX 17686 14844 14634; CX 17687 14845 14637; CI 17430 14854; CX 17468 17803 14846; CI 14852 17619; CX 16806 15249 16659; CX 16897 16898 16639; CX 16899 16900 16745;
  CX 16903 16904 16744; CX 16905 16906 16640; CX 16907 16908 16753; CX 16911 16912 16754; CX 16913 15013 16699; CX 16914 16758 16600; CX 16917 16918 16658; CX 16962 16963 16814;
  CX 16846 16851 16556; CX 16852 16847 16532; CX 16881 16914 16531; CX 17012 17013 15463; CX 17022 17023 15608; CX 17024 17025 16686; CX 17026 17027 16783; CX 17040 17041 15328;
  CX 17042 17043 16663; CX 17050 17051 16756; CX 17052 17053 16665; CX 17058 17059 16751; CX 17060 17061 16698; CX 17064 17065 16870; CX 17066 17065 16872; CX 17073 17074 16859;
  CX 17077 17074 16861; CX 17080 17081 16784; CX 17086 17087 16759; CX 17096 15253 16788; CI 16758 16878; CX 17133 17134 16752; CX 17135 15257 16789; CX 16260 16259 16990;
  CX 16262 16266 16992; CX 17184 17185 16985; CX 17185 14727 16959; CX 17185 17186 16977; CX 14723 17187 16974; CX 17188 14721 16960; CX 17191 17188 16979; CX 17192 17187 16987;
  CX 17195 17196 16964; CX 17197 17198 16966; CX 17223 17224 17099; CX 17225 17224 17069; CX 17226 17186 17044; CX 17227 17228 17071; CX 17229 17223 17014; CX 17232 17184 17017;
  CX 17233 17163 17075; CX 17239 17240 17028; CX 17194 17241 17062; CX 17242 17243 17032; CX 17248 17249 17054; CX 17250 17251 17056; CX 17252 16937 17067; CX 17253 17238 17090;
  CX 17254 17237 17097; CX 17258 17259 17021; CX 17261 17228 17018; CX 17262 17263 16848; CX 17270 17271 16849; CX 17276 17277 16896; CX 17233 17278 16929; CX 17251 17279 16939;
  CX 17283 17284 17078; CX 17261 17285 17030; CX 17287 17288 17088; CX 17289 17258 17048; CX 17294 17295 17082; CX 17297 17298 17084; CX 17299 17300 16844; CX 17304 17285 17038;
  CX 17100 17284 17094; CX 17309 17310 16841; CX 17311 17312 16895; CX 17316 17317 16879; CX 17318 17319 16845; CX 17320 17124 17092; CA 16260 16259 17101; CA 16262 16266 17103;
  CX 17322 17003 16831; CX 17323 17009 16835; CX 17326 17253 17107; CX 17227 17327 17110; CX 17239 17328 17112; CX 17329 17223 17034; CX 17254 17330 17036; CX 17331 17249 17105;
  CX 16986 17288 17113; CX 17252 16801 17125; CX 17278 17163 17129; CX 17250 17279 17120; CX 16535 16259 16442; CX 16537 16266 16443; CX 16479 16345 16477; CX 16484 16349 16483;
  CX 17350 17351 17149; CX 17350 17352 17145; CX 17157 17353 17171; CX 17157 17350 17160; CX 17354 17076 17156; CX 17178 17350 17158; CX 17360 17361 17162; CX 17360 17350 17142;
  CX 17225 17370 17189; CX 14634 17372 17045; CX 17380 17191 17193; CX 17385 17313 17205; CX 17304 17387 17207; CX 17380 17388 17200; CA 16342 16345 17102; CA 16479 16476 17216;
  CA 16484 16478 17220; CA 16346 16349 17104; CX 17400 14846 17015; CX 17409 17410 17321; CX 17331 17410 17305; CX 17442 17348 16155; CX 17443 16154 16218; CX 17444 17443 16224;
  CX 17446 14782 17274; CX 17446 14722 16868; CX 17210 17448 17296; CX 17452 17453 17164; CX 17452 17454 17068; CX 17455 17210 17355; CX 17444 16154 16011; CX 16012 16223 16215;
  CX 17474 14854 16883; CX 17480 14729 17266; CX 17480 14855 17199; CX 17489 17490 17384; CX 17489 17491 17381; CX 14848 14634 16228; CI 16219 17140; CX 14848 14637 16015;
  CX 14634 14637 16148; CX 14634 14854 16227; CX 17349 16429 16508; CX 14856 14637 17424; CX 14850 14854 17389; CX 17619 14856 17325; CX 17620 14846 14635; CI 14637 17496;
  CX 16698 16659 15345; CX 16659 16699 15005; CX 16640 16783 15282; CX 16640 16784 14965; CX 16698 16699 15242; CX 16783 16639 15288; CX 16787 16639 16691; CX 16788 16699 16560;
  CX 16789 16699 16628; CX 16767 16745 16687; CX 16698 16658 15348; CX 16793 16658 16712; CX 16814 15011 15562; CX 16751 16752 15144; CX 16783 16784 15194; CX 16756 16759 15137;
  CX 16531 15328 15552; CX 16532 15463 15577; CX 16846 16784 16553; CX 16847 16759 16526; CX 16851 16784 16620; CX 16852 16759 16601; CI 16639 16657; CX 16789 16788 16565;
  CI 16745 16790; CX 16859 16860 16743; CI 16744 16766; CX 16861 16862 16746; CX 16870 16871 16726; CX 16872 16873 16757; CX 16755 16878 14953; CX 16881 16878 16525;
  CI 16658 16692; CX 16895 16752 16523; CX 16896 16752 16597; CX 16958 16959 16791; CX 16960 16961 16749; CX 16964 16965 16822; CX 16966 16967 16823; CX 16974 16975 16684;
  CX 16976 16977 16820; CX 16979 16980 16817; CX 16985 16986 16815; CX 16987 16988 16629; CX 16844 16848 16555; CX 16845 16849 16529; CX 16895 16896 16530; CX 17014 17015 15461;
  CX 17018 17019 15555; CX 17020 17021 15564; CX 17028 17029 16646; CX 17030 17031 15417; CX 17032 17033 16679; CX 17034 17035 16858; CX 17036 17037 16671; CX 17038 17039 16697;
  CX 17044 17045 16721; CX 17048 17049 15411; CX 17054 17055 16778; CX 17056 17057 16667; CX 17062 17063 16869; CX 17067 17068 16875; CX 17069 17070 16876; CX 17071 17072 16855;
  CX 17075 17076 16863; CX 17078 17079 16781; CX 17082 17083 16722; CX 17084 17085 16702; CX 17088 17089 16813; CX 17090 17091 16866; CX 17092 15022 16731; CX 17094 17095 16782;
  CX 17097 17098 16669; CX 17099 17100 16854; CX 17101 17102 16825; CX 17103 17104 16827; CX 17105 17106 16724; CX 17107 17108 16884; CX 17109 17110 16882; CX 17111 17112 16655;
  CX 17113 17114 16750; CX 17119 17120 16688; CX 17125 17068 16910; CX 17129 17076 16901; CX 16480 16477 16739; CX 16485 16483 16741; CX 17141 17142 16946; CX 17143 17142 16919;
  CX 17148 17149 16930; CX 17156 17157 16922; CX 17158 17159 16942; CX 17160 17161 16948; CX 17162 17163 16915; CX 17164 17158 16936; CX 17167 17142 16928; CX 17170 17171 16940;
  CX 17172 17145 16926; CX 17162 17173 16932; CX 17178 17160 16938; CX 17171 16947 16944; CX 17179 17149 16934; CX 17189 17190 16970; CX 17193 17194 16968; CX 17199 17200 16842;
  CX 17205 17206 16981; CX 17207 17208 16982; CX 17189 17211 16973; CA 16483 16485 17008; CA 16477 16480 17002; CA 16442 16441 17004; CA 16443 16444 17010; CX 17215 17102 16993;
  CX 17216 17005 16989; CX 17217 17104 17000; CX 17220 17011 16991; CX 17266 17267 16880; CX 17274 17275 16843; CX 17296 17173 17046; CX 17305 17306 16840; CX 17321 17063 17093;
  CX 16224 16508 16430; CX 16224 16223 16998; CX 17348 16218 16996; CX 16218 16429 16426; CX 17349 16218 16217; CX 17355 17356 17144; CX 17359 17355 17174; CX 17364 17355 17176;
  CX 17164 17364 17166; CX 17381 17382 17209; CX 17383 17384 17214; CX 17386 17381 17202; CX 16943 17381 17204; CX 17384 17179 17212; CA 16011 16012 17218; CA 16218 16215 16957;
  CA 16155 16154 17007; CA 16224 16223 16955; CX 16508 14728 16509; CX 17424 17389 16229; CX 16508 17425 16431; CX 17389 16228 16150; CX 17424 16228 16014; CX 16015 16227 16152;
  CA 16508 17463 17219; CX 17496 14852 17324; CX 17325 14635 16482; CI 14635 17378; CX 15005 15348 15241; CX 16628 15345 15006; CX 14965 15288 15190; CX 16620 15282 14966].
(** Lines 17205-17604 of the file. *)
Definition aes128_43 : list cg := [
  CX 16686 16687 16617; CX 16690 16691 16619; CX 16711 16712 16627; CX 16556 15562 15622; CX 16743 15552 15551; CX 16746 15577 15578; CX 16755 16726 16660; CX 16756 16757 15212;
  CX 16758 16726 14831; CX 16757 16759 14922; CX 16757 15577 15465; CX 16755 16743 15077; CX 16756 16746 15210; CX 16565 15608 15648; CX 16765 16743 16664; CX 16765 16746 16666;
  CX 16766 16767 16662; CX 16753 16781 14963; CX 16754 16782 14827; CX 16749 16778 15202; CX 16749 16813 14961; CI 15552 16725; CX 16815 16816 16604; CI 16743 16768;
  CI 16746 16769; CX 16817 16818 16575; CX 16820 16821 16732; CX 16822 14845 16680; CX 16823 14637 16723; CX 16697 16722 14957; CX 16778 16813 15143; CX 16840 16722 16470;
  CX 16841 16813 16550; CX 16842 16722 16559; CX 16843 16813 16616; CX 16555 15564 15620; CX 16529 15411 15553; CX 16844 16781 16551; CX 16845 16782 16524; CX 16848 16781 16618;
  CX 16849 16782 16596; CX 16853 16854 16590; CX 16855 16856 16792; CX 16857 16858 16642; CX 16863 16864 16735; CX 16866 16867 16591; CX 16868 16869 16748; CX 16874 16875 16704;
  CX 16876 16877 16763; CX 16724 16750 15058; CX 16879 16750 16506; CX 16880 16750 16577; CX 16882 16883 16675; CX 16884 16885 16770; CX 16901 16902 16694; CI 16791 16747;
  CX 16909 16910 16703; CX 16915 16916 15572; CX 16919 16920 15338; CX 16922 16923 16807; CX 16926 16927 15349; CX 16928 16929 16796; CX 16930 16931 16785; CX 16932 16933 15326;
  CX 16934 16935 16729; CX 16936 16937 16800; CX 16938 16939 16633; CX 16940 16941 16786; CX 16942 16943 16804; CX 16944 16945 16760; CX 16946 16947 16798; CX 16948 16949 16631;
  CX 16842 16840 16471; CX 16968 16969 16819; CX 16970 16971 16779; CX 16972 16973 16780; CX 16981 15020 16730; CX 16982 14852 16727; CX 16989 16990 16824; CX 16991 16992 16826;
  CX 16993 16994 16832; CX 16995 16993 16829; CX 16999 17000 16839; CX 17000 17001 16836; CX 17002 17003 16830; CX 17004 17005 16828; CX 17008 17009 16837; CX 17010 17011 16838;
  CX 16880 16879 16507; CX 16841 16843 16552; CX 17046 17047 16701; CX 17093 14856 16728; CX 17140 16217 16951; CX 17144 17145 16921; CX 17165 17166 16865; CX 17174 17175 16794;
  CX 17176 17177 16795; CX 17201 17202 16802; CX 17203 17204 16803; CX 17209 17210 16983; CX 17212 17213 16850; CX 17214 17068 16978; CA 16217 16219 17006; CX 17218 17007 16997;
  CX 17219 16955 16833; CX 16509 16219 16425; CX 16229 16482 16434; CX 16229 16227 16889; CX 16431 16154 16428; CX 17324 16150 16890; CX 16150 14635 16360; CX 17325 16150 16151;
  CA 16431 16429 17181; CA 16150 16152 16892; CA 16014 16015 17115; CA 16229 16227 16894; CX 17378 17374 17016; CX 16482 14848 16433; CX 17324 17389 16225; CX 16482 14854 16481;
  CA 16482 17430 17180; CA 15006 15005 16515; CX 16618 16617 15280; CX 16551 16617 15286; CX 16619 15282 15191; CX 16620 16619 15285; CX 16553 16619 15283; CX 16627 15345 15240;
  CX 16560 16627 15341; CX 16628 16627 15347; CX 16639 15622 15624; CX 16640 15622 15567; CA 14966 14965 16497; CA 15622 16657 16498; CX 16658 15648 15647; CX 15578 15137 15406;
  CX 15551 14953 15320; CX 15465 15212 15464; CX 16659 15648 15610; CX 14831 15077 14990; CX 14922 15210 15136; CX 16600 16660 14830; CX 16601 15212 14918; CX 16661 16662 16593;
  CX 16663 16664 16598; CX 16665 16666 16599; CA 15648 16692 16514; CA 15465 15463 16462; CX 16616 15202 14960; CX 16575 16697 15031; CX 16575 16722 14834; CX 16721 16723 15039;
  CX 16679 16680 15130; CI 16660 15029; CX 16725 16726 15331; CX 16727 16723 16517; CX 16728 16723 16589; CX 16730 16680 16522; CX 16731 16680 16595; CX 16732 14633 15332;
  CX 16744 15553 15554; CX 16745 15620 15623; CX 16748 16724 15156; CX 16748 16750 14883; CX 16591 16751 15216; CX 16591 16752 14926; CX 16753 15620 15568; CX 16754 15553 15413;
  CX 16704 16729 15064; CX 16704 16760 14924; CX 16679 16642 15205; CX 16751 16590 15217; CX 16761 16642 16672; CX 16762 16590 16670; CX 16763 14842 15467; CX 16735 16764 16668;
  CA 15552 16768 16440; CA 15577 16769 16463; CX 16770 15008 16645; CX 16778 16747 15277; CX 16779 16753 15278; CX 16780 16754 15151; CX 16703 16785 15281; CX 16703 16786 14970;
  CX 16779 16745 15287; CX 16744 16780 15159; CX 16785 16694 15290; CX 16764 16694 16689; CX 16733 16747 16685; CA 15553 16766 16460; CA 15620 16790 16496; CX 16785 16786 15199;
  CX 16729 16760 15049; CX 16794 16786 16554; CX 16795 16760 16527; CI 16604 16574; CX 16796 16797 16641; CX 16798 16799 16695; CX 16800 16801 16710; CX 16802 16786 16622;
  CX 16803 16760 16603; CX 16804 16805 16700; CX 16807 15730 16626; CI 14957 16339; CI 15143 16452; CX 16779 16781 15192; CX 16780 16782 15061; CX 16727 16728 16518;
  CX 16730 16731 16528; CI 16590 16623; CI 16792 16720; CI 16642 16674; CI 16735 16696; CX 16819 14848 16644; CX 16824 16825 16543; CX 16826 16827 16545;
  CX 16828 16829 16718; CX 16830 16825 16738; CX 16831 16832 16648; CX 16835 16836 16649; CX 16837 16827 16740; CX 16838 16839 16719; CI 16675 16643; CX 16507 15417 15456;
  CX 16552 15555 15558; CX 16701 16702 14994; CX 16850 16702 16473; CI 16694 16734; CX 16865 16702 16564; CX 16921 15261 16624; CX 16802 16794 16557; CX 16865 16850 16475;
  CX 16803 16795 16533; CX 16978 16087 16709; CX 16983 16984 16708; CX 16996 16997 16812; CX 16997 16998 16834; CX 17006 17007 16809; CX 17016 17017 15435; CX 16151 16148 16887;
  CX 16430 16428 16717; CA 16428 16430 16954; CA 16425 16426 16956; CA 16151 16148 16952; CX 17180 16894 16773; CX 17181 16957 16950; CX 16481 16148 16359; CX 16433 16228 16432;
  CA 16225 16228 16953; CA 16433 14635 17116; CX 15280 15620 15563; CX 15280 15287 16365; CX 15285 15622 15561; CX 15285 15288 16369; CX 15562 15191 15443; CX 16553 15191 16367;
  CX 16556 15191 15195; CX 15347 15648 15607; CX 15347 15348 16407; CX 15608 15240 15476; CX 16560 15240 16409; CX 16565 15240 15243; CX 15624 15194 15444; CX 15567 15282 15566;
  CA 15280 15287 16377; CA 15286 15278 16381; CA 15283 15282 16383; CA 15285 15288 16385; CA 15191 15190 16387; CA 15341 15345 16411; CA 15347 15348 16422; CA 15240 15241 16424;
  CA 15567 15562 16499; CX 15151 16593 15053; CX 15647 15242 15475; CX 15610 15345 15609; CX 16596 16593 15153; CX 16524 16593 15149; CX 16598 15029 14989; CX 15212 16599 15139;
  CX 16600 16598 16521; CX 16525 16598 15028; CX 16526 16599 15211; CX 16601 16599 15213; CX 15278 16617 15188; CA 14830 14831 16457; CA 15610 15608 16516; CA 14918 14922 16464;
  CX 16559 15031 14833; CX 15331 15029 15329; CX 16471 15332 15335; CA 14960 14961 16503; CX 16577 15156 14884; CX 15623 15192 15442; CX 15554 15061 15314; CX 15568 15278 15565;
  CX 15413 15151 15412; CX 14926 15217 15142; CX 16597 15216 14927; CX 16603 15064 14928; CX 16530 15467 15575; CX 16667 16668 16602; CX 16669 16670 16594; CX 16671 16672 16592;
  CA 15331 15328 16458; CX 16679 16645 15206; CX 16645 16680 14921; CX 14961 15277 15184; CX 14963 15287 15187; CX 14827 15159 15052; CX 16618 15278 14967; CX 16596 15151 14828;
  CX 14970 15290 15200; CX 16622 15281 14969; CX 16684 16685 16615; CX 16688 16689 16621; CA 15413 15411 16461; CA 15568 15564 16494; CI 15039 16427; CX 16697 16574 15068;
  CX 16700 16701 15079; CX 16700 16702 14839; CX 16624 16626 14998; CX 16705 16574 16630; CX 16701 16695 15070; CX 16624 16641 15075; CX 16706 16641 16634; CX 16707 16695 16632;
  CX 16708 16626 16472; CX 16709 16626 16563; CX 16710 15733 16625; CX 16718 16543 16608; CX 16719 16545 16606; CX 15456 16720 15454; CX 16721 16644 15113; CX 16644 16723 14898;
  CX 16724 16720 15155; CX 16518 15435 15438; CX 16729 16696 15147; CX 16528 15461 15569; CX 16733 16720 16647; CX 16738 16739 16539; CX 16740 16741 16541; CX 16721 16643 15181;
  CX 16742 16643 16656; CX 15558 16747 15559; CX 16748 15456 15414; CX 16749 15558 15556; CA 16543 16648 16650; CA 16545 16649 16652; CA 16718 16648 16582; CA 16719 16649 16584;
  CI 16641 16673; CI 16695 16713; CA 15558 16791 16504; CA 15456 16792 16439; CX 16557 15572 15619; CX 16533 15326 15550; CX 16475 15349 15420; CI 16543 16736;
  CI 16545 16737; CX 16708 16709 16474; CX 16833 16834 16635; CX 16950 16951 16808; CX 16952 16953 16772; CX 16954 16955 16810; CX 16956 16957 16811; CX 16434 16432 16683;
  CA 16432 16434 16893; CA 16359 16360 16891; CX 17115 16953 16888; CX 17116 16892 16886; CX 15565 15563 16024; CX 15195 15194 16282; CX 15561 15566 16026; CX 15243 15242 16341;
  CX 15609 15607 16034; CA 15563 15565 16376; CA 15195 15194 16382; CA 15561 15566 16384; CA 15444 15443 16386; CX 16496 16377 16156; CX 16497 16383 16368; CX 16498 16385 16164;
  CX 16499 16387 16281; CA 15243 15242 16410; CA 15607 15609 16421; CA 15476 15475 16423; CX 16514 16422 16192; CX 16515 16411 16408; CX 16516 16424 16340; CX 15153 15553 15422;
  CX 15153 15159 16294; CX 15213 15577 15466; CX 16521 15077 16292; CX 15213 15210 16297; CX 15411 15053 15315; CX 16524 15053 16295; CX 15328 14989 15321; CX 15463 15139 15404].
(** Lines 17605-18004 of the file. *)
Definition aes128_44 : list cg := [
  CX 16525 14989 16290; CX 16526 15139 16298; CX 16529 15053 15060; CX 16531 14989 14954; CX 16532 15139 15138; CX 15564 15188 15447; CX 16551 15188 16366; CX 16555 15188 15193;
  CA 15028 15029 16312; CA 15149 15151 16318; CA 15053 15052 16320; CA 15153 15159 16316; CA 14989 14990 16314; CA 15211 15212 16338; CA 15139 15136 16324; CA 15213 15210 16322;
  CA 15188 15187 16379; CX 15335 16574 15336; CX 16575 15335 15333; CI 16521 15066; CX 16590 15575 15560; CX 16591 15575 15458; CX 16592 15206 15132; CX 16594 15216 15141;
  CX 16595 16592 15207; CX 16522 16592 15208; CX 16597 16594 15215; CX 16523 16594 15218; CX 15064 16602 15127; CX 16527 16602 15063; CX 16603 16602 15150; CA 14833 14834 16415;
  CA 15335 16604 16417; CX 14921 15205 15134; CX 16595 15206 14920; CX 16615 15202 15185; CX 16616 16615 15293; CX 16550 16615 15203; CX 15281 16621 15197; CX 16622 16621 15291;
  CX 16554 16621 15292; CA 15575 16623 16469; CA 14884 14883 16438; CA 14928 14924 16466; CA 14927 14926 16468; CX 14834 15068 14992; CI 15329 16400; CX 16624 16625 15071;
  CX 16625 16626 14836; CX 14839 15070 15001; CX 16564 15079 14840; CX 16629 16630 16558; CX 16631 16632 16562; CX 16633 16634 16561; CA 14828 14827 16459; CA 14967 14963 16495;
  CA 14969 14970 16501; CX 16642 15569 15570; CX 15438 16643 15439; CX 15454 15058 15317; CX 16589 15113 14897; CX 14883 15155 15056; CX 14898 15181 15089; CX 16644 15438 15436;
  CI 15412 16435; CX 16645 15569 15462; CX 14924 15147 15126; CX 16646 16647 16576; CX 16582 16608 16579; CX 16584 16606 16581; CX 16648 16539 16583; CX 16649 16541 16585;
  CX 16582 16539 16607; CX 16584 16541 16605; CX 16655 16656 16588; CX 15559 15143 15440; CX 15414 15156 15416; CX 15556 15202 15453; CA 15569 16674 16454; CA 15438 16675 16451;
  CX 16582 16543 16610; CX 16584 16545 16609; CA 15556 15555 16505; CA 15414 15417 16437; CX 16694 15619 15621; CX 16695 15420 15423; CX 16696 15550 15574; CX 16703 15619 15573;
  CX 16700 15420 15343; CX 16704 15550 15330; CA 15420 16713 16420; CI 16539 16651; CI 16541 16653; CX 16474 15338 15415; CA 15619 16734 16502; CA 15550 16735 16453;
  CA 16718 16736 16676; CA 16719 16737 16677; CX 16808 16809 16520; CX 16810 16809 16716; CX 16811 16812 16693; CX 16886 16887 16771; CX 16888 16889 16774; CX 16890 16888 16777;
  CX 16891 16892 16776; CX 16893 16894 16775; CX 16281 16282 16105; CX 16340 16341 16146; CX 16367 16368 16163; CX 16368 16369 16165; CX 16376 16377 16158; CX 16382 16383 16106;
  CX 16384 16385 16161; CX 16386 16387 16162; CX 16407 16408 16193; CX 16409 16408 16195; CX 16410 16411 16147; CX 16421 16422 16191; CX 16423 16424 16194; CX 15060 15061 16241;
  CX 16435 15422 15994; CX 14954 14953 16237; CX 15138 15137 16239; CX 15466 15464 15997; CX 15193 15192 16280; CA 14954 14953 16311; CA 15315 15314 16319; CA 15422 15412 16315;
  CA 15466 15464 16321; CA 15321 15320 16313; CA 15060 15061 16317; CA 15138 15137 16337; CA 15404 15406 16323; CX 16457 16312 16291; CX 16458 16314 16236; CX 16459 16318 16293;
  CX 16460 16316 16118; CX 16461 16320 16240; CX 16462 16324 16238; CX 16463 16322 16122; CX 16464 16338 16296; CA 15447 15442 16378; CA 15193 15192 16380; CX 16494 16379 16279;
  CX 16495 16381 16364; CX 15336 14957 15234; CX 15333 15031 15271; CX 15066 15552 15342; CX 15207 15569 15457; CX 15215 15575 15468; CX 15207 15205 16288; CX 15215 15217 16303;
  CX 15560 15144 15402; CX 15458 15216 15459; CX 15150 15550 15421; CX 15461 15132 15403; CX 15467 15141 15405; CX 15150 15147 16301; CX 16522 15132 16289; CX 16523 15141 16304;
  CX 15326 15127 15316; CX 16527 15127 16299; CX 16528 15132 15133; CX 16530 15141 15145; CX 16533 15127 15050; CA 15066 15077 16256; CA 15333 15332 16416; CX 15293 15558 15455;
  CX 15277 15293 16374; CX 16550 15185 16375; CX 15555 15185 15441; CX 15291 15619 15576; CX 15291 15290 16372; CX 16552 15185 15129; CX 15572 15197 15446; CX 16554 15197 16370;
  CX 16557 15197 15198; CA 15063 15064 16326; CA 15127 15126 16328; CA 15150 15147 16330; CA 15207 15205 16310; CA 15208 15206 16308; CA 15132 15134 16306; CA 15458 15467 16467;
  CA 15215 15217 16332; CA 15218 15216 16334; CA 15141 15142 16336; CX 16558 15031 14993; CX 16470 16558 15032; CX 16559 16558 15076; CX 16561 15071 14997; CX 15079 16562 15002;
  CX 14836 15075 14996; CX 16563 15071 14837; CX 16472 16561 15074; CX 16563 16561 15073; CX 16564 16562 15078; CX 16473 16562 15080; CA 14920 14921 16455; CA 15185 15184 16399;
  CA 15293 15277 16397; CA 15291 15290 16391; CA 15292 15281 16389; CA 15197 15200 16393; CA 15203 15202 16395; CX 15439 15039 15353; CX 15436 15113 15387; CX 16576 15156 15055;
  CX 16506 16576 15158; CX 16577 16576 15157; CX 15570 15130 15401; CX 15462 15206 15460; CA 14840 14839 16418; CX 16582 16583 16511; CX 16584 16585 16513; CX 16588 15113 15090;
  CX 16517 16588 15114; CX 16589 16588 15182; CA 15436 15435 16449; CA 14897 14898 16450; CA 15462 15461 16456; CA 16605 16606 16544; CA 16607 16608 16542; CA 16609 16585 16540;
  CA 16610 16583 16538; CX 15621 15199 15445; CX 15423 14994 15237; CX 15574 15049 15313; CX 15573 15281 15571; CX 15343 15079 15350; CX 15330 15064 15410; CX 16625 15415 15340;
  CX 16641 15415 15419; CA 15330 15326 16465; CA 15573 15572 16500; CA 15343 15349 16419; CA 16650 16651 16510; CA 16652 16653 16512; CA 15415 16673 16414; CA 16676 16539 16578;
  CA 16677 16541 16580; CX 16693 16520 16587; CX 16716 16717 16489; CI 16520 16715; CX 16771 16772 16493; CX 16773 16774 16611; CI 16693 16714; CX 16775 16772 16682;
  CX 16776 16777 16678; CX 16105 16106 15694; CX 16146 16147 15670; CX 16161 16106 16025; CX 16162 16163 15985; CX 16164 16165 15912; CX 16191 16147 16033; CX 16192 16193 15931;
  CX 16194 16195 16002; CX 16236 16237 16060; CX 16238 16239 16064; CX 16240 16241 16062; CX 16279 16280 16103; CX 16290 16291 16117; CX 16291 16292 16138; CX 16293 16294 16119;
  CX 16295 16293 16121; CX 16296 16297 16123; CX 16298 16296 16126; CX 16311 16312 16061; CX 16313 16314 16116; CX 16315 16316 16139; CX 16317 16318 16063; CX 16319 16320 16120;
  CX 16321 16322 16124; CX 16323 16324 16125; CX 16337 16338 16065; CX 16364 16365 16157; CX 16366 16364 16160; CX 16378 16379 16159; CX 16380 16381 16104; CX 16400 15342 15962;
  CX 15133 15130 16235; CX 15145 15144 16245; CX 15457 15460 15993; CX 15468 15459 16001; CX 15050 15049 16243; CA 15342 15329 16255; CX 16440 16256 16137; CX 16452 15129 16286;
  CX 15455 15453 16030; CX 15198 15199 16284; CX 15576 15571 16028; CA 15050 15049 16325; CA 15421 15410 16329; CA 15316 15313 16327; CA 15457 15460 16309; CA 15403 15401 16305;
  CA 15133 15130 16307; CA 15468 15459 16331; CA 15145 15144 16333; CA 15402 15405 16335; CX 16453 16330 16130; CX 16454 16310 16111; CX 16455 16308 16287; CX 16456 16306 16234;
  CX 16465 16328 16242; CX 16466 16326 16300; CX 16467 16336 16244; CX 16468 16334 16302; CX 16469 16332 16133; CX 15076 15335 15272; CX 15076 15068 16187; CX 16470 14993 16185;
  CX 15332 14993 15233; CX 15073 15415 15339; CX 15078 15420 15344; CX 15073 15075 16184; CX 15078 15070 16190; CX 16471 14993 14956; CX 15338 14997 15235; CX 15349 15002 15238;
  CX 16472 14997 16182; CX 16473 15002 16188; CX 16474 14997 14999; CX 16475 15002 15003; CA 15455 15453 16396; CA 15129 15143 16394; CA 15198 15199 16388; CA 15576 15571 16390;
  CA 15446 15445 16392; CA 15440 15441 16398; CX 16500 16393 16283; CX 16501 16389 16371; CX 16502 16391 16169; CX 16503 16395 16373; CX 16504 16397 16171; CX 16505 16399 16285;
  CX 15157 15456 15418; CX 15155 15157 16248; CX 16506 15055 16246; CX 15417 15055 15318; CX 16507 15055 15057; CA 14993 14992 16203; CA 15076 15068 16207; CA 14997 14996 16199;
  CA 15074 15071 16197; CA 14837 14836 16413; CA 15073 15075 16201; CA 15032 15031 16205; CA 15080 15079 16209; CA 15078 15070 16211; CA 15002 15001 16213; CX 16510 16511 16401;
  CX 16512 16513 16403; CX 15182 15438 15388; CX 15182 15181 16272; CX 16517 15090 16270; CX 15435 15090 15354; CX 16518 15090 15038; CA 15157 15155 16254; CA 15158 15156 16250;
  CA 15055 15056 16252; CX 16538 16539 16402; CX 16540 16541 16404; CX 16542 16543 16445; CX 16544 16545 16446; CA 15090 15089 16276; CA 15182 15181 16278; CA 15114 15113 16274;
  CX 15340 15071 15337; CX 15419 14998 15236; CX 16578 16579 16405; CX 16580 16581 16406; CA 15340 15338 16412; CI 15410 16436; CX 16635 16489 16569; CX 16678 16493 16573;
  CI 16489 16637; CX 16682 16683 16491; CA 16714 16520 16654; CA 16715 16635 16636; CA 16493 16611 16612; CA 16714 16635 16568; CA 16678 16611 16548; CI 16493 16681;
  CX 15985 15694 15868; CX 16002 15670 15833; CA 15694 15912 15916; CX 16025 16026 15688; CA 15670 15931 15938; CX 16033 16034 15668; CA 15985 15912 15808; CI 15694 15989;
  CX 16060 16061 15503; CX 16062 16063 15596; CX 16064 16065 15640; CA 16002 15931 15794; CI 15670 16009; CX 16103 16104 15696; CX 16116 16117 15951; CX 16118 16119 15824].
(** Lines 18005-18404 of the file. *)
Definition aes128_45 : list cg := [
  CX 16120 16121 15949; CX 16122 16123 15877; CX 16124 16065 15996; CX 16125 16126 15952; CX 16137 16138 15825; CX 16139 16063 15995; CX 16156 16157 15911; CX 16158 16104 16023;
  CX 16159 16160 15984; CX 16234 16235 16058; CX 16242 16243 16066; CX 16244 16245 16068; CX 16255 16256 16075; CX 16283 16284 16107; CX 16285 16286 16109; CX 16287 16288 16112;
  CX 16289 16287 16114; CX 16299 16300 16128; CX 16300 16301 16131; CX 16302 16303 16134; CX 16304 16302 16136; CX 16305 16306 16113; CX 16307 16308 16059; CX 16309 16310 16115;
  CX 16325 16326 16067; CX 16327 16328 16127; CX 16329 16330 16129; CX 16331 16332 16132; CX 16333 16334 16069; CX 16335 16336 16135; CX 16339 14956 16143; CX 15271 15272 15935;
  CX 14999 14998 16141; CX 15003 14994 16145; CX 15337 15339 15933; CX 15344 15350 15937; CX 16370 16371 16168; CX 16371 16372 16170; CX 16373 16374 16172; CX 16375 16373 16175;
  CX 16388 16389 16108; CX 16390 16391 16166; CX 16392 16393 16167; CX 16394 16395 16110; CX 16396 16397 16173; CX 16398 16399 16174; CX 15057 15058 16177; CX 15418 15416 15961;
  CA 15271 15272 16206; CA 14956 14957 16204; CA 14999 14998 16196; CA 15235 15236 16198; CA 15339 15337 16200; CA 15234 15233 16202; CA 15003 14994 16208; CA 15344 15350 16210;
  CA 15238 15237 16212; CX 16401 16402 16257; CX 16403 16404 16263; CX 16401 16405 16178; CX 16403 16406 16180; CX 16412 16199 16140; CX 16413 16197 16183; CX 16414 16201 16037;
  CX 16415 16205 16186; CX 16416 16203 16142; CX 16417 16207 16043; CX 16418 16209 16189; CX 16419 16213 16144; CX 16420 16211 16048; CX 16427 15038 16221; CX 15388 15387 15982;
  CX 16436 15421 15998; CA 15317 15318 16251; CA 15418 15416 16253; CA 15057 15058 16249; CX 16437 16252 16176; CX 16438 16250 16247; CX 16439 16254 16073; CA 16401 16441 16090;
  CA 16401 16442 15847; CA 16403 16443 15850; CA 16403 16444 16091; CX 16445 16402 16179; CX 16446 16404 16181; CX 16405 16445 16343; CX 16406 16446 16347; CA 15387 15388 16277;
  CA 15038 15039 16273; CA 15353 15354 16275; CX 16449 16276 16220; CX 16450 16274 16271; CX 16451 16278 16100; CA 16402 16476 16088; CA 16445 16477 15969; CA 16404 16478 16092;
  CA 16402 16479 16082; CA 16445 16480 16356; CA 16446 16483 15972; CA 16404 16484 16083; CA 16446 16485 16357; CA 16405 16534 15846; CA 16405 16535 16355; CA 16406 16536 15849;
  CA 16406 16537 16358; CX 16568 16569 16487; CX 16548 16573 16547; CX 16611 16491 16549; CX 16548 16491 16572; CX 16568 16587 16567; CX 16568 16489 16586; CA 16636 16637 16486;
  CX 16548 16493 16571; CA 16654 16489 16566; CI 16491 16613; CA 16678 16681 16638; CI 16568 16614; CX 15794 15833 15736; CX 15808 15868 15766; CX 15912 15688 15809;
  CX 15808 15688 15869; CX 15931 15668 15795; CX 15794 15668 15834; CX 15949 15596 15783; CX 15951 15503 15719; CX 15952 15640 15817; CX 15808 15694 15870; CX 15794 15670 15832;
  CX 15984 15696 15865; CA 15596 15824 15926; CA 15989 15985 15924; CA 15640 15877 15880; CI 15688 15917; CX 15994 15995 15927; CX 15996 15997 15634; CA 16009 16002 15940;
  CI 15668 15939; CA 15696 15911 15918; CX 16023 16024 15692; CA 15949 15824 15717; CA 15952 15877 15773; CI 15503 15955; CI 15596 15959; CI 15640 15956;
  CA 15984 15911 15806; CI 15696 15990; CX 16058 16059 15642; CX 16066 16067 15592; CX 16068 16069 15644; CX 16075 16061 15963; CI 15825 15987; CX 16107 16108 15690;
  CX 16109 16110 15698; CX 16111 16112 15875; CX 16113 16114 15948; CX 16115 16059 15992; CX 16127 16128 15953; CX 16129 16067 15999; CX 16130 16131 15878; CX 16132 16069 16000;
  CX 16133 16134 15876; CX 16135 16136 15950; CX 16140 16141 16003; CX 16142 16143 16005; CX 16144 16145 16007; CX 16166 16108 16027; CX 16167 16168 15986; CX 16169 16170 15913;
  CX 16171 16172 15910; CX 16173 16110 16029; CX 16174 16175 16022; CX 16176 16177 16031; CX 16178 16179 16076; CX 16180 16181 16079; CX 16182 16183 16036; CX 16183 16184 16038;
  CX 16185 16186 16041; CX 16186 16187 16044; CX 16188 16189 16047; CX 16189 16190 16049; CX 16196 16197 16004; CX 16198 16199 16035; CX 16200 16201 16039; CX 16202 16203 16040;
  CX 16204 16205 16006; CX 16206 16207 16042; CX 16208 16209 16008; CX 16210 16211 16045; CX 16212 16213 16046; CX 16220 16221 16053; CX 16246 16247 16071; CX 16247 16248 16074;
  CX 16249 16250 16032; CX 16251 16252 16070; CX 16253 16254 16072; CA 16257 16258 15968; CA 16178 16259 16084; CA 16178 16260 16089; CA 16257 16261 15661; CA 16180 16262 16093;
  CA 16263 16264 15664; CA 16263 16265 15971; CA 16180 16266 16086; CX 15847 15846 15840; CX 15850 15849 15843; CX 16270 16271 16099; CX 16271 16272 16101; CX 16273 16274 16054;
  CX 16275 16276 16098; CX 16277 16278 16102; CA 16179 16342 15974; CA 16343 16344 15663; CA 16179 16345 15976; CA 16181 16346 15977; CA 16347 16348 15848; CA 16181 16349 15979;
  CA 16343 16350 15845; CA 16347 16351 15666; CX 16355 16356 15851; CX 16356 16088 15512; CX 16357 16092 15520; CX 16358 16357 15855; CX 16486 16487 16352; CX 16548 16549 16448;
  CX 16566 16567 16354; CA 16571 16549 16490; CA 16572 16573 16492; CA 16586 16587 16519; CA 16612 16613 16447; CX 16614 16520 16570; CA 16638 16491 16546; CX 15794 15795 15656;
  CX 15808 15809 15628; CX 15717 15783 15706; CX 15773 15817 15708; CA 15795 15832 15667; CA 15833 15834 15669; CA 15868 15869 15693; CA 15809 15870 15687; CX 15877 15634 15774;
  CX 15773 15634 15818; CX 15806 15865 15764; CX 15911 15692 15807; CX 15806 15692 15866; CA 15916 15917 15627; CA 15924 15688 15765; CA 15926 15927 15473; CX 15773 15640 15822;
  CX 15717 15596 15789; CA 15938 15939 15655; CA 15940 15668 15735; CX 15948 15642 15814; CX 15950 15644 15821; CX 15953 15592 15779; CX 15806 15696 15867; CA 15955 15951 15827;
  CA 15956 15952 15889; CA 15959 15949 15884; CX 15962 15963 15590; CI 15927 15594; CI 15634 15881; CX 15986 15690 15871; CA 15503 15987 15888; CA 15990 15984 15923;
  CA 15592 15878 15925; CA 15644 15876 15885; CA 15642 15875 15882; CI 15692 15919; CX 15992 15993 15636; CX 15998 15999 15588; CX 16000 16001 15638; CA 15951 15987 15715;
  CX 16003 16004 15499; CX 16005 16006 15505; CX 16007 16008 15501; CA 15690 15913 15914; CA 16022 15698 15947; CX 16027 16028 15686; CX 16029 16030 15700; CA 15948 15875 15771;
  CA 15953 15878 15775; CA 15950 15876 15777; CX 16031 16032 15598; CI 15642 15957; CI 15592 15954; CI 15644 15958; CX 16035 16036 15892; CX 16037 16038 15791;
  CX 16039 16004 15932; CX 16040 16041 15930; CX 16042 16006 15934; CX 16043 16044 15790; CX 16045 16008 15936; CX 16046 16047 15893; CX 16048 16049 15792; CX 16053 16054 15537;
  CA 16022 15910 15812; CA 15986 15913 15810; CI 15690 15988; CI 15698 15991; CX 16070 16071 15928; CX 16072 16032 15960; CX 16073 16074 15823; CA 16076 16077 15970;
  CA 16076 16078 15975; CA 16079 16080 15973; CA 16079 16081 15978; CX 16082 15840 15267; CX 16083 15843 15269; CX 16084 16085 15671; CX 16086 16087 15680; CX 15968 16088 15966;
  CX 16089 15663 15854; CX 16090 15661 15965; CX 16091 15664 15964; CX 15971 16092 15967; CX 16093 15666 15857; CX 16098 16099 15980; CX 16100 16101 15859; CX 16102 16054 15981;
  CI 16022 15983; CX 15974 15976 15508; CX 15977 15979 15516; CX 16352 16354 16216; CA 16352 16425 15751; CA 16352 16426 16057; CX 16447 16448 16267; CX 16490 16491 16268;
  CX 16492 16493 16362; CA 16354 16508 15750; CA 16354 16509 16230; CX 16519 16520 16361; CX 16546 16547 16269; CA 16570 16569 16488; CX 15627 15628 15394; CX 15655 15656 15424;
  CX 15667 15668 15425; CX 15669 15670 15477; CX 15687 15688 15395; CX 15693 15694 15450; CX 15735 15736 15426; CX 15765 15766 15399; CX 15773 15774 15582; CX 15806 15807 15626;
  CA 15817 15818 15639; CA 15774 15822 15633; CX 15715 15719 15704; CX 15775 15779 15710; CX 15777 15821 15712; CX 15824 15594 15718; CX 15825 15590 15716; CX 15717 15594 15784;
  CA 15865 15866 15695; CA 15807 15867 15691; CX 15771 15814 15702; CX 15810 15871 15768; CX 15875 15636 15772; CX 15876 15638 15778; CX 15878 15588 15776; CX 15771 15636 15815;
  CX 15777 15638 15820; CA 15880 15881 15581; CA 15884 15594 15705; CA 15888 15590 15471; CA 15889 15634 15707; CX 15892 15499 15724; CX 15893 15501 15728; CX 15715 15503 15788;
  CX 15910 15700 15813; CX 15913 15686 15811; CX 15810 15686 15872; CX 15812 15700 15863; CA 15918 15919 15625; CA 15923 15692 15763; CA 15925 15588 15583; CX 15928 15598 15787;
  CX 15775 15592 15782; CX 15777 15644 15819; CX 15771 15642 15816; CA 15499 15791 15796; CA 15930 15505 15831; CA 15501 15792 15798; CX 15932 15933 15495; CX 15934 15935 15507;
  CI 15590 15793; CX 15936 15937 15497; CA 15947 15700 15769; CX 15810 15690 15873; CA 15954 15953 15879; CA 15957 15948 15887; CA 15950 15958 15890; CA 15598 15823 15828;
  CX 15960 15961 15600; CI 15636 15883; CI 15588 15826; CI 15638 15886; CA 15930 15790 15651; CA 15892 15791 15649; CA 15893 15792 15653; CX 15964 15843 15660].
(** Lines 18405-18804 of the file. *)
Definition aes128_46 : list cg := [
  CX 15965 15840 15658; CX 15851 15966 15514; CI 15499 15894; CI 15505 15896; CI 15501 15895; CX 15855 15967 15522; CX 15968 15965 15841; CX 15969 15966 15853;
  CX 15970 15854 15852; CX 15971 15964 15844; CX 15972 15967 15858; CX 15973 15857 15856; CX 15974 15970 15839; CX 15975 15976 15836; CX 15977 15973 15842; CX 15978 15979 15838;
  CA 15980 15537 15897; CX 15981 15982 15539; CX 15983 15698 15864; CA 15988 15986 15922; CA 15991 15910 15920; CI 15686 15915; CI 15700 15921; CA 15928 15823 15713;
  CI 15598 15929; CI 15930 15891; CA 15980 15859 15683; CI 15537 15946; CI 15812 15874; CI 15980 15941; CA 16216 16217 16055; CA 16216 16219 16051;
  CX 15751 15750 15747; CX 16267 16268 16149; CI 16216 16094; CX 16267 16269 16096; CA 16267 16359 15753; CA 16267 16360 16021; CX 16362 16268 16097; CX 16269 16362 16226;
  CA 16268 14635 16019; CA 16362 16432 15901; CA 16268 16433 16016; CA 16362 16434 16233; CA 16269 16481 16232; CA 16269 16482 15752; CX 16488 16489 16353; CI 16361 16363;
  CX 15394 15395 15189; CX 15394 15399 15121; CX 15424 15425 15239; CX 15424 15426 15170; CA 15394 15443 14975; CA 15394 15444 14608; CX 15399 15450 15284; CX 15450 15395 15122;
  CA 15424 15475 14644; CA 15424 15476 15026; CX 15426 15477 15346; CX 15477 15425 15171; CA 15450 15561 15306; CA 15395 15562 14978; CA 15450 15566 14801; CA 15395 15567 14971;
  CX 15581 15582 15298; CA 15477 15607 15352; CA 15425 15608 15024; CA 15477 15609 14866; CA 15425 15610 15023; CA 15399 15622 14610; CA 15399 15624 15309; CX 15625 15626 15392;
  CX 15633 15634 15299; CX 15639 15640 15409; CA 15426 15647 15351; CA 15426 15648 14643; CX 15691 15692 15393; CX 15695 15696 15449; CX 15705 15706 15224; CX 15707 15708 15304;
  CX 15715 15716 15472; CX 15717 15718 15474; CX 15653 15728 15606; CX 15763 15764 15396; CX 15771 15772 15580; CX 15775 15776 15584; CX 15777 15778 15586; CA 15783 15784 15595;
  CA 15716 15788 15589; CA 15718 15789 15593; CX 15649 15724 15602; CX 15713 15787 15646; CX 15790 15507 15652; CX 15791 15495 15650; CX 15792 15497 15654; CX 15649 15495 15725;
  CX 15653 15497 15729; CX 15715 15793 15720; CX 15651 15507 15722; CX 15810 15811 15630; CX 15812 15813 15632; CA 15814 15815 15641; CA 15772 15816 15635; CA 15819 15778 15637;
  CA 15820 15821 15643; CX 15823 15600 15714; CI 15776 15781; CX 15775 15826 15780; CX 15713 15600 15786; CA 15827 15793 15703; CA 15831 15507 15603; CX 15835 15836 15657;
  CX 15837 15838 15659; CX 15649 15499 15726; CX 15653 15501 15727; CX 15839 15840 15487; CX 15841 15840 15489; CX 15842 15843 15491; CX 15844 15843 15493; CX 15845 15836 15662;
  CX 15846 15836 15674; CX 15847 15836 15675; CX 15848 15838 15665; CX 15849 15838 15678; CX 15850 15838 15681; CX 15851 15852 15673; CX 15853 15852 15510; CX 15839 15841 15676;
  CX 15854 15853 15672; CX 15855 15856 15677; CX 15857 15858 15679; CX 15858 15856 15518; CX 15842 15844 15682; CX 15859 15539 15684; CX 15683 15539 15738; CA 15863 15864 15697;
  CA 15871 15872 15689; CA 15811 15873 15685; CX 15864 15874 15770; CA 15879 15826 15709; CA 15882 15883 15579; CA 15885 15886 15585; CA 15887 15636 15701; CA 15890 15638 15711;
  CX 15891 15505 15723; CX 15713 15598 15785; CA 15894 15892 15802; CA 15895 15893 15803; CA 15896 15790 15800; CI 15495 15797; CI 15507 15801; CI 15497 15799;
  CA 15897 15539 15617; CA 15914 15915 15629; CA 15920 15921 15631; CA 15922 15686 15767; CX 15874 15698 15862; CA 15929 15928 15830; CI 15600 15829; CI 15651 15734;
  CX 15941 15537 15739; CA 15946 15859 15860; CI 15539 15861; CI 15683 15804; CX 16051 16052 15615; CX 16096 16097 16013; CA 16096 16148 16017; CA 16149 16150 15903;
  CA 16096 16151 16020; CA 16149 16152 15535; CX 15753 15752 15745; CA 16097 16225 15904; CA 16226 16227 15533; CA 16097 16228 15909; CA 16226 16229 15754; CX 16232 16233 15762;
  CX 16233 16019 15382; CX 16352 16353 16214; CX 16361 16353 16095; CX 16354 16363 16222; CA 16363 16428 15944; CA 16353 16429 16056; CA 16363 16430 16231; CA 16353 16431 16050;
  CX 15121 15122 14964; CX 15170 15171 15004; CA 15189 15190 14405; CA 15189 15191 14797; CA 15121 15194 14802; CA 15121 15195 14979; CX 14608 14610 14589; CA 15239 15240 14865;
  CA 15239 15241 14481; CA 15170 15242 14867; CA 15170 15243 15025; CX 14644 14643 14638; CA 15122 15282 14817; CA 15122 15283 14818; CA 15284 15285 14606; CA 15284 15288 14408;
  CX 15298 15299 15135; CX 15298 15304 15044; CX 14978 15306 14785; CX 15309 15306 14624; CA 15171 15341 14880; CA 15171 15345 14879; CA 15346 15347 14642; CA 15346 15348 14480;
  CX 15351 15352 14650; CX 15024 15352 14861; CX 15392 15393 15186; CX 15392 15396 15119; CA 15298 15404 14937; CA 15298 15406 14555; CX 15304 15409 15209; CX 15409 15299 15045;
  CA 15392 15442 14607; CA 15392 15447 14984; CX 15396 15449 15279; CX 15449 15393 15120; CA 15299 15463 14936; CA 15409 15464 14757; CA 15299 15465 14930; CA 15409 15466 15228;
  CX 15471 15472 15319; CX 15473 15474 15222; CA 15224 15553 14476; CA 15224 15554 15177; CA 15449 15563 15307; CA 15393 15564 14977; CA 15449 15565 14800; CA 15393 15568 14972;
  CA 15304 15577 14560; CA 15304 15578 15227; CX 15579 15580 15294; CX 15583 15584 15302; CX 15585 15586 15296; CX 15589 15590 15164; CX 15593 15594 15223; CX 15595 15596 15323;
  CA 15396 15620 14609; CA 15396 15623 15308; CX 15629 15630 15397; CX 15631 15632 15389; CX 15635 15636 15295; CX 15637 15638 15297; CX 15641 15642 15407; CX 15643 15644 15408;
  CX 15649 15650 15428; CX 15651 15652 15430; CX 15653 15654 15432; CX 15657 15658 15513; CX 15659 15660 15521; CX 15661 15662 15486; CX 15663 15662 15515; CX 15664 15665 15490;
  CX 15666 15665 15523; CX 15671 15672 15509; CX 15673 15674 15478; CX 15675 15676 15480; CX 15677 15678 15482; CX 15679 15680 15517; CX 15681 15682 15484; CX 15683 15684 15525;
  CX 15685 15686 15398; CX 15689 15690 15451; CX 15697 15698 15448; CX 15701 15702 15300; CX 15703 15704 15169; CX 15709 15710 15305; CX 15711 15712 15301; CX 15713 15714 15470;
  CA 15719 15720 15502; CA 15722 15723 15504; CA 15724 15725 15498; CA 15650 15726 15494; CA 15654 15727 15496; CA 15728 15729 15500; CX 15730 15665 15519; CX 15731 15662 15488;
  CX 15732 15662 15511; CX 15733 15665 15492; CX 15734 15723 15604; CA 15738 15739 15536; CX 15767 15768 15400; CX 15769 15770 15391; CA 15779 15780 15591; CA 15781 15782 15587;
  CA 15785 15714 15599; CA 15786 15787 15597; CA 15796 15797 15427; CA 15798 15799 15431; CA 15800 15801 15429; CA 15802 15495 15601; CA 15803 15497 15605; CX 15734 15505 15721;
  CX 15739 15804 15618; CA 15828 15829 15469; CA 15830 15600 15645; CA 15860 15861 15524; CX 15804 15537 15737; CA 15862 15813 15699; CA 16013 16014 15902; CA 16013 16015 15908;
  CX 16016 15745 15111; CX 16017 16018 15544; CX 15903 16019 15899; CX 16020 15533 15759; CX 16021 15535 15898; CX 16050 15747 15109; CX 15904 15909 15378; CX 16094 16095 16010;
  CA 16214 16215 15530; CA 16214 16218 15945; CA 16222 16223 15532; CA 16222 16224 15749; CX 16230 16231 15757; CX 16231 16056 15374; CI 16095 16153; CA 14964 14965 14816;
  CA 14964 14966 14804; CX 14971 14589 14621; CX 14975 14405 14786; CX 14978 14797 14790; CX 14979 14408 14803; CA 15004 15005 14878; CA 15004 15006 14863; CX 15023 14638 14645;
  CX 15024 14865 14860; CX 15025 14480 14864; CX 15026 14481 14862; CX 15044 15045 14917; CX 14818 14817 14619; CX 14880 14879 14658; CX 15119 15120 14962; CA 15135 15136 14354;
  CA 15044 15137 14755; CA 15044 15138 14935; CA 15135 15139 14759; CX 14555 14560 14543; CA 15186 15187 14406; CA 15186 15188 14811; CA 15119 15192 14798; CA 15119 15193 14976;
  CX 14607 14609 14591; CA 15209 15210 14353; CA 15045 15211 14773; CA 15045 15212 14775; CA 15209 15213 14559; CX 15222 15223 15051; CX 15222 15224 15059; CX 15227 15228 14581;
  CX 14936 15228 14742; CA 15120 15278 14815; CA 15279 15280 14605; CA 15120 15286 14819; CA 15279 15287 14407; CX 15294 15295 15131; CX 15296 15297 15140; CX 15294 15300 15040;
  CX 15296 15301 15042; CX 15302 15305 15046; CX 14977 15307 14787; CX 15308 15307 14623; CA 15222 15314 14477; CA 15222 15315 14894; CA 15319 15320 14472; CA 15319 15321 14872;
  CX 15224 15323 15152; CX 15223 15323 15148; CX 15391 15389 15117; CX 15397 15398 15196; CX 15397 15400 15123; CA 15294 15401 14558; CA 15296 15402 14565; CA 15294 15403 14934;
  CA 15296 15405 14940; CX 15300 15407 15204; CX 15301 15408 15214; CX 15407 15295 15041; CX 15408 15297 15043; CA 15223 15411 14892; CA 15323 15412 14706; CA 15223 15413 14886;
  CA 15323 15422 15178; CX 15427 15428 15165; CX 15429 15430 15160; CI 15319 15163; CX 15431 15432 15167; CA 15389 15440 14615; CA 15389 15441 14985; CA 15397 15445 14613;
  CA 15397 15446 14982; CX 15391 15448 15276; CX 15400 15451 15289; CX 15451 15398 15124; CA 15407 15457 15225; CA 15297 15458 14931; CA 15408 15459 14766; CA 15407 15460 14750].
(** Lines 18805-19204 of the file. *)
Definition aes128_47 : list cg := [
  CA 15295 15461 14932; CA 15295 15462 14929; CA 15297 15467 14939; CA 15408 15468 15230; CX 15469 15470 15219; CI 15302 15312; CX 15478 15479 12244; CX 15480 15481 12246;
  CX 15482 15483 12328; CX 15484 15485 12330; CX 15486 15487 15262; CX 15488 15489 12406; CX 15490 15491 15260; CX 15492 15493 12472; CX 15494 15495 15166; CX 15496 15497 15168;
  CI 15164 15327; CX 15498 15499 15246; CX 15500 15501 15247; CX 15502 15503 15245; CX 15504 15505 15244; CX 15508 15509 12850; CX 15510 15511 15266; CX 15512 15513 12548;
  CX 15514 15515 15258; CX 15516 15517 12968; CX 15518 15519 15268; CX 15520 15521 12595; CX 15522 15523 15264; CX 15524 15525 15273; CX 15536 15537 15355; CA 15305 15550 14563;
  CA 15169 15551 15083; CA 15169 15552 14468; CA 15301 15560 15229; CA 15300 15569 14557; CA 15300 15570 15226; CA 15451 15571 14806; CA 15398 15572 14980; CA 15398 15573 14973;
  CA 15305 15574 15174; CA 15301 15575 14564; CA 15451 15576 15310; CX 15587 15588 15303; CX 15591 15592 15324; CX 15597 15598 15322; CX 15599 15600 15220; CX 15601 15602 15172;
  CX 15603 15604 15162; CX 15605 15606 15173; CX 15617 15618 15275; CA 15400 15619 14612; CA 15400 15621 15311; CI 15448 15452; CX 15645 15646 15221; CX 15699 15700 15390;
  CI 15391 15557; CA 15721 15652 15506; CA 15737 15684 15538; CX 15898 15745 15529; CX 15762 15899 15384; CX 15901 15899 15760; CX 15902 15759 15761; CX 15903 15898 15748;
  CX 15904 15902 15744; CX 15908 15909 15743; CA 16010 16011 15900; CA 16010 16012 15905; CX 16055 15532 15805; CX 15945 16056 15943; CX 16057 15530 15942; CA 16153 16154 15906;
  CA 16153 16155 15907; CX 15148 15059 14826; CX 14785 14786 14413; CX 14624 14790 14231; CX 14797 14786 14599; CX 14801 14790 14620; CX 14802 14803 14423; CX 14804 14803 14401;
  CX 14816 14817 14590; CX 14818 14804 14597; CA 14826 14827 14690; CA 14826 14828 14674; CX 14650 14860 14304; CX 14861 14862 14498; CX 14863 14864 14479; CX 14865 14862 14641;
  CX 14866 14860 14646; CX 14867 14864 14500; CX 14878 14879 14639; CX 14880 14863 14640; CA 14917 14918 14758; CA 14917 14922 14774; CX 14930 14543 14573; CX 14935 14353 14756;
  CX 14936 14759 14738; CX 14937 14354 14743; CA 14962 14963 14814; CA 14962 14967 14805; CX 14972 14591 14622; CX 14976 14407 14799; CX 14977 14811 14789; CX 14984 14406 14788;
  CX 14773 14775 14571; CX 15040 15041 14919; CX 15042 15043 14925; CX 14819 14815 14617; CA 15051 15052 14269; CA 15051 15053 14708; CA 15059 15060 14893; CA 15059 15061 14707;
  CX 14472 14468 14447; CX 14477 14476 14449; CX 15123 15124 14968; CA 15040 15130 14753; CA 15131 15132 14754; CA 15040 15133 14933; CA 15131 15134 14351; CA 15140 15141 14769;
  CA 15140 15142 14358; CA 15042 15144 14767; CA 15042 15145 14941; CX 14558 14557 14541; CX 14565 14564 14539; CA 15148 15149 14677; CA 15148 15151 14691; CA 15152 15153 14475;
  CA 15152 15159 14268; CX 15162 15160 14944; CX 15163 15164 14988; CX 15165 15166 14995; CX 15167 15168 15000; CX 15163 15169 14946; CX 15165 15172 14948; CX 15167 15173 14950;
  CX 15177 15178 14496; CX 14892 15178 14698; CA 15196 15197 14810; CA 15123 15198 14981; CA 15123 15199 14809; CA 15196 15200 14410; CX 14613 14612 14593; CA 15204 15205 14352;
  CA 15041 15206 14772; CA 15204 15207 14556; CA 15041 15208 14781; CA 15214 15215 14562; CA 15043 15216 14780; CA 15214 15217 14357; CA 15043 15218 14770; CX 15219 15220 15054;
  CX 15219 15221 14986; CI 15046 15048; CX 14932 15225 14739; CX 15226 15225 14569; CX 15229 15230 14580; CX 15230 14939 14746; CA 15160 15233 14874; CA 15160 15234 14471;
  CA 15165 15235 14868; CA 15165 15236 14465; CA 15167 15237 14478; CA 15167 15238 14875; CX 15162 15244 15067; CX 15169 15245 15065; CX 15172 15246 15072; CX 15173 15247 15069;
  CX 15164 15245 14947; CX 15246 15166 14949; CX 15247 15168 14951; CX 12406 15248 12032; CX 12472 15249 12129; CX 12244 15250 12033; CX 12548 15251 12034; CX 12246 15252 12035;
  CX 15253 12330 12133; CX 12595 15254 12132; CX 12328 15255 12131; CX 12850 15256 12036; CX 12968 15257 12137; CX 15258 15259 12040; CX 15260 15261 12144; CX 15262 15263 12038;
  CX 15264 15265 12142; CX 15266 15267 12404; CX 15268 15269 12470; CX 15275 15273 15033; CA 15276 15277 14412; CA 15124 15281 14821; CA 15289 15290 14409; CA 15289 15291 14611;
  CA 15124 15292 14822; CA 15276 15293 14614; CI 15117 15128; CX 15302 15303 15125; CX 14980 15310 14791; CX 15311 15310 14628; CA 15312 15313 14566; CA 15312 15316 14943;
  CA 15219 15317 14513; CA 15219 15318 14889; CX 15322 15220 14987; CX 15221 15322 15154; CX 15305 15324 15146; CX 15303 15324 15047; CA 15327 15328 14873; CA 15245 15329 14668;
  CA 15327 15331 14887; CA 15246 15337 14664; CA 15166 15338 14870; CA 15246 15339 15082; CA 15166 15340 14857; CA 15245 15342 15084; CA 15168 15343 14859; CA 15247 15344 15086;
  CA 15168 15349 14876; CA 15247 15350 14670; CA 15273 15353 14535; CA 15273 15354 14915; CX 15275 15355 15180; CX 15389 15390 15183; CA 15324 15410 14764; CA 15220 15414 14885;
  CA 15172 15415 14466; CA 15322 15416 14702; CA 15220 15417 14890; CA 15322 15418 15176; CA 15172 15419 15081; CA 15173 15420 14474; CA 15324 15421 15087; CA 15173 15423 15085;
  CI 15244 15270; CI 15355 15386; CX 15448 15390 15118; CA 15452 15453 14813; CA 15221 15454 15175; CA 15452 15455 15232; CA 15221 15456 14514; CI 15303 15325;
  CX 15506 15507 15161; CI 15162 15334; CX 15538 15539 15274; CI 15275 15437; CA 15390 15555 14983; CA 15390 15556 14974; CA 15557 15558 14616; CA 15557 15559 15231;
  CX 15742 15743 15528; CX 15744 15745 15365; CX 15748 15745 15371; CX 15752 15743 15547; CX 15753 15743 15548; CX 15754 15743 15534; CX 15759 15760 15545; CX 15760 15761 15380;
  CX 15762 15761 15546; CX 15744 15748 15549; CX 15900 15805 15756; CX 15905 15906 15741; CX 15907 15900 15746; CX 15942 15747 15527; CX 15757 15943 15376; CX 15944 15943 15755;
  CX 15945 15942 15758; CX 15907 15906 15433; CX 14589 14590 14414; CX 14597 14589 14214; CX 14599 14589 14393; CX 14606 14590 14394; CX 14608 14590 14419; CX 14610 14590 14428;
  CX 14597 14599 14420; CX 14619 14620 14424; CX 14621 14620 14217; CX 14624 14401 14427; CX 14638 14639 14499; CX 14640 14638 14252; CX 14641 14638 14453; CX 14642 14639 14454;
  CX 14643 14639 14505; CX 14644 14639 14502; CX 14645 14646 14253; CX 14650 14479 14504; CX 14658 14646 14501; CX 14640 14641 14503; CX 14677 14674 14463; CX 14690 14691 14450;
  CX 14581 14738 14198; CX 14742 14743 14371; CX 14755 14756 14367; CX 14757 14738 14572; CX 14758 14756 14348; CX 14759 14743 14554; CX 14773 14758 14549; CX 14774 14775 14544;
  CX 14787 14788 14415; CX 14623 14789 14229; CX 14798 14799 14421; CX 14800 14789 14618; CX 14805 14799 14402; CX 14811 14788 14603; CX 14814 14815 14592; CX 14819 14805 14598;
  CX 14886 14449 14521; CX 14887 14447 14489; CX 14892 14708 14700; CX 14893 14268 14675; CX 14894 14269 14699; CA 14919 14920 14751; CA 14919 14921 14771; CA 14925 14926 14779;
  CA 14925 14927 14760; CX 14929 14541 14567; CX 14931 14539 14576; CX 14932 14754 14741; CX 14933 14352 14752; CX 14934 14351 14740; CX 14769 14939 14745; CX 14940 14358 14747;
  CX 14941 14357 14761; CX 14946 14947 14829; CX 14948 14949 14835; CX 14950 14951 14838; CX 14677 14691 14519; CA 14968 14969 14807; CA 14968 14970 14820; CX 14973 14593 14625;
  CX 14980 14810 14793; CX 14981 14409 14808; CX 14982 14410 14792; CX 14986 14987 14882; CX 14781 14772 14570; CX 14770 14780 14579; CA 14988 14989 14667; CA 14988 14990 14262;
  CA 14950 14994 14671; CA 14995 14996 14260; CA 14995 14997 14661; CA 14948 14998 14662; CA 14948 14999 14869; CA 15000 15001 14267; CA 15000 15002 14669; CA 14950 15003 14877;
  CX 12032 15007 11813; CX 15008 12129 11926; CX 12038 15009 11815; CX 12404 15010 11814; CX 15011 12040 11816; CX 12144 15012 11929; CX 12470 15013 11928; CX 15014 12142 11930;
  CX 15015 12132 11936; CX 15016 12035 11819; CX 12033 15017 11817; CX 15018 12034 11818; CX 12131 15019 11935; CX 15020 12133 11937; CX 15021 12036 11820; CX 15022 12137 11940;
  CX 14465 14466 14443; CX 14478 14474 14451; CX 15046 15047 14923; CX 14822 14821 14627; CA 15048 15049 14711; CA 15048 15050 14895; CA 15054 15055 14701; CA 15054 15056 14312;
  CA 14986 15057 14891; CA 14986 15058 14703; CX 14513 14514 14508; CX 14566 14563 14545; CA 15065 15066 14469; CA 15067 15068 14264; CA 15069 15070 14266; CA 14949 15071 14679;
  CA 15072 15073 14464; CA 14949 15074 14680; CA 15072 15075 14261; CA 15067 15076 14467; CA 15065 15077 14263; CA 15069 15078 14473; CA 14951 15079 14688; CA 14951 15080 14689;
  CI 14944 14955; CI 14946 14952; CX 15081 15082 14484; CX 14870 15082 14648; CX 15083 15084 14391; CX 14873 15084 14655; CX 15085 15086 14495; CX 14876 15086 14659;
  CX 15117 15118 14959; CA 15125 15126 14356; CA 15125 15127 14765; CA 15128 15129 14942; CA 15128 15143 14768; CA 15146 15147 14355; CA 15146 15150 14561; CA 15154 15155 14313].
(** Lines 19205-19604 of the file. *)
Definition aes128_48 : list cg := [
  CA 14987 15156 14713; CA 15154 15157 14512; CA 14987 15158 14714; CX 15160 15161 14991; CX 15174 15087 14522; CX 15175 15176 14517; CX 14890 15176 14696; CI 14947 15027;
  CA 15180 15181 14332; CA 15180 15182 14533; CI 15033 15037; CA 15183 15184 14411; CA 15183 15185 14812; CX 14615 14616 14595; CX 15231 15232 14578; CX 14983 15232 14795;
  CX 15244 15161 14945; CI 15047 15062; CA 15270 15271 14666; CA 15270 15272 15035; CX 15273 15274 15088; CA 15325 15326 14938; CA 15325 15330 14888; CA 15161 15332 14871;
  CA 15161 15333 14858; CA 15334 15335 14470; CA 15334 15336 15036; CX 15355 15274 15034; CA 15386 15387 14734; CA 15386 15388 15116; CI 15118 15201; CA 15274 15435 14916;
  CA 15274 15436 14914; CA 15437 15438 14534; CA 15437 15439 15115; CX 15528 15529 15383; CX 15533 15534 15385; CX 15535 15534 15364; CX 15544 15545 15379; CX 15546 15547 15360;
  CX 15548 15549 15362; CX 15613 15534 15381; CX 15614 15534 15370; CX 15740 15741 15526; CX 15746 15747 15367; CX 15749 15741 15531; CX 15750 15741 15541; CX 15751 15741 15542;
  CX 15755 15756 15372; CX 15757 15756 15540; CX 15746 15758 15543; CX 15758 15747 15369; CX 15805 15755 15616; CX 14393 14394 14091; CX 14401 14394 14218; CX 14405 14394 14213;
  CX 14408 14394 14232; CX 14413 14414 13985; CX 14419 14420 14118; CX 14423 14424 14137; CX 14427 14428 13984; CX 14449 14450 14299; CX 14453 14454 14172; CX 14463 14449 14117;
  CX 14475 14450 14250; CX 14476 14450 14297; CX 14477 14450 14270; CX 14479 14454 14254; CX 14480 14454 14305; CX 14481 14454 14251; CX 14498 14499 14082; CX 14500 14501 14193;
  CX 14502 14503 14176; CX 14504 14505 14147; CX 14543 14544 14372; CX 14549 14543 14184; CX 14554 14543 14341; CX 14555 14544 14373; CX 14559 14544 14342; CX 14560 14544 14370;
  CX 14571 14572 14368; CX 14573 14572 14181; CX 14549 14554 14374; CX 14581 14348 14369; CX 14591 14592 14416; CX 14598 14591 14216; CX 14603 14591 14397; CX 14605 14592 14398;
  CX 14607 14592 14417; CX 14609 14592 14426; CX 14598 14603 14418; CX 14617 14618 14422; CX 14622 14618 14219; CX 14623 14402 14425; CX 14674 14675 14259; CX 14698 14699 14298;
  CX 14496 14700 14134; CX 14706 14700 14520; CX 14707 14675 14322; CX 14708 14699 14497; CX 14739 14740 14363; CX 14569 14741 14196; CX 14580 14745 14202; CX 14746 14747 14375;
  CX 14750 14741 14568; CX 14751 14752 14347; CX 14753 14752 14361; CX 14754 14740 14547; CX 14760 14761 14350; CX 14766 14745 14577; CX 14767 14761 14385; CX 14769 14747 14552;
  CX 14770 14760 14551; CX 14771 14772 14542; CX 14779 14780 14540; CX 14781 14751 14548; CX 14791 14792 14431; CX 14628 14793 14233; CX 14806 14793 14626; CX 14807 14808 14403;
  CX 14809 14808 14429; CX 14810 14792 14601; CX 14820 14821 14594; CX 14822 14807 14600; CA 14829 14830 14585; CA 14829 14831 14683; CA 14835 14836 14678; CA 14835 14837 14665;
  CA 14838 14839 14687; CA 14838 14840 14673; CX 11815 14841 11555; CX 14842 11816 11556; CX 14843 11814 11554; CX 11929 14844 11678; CX 14845 11928 11677; CX 11930 14846 11679;
  CX 14847 11813 11558; CX 14848 11926 11684; CX 14849 11818 11557; CX 14850 11936 11682; CX 11819 14851 11559; CX 11937 14852 11686; CX 11817 14853 14327; CX 11935 14854 14326;
  CX 11820 14855 11561; CX 11940 14856 11690; CX 14857 14443 14485; CX 14859 14451 14494; CX 14868 14260 14649; CX 14869 14261 14663; CX 14870 14661 14647; CX 14872 14262 14656;
  CX 14873 14667 14653; CX 14875 14267 14660; CX 14876 14669 14657; CX 14877 14266 14672; CA 14882 14883 14712; CA 14882 14884 14705; CX 14885 14508 14518; CX 14888 14545 14574;
  CX 14889 14312 14697; CX 14890 14701 14695; CX 14891 14313 14704; CX 14895 14355 14710; CX 14680 14679 14482; CX 14689 14688 14492; CA 14923 14924 14776; CA 14923 14928 14709;
  CX 14938 14765 14744; CX 14942 14412 14763; CX 14943 14356 14749; CX 14944 14945 14832; CX 14714 14713 14515; CA 14952 14953 14588; CA 14952 14954 14784; CA 14955 14956 14783;
  CA 14955 14957 14587; CA 14959 14960 14762; CA 14959 14961 14823; CX 14974 14595 14631; CX 14983 14812 14794; CX 14985 14411 14796; CA 14991 14992 14265; CA 14991 14993 14676;
  CX 14471 14470 14445; CA 15027 15028 14685; CA 15027 15029 14684; CX 15033 15034 14896; CX 15035 14871 14651; CX 15036 15035 14392; CA 15037 15038 14881; CA 15037 15039 14694;
  CA 15062 15063 14778; CA 15062 15064 14777; CX 14938 15087 14748; CA 15088 15089 14331; CA 15088 15090 14733; CX 14535 14534 14529; CX 15115 15116 14507; CX 14916 15116 14731;
  CI 14945 15030; CA 15201 15202 14824; CA 15201 15203 14825; CI 15034 15112; CX 15360 15361 12334; CX 15362 15363 12332; CX 15364 15365 15104; CX 15370 15371 12475;
  CX 15378 15379 12970; CX 15380 15381 15110; CX 15382 15383 12597; CX 15384 15385 15106; CX 15526 15527 15375; CX 15530 15531 15366; CX 15532 15531 15377; CX 15540 15541 15356;
  CX 15542 15543 15358; CX 15611 15531 15373; CX 15612 15531 15368; CX 15615 15616 15434; CX 14213 14214 13992; CX 14217 14218 13819; CX 14231 14232 14007; CX 14251 14252 14035;
  CX 14253 14254 14044; CX 14259 14250 14113; CX 14268 14250 14135; CX 14269 14250 14116; CX 14298 14299 13852; CX 14304 14305 14043; CX 14341 14342 14090; CX 14348 14342 14182;
  CX 14353 14342 14199; CX 14354 14342 14183; CX 14367 14368 14123; CX 14369 14370 14081; CX 14371 14372 14054; CX 14373 14374 14096; CX 14397 14398 14209; CX 14402 14398 14220;
  CX 14406 14398 14215; CX 14407 14398 14230; CX 14415 14416 14072; CX 14417 14418 14211; CX 14421 14422 14212; CX 14425 14426 14210; CX 14496 14259 14296; CX 14463 14497 14271;
  CX 14497 14449 14249; CX 14519 14520 14323; CX 14521 14520 14112; CX 14539 14540 14376; CX 14541 14542 14364; CX 14547 14541 14339; CX 14548 14541 14180; CX 14551 14539 14190;
  CX 14552 14539 14343; CX 14556 14542 14340; CX 14557 14542 14360; CX 14558 14542 14365; CX 14562 14540 14344; CX 14564 14540 14378; CX 14565 14540 14387; CX 14567 14568 14177;
  CX 14569 14347 14359; CX 14570 14568 14362; CX 14548 14547 14366; CX 14576 14577 14191; CX 14579 14577 14386; CX 14551 14552 14388; CX 14580 14350 14377; CX 14593 14594 14432;
  CX 14600 14593 14224; CX 14601 14593 14395; CX 14611 14594 14396; CX 14612 14594 14434; CX 14613 14594 14435; CX 14625 14626 14221; CX 14627 14626 14430; CX 14628 14403 14433;
  CX 14600 14601 14436; CX 11559 11561 14078; CX 11686 11690 14079; CX 14632 11555 11403; CX 14633 11556 11404; CX 11678 14634 11471; CX 14635 11679 11437; CX 14636 11554 11405;
  CX 14637 11677 11473; CX 14484 14647 14126; CX 14648 14649 14276; CX 14391 14653 14128; CX 14655 14656 14290; CX 14495 14657 14132; CX 14659 14660 14300; CX 14661 14649 14455;
  CX 14662 14663 14274; CX 14664 14647 14483; CX 14665 14663 14255; CX 14667 14656 14457; CX 14668 14653 14490; CX 14669 14660 14461; CX 14670 14657 14493; CX 14671 14672 14292;
  CX 14673 14672 14258; CX 14678 14679 14444; CX 14680 14665 14456; CX 14683 14684 14448; CX 14685 14585 14458; CX 14687 14688 14452; CX 14689 14673 14462; CX 14517 14695 14152;
  CX 14696 14697 14318; CX 14701 14697 14510; CX 14702 14695 14516; CX 14703 14704 14316; CX 14705 14704 14311; CX 14709 14710 14349; CX 14711 14710 14389; CX 14712 14713 14509;
  CX 14714 14705 14511; CX 14522 14744 14200; CX 14748 14749 14379; CX 14762 14763 14404; CX 14764 14744 14575; CX 14765 14749 14553; CX 14768 14763 14441; CX 14776 14777 14546;
  CX 14778 14709 14550; CI 11679 14052; CI 14327 11560; CI 14326 11688; CX 14783 14264 14584; CX 14784 14263 14586; CX 14578 14794 14235; CX 14795 14796 14439;
  CX 14812 14796 14604; CX 14813 14794 14630; CX 14823 14824 14596; CX 14825 14762 14602; CA 14832 14833 14583; CA 14832 14834 14681; CX 14858 14445 14486; CX 14676 14871 14654;
  CX 14874 14265 14652; CX 14685 14684 14491; CX 14881 14332 14693; CX 14778 14777 14582; CA 14896 14897 14692; CA 14896 14898 14735; CX 14914 14529 14536; CX 14915 14331 14732;
  CX 14916 14733 14730; CX 14825 14824 14629; CA 15030 15031 14682; CA 15030 15032 14686; CX 12475 15092 12130; CX 12334 15096 12135; CX 12597 15097 12134; CX 12332 15098 12136;
  CX 12970 15099 12138; CX 15104 15105 12140; CX 15106 15107 12146; CX 15110 15111 12473; CA 15112 15113 14736; CA 15112 15114 14737; CX 15356 15357 12182; CX 15358 15359 12184;
  CX 15366 15367 15100; CX 15368 15369 12361; CX 15372 15373 15108; CX 15374 15375 12502; CX 15376 15377 15102; CX 15433 15434 12776; CX 13819 13992 13982; CX 13985 13992 13981;
  CX 14007 13992 13787; CX 14043 14035 13926; CX 14044 14035 13929; CX 14082 14035 13727; CX 14112 14113 13559; CX 14116 14117 13991; CX 14134 14135 13523; CX 11813 14090 13466;
  CX 14054 11936 13326; CX 14054 11818 13327; CX 11819 14096 13880; CI 13992 13746; CX 14181 14182 13996; CX 14183 14184 14039; CX 14198 14199 14046; CX 14209 11558 13541;
  CX 13984 14210 13867; CX 14210 11560 13537; CX 14210 11688 13448; CX 14072 11557 13407; CX 14072 11682 13325; CX 14091 14209 13983; CX 14118 14211 13872; CX 14215 14216 14065].
(** Lines 19605-20004 of the file. *)
Definition aes128_49 : list cg := [
  CX 14219 14220 13997; CX 14137 14212 14023; CX 14229 14230 14068; CX 14249 14250 13462; CX 14270 14271 13846; CX 14296 14297 13821; CI 14090 14142; CX 14322 14323 14083;
  CI 14123 14146; CI 14081 14144; CI 14054 14145; CX 14339 14340 14085; CI 14209 14163; CX 14343 14344 14170; CX 14347 14340 14178; CX 14350 14344 14192;
  CX 14351 14340 14179; CX 14352 14340 14197; CX 14357 14344 14203; CX 14358 14344 14189; CI 14072 14168; CI 14211 14169; CI 14212 14175; CX 14359 14360 14064;
  CX 14361 14362 14121; CX 14363 14364 14055; CX 14365 14366 13999; CX 14375 14376 13962; CX 14377 14378 13951; CX 14385 14386 14194; CX 14387 14388 13961; CX 14395 14396 14088;
  CX 14403 14396 14222; CX 14409 14396 14234; CX 14410 14396 14223; CX 14429 14430 14125; CX 14431 14432 14074; CX 14433 14434 14063; CX 14435 14436 14080; CX 11684 11471 13118;
  CX 11558 11403 13112; CX 11558 11405 12954; CX 11403 11405 13073; CX 11684 11473 12957; CX 11471 11473 13075; CX 11403 11560 13117; CX 11471 11688 13120; CX 11559 11405 14076;
  CX 11686 11473 14077; CX 14078 11404 13210; CX 14079 11437 13213; CX 11561 11405 14237; CX 11690 11473 14238; CX 14443 14444 14277; CX 14447 14448 14291; CX 14451 14452 14301;
  CX 14455 14443 14241; CX 14456 14443 14099; CX 14457 14447 14243; CX 14458 14447 14105; CX 14461 14451 14247; CX 14462 14451 14115; CX 14464 14444 14242; CX 14465 14444 14272;
  CX 14466 14444 14279; CX 14468 14448 14205; CX 14469 14448 14244; CX 14472 14448 14288; CX 14473 14452 14248; CX 14474 14452 14295; CX 14478 14452 14302; CX 14456 14455 14273;
  CX 14482 14483 14275; CX 14484 14255 14278; CX 14485 14483 14100; CX 14489 14490 14106; CX 14491 14490 14285; CX 14458 14457 14289; CX 14492 14493 14293; CX 14494 14493 14110;
  CX 14495 14258 14294; CX 14462 14461 14303; CX 14508 14509 14319; CX 14510 14508 14309; CX 14511 14508 14149; CX 14512 14509 14310; CX 14513 14509 14314; CX 14514 14509 14321;
  CX 14511 14510 14315; CX 14515 14516 14317; CX 14517 14311 14320; CX 14518 14516 14150; CX 14522 14349 14324; CX 14545 14546 14380; CX 14550 14545 14186; CX 14553 14545 14345;
  CX 14561 14546 14346; CX 14563 14546 14325; CX 14566 14546 14381; CX 14574 14575 14187; CX 14550 14553 14382; CX 14578 14404 14383; CX 14582 14575 14390; CI 11437 14070;
  CX 11557 11560 14239; CX 11682 11688 14240; CX 14583 14584 14256; CX 14585 14586 14257; CX 14587 14584 14280; CX 14588 14586 14284; CX 14595 14596 14440; CX 14602 14595 14226;
  CX 14604 14595 14399; CX 14614 14596 14400; CX 14615 14596 14437; CX 14616 14596 14384; CX 14629 14630 14442; CX 14631 14630 14227; CX 14602 14604 14438; CX 14651 14652 14282;
  CX 14392 14654 14130; CX 14666 14654 14487; CX 14676 14652 14460; CX 14681 14682 14446; CX 14686 14583 14459; CX 14692 14693 14330; CX 14694 14693 14333; CX 14507 14730 14160;
  CX 14731 14732 14337; CX 14733 14732 14531; CX 14734 14730 14537; CX 14735 14736 14530; CX 14737 14692 14532; CX 14686 14682 14488; CX 14900 12130 11927; CX 12473 14904 11932;
  CX 12140 14905 11931; CX 14906 12146 11933; CX 12135 14910 11938; CX 14911 12134 11934; CX 14912 12136 11939; CX 14913 12138 11941; CX 14737 14736 14538; CX 12361 15091 11966;
  CX 15093 12182 11967; CX 12502 15094 11968; CX 12184 15095 11969; CX 15100 15101 11972; CX 15102 15103 11974; CX 15108 15109 12359; CX 12776 15179 11970; CX 13983 13981 13762;
  CX 13984 13787 13590; CX 13982 13985 13592; CX 13559 13991 13798; CX 13523 13991 13785; CX 13559 13821 13860; CX 13846 13991 13793; CX 13852 13991 13792; CX 13996 14039 13806;
  CX 11678 14039 13575; CX 11555 14039 13595; CX 14046 14039 13776; CX 13996 11554 13637; CX 14052 14046 13549; CX 14054 14039 13804; CX 13997 14065 13979; CX 11403 14065 13563;
  CX 11471 14065 13529; CX 14068 14065 13977; CX 13997 11405 13633; CX 14070 14068 13552; CX 14072 14065 13980; CX 14083 13846 14006; CX 14083 13462 14020; CX 14144 11935 13449;
  CX 14144 11817 13441; CX 14145 11934 13587; CX 14146 11820 13836; CX 11927 14090 13474; CX 13962 14082 13379; CX 14081 11938 13454; CX 11939 14096 13893; CX 14169 11559 13873;
  CX 14170 14172 13719; CX 14123 11941 13833; CX 14175 11561 13825; CX 14147 13951 13729; CX 14176 13961 14050; CI 14065 14045; CX 14177 14178 13993; CX 14179 14180 13988;
  CX 14189 14190 14037; CX 14191 14192 13936; CX 14196 14197 13767; CX 14202 14203 14057; CX 14194 14193 14058; CX 11970 14088 13831; CX 12032 14088 13468; CX 12135 14063 13446;
  CX 12131 14063 13456; CX 12033 14063 13444; CX 14080 12136 13891; CX 14074 12132 13362; CX 14074 12034 13363; CX 14080 12035 13886; CX 14125 12036 13840; CX 14125 11969 13877;
  CX 14221 14222 13970; CX 14223 14224 14067; CX 14233 14234 14069; CX 13210 11560 13211; CX 13213 11688 13212; CX 14237 13112 12955; CX 14238 13118 12958; CX 13210 11558 13194;
  CX 13213 11684 13197; CX 12954 13117 13071; CX 12957 13120 13079; CX 14239 13112 13074; CX 14240 13118 13077; CX 14237 14239 13115; CX 14076 14239 13116; CX 14238 14240 13121;
  CX 14077 14240 13113; CX 14241 14242 14084; CX 14243 14244 13464; CX 14247 14248 14089; CX 14255 14242 14101; CX 14257 14244 14107; CX 14258 14248 14111; CX 14260 14242 14098;
  CX 14261 14242 14127; CX 14262 14244 14104; CX 14263 14244 14129; CX 14266 14248 14133; CX 14267 14248 14114; CX 14272 14273 14094; CX 14274 14275 14119; CX 14276 14277 14001;
  CX 14278 14279 14093; CX 14284 14285 14011; CX 14288 14289 13850; CX 14290 14291 13847; CI 14083 14008; CX 14292 14293 14122; CX 14294 14295 13862; CX 14300 14301 13864;
  CX 14302 14303 14095; CX 14309 14310 13539; CX 14311 14310 14151; CX 14312 14310 14148; CX 14313 14310 14153; CX 14314 14315 13750; CX 14316 14317 14120; CX 14318 14319 13851;
  CX 14320 14321 13848; CX 14324 14325 13941; CA 13213 14326 14029; CA 13210 14327 14026; CI 14088 14162; CX 14345 14346 13515; CX 14349 14346 14188; CX 14355 14346 14201;
  CX 14356 14346 14185; CI 14125 14174; CI 14074 14167; CX 14379 14380 13950; CX 14381 14382 14053; CX 14383 14384 14164; CX 14389 14390 14060; CX 14391 14257 14204;
  CX 14392 14256 14206; CX 14399 14400 14171; CX 14404 14400 14228; CX 14411 14400 14225; CX 14412 14400 14236; CX 14437 14438 14165; CX 14439 14440 14073; CX 14441 14442 14195;
  CX 14445 14446 14283; CX 14459 14445 14109; CX 14460 14445 14245; CX 14467 14446 14246; CX 14470 14446 14207; CX 14471 14446 14286; CX 14486 14487 14102; CX 14488 14487 14281;
  CX 14459 14460 14287; CX 14507 14330 14307; CX 14529 14530 14338; CX 14531 14529 14328; CX 14532 14529 14157; CX 14533 14530 14329; CX 14534 14530 14308; CX 14535 14530 14335;
  CX 14536 14537 14158; CX 14538 14537 14334; CX 14532 14531 14336; CX 14718 11932 11681; CX 14719 11931 11680; CX 11933 14720 11608; CX 11927 14722 11685; CX 14724 11934 11683;
  CX 11939 14726 11687; CX 11938 14728 11689; CX 11941 14729 11691; CX 11966 14899 11715; CX 12359 14901 11716; CX 11972 14902 11717; CX 11974 14903 11718; CX 11967 14907 11719;
  CX 14908 11968 11720; CX 14909 11969 11721; CX 11970 14958 11722; CX 13792 13462 13623; CX 13821 13785 13631; CX 13798 13852 13615; CX 11719 13776 13460; CX 13806 11720 13614;
  CX 13804 11715 13478; CX 13787 13977 13773; CX 13746 13977 13764; CX 13981 13980 13768; CX 13982 13979 13771; CX 13926 13941 13717; CX 13929 13950 13725; CX 14037 14035 13932;
  CX 14044 13936 13953; CX 11680 14039 13585; CX 13936 14037 13939; CX 13993 13988 13795; CX 13767 13988 13781; CX 13996 11681 13653; CX 14046 11608 13589; CX 13962 14037 13937;
  CX 14055 13988 13601; CX 14057 14043 13942; CX 14057 14037 13924; CX 14058 14053 13960; CX 13970 14067 13812; CX 11815 14067 13605; CX 11718 14067 13551; CX 11929 14067 13599;
  CX 14069 14067 13777; CX 13970 11814 13645; CX 14069 11933 13567; CX 14069 11930 13555; CX 14074 14067 13810; CX 13211 13073 13154; CX 13115 13210 13193; CX 13212 13075 13156;
  CX 13121 13213 13196; CX 13115 13117 13903; CX 13121 13120 13906; CX 14076 13074 13904; CX 14077 13077 13907; CX 13194 13112 13192; CX 13197 13118 13195; CX 13074 11404 13155;
  CX 13077 11437 13153; CX 14078 13074 13072; CX 14079 13077 13078; CX 14001 13985 13368; CX 14001 13851 13772; CX 13999 13850 13875; CX 14055 13847 13665; CX 13862 14081 13868;
  CX 14011 13850 14012; CX 14084 13539 13769; CX 14085 13464 13643; CX 14089 14090 13829; CX 14011 13464 14016; CX 14091 14084 13622; CX 14093 13984 13630; CX 14094 13750 13887;
  CX 14093 13848 13774; CX 14095 14096 13881; CX 14098 14099 13987; CX 14100 14101 13995; CX 14104 14105 13989; CX 14106 14107 13527; CX 14110 14111 13817; CX 14114 14115 13780;
  CX 14118 14094 14005; CX 14119 14120 14021; CX 14121 14011 14022; CX 14122 14123 14009; CX 14126 14127 13765; CX 14128 14129 13545; CX 14132 14133 14003; CX 14137 14119 14019;
  CX 14142 11722 13844; CX 14120 13750 14004; CX 14120 13539 14018; CX 14147 13941 13742; CX 14148 14149 13972; CX 14150 14151 13561; CX 14152 14153 13543; CA 13194 11404 14024].
(** Lines 20005-20404 of the file. *)
Definition aes128_50 : list cg := [
  CA 13115 13117 13913; CA 13113 13118 13919; CA 13116 13112 13911; CA 12955 12954 14025; CA 13074 13071 13909; CA 12958 12957 14027; CA 13121 13120 13917; CA 13077 13079 13915;
  CA 13197 11437 14028; CX 14162 12130 13470; CX 14163 11685 13475; CX 14082 13950 13740; CX 13951 14164 13963; CX 13961 14165 13965; CX 14164 12334 13509; CX 12359 14164 13732;
  CX 14167 12134 13565; CX 14168 11683 13608; CX 14060 14053 14056; CX 14170 14171 13949; CX 14172 13515 13736; CX 14060 13515 14061; CX 14174 12138 13828; CX 14123 11721 13889;
  CX 14176 14053 13966; CI 13970 14051; CI 14067 14041; CX 14185 14186 14036; CX 14187 14188 13700; CX 14193 14060 14062; CX 14194 14195 14059; CX 14200 14201 14042;
  CX 14204 14205 13820; CX 14206 14207 13863; CX 12776 14171 13943; CX 12406 14171 13517; CX 12475 14171 13521; CX 12246 14165 13968; CX 12330 14165 13744; CX 11972 14165 13707;
  CX 11716 14063 13635; CX 14210 11689 13458; CX 12548 14073 13377; CX 12597 14073 13711; CX 12595 14073 13378; CX 14080 11717 13581; CX 14211 11687 13895; CX 12850 14195 13946;
  CX 14195 12184 13957; CX 14212 11691 13842; CX 14225 14226 14038; CX 14227 14228 14047; CX 14235 14236 14066; CX 14245 14246 14087; CX 14256 14246 14103; CX 14264 14246 14131;
  CX 14265 14246 14108; CI 14120 14075; CX 14280 14281 14124; CX 14282 14283 13865; CX 14286 14287 14000; CX 14307 14308 14092; CI 14164 14143; CX 14328 14329 14086;
  CX 14330 14329 14159; CX 14331 14329 14156; CX 14332 14329 14161; CX 14333 14334 14136; CX 14335 14336 14097; CX 14337 14338 14034; CI 14165 14166; CI 14195 14173;
  CX 14525 11680 11472; CX 14526 11608 11438; CX 14528 11681 11474; CX 11683 11689 14141; CI 11685 14140; CI 11689 14138; CI 11691 14506; CX 11716 14715 11498;
  CX 14716 11717 11499; CX 11718 14717 11500; CX 14721 11715 11502; CX 14723 11720 11501; CX 11721 14725 11503; CX 14727 11719 11504; CX 11722 14782 11505; CX 13614 13615 13230;
  CX 13764 13765 13542; CX 13768 13769 13540; CX 13771 13772 13309; CX 13773 13774 13536; CX 13776 13780 13720; CX 13949 13937 13726; CX 13781 13820 13597; CX 13795 13847 13579;
  CX 13951 13924 13716; CX 13960 13961 13743; CX 13962 13939 13724; CX 13966 13932 13712; CX 13742 13953 13737; CX 11967 13777 13452; CX 13977 11504 13484; CX 13812 11968 13582;
  CX 13810 11966 13472; CX 11501 13979 13670; CX 13980 11502 13485; CX 13072 13073 13899; CX 13078 13075 13901; CX 13193 13192 13488; CX 13196 13195 13490; CX 13987 13972 13859;
  CX 13988 13989 13853; CX 13992 13987 13808; CX 13527 13989 13796; CX 13995 13819 13858; CX 13995 13561 13866; CX 13993 13527 13870; CX 13545 13989 13782; CX 13817 13780 13805;
  CX 13543 13987 13786; CX 13765 13987 13789; CX 13995 13987 13814; CX 13545 13988 13788; CX 13630 13997 13818; CX 13527 13820 13854; CX 13847 13989 13791; CX 13850 13989 13799;
  CX 13864 13780 13803; CX 13999 13989 13801; CX 14001 13987 13763; CX 14004 14005 13883; CX 14007 13765 13823; CX 14003 13780 13775; CX 14008 14009 13896; CX 14018 14019 13838;
  CX 13769 14019 13841; CX 14021 14005 13894; CX 13887 14023 13874; CX 13983 14021 13826; CX 13561 13972 13815; CX 13543 13972 13790; CX 13561 13848 13857; CX 13750 13972 13807;
  CX 13851 13972 13813; CA 13072 13073 13910; CA 13154 13155 13908; CA 13192 13193 13912; CA 13156 13153 13914; CA 13078 13075 13918; CA 13195 13196 13916; CX 14024 13909 13898;
  CX 14025 13911 13902; CX 14026 13913 13674; CX 14027 13919 13905; CX 14028 13915 13900; CX 14029 13917 13679; CX 14035 14036 13955; CX 14037 14038 13934; CX 13700 14036 13930;
  CX 14041 11931 13569; CX 14042 14043 13954; CX 11500 14039 13557; CX 14044 13700 13964; CX 14042 14036 13927; CX 14042 14035 13925; CX 14047 13729 13935; CX 14050 14036 13933;
  CX 14051 11932 13651; CX 13700 13941 13952; CX 14053 14036 13931; CX 13950 14036 13928; CX 14056 14050 13956; CX 14059 14060 13969; CX 14061 14058 13944; CX 13736 14058 13948;
  CX 14062 14050 13958; CX 14062 13949 13945; CX 14059 13966 13967; CX 13863 14063 13871; CX 14064 13863 13625; CX 14064 13820 13663; CI 14005 13971; CI 14019 13973;
  CX 14066 14038 13923; CX 14047 14038 13940; CX 11974 14038 13696; CX 12038 14038 13709; CX 11472 14065 13607; CX 14066 12040 13703; CX 12404 14047 13734; CX 14066 12142 13698;
  CX 13997 11474 13655; CX 14073 14038 13938; CX 14075 14023 13986; CX 14055 13865 13367; CX 13999 14000 14013; CX 13864 14034 13331; CX 14000 14080 13884; CX 14034 13852 13661;
  CX 14086 13462 13639; CX 14087 14088 13834; CX 14085 14087 13617; CX 14089 14086 13620; CX 14092 13862 13628; CX 14092 13821 13659; CX 14097 13846 13878; CX 14102 14103 13748;
  CX 14108 14109 13978; CX 14095 14097 13998; CX 14124 14125 14010; CX 14121 14124 14014; CX 14130 14131 14002; CX 14122 14136 14015; CX 12244 14143 13511; CX 12328 14143 13513;
  CX 14136 14083 14017; CX 14156 14157 13990; CX 14158 14159 13994; CX 14160 14161 13721; CX 14163 11505 13837; CX 14166 12332 13959; CX 14081 11498 13647; CX 11499 14096 13613;
  CX 14173 12970 13947; CX 14175 11503 13882; CI 14038 14040; CI 14047 14049; CI 14066 14048; CX 14140 11472 13020; CX 14140 11474 12773; CX 11472 11474 12983;
  CX 14138 11472 13017; CX 11687 11474 14031; CX 14506 11687 14033; CI 11438 14071; CI 11474 14306; CX 11503 11505 14032; CX 14523 11499 11362; CX 14524 11500 11363;
  CX 14527 11498 11364; CX 11501 11504 14155; CI 11504 14208; CX 13536 13537 13287; CX 13540 13541 13255; CX 13542 13543 13417; CX 13623 13620 13477; CX 13631 13628 13459;
  CX 13716 13717 13512; CX 13720 13721 13522; CX 13724 13725 13295; CX 13726 13727 13514; CX 13743 13744 13408; CX 13762 13763 13538; CX 13775 13776 13658; CX 13781 13782 13624;
  CX 13786 13787 13553; CX 13789 13790 13629; CX 13791 13464 13618; CX 13795 13796 13564; CX 13791 13601 13616; CX 13803 13804 13638; CX 13805 13806 13660; CX 13807 13808 13602;
  CX 13763 13813 13621; CX 13814 13815 13609; CX 13818 13819 13560; CX 13820 13782 13626; CX 13823 13790 13546; CX 13825 13826 13426; CX 13829 13803 13576; CX 13837 13838 13427;
  CX 13841 13842 13428; CX 13796 13847 13583; CX 13789 13848 13591; CX 13814 13851 13593; CX 13857 13858 13640; CX 13823 13859 13610; CX 13862 13775 13570; CX 13864 13805 13572;
  CX 13866 13867 13632; CX 13870 13871 13644; CX 13872 13859 13562; CX 13873 13874 13423; CX 13882 13883 13424; CX 13884 13853 13604; CX 13887 13808 13606; CX 13774 13858 13654;
  CX 13894 13895 13425; CX 13896 13620 13649; CX 13898 13899 13666; CX 13900 13901 13668; CX 13813 13539 13672; CX 13848 13790 13673; CX 13815 13851 13671; CX 13902 13903 13675;
  CX 13904 13902 13677; CX 13905 13906 13680; CX 13907 13905 13683; CX 13908 13909 13676; CX 13910 13911 13667; CX 13912 13913 13678; CX 13914 13915 13682; CX 13916 13917 13681;
  CX 13918 13919 13669; CX 13923 13924 13741; CX 13925 13924 13697; CX 13926 13927 13730; CX 13928 13515 13718; CX 13929 13930 13710; CX 13931 13932 13706; CX 13928 13727 13722;
  CX 13933 13934 13701; CX 13935 13936 13699; CX 13937 13938 13735; CX 13939 13940 13739; CX 13941 13927 13728; CX 13942 13927 13695; CX 13943 13944 13503; CX 13945 13946 13504;
  CX 13947 13948 13505; CX 13930 13950 13705; CX 13952 13953 13731; CX 13954 13934 13702; CX 13942 13955 13714; CX 13956 13957 13500; CX 13958 13959 13502; CX 13963 13964 13733;
  CX 13965 13955 13708; CX 13967 13968 13501; CX 13969 12968 13723; CX 13970 13625 13747; CX 13971 13972 13745; CX 13973 13872 13749; CX 13777 13978 13766; CX 13923 12182 13507;
  CX 12502 13940 13704; CX 12361 13938 13519; CX 13986 13622 13770; CX 13988 13978 13800; CX 13990 13780 13794; CX 13990 13991 13856; CX 13993 13748 13855; CX 13994 13817 13861;
  CX 13994 13559 13869; CX 13748 13978 13811; CX 13523 13990 13783; CX 13996 13628 13816; CX 13998 13991 13779; CX 14000 13978 13802; CX 13865 13978 13809; CX 14002 13767 13822;
  CX 14003 13721 13824; CX 14006 13998 13888; CX 14002 13978 13778; CX 14010 14011 13897; CX 14012 14013 13876; CX 13643 14014 13827; CX 13881 14015 13845; CX 14016 14014 13830;
  CX 13639 14015 13832; CX 14017 13998 13892; CX 13884 14014 13849; CX 14020 14015 13843; CX 14022 13834 13839; CX 14022 14013 13890; CX 13829 14017 13835; CX 13878 14009 13879;
  CX 13875 14010 13885; CX 13721 13990 13784; CX 13994 13990 13797; CX 14034 13990 13577; CX 14040 12140 13713; CX 14045 11363 13547; CX 14048 12146 13715; CX 14049 12473 13738;
  CI 13367 13330; CX 14071 14068 13611; CX 12773 13017 12980; CX 14141 13020 12981; CX 14031 14141 13018; CX 14210 11364 13641; CX 14211 11362 13603; CX 14033 11438 13170;
  CX 14306 11691 14139; CX 11502 11362 13047; CX 11502 11364 12846; CX 11362 11364 13015; CX 11362 11504 13049; CX 11503 11364 14030; CX 14032 11363 13172; CX 11505 11364 14154;
  CX 13417 11404 12116; CX 13459 13460 13382; CX 13477 13478 13348; CI 13287 13254; CX 13512 13513 13338; CX 13514 13515 13411; CX 13522 13523 13410; CX 13538 13539 13418].
(** Lines 20405-20804 of the file. *)
Definition aes128_51 : list cg := [
  CX 13423 13426 13152; CX 13427 13424 13102; CX 13546 13547 12003; CX 13552 13553 11955; CX 13560 13561 13480; CX 13562 13563 13399; CX 13564 13565 13233; CX 13576 13577 13461;
  CX 13582 13583 13272; CX 13590 13591 13447; CX 13592 13593 13238; CX 13602 13603 13345; CX 13604 13605 13355; CX 13606 13607 13342; CX 13608 13609 13268; CX 13610 13611 11887;
  CX 13616 13617 13469; CX 13618 13617 13471; CX 13621 13622 13476; CX 13624 13625 13445; CX 13626 13625 13451; CX 13629 13630 13457; CX 13632 13633 13415; CX 13638 13639 13465;
  CX 13640 13641 13374; CX 13644 13645 13358; CX 13649 11940 13364; CX 13654 13655 13344; CX 13658 13659 13442; CX 13660 13661 13234; CX 13666 13667 13241; CX 13668 13669 13243;
  CX 13670 13671 13266; CX 13672 13622 13486; CX 13673 13630 13483; CX 13674 13675 13384; CX 13676 13677 13421; CX 13678 13667 13487; CX 13679 13680 13385; CX 13681 13669 13489;
  CX 13682 13683 13422; CX 13503 13500 13137; CX 13504 13501 13138; CX 13502 13505 13139; CX 13695 13696 12052; CX 13697 13698 12054; CX 13699 13700 13524; CX 13701 12144 13306;
  CX 13702 13703 12053; CX 13704 13705 13288; CX 13706 13707 13375; CX 13708 13709 13376; CX 13710 13711 13290; CX 13712 13713 13402; CX 13714 13715 12078; CX 13718 13719 13518;
  CX 13722 13719 13520; CX 13723 13719 13409; CX 13728 13729 13506; CX 13730 13729 13508; CX 13731 13732 13404; CX 13733 13734 13405; CX 13735 13736 13516; CX 13737 13738 13406;
  CX 13739 13740 13292; CX 13741 13742 13510; CX 13745 13746 13528; CX 13747 13748 13526; CX 13749 13750 13530; CI 13425 13525; CX 13766 13767 13544; CX 13770 11690 13360;
  CX 13777 13778 13662; CX 13779 13780 13574; CX 13783 13775 13548; CX 13784 13785 13627; CX 13788 13778 13554; CX 13793 13794 13612; CX 13797 13798 13586; CX 13799 13800 13580;
  CX 13792 13577 13619; CX 13801 13802 13598; CX 13809 13810 13642; CX 13811 13812 13664; CX 13816 13817 13558; CX 13822 13782 13550; CX 13824 13785 13556; CX 13827 13828 13438;
  CX 13830 13831 13439; CX 13832 13833 13435; CX 13834 13809 13600; CX 13835 13836 13436; CX 13839 13840 13440; CX 13843 13844 13437; CX 13845 13846 13657; CX 13849 13850 13656;
  CX 13822 13853 13566; CX 13854 13855 13634; CX 13824 13856 13588; CX 13860 13861 13646; CX 13863 13778 13596; CX 13865 13811 13578; CX 13868 13869 13636; CX 13663 13855 13650;
  CX 13875 13800 13568; CX 13876 13877 13433; CX 13659 13861 13652; CX 13878 13794 13584; CX 13879 13880 13430; CX 13881 13856 13594; CX 13885 13886 13434; CX 13888 13889 13431;
  CX 13890 13891 13432; CX 13892 13893 13429; CX 13897 13617 13648; CX 13784 13821 13571; CX 13797 13852 13573; CX 14031 12981 13690; CX 12981 11438 13094; CX 14033 12981 12982;
  CA 12981 12980 13692; CA 13018 13020 13761; CX 14138 13170 13171; CX 14139 13020 12772; CX 14140 13170 13129; CX 14139 14141 13019; CX 13172 11504 13173; CX 14154 13047 12847;
  CX 13172 11502 13148; CX 12846 13049 13013; CX 14155 13047 13014; CX 14154 14155 13051; CX 14030 14155 13050; CA 13170 11689 13920; CA 13172 14208 13975; CX 13152 12116 12119;
  CX 13399 13254 11895; CX 13407 13254 13310; CX 13410 11556 11944; CX 13411 12472 13307; CI 13382 13318; CX 13255 13399 11836; CX 13255 13415 11571; CX 13418 11684 13229;
  CX 13421 13241 13312; CX 13422 13243 13315; CX 13399 13415 11738; CX 13345 13374 11604; CX 13342 13344 11673; CX 13355 13358 11676; CX 13102 12003 12006; CX 13423 13415 13151;
  CX 13424 13374 13100; CX 13425 13344 13101; CX 13426 13415 13226; CX 13427 13374 13182; CX 13428 13344 13183; CX 13434 13358 13107; CX 13440 13358 13191; CX 13441 13442 13257;
  CX 13445 13446 13381; CX 13447 13448 13282; CX 13451 13452 13340; CX 13457 13458 13317; CX 13461 13462 13366; CX 13465 13466 13227; CX 13469 13470 13352; CX 13471 13472 13354;
  CX 13475 13476 13320; CX 13480 11473 13337; CX 13483 13484 13383; CI 13338 13305; CX 13485 13486 13343; CA 13241 13384 13386; CA 13243 13385 13388; CX 13487 13488 13245;
  CX 13489 13490 13247; CX 13375 13404 11658; CX 13402 13406 11734; CX 13376 13405 11662; CX 13137 12052 12063; CX 13138 12053 12065; CX 13139 12078 12114; CX 13500 13404 13132;
  CX 13501 13405 13133; CX 13502 13406 13134; CX 13503 13404 13209; CX 13504 13405 13206; CX 13505 13406 13207; CX 13408 13409 13136; CX 13506 13507 13420; CX 13508 13509 13398;
  CX 13510 13511 13419; CX 13516 13517 13401; CX 13518 13519 13400; CX 13520 13521 13403; CX 13524 12470 13308; CA 13421 13384 13298; CA 13422 13385 13300; CX 13525 13428 13103;
  CX 13526 13527 13412; CX 13528 13529 13321; CX 13530 11686 13359; CI 13241 13481; CI 13243 13482; CX 13544 13545 13416; CX 13435 13429 13108; CX 13436 13430 13088;
  CX 13437 13431 13089; CX 13438 13432 13090; CX 13439 13433 13109; CX 13440 13434 13111; CX 13548 13549 11875; CX 13550 13551 12009; CX 13554 13555 12015; CX 13556 13557 11945;
  CX 13558 13559 13479; CX 13566 13567 11823; CX 13568 13569 13324; CX 13570 13571 13450; CX 13572 13573 13236; CX 13574 13575 13260; CX 13578 13579 13276; CX 13580 13581 13353;
  CX 13584 13585 13346; CX 13586 13587 13270; CX 13588 13589 12010; CX 13594 13595 13322; CX 13596 13597 13455; CX 13598 13599 13263; CX 13600 13601 13463; CX 13612 13613 13323;
  CX 13619 13620 13473; CX 13627 13628 13453; CX 13634 13635 13357; CX 13636 13637 13351; CX 13642 13643 13467; CX 13646 13647 13349; CX 13648 12137 13329; CX 13650 13651 13356;
  CX 13652 13653 13350; CX 13656 12133 13328; CX 13657 11937 13361; CX 13662 13663 13443; CX 13664 13665 13274; CX 12982 12983 13687; CA 12982 12983 13760; CX 13171 12983 13095;
  CX 13019 13170 13131; CX 13019 13017 13689; CX 13129 13020 13130; CX 13173 13015 13127; CX 13051 13172 13146; CX 13051 13049 13752; CX 14030 13014 13753; CX 13148 13047 13147;
  CX 13014 11363 13126; CX 14032 13014 13011; CA 13129 11438 13922; CA 12772 12773 13921; CA 13019 13017 13694; CA 13050 13047 13757; CA 12847 12846 13974; CA 13051 13049 13759;
  CA 13014 13013 13755; CA 13148 11363 13976; CX 13254 12119 12120; CX 13255 12119 12117; CA 12119 13287 13099; CX 11571 11895 11825; CX 13306 13307 11751; CX 13307 13308 11514;
  CX 13088 11944 11949; CX 13309 13310 13225; CX 13323 13318 11698; CX 13331 13318 13231; CX 13321 13229 11616; CX 13226 11836 11570; CX 13229 13337 11431; CX 13320 13342 11567;
  CX 13343 12006 12004; CX 13321 13337 11552; CX 13320 13344 11434; CX 13342 13317 11620; CX 13227 13322 11610; CX 13323 13348 11613; CX 13348 13349 11427; CX 13227 13351 11428;
  CX 13352 13324 11621; CX 13353 13354 11757; CX 13352 13356 11435; CX 13354 13357 11463; CX 13359 13337 13080; CX 13360 13337 13160; CX 13353 13340 11760; CX 13366 11926 13261;
  CX 13298 13312 13279; CX 13300 13315 13281; CX 13367 13340 13273; CX 13368 13317 13269; CX 13343 13345 11704; CX 13343 13374 11461; CX 13306 13305 11833; CX 13378 13305 13294;
  CA 12006 13383 13040; CX 13384 13245 13299; CX 13385 13247 13301; CX 13298 13245 13311; CX 13300 13247 13314; CX 13398 12114 12115; CX 13400 13375 11745; CX 13401 13376 11749;
  CX 13402 13403 11834; CX 13400 13404 11512; CX 13401 13405 11513; CX 13403 13406 11517; CX 13306 13308 11675; CX 13400 12063 12055; CX 13403 12114 12079; CX 13401 12065 12056;
  CX 13398 13402 11842; CX 13136 12054 12061; CX 13408 13308 13135; CX 13409 13308 13208; CI 11738 13057; CI 11604 12993; CI 11673 12994; CX 13103 11887 12082;
  CX 13360 13359 13082; CI 13257 13224; CI 13381 13319; CI 13282 13228; CI 13340 13369; CI 13317 13371; CX 13412 11928 13265; CX 13298 13241 13313;
  CX 13300 13243 13316; CX 13416 11816 12021; CA 12065 13419 13063; CA 12063 13420 13069; CX 13346 13350 11665; CX 13322 13351 11551; CX 13323 13349 11553; CX 13324 13356 11603;
  CX 13353 13357 11663; CX 13108 12010 12067; CX 13089 11945 11953; CX 13429 13350 13104; CX 13430 13351 13084; CX 13431 13349 13085; CX 13090 11823 11943; CX 13109 12009 12074;
  CX 13432 13356 13086; CX 13433 13357 13105; CX 13435 13350 13185; CX 13436 13351 13166; CX 13437 13349 13167; CX 13364 13361 13087; CX 13438 13356 13169; CX 13439 13357 13190;
  CX 13329 13328 13110; CX 13443 13444 13253; CX 13449 13450 13297; CX 13453 13454 13339; CX 13455 13456 13258; CI 13383 13341; CX 13463 13464 13365; CX 13467 13468 13256;
  CX 13473 13474 13347; CX 13479 11677 13262; CA 13421 13481 13390; CA 13422 13482 13391; CI 13245 13387; CI 13247 13389; CI 11658 13023; CI 11662 13024;
  CI 13420 13372; CI 13398 13380; CI 13419 13373; CX 13760 13761 13494; CX 13130 13131 13397; CX 13011 13015 13685; CX 13146 13147 13414; CA 13130 13131 13693;
  CA 13095 13094 13691; CX 13920 13694 13495; CX 13921 13761 13688; CX 13922 13692 13686; CA 13127 13126 13754; CA 13011 13015 13756; CA 13147 13146 13758; CX 13974 13757 13751;
  CX 13975 13759 13531; CX 13976 13755 13684; CX 12120 11738 12049; CX 12117 11836 12072; CA 12117 12116 13097; CX 11949 13224 11961; CX 13225 11836 11826; CX 13226 13225 11896].
(** Lines 20805-21204 of the file. *)
Definition aes128_52 : list cg := [
  CX 13151 13225 11837; CX 13227 11949 11946; CX 11514 11833 11730; CX 13208 11751 11511; CX 11427 11698 11590; CX 13230 13231 13164; CX 13160 11616 11430; CA 11949 13257 13005;
  CX 13183 11567 11433; CX 12004 11704 11957; CX 11434 11620 11607; CX 13260 13261 11563; CX 13261 13262 11361; CX 13166 11610 11424; CX 13167 11613 11426; CX 11463 11760 11661;
  CX 13169 11621 11422; CX 13190 11757 11464; CX 13268 13269 13181; CX 13272 13273 13186; CA 11570 11571 13098; CX 13182 11704 11460; CX 13294 13295 13205; CA 12004 12003 13038;
  CX 13298 13299 13215; CX 13300 13301 13217; CX 12061 13305 12069; CX 12115 11734 11987; CX 12055 11745 11996; CX 12056 11749 11998; CX 12079 11834 12059; CX 13307 12061 12057;
  CX 11517 11842 11741; CX 13207 11834 11516; CX 13209 11745 11507; CX 13206 11749 11509; CA 13311 13312 13240; CA 13313 13299 13244; CA 13314 13315 13242; CA 13316 13301 13246;
  CX 13317 12082 12077; CX 11953 13318 11960; CX 11943 13319 11954; CX 13320 12082 11893; CI 11552 12959; CX 13321 13228 11702; CX 13263 13265 11669; CX 13082 11955 11963;
  CX 13322 13224 11700; CX 13324 13319 11693; CX 13325 13228 13239; CX 13327 13224 13235; CX 13328 13265 13106; CX 13329 13265 13189; CX 13330 13319 13232; CX 13111 12021 12081;
  CA 12055 12052 13060; CA 12056 12053 13064; CA 12061 13338 13068; CA 12079 12078 13059; CX 13339 12067 12066; CX 13340 12074 12076; CX 12006 13341 12007; CX 13345 13341 11754;
  CX 13346 13347 11743; CX 13260 13262 11602; CX 13347 13350 11457; CX 13347 12067 12012; CX 13348 11953 11947; CX 13256 13355 11772; CX 13256 13358 11470; CX 13352 11943 11822;
  CX 13354 12074 12013; CX 13346 13339 11762; CX 13263 13258 11768; CX 13355 13253 11756; CX 13087 11875 11951; CX 13361 13262 13083; CX 13362 13258 13277; CX 13363 13253 13275;
  CX 13110 12015 12080; CX 13364 13262 13165; CX 13365 12129 13264; CX 13331 13339 13271; CX 13368 13341 13267; CA 12074 13369 13041; CA 12082 13371 13044; CX 12063 13372 12068;
  CX 12065 13373 12070; CI 11675 13025; CX 13375 13372 11829; CX 13376 13373 11831; CX 13377 13373 13293; CX 13379 13372 13289; CX 13380 13379 13291; CA 11943 13381 12997;
  CA 11953 13382 13009; CA 13386 13387 13214; CA 13388 13389 13216; CA 13390 13245 13278; CA 13391 13247 13280; CA 12114 13380 13066; CI 11551 12961; CI 11553 12962;
  CI 11603 12963; CI 13253 13286; CI 13297 13259; CI 13339 13370; CI 13258 13296; CX 13684 13685 13491; CX 13686 13687 13493; CX 13688 13689 13496;
  CX 13690 13688 13498; CX 13691 13692 13497; CX 13693 13694 13499; CX 13751 13752 13532; CX 13753 13751 13534; CX 13754 13755 13533; CX 13756 13757 13492; CX 13758 13759 13535;
  CX 13151 11826 12986; CX 11896 12119 12073; CX 11895 11896 12985; CX 12116 11826 12050; CX 11961 11551 11865; CX 11946 11610 11883; CX 13152 11826 11737; CX 11613 13164 11593;
  CX 13085 13164 11612; CX 13167 13164 11709; CA 11511 11514 13067; CA 11946 11944 13006; CA 11826 11825 12992; CA 11896 11895 12988; CA 11837 11836 12990; CX 13181 11567 11606;
  CX 13181 13183 11619; CX 13165 11563 11360; CX 11757 13186 11660; CX 13105 13186 11758; CX 13190 13186 11763; CA 11430 11431 13002; CX 13205 11751 11733; CX 13135 13205 11752;
  CX 13208 13205 11843; CA 11422 11435 12995; CA 11424 11428 13004; CA 11426 11427 13008; CA 11464 11463 13032; CA 11433 11434 13007; CX 13214 13215 13140; CX 13216 13217 13142;
  CX 11431 11702 11597; CX 12069 11675 11984; CX 12057 11751 12000; CA 11460 11461 13039; CX 11963 13228 11965; CX 12077 11673 11914; CX 11893 11567 11891; CX 13229 11963 11958;
  CX 11960 11553 11866; CX 11954 11603 11804; CX 11428 11700 11588; CX 11435 11693 11586; CI 13181 13161; CX 13232 13233 13168; CX 13234 13235 13163; CX 13238 13239 13159;
  CX 13240 13241 13157; CX 13242 13243 13158; CX 13244 13245 13141; CX 13246 13247 13143; CX 13253 12081 12083; CX 13256 12081 12018; CA 12057 12054 13058; CA 11507 11512 13061;
  CA 11509 11513 13062; CA 11516 11517 13065; CX 13258 12080 12075; CX 11951 13259 11959; CX 12007 11604 11912; CX 11461 11754 11652; CX 12066 11665 11909; CX 12012 11743 12001;
  CX 11947 11613 11877; CX 13261 11951 11885; CX 13263 13264 11765; CX 13264 13265 11467; CX 12076 11663 11916; CX 11822 11621 11873; CX 12013 11757 12008; CX 11457 11762 11649;
  CX 13185 11743 11458; CX 13264 12080 12017; CX 11470 11756 11672; CX 13191 11772 11469; CX 13266 13267 13180; CX 13270 13271 13184; CX 13274 13275 13188; CX 13276 13277 13187;
  CX 13278 13279 13144; CX 13280 13281 13145; CA 11893 11887 13030; CA 11963 13282 13001; CA 12081 13286 13046; CX 12068 11658 11981; CX 12070 11662 11983; CX 11512 11829 11726;
  CX 11513 11831 11728; CX 13288 13289 13202; CX 13290 13291 13204; CX 13292 13293 13203; CA 12080 13296 13045; CA 11947 11945 13010; CA 11822 11823 12996; CA 11951 13297 12999;
  CA 12013 12009 13031; CA 12012 12010 13033; CI 11602 12960; CX 13260 13259 11696; CX 13326 13259 13237; CA 12067 13370 13035; CX 13491 13492 13199; CX 13493 13494 13177;
  CX 13495 13496 13302; CX 13497 13498 13392; CX 13499 13494 13396; CX 13531 13532 13332; CX 13533 13534 13393; CX 13535 13492 13413; CX 13057 11737 12916; CX 12073 12072 12639;
  CX 11709 11953 11884; CX 11709 11698 12813; CX 11945 11593 11863; CX 13085 11593 12814; CX 13089 11593 11546; CA 12073 12072 12987; CA 11737 11738 12989; CA 12049 12050 12991;
  CX 13097 12992 12915; CX 13098 12990 12984; CX 13099 12988 12781; CX 13101 11606 12809; CX 11619 12082 11892; CX 11619 11620 12811; CX 11887 11606 11911; CX 11763 12074 12011;
  CX 11763 11760 12863; CX 13103 11606 11654; CX 12009 11660 11917; CX 13105 11660 12864; CX 13109 11660 11664; CA 11593 11590 12840; CA 11709 11698 12842; CA 11612 11613 12844;
  CX 11843 12061 11993; CX 11843 11833 12928; CX 12054 11733 11985; CX 13135 11733 12926; CX 13136 11733 11647; CA 11360 11361 12998; CA 11758 11757 12878; CA 11763 11760 12880;
  CA 11660 11661 12882; CA 11619 11620 12910; CA 11606 11607 12912; CX 13140 13141 13070; CX 13142 13143 13076; CX 13140 13144 13028; CX 13142 13145 13026; CA 11733 11730 12952;
  CA 11843 11833 12950; CA 11752 11751 12948; CA 13142 13153 12974; CA 13140 13154 12608; CA 13140 13155 12972; CA 13142 13156 12610; CX 13157 13141 13029; CX 13158 13143 13027;
  CX 13144 13157 13114; CX 13145 13158 13119; CX 11965 11552 11867; CX 11958 11616 11889; CX 13159 11616 11600; CX 13160 13159 11707; CX 13080 13159 11617; CX 13161 13101 11566;
  CX 13163 11610 11592; CX 13166 13163 11708; CX 13084 13163 11614; CX 11621 13168 11601; CX 13169 13168 11694; CX 13086 13168 11622; CX 12083 11676 11918; CX 12018 11772 12019;
  CX 13180 11704 11655; CX 13100 13180 11705; CX 13182 13180 11770; CX 11959 11602 11807; CX 11885 11563 11880; CX 11743 13184 11650; CX 12075 11669 11919; CX 12017 11765 12014;
  CX 11361 11696 11543; CX 13104 13184 11742; CX 13185 13184 11764; CX 13187 11765 11668; CX 13188 11772 11657; CX 11467 11768 11671; CX 13189 11765 11466; CX 13189 13187 11769;
  CX 13107 13188 11771; CX 13191 13188 11773; CX 13106 13187 11766; CA 11958 11955 13003; CA 13157 13192 12760; CA 13141 11404 12971; CA 13157 13193 13123; CA 13141 13194 12965;
  CA 13158 13195 12763; CA 13143 11437 12975; CA 13158 13196 13124; CA 13143 13197 12966; CA 12018 12021 13043; CX 11745 13202 11731; CX 11749 13203 11732; CX 11834 13204 11740;
  CX 13132 13202 11746; CX 13206 13203 11839; CX 13133 13203 11748; CX 13207 13204 11841; CX 13134 13204 11827; CX 13209 13202 11838; CA 11458 11457 13034; CA 11885 11875 13000;
  CA 13144 13210 12607; CA 13144 13211 13122; CA 12017 12015 13037; CA 13145 13212 13125; CA 11469 11470 13042; CA 13145 13213 12606; CI 11873 12964; CX 13236 13237 13162;
  CI 11696 13081; CX 13392 13177 13252; CX 13393 13199 13284; CX 13396 13397 13179; CA 13177 13302 13303; CA 13199 13332 13333; CX 13413 13414 13201; CA 13392 13302 13222;
  CA 13393 13332 13248; CI 13199 13395; CI 13177 13394; CX 12915 12916 12723; CX 12962 11546 12758; CX 11877 11884 12547; CX 12984 12985 12782; CX 12986 12984 12784;
  CX 12987 12988 12780; CX 12989 12990 12724; CX 12991 12992 12783; CX 12994 11654 12796; CX 11892 11891 12581; CX 11664 11663 12786; CX 12011 12008 12571; CA 11884 11877 12841;
  CA 11546 11553 12843; CA 11863 11866 12839; CX 13008 12844 12812; CX 13009 12842 12676; CX 13010 12840 12757; CX 13025 11647 12861; CX 11993 12000 12594; CA 11654 11673 12907;
  CA 11914 11911 12911; CA 11664 11663 12877; CA 11917 11916 12881; CA 11892 11891 12909; CA 12011 12008 12879; CX 13026 13027 12956; CX 13028 13029 12953; CX 13030 12912 12795;
  CX 13031 12882 12785; CX 13032 12878 12862; CX 13041 12880 12697; CX 13044 12910 12674; CA 11993 12000 12949; CA 11647 11675 12947; CA 11985 11984 12951; CX 13058 12952 12860;
  CX 13067 12948 12927; CX 13068 12950 12743; CA 13070 13071 12480; CA 13028 13072 12973; CA 13028 13073 12967; CA 13070 13074 12761; CA 13026 13075 12969; CA 13076 13077 12762].
(** Lines 21205-21604 of the file. *)
Definition aes128_53 : list cg := [
  CA 13026 13078 12976; CA 13076 13079 12482; CX 13080 11600 12805; CX 11707 11963 11890; CX 11707 11702 12804; CX 11955 11600 11868; CX 11708 11949 11882; CX 11708 11700 12807;
  CX 11694 11943 11886; CX 11694 11693 12799; CX 11944 11592 11864; CX 13082 11600 11550; CX 13084 11592 12808; CX 11823 11601 11805; CX 13086 11601 12797; CX 13088 11592 11548;
  CX 13090 11601 11591; CX 12608 12607 12600; CX 12610 12606 12602; CX 13100 11655 12871; CX 11770 12006 11964; CX 11754 11770 12873; CX 12003 11655 11913; CX 11764 12067 12002;
  CX 11764 11762 12867; CX 11769 12080 12016; CX 11773 12081 12020; CX 11769 11768 12868; CX 11773 11756 12875; CX 12010 11650 11910; CX 13102 11655 11599; CX 13104 11650 12865;
  CX 12015 11668 11915; CX 12021 11657 11920; CX 13106 11668 12870; CX 13107 11657 12876; CX 13108 11650 11666; CX 13110 11668 11670; CX 13111 11657 11674; CA 11694 11693 12818;
  CA 11601 11586 12820; CA 11592 11588 12838; CA 11708 11700 12836; CA 11600 11597 12832; CA 11707 11702 12830; CA 11566 11567 12908; CA 13029 13112 12766; CA 13027 13113 12770;
  CA 13114 13115 12605; CA 13029 13116 12767; CA 13114 13117 12481; CA 11622 11621 12816; CA 13027 13118 12769; CA 11617 11616 12828; CA 11614 11610 12834; CA 13119 13120 12483;
  CA 13119 13121 12609; CX 13122 13123 12613; CX 13123 12971 12345; CX 13124 12975 12357; CX 13125 13124 12625; CX 11838 12063 11995; CX 11839 12065 11999; CX 11841 12114 12058;
  CX 11838 11829 12919; CX 11839 11831 12922; CX 11841 11842 12925; CX 12052 11731 11980; CX 12053 11732 11982; CX 12078 11740 11986; CX 13132 11731 12917; CX 13133 11732 12920;
  CX 13134 11740 12923; CX 13137 11731 11643; CX 13138 11732 11645; CX 13139 11740 11735; CA 11742 11743 12884; CA 11650 11649 12886; CA 11655 11652 12898; CA 11770 11754 12900;
  CA 11769 11768 12892; CA 11466 11467 13036; CA 11766 11765 12894; CA 11668 11671 12890; CA 11705 11704 12896; CA 11771 11772 12904; CA 11657 11672 12902; CA 11773 11756 12906;
  CA 11764 11762 12888; CA 11827 11834 12942; CA 11731 11726 12930; CA 11732 11728 12940; CA 11838 11829 12932; CA 11839 11831 12938; CA 11746 11745 12934; CA 11748 11749 12936;
  CA 11841 11842 12944; CA 11740 11741 12946; CX 11563 13162 11544; CX 13165 13162 11706; CX 13083 13162 11564; CX 13248 13284 13219; CX 13222 13252 13221; CX 13302 13179 13223;
  CX 13222 13179 13251; CX 13332 13201 13249; CX 13248 13201 13283; CX 13222 13177 13250; CX 13248 13199 13285; CI 13179 13304; CA 13392 13394 13336; CA 13393 13395 13335;
  CI 13201 13334; CX 12723 12724 12260; CX 12757 12758 12627; CX 12780 12724 12638; CX 12781 12782 12514; CX 12783 12784 12637; CX 12785 12786 12640; CX 12795 12796 12650;
  CX 12812 12813 12677; CX 12814 12812 12679; CX 12839 12840 12678; CX 12841 12842 12680; CX 12843 12844 12628; CX 12860 12861 12695; CX 12862 12863 12698; CX 12864 12862 12722;
  CX 12877 12878 12641; CX 12879 12880 12699; CX 12881 12882 12721; CX 12907 12908 12651; CX 12909 12910 12720; CX 12911 12912 12672; CX 12926 12927 12742; CX 12927 12928 12744;
  CX 12947 12948 12696; CX 12949 12950 12740; CX 12951 12952 12741; CA 12953 12954 12765; CA 12953 12955 12759; CA 12956 12957 12768; CA 12956 12958 12764; CX 12959 11550 12753;
  CX 11890 11889 12543; CX 12961 11548 12755; CX 11883 11882 12545; CX 12963 11591 12749; CX 12964 11886 12538; CX 12965 12600 12148; CX 12966 12602 12150; CX 12967 12968 12487;
  CX 12969 12970 12493; CX 12761 12971 12747; CX 12972 12480 12745; CX 12973 12481 12614; CX 12974 12482 12746; CX 12762 12975 12756; CX 12976 12483 12623; CX 12993 11599 12792;
  CX 11964 11957 12577; CX 11666 11665 12788; CX 12001 12002 12573; CX 11670 11669 12790; CX 11674 11676 12794; CX 12020 12019 12579; CX 12014 12016 12575; CA 11883 11882 12835;
  CA 11886 11873 12817; CA 11591 11603 12815; CA 11548 11551 12833; CA 11889 11890 12829; CA 11550 11552 12827; CA 11805 11804 12819; CA 11867 11868 12831; CA 11865 11864 12837;
  CX 12767 12766 12347; CX 12995 12816 12798; CX 12996 12820 12748; CX 12997 12818 12655; CX 13001 12830 12663; CX 13002 12828 12803; CX 13003 12832 12752; CX 13004 12834 12806;
  CX 13005 12836 12667; CX 13006 12838 12754; CX 12770 12769 12351; CX 13007 12908 12810; CX 13023 11643 12855; CX 13024 11645 12857; CX 11735 11734 12859; CX 11995 11996 12588;
  CX 11999 11998 12590; CX 12058 12059 12592; CA 12002 12001 12887; CA 11910 11909 12885; CA 11964 11957 12899; CA 11599 11604 12895; CA 11670 11669 12893; CA 11666 11665 12883;
  CA 11915 11919 12889; CA 12016 12014 12891; CA 11912 11913 12897; CA 11920 11918 12901; CA 11674 11676 12903; CA 12020 12019 12905; CX 13033 12886 12787; CX 13034 12884 12866;
  CX 13035 12888 12702; CX 13036 12894 12869; CX 13037 12890 12789; CX 13038 12898 12791; CX 13039 12896 12872; CX 13040 12900 12713; CX 13042 12904 12874; CX 13043 12902 12793;
  CX 13045 12892 12705; CX 13046 12906 12717; CA 12058 12059 12943; CA 11995 11996 12931; CA 11999 11998 12937; CA 11735 11734 12941; CA 11643 11658 12933; CA 11645 11662 12935;
  CA 11980 11981 12929; CA 11982 11983 12939; CA 11986 11987 12945; CX 13059 12946 12858; CX 13060 12930 12854; CX 13061 12934 12918; CX 13062 12936 12921; CX 13063 12938 12733;
  CX 13064 12940 12856; CX 13065 12942 12924; CX 13066 12944 12738; CX 13069 12932 12727; CX 11706 11951 11879; CX 13081 11706 12802; CX 11875 11544 11808; CX 13083 11544 12800;
  CX 13087 11544 11595; CA 11544 11543 12822; CA 11706 11696 12824; CA 11564 11563 12826; CX 13222 13223 13150; CX 13248 13249 13175; CA 13250 13223 13178; CA 13251 13252 13176;
  CA 13283 13284 13198; CA 13285 13249 13200; CA 13303 13304 13149; CA 13333 13334 13174; CA 13335 13201 13218; CA 13336 13179 13220; CX 12627 12628 12107; CA 12637 12260 12560;
  CX 12638 12639 12262; CX 12640 12641 12160; CX 12650 12651 12111; CX 12676 12677 12391; CX 12678 12679 12537; CX 12680 12628 12546; CA 12637 12514 12373; CI 12260 12583;
  CX 12695 12696 12214; CX 12697 12698 12426; CX 12699 12641 12570; CX 12720 12651 12580; CX 12721 12722 12523; CI 12637 12582; CX 12740 12696 12593; CX 12741 12742 12586;
  CX 12743 12744 12454; CX 12745 12600 12477; CX 12746 12602 12479; CX 12613 12747 12349; CX 12748 12749 12615; CX 12752 12753 12619; CX 12754 12755 12621; CX 12625 12756 12353;
  CX 12759 12614 12612; CX 12760 12747 12611; CX 12761 12745 12599; CX 12762 12746 12604; CX 12763 12756 12624; CX 12764 12623 12626; CX 12765 12766 12596; CX 12767 12759 12603;
  CX 12768 12769 12598; CX 12770 12764 12601; CX 12787 12788 12646; CX 12789 12790 12642; CX 12791 12792 12644; CX 12793 12794 12648; CX 12797 12798 12654; CX 12798 12799 12656;
  CX 12803 12804 12664; CX 12805 12803 12666; CX 12806 12807 12668; CX 12808 12806 12671; CX 12809 12810 12673; CX 12810 12811 12675; CX 12815 12816 12616; CX 12817 12818 12652;
  CX 12819 12820 12653; CX 12827 12828 12620; CX 12829 12830 12662; CX 12831 12832 12665; CX 12833 12834 12622; CX 12835 12836 12669; CX 12837 12838 12670; CX 12854 12855 12689;
  CX 12856 12857 12691; CX 12858 12859 12693; CX 12865 12866 12701; CX 12866 12867 12703; CX 12868 12869 12706; CX 12870 12869 12708; CX 12871 12872 12711; CX 12872 12873 12714;
  CX 12874 12875 12718; CX 12876 12874 12716; CX 12883 12884 12647; CX 12885 12886 12700; CX 12887 12888 12704; CX 12889 12890 12707; CX 12891 12892 12709; CX 12893 12894 12643;
  CX 12895 12896 12645; CX 12897 12898 12710; CX 12899 12900 12712; CX 12901 12902 12715; CX 12903 12904 12649; CX 12905 12906 12719; CX 12917 12918 12726; CX 12918 12919 12728;
  CX 12920 12921 12732; CX 12921 12922 12734; CX 12923 12924 12737; CX 12924 12925 12739; CX 12929 12930 12725; CX 12931 12932 12729; CX 12933 12934 12690; CX 12935 12936 12692;
  CX 12937 12938 12730; CX 12939 12940 12731; CX 12941 12942 12694; CX 12943 12944 12735; CX 12945 12946 12736; CX 12960 11595 12751; CX 11880 11879 12541; CA 11879 11880 12823;
  CA 11595 11602 12825; CA 11808 11807 12821; CX 12998 12826 12801; CX 12999 12824 12659; CX 13000 12822 12750; CX 13149 13150 13052; CX 13174 13175 13091; CX 13176 13177 13096;
  CX 13178 13179 13053; CX 13198 13199 13128; CX 13200 13201 13092; CX 13218 13219 13093; CX 13220 13221 13054; CX 12514 12262 12374; CX 12373 12262 12418; CX 12523 12160 12311;
  CA 12107 12537 12449; CX 12546 12547 12099; CA 12560 12262 12297; CA 12160 12426 12429; CX 12570 12571 12152; CX 12580 12581 12048; CA 12537 12391 12235; CI 12107 12499;
  CX 12582 12260 12419; CA 12583 12514 12515; CA 12214 12586 12518; CI 12262 12516; CX 12593 12594 12206; CA 12523 12426 12271; CX 12595 12596 12476; CX 12597 12598 12478;
  CX 12599 12600 12338; CX 12601 12602 12340; CX 12603 12600 12336; CX 12604 12602 12342; CX 12605 12596 12471; CX 12606 12598 12495; CX 12607 12596 12485; CX 12608 12596 12488;
  CX 12609 12598 12474; CX 12610 12598 12490; CX 12611 12612 12343; CX 12613 12612 12484; CX 12614 12611 12486; CX 12603 12599 12489; CX 12615 12616 12101; CI 12160 12528].
(** Lines 21605-22004 of the file. *)
Definition aes128_54 : list cg := [
  CX 12619 12620 12109; CX 12621 12622 12105; CX 12601 12604 12491; CX 12623 12624 12492; CX 12625 12626 12494; CX 12624 12626 12355; CI 12111 12532; CI 12537 12468;
  CA 12586 12454 12305; CI 12373 12450; CX 12642 12643 12162; CX 12644 12645 12168; CX 12646 12647 12166; CI 12214 12567; CX 12648 12649 12164; CX 12652 12616 12539;
  CX 12653 12654 12533; CX 12655 12656 12392; CX 12662 12620 12542; CX 12663 12664 12388; CX 12665 12666 12535; CX 12667 12668 12390; CX 12669 12622 12544; CX 12670 12671 12536;
  CX 12672 12673 12520; CX 12674 12675 12424; CX 12689 12690 12208; CX 12691 12692 12210; CX 12693 12694 12212; CX 12700 12701 12522; CX 12702 12703 12425; CX 12704 12647 12572;
  CX 12705 12706 12427; CX 12707 12708 12524; CX 12709 12643 12574; CX 12710 12711 12569; CX 12712 12645 12576; CX 12713 12714 12423; CI 12586 12564; CX 12715 12716 12525;
  CX 12717 12718 12428; CX 12719 12649 12578; CX 12725 12726 12584; CX 12727 12728 12451; CX 12729 12690 12587; CX 12730 12692 12589; CX 12731 12732 12585; CX 12733 12734 12452;
  CX 12735 12694 12591; CX 12736 12737 12561; CX 12738 12739 12453; CX 12750 12751 12617; CX 12800 12801 12658; CX 12802 12801 12660; CX 12821 12822 12657; CX 12823 12824 12661;
  CX 12825 12826 12618; CX 13052 13053 12979; CX 13052 13054 12913; CX 13091 13092 13012; CX 13091 13093 12977; CA 13052 13094 12778; CA 13052 13095 12508; CX 13096 13053 12914;
  CX 13054 13096 13016; CA 13091 13126 12852; CA 13091 13127 12554; CX 13128 13092 12978; CX 13093 13128 13048; CA 13053 13129 12774; CA 13096 13130 12633; CA 13096 13131 13022;
  CA 13053 11438 12779; CA 13128 13146 13056; CA 13092 11363 12853; CA 13128 13147 12685; CA 13092 13148 12848; CA 13054 13170 12507; CA 13054 13171 13021; CA 13093 13172 12553;
  CA 13093 13173 13055; CX 12373 12374 12198; CX 12271 12311 12218; CX 12391 12099 12236; CX 12235 12099 12291; CA 12418 12419 12259; CX 12424 12048 12242; CX 12426 12152 12272;
  CX 12271 12152 12312; CA 12449 12099 12177; CX 12450 12419 12298; CX 12454 12206 12306; CX 12305 12206 12383; CX 12468 12107 12290; CX 12470 12471 12344; CX 12472 12471 12337;
  CX 12473 12474 12356; CX 12475 12474 12341; CX 12271 12160 12313; CX 12476 12477 12346; CX 12478 12479 12358; CX 12480 12471 12335; CX 12481 12471 12350; CX 12482 12474 12339;
  CX 12483 12474 12354; CX 12484 12485 12327; CX 12486 12487 12348; CX 12488 12489 12329; CX 12490 12491 12331; CX 12492 12493 12352; CX 12494 12495 12333; CA 12499 12391 12399;
  CI 12099 12400; CA 12515 12516 12197; CA 12518 12206 12269; CX 12520 12111 12296; CX 12522 12166 12314; CX 12524 12162 12316; CX 12525 12164 12320; CX 12450 12260 12417;
  CA 12528 12523 12443; CA 12532 12424 12439; CA 12101 12533 12393; CA 12535 12109 12444; CA 12536 12105 12446; CX 12538 12539 12044; CI 12152 12430; CX 12542 12543 12113;
  CX 12544 12545 12097; CI 12048 12440; CI 12235 12326; CX 12561 12212 12384; CX 12564 12214 12382; CA 12567 12454 12461; CA 12166 12425 12435; CA 12162 12427 12431;
  CA 12569 12168 12464; CA 12164 12428 12433; CX 12572 12573 12158; CX 12574 12575 12154; CX 12576 12577 12170; CI 12206 12462; CX 12578 12579 12156; CA 12536 12390 12233;
  CA 12535 12388 12231; CA 12533 12392 12227; CI 12101 12500; CI 12109 12501; CI 12105 12498; CA 12208 12584 12517; CA 12210 12585 12519; CA 12212 12453 12459;
  CX 12587 12588 12200; CX 12589 12590 12202; CX 12591 12592 12204; CI 12305 12422; CA 12569 12423 12277; CA 12522 12425 12273; CA 12524 12427 12275; CA 12525 12428 12279;
  CX 12617 12618 12103; CI 12162 12526; CI 12168 12530; CI 12166 12529; CI 12164 12527; CI 12533 12469; CI 12535 12465; CI 12536 12467;
  CI 12520 12531; CA 12584 12451 12299; CA 12585 12452 12301; CA 12561 12453 12303; CI 12208 12565; CI 12210 12566; CI 12212 12568; CX 12657 12658 12534;
  CX 12659 12660 12389; CX 12661 12618 12540; CI 12569 12521; CI 12584 12562; CI 12585 12563; CX 12913 12914 12771; CX 12977 12978 12845; CA 12979 12980 12365;
  CA 12979 12981 12632; CA 12913 12982 12777; CA 12913 12983 12775; CX 12508 12507 12505; CA 12977 13011 12851; CA 13012 13013 12409; CA 13012 13014 12684; CA 12977 13015 12849;
  CX 12554 12553 12551; CA 13016 13017 12366; CA 12914 13018 12636; CA 13016 13019 12509; CA 12914 13020 12635; CX 13021 13022 12510; CX 13022 12779 12189; CA 12978 13047 12687;
  CA 13048 13049 12410; CA 12978 13050 12688; CA 13048 13051 12555; CX 13055 13056 12556; CX 13056 12853 12251; CX 12197 12198 11977; CX 12235 12236 12023; CX 12259 12260 12051;
  CX 12271 12272 12085; CA 12290 12291 12106; CX 12297 12298 11979; CX 12305 12306 12122; CA 12311 12312 12159; CA 12272 12313 12151; CX 12290 12326 12178; CX 12327 12328 8947;
  CX 12329 12330 8949; CX 12331 12332 9024; CX 12333 12334 9026; CX 12335 12336 12143; CX 12337 12338 9101; CX 12339 12340 12139; CX 12341 12342 9159; CX 12343 12344 12147;
  CX 12345 12346 9242; CX 12347 12348 9586; CX 12349 12350 12141; CX 12351 12352 9636; CX 12353 12354 12145; CX 12355 12356 12149; CX 12357 12358 9354; CA 12382 12383 12213;
  CX 12273 12314 12220; CX 12275 12316 12216; CX 12279 12320 12224; CX 12388 12113 12232; CX 12390 12097 12234; CX 12392 12044 12228; CX 12233 12097 12288; CX 12231 12113 12293;
  CA 12399 12400 12022; CX 12326 12107 12285; CA 12417 12374 12261; CX 12303 12384 12268; CX 12382 12422 12270; CX 12423 12170 12278; CX 12425 12158 12274; CX 12427 12154 12276;
  CX 12428 12156 12280; CX 12275 12154 12317; CX 12279 12156 12321; CX 12273 12158 12315; CX 12277 12170 12308; CA 12429 12430 12084; CA 12439 12440 12094; CA 12443 12152 12217;
  CA 12444 12113 12175; CA 12446 12097 12179; CX 12451 12200 12300; CX 12452 12202 12302; CX 12453 12204 12304; CX 12299 12200 12379; CX 12301 12202 12381; CX 12303 12204 12385;
  CA 12461 12462 12121; CA 12464 12170 12221; CX 12465 12109 12294; CX 12467 12105 12289; CX 12469 12101 12282; CX 12422 12214 12377; CX 12275 12162 12318; CX 12279 12164 12319;
  CX 12273 12166 12310; CA 12498 12390 12397; CA 12500 12392 12403; CA 12501 12388 12401; CI 12044 12394; CI 12113 12402; CI 12097 12398; CA 12517 12200 12263;
  CA 12519 12202 12265; CX 12521 12168 12309; CX 12303 12212 12386; CA 12526 12524 12445; CA 12527 12525 12447; CA 12529 12522 12441; CA 12530 12423 12437; CA 12531 12111 12448;
  CA 12103 12534 12442; CX 12540 12541 12046; CI 12158 12436; CI 12154 12432; CI 12170 12438; CI 12156 12434; CI 12233 12325; CA 12531 12424 12281;
  CI 12231 12324; CI 12227 12322; CX 12562 12208 12378; CX 12563 12210 12380; CA 12565 12451 12455; CA 12566 12452 12457; CA 12568 12561 12463; CI 12200 12456;
  CI 12202 12458; CI 12204 12460; CI 12277 12387; CI 12103 12496; CI 12299 12420; CI 12301 12421; CI 12534 12466; CI 12389 12497;
  CA 12771 12772 12631; CA 12771 12773 12634; CX 12774 12505 11976; CX 12775 12776 12372; CX 12777 12366 12513; CX 12778 12365 12629; CX 12632 12779 12630; CA 12845 12846 12686;
  CA 12845 12847 12683; CX 12848 12551 12042; CX 12849 12850 12416; CX 12851 12410 12559; CX 12852 12409 12681; CX 12684 12853 12682; CX 12636 12635 12193; CX 12688 12687 12255;
  CX 11979 11977 11723; CX 12022 12023 11781; CA 11977 12049 11242; CA 11977 12050 11574; CX 11979 12051 11894; CX 12084 12085 11849; CX 12106 12107 11871; CX 12121 12122 11903;
  CX 9101 12129 8792; CX 9159 12130 8879; CX 8947 12131 8798; CX 9242 12132 8797; CX 12133 8949 8799; CX 9354 12134 8882; CX 9026 12135 8881; CX 9024 12136 8880;
  CX 9586 12137 8800; CX 9636 12138 8883; CX 12139 12140 8885; CX 12141 12142 8806; CX 12143 12144 8808; CX 12145 12146 8887; CX 12147 12148 9099; CX 12149 12150 9161;
  CX 12151 12152 11850; CX 12159 12160 11923; CX 12177 12178 11787; CX 12213 12214 11991; CI 12051 12071; CX 12217 12218 11856; CX 12227 12228 12025; CX 12231 12232 12029;
  CX 12233 12234 12031; CX 12261 12262 11978; CI 11979 12118; CX 12269 12270 11908; CX 12273 12274 12087; CX 12275 12276 12089; CX 12277 12278 12091; CX 12279 12280 12093;
  CX 12281 12242 12095; CA 12236 12285 12098; CA 12288 12289 12104; CA 12293 12294 12108; CX 12299 12300 12124; CX 12301 12302 12126; CX 12303 12304 12128; CA 12308 12309 12167;
  CA 12274 12310 12157; CA 12314 12315 12165; CA 12316 12317 12161; CA 12276 12318 12153; CA 12280 12319 12155; CA 12320 12321 12163; CX 12282 12322 12172; CX 12294 12324 12176;
  CX 12325 12289 12180; CI 12228 12237; CA 12306 12377 12205; CA 12378 12379 12207; CA 12380 12381 12209; CA 12384 12385 12211; CA 12304 12386 12203; CX 12309 12387 12222;
  CX 12281 12296 12226; CX 12389 12046 12230; CX 12322 12044 12283; CX 12281 12048 12295; CA 12393 12394 12171; CA 12397 12398 12030; CA 12401 12402 12028; CA 12403 12044 12024].
(** Lines 22005-22404 of the file. *)
Definition aes128_55 : list cg := [
  CX 12322 12101 12238; CX 12325 12105 12284; CX 12324 12109 12292; CX 12378 12420 12264; CX 12380 12421 12266; CA 12431 12432 12088; CA 12433 12434 12092; CA 12435 12436 12086;
  CA 12437 12438 12090; CA 12441 12158 12219; CA 12442 12046 12173; CA 12445 12154 12215; CA 12447 12156 12223; CA 12448 12048 12225; CX 12387 12168 12307; CA 12455 12456 12123;
  CA 12457 12458 12125; CA 12459 12460 12127; CA 12463 12204 12267; CX 12466 12103 12286; CX 12420 12208 12375; CX 12421 12210 12376; CA 12496 12497 12395; CI 12046 12396;
  CI 12281 12362; CA 12534 12497 12229; CX 12629 12505 12364; CX 12510 12630 12195; CX 12631 12513 12511; CX 12632 12629 12506; CX 12633 12630 12512; CX 12634 12635 12503;
  CX 12636 12631 12504; CX 12681 12551 12408; CX 12556 12682 12257; CX 12683 12559 12557; CX 12684 12681 12552; CX 12685 12682 12558; CX 12686 12687 12549; CX 12688 12683 12550;
  CX 11787 11781 11539; CX 11849 11850 11659; CX 11849 11856 11579; CA 11781 11863 11455; CA 11781 11866 11095; CX 11787 11871 11697; CA 11894 11895 11049; CA 11894 11896 11240;
  CI 11723 11736; CX 11908 11903 11640; CA 11849 11916 11135; CA 11849 11917 11482; CX 11856 11923 11759; CX 11923 11850 11580; CX 11926 8792 8612; CX 11927 8879 8698;
  CX 9099 11928 8615; CX 8808 11929 8617; CX 11930 8806 8616; CX 8885 11931 8701; CX 9161 11932 8699; CX 8887 11933 8700; CX 11934 8882 8704; CX 11935 8798 8623;
  CX 11936 8797 8622; CX 11937 8799 8624; CX 11938 8881 8702; CX 11939 8880 8703; CX 11940 8800 8625; CX 11941 8883 8705; CX 11977 11978 11824; CA 11903 11984 11205;
  CA 11903 11985 11530; CX 11908 11991 11832; CA 11923 12008 11321; CA 11850 12009 11485; CA 11923 12011 11792; CA 11850 12013 11476; CX 12024 12025 11783; CX 12028 12029 11774;
  CX 12030 12031 11779; CI 11871 11876; CX 12051 11978 11724; CA 12071 12072 11416; CA 12071 12073 11860; CA 11856 12074 11139; CA 11856 12076 11791; CX 12086 12087 11847;
  CX 12088 12089 11851; CX 12090 12091 11844; CX 12092 12093 11853; CX 12094 12095 11776; CX 12098 12099 11782; CX 12104 12105 11870; CX 12108 12109 11869; CI 11787 11952;
  CA 11978 12116 11573; CA 11978 12117 11572; CA 12118 12119 11241; CA 12118 12120 11859; CX 12123 12124 11897; CX 12125 12126 11899; CX 12127 12128 11901; CX 12153 12154 11852;
  CX 12155 12156 11854; CI 11991 11992; CX 12157 12158 11848; CX 12161 12162 11925; CX 12163 12164 11924; CX 12165 12166 11922; CX 12167 12168 11921; CX 12171 12172 11788;
  CX 12175 12176 11778; CX 12179 12180 11786; CX 12203 12204 11902; CX 12205 12206 11904; CX 12207 12208 11988; CX 12209 12210 11989; CX 12211 12212 11990; CX 12215 12216 11857;
  CX 12219 12220 11855; CX 12221 12222 11846; CI 11908 12060; CX 12223 12224 11858; CX 12225 12226 11810; CX 12229 12230 12027; CA 12237 12238 12043; CX 12263 12264 11905;
  CX 12265 12266 11906; CX 12267 12268 11907; CA 12282 12283 12100; CA 12284 12234 12096; CA 12292 12232 12112; CA 12295 12296 12110; CA 12307 12278 12169; CI 12230 12239;
  CX 12362 12111 12241; CA 12300 12375 12199; CA 12302 12376 12201; CX 12229 12046 12287; CA 12395 12396 12026; CI 12229 12323; CX 12502 12503 12363; CX 12504 12505 12186;
  CX 12506 12505 12188; CX 12507 12503 12368; CX 12508 12503 12369; CX 12509 12503 12360; CX 12510 12511 12367; CX 12504 12506 12370; CX 12512 12511 12191; CX 12513 12512 12371;
  CX 12548 12549 12407; CX 12550 12551 12248; CX 12552 12551 12250; CX 12553 12549 12412; CX 12554 12549 12413; CX 12555 12549 12405; CX 12556 12557 12411; CX 12550 12552 12414;
  CX 12558 12557 12253; CX 12559 12558 12415; CX 11579 11580 11462; CA 11659 11660 11316; CA 11659 11661 10927; CA 11579 11663 11319; CA 11579 11664 11484; CX 11677 8615 8385;
  CX 8617 11678 8387; CX 11679 8616 10620; CX 8701 11680 8512; CX 11681 8699 8510; CX 11682 8622 8389; CX 11683 8704 8513; CX 11684 8612 8391; CX 11685 8698 8514;
  CX 8624 11686 8393; CX 8703 11687 8515; CX 8623 11688 8395; CX 11689 8702 8516; CX 8625 11690 8396; CX 8705 11691 8517; CX 11135 11139 11115; CA 11697 11698 10868;
  CA 11697 11709 11094; CI 11539 11545; CX 11723 11724 11569; CA 11736 11737 11522; CA 11736 11738 11381; CA 11580 11757 11345; CA 11580 11758 11346; CA 11759 11760 10926;
  CA 11759 11763 11137; CX 11778 11774 11532; CX 11781 11782 11589; CX 11786 11779 11536; CX 11783 11788 11540; CX 11791 11792 11156; CX 11485 11792 11301; CA 11824 11825 11050;
  CA 11824 11826 11417; CX 11242 11241 11236; CA 11832 11833 11009; CA 11832 11843 11206; CX 11846 11844 11575; CX 11776 11810 11653; CX 11847 11848 11648; CX 11851 11852 11667;
  CX 11853 11854 11656; CX 11847 11855 11577; CX 11851 11857 11581; CX 11853 11858 11583; CI 11640 11646; CX 11859 11860 11208; CX 11860 11573 11414; CA 11779 11864 11448;
  CA 11779 11865 11087; CA 11774 11867 11084; CA 11774 11868 11446; CX 11778 11869 11701; CX 11786 11870 11699; CX 11871 11782 11538; CI 8700 10662; CA 11876 11877 11262;
  CA 11876 11884 11633; CX 11901 11902 11739; CX 11903 11904 11729; CX 11905 11897 11634; CX 11906 11899 11636; CX 11901 11907 11638; CA 11847 11909 11136; CA 11847 11910 11486;
  CA 11776 11911 11453; CA 11844 11912 11142; CA 11844 11913 11492; CA 11776 11914 11090; CA 11851 11915 11491; CA 11853 11918 11147; CA 11851 11919 11141; CA 11853 11920 11494;
  CX 11846 11921 11753; CX 11855 11922 11761; CX 11858 11924 11755; CX 11857 11925 11767; CX 11922 11848 11578; CX 11925 11852 11582; CX 11924 11854 11584; CA 11782 11945 11454;
  CA 11782 11947 11441; CA 11952 11953 11091; CA 11952 11960 11632; CI 11783 11803; CA 11897 11980 11523; CA 11897 11981 11198; CA 11899 11982 11526; CA 11899 11983 11201;
  CA 11901 11986 11529; CA 11901 11987 11204; CI 11724 11835; CX 11905 11988 11828; CX 11906 11989 11830; CX 11907 11990 11840; CX 11990 11902 11639; CX 11991 11904 11641;
  CA 11992 11993 11801; CA 11992 12000 11390; CA 11922 12001 11323; CA 11922 12002 11794; CA 11848 12010 11487; CA 11848 12012 11475; CA 11925 12014 11329; CA 11852 12015 11489;
  CA 11925 12016 11798; CA 11852 12017 11478; CA 11854 12018 11479; CA 11924 12019 11340; CA 11924 12020 11799; CA 11854 12021 11497; CX 12026 12027 11710; CX 12043 12044 11784;
  CI 11870 11881; CI 11869 11888; CA 11904 12054 11531; CA 11904 12057 11520; CA 11990 12058 11862; CA 11990 12059 11386; CA 12060 12061 11207; CA 11855 12066 11793;
  CA 11855 12067 11140; CA 12060 12069 11800; CA 11857 12075 11797; CA 11810 12077 11630; CA 11902 12078 11528; CA 11902 12079 11521; CA 11857 12080 11146; CA 11858 12081 11149;
  CA 11810 12082 11092; CA 11858 12083 11802; CX 12096 12097 11780; CX 12100 12101 11812; CI 11921 11956; CX 12110 12111 11809; CX 12112 12113 11775; CI 11788 11942;
  CI 11778 11962; CI 11786 11948; CA 11907 12114 11203; CA 11907 12115 11861; CI 11988 11994; CI 11989 11997; CX 12169 12170 11845; CI 11846 12005;
  CX 12199 12200 11898; CX 12201 12202 11900; CI 11905 12062; CI 11906 12064; CA 12241 12242 12047; CA 12286 12287 12102; CX 12286 12323 12174; CX 12359 12360 12192;
  CX 12361 12360 12187; CX 12323 12103 12240; CX 12363 12364 12190; CX 12365 12360 12185; CX 12366 12360 12196; CX 12367 12368 12181; CX 12369 12370 12183; CX 12371 12372 12194;
  CX 12404 12405 12254; CX 12406 12405 12249; CX 12407 12408 12252; CX 12409 12405 12247; CX 12410 12405 12258; CX 12411 12412 12243; CX 12413 12414 12245; CX 12415 12416 12256;
  CA 11462 11463 11344; CA 11462 11464 11327; CX 11471 8387 8143; CX 11472 8512 8273; CX 11473 8385 8145; CX 8510 11474 10583; CX 8389 8395 11059; CX 11476 11115 11158;
  CX 11482 10927 11302; CX 11484 10926 11320; CX 11485 11316 11299; CX 11522 11049 11378; CX 11538 11539 11425; CX 11346 11345 11151; CA 11545 11546 11412; CA 11545 11553 11233;
  CA 11569 11570 11377; CA 11569 11571 11418; CX 11572 11236 11243; CX 11417 11573 11413; CX 11574 11050 11415; CX 11577 11578 11456; CX 11581 11582 11465; CX 11583 11584 11468;
  CA 11589 11590 10867; CA 11540 11591 11442; CA 11589 11593 11281; CA 11540 11603 11268; CI 10620 8386; CX 10662 11608 8511; CI 8515 10691; CI 8395 11173;
  CI 8516 11172; CI 8396 11436; CX 11095 11091 11069; CX 11632 11633 11044; CX 11454 11633 11260; CX 11638 11639 11515; CX 11640 11641 11510; CA 11646 11647 11495;
  CA 11648 11649 10929; CA 11648 11650 11322; CA 11653 11654 11452; CA 11656 11657 11343; CA 11577 11665 11324; CA 11577 11666 11488; CA 11667 11668 11332; CA 11581 11669 11330;
  CA 11581 11670 11490; CA 11667 11671 10930; CA 11656 11672 10935; CA 11653 11673 11277; CA 11583 11674 11496; CA 11646 11675 11342; CA 11583 11676 11341; CX 11136 11140 11117;
  CX 11141 11146 11119; CX 11147 11149 11121; CX 11090 11092 11061; CA 11699 11700 10863; CA 11701 11702 10861; CA 11701 11707 11085; CA 11699 11708 11088; CI 11532 11549].
(** Lines 22405-22804 of the file. *)
Definition aes128_56 : list cg := [
  CI 11536 11547; CA 11729 11730 11010; CA 11729 11733 11389; CA 11638 11734 11384; CA 11638 11735 11527; CA 11739 11740 11387; CA 11739 11741 11007; CX 11205 11207 11186;
  CX 11204 11203 11184; CA 11578 11742 11347; CA 11578 11743 11349; CA 11753 11754 10932; CA 11755 11756 10934; CA 11761 11762 10928; CA 11761 11764 11138; CA 11582 11765 11352;
  CA 11582 11766 11350; CA 11767 11768 10931; CA 11767 11769 11143; CA 11753 11770 11144; CA 11584 11771 11356; CA 11584 11772 11358; CA 11755 11773 11148; CX 11774 11775 11596;
  CI 11575 11598; CI 11653 11534; CX 11779 11780 11587; CX 11783 11784 11585; CX 11793 11794 11159; CX 11487 11794 11303; CX 11797 11798 11164; CX 11489 11798 11309;
  CX 11497 11799 11311; CX 11800 11801 11169; CX 11802 11799 11170; CX 11531 11801 11374; CA 11803 11804 11083; CA 11803 11805 11443; CI 11538 11611; CX 11812 11784 11541;
  CA 11639 11827 11399; CA 11828 11829 11004; CA 11830 11831 11006; CA 11639 11834 11398; CA 11835 11836 11419; CA 11835 11837 11420; CA 11828 11838 11197; CA 11830 11839 11199;
  CA 11840 11841 11202; CA 11840 11842 11008; CX 11844 11845 11651; CI 11634 11642; CI 11636 11644; CX 11861 11862 11217; CX 11528 11862 11372; CX 11869 11775 11533;
  CX 11788 11812 11692; CX 11870 11780 11537; CA 11881 11882 11629; CA 11881 11883 11272; CA 11888 11889 11270; CA 11888 11890 11627; CX 11897 11898 11725; CX 11899 11900 11727;
  CX 11921 11845 11576; CI 11641 11750; CA 11942 11943 11081; CA 11780 11944 11449; CA 11780 11946 11440; CA 11948 11949 11089; CA 11942 11954 11623; CA 11775 11955 11447;
  CA 11956 11957 11334; CA 11775 11958 11439; CA 11948 11961 11628; CA 11962 11963 11086; CA 11956 11964 11713; CA 11962 11965 11626; CI 11710 11806; CI 11784 11821;
  CX 11988 11898 11635; CX 11989 11900 11637; CA 11994 11995 11790; CA 11994 11996 11380; CA 11997 11998 11382; CA 11997 11999 11796; CA 11845 12003 11493; CA 11845 12004 11477;
  CA 12005 12006 11145; CA 12005 12007 11712; CI 11812 11872; CI 11809 11811; CX 12047 12048 11777; CA 11898 12052 11524; CA 11900 12053 11525; CA 11898 12055 11518;
  CA 11900 12056 11519; CA 12062 12063 11196; CA 12064 12065 11200; CA 12062 12068 11789; CA 12064 12070 11795; CX 12102 12103 11714; CX 12173 12174 11785; CX 12181 12182 8943;
  CX 12183 12184 8945; CX 12185 12186 11971; CX 12187 12188 9098; CX 12189 12190 9245; CX 12191 12192 11975; CX 12193 12194 9612; CX 12195 12196 11973; CA 12239 12240 12045;
  CX 12243 12244 8900; CX 12245 12246 8902; CX 12247 12248 12037; CX 12249 12250 9046; CX 12251 12252 9182; CX 12253 12254 12041; CX 12255 12256 9539; CX 12257 12258 12039;
  CX 8391 8143 9754; CX 8514 8273 9725; CX 8391 8145 9622; CX 8143 8145 9708; CX 8514 10583 9574; CX 8273 10583 9691; CX 8143 8395 9755; CX 8516 8273 9726;
  CX 8393 8145 10907; CX 8515 10583 10908; CX 11156 11299 10772; CX 11301 11302 10950; CX 11316 11302 11125; CX 11319 11320 10940; CX 11321 11299 11152; CX 11327 11320 10922;
  CX 11344 11345 11116; CX 11346 11327 11126; CX 11377 11378 11048; CX 11381 11378 11055; CX 11412 10868 11234; CX 11208 11413 10842; CX 11414 11415 11051; CX 11416 11413 11244;
  CX 11417 11415 11239; CX 11418 11419 11237; CX 11420 11377 11238; CA 11425 11426 11235; CA 11425 11427 11294; CX 11436 8393 10909; CX 10691 8517 10910; CX 11437 8386 8142;
  CX 11438 8511 8272; CI 8145 11246; CI 10583 8274; CX 11172 8513 11060; CX 11441 11069 11096; CX 11454 11281 11257; CX 11455 10867 11261; CA 11456 11457 11348;
  CA 11456 11458 11326; CA 11465 11466 11335; CA 11465 11467 11351; CA 11468 11469 11338; CA 11468 11470 11357; CX 11475 11117 11155; CX 11478 11119 11166; CX 11479 11121 11167;
  CX 11486 10929 11304; CX 11487 11322 11300; CX 11488 10928 11325; CX 11489 11332 11305; CX 11490 10931 11331; CX 11491 10930 11310; CX 11494 10935 11312; CX 11495 11009 11337;
  CX 11496 10934 11339; CX 11497 11343 11298; CA 11510 11511 11336; CA 11510 11514 11400; CA 11515 11516 11388; CA 11515 11517 11397; CX 11520 11186 11219; CX 11521 11184 11218;
  CX 11527 11008 11385; CX 11528 11387 11365; CX 11529 11007 11373; CX 11530 11010 11375; CX 11531 11389 11376; CX 11532 11533 11429; CX 11536 11537 11423; CX 11540 11541 11421;
  CX 11347 11349 11153; CX 11350 11352 11160; CX 11356 11358 11171; CA 11547 11548 11411; CA 11549 11550 11410; CA 11547 11551 11230; CA 11549 11552 11227; CI 8511 10621;
  CX 11083 11081 11063; CX 11575 11576 11459; CX 11420 11419 11245; CX 11399 11398 11215; CA 11585 11586 10859; CA 11587 11588 10864; CA 11587 11592 11271; CA 11596 11597 10862;
  CA 11598 11599 11450; CA 11596 11600 11269; CA 11585 11601 11265; CA 11598 11604 11273; CX 11084 11086 11065; CX 11087 11089 11067; CA 11611 11612 11296; CA 11611 11613 11295;
  CA 11541 11621 11283; CA 11541 11622 11284; CX 11626 11627 11042; CX 11628 11629 11043; CX 11447 11627 11251; CX 11449 11629 11254; CX 11634 11635 11506; CX 11636 11637 11508;
  CA 11642 11643 11481; CA 11644 11645 11483; CA 11651 11652 10933; CA 11651 11655 11333; CA 11642 11658 11315; CA 11644 11662 11317; CX 11142 11145 11123; CA 11692 11693 10860;
  CA 11692 11694 11082; CX 11712 11713 11108; CX 11493 11713 11307; CA 11725 11726 11003; CA 11727 11728 11005; CA 11725 11731 11379; CA 11727 11732 11383; CX 11198 11196 11180;
  CX 11201 11200 11182; CA 11750 11751 11401; CA 11750 11752 11402; CX 11776 11777 11605; CX 11710 11785 11594; CX 11789 11790 11150; CX 11524 11790 11366; CX 11795 11796 11157;
  CX 11525 11796 11370; CA 11806 11807 10986; CA 11806 11808 11409; CI 11533 11615; CX 11809 11777 11535; CX 11810 11811 11618; CI 11537 11609; CA 11821 11822 11407;
  CA 11821 11823 11445; CI 11576 11703; CX 11785 11714 11695; CA 11872 11873 11266; CA 11872 11886 11568; CA 11777 11887 11451; CA 11811 11891 11276; CA 11811 11892 11631;
  CA 11777 11893 11480; CI 11635 11744; CI 11637 11747; CX 9098 11966 8793; CX 11967 8943 8796; CX 9245 11968 8794; CX 8945 11969 8795; CX 9612 11970 8849;
  CX 11971 11972 8802; CX 11973 11974 8804; CX 11975 11976 9096; CX 9046 12032 8744; CX 8900 12033 8746; CX 9182 12034 8745; CX 8902 12035 8747; CX 9539 12036 8748;
  CX 12037 12038 8752; CX 12039 12040 8750; CX 12041 12042 9044; CX 12045 12046 11874; CI 11714 11878; CI 11785 11950; CX 9622 9755 9706; CX 9574 9726 9688;
  CX 11059 9754 9707; CX 11060 9725 9692; CX 10907 11059 9753; CX 10908 11060 9724; CX 11115 11116 10951; CX 11125 11115 10911; CX 11126 11115 10754; CX 11135 11116 10938;
  CX 11137 11116 10912; CX 11139 11116 10947; CX 11126 11125 10939; CX 11151 11152 10941; CX 11156 10922 10946; CX 11158 11152 10757; CX 11208 11048 11011; CX 11233 11234 10897;
  CX 11235 11234 10858; CX 11236 11237 11052; CX 11238 11236 10839; CX 11239 11236 11046; CX 11240 11237 11047; CX 11241 11237 11012; CX 11242 11237 11053; CX 11243 11244 10840;
  CX 11238 11239 11054; CX 11245 11244 11056; CX 10910 8272 9887; CX 10909 8142 9889; CX 11246 8396 11057; CX 8274 8517 11058; CX 11044 11257 10741; CX 11260 11261 10869;
  CX 11262 11257 11097; CX 11281 11261 11080; CX 11294 11295 11070; CX 11296 11235 11078; CX 11170 11298 10780; CX 11159 11300 10774; CX 11303 11304 10954; CX 11164 11305 10776;
  CX 11309 11310 10968; CX 11311 11312 10972; CX 11322 11304 11128; CX 11323 11300 11154; CX 11324 11325 10944; CX 11326 11325 10921; CX 11329 11305 11161; CX 11330 11331 10956;
  CX 11332 11310 11129; CX 11335 11331 10924; CX 11336 11337 11002; CX 11338 11339 10925; CX 11340 11298 11168; CX 11341 11339 10978; CX 11342 11337 11037; CX 11343 11312 11132;
  CX 11347 11326 11127; CX 11348 11349 11118; CX 11350 11335 11130; CX 11351 11352 11120; CX 11356 11338 11133; CX 11357 11358 11122; CX 11217 11365 10824; CX 11372 11373 11031;
  CX 11374 11375 11035; CX 11169 11376 10826; CX 11384 11385 11025; CX 11386 11365 11216; CX 11387 11373 11192; CX 11388 11385 11001; CX 11389 11375 11195; CX 11390 11376 11220;
  CX 11397 11398 11185; CX 11399 11388 11193; CX 11400 11401 11187; CX 11402 11336 11194; CI 8142 10585; CI 8272 10584; CX 11407 11063 11101; CX 11410 10861 11228;
  CX 11411 10863 11231; CA 11421 11422 11263; CA 11423 11424 11232; CA 11423 11428 11288; CA 11429 11430 11229; CA 11429 11431 11285; CA 11421 11435 11282; CX 11439 11065 11106;
  CX 11440 11067 11098; CX 11442 10860 11264; CX 11443 10859 11248; CX 11445 11265 11249; CX 11446 10862 11252; CX 11447 11269 11250; CX 11448 10864 11255; CX 11449 11271 11253;
  CX 11450 10932 11274; CX 11284 11283 11103; CX 11296 11295 11111; CA 11459 11460 11275; CA 11459 11461 11354; CX 11477 11123 11165; CX 11480 11061 11113; CX 11481 11004 11314;
  CX 11483 11006 11318; CX 11492 10933 11308; CX 11493 11333 11306; CA 11506 11507 11313; CA 11508 11509 11328; CA 11506 11512 11391; CA 11508 11513 11394; CX 11518 11180 11209].
(** Lines 22805-23204 of the file. *)
Definition aes128_57 : list cg := [
  CX 11519 11182 11214; CX 11523 11003 11367; CX 11524 11379 11368; CX 11525 11383 11369; CX 11526 11005 11371; CX 11534 11535 11432; CX 11402 11401 11221; CX 11445 11568 11247;
  CA 11594 11595 11444; CA 11594 11602 11267; CA 11605 11606 11279; CA 11605 11607 10866; CA 11609 11610 11289; CA 11609 11614 11290; CA 11615 11616 11286; CA 11615 11617 11287;
  CA 11618 11619 11093; CA 11618 11620 10865; CX 11623 11568 11100; CX 11630 11631 11112; CX 11451 11631 11258; CA 11695 11696 10793; CA 11703 11704 11355; CA 11703 11705 11353;
  CA 11695 11706 10985; CI 11535 11565; CX 11715 8793 8611; CX 9096 11716 8618; CX 8802 11717 8613; CX 8804 11718 8614; CX 8796 11719 8619; CX 11720 8794 8620;
  CX 11721 8795 8621; CX 8849 11722 8663; CA 11744 11745 11392; CA 11744 11746 11393; CA 11747 11748 11396; CA 11747 11749 11395; CX 8744 11813 8553; CX 9044 11814 8554;
  CX 8752 11815 8556; CX 11816 8750 8555; CX 11817 8746 8558; CX 11818 8745 8557; CX 11819 8747 8559; CX 11820 8748 8560; CA 11874 11875 11408; CA 11878 11879 11625;
  CA 11878 11880 11225; CA 11874 11885 11406; CA 11950 11951 10987; CA 11950 11959 11624; CI 11874 11711; CX 10907 9707 10634; CX 10908 9692 10635; CX 9707 8142 9793;
  CX 9692 8272 9780; CX 10909 9707 9709; CX 10910 9692 9690; CX 10911 10912 10744; CX 10922 10912 10758; CX 10926 10912 10773; CX 10927 10912 10753; CX 10938 10939 10749;
  CX 10940 10941 10750; CX 10946 10947 10747; CX 10950 10951 10622; CX 11011 11012 10562; CA 9692 9688 10643; CA 9753 9754 10667; CA 9707 9706 10641; CA 9724 9725 10669;
  CX 11044 10858 10836; CX 11046 11047 10647; CX 11048 11047 10841; CX 11049 11047 10843; CX 11050 11047 10838; CX 11051 11052 10563; CX 11053 11054 10654; CX 11055 11056 10679;
  CX 9887 8516 9888; CX 9889 8395 9890; CX 11057 9754 9623; CX 11058 9725 9575; CX 9889 8391 9848; CX 9887 8514 9810; CX 11057 11059 9752; CX 11058 11060 9722;
  CX 11069 11070 10870; CX 11078 11069 10723; CX 11080 11069 10852; CX 11091 11070 10837; CX 11094 11070 10853; CX 11095 11070 10903; CX 11096 11097 10724; CX 11111 11097 10898;
  CX 11078 11080 10904; CX 11117 11118 10955; CX 11119 11120 10969; CX 11121 11122 10973; CX 11127 11117 10760; CX 11128 11117 10913; CX 11129 11119 10915; CX 11130 11119 10762;
  CX 11132 11121 10919; CX 11133 11121 10752; CX 11136 11118 10942; CX 11138 11118 10914; CX 11140 11118 10953; CX 11141 11120 10958; CX 11143 11120 10916; CX 11146 11120 10965;
  CX 11147 11122 10970; CX 11148 11122 10920; CX 11149 11122 10977; CX 11127 11128 10943; CX 11153 11154 10945; CX 11155 11154 10755; CX 11159 10921 10952; CX 11160 11161 10957;
  CX 11130 11129 10959; CX 11164 10924 10964; CX 11166 11161 10765; CX 11133 11132 10971; CX 11167 11168 10769; CX 11169 11002 10974; CX 11170 10925 10976; CX 11171 11168 10979;
  CA 9887 11172 10787; CA 9889 11173 10783; CX 11184 11185 11032; CX 11186 11187 11036; CX 11192 11184 10995; CX 11193 11184 10813; CX 11194 11186 10819; CX 11195 11186 10997;
  CX 11202 11185 10996; CX 11203 11185 11028; CX 11204 11185 11029; CX 11205 11187 11033; CX 11206 11187 10998; CX 11207 11187 10975; CX 11215 11216 11026; CX 11217 11001 11027;
  CX 11193 11192 11030; CX 11218 11216 10814; CX 11194 11195 11034; CX 11219 11220 10816; CX 11221 11220 11038; CX 11227 11228 10881; CX 11229 11228 10855; CX 11230 11231 10887;
  CX 11232 11231 10856; CX 11247 11248 10873; CX 11100 11249 10732; CX 11042 11250 10734; CX 11251 11252 10883; CX 11043 11253 10737; CX 11254 11255 10891; CX 11263 11264 10854;
  CX 11265 11248 11072; CX 11266 11249 11102; CX 11268 11264 10877; CX 11269 11252 11074; CX 11270 11250 11105; CX 11271 11255 11076; CX 11272 11253 11099; CX 11273 11274 10962;
  CX 11275 11274 10923; CX 11282 11283 11064; CX 11284 11263 11071; CX 11285 11286 11066; CX 11287 11229 11073; CX 11288 11289 11068; CX 11290 11232 11075; CX 11108 11306 10778;
  CX 11307 11308 10966; CX 11313 11314 10999; CX 11315 11314 11017; CX 11317 11318 11019; CX 11328 11318 11000; CX 11333 11308 11131; CX 11334 11306 11163; CX 11353 11275 11134;
  CX 11354 11355 11124; CX 11366 11367 11013; CX 11150 11368 10820; CX 11157 11369 10822; CX 11370 11371 11023; CX 11379 11367 11189; CX 11380 11368 11210; CX 11382 11369 11213;
  CX 11383 11371 11190; CX 11391 11392 11181; CX 11393 11313 11188; CX 11394 11395 11183; CX 11396 11328 11191; CA 11432 11433 11280; CA 11432 11434 11292; CX 11444 10793 11176;
  CX 11451 11279 11256; CX 11452 10865 11278; CX 11453 10866 11259; CX 11287 11286 11104; CX 11290 11289 11107; CX 11353 11355 11162; CX 11498 8618 8382; CX 11499 8613 8383;
  CX 8614 11500 8384; CX 11501 8620 8388; CX 11502 8611 8390; CX 8621 11503 8392; CX 11504 8619 8394; CX 8663 11505 8460; CX 11393 11392 11211; CX 11396 11395 11212;
  CX 11554 8554 8308; CX 8556 11555 8310; CX 11556 8555 8309; CX 11557 8557 8311; CX 11558 8553 8312; CX 8559 11559 8313; CX 8558 11560 8314; CX 8560 11561 8315;
  CX 10986 10987 10982; CA 11565 11566 11291; CA 11565 11567 11293; CX 11624 11625 10989; CX 11408 11625 11223; CX 11710 11711 11542; CX 11711 11714 11562; CX 11594 11562 11359;
  CX 9709 9708 10629; CX 9690 9691 10631; CX 8663 10744 10432; CX 8553 10744 10076; CX 8623 10747 10031; CX 8558 10747 10064; CX 8702 10747 10035; CX 8382 10747 10238;
  CX 10622 8557 9943; CX 10622 8622 9899; CX 10749 8703 10477; CX 10622 8704 10196; CX 10749 8383 10204; CX 10750 8560 10420; CX 10750 8705 10430; CX 10753 10754 10615;
  CX 10757 10758 10545; CX 10772 10773 10619; CA 9690 9691 10668; CA 9709 9708 10666; CX 10836 10837 10671; CX 10838 10839 10299; CX 10840 10841 10310; CX 10842 10843 10519;
  CX 9890 9708 9792; CX 9752 9889 9846; CX 9722 9887 9812; CX 9888 9691 9779; CX 9752 9755 10633; CX 9722 9726 10637; CX 9848 9754 9847; CX 9810 9725 9811;
  CI 10744 10684; CX 10852 10853 10685; CX 10858 10853 10725; CX 10867 10853 10722; CX 10868 10853 10742; CX 10869 10870 10586; CI 10749 10690; CI 10750 10701;
  CX 10897 10898 10702; CX 10903 10904 10686; CX 10913 10914 10128; CX 10915 10916 10698; CX 10919 10920 10694; CX 10921 10914 10756; CX 10924 10916 10766; CX 10925 10920 10770;
  CX 10928 10914 10775; CX 10929 10914 10759; CX 10930 10916 10761; CX 10931 10916 10777; CX 10934 10920 10781; CX 10935 10920 10751; CX 10942 10943 10361; CX 10944 10945 10627;
  CX 10952 10953 10435; CX 10954 10955 10436; CX 10956 10957 10736; CX 10958 10959 10703; CX 10964 10965 10676; CX 10968 10969 10624; CX 10970 10971 10625; CX 10972 10973 10493;
  CX 10974 10975 10705; CX 10976 10977 10492; CX 10978 10979 10728; CA 9575 9574 10785; CA 9810 8272 10786; CA 9722 9726 10645; CA 9623 9622 10782; CA 9848 8142 10784;
  CA 9752 9755 10639; CX 10995 10996 10041; CX 10997 10998 10695; CX 11001 10996 10815; CX 11002 10998 10817; CX 11007 10996 10812; CX 11008 10996 10825; CX 11009 10998 10827;
  CX 11010 10998 10818; CX 11025 11026 10771; CX 11027 11028 10491; CX 11029 11030 10596; CX 11031 11032 10490; CX 11033 11034 10588; CX 11035 11036 10664; CX 11037 11038 10729;
  CX 11042 10855 10832; CX 11043 10856 10834; CX 11063 11064 10874; CX 11065 11066 10884; CX 11067 11068 10892; CX 11071 11063 10707; CX 11072 11063 10844; CX 11073 11065 10713;
  CX 11074 11065 10846; CX 11075 11067 10717; CX 11076 11067 10848; CX 11081 11064 10872; CX 11082 11064 10845; CX 11083 11064 10875; CX 11084 11066 10879; CX 11085 11066 10847;
  CX 11086 11066 10833; CX 11087 11068 10885; CX 11088 11068 10849; CX 11089 11068 10835; CX 11098 11099 10714; CX 11100 10854 10871; CX 11101 11102 10708; CX 11071 11072 10876;
  CX 11103 11102 10878; CX 11073 11074 10880; CX 11104 11105 10882; CX 11106 11105 10710; CX 11075 11076 10886; CX 11107 11099 10888; CX 11108 10923 10889; CX 11123 11124 10967;
  CX 11131 11123 10917; CX 11134 11123 10768; CX 11142 11124 10960; CX 11144 11124 10918; CX 11145 11124 10890; CX 11150 10999 10936; CX 11157 11000 10948; CX 11134 11131 10961;
  CX 11162 11163 10963; CX 11165 11163 10763; CX 11180 11181 11014; CX 11182 11183 11024; CX 11188 11180 10805; CX 11189 11180 10991; CX 11190 11182 10993; CX 11191 11182 10809;
  CX 11196 11181 10937; CX 11197 11181 10992; CX 11198 11181 11015; CX 11199 11183 10994; CX 11200 11183 10949; CX 11201 11183 11021; CX 11209 11210 10806; CX 11188 11189 11016;
  CX 11211 11210 11018; CX 11212 11213 11020; CX 11214 11213 10810; CX 11191 11190 11022; CX 11112 11256 10739; CX 11258 11259 10901; CX 11267 11176 10830; CX 11276 11256 11110;
  CX 11277 11278 10893; CX 11279 11259 11079; CX 11280 11278 10857; CX 11291 11280 11077; CX 11292 11293 11062; CA 11359 11360 11175; CA 11359 11361 11177; CX 11362 8383 8140;
  CX 11363 8384 8141; CX 11364 8382 8144; CX 8388 8394 10906; CX 8310 11403 8071; CX 11404 8309 8070; CX 11405 8308 8072; CX 8311 8314 10981; CX 11406 10982 11039].
(** Lines 23205-23604 of the file. *)
Definition aes128_58 : list cg := [
  CX 11291 11293 11109; CI 8394 10990; CI 8460 11297; CI 8313 10692; CI 8314 11045; CA 11542 11543 10794; CA 11542 11544 11226; CA 11562 11563 11178;
  CA 11562 11564 11179; CX 10545 10615 10482; CX 8310 10615 10178; CX 8387 10615 10148; CX 8512 10615 10198; CX 10619 10615 10480; CX 10545 8308 10226; CX 10545 8510 10243;
  CX 10620 10619 10159; CX 10621 10619 10194; CX 10622 10615 10483; CX 10666 10667 10500; CX 10668 10669 10502; CX 10492 10671 10459; CX 10671 8516 10027; CX 10671 8395 10068;
  CX 10671 8314 10025; CX 10671 8144 10228; CX 10310 10299 10536; CX 10563 10299 10537; CX 10519 10299 10301; CX 9846 9847 10295; CX 10684 8698 10053; CX 8460 10685 10424;
  CX 10685 8514 10047; CX 10685 8312 10043; CX 10625 10686 10364; CX 10690 8559 10462; CX 10586 8389 9941; CX 10586 8311 9898; CX 10691 10686 10475; CX 10692 10686 10468;
  CX 10686 8140 10186; CX 10694 10685 10489; CX 10701 8621 10473; CX 10702 8517 10416; CX 10702 8315 10418; CI 10615 10575; CX 10722 10723 10571; CX 10724 10725 10570;
  CX 10728 10702 10599; CX 10741 10742 10578; CX 10588 10625 10602; CX 10664 10493 9904; CX 10624 10490 10250; CX 10627 10361 10593; CX 10698 10041 10236; CX 10627 10128 10609;
  CX 10695 10694 10206; CX 10705 10492 10220; CX 10676 10491 10252; CX 10703 10596 10464; CX 10751 10752 10618; CX 10755 10756 10142; CX 10759 10760 10547; CX 10761 10762 10567;
  CX 10765 10766 10573; CX 10769 10770 10406; CX 10736 10771 10610; CX 10774 10775 10082; CX 10776 10777 10591; CX 10729 10728 10603; CX 10780 10781 10626; CA 9812 9811 10644;
  CA 9846 9847 10638; CA 9792 9793 10640; CA 9779 9780 10642; CX 10782 10667 10632; CX 10783 10639 10504; CX 10784 10641 10628; CX 10785 10669 10636; CX 10786 10643 10630;
  CX 10787 10645 10510; CX 10771 10596 10589; CX 10771 10041 10605; CX 10812 10813 10580; CX 10814 10815 10140; CX 10816 10817 10576; CX 10818 10819 10577; CX 10824 10825 10617;
  CX 10826 10827 10209; CI 9811 10670; CI 10586 10674; CX 10832 10833 10677; CX 10834 10835 10439; CI 10702 10675; CX 10844 10845 10072; CX 10846 10847 10693;
  CX 10848 10849 10696; CX 10854 10845 10709; CX 10855 10847 10711; CX 10856 10849 10715; CX 10859 10845 10706; CX 10860 10845 10733; CX 10861 10847 10735; CX 10862 10847 10712;
  CX 10863 10849 10738; CX 10864 10849 10716; CX 10871 10872 10314; CX 10873 10874 10315; CX 10875 10876 10359; CX 10877 10878 10665; CX 10879 10880 10704; CX 10881 10882 10727;
  CX 10883 10884 10587; CX 10885 10886 10455; CX 10887 10888 10730; CX 10889 10890 10672; CX 10891 10892 10453; CX 10917 10918 10697; CX 10923 10918 10764; CX 10932 10918 10779;
  CX 10933 10918 10767; CX 10936 10937 10746; CX 10948 10949 10539; CI 10771 10597; CX 10960 10961 10687; CX 10962 10963 10731; CX 10966 10967 10623; CX 10991 10992 10801;
  CX 10993 10994 10699; CX 10999 10992 10807; CX 11000 10994 10811; CX 11003 10992 10804; CX 11004 10992 10821; CX 11005 10994 10808; CX 11006 10994 10823; CX 11013 11014 10663;
  CX 11015 11016 10802; CX 11017 11018 10803; CX 11019 11020 10743; CX 11021 11022 10726; CX 11023 11024 10540; CX 11061 11062 10902; CX 11077 11061 10721; CX 11079 11061 10850;
  CX 11090 11062 10895; CX 11092 11062 10900; CX 11093 11062 10851; CX 11109 11110 10894; CX 11077 11079 10896; CX 11112 10857 10899; CX 11113 11110 10718; CX 8390 8140 9678;
  CX 8390 8144 9535; CX 8140 8144 9642; CX 8140 8394 9676; CX 8392 8144 10788; CX 11175 11176 10792; CX 11177 11178 10983; CX 11179 11175 10984; CX 8071 8312 9696;
  CX 8312 8072 9577; CX 8071 8072 9666; CX 8071 8314 9694; CX 8313 8072 10828; CX 11297 8392 10789; CI 8144 11114; CX 10692 8315 10829; CI 8072 11174;
  CX 11408 11226 11222; CX 11409 10794 11224; CX 11179 11178 11041; CX 8619 10480 10070; CX 10482 8620 10269; CX 10483 8611 10080; CX 10562 10301 10096; CX 10563 10536 10100;
  CX 10570 10571 10386; CX 10575 8384 10163; CX 8273 10571 10176; CX 8071 10571 10146; CX 8143 10571 10202; CX 10578 10571 10373; CX 10220 10570 10405; CX 10570 10583 10287;
  CX 10570 8072 10232; CX 10584 10578 10144; CX 10585 10578 10161; CX 10586 10571 10387; CX 10580 10567 10440; CX 10142 10547 10396; CX 10576 10406 10442; CX 10617 10591 10445;
  CX 10573 10140 10496; CX 10591 10567 10481; CX 10573 10567 10487; CX 10082 10547 10383; CX 10406 10618 10394; CX 10617 10567 10377; CX 10142 10435 10447; CX 10436 10547 10398;
  CX 10361 10547 10403; CX 10624 10567 10218; CX 10493 10618 10395; CX 10625 10618 10399; CX 10626 10209 10363; CX 10626 10618 10372; CX 10628 10629 10499; CX 10630 10631 10501;
  CX 10632 10633 10505; CX 10634 10632 10507; CX 10635 10636 10509; CX 10636 10637 10511; CX 10638 10639 10503; CX 10640 10641 10506; CX 10642 10643 10508; CX 10644 10645 10512;
  CX 10140 10580 10486; CX 10617 10580 10413; CX 10576 10577 10388; CX 10209 10577 10378; CX 10491 10140 10443; CX 10596 10580 10392; CX 10490 10580 10488; CX 10664 10577 10272;
  CX 10670 9812 10297; CX 10439 10672 10495; CX 10674 8513 10174; CX 10675 8392 10466; CX 10676 10439 10278; CX 10677 10539 10223; CX 10677 10435 10289; CI 10571 10543;
  CX 10453 10624 10000; CX 10587 10540 9949; CX 10587 10436 10291; CX 10687 10455 10494; CX 10672 9026 10066; CX 9096 10672 10230; CX 10665 10359 10520; CX 10693 10128 10281;
  CX 10696 10697 10433; CX 10665 10072 10549; CX 10696 10698 10214; CX 10699 10693 10212; CX 10703 10455 10579; CX 10704 10361 10471; CI 10618 10374; CX 10706 10707 10514;
  CX 10708 10709 10093; CX 10710 10711 10574; CX 10712 10713 10564; CX 10714 10715 10351; CX 10716 10717 10566; CX 10726 10704 10594; CX 10727 10627 10607; CX 10730 10731 10598;
  CX 10732 10733 10134; CX 10734 10735 10274; CX 10730 10736 10595; CX 10737 10738 10590; CI 10603 10608; CX 10743 10727 10606; CX 9159 10697 10078; CX 9046 10697 10045;
  CX 10562 10746 10320; CX 10539 10747 10456; CX 10746 8881 9989; CX 10687 8802 10188; CX 10746 8618 10117; CX 9242 10623 9944; CX 9354 10623 10260; CX 9182 10623 9945;
  CX 10699 10744 10538; CX 10731 9636 10421; CX 10726 10749 10463; CX 10763 10764 10544; CX 10767 10768 10568; CI 10577 10542; CX 10743 10750 10612; CX 10778 10779 10616;
  CX 8849 10801 10357; CX 8744 10801 10130; CX 10802 8747 10322; CX 10663 8745 9963; CX 10663 8797 9854; CX 10802 8880 10329; CX 10802 8613 10103; CX 10647 10801 10550;
  CX 10803 8883 10313; CX 10803 8748 10355; CX 10803 8795 10327; CX 10654 10802 10323; CX 10804 10805 10660; CX 10806 10807 10516; CX 10808 10809 10565; CX 10810 10811 10353;
  CX 10679 10803 10523; CX 10820 10821 10661; CX 10822 10823 10592; CI 10672 10673; CI 10697 10683; CX 10850 10851 10074; CX 10857 10851 10719; CX 10865 10851 10740;
  CX 10866 10851 10720; CI 10746 10689; CI 10687 10688; CI 10731 10700; CX 10893 10894 10600; CX 10895 10896 10438; CX 10899 10900 10411; CX 10901 10902 10434;
  CI 10801 10745; CI 10663 10748; CX 9535 9676 9646; CX 10906 9678 9645; CX 10788 10906 9677; CX 10982 10983 10798; CX 10984 10982 10651; CX 10985 10983 10791;
  CX 10986 10983 10795; CX 10987 10983 10800; CX 10989 10792 10799; CX 9577 9694 9670; CX 10981 9696 9669; CX 10828 10981 9695; CX 10789 8141 9813; CX 11114 8460 10905;
  CX 10829 8070 9844; CX 11174 8315 10980; CX 10989 11222 10655; CX 11223 11224 10797; CX 11225 11222 11040; CX 11226 11224 10988; CX 10372 10373 10247; CX 10373 8394 10029;
  CX 10374 10373 10208; CX 10386 8388 10183; CX 10387 8390 10048; CX 10394 10386 10245; CX 10395 10387 10233; CX 10405 10406 10166; CX 10481 10413 10277; CX 10398 10128 10276;
  CX 10486 10487 10259; CX 10488 10218 10275; CX 10435 10383 10279; CX 10489 10395 10271; CX 10487 10490 10216; CX 10481 10491 10172; CX 10396 10436 10270; CX 10492 10372 10267;
  CX 10394 10493 10265; CX 10494 10440 10263; CX 10495 10496 10282; CX 10499 10500 9906; CX 10501 10502 9876; CX 10503 10500 10294; CX 10504 10505 10083; CX 10506 10507 10255;
  CX 10508 10509 10256; CX 10510 10511 10057; CX 10512 10502 10296; CX 10488 10041 10341; CX 10491 10413 10342; CX 10486 10490 10262; CX 10388 10434 10266; CX 10378 10411 10268;
  CX 10543 8141 10155; CX 10544 10278 10350; CX 10545 10223 10352; CX 10550 10537 10257; CX 10547 10564 10446; CX 10374 10542 10390; CX 10565 10564 10404; CX 10566 10567 10393;
  CX 10566 10568 10402; CX 10093 10514 10306; CX 10351 10573 10444; CX 10574 10353 10448; CX 10574 10142 10457; CX 10351 10566 10409; CX 10134 10514 10303; CX 10082 10564 10380;
  CX 10274 10564 10382; CX 10574 10564 10397; CX 10579 10580 10401; CX 10093 10314 10317; CX 10315 10514 10304; CX 10359 10514 10307; CX 10453 10566 10407; CX 10587 10564 10338;
  CX 10589 10579 10451; CX 10590 10591 10412; CX 10592 10274 10414; CX 10593 10594 10472; CX 10590 10566 10376; CX 10595 10596 10454; CX 10597 10598 10479; CX 10599 10600 10478].
(** Lines 23605-24004 of the file. *)
Definition aes128_59 : list cg := [
  CX 10236 10595 10422; CX 10605 10595 10426; CX 10281 10606 10429; CX 10607 10594 10476; CX 10608 10364 10437; CX 10609 10606 10431; CX 10610 10579 10449; CX 10471 10612 10461;
  CX 10538 10607 10419; CX 10598 10464 10469; CX 10433 10610 10427; CX 10616 10568 10375; CX 10544 10568 10410; CX 8752 10568 10264; CX 10616 8887 10180; CX 9044 10544 10283;
  CX 10623 10568 10408; CX 10612 10627 10498; CX 10516 10660 10534; CX 8556 10660 10095; CX 8617 10660 10099; CX 8701 10660 10105; CX 8614 10660 10091; CX 10353 10565 10484;
  CX 10661 10660 10533; CX 10516 8554 10115; CX 10516 8699 10119; CX 10661 8616 10088; CX 10661 10662 10109; CX 10663 10660 10535; CX 10540 10565 10485; CX 10592 10565 10381;
  CX 10523 10665 10497; CI 10000 9948; CX 8947 10673 10037; CX 8900 10673 10039; CI 10594 10546; CI 10606 10548; CX 10683 9612 10425; CX 10588 10438 10460;
  CX 10664 10434 10246; CX 8949 10688 10254; CX 9024 10688 10450; CX 8902 10688 10470; CX 10689 8746 10123; CX 10689 8798 9986; CX 10600 10438 10601; CX 10695 10074 10234;
  CX 10600 10074 10604; CX 9539 10700 10428; CX 10700 8945 10452; CX 10705 10411 10248; CI 10544 10582; CI 10568 10572; CX 10718 10719 10167; CX 10720 10721 10569;
  CX 10729 10600 10611; CI 10616 10581; CX 10739 10740 10055; CX 10745 8879 9991; CX 10748 8882 10107; CI 10565 10349; CX 10788 9645 10526; CX 9645 8141 9733;
  CX 10789 9645 9643; CX 10792 10791 10653; CX 10793 10791 10656; CX 10794 10791 10650; CX 10797 10798 10518; CX 10799 10800 10648; CX 10828 9669 10553; CX 9669 8070 9762;
  CX 10829 9669 9667; CA 9677 9678 10561; CA 9645 9646 10530; CA 9695 9696 10614; CA 9669 9670 10557; CX 9813 8394 9814; CX 10905 9678 9536; CX 9813 8390 9769;
  CX 10905 10906 9679; CX 9844 8314 9845; CX 10980 9696 9578; CX 9844 8312 9783; CX 10980 10981 9697; CX 10984 10988 10796; CA 9813 10990 10659; CX 10988 10982 10790;
  CX 11039 11040 10652; CX 11041 11040 10831; CA 9844 11045 10682; CX 10166 10167 10056; CX 10208 10209 10054; CX 10233 10234 10042; CX 10245 10246 9806; CX 10247 10248 10024;
  CX 10255 9906 10003; CX 10256 9876 9978; CX 10259 10260 9833; CX 10263 10264 9934; CX 10265 10266 9841; CX 10267 10268 10067; CX 10269 10270 9830; CX 10271 10272 10073;
  CX 10275 10214 10077; CX 10276 10212 10079; CX 10277 10278 10065; CX 10279 10223 10069; CX 10282 10283 9935; CX 10294 10295 9908; CX 10296 10297 10137; CX 10341 10214 10131;
  CX 10342 10278 10125; CA 9876 10057 10136; CA 9906 10083 10084; CA 10256 10057 9953; CA 10255 10083 9975; CX 10350 10351 10139; CX 10352 10353 10141; CX 10375 10376 10251;
  CX 10377 10376 10164; CX 10380 10381 10158; CX 10382 10383 10222; CX 10304 10072 10210; CX 10392 10393 10187; CX 10396 10397 10195; CX 10398 10338 10211; CX 10401 10402 10168;
  CX 10403 10404 10203; CX 10407 10408 10235; CX 10409 10410 10249; CX 10314 10303 10224; CX 10412 10413 10156; CX 10414 10383 10162; CX 10419 10420 10017; CX 10421 10422 10022;
  CX 10425 10426 10023; CX 10427 10428 10062; CX 10429 10430 10018; CX 10431 10432 10019; CX 10433 10407 10217; CX 10382 10435 10190; CX 10397 10436 10200; CX 10306 10315 10192;
  CX 10437 10438 10244; CX 10439 10376 10171; CX 10412 10440 10179; CX 10443 10444 10229; CX 10445 10402 10169; CX 10414 10446 10193; CX 10447 10448 10237; CX 10449 10450 10020;
  CX 10451 10452 10021; CX 10453 10409 10215; CX 10454 10455 10253; CX 10456 10457 10225; CX 10390 10460 10175; CX 10461 10462 10015; CX 10463 10446 10177; CX 10444 10252 10240;
  CX 10464 10393 10181; CX 10469 10470 10061; CX 10289 10448 10242; CX 10471 10404 10197; CX 10472 10473 10016; CX 10476 10477 10014; CX 10478 10206 10239; CX 10479 9586 10213;
  CI 9906 10292; CI 9876 10293; CX 10381 10480 10288; CX 10349 10480 10273; CX 10375 8943 10126; CX 9245 10410 10261; CX 9098 10408 10132; CX 10484 10482 10290;
  CX 10485 10483 10280; CX 10248 10442 10286; CX 10498 10212 10285; CX 10301 10533 10347; CX 8796 10533 10033; CX 10533 10299 10340; CX 10534 8794 10191; CX 10535 8793 10051;
  CX 10536 10534 10345; CX 10537 10535 10343; CX 10538 10485 10337; CX 10539 10381 10189; CX 10484 10540 10199; CX 10546 10547 10348; CX 10548 10463 10360; CX 10167 10569 10389;
  CX 8885 10572 10182; CX 8804 10572 10157; CX 10576 10167 10458; CX 10055 10569 10379; CX 10055 10577 10384; CX 10581 8806 10165; CX 10582 9161 10241; CX 10581 8750 10170;
  CX 10167 10411 10441; CX 10434 10569 10385; CX 10438 10569 10391; CX 10588 10569 10400; CX 10601 10602 10465; CX 10234 10603 10415; CX 10604 10603 10423; CX 10611 10602 10474;
  CX 10599 10460 10467; CX 10611 10489 10417; CX 9643 9642 10525; CX 10518 10563 9855; CX 10518 10315 10346; CX 10648 10562 10113; CX 10648 10314 10325; CX 10650 10651 10513;
  CX 10652 10653 10515; CX 10655 10656 10339; CX 9667 9666 10552; CI 10569 10541; CA 9643 9642 10560; CA 9667 9666 10613; CX 9814 9642 9732; CX 9679 9813 9770;
  CX 9679 9676 10528; CX 9769 9678 9768; CX 9845 9666 9761; CX 9697 9844 9784; CX 9697 9694 10555; CX 9783 9696 9782; CX 10790 10791 10646; CX 10795 10796 10649;
  CA 9536 9535 10657; CA 9769 8141 10658; CA 9679 9676 10532; CX 10830 10831 10678; CA 9578 9577 10680; CA 9783 8070 10681; CA 9697 9694 10559; CX 10024 10025 9775;
  CX 10042 10043 9736; CX 10054 10055 9946; CX 10056 8145 9861; CX 9934 9935 8270; CX 10061 9935 9659; CX 10062 9935 9750; CX 10065 10066 9972; CX 10067 10068 9866;
  CX 10069 10070 9973; CX 10073 10074 9966; CX 10077 10078 9938; CX 10079 10080 9930; CX 9975 10003 9968; CX 9953 9978 9970; CX 10083 9908 9976; CX 9975 9908 10002;
  CX 10125 10126 9919; CX 10131 10132 9939; CA 10136 10137 9849; CX 10139 10140 10004; CX 10141 10142 10005; CX 9975 9906 10001; CX 9953 9876 9979; CX 10015 10017 9660;
  CX 10014 10018 9661; CX 10016 10019 9662; CX 10020 10022 9664; CX 10023 10021 9704; CX 10061 10062 9665; CX 10156 10157 8693; CX 10158 10159 8524; CX 10162 10163 8523;
  CX 10164 10165 8590; CX 10168 8808 9825; CX 10169 10170 8591; CX 10171 10172 10036; CX 10175 10176 9894; CX 10177 10178 9937; CX 10179 10180 8568; CX 10181 10182 9942;
  CX 10187 10188 9996; CX 10189 10190 10030; CX 10191 10192 9804; CX 10193 10194 8400; CX 10195 10196 9828; CX 10197 10198 9927; CX 10199 10200 9809; CX 10203 10204 9936;
  CX 10211 10212 10052; CX 10213 10214 9903; CX 10215 10216 9838; CX 10217 10218 10040; CX 10222 10223 10034; CX 10224 10113 10032; CX 10225 10226 9958; CX 10229 10230 9997;
  CX 10235 10236 10044; CX 10237 10238 9959; CX 10239 8396 9940; CX 10240 10241 9962; CX 10242 10243 9929; CX 10244 8393 9932; CX 10249 10250 9836; CX 10251 10252 10038;
  CX 10253 10254 9902; CI 9908 10085; CI 10137 9878; CX 10261 10262 9885; CX 10273 10274 10081; CX 10280 10281 10075; CX 10285 8625 9901; CX 10286 10287 9924;
  CX 10288 10289 10063; CX 10290 10291 9834; CA 10255 10292 10135; CA 10256 10293 10086; CX 10337 10338 10127; CX 10339 10340 10133; CX 10345 10346 9863; CX 10347 10325 10124;
  CX 10348 10349 10147; CX 10360 10361 10150; CX 10378 10379 10219; CX 10384 10372 10160; CX 10385 10074 10207; CX 10388 10389 10173; CX 10272 10385 10205; CX 10390 10391 10185;
  CX 10399 10400 10201; CX 10411 10379 10221; CX 10363 10379 10154; CX 10415 10416 10060; CX 10417 10418 10013; CX 10423 10424 10012; CX 10389 10434 10184; CX 10441 10442 10227;
  CX 10458 10459 10231; CX 10465 10466 10010; CX 10467 10468 10011; CX 10474 10475 10059; CX 10299 10513 10308; CX 10514 10513 10316; CX 10515 10310 10318; CX 10515 10093 10319;
  CX 10339 10513 10302; CX 10515 10513 10305; CX 10134 10513 10300; CX 10113 10516 10309; CX 10518 10513 10258; CX 10519 10339 10311; CX 10541 10542 10362; CX 10560 10561 10331;
  CX 10613 10614 10366; CX 9770 9768 10122; CX 9784 9782 10153; CX 10646 10072 10344; CX 10646 10647 10111; CX 10649 10359 10324; CX 10649 10654 10517; CA 9732 9733 10529;
  CA 9770 9768 10531; CX 10657 10561 10527; CX 10658 10530 10524; CX 10659 10532 10334; CX 10678 10665 10522; CX 10678 10679 10521; CA 9761 9762 10556; CA 9784 9782 10558;
  CX 10680 10614 10554; CX 10681 10557 10551; CX 10682 10559 10369; CX 9932 9861 9650; CX 9940 9861 9738; CX 9946 8070 8537; CX 9936 9930 8205; CX 9930 9959 7992;
  CX 9942 9938 8329; CX 9938 9962 8092; CX 9966 8391 9824; CX 9975 9976 9868; CX 9939 9996 8484; CX 9939 9997 8240; CX 9996 9919 8487; CX 10000 9919 9886;
  CA 10001 9976 9907; CA 10002 10003 9905; CI 9775 9735; CX 10004 9099 9827; CX 10005 8385 9884; CX 9894 9924 8189; CX 9937 9958 8191; CX 9927 9929 8127;
  CX 9936 9959 8265; CX 9942 9962 8252; CX 9996 9997 8418; CX 9940 9932 9653; CX 9661 8400 8643; CX 9662 8523 8582; CX 10014 9929 9655; CX 10015 9958 9654].
(** Lines 24005-24404 of the file. *)
Definition aes128_60 : list cg := [
  CX 10016 9959 9656; CX 10017 9958 9742; CX 10018 9929 9743; CX 10019 9959 9744; CX 9664 8568 8639; CX 9704 8693 8756; CX 9665 8591 8650; CX 10020 9962 9658;
  CX 10021 9997 9703; CX 10022 9962 9749; CX 10023 9997 9790; CX 9902 9903 9663; CI 9972 9922; CX 10030 10031 9843; CX 10032 10033 9912; CX 10034 10035 9918;
  CI 9866 9823; CI 9973 9921; CX 10036 10037 9822; CX 10038 10039 9920; CX 10040 10041 9947; CX 10044 10045 9933; CX 10052 10053 9928; CX 10057 9878 9954;
  CX 9953 9878 9977; CX 10059 9924 9624; CX 10060 9924 9713; CX 10063 10064 9791; CI 9919 9971; CX 10075 10076 9772; CX 10081 10082 9964; CA 10084 10085 9867;
  CA 10086 9878 9969; CX 10123 10124 9821; CX 10127 10128 9999; CX 10133 10134 9998; CA 10135 9908 9967; CX 10147 10148 9883; CX 10150 8624 9900; CX 10060 10059 9627;
  CX 10010 10012 9628; CX 10013 10011 9629; CX 10154 10155 8536; CX 10160 10161 8583; CX 10173 10174 9800; CX 10183 10184 9802; CX 10185 10186 9895; CX 10201 10202 9860;
  CX 10205 10206 10046; CX 10207 10206 10049; CX 10210 10111 10050; CX 10219 10220 10026; CX 10221 10220 10028; CX 10227 10228 9925; CX 10231 10232 9926; CX 10257 10258 10071;
  CX 10300 10301 10089; CX 10302 10303 10112; CX 10258 10304 10110; CX 10305 10306 10106; CX 10307 10308 10102; CX 10309 10310 10092; CX 10311 10303 10090; CX 10302 10314 10097;
  CX 10305 10315 10101; CX 10311 10316 10108; CX 10317 10318 10116; CX 10319 10320 10114; CX 10323 10316 10094; CX 10324 10308 10104; CX 10325 10318 10118; CX 10343 10344 10129;
  CX 10362 10363 10143; CX 10362 10364 10145; CX 10497 10111 10284; CX 10517 10514 10298; CX 10520 10517 10326; CX 10344 10521 10312; CX 10522 10517 10328; CX 10324 10523 10321;
  CX 10524 10525 10330; CX 10526 10527 10333; CX 10527 10528 10335; CX 10529 10530 10332; CX 10531 10532 10336; CX 10323 10521 10358; CX 10549 10521 10356; CX 10522 10550 10354;
  CX 10551 10552 10365; CX 10553 10554 10368; CX 10554 10555 10370; CX 10556 10557 10367; CX 10558 10559 10371; CX 9629 8537 8548; CX 9860 9824 8293; CX 9824 9861 8088;
  CX 9744 8205 7990; CX 9749 8329 8082; CX 9867 9868 9776; CX 8240 8487 8419; CX 9790 8484 8241; CX 9885 9886 9789; CX 9883 9884 8137; CX 9825 9827 8263;
  CX 9898 9735 9807; CX 9900 9884 9630; CX 9901 9884 9717; CX 9902 9827 9657; CX 9903 9827 9748; CX 9905 9906 9796; CX 9907 9908 9777; CX 9918 8643 8644;
  CX 9919 8756 8755; CX 9920 8650 8649; CX 8582 9921 8584; CX 8639 9922 8645; CX 9736 9926 8037; CX 9860 9861 8193; CX 9860 9823 8336; CX 9927 9928 8215;
  CX 9928 9929 7988; CX 9928 8643 8401; CX 9930 8582 8531; CX 9653 8583 8588; CX 9933 9934 8347; CX 9933 9935 8094; CX 9936 9921 8331; CX 9927 9918 8206;
  CX 9938 8639 8595; CX 9939 8756 8695; CX 9933 8650 8597; CX 9941 9823 9840; CX 9825 9822 8340; CX 9942 9922 8328; CX 9934 9920 8344; CX 9944 9822 9839;
  CX 9945 9920 9837; CX 9663 8590 8648; CX 9947 9101 9826; CX 9948 9922 9832; CX 9949 9918 9829; CX 9949 9921 9831; CX 9953 9954 9850; CX 9772 9937 8284;
  CX 9772 9958 8085; CX 9964 8309 8577; CX 9967 9968 9778; CX 9969 9970 9758; CA 8756 9971 9649; CA 8639 9972 9598; CA 8582 9973 9609; CA 9977 9978 9875;
  CA 9979 9954 9877; CX 9998 8555 8572; CX 9999 8612 9797; CI 8189 9520; CI 8191 9555; CI 8127 9554; CI 8265 9553; CX 9901 9900 9632;
  CI 9843 9794; CI 9912 9869; CI 9918 9951; CI 9822 9865; CI 9920 9950; CX 9895 9925 8135; CX 9628 8536 8546; CX 10010 9925 9625;
  CX 10011 9926 9626; CX 10012 9925 9714; CX 10013 9926 9715; CI 9791 9771; CX 10026 10027 9952; CX 10028 10029 9974; CX 10046 10047 9893; CX 10048 10049 9923;
  CX 10050 10051 9872; CI 9821 9787; CX 10071 10072 9965; CX 10088 10089 8317; CX 10090 10091 8518; CX 10092 10093 9992; CX 10094 10095 9960; CX 10096 10097 9987;
  CX 10100 10101 9766; CX 10102 10103 9897; CX 10104 10105 9853; CX 10106 10107 9764; CX 10108 10109 8237; CX 10110 10111 9990; CX 10112 10113 9988; CX 10114 10115 9961;
  CX 10116 10117 9931; CX 10118 10119 9871; CX 10129 10130 9788; CX 10143 10144 8412; CX 10145 10146 9896; CX 10284 8800 9874; CX 10298 10299 10098; CX 10312 10313 9984;
  CX 10321 10322 9982; CX 10326 10327 9981; CX 10328 10329 9980; CX 10330 10331 9818; CX 10332 10333 10087; CX 10334 10335 9993; CX 10336 10331 10121; CX 10354 10355 9983;
  CX 10356 10357 9985; CX 10358 10359 10149; CX 10365 10366 9857; CX 10367 10368 10138; CX 10369 10370 10006; CX 10371 10366 10152; CX 9735 8548 8552; CX 9736 8548 8542;
  CX 9738 8293 8087; CX 8336 8088 8259; CA 8548 9775 9567; CX 9776 9777 9705; CX 9776 9778 9685; CX 8484 9789 8416; CX 9703 9789 8488; CX 9790 9789 8486;
  CA 8082 8092 9599; CA 7990 7992 9608; CA 9776 9792 9329; CA 9776 9793 9637; CX 9796 9777 9686; CX 9778 9796 9751; CX 9806 9807 9712; CA 8241 8240 9648;
  CX 9822 8648 8647; CX 8588 9823 8589; CX 8588 9824 8586; CX 8644 8127 8454; CX 8584 8265 8446; CX 8401 8215 8407; CX 8531 8205 8527; CX 7992 8331 8173;
  CX 7988 8206 8124; CX 9825 9826 8337; CX 9826 9827 8090; CX 8645 8252 8492; CX 8755 8418 8636; CX 8649 8270 8503; CX 8595 8329 8570; CX 8695 8484 8694;
  CX 8597 8347 8594; CX 9826 8648 8592; CX 8092 8328 8246; CX 8094 8344 8269; CX 9750 8347 8095; CX 9828 9829 9740; CX 9830 9831 9741; CX 9832 9833 9746;
  CX 9836 9837 9747; CX 9838 9839 9745; CX 9840 9841 9737; CA 9777 8142 9638; CA 9796 9846 9760; CA 9796 9847 9529; CA 9777 9848 9634; CX 9849 9850 9756;
  CX 9742 8284 8084; CX 9660 8577 8580; CA 8648 9865 9593; CA 8595 8568 9600; CA 8401 8400 9604; CA 8531 8523 9607; CA 8588 9866 9606; CA 8695 8693 9647;
  CA 8597 8591 9601; CI 8137 9523; CX 9875 9876 9781; CX 9877 9878 9757; CX 9883 9797 8204; CX 9797 9884 8029; CA 9758 9887 9250; CA 9758 9888 9730;
  CA 9778 9889 9330; CA 9778 9890 9759; CI 8193 9552; CX 9896 9735 8290; CI 8215 9798; CI 8331 9652; CX 9883 9794 8278; CX 9897 9869 8276;
  CX 9899 9794 9808; CX 9632 8524 8534; CX 9855 9869 9805; CX 9893 9894 8213; CX 9923 9895 8209; CX 9736 9896 8212; CX 9923 8546 8541; CX 9893 9924 8035;
  CX 9923 9925 8036; CX 9897 9872 8199; CX 9872 9931 8028; CX 9937 9771 8333; CX 9943 9771 9835; CA 8650 9950 9603; CA 8643 9951 9571; CX 9788 9960 8281;
  CX 9788 9961 8027; CX 9960 9787 8421; CX 9963 9787 9864; CX 9965 8792 9799; CA 8546 9974 9562; CX 9960 9961 8326; CX 9897 9931 8138; CX 9853 9871 8064;
  CX 9980 9871 9581; CX 9981 9931 9631; CX 9982 9961 9683; CX 9983 9961 9774; CX 9984 9871 9673; CX 9985 9931 9720; CX 9986 9987 9842; CX 9988 9989 9911;
  CX 9990 9991 9870; CX 9992 8615 9862; CI 8135 9521; CX 9896 9926 8136; CX 9627 8412 8550; CI 9952 9892; CI 9974 9891; CX 10087 9818 9916;
  CX 9982 9983 9684; CX 9985 9981 9633; CX 9980 9984 9583; CX 10098 10099 9852; CX 10121 10122 9820; CX 10138 9857 9956; CX 10149 8799 9873; CA 9818 9993 9994;
  CX 10152 10153 9859; CA 10087 9993 9881; CA 9857 10006 10007; CA 10138 10006 9913; CI 9818 10120; CI 9857 10151; CX 8552 8136 8452; CX 8542 8212 8470;
  CA 8542 8537 9568; CX 9685 9686 9621; CX 8486 8756 8692; CX 8486 8487 9545; CX 8693 8416 8637; CX 9703 8416 9543; CX 9704 8416 8417; CA 8087 8088 9605;
  CA 9705 9706 9165; CA 9705 9707 9528; CA 9685 9708 9635; CA 9685 9709 9639; CX 9712 8212 8186; CX 9626 9712 8211; CX 9715 9712 8297; CX 9329 9330 9328;
  CA 8488 8484 9547; CA 8416 8419 9549; CA 8486 8487 9551; CX 8589 8193 8499; CX 8586 8293 8540; CX 9737 8293 8260; CX 9738 9737 8349; CX 9650 9737 8294;
  CX 8215 9740 8130; CX 8205 9741 8176; CX 9743 9740 9651; CX 9744 9741 8341; CX 9656 9741 8201; CX 8647 8263 8501; CX 8592 8337 8598; CX 8337 9745 8262;
  CX 8329 9746 8249; CX 8347 9747 8268; CX 8090 8340 8264; CX 9748 8337 8091; CX 9657 9745 8338; CX 9749 9746 8334; CX 9658 9746 8346; CX 9748 9745 8342;
  CX 9659 9747 8348; CX 9750 9747 8350; CA 9751 9752 9325; CA 9686 9753 9533; CA 9686 9754 9532; CA 9751 9755 9164; CX 9756 9757 9687; CX 9756 9758 9689;
  CX 9759 9760 9339; CX 9760 9638 9037; CX 8580 9771 8585; CX 9772 8580 8578; CA 8586 8583 9594; CA 8592 8590 9591; CA 8095 8094 9602; CA 9756 9779 9247].
(** Lines 24405-24804 of the file. *)
Definition aes128_61 : list cg := [
  CA 9756 9780 9613; CX 9757 9781 9723; CX 9758 9781 9721; CX 8029 8278 8171; CX 9717 8204 8026; CA 8084 8085 9596; CA 8580 9791 9595; CX 8534 9794 8538;
  CX 8037 8290 8182; CI 8407 9524; CX 9797 8534 8532; CX 9798 9743 7991; CX 8028 8276 8169; CI 9740 9718; CX 9804 9805 9719; CX 9808 9809 9716;
  CA 9757 9810 9610; CA 9781 9811 9502; CA 9757 8272 9615; CA 9781 9812 9731; CX 9713 8213 8038; CX 9715 8212 8033; CX 9714 8209 8031; CX 8541 8209 8468;
  CX 8085 8333 8251; CX 9720 8199 8024; CX 9834 9835 9739; CA 8534 9843 9564; CX 9852 9799 8008; CX 9799 9862 7840; CX 8027 8421 8248; CX 9774 8281 8022;
  CX 9863 9864 9773; CA 8541 8536 9561; CX 9870 9853 8076; CX 9852 9862 8068; CX 9870 9871 7915; CX 9873 9862 9580; CX 9874 9862 9674; CX 9684 8572 8641;
  CX 8546 9891 8551; CX 8550 9892 8544; CX 9893 8550 8413; CX 9894 9892 8286; CX 9895 9891 8288; CX 9904 9892 9801; CX 9904 9891 9803; CI 8421 9682;
  CA 8550 9952 9557; CI 8326 9590; CI 8138 9525; CI 9842 9795; CI 9911 9851; CI 8136 9522; CX 9583 8237 8405; CX 9633 8518 8521;
  CX 9881 9916 9880; CX 9993 9820 9882; CX 9881 9820 9915; CX 9874 9873 9582; CX 9913 9956 9910; CX 10006 9859 9914; CX 9913 9859 9955; CX 9881 9818 9917;
  CX 9913 9857 9957; CI 9820 9995; CA 10087 10120 10009; CI 9859 10008; CA 10138 10151 10058; CX 9689 9723 9573; CA 9573 9574 9432; CA 9573 9575 9428;
  CX 8417 8418 9510; CX 8692 8694 9195; CA 9621 9622 9531; CA 9621 9623 9530; CX 9626 8186 9385; CX 8297 8548 8474; CX 8290 8297 9384; CX 8537 8186 8453;
  CX 9629 8186 8134; CX 9634 9328 8894; CX 9635 9636 9173; CX 9637 9165 9526; CX 9528 9638 9527; CX 9639 9164 9336; CA 8417 8418 9546; CA 8636 8637 9548;
  CA 8692 8694 9550; CX 9647 9549 9509; CX 9648 9547 9544; CX 9649 9551 9357; CX 9650 8260 9443; CX 8349 8588 8549; CX 8336 8349 9454; CX 8583 8260 8500;
  CX 8341 8582 8526; CX 9651 8206 9390; CX 9652 8341 9455; CX 8342 8648 8593; CX 8334 8639 8569; CX 8350 8650 8596; CX 8523 8176 8449; CX 8400 8130 8442;
  CX 8342 8340 9442; CX 8334 8328 9449; CX 8350 8344 9453; CX 9653 8260 8184; CX 9655 8130 9391; CX 9656 8176 9457; CX 8568 8249 8493; CX 8591 8268 8504;
  CX 8590 8262 8502; CX 9657 8262 9440; CX 9658 8249 9450; CX 9659 8268 9451; CX 9661 8130 8139; CX 9662 8176 8257; CX 9663 8262 8266; CX 9664 8249 8253;
  CX 9665 8268 8271; CA 8186 8182 9413; CA 8297 8290 9417; CA 8211 8212 9415; CX 9533 9532 9033; CX 8585 8191 8497; CX 8578 8284 8530; CA 8249 8246 9477;
  CA 8334 8328 9475; CA 8176 8173 9497; CA 8346 8329 9473; CA 8130 8124 9487; CA 8341 8331 9465; CA 8260 8259 9489; CA 8349 8336 9493; CA 8262 8264 9461;
  CA 8338 8337 9459; CA 8342 8340 9463; CA 8091 8090 9592; CA 8348 8347 9481; CA 8268 8269 9479; CA 8294 8293 9491; CA 8350 8344 9483; CA 8201 8205 9495;
  CA 9687 9688 9106; CA 9689 9690 9614; CA 9689 9691 9611; CA 9687 9692 9501; CX 9247 9250 9244; CA 8578 8577 9597; CX 8538 8137 8447; CX 8532 8204 8466;
  CX 9716 8204 8175; CX 9717 9716 8296; CX 9630 9716 8203; CI 9651 8196; CX 9718 9655 8194; CX 8199 9719 8174; CX 9631 9719 8198; CX 9720 9719 8298;
  CA 9721 9722 9252; CA 9723 9724 9434; CA 9723 9725 9433; CA 9721 9726 9107; CX 9730 9731 9255; CX 9731 9615 8960; CA 8026 8029 9565; CX 9739 8284 8255;
  CX 9742 9739 8345; CX 9654 9739 8283; CA 7991 7988 9572; CA 8532 8524 9566; CX 9773 8281 8254; CX 9674 8008 7839; CX 9683 9773 8280; CX 9774 9773 8422;
  CA 8024 8028 9570; CA 8038 8035 9558; CA 8031 8036 9563; CA 8033 8037 9560; CX 9673 8076 7914; CX 8641 9787 8646; CX 9788 8641 8576; CA 8022 8027 9618;
  CX 8544 8189 8378; CX 8551 8135 8450; CX 8413 8213 8475; CX 8035 8286 8190; CX 8036 8288 8180; CX 9800 9801 9710; CX 9802 9803 9711; CA 8641 9821 9620;
  CA 8413 8412 9559; CX 8405 9851 8410; CI 8068 9424; CX 9852 9795 8147; CX 9853 9851 8074; CX 9854 9795 9767; CX 9855 9851 9765; CX 8521 9869 8535;
  CX 9870 8405 8238; CX 9872 8521 8519; CX 9881 9882 9786; CX 9582 8317 8403; CA 8405 9911 9508; CA 8521 9912 9556; CX 9913 9914 9816; CA 9915 9916 9817;
  CA 9917 9882 9819; CA 9955 9956 9856; CA 9957 9914 9858; CA 9994 9995 9785; CA 10007 10008 9815; CA 10009 9820 9879; CA 10058 9859 9909; CX 9432 9433 9246;
  CX 9434 9428 9243; CX 9509 9510 9318; CX 9522 8134 9343; CX 8470 8474 9091; CX 9526 9328 9163; CX 9339 9527 9031; CX 9528 9526 9335; CX 9529 9527 9337;
  CX 9530 9336 9338; CX 9531 9532 9326; CX 9533 9530 9327; CX 9543 9544 9356; CX 9544 9545 9358; CX 9546 9547 9319; CX 9548 9549 9355; CX 9550 9551 9359;
  CX 9552 8184 9371; CX 8549 8540 9139; CX 9553 8257 9373; CX 9554 8139 9369; CX 8527 8526 9141; CX 8266 8263 9361; CX 8271 8270 9367; CX 8253 8252 9365;
  CX 8569 8570 9135; CX 8596 8594 9137; CX 8598 8593 9131; CA 8474 8470 9416; CA 8134 8136 9414; CA 8452 8453 9412; CX 9560 9415 9383; CX 9567 9417 9225;
  CX 9568 9413 9342; CA 8569 8570 9474; CA 8253 8252 9472; CA 8526 8527 9464; CA 8493 8492 9476; CA 8139 8127 9484; CA 8442 8454 9486; CA 8257 8265 9494;
  CA 8549 8540 9492; CA 8184 8193 9490; CA 8266 8263 9458; CA 8502 8501 9460; CA 8593 8598 9462; CA 8449 8446 9496; CA 8271 8270 9480; CA 8504 8503 9478;
  CA 8596 8594 9482; CA 8499 8500 9488; CX 9591 9461 9360; CX 9592 9459 9441; CX 9593 9463 9271; CX 9594 9489 9370; CX 9598 9475 9279; CX 9599 9473 9448;
  CX 9600 9477 9364; CX 9601 9479 9366; CX 9602 9481 9452; CX 9603 9483 9286; CX 9604 9487 9368; CX 9605 9491 9444; CX 9606 9493 9292; CX 9607 9497 9372;
  CX 9608 9495 9456; CX 9609 9465 9295; CX 9610 9244 8812; CX 9611 9612 9143; CX 9613 9106 9499; CX 9614 9107 9299; CX 9501 9615 9500; CX 8296 8534 8465;
  CX 8196 8643 8408; CX 8296 8278 9380; CX 8298 8521 8462; CX 8298 8276 9387; CX 8524 8175 8448; CX 9630 8175 9382; CX 8518 8174 8444; CX 9631 8174 9388;
  CX 9632 8175 8129; CX 9633 8174 8126; CX 9434 9433 9005; CX 8345 8580 8529; CX 8345 8333 9446; CX 8577 8255 8498; CX 9654 8255 9447; CX 9660 8255 8178;
  CA 8174 8169 9399; CA 8175 8171 9407; CA 8194 8215 9485; CA 8298 8276 9419; CA 8296 8278 9411; CA 8196 8206 9423; CA 8198 8199 9421; CA 8203 8204 9409;
  CX 8422 8641 8575; CX 9682 8422 9511; CX 8572 8254 8496; CX 9683 8254 9513; CX 9684 8254 8325; CA 8255 8251 9467; CA 8345 8333 9471; CA 8283 8284 9469;
  CX 8646 8326 8495; CX 8576 8281 8574; CA 8254 8248 9519; CA 7839 7840 9503; CA 8422 8421 9515; CA 8280 8281 9517; CX 9710 8213 8188; CX 9711 8209 8185;
  CX 9713 9710 8291; CX 9624 9710 8214; CX 9625 9711 8208; CX 9714 9711 8295; CA 7914 7915 9507; CA 8576 8572 9619; CX 7840 8147 8004; CX 8410 8064 8230;
  CX 7915 8074 8062; CX 9764 9765 9672; CX 9766 9767 9671; CX 8535 8138 8443; CX 8238 8076 8398; CX 8519 8199 8463; CX 9785 9786 9698; CX 8403 9795 8409;
  CX 9799 8403 8321; CA 8519 8518 9569; CA 8238 8237 9506; CX 9815 9816 9727; CI 8147 9579; CX 9817 9818 9734; CX 9819 9820 9699; CA 8403 9842 9505;
  CX 9856 9857 9763; CX 9858 9859 9728; CX 9879 9880 9700; CX 9909 9910 9729; CX 9243 9244 8951; CX 9245 9246 9102; CX 9247 9246 9112; CX 9250 9246 9111;
  CX 9252 9246 9097; CX 9318 9319 8818; CX 9325 9326 9160; CX 9327 9328 9030; CX 9329 9326 9170; CX 9330 9326 9175; CX 9327 9335 9171; CX 9336 9337 9172;
  CX 9337 9338 9035; CX 9339 9338 9174; CX 9342 9343 9178; CX 9354 9326 9162; CX 9335 9328 9028; CX 9355 9356 9154; CX 9357 9358 9057; CX 9359 9319 9194;
  CX 9360 9361 9196; CX 9364 9365 9200; CX 9366 9367 9202; CX 9368 9369 9204; CX 9370 9371 9206; CX 9372 9373 9208; CX 9383 9384 9226; CX 9385 9383 9228;
  CX 9412 9413 9227; CX 9414 9415 9179; CX 9416 9417 9229; CX 9428 9299 9254; CX 9440 9441 9270; CX 9441 9442 9272; CX 9443 9444 9291; CX 9448 9449 9280;
  CX 9450 9448 9283; CX 9451 9452 9285; CX 9452 9453 9287; CX 9444 9454 9293; CX 9455 9456 9296; CX 9457 9456 9298; CX 9458 9459 9197; CX 9460 9461 9269].
(** Lines 24805-25204 of the file. *)
Definition aes128_62 : list cg := [
  CX 9462 9463 9273; CX 9464 9465 9294; CX 9472 9473 9201; CX 9474 9475 9281; CX 9476 9477 9282; CX 9478 9479 9284; CX 9480 9481 9203; CX 9482 9483 9288;
  CX 9484 9485 9205; CX 9486 9487 9238; CX 9488 9489 9290; CX 9490 9491 9207; CX 9492 9493 9289; CX 9494 9495 9209; CX 9496 9497 9297; CX 9499 9244 9103;
  CX 9255 9500 8962; CX 9501 9499 9256; CX 9502 9500 9253; CX 9523 8129 9341; CX 8466 8465 9089; CX 9524 8408 9094; CX 9525 8126 9345; CX 8462 8463 9093;
  CX 9555 8178 9363; CX 8529 8530 9133; CA 8462 8463 9418; CA 8465 8466 9410; CA 8408 8407 9422; CA 8126 8138 9420; CA 8129 8137 9408; CA 8448 8447 9406;
  CA 8444 8443 9398; CX 9556 9419 9231; CX 9564 9411 9220; CX 9565 9409 9381; CX 9566 9407 9340; CX 9569 9399 9344; CX 9570 9421 9386; CX 9571 9423 9236;
  CX 9572 9485 9389; CX 9590 8325 9439; CX 8575 8574 9158; CA 8529 8530 9470; CA 8178 8191 9468; CA 8497 8498 9466; CX 9595 9471 9274; CX 9596 9469 9445;
  CX 9597 9467 9362; CA 8575 8574 9514; CA 8325 8326 9516; CA 8495 8496 9518; CX 9618 9517 9512; CX 9619 9519 9438; CX 9620 9515 9321; CX 9624 8188 9376;
  CX 9625 8185 9379; CX 8291 8550 8472; CX 8295 8546 8473; CX 8286 8291 9375; CX 8288 8295 9378; CX 8412 8188 8377; CX 8536 8185 8451; CX 9627 8188 8192;
  CX 9628 8185 8132; CA 8291 8286 9395; CA 8185 8180 9405; CA 8295 8288 9403; CA 8188 8190 9397; CA 8214 8213 9393; CA 8208 8209 9401; CX 9671 8008 8005;
  CX 8076 9672 8069; CX 9673 9672 8077; CX 9580 9671 8007; CX 9674 9671 8148; CX 9581 9672 8078; CX 9698 9699 9644; CX 9698 9700 9616; CX 8409 8068 8232;
  CX 8321 8008 8320; CX 9727 9728 9668; CX 9727 9729 9640; CA 9698 9732 9189; CA 9698 9733 9542; CX 9734 9699 9617; CX 9700 9734 9675; CA 8321 8317 9504;
  CA 9727 9761 9251; CA 9727 9762 9589; CX 9763 9728 9641; CX 9729 9763 9693; CI 8398 9425; CA 9734 9768 9348; CA 9699 8141 9541; CA 9699 9769 9537;
  CA 9734 9770 9680; CA 9763 9782 9429; CA 9728 8070 9588; CA 9728 9783 9584; CA 9763 9784 9701; CA 9700 9813 9188; CA 9700 9814 9681; CA 9729 9844 9266;
  CA 9729 9845 9702; CX 9096 9097 8959; CX 9098 9097 8952; CX 9102 9103 8961; CX 9106 9097 8950; CX 9107 9097 8963; CX 9154 8818 8975; CX 9159 9160 9027;
  CX 9161 9160 9036; CX 9162 9163 9038; CX 9164 9160 9032; CX 9165 9160 9029; CX 9170 9171 9023; CX 9172 9173 9034; CX 9174 9175 9025; CX 9178 9179 8679;
  CA 8818 9057 9058; CX 9194 9195 8816; CX 9196 9197 8715; CX 9200 9201 8717; CX 9202 9203 8719; CX 9204 9205 8629; CX 9206 9207 8727; CX 9208 9209 8723;
  CX 9225 9226 8924; CX 9227 9228 9083; CX 9229 9179 9090; CX 9253 9254 8958; CX 9255 9254 9110; CX 9243 9256 9113; CA 9154 9057 8915; CI 8818 9155;
  CX 9269 9270 9067; CX 9271 9272 8982; CX 9273 9197 9130; CX 9279 9280 8983; CX 9281 9201 9134; CX 9282 9283 9062; CX 9284 9285 9068; CX 9286 9287 8984;
  CX 9288 9203 9136; CX 9289 9207 9138; CX 9290 9291 9128; CX 9292 9293 8979; CX 9294 9209 9140; CX 9295 9296 8981; CX 9297 9298 9129; CX 9256 9244 8953;
  CX 9299 9253 9142; CX 9340 9341 9176; CX 9344 9345 9180; CX 9362 9363 9198; CX 9380 9381 9221; CX 9382 9381 9223; CX 9386 9387 9232; CX 9388 9386 9234;
  CX 9389 9390 9237; CX 9391 9389 9239; CX 9398 9399 9233; CX 9406 9407 9222; CX 9408 9409 9177; CX 9410 9411 9224; CX 9418 9419 9230; CX 9420 9421 9181;
  CX 9422 9423 9235; CX 9438 9439 9267; CX 9445 9446 9275; CX 9447 9445 9277; CX 9466 9467 9276; CX 9468 9469 9199; CX 9470 9471 9278; CX 9511 9512 9322;
  CX 9513 9512 9324; CX 9514 9515 9320; CX 9516 9517 9268; CX 9518 9519 9323; CX 9520 8192 9332; CX 9521 8132 9334; CX 8473 8468 9087; CA 8473 8468 9402;
  CA 8132 8135 9400; CA 8472 8475 9394; CA 8192 8189 9392; CA 8378 8377 9396; CA 8450 8451 9404; CX 9557 9395 9211; CX 9558 9393 9374; CX 9559 9397 9331;
  CX 9561 9405 9333; CX 9562 9403 9216; CX 9563 9401 9377; CX 8148 8403 8319; CX 8077 8405 8414; CX 9579 8148 9302; CX 8077 8074 9304; CX 8317 8005 8233;
  CX 8237 8069 8234; CX 9580 8005 9300; CX 9581 8069 9305; CX 9582 8005 8066; CX 9583 8069 8067; CI 8472 9498; CA 8005 8004 9307; CA 8077 8074 9317;
  CA 8069 8062 9315; CA 8148 8147 9311; CA 8078 8076 9313; CA 8007 8008 9309; CX 9616 9617 9534; CX 9640 9641 9576; CA 9616 9642 9538; CA 9616 9643 9540;
  CA 9644 9645 9350; CA 9644 9646 9050; CX 9189 9188 9186; CA 9640 9666 9585; CA 9640 9667 9587; CA 9668 9669 9431; CA 9668 9670 9109; CX 9251 9266 9249;
  CA 9675 9676 9049; CA 9617 9677 9353; CA 9617 9678 9352; CA 9675 9679 9184; CX 9680 9541 8911; CX 9681 9680 9193; CA 9693 9694 9108; CA 9641 9695 9437;
  CA 9641 9696 9436; CA 9693 9697 9240; CX 9701 9588 8968; CX 9702 9701 9260; CX 8950 8951 8801; CX 8952 8953 5929; CX 8958 8959 8811; CX 8960 8961 6097;
  CX 8962 8963 8803; CX 8915 8975 8857; CX 9023 9024 5657; CX 9025 9026 5651; CX 9027 9028 5837; CX 9029 9030 8884; CX 9031 9032 8886; CX 9033 9034 6225;
  CX 9035 9036 8893; CX 9037 9038 6043; CX 9057 8816 8916; CX 8915 8816 8976; CX 9062 8717 8864; CX 9067 8715 8873; CX 9068 8719 8876; CA 9083 8679 9002;
  CX 9090 9091 8683; CX 9110 9111 8942; CX 9112 9113 8944; CX 8915 8818 8977; CA 8717 8983 8987; CA 8715 8982 8985; CA 8719 8984 8989; CA 8727 9128 9017;
  CA 8723 9129 9016; CX 9130 9131 8707; CX 9134 9135 8709; CX 9136 9137 8711; CX 9138 9139 8729; CX 9140 9141 8669; CA 9083 8924 8781; CI 8679 9042;
  CX 9142 9143 9006; CA 9155 9154 9061; CI 8816 9059; CA 9062 8983 8825; CA 9128 8979 8827; CA 9067 8982 8821; CA 9068 8984 8829; CI 8715 9076;
  CI 8717 9069; CX 9176 9177 8673; CX 9180 9181 8671; CI 8719 9077; CI 8629 9073; CI 8727 9078; CI 8723 9070; CI 9083 9020;
  CX 9198 9199 8725; CX 9220 9221 8925; CX 9222 9223 9082; CX 9224 9177 9088; CX 9230 9181 9092; CX 9231 9232 8927; CX 9233 9234 9080; CX 9235 9205 9095;
  CX 9236 9237 8926; CX 9238 9239 9063; CI 9128 9064; CI 8981 9071; CI 9129 9066; CX 9267 9268 8760; CX 9274 9275 8980; CX 9276 9277 9127;
  CX 9278 9199 9132; CX 9320 9268 9157; CX 9321 9322 9012; CX 9323 9324 9156; CX 9331 9332 9166; CX 9333 9334 9168; CX 9374 9375 9212; CX 9376 9374 9214;
  CX 9377 9378 9217; CX 9379 9377 9219; CX 9392 9393 9167; CX 9394 9395 9210; CX 9396 9397 9213; CX 9400 9401 9169; CX 9402 9403 9215; CX 9404 9405 9218;
  CX 9424 8066 9263; CX 8067 8064 9265; CX 8320 8319 9009; CX 9425 8414 9010; CX 9498 8475 9085; CA 8319 8320 9310; CA 8067 8064 9312; CA 8414 8398 9316;
  CA 8234 8230 9314; CA 8066 8068 9308; CA 8233 8232 9306; CX 9503 9309 9301; CX 9504 9307 9262; CX 9505 9311 9146; CX 9506 9315 9264; CX 9507 9313 9303;
  CX 9508 9317 9149; CA 9534 9535 9351; CA 9534 9536 9349; CX 9537 9186 8754; CX 9538 9539 9052; CX 9540 9049 9190; CX 9350 9541 9347; CX 9542 9050 9346;
  CA 9576 9577 9435; CA 9576 9578 9430; CX 9584 9249 8814; CX 9585 9586 9115; CX 9587 9108 9257; CX 9431 9588 9427; CX 9589 9109 9426; CX 9353 9352 8907;
  CX 9437 9436 8964; CX 5929 8793 5587; CX 6097 8794 5588; CX 8801 8802 5592; CX 8803 8804 5594; CX 8811 8812 5927; CX 5837 8879 5518; CX 5657 8880 5524;
  CX 5651 8881 5523; CX 6043 8882 5525; CX 6225 8883 5527; CX 8884 8885 5535; CX 8886 8887 5529; CX 8893 8894 5835; CX 8915 8916 8758; CX 8821 8873 8762;
  CX 8825 8864 8766; CX 8829 8876 8768; CX 8924 8683 8782; CX 8781 8683 8847; CX 8942 8943 5698; CX 8944 8945 5747; CA 8975 8976 8817; CA 8916 8977 8815;
  CX 8979 8729 8828; CX 8981 8669 8832; CX 8982 8707 8822; CX 8983 8709 8826; CX 8984 8711 8830; CX 8821 8707 8874; CX 8825 8709 8865; CX 8829 8711 8877;
  CX 8827 8729 8872; CA 9002 8683 8734; CX 9005 9006 6253; CA 9016 8669 8773; CA 9017 8729 8771; CX 9020 8679 8848; CX 8821 8715 8875; CX 8825 8717 8862;
  CX 8829 8719 8878; CA 9042 8924 8937; CI 8683 8938; CA 9058 9059 8757; CA 9061 8816 8856; CX 9063 8629 8787; CX 9064 8727 8871; CX 9066 8723 8868].
(** Lines 25205-25604 of the file. *)
Definition aes128_63 : list cg := [
  CA 9069 9062 8999; CA 9070 9071 8993; CA 9076 9067 8997; CA 9077 9068 8998; CA 9078 8979 8995; CA 8671 9080 9003; CA 8673 9082 9001; CI 8707 8986;
  CI 8709 8988; CX 9088 9089 8667; CX 9092 9093 8665; CI 8711 8990; CX 9094 9095 8627; CI 8729 8996; CI 8669 8994; CI 8781 8892;
  CA 9127 8725 9015; CX 9132 9133 8721; CA 9080 8927 8783; CA 9129 9071 8831; CA 9082 8925 8779; CI 8827 8920; CI 8673 9040; CI 8671 9039;
  CA 8760 9156 9060; CX 9157 9158 8713; CA 9127 8980 8823; CX 9166 9167 8675; CI 8725 9072; CX 9168 9169 8677; CI 9082 9021; CI 9080 9022;
  CI 8926 9074; CI 9063 9075; CI 8760 9125; CX 9210 9167 9084; CX 9211 9212 8922; CX 9213 9214 9079; CI 9127 9065; CX 9215 9169 9086;
  CX 9216 9217 8923; CX 9218 9219 9081; CX 9262 9263 9120; CX 9264 9265 9122; CI 9012 9126; CI 9156 9124; CX 9300 9301 9145; CX 9302 9301 9147;
  CX 9303 9304 9150; CX 9305 9303 9152; CX 9306 9307 9144; CX 9308 9309 9121; CX 9310 9311 9148; CX 9312 9313 9123; CX 9314 9315 9151; CX 9316 9317 9153;
  CX 9346 9186 9048; CX 9193 9347 8913; CX 9348 9347 9191; CX 9349 9190 9192; CX 9350 9346 9187; CX 9351 9352 9183; CX 9353 9349 9185; CX 9426 9249 9105;
  CX 9260 9427 8970; CX 9429 9427 9258; CX 9430 9257 9259; CX 9431 9426 9261; CX 9435 9436 9241; CX 9437 9430 9248; CX 8611 5587 5452; CX 5592 8613 5454;
  CX 5594 8614 5455; CX 5927 8618 5453; CX 8620 5588 5457; CX 8698 5518 5393; CX 5835 8699 5397; CX 8700 5529 5398; CX 5535 8701 5399; CX 5523 8702 5404;
  CX 8703 5524 5406; CX 8704 5525 5405; CX 8705 5527 5408; CX 8757 8758 8565; CX 8781 8782 8606; CX 5747 8795 5589; CX 8796 5698 5522; CX 8815 8816 8566;
  CX 8817 8818 8638; CX 8821 8822 8652; CX 8825 8826 8656; CX 8827 8828 8660; CX 8829 8830 8658; CX 8831 8832 8662; CA 8847 8848 8678; CX 6253 8849 5590;
  CX 8856 8857 8567; CA 8826 8862 8708; CA 8864 8865 8716; CA 8871 8872 8726; CA 8873 8874 8714; CA 8822 8875 8706; CA 8876 8877 8718; CA 8830 8878 8710;
  CX 8848 8892 8735; CX 8871 8920 8772; CX 8925 8667 8780; CX 8926 8627 8786; CI 8832 8835; CX 8927 8665 8784; CX 8783 8665 8838; CX 8779 8667 8840;
  CA 8937 8938 8605; CX 8892 8679 8842; CX 8980 8721 8824; CX 8823 8721 8866; CX 8831 8669 8869; CA 8985 8986 8651; CA 8987 8988 8655; CA 8989 8990 8657;
  CA 8993 8994 8661; CA 8995 8996 8659; CA 8997 8707 8761; CA 8998 8711 8767; CA 8999 8709 8765; CA 9001 8667 8732; CA 9003 8665 8738; CX 8920 8727 8870;
  CX 9012 8713 8859; CA 9015 8721 8763; CX 9021 8673 8839; CX 9022 8671 8837; CA 9039 8927 8928; CA 9040 8925 8931; CI 8667 8932; CI 8665 8929;
  CI 8627 8895; CA 9060 8713 8819; CX 9065 8725 8867; CA 9072 8980 8991; CA 9073 9074 9004; CA 8629 9075 8930; CA 9079 8675 8933; CA 9081 8677 9000;
  CX 9084 9085 8631; CI 8721 8992; CX 9086 9087 8681; CA 9075 9074 8785; CI 8783 8888; CI 8831 8921; CI 8779 8891; CX 9120 9121 8562;
  CX 9122 9123 8564; CX 9124 8760 8917; CA 9125 9126 9013; CI 8713 9014; CI 8823 8919; CA 9081 8923 8777; CA 9079 8922 8775; CI 8675 9043;
  CI 8677 9041; CX 9144 9145 9007; CX 9146 9147 8850; CX 9148 9121 9008; CX 9149 9150 8851; CX 9151 9152 8940; CX 9153 9123 9011; CA 9156 9126 8858;
  CI 9079 9018; CI 9081 9019; CX 9182 9183 9047; CX 9184 9183 9045; CX 9185 9186 8906; CX 9187 9186 8904; CX 9188 9183 9054; CX 9189 9183 9055;
  CX 9190 9191 9051; CX 9191 9192 8909; CX 9193 9192 9053; CX 9185 9187 9056; CX 9240 9241 9100; CX 9242 9241 9104; CX 9248 9249 8957; CX 9251 9241 9118;
  CX 9257 9258 9114; CX 9258 9259 8966; CX 9260 9259 9116; CX 9248 9261 9119; CX 9261 9249 8955; CX 9266 9241 9117; CX 5453 8382 5322; CX 8383 5454 5323;
  CX 8384 5455 5324; CX 8388 5457 5325; CX 8390 5452 5326; CX 8510 5397 5228; CX 5398 8511 5230; CX 5399 8512 5229; CX 8513 5405 5232; CX 8514 5393 5234;
  CX 8515 5406 5236; CX 8516 5404 5239; CX 5408 8517 5241; CX 8565 8566 8415; CX 8565 8567 8322; CX 8605 8606 8355; CX 8619 5522 5403; CX 8621 5589 5456;
  CA 8565 8636 7846; CA 8565 8637 8157; CX 8567 8638 8485; CX 8638 8566 8323; CX 8651 8652 8432; CX 8655 8656 8434; CX 8657 8658 8436; CX 8659 8660 8423;
  CX 8661 8662 8362; CX 5590 8663 5458; CX 8678 8679 8456; CA 8638 8692 8491; CA 8566 8693 8243; CA 8638 8694 8015; CA 8566 8695 8242; CX 8706 8707 8433;
  CX 8708 8709 8435; CX 8710 8711 8437; CX 8714 8715 8508; CX 8716 8717 8507; CX 8718 8719 8509; CX 8726 8727 8505; CX 8734 8735 8359; CA 8567 8755 8490;
  CA 8567 8756 7847; CX 8761 8762 8438; CX 8765 8766 8439; CX 8767 8768 8440; CX 8771 8772 8425; CX 8779 8780 8604; CX 8783 8784 8608; CX 8785 8786 8610;
  CX 8823 8824 8654; CA 8837 8838 8670; CA 8839 8840 8672; CA 8842 8782 8682; CX 8858 8859 8697; CA 8866 8867 8724; CA 8868 8869 8722; CA 8870 8828 8728;
  CX 8837 8888 8739; CX 8839 8891 8733; CX 8785 8895 8788; CX 8919 8867 8764; CX 8785 8787 8770; CX 8868 8921 8774; CX 8922 8631 8776; CX 8923 8681 8778;
  CX 8777 8681 8845; CA 8928 8929 8607; CA 8930 8895 8769; CA 8931 8932 8603; CX 8940 8564 8740; CX 8888 8671 8833; CX 8891 8673 8834; CX 8921 8723 8836;
  CI 8859 8860; CA 8991 8992 8653; CA 9000 8681 8730; CA 9004 8627 8609; CX 8919 8725 8863; CA 8562 9007 8896; CA 8564 8851 8897; CX 9008 9009 8481;
  CX 9010 9011 8483; CX 8858 8713 8918; CA 9013 9014 8696; CX 9018 8675 8844; CX 9019 8677 8846; CA 9041 8923 8935; CA 9043 8922 8939; CI 8631 8934;
  CI 8681 8936; CI 8785 8898; CA 8940 8851 8686; CX 9044 9045 8910; CX 9046 9045 8903; CX 9047 9048 8912; CX 9049 9045 8914; CX 9050 9045 8905;
  CX 9051 9052 8908; CX 9053 9054 8899; CX 9055 9056 8901; CI 8562 8972; CI 8564 8974; CI 8777 8890; CI 8775 8889; CX 9099 9100 8967;
  CX 9101 9100 8954; CX 9104 9105 8969; CX 9108 9100 8971; CX 9109 9100 8956; CX 9114 9115 8965; CX 9116 9117 8946; CX 9118 9119 8948; CI 9007 8941;
  CI 8850 8973; CI 8858 8978; CX 8140 5323 5165; CX 8141 5324 5166; CX 8144 5322 5167; CX 5236 5241 7739; CX 8272 5230 5051; CX 8273 5229 5050;
  CX 5228 8274 5053; CX 8322 8323 8239; CX 8359 8355 8117; CX 5456 8392 5327; CX 8394 5403 5238; CA 8415 8416 8017; CA 8322 8417 8244; CA 8322 8418 8016;
  CA 8415 8419 7655; CX 7846 7847 7841; CX 8425 8423 8158; CX 8432 8433 8261; CX 8434 8435 8245; CX 8436 8437 8267; CX 8432 8438 8162; CX 8434 8439 8164;
  CX 8436 8440 8166; CA 8355 8452 7700; CA 8355 8453 7997; CX 8359 8456 8289; CI 5230 7157; CI 5239 7986; CX 5458 8460 5328; CA 8323 8484 8019;
  CA 8485 8486 7845; CA 8485 8487 7654; CA 8323 8488 8020; CX 8490 8491 7851; CX 8243 8491 8011; CA 8434 8492 7764; CA 8434 8493 8108; CA 8423 8499 7772;
  CA 8423 8500 8055; CA 8432 8501 7761; CA 8432 8502 8106; CA 8436 8503 7769; CA 8436 8504 8054; CX 8425 8505 8335; CX 8439 8507 8327; CX 8438 8508 8339;
  CX 8440 8509 8343; CX 8508 8433 8163; CX 8507 8435 8165; CX 8509 8437 8167; CA 8435 8568 8111; CA 8507 8569 8372; CA 8507 8570 7950; CA 8433 8590 8102;
  CA 8437 8591 8057; CA 8433 8592 8097; CA 8508 8593 8369; CA 8509 8594 7958; CA 8435 8595 8099; CA 8509 8596 8374; CA 8437 8597 8101; CA 8508 8598 7962;
  CX 8603 8604 8360; CX 8607 8608 8364; CX 8609 8610 8441; CI 8362 8445; CI 8456 8469; CA 8439 8639 7767; CA 8439 8645 8373; CA 8438 8647 8368;
  CA 8438 8648 7762; CA 8440 8649 8375; CA 8440 8650 7773; CX 8653 8654 8426; CX 8670 8671 8458; CX 8672 8673 8457; CI 8505 8539; CX 8682 8683 8356;
  CI 8359 8547; CX 8696 8697 8428; CX 8722 8723 8381; CX 8724 8725 8506; CX 8728 8729 8424; CX 8732 8733 8366; CX 8738 8739 8367; CI 8425 8587;
  CX 8763 8764 8430; CX 8769 8770 8642; CX 8773 8774 8431; CX 8775 8776 8600; CX 8777 8778 8602; CA 8787 8788 8628; CA 8784 8833 8664; CA 8780 8834 8666].
(** Lines 25605-26004 of the file. *)
Definition aes128_64 : list cg := [
  CA 8835 8836 8668; CA 8845 8846 8676; CX 8850 8481 8685; CX 8851 8483 8687; CA 8863 8824 8720; CX 8844 8889 8737; CX 8846 8890 8731; CI 8776 8791;
  CA 8896 8481 8632; CA 8897 8483 8478; CX 8686 8564 8691; CX 8898 8629 8789; CX 8899 8900 5653; CX 8901 8902 5655; CX 8903 8904 5840; CX 8905 8906 8751;
  CX 8907 8908 6227; CX 8909 8910 8753; CX 8911 8912 6045; CX 8913 8914 8749; CA 8917 8918 8759; CX 8889 8631 8843; CA 8933 8934 8736; CA 8935 8936 8601;
  CA 8939 8631 8599; CX 8941 8562 8742; CX 8889 8675 8790; CX 8890 8677 8841; CX 8946 8947 5620; CX 8948 8949 5622; CX 8954 8955 5798; CX 8956 8957 8807;
  CX 8964 8965 6206; CX 8966 8967 8813; CX 8968 8969 5998; CX 8970 8971 8805; CA 8972 8973 8852; CA 8974 8940 8854; CI 8481 8853; CI 8483 8855;
  CX 8917 8978 8820; CX 8978 8760 8861; CA 9007 8973 8684; CI 8686 8810; CX 5326 5165 6346; CX 5326 5167 6211; CX 5165 5167 6294; CX 5165 5238 6347;
  CX 5327 5167 7619; CX 5328 5167 7805; CX 5234 5050 6390; CX 5050 5053 6323; CX 5234 5053 6261; CX 5239 5050 6417; CX 5236 5053 7738; CX 7739 5051 6538;
  CX 5241 5053 7921; CX 5328 5327 7621; CX 5325 5238 7807; CX 8157 7655 8012; CX 8162 8163 8089; CX 8164 8165 8081; CX 8166 8167 8093; CI 5051 7116;
  CX 7986 5232 7922; CA 8239 8240 8018; CA 8239 8241 8013; CX 8242 7841 7848; CX 8243 8017 8010; CX 8244 7654 8014; CX 8020 8019 7850; CA 8245 8246 7566;
  CA 8245 8249 7948; CA 8164 8252 7951; CA 8164 8253 8112; CA 8261 8262 7945; CA 8162 8263 7941; CA 8261 8264 7563; CA 8162 8266 8103; CA 8267 8268 7955;
  CA 8267 8269 7570; CA 8166 8270 7959; CA 8166 8271 8058; CX 7761 7762 7740; CX 7764 7767 7742; CX 7769 7773 7746; CA 8289 8290 7482; CA 8289 8297 7697;
  CI 8117 8133; CI 5238 7911; CA 8327 8328 7568; CA 8165 8329 7970; CA 8327 8334 7765; CA 8335 8336 7571; CA 8163 8337 7964; CA 8163 8338 7965;
  CA 8339 8340 7564; CA 8339 8342 7760; CA 8343 8344 7572; CA 8165 8346 7971; CA 8167 8347 7973; CA 8167 8348 7974; CA 8335 8349 7770; CA 8343 8350 7771;
  CX 8355 8356 8181; CI 8158 8183; CX 8366 8360 8119; CX 8367 8364 8121; CX 8368 8369 7779; CX 8102 8369 7925; CX 8111 8372 7927; CX 8373 8372 7785;
  CX 8057 8374 7935; CX 8375 8374 7792; CX 8423 8424 8258; CX 8430 8426 8160; CX 8362 8431 8256; CA 8441 8442 7981; CA 8364 8443 7703; CA 8364 8444 7999;
  CA 8445 8446 7631; CA 8360 8447 7701; CA 8360 8448 8053; CA 8445 8449 8002; CA 8441 8454 7633; CX 8456 8356 8118; CX 8366 8457 8277; CX 8367 8458 8275;
  CA 8469 8470 7883; CA 8469 8474 8224; CA 8426 8497 7766; CA 8426 8498 8109; CX 8505 8424 8159; CX 8430 8506 8332; CX 8431 8381 8330; CA 8356 8537 8052;
  CA 8539 8540 7957; CA 8356 8542 8041; CA 8547 8548 7699; CA 8539 8549 8307; CA 8547 8552 8223; CI 8441 8299; CA 8424 8583 8056; CA 8424 8586 8100;
  CA 8587 8588 7774; CA 8587 8589 8306; CX 8599 8600 8351; CX 8601 8602 8353; CI 8458 8461; CI 8457 8464; CX 8628 8629 8380; CA 8642 8643 7634;
  CA 8642 8644 8153; CI 8428 8494; CX 8664 8665 8365; CX 8666 8667 8361; CX 8668 8669 8522; CI 8381 8525; CI 8506 8528; CX 8676 8677 8455;
  CI 8366 8533; CI 8367 8520; CX 8684 8685 8477; CX 8686 8687 8479; CX 8720 8721 8427; CI 8430 8579; CX 8730 8731 8358; CX 8736 8737 8357;
  CI 8642 8301; CI 8431 8581; CX 5840 8744 5517; CX 6045 8745 5520; CX 5653 8746 5519; CX 5655 8747 5521; CX 6227 8748 5526; CX 8749 8750 5533;
  CX 8751 8752 5531; CX 8753 8754 5838; CX 8759 8760 8459; CA 8786 8789 8626; CA 8790 8791 8630; CX 5798 8792 5483; CX 5998 8797 5485; CX 5620 8798 5484;
  CX 8799 5622 5486; CX 6206 8800 5487; CX 8805 8806 5491; CX 8807 8808 5489; CX 8740 8810 8635; CX 8813 8814 5796; CI 8685 8688; CI 8687 8690;
  CX 8819 8820 8489; CA 8841 8778 8680; CA 8843 8844 8674; CX 8684 8481 8743; CX 8810 8483 8741; CA 8852 8853 8476; CA 8854 8855 8634; CA 8860 8861 8712;
  CI 8684 8809; CX 7805 6346 6212; CX 6211 6347 6293; CX 7807 6346 6292; CX 7619 7807 6348; CX 7805 7807 6345; CX 6538 5239 6539; CX 7921 6390 6260;
  CX 6538 5234 6540; CX 6261 6417 6373; CX 7922 6390 6374; CX 7921 7922 6418; CX 7738 7922 6389; CA 6538 7986 7618; CX 7621 5166 6512; CX 7851 8010 7454;
  CX 8011 8012 7662; CX 8013 8014 7653; CX 8015 8010 7849; CX 8016 8014 7656; CX 8017 8012 7843; CX 8018 8019 7842; CX 8020 8013 7844; CI 6323 7547;
  CX 8054 7570 7936; CX 8057 7955 7938; CX 8058 7572 7960; CA 8081 8082 7954; CA 8089 8090 7963; CA 8089 8091 7944; CA 8081 8092 7969; CA 8093 8094 7972;
  CA 8093 8095 7961; CX 8097 7740 7777; CX 8099 7742 7787; CX 8101 7746 7794; CX 8102 7945 7923; CX 8103 7564 7942; CX 8106 7563 7926; CX 8108 7566 7928;
  CX 8111 7948 7932; CX 8112 7568 7952; CX 8117 8118 8032; CX 7965 7964 7795; CX 7971 7970 7781; CX 7974 7973 7790; CA 8133 8134 7996; CA 8133 8136 7821;
  CX 8158 8159 8086; CA 8181 8182 7481; CA 8183 8184 8000; CA 8181 8186 7885; CA 8183 8193 7888; CX 7700 7699 7672; CX 7633 7634 7625; CX 8223 8224 7640;
  CX 8224 8052 7864; CA 8256 8257 8105; CA 8258 8259 7569; CA 8258 8260 7956; CA 8256 8265 7947; CX 7772 7774 7748; CA 8275 8276 7485; CA 8277 8278 7483;
  CA 8277 8296 7696; CA 8275 8298 7702; CI 8119 8128; CX 8299 8301 8059; CI 8121 8125; CX 8306 8307 7727; CX 8056 8307 7939; CA 8330 8331 7414;
  CA 8332 8333 7567; CA 8330 8341 7635; CA 8332 8345 7763; CX 8351 8357 8113; CX 8358 8353 8115; CX 8360 8361 8170; CX 8364 8365 8168; CI 8160 8177;
  CI 8118 8210; CX 8301 8380 8195; CX 8426 8427 8250; CA 8353 8450 7694; CA 8353 8451 8049; CI 8159 8292; CX 8358 8455 8287; CX 8457 8361 8120;
  CX 8458 8365 8122; CA 8461 8462 8227; CA 8461 8463 7890; CA 8464 8465 8226; CA 8464 8466 7886; CX 8476 8477 8149; CX 8478 8479 8216; CX 8428 8489 8324;
  CA 8494 8495 7691; CA 8494 8496 8107; CX 8506 8427 8161; CA 8365 8518 8001; CA 8365 8519 8043; CA 8520 8521 7704; CA 8522 8523 8048; CA 8361 8524 7998;
  CA 8525 8526 8303; CA 8525 8527 7877; CA 8528 8529 8305; CA 8528 8530 7953; CA 8522 8531 8039; CA 8361 8532 8042; CA 8533 8534 7698; CA 8520 8535 8228;
  CA 8533 8538 8225; CI 8351 8376; CX 8553 5517 5392; CX 5838 8554 5394; CX 8555 5533 5396; CX 5531 8556 5395; CX 8557 5520 5401; CX 5519 8558 5400;
  CX 8559 5521 5402; CX 8560 5526 5407; CI 8380 8406; CX 8489 8459 8420; CA 8427 8577 8110; CA 8427 8578 8098; CA 8579 8580 7768; CA 8581 8582 7630;
  CA 8581 8584 8302; CA 8579 8585 8304; CX 8612 5483 5355; CX 5796 8615 5356; CX 5491 8616 5358; CX 5489 8617 5357; CX 8622 5485 5360; CX 5484 8623 5359;
  CX 8624 5486 5361; CX 8625 5487 5362; CX 8626 8627 8300; CI 8522 8363; CI 8455 8467; CX 8630 8631 8352; CX 8634 8635 8219; CX 8674 8675 8379;
  CX 8680 8681 8354; CI 8358 8545; CI 8357 8543; CA 8690 8691 8482; CX 8712 8713 8571; CI 8459 8573; CA 8740 8741 8563; CA 8742 8743 8561;
  CI 8489 8640; CX 8742 8809 8633; CX 8809 8562 8689; CX 7619 6292 7329; CX 6345 6512 6473; CX 6345 6347 7331; CX 6292 5166 6420; CX 7621 6292 6290;
  CA 6348 6346 7338; CA 6345 6347 7336; CA 6212 6211 7531; CA 6292 6293 7340; CX 7738 6374 7398; CX 6418 6538 6510; CX 6539 6323 6492; CX 6418 6417 7400;
  CX 6540 6390 6509; CX 6374 5051 6493; CX 7739 6374 6324; CA 6389 6390 7402; CA 6418 6417 7404; CA 6374 6373 7406; CA 6260 6261 7617; CA 6540 5051 7616;
  CX 6512 5238 6513; CX 6512 5326 6472; CX 7841 7842 7663; CX 7843 7841 7651; CX 7844 7841 7453; CX 7845 7842 7652; CX 7846 7842 7658; CX 7847 7842 7661;
  CX 7848 7849 7450; CX 7850 7849 7657; CX 7844 7843 7659; CX 7851 7653 7660; CA 6512 7911 7532; CX 7779 7923 7380; CX 7925 7926 7577; CX 7927 7928 7583;
  CX 7785 7932 7386; CX 7935 7936 7597; CX 7792 7938 7390; CX 7941 7942 7609; CX 7944 7942 7558; CX 7945 7926 7750; CX 7948 7928 7754; CX 7950 7932 7782].
(** Lines 26005-26404 of the file. *)
Definition aes128_65 : list cg := [
  CX 7951 7952 7585; CX 7954 7952 7560; CX 7955 7936 7758; CX 7958 7938 7791; CX 7959 7960 7601; CX 7961 7960 7562; CX 7962 7923 7778; CX 7963 7964 7741;
  CX 7965 7944 7759; CX 7969 7970 7743; CX 7971 7954 7752; CX 7972 7973 7747; CX 7974 7961 7756; CX 7996 7482 7820; CX 7997 7481 7865; CX 8000 7571 7889;
  CA 8032 8033 7819; CA 8032 8037 7906; CX 8041 7672 7718; CX 7885 8052 7861; CX 8055 7569 7940; CX 8056 7956 7937; CA 8086 8087 7891; CA 8086 8088 7975;
  CX 8100 7748 7793; CX 8105 7414 7813; CX 8119 8120 8025; CX 8121 8122 8023; CA 8125 8126 7984; CA 8059 8127 7824; CA 8128 8129 7995; CA 8128 8137 7822;
  CA 8125 8138 7827; CA 8059 8139 7982; CX 8160 8161 8083; CA 8168 8169 7484; CA 8170 8171 7480; CA 8168 8174 7887; CA 8170 8175 7884; CA 8177 8178 8051;
  CA 8113 8189 7871; CA 8177 8191 7879; CA 8113 8192 8046; CX 7701 7698 7670; CX 7703 7704 7674; CX 7631 7630 7623; CA 8195 8196 7632; CA 8195 8206 7416;
  CA 8210 8211 7905; CA 8210 8212 7907; CX 8216 8219 8063; CX 8225 8226 7639; CX 7998 8226 7862; CX 8001 8227 7867; CX 8228 8227 7643; CA 8250 8251 7565;
  CA 8250 8255 7949; CX 7766 7768 7744; CA 8287 8288 7479; CA 8292 8293 7976; CA 8292 8294 7977; CA 8287 8295 7693; CI 8115 8131; CX 8299 8300 8123;
  CX 8302 8303 7636; CX 8048 8303 7852; CX 8304 8305 7717; CX 8305 8110 7933; CX 8308 5394 5225; CX 8309 5396 5227; CX 5395 8310 5226; CX 8311 5401 5231;
  CX 8312 5392 5233; CX 8313 5402 5235; CX 8314 5400 5237; CX 5407 8315 5240; CA 8324 8325 8156; CA 8324 8326 7985; CX 8351 8352 8187; CX 8353 8354 8179;
  CX 8362 8363 8172; CA 8376 8377 8047; CA 8376 8378 7689; CX 8352 8379 8114; CX 8363 8381 8200; CI 8120 8202; CX 8300 8380 8060; CI 8122 8197;
  CX 8385 5356 5192; CX 8386 5358 5194; CX 5357 8387 5193; CX 8389 5360 5195; CX 8391 5355 5196; CX 5361 8393 5197; CX 8395 5359 5198; CX 5362 8396 5199;
  CA 8406 8407 7826; CA 8406 8408 8154; CI 8149 8231; CI 8216 8229; CA 8420 8421 7477; CA 8420 8422 7692; CX 8455 8354 8116; CX 8357 8379 8285;
  CI 8161 8282; CA 8467 8468 7881; CA 8467 8473 8222; CX 8482 8483 8217; CA 8354 8536 8050; CA 8354 8541 8040; CA 8543 8544 8220; CA 8545 8546 7695;
  CA 8543 8550 7688; CA 8545 8551 8221; CI 8300 8399; CX 8561 8562 8155; CX 8563 8564 8397; CI 8352 8411; CI 8219 8404; CA 8571 8572 8104;
  CA 8573 8574 7943; CA 8573 8575 8371; CA 8571 8576 8096; CI 8379 8471; CX 8632 8633 8218; CA 8640 8641 7690; CA 8640 8646 8370; CI 8571 8429;
  CA 8688 8689 8480; CX 8256 8200 7989; CX 6290 6294 7246; CA 6290 6294 7337; CX 7531 7338 7330; CX 7532 7336 7180; CX 7547 6324 7383; CX 6510 6509 7101;
  CA 6510 6509 7403; CA 6492 6493 7405; CA 6324 6323 7401; CX 7616 7406 7382; CX 7617 7402 7399; CX 7618 7404 7217; CX 6513 6294 6419; CX 6472 6346 6469;
  CX 7651 7652 7282; CX 7653 7652 7451; CX 7654 7652 7455; CX 7655 7652 7452; CX 7656 7657 7315; CX 7658 7659 7276; CX 7660 7661 7224; CX 7662 7663 7273;
  CA 6472 5166 7530; CX 7740 7741 7578; CX 7742 7743 7584; CX 7746 7747 7598; CX 7750 7740 7548; CX 7752 7742 7367; CX 7754 7742 7552; CX 7756 7746 7375;
  CX 7758 7746 7556; CX 7759 7740 7363; CX 7760 7741 7549; CX 7761 7741 7579; CX 7762 7741 7576; CX 7764 7743 7581; CX 7765 7743 7553; CX 7767 7743 7592;
  CX 7769 7747 7595; CX 7771 7747 7557; CX 7773 7747 7606; CX 7777 7778 7360; CX 7779 7558 7575; CX 7759 7750 7580; CX 7752 7754 7582; CX 7781 7782 7586;
  CX 7785 7560 7591; CX 7787 7782 7370; CX 7756 7758 7596; CX 7790 7791 7602; CX 7792 7562 7605; CX 7794 7791 7378; CX 7795 7778 7610; CX 7819 7820 7471;
  CX 7821 7820 7510; CX 7640 7861 7323; CX 7864 7865 7514; CX 7883 7861 7719; CX 7885 7865 7684; CX 7888 7889 7599; CX 7891 7889 7561; CX 7905 7819 7682;
  CX 7906 7907 7673; CX 7727 7937 7388; CX 7939 7940 7607; CX 7947 7813 7498; CX 7956 7940 7757; CX 7957 7937 7789; CX 7975 7976 7749; CX 7977 7891 7755;
  CX 7982 7416 7825; CX 7984 7485 7828; CA 7989 7990 7812; CA 7989 7992 7835; CX 7995 7483 7818; CX 7998 7884 7866; CX 7999 7484 7868; CX 8001 7887 7869;
  CX 7905 7907 7720; CA 8023 8024 7829; CA 8025 8026 7817; CA 8023 8028 7909; CA 8025 8029 7903; CX 8039 7623 7709; CX 8042 7670 7723; CX 8043 7674 7726;
  CX 8051 7567 7880; CX 8053 7480 7863; CX 8059 8060 7987; CX 7977 7976 7788; CA 8063 8064 7803; CA 8063 8067 7980; CX 5235 5240 7612; CX 8070 5227 5049;
  CX 8071 5226 5048; CX 8072 5225 5052; CX 5231 5237 7797; CA 8083 8084 7882; CA 8083 8085 7967; CX 8098 7744 7786; CX 8109 7565 7934; CX 7949 8110 7929;
  CX 8113 8114 8034; CX 8115 8116 8030; CA 8123 8124 7415; CA 8123 8130 7823; CA 8131 8132 7994; CA 8131 8135 7814; CX 5199 5197 7622; CX 8142 5194 5003;
  CX 5193 8143 5002; CX 8145 5192 5004; CX 5195 5198 7808; CX 7689 7688 7664; CX 8153 8154 7645; CX 8156 7477 7876; CA 8172 8173 7413; CA 8172 8176 7892;
  CA 8179 8180 7478; CA 8179 8185 7878; CA 8187 8188 7873; CA 8187 8190 7475; CX 7694 7695 7668; CA 8060 8194 7834; CA 8197 8198 7908; CA 8197 8199 7910;
  CA 8200 8201 7831; CA 8202 8203 7902; CA 8202 8204 7904; CA 8200 8205 7836; CA 8114 8213 7894; CA 8114 8214 7898; CA 8060 8215 7833; CX 8216 8217 8061;
  CX 8218 8149 8065; CX 8221 8222 7638; CX 8050 8222 7859; CA 8229 8230 7540; CA 8231 8232 7446; CA 8231 8233 7918; CA 8229 8234 7920; CI 5237 7837;
  CX 7691 7690 7666; CA 8282 8283 7966; CA 8282 8284 7968; CA 8285 8286 7476; CA 8285 8291 7687; CX 8218 8155 8146; CI 5194 7158; CI 5198 7912;
  CX 8370 8371 7708; CX 8371 8104 7930; CI 8116 8207; CA 8397 8398 7802; CA 8399 8400 7983; CA 8399 8401 8044; CA 8404 8405 7541; CA 8404 8410 8152;
  CA 8411 8412 8045; CA 8411 8413 7993; CA 8397 8414 8009; CI 8217 8236; CX 8428 8429 8247; CX 8429 8459 8279; CA 8471 8472 8151; CA 8471 8475 7870;
  CX 8480 8481 8316; CI 8155 8318; CI 8397 8235; CI 8218 8402; CX 8324 8279 8021; CX 7329 7330 7179; CX 7330 7331 7181; CX 7337 7338 7129;
  CX 7382 7383 7203; CX 7398 7399 7216; CX 7399 7400 7218; CX 7401 7402 7204; CX 7403 7404 7214; CX 7405 7406 7215; CX 6473 6469 7070; CX 7282 5517 6644;
  CX 5523 7224 6524; CX 5519 7224 6624; CX 5484 7224 6634; CX 5453 7224 6688; CX 7273 5520 6460; CX 7273 5485 6461; CX 7276 5454 6674; CX 7315 5527 6894;
  CX 7450 7451 7112; CX 7452 7453 7271; CX 7454 7455 7272; CA 6473 6469 7335; CA 6419 6420 7339; CX 7530 7340 7245; CX 7548 7549 7280; CX 7552 7553 6565;
  CX 7556 7557 7283; CX 7558 7549 7361; CX 7560 7553 7371; CX 7562 7557 7379; CX 7563 7549 7362; CX 7564 7549 7381; CX 7566 7553 7366; CX 7568 7553 7387;
  CX 7570 7557 7374; CX 7572 7557 7391; CX 7575 7576 7286; CX 7577 7578 7201; CX 7579 7580 7161; CX 7581 7582 7077; CX 7583 7584 6787; CX 7585 7586 7170;
  CX 7591 7592 6788; CX 7595 7596 7199; CX 7597 7598 7089; CX 7601 7602 7316; CX 7605 7606 7088; CX 7609 7610 7311; CI 7282 7394; CI 7315 7397;
  CI 7276 7395; CI 7273 7396; CX 7640 7471 7427; CX 7672 7673 7515; CX 7682 7672 7302; CX 7684 7672 7464; CX 7697 7673 7465; CX 7699 7673 7428;
  CX 7700 7673 7516; CX 7718 7719 7303; CX 7720 7719 7511; CX 7682 7684 7517; CX 7727 7561 7528; CX 7748 7749 7608; CX 7755 7748 7373; CX 7757 7748 7554;
  CX 7770 7749 7555; CX 7772 7749 7603; CX 7774 7749 7529; CX 7788 7789 7600; CX 7755 7757 7604; CX 7793 7789 7376; CX 7812 7813 7411; CX 7817 7818 7472;
  CX 7822 7818 7520; CX 7824 7825 7429; CX 7827 7828 7526; CX 7829 7828 7473; CX 7831 7812 7627; CX 7835 7836 7624; CX 7862 7863 7512; CX 7639 7866 7325;
  CX 7867 7868 7524; CX 7643 7869 7327; CX 7879 7880 7589; CX 7882 7880 7559; CX 7884 7863 7683; CX 7886 7866 7722; CX 7887 7868 7686; CX 7890 7869 7725;
  CX 7902 7817 7681; CX 7903 7904 7671; CX 7908 7829 7685; CX 7909 7910 7675; CX 7717 7929 7384; CX 7933 7934 7593; CX 7949 7934 7753; CX 7953 7929 7784].
(** Lines 26405-26804 of the file. *)
Definition aes128_66 : list cg := [
  CX 7966 7882 7751; CX 7967 7968 7745; CX 5233 5048 6307; CX 5048 5052 6282; CX 5233 5052 6200; CX 5048 5237 6308; CX 5235 5052 7611; CX 7612 5049 6475;
  CX 5240 5052 7796; CX 7981 7415 7811; CX 7983 7823 7809; CX 7985 7876 7573; CA 7987 7988 7832; CA 7987 7991 7830; CX 5196 5002 6351; CX 5002 5004 6289;
  CX 5196 5004 6215; CX 5002 5198 6343; CX 5197 5004 7620; CX 7622 5003 6514; CX 5199 5004 7806; CX 7993 7664 7707; CX 7994 7479 7815; CX 8002 7413 7853;
  CX 7898 7894 7705; CX 7831 7836 7711; CX 7902 7904 7721; CX 7834 7833 7641; CX 7908 7910 7724; CX 7540 7541 7536; CA 8021 8022 7875; CA 8021 8027 7895;
  CA 8030 8031 7816; CA 8034 8035 7893; CA 8030 8036 7900; CA 8034 8038 7874; CX 8040 7668 7716; CX 8044 7625 7644; CX 8045 7873 7857; CX 8046 7476 7872;
  CX 8047 7475 7855; CX 8048 7892 7856; CX 8049 7478 7860; CX 8050 7878 7858; CX 7966 7968 7783; CA 8061 8062 7351; CA 8065 8066 7978; CA 8065 8068 7801;
  CA 8061 8069 7804; CI 5003 7115; CX 8096 7666 7780; CA 8146 8147 7264; CA 8146 8148 7445; CX 8045 8151 7854; CX 8152 8009 7546; CX 7983 8154 7810;
  CA 8207 8208 7899; CA 8207 8209 7901; CX 8220 8151 7713; CX 8219 8235 8073; CX 8235 8217 8075; CA 8236 8237 7979; CA 8236 8238 7917; CA 8247 8248 7474;
  CA 8247 8254 7946; CA 8279 8280 7897; CA 8279 8281 7896; CA 8316 8317 7919; CA 8318 8319 8079; CA 8318 8320 7732; CA 8316 8321 7916; CA 8402 8403 7447;
  CA 8402 8409 8080; CI 8316 8150; CX 8063 8075 7913; CX 7180 7181 6873; CX 7203 7204 6655; CX 7214 7204 7100; CX 7215 7216 7099; CX 7217 7218 6937;
  CX 7245 7246 7128; CX 7112 7271 7032; CX 5399 7271 6814; CX 5395 7271 6678; CX 5357 7271 6680; CX 7272 7271 7013; CX 7112 5394 6690; CX 7273 7271 7030;
  CX 7335 7336 7177; CX 7339 7340 7178; CX 7170 7077 7007; CX 7170 6565 7081; CX 7360 7361 7153; CX 7362 7363 7154; CX 7366 7367 6998; CX 7370 7371 6587;
  CX 7374 7375 7198; CX 7378 7379 7036; CX 7380 7381 6746; CX 7386 7387 7001; CX 7390 7391 7202; CX 7394 5590 6899; CX 7394 5518 6527; CX 7395 5524 6932;
  CX 7396 5525 6672; CX 7395 5521 6912; CX 7397 5526 6927; CX 7397 5589 6910; CI 7112 7212; CI 7271 7211; CI 7272 7213; CX 7427 7428 7052;
  CX 7464 7465 7281; CX 7471 7465 7304; CX 7481 7465 7301; CX 7482 7465 7324; CX 7510 7511 7314; CX 7514 7515 7054; CX 7516 7517 7164; CX 7528 7529 7233;
  CX 7554 7555 7230; CX 7561 7555 7377; CX 7569 7555 7372; CX 7571 7555 7389; CX 7599 7600 7242; CX 7603 7604 7118; CX 7607 7608 7200; CX 7623 7624 7420;
  CX 7627 7623 7235; CX 7630 7624 7418; CX 7631 7624 7421; CX 7635 7624 7410; CX 7636 7411 7417; CX 7639 7472 7425; CX 7643 7473 7433; CX 7670 7671 7513;
  CX 7674 7675 7525; CX 7681 7670 7300; CX 7683 7670 7462; CX 7685 7674 7308; CX 7686 7674 7466; CX 7696 7671 7463; CX 7698 7671 7426; CX 7701 7671 7518;
  CX 7702 7675 7467; CX 7703 7675 7522; CX 7704 7675 7434; CX 7717 7559 7506; CX 7681 7683 7519; CX 7721 7722 7521; CX 7723 7722 7305; CX 7685 7686 7523;
  CX 7724 7725 7527; CX 7726 7725 7309; CX 7744 7745 7594; CX 7751 7744 7365; CX 7753 7744 7550; CX 7763 7745 7551; CX 7766 7745 7587; CX 7768 7745 7507;
  CX 7751 7753 7588; CX 7783 7784 7590; CX 7786 7784 7368; CX 6475 5237 6476; CX 7796 6307 6201; CX 6475 5233 6435; CX 6200 6308 6281; CX 7797 6307 6280;
  CX 7796 7797 6306; CX 7611 7797 6309; CX 6514 5198 6511; CX 7806 6351 6214; CX 6514 5196 6468; CX 6215 6343 6296; CX 7808 6351 6297; CX 7806 7808 6350;
  CX 7620 7808 6349; CX 7645 7809 7249; CX 7810 7811 7437; CX 7814 7815 7504; CX 7816 7815 7470; CX 7823 7811 7629; CX 7826 7809 7642; CX 7830 7825 7412;
  CX 7832 7833 7626; CX 7834 7830 7628; CA 6475 7837 7441; CX 7852 7853 7419; CX 7854 7855 7492; CX 7636 7856 7243; CX 7713 7857 7317; CX 7638 7858 7321;
  CX 7859 7860 7508; CX 7870 7857 7706; CX 7871 7872 7486; CX 7873 7855 7676; CX 7874 7872 7468; CX 7875 7876 7469; CX 7877 7856 7710; CX 7878 7860 7680;
  CX 7881 7858 7715; CX 7892 7853 7637; CX 7893 7894 7665; CX 7895 7896 7667; CX 7897 7875 7677; CX 7898 7874 7678; CX 7899 7816 7679; CX 7900 7901 7669;
  CA 6514 7912 7535; CA 7913 7914 7733; CA 7913 7915 7735; CX 7917 7536 7613; CX 7920 7351 7800; CX 7978 7264 7647; CX 7979 7804 7798; CX 7899 7901 7714;
  CX 7446 7447 7442; CX 7979 8009 7799; CX 7897 7896 7775; CA 8073 8074 7350; CA 8075 8076 7736; CA 8073 8077 7539; CA 8075 8078 7737; CX 7919 8079 7728;
  CX 8080 8079 7449; CX 7946 8104 7924; CX 8107 7474 7931; CX 8149 8150 8003; CX 8150 8155 8006; CX 8065 8006 7838; CA 7099 6655 7012; CX 7100 7101 6657;
  CX 7128 7129 6542; CX 5522 7013 6526; CX 7032 5588 6675; CX 7030 5587 6530; CA 7099 6937 6717; CI 6655 7091; CX 7177 7129 7069; CX 7178 7179 6940;
  CX 6587 6998 6780; CX 6746 7154 7018; CX 7153 7154 7025; CX 7001 6998 6774; CX 7036 7198 7034; CX 6587 6788 6789; CX 7077 6998 6775; CX 6787 6998 6779;
  CX 7199 7198 6954; CX 7201 7154 6826; CX 7089 7198 7033; CX 7202 7198 6946; CI 7099 7085; CX 7211 5455 6666; CX 7212 5397 6858; CX 7213 5398 6669;
  CX 7213 5358 6667; CX 7052 7224 6909; CX 7276 7164 6914; CX 7281 7282 7043; CX 7233 7088 6753; CI 7154 7102; CX 7301 7302 7147; CX 7303 7304 6965;
  CI 7198 7015; CX 7314 7315 7084; CX 7323 7324 7166; CX 7118 7199 7120; CX 7200 7089 6433; CX 7283 7230 6748; CX 7372 7373 7110; CX 7376 7377 7109;
  CX 7316 7242 7121; CX 7388 7389 6840; CX 7411 7410 7237; CX 7413 7410 7234; CX 7414 7410 7244; CX 7417 7418 7222; CX 7419 7420 7117; CX 7425 7426 7189;
  CX 7433 7434 7225; CX 7462 7463 7188; CX 7466 7467 7275; CX 7472 7463 7306; CX 7473 7467 7310; CX 7480 7463 7299; CX 7483 7463 7326; CX 7484 7467 7307;
  CX 7485 7467 7328; CX 7506 7507 7087; CX 7512 7513 7163; CX 7518 7519 7076; CX 7520 7521 7208; CX 7522 7523 7277; CX 7524 7525 7160; CX 7526 7527 7285;
  CX 7550 7551 7138; CX 7559 7551 7369; CX 7565 7551 7364; CX 7567 7551 7385; CX 7587 7588 6907; CX 7589 7590 7195; CX 7593 7594 7090; CX 7611 6280 7251;
  CX 6306 6475 6437; CX 6476 6282 6400; CX 6306 6308 7253; CX 6435 6307 6436; CX 6280 5049 6401; CX 7612 6280 6278; CX 7620 6297 7332; CX 6350 6514 6471;
  CX 6511 6289 6421; CX 6350 6343 7334; CX 6468 6351 6470; CX 6297 5003 6422; CX 7622 6297 6288; CX 7625 7626 7438; CX 7628 7625 7239; CX 7629 7625 7407;
  CX 7632 7626 7408; CX 7633 7626 7431; CX 7634 7626 7436; CX 7627 7637 7422; CX 7638 7470 7423; CX 7641 7642 7430; CX 7628 7629 7432; CX 7642 7644 7240;
  CX 7645 7412 7435; CA 6309 6307 7255; CA 6306 6308 7257; CA 6280 6281 7259; CA 6435 5049 7439; CA 6201 6200 7440; CX 7664 7665 7493; CX 7666 7667 7497;
  CX 7668 7669 7509; CX 7676 7664 7456; CX 7677 7666 7292; CX 7678 7664 7294; CX 7679 7668 7296; CX 7680 7668 7460; CX 7637 7623 7409; CX 7687 7665 7457;
  CX 7688 7665 7489; CX 7689 7665 7490; CX 7690 7667 7495; CX 7691 7667 7500; CX 7692 7667 7459; CX 7693 7669 7461; CX 7694 7669 7502; CX 7695 7669 7424;
  CX 7705 7706 7487; CX 7707 7706 7287; CX 7678 7676 7491; CX 7708 7469 7494; CX 7709 7710 7236; CX 7711 7710 7499; CX 7713 7468 7488; CX 7679 7680 7503;
  CX 7714 7715 7505; CX 7716 7715 7297; CA 6349 6351 7342; CA 6350 6343 7344; CA 6297 6296 7346; CA 6468 5003 7533; CA 6214 6215 7534; CX 7735 7736 7537;
  CX 7737 7733 7538; CX 7546 7798 7196; CX 7799 7800 7356; CX 7801 7647 7352; CX 7802 7798 7614; CX 7804 7800 7545; CA 7838 7839 7646; CA 7838 7840 7649;
  CX 7916 7442 7544; CX 7737 7736 7615; CX 7708 7924 7319; CX 7930 7931 7496; CX 7943 7924 7776; CX 7946 7931 7712; CX 7980 7350 7734; CA 8003 8004 7263;
  CA 8003 8005 7731; CA 8006 8007 7648; CA 8006 8008 7650; CX 6937 6657 6718; CX 6717 6657 6805; CX 6940 6542 6707; CA 7012 6657 6703; CA 6542 6873 6875;
  CX 7069 7070 6546; CX 7085 6655 6806; CX 6779 6565 6921; CX 6788 6774 6922; CX 6780 6787 6816; CX 7088 6946 6915; CX 7034 7089 6917; CA 7091 6937 6938].
(** Lines 26805-27204 of the file. *)
Definition aes128_67 : list cg := [
  CI 6657 6939; CA 6940 6873 6658; CI 6542 6994; CI 6717 6925; CX 6965 7147 7031; CX 7054 7147 7029; CX 7164 7147 6890; CX 7166 7147 6884;
  CX 7109 7036 6983; CX 6840 7110 6947; CX 7109 7110 6958; CX 7200 7110 6920; CX 7202 6840 6930; CX 7088 7225 6984; CX 5359 7225 6696; CX 5404 7225 6561;
  CX 5400 7225 6626; CX 5322 7225 6758; CX 7222 5237 6559; CX 7222 5198 6630; CX 7222 5239 6632; CX 7222 5167 6845; CX 5231 7117 6431; CX 5195 7117 6458;
  CX 5232 7117 6828; CX 7189 7052 6685; CX 7234 7235 7106; CX 7236 7237 7105; CI 7147 7098; CX 7243 7244 7111; CX 5458 7275 6972; CX 5393 7275 6569;
  CX 5392 7275 6646; CX 7076 7164 7079; CX 7163 7054 6370; CI 6433 6432; CX 7277 7199 6931; CX 7160 5360 6500; CX 7160 5401 6459; CX 7277 5323 6738;
  CX 7283 7275 7086; CX 7188 7281 6682; CX 7285 5408 6970; CX 7285 5407 6974; CX 7299 7300 7073; CX 7305 7306 7075; CX 7307 7308 7152; CI 7110 7093;
  CX 7309 7310 7151; CX 7316 7285 7127; CI 7121 7174; CX 7208 7314 7080; CX 7325 7326 6936; CX 7327 7328 7156; CX 7364 7365 7000; CX 7368 7369 6783;
  CX 7384 7385 7008; CX 6278 6282 7210; CX 6437 6436 6997; CX 6288 6289 7248; CX 6471 6470 7072; CX 7407 7408 6700; CX 7409 7410 7220; CX 7412 7408 7241;
  CX 7415 7408 7238; CX 7416 7408 7250; CX 7421 7422 7221; CX 7423 7424 7223; CI 7277 7227; CI 7160 7228; CX 7429 7430 7167; CI 7285 7231;
  CX 7431 7432 7048; CX 7435 7436 6966; CX 7437 7438 6977; CA 6278 6282 7254; CA 6437 6436 7256; CA 6400 6401 7258; CX 7439 7259 7209; CX 7440 7255 7252;
  CX 7441 7257 7135; CX 7456 7457 6638; CX 7460 7461 7274; CX 7468 7457 7288; CX 7469 7459 7290; CX 7470 7461 7298; CX 7474 7459 7291; CX 7475 7457 7293;
  CX 7476 7457 7318; CX 7477 7459 7320; CX 7478 7461 7295; CX 7479 7461 7322; CX 7486 7487 7279; CX 7488 7489 7039; CX 7490 7491 6976; CX 7492 7493 7046;
  CX 7494 7495 7051; CX 7496 7497 7053; CX 7498 7499 7312; CX 7502 7503 7278; CX 7504 7505 7284; CX 7508 7509 7159; CA 6288 6289 7341; CA 6471 6470 7343;
  CA 6421 6422 7345; CX 7533 7346 7247; CX 7534 7342 7333; CX 7535 7344 7185; CX 7536 7537 7357; CX 7538 7536 7193; CX 7539 7537 7348; CX 7540 7537 7354;
  CX 7541 7537 7359; CX 7538 7545 7355; CX 7545 7536 7347; CX 7613 7614 7190; CX 7615 7614 7393; CX 7646 7647 7262; CX 7648 7646 7444; CX 7649 7650 7443;
  CX 7677 7712 7501; CX 7733 7734 7349; CX 7712 7666 7458; CX 7775 7776 7574; CX 7780 7776 7289; CX 7803 7734 7392; CX 7648 7650 7542; CX 7918 7263 7729;
  CX 7919 7731 7730; CX 6717 6718 6553; CX 6658 6707 6577; CA 6805 6806 6654; CX 6873 6546 6659; CX 6658 6546 6706; CX 6806 6925 6704; CX 6658 6542 6705;
  CA 6938 6939 6552; CX 6925 6655 6804; CA 6940 6994 6879; CI 6546 6876; CX 6884 7013 6865; CX 7029 7030 6850; CX 7031 7032 6867; CX 7043 7029 6829;
  CX 7052 6884 6833; CX 7054 7031 6831; CX 7086 7033 6919; CX 6958 6977 6918; CX 7025 7046 6822; CX 7018 7039 6818; CX 6947 6966 6916; CX 7098 7013 6935;
  CX 7105 7106 6950; CX 5048 7106 6732; CX 5002 7106 6820; CX 5050 7106 6742; CX 7111 7106 6943; CX 7112 6685 6964; CX 7105 5052 6847; CX 7105 5053 6860;
  CX 7115 7111 6810; CX 7116 7111 6744; CX 7117 7106 6951; CX 7147 7073 6889; CX 7015 7093 6960; CX 7151 7152 7023; CX 7075 6965 6905; CX 5229 7152 6824;
  CX 5193 7152 6734; CX 5226 7152 6714; CX 7075 7073 6886; CX 6936 7073 6881; CX 7156 7152 7014; CX 7151 6753 7035; CX 7151 5225 6760; CX 7157 7156 6712;
  CX 7158 7156 6721; CX 7160 7152 7024; CX 7163 7073 6830; CX 7166 6936 6893; CX 7127 7167 7065; CX 7174 6931 7047; CX 6783 7000 7038; CX 7090 7000 7037;
  CX 7008 7000 6772; CI 7106 7094; CX 7209 7210 7096; CX 7220 5233 6567; CX 7220 5234 6650; CI 6370 6409; CX 7118 7048 7062; CX 7200 6977 6872;
  CX 7051 7222 7056; CX 7087 7223 6797; CX 7223 5651 6486; CX 5927 7223 6610; CX 7227 5406 6992; CX 7228 5405 6736; CX 7227 5402 6990; CX 7221 5165 6728;
  CX 7167 7048 7119; CX 7230 6700 6853; CX 7167 6700 7123; CX 7231 5456 6988; CX 7233 6966 6870; CI 7152 7108; CX 7238 7239 7104; CI 7151 7114;
  CX 7240 7241 6812; CX 7242 7167 7126; CX 7247 7248 7130; CI 7080 7124; CX 7249 7250 6652; CX 7251 7252 7134; CX 7252 7253 7136; CX 7254 7255 7097;
  CX 7256 7257 7132; CX 7258 7259 7133; CX 6253 7274 6896; CX 5840 7274 6642; CX 7201 7053 6467; CX 7161 6976 6989; CX 7201 7046 6766; CX 6907 7278 6799;
  CX 5622 7278 6692; CX 5655 7278 6801; CX 5592 7278 6592; CX 6045 7159 6463; CX 5998 7159 6315; CX 6043 7159 6602; CX 7279 6976 7172; CX 7280 6638 6756;
  CX 7138 7274 7083; CX 7279 6638 7176; CX 6227 7284 6901; CX 6225 7284 6785; CX 5747 7284 6794; CX 7286 7051 6842; CX 7286 7039 6764; CX 7287 7288 6724;
  CX 7289 7290 6963; CX 7291 7292 7155; CX 7293 7294 7149; CX 7295 7296 7148; CX 7297 7298 7004; CX 7311 7279 7125; CX 7195 7284 7011; CX 7317 7318 6573;
  CX 7319 7320 7165; CX 7321 7322 7150; CX 7332 7333 7184; CX 7333 7334 7186; CX 7341 7342 7131; CX 7343 7344 7182; CX 7345 7346 7183; CX 7347 7348 6640;
  CX 7349 7348 7191; CX 7350 7348 7197; CX 7351 7348 7192; CX 7354 7355 6979; CX 7356 7357 6902; CI 7220 7205; CI 7221 7207; CI 7223 7206;
  CX 7392 7393 7187; CI 7274 7219; CI 7279 7168; CI 7312 7232; CI 7278 7226; CX 7442 7443 7268; CX 7444 7442 7142; CX 7445 7443 7261;
  CX 7446 7443 7265; CX 7447 7443 7270; CX 7449 7262 7269; CX 7458 7459 7229; CX 7500 7501 7162; CX 7546 7349 7358; CX 7573 7574 7313; CX 7728 7729 7267;
  CX 7449 7730 7145; CX 7731 7729 7448; CX 7732 7730 7543; CX 6552 6553 6438; CX 6654 6655 6494; CX 6658 6659 6516; CX 6703 6704 6440; CA 6705 6659 6545;
  CA 6706 6707 6541; CA 6804 6718 6656; CX 6829 6830 6639; CA 6875 6876 6515; CA 6879 6546 6576; CX 6915 6916 6695; CX 6917 6918 6385; CX 6919 6920 6699;
  CX 6935 6936 6715; CX 6943 5238 6628; CX 6950 5325 6729; CX 6951 5326 6647; CX 6964 6965 6725; CX 6946 7014 6869; CX 5403 7014 6563; CX 7015 7014 6839;
  CX 7023 5457 6739; CX 7024 5452 6571; CX 7033 7024 6852; CX 7034 7023 6871; CX 7035 7036 6811; CX 7047 7048 6861; CX 6886 6902 6832; CX 6960 7062 6823;
  CX 7065 6748 6855; CX 7083 7037 6750; CX 7087 6772 6595; CX 7090 7038 6605; CX 6983 6870 6923; CX 7094 5166 6808; CX 7096 7097 6532; CX 6812 7104 6959;
  CX 7108 5324 6720; CX 7109 6812 6985; CX 6652 7110 6945; CX 6652 7104 6948; CX 6842 7105 6962; CX 7114 5228 6924; CX 6966 6812 6982; CX 7048 7104 6961;
  CX 6977 7104 6949; CX 7118 7104 6955; CX 7119 7120 6987; CX 7121 6853 6969; CX 7123 7121 6971; CX 7124 6914 6978; CX 7120 7126 6993; CX 7086 7126 6973;
  CX 7127 7062 6991; CX 7130 7131 6544; CX 7132 7097 6996; CX 7133 7134 6926; CX 7135 7136 6767; CX 7000 7148 6778; CX 6724 7149 7026; CX 7004 7148 7021;
  CX 7150 7148 7016; CX 7153 6963 7050; CX 5594 7148 6583; CX 5531 7148 6594; CX 7153 6724 7055; CX 6573 7149 7019; CX 6573 7154 7017; CX 6963 7155 6957;
  CX 5838 7004 6612; CX 7150 5533 6590; CX 7150 5491 6585; CX 5835 7004 6614; CX 6724 7039 7049; CX 6976 7149 6953; CX 7046 7149 7020; CX 7159 7148 7022;
  CX 7053 7155 6956; CX 7161 7149 7028; CX 7162 7155 7027; CX 7165 6746 6981; CX 7165 7155 6942; CX 7011 7170 7068; CX 7182 7131 7071; CX 7183 7184 6941;
  CX 7185 7186 6874; CX 7076 6979 7061; CX 7163 6902 6868; CX 7187 6979 7078; CX 7188 6640 6851; CX 7187 6640 7082; CX 7190 7191 6726; CX 7192 7193 7074;
  CX 7196 7197 6716; CX 7205 5328 7045; CX 5620 7206 6488; CX 5653 7206 6636; CX 7207 5235 7059; CX 7207 5236 7063; CI 7104 7092; CX 7208 7187 7095;
  CX 7219 5837 6490; CX 7221 7162 6986; CX 7226 5657 6796; CX 7229 7220 7040; CX 7232 5240 6967; CX 7232 5241 7041; CX 7232 5327 7058; CI 7155 6944;
  CI 7149 7103; CI 7148 7107; CI 7150 7113; CX 7262 7261 7144; CX 7263 7261 7141; CX 7264 7261 7146; CX 7267 7268 7006; CX 7269 7270 7140].
(** Lines 27205-27604 of the file. *)
Definition aes128_68 : list cg := [
  CX 7161 7162 7173; CX 7280 7229 6836; CX 7312 7313 7169; CI 7187 7171; CX 7358 7359 6892; CX 7311 7313 7175; CX 7444 7448 7266; CX 7448 7442 7260;
  CX 7542 7543 7353; CX 7544 7543 7143; CX 6440 6438 6320; CA 6438 6492 6104; CA 6438 6493 6272; CX 6440 6494 6416; CX 6515 6516 6392; CX 6541 6542 6425;
  CX 6545 6546 6393; CI 6494 6508; CX 6576 6577 6396; CX 6639 6640 6504; CX 6656 6657 6439; CI 6440 6537; CX 6695 6696 6415; CX 6699 6700 6535;
  CX 6715 6716 6551; CX 6725 6726 6574; CX 6811 6812 6653; CX 6823 6824 6429; CX 6831 6832 6341; CX 6839 6840 6651; CX 6850 6851 6643; CX 6852 6853 6645;
  CX 6855 5362 6502; CX 6861 5361 6501; CX 6867 6868 6334; CX 6869 6870 6625; CX 6871 6872 6337; CX 6923 6924 6448; CX 6926 6532 6664; CX 6941 6544 6710;
  CX 6942 6943 6763; CX 6944 6943 6745; CX 6945 6946 6722; CX 6947 6948 6752; CX 6949 6700 6749; CX 6954 6955 6733; CX 6956 6951 6755; CX 6957 6950 6765;
  CX 6920 6949 6747; CX 6958 6959 6735; CX 6960 6961 6737; CX 6962 6963 6723; CX 6966 6948 6754; CX 6930 6948 6719; CX 6969 6970 6694; CX 6971 6972 6556;
  CX 6973 6974 6557; CX 6959 6977 6740; CX 6978 6979 6761; CX 6982 6983 6757; CX 6984 6985 6759; CX 6987 6988 6554; CX 6990 6991 6555; CX 6992 6993 6693;
  CA 6532 6767 6768; CX 6996 6997 6534; CX 7016 6772 6862; CX 7017 6942 6809; CX 7018 7019 6843; CX 7020 6638 6835; CX 6097 7021 6815; CX 7016 5698 6698;
  CX 5929 7022 6702; CX 7025 7026 6827; CX 7027 7028 6819; CX 6826 7020 6838; CX 7037 7022 6848; CX 7038 7021 6863; CX 7039 7019 6841; CX 6981 7019 6807;
  CX 7040 6956 6825; CX 7026 7046 6730; CX 6881 6892 6834; CX 7049 7050 6844; CX 7051 6942 6817; CX 6957 7053 6821; CX 7055 7056 6846; CX 7061 6889 6813;
  CX 6764 7050 6859; CX 7068 6206 6837; CA 6544 6874 6877; CX 7071 7072 6548; CA 6926 6767 6580; CX 7073 7074 6903; CX 6726 7074 6887; CX 7075 6726 6908;
  CX 6716 7074 6882; CX 6716 7073 6883; CX 6726 6892 6904; CX 6979 7074 6888; CX 6902 7074 6885; CX 7076 7074 6891; CX 7078 7079 6911; CX 6851 7080 6895;
  CX 7082 7080 6898; CX 7061 7084 6913; CI 6532 6934; CA 6941 6874 6660; CX 7092 7093 6929; CX 7095 7079 6933; CX 7095 7043 6928; CI 6544 6995;
  CX 6944 7102 6952; CX 7103 7102 6980; CX 7107 5535 6598; CX 7113 5529 6600; CX 7125 7040 6968; CX 7090 7006 6317; CX 7006 6787 6864; CX 7140 7087 6608;
  CX 7140 6788 6803; CX 7141 7142 6999; CX 7143 7144 7003; CX 7145 7146 7002; CX 7168 7169 7066; CX 7171 7084 7067; CX 7172 7173 7057; CX 6756 7175 7042;
  CX 7176 7175 7044; CX 7169 6989 7060; CX 7125 7173 7064; CX 7189 6892 6866; CX 7260 7261 7137; CX 7265 7266 7139; CI 7175 7122; CX 7352 7353 7194;
  CX 6392 6393 6291; CX 6392 6396 6274; CA 6416 6417 5933; CA 6416 6418 6102; CI 6320 6322; CA 6392 6419 6056; CA 6392 6420 6232; CX 6425 6393 6275;
  CX 6396 6425 6344; CX 6438 6439 6372; CA 6425 6469 6156; CA 6393 6472 6223; CA 6393 5166 6231; CA 6425 6473 6358; CX 6494 6439 6321; CX 6504 5483 6328;
  CA 6508 6509 6194; CA 6508 6510 6398; CA 6396 6512 6055; CA 6396 6513 6357; CX 6535 5355 6378; CA 6537 6538 6103; CA 6537 6539 6399; CA 6439 6540 6270;
  CA 6439 5051 6271; CX 6551 5396 5111; CX 6574 5356 6380; CX 6429 6448 4706; CX 6501 6502 6190; CX 6625 6626 6287; CI 6415 6375; CX 6643 6644 6319;
  CX 6645 6646 6265; CX 6651 6652 6503; CX 6653 5192 6414; CX 6693 6448 6145; CX 6694 6448 6220; CX 6580 6664 6550; CX 6693 6694 6147; CX 6554 6556 6148;
  CX 6555 6557 6178; CX 6719 6720 5066; CX 6721 6722 5170; CX 6723 6724 6575; CX 6729 6730 6330; CX 6733 6734 6413; CX 6735 6736 6299; CX 6737 6738 6430;
  CX 6739 6740 6300; CX 6745 6746 6572; CX 6747 6748 6568; CX 6749 6748 6570; CX 6752 6753 6560; CX 6754 6753 6562; CX 6755 6756 6566; CX 6757 6758 6449;
  CX 6759 6760 6498; CX 6761 5486 6462; CX 6763 6764 6558; CX 6765 6766 6302; CX 6660 6710 6579; CX 6767 6534 6581; CX 6580 6534 6663; CX 6807 6808 5132;
  CX 6809 6810 5131; CX 6813 6814 6405; CX 6815 6816 6383; CX 6817 6818 6629; CX 6819 6820 6376; CX 6821 6822 6339; CX 6825 6826 6637; CX 6827 6828 6381;
  CX 6833 6834 6633; CX 6835 6836 6648; CX 6838 6836 6649; CX 6841 6842 6627; CX 6843 6842 6631; CX 6844 6845 6496; CX 6846 6847 6444; CX 6859 6860 6497;
  CX 6862 6803 6635; CX 6863 6864 6332; CX 6865 6866 6623; CX 6874 6548 6661; CX 6660 6548 6709; CX 6881 6882 6684; CX 6883 6884 6668; CX 6885 6640 6683;
  CX 6885 6830 6681; CX 6886 6887 6671; CX 6888 6889 6673; CX 6890 6891 6679; CX 6892 6882 6686; CX 6893 6882 6665; CX 6894 6895 6622; CX 6898 6899 6521;
  CX 6887 6902 6676; CX 6893 6903 6670; CX 6904 6905 6687; CX 6908 6909 6689; CX 6910 6911 6519; CX 6912 6913 6520; CX 6914 6903 6677; CX 6580 6532 6662;
  CX 6922 6608 6697; CX 6927 6928 6522; CX 6929 6930 6711; CX 6929 6931 6713; CX 6660 6544 6708; CX 6932 6933 6621; CA 6926 6934 6770; CI 6534 6769;
  CX 6952 6953 6727; CX 6967 6968 6618; CX 6980 6981 6743; CX 6980 6986 6731; CX 6952 6989 6741; CA 6941 6995 6880; CI 6548 6878; CX 6998 6999 6792;
  CX 7000 6999 6776; CX 7001 7002 6791; CX 7003 6783 6790; CX 7003 6587 6798; CX 7001 6999 6771; CX 7002 6999 6773; CX 7003 6999 6781; CX 6608 7004 6782;
  CX 7006 6999 6751; CX 7008 7002 6784; CX 7041 7042 6619; CX 7044 7045 6620; CX 7057 7058 6615; CX 7059 7060 6616; CX 6866 6905 6857; CX 7063 7064 6617;
  CX 7066 6836 6856; CX 7067 6682 6854; CX 7122 6986 6975; CX 7137 6565 6849; CX 7138 7137 6604; CX 7139 6907 7005; CX 7139 7077 6802; CX 7194 7170 7010;
  CX 7195 7194 7009; CX 6274 6275 6210; CA 6274 6290 6230; CA 6291 6292 6157; CA 6291 6293 5846; CA 6274 6294 6226; CX 6056 6055 6050; CX 6320 6321 6259;
  CA 6322 6323 6252; CA 6322 6324 6254; CA 6344 6345 6054; CA 6275 6346 6160; CA 6344 6347 5847; CA 6275 6348 6161; CX 6357 6358 6066; CX 6358 6231 5678;
  CA 6372 6373 5932; CA 6372 6374 6195; CX 6328 6380 4631; CX 6104 6103 6100; CX 6398 6271 5760; CX 6399 6398 6083; CX 6413 6378 4907; CX 6378 6414 4679;
  CI 6321 6388; CX 6462 6380 6176; CX 6413 6414 4831; CX 6265 6498 4632; CX 6413 6375 4962; CX 6500 6375 6386; CX 6190 5170 5173; CX 6501 6414 6188;
  CX 6502 6414 6267; CX 6503 5227 5119; CX 6430 6449 4712; CX 6148 5066 5072; CX 6554 6449 6146; CX 6555 6498 6174; CX 6556 6449 6221; CX 6557 6498 6245;
  CX 6558 6559 6273; CI 6287 6262; CX 6560 6561 6474; CX 6562 6563 6507; CX 6566 6567 6239; CX 6568 6569 6428; CX 6570 6571 6447; CX 6572 6573 6465;
  CX 6575 5004 6377; CX 6580 6581 6478; CX 6615 6496 6169; CX 6616 6444 6143; CX 6617 6497 6185; CX 6618 6444 6217; CX 6619 6497 6264; CX 6620 6496 6242;
  CX 6623 6624 6371; CX 6627 6628 6536; CX 6629 6630 6391; CX 6631 6632 6506; CX 6633 6634 6387; CX 6635 6636 6411; CX 6637 6638 6505; CX 6647 6648 6495;
  CX 6649 6650 6443; CX 6660 6661 6518; CA 6662 6581 6533; CA 6663 6664 6531; CX 6622 6621 6125; CX 6519 6521 6094; CX 6520 6522 6179; CX 6665 6666 4943;
  CX 6667 6668 5112; CX 6669 6670 5005; CX 6671 6672 6285; CX 6673 6674 6367; CX 6675 6676 6257; CX 6677 6678 6457; CX 6679 6680 6379; CX 6681 6682 6528;
  CX 6683 6682 6529; CX 6684 6685 6523; CX 6686 6685 6525; CX 6687 6688 6407; CX 6689 6690 6499; CX 6697 6698 6412; CA 6708 6661 6547; CA 6709 6710 6543;
  CX 6711 6712 4946; CX 6713 6714 6455; CX 6616 6618 6144; CX 6727 6728 6445; CX 6731 6732 6427; CX 6741 6742 6446; CX 6743 6744 5176; CX 6750 6751 6564;
  CA 6768 6769 6477; CA 6770 6534 6549; CX 6771 6772 6584; CX 6773 6774 6607; CX 6775 6776 6591; CX 6779 6751 6603; CX 6780 6781 6601; CX 6782 6783 6586;
  CX 6784 6774 6582; CX 6781 6787 6606; CX 6773 6788 6596; CX 6789 6790 6609; CX 6791 6778 6589; CX 6784 6792 6599; CX 6797 6798 6611; CX 6799 6792 6593;
  CX 6802 6776 6597; CX 6803 6790 6613; CX 6620 6615 6171; CX 6617 6619 6186; CX 6837 6604 6369; CX 6848 6849 6641; CX 6854 5487 6464; CX 6856 5199 6456].
(** Lines 27605-28004 of the file. *)
Definition aes128_69 : list cg := [
  CX 6857 6858 6408; CA 6877 6878 6517; CA 6880 6548 6578; CX 6921 6604 6701; CX 6975 6976 6762; CX 7005 6998 6777; CX 7007 7005 6793; CX 6849 7009 6786;
  CX 7010 7005 6795; CX 6802 7011 6800; CX 7009 7077 6906; CX 7081 7009 6897; CX 7010 7083 6900; CA 6210 6211 6159; CA 6210 6212 6155; CX 6223 6050 5539;
  CX 6226 6227 5854; CX 6230 5847 6065; CX 6157 6231 6152; CX 6232 5846 6150; CX 6252 6253 5939; CX 6254 5933 6105; CX 6161 6160 5676; CA 6259 6260 6182;
  CA 6259 6261 6196; CX 6270 6100 5596; CX 6195 6271 6193; CX 6272 5932 6192; CX 4679 4962 4887; CX 6267 4907 4678; CX 5173 6375 5175; CX 6378 5173 5171;
  CX 6379 6328 4843; CX 6178 5119 5125; CX 6385 6386 6266; CA 6388 6389 6198; CA 6388 6390 6197; CA 5173 6415 6135; CX 6179 5111 5118; CX 6239 6427 4780;
  CX 6239 6444 4585; CX 6376 6377 4765; CX 6428 6429 4718; CX 6430 6447 4777; CI 4831 6095; CX 6428 6448 4577; CX 6447 6449 4582; CX 6447 5072 5070;
  CX 6379 6380 4767; CX 6455 6262 4905; CX 6456 6377 6243; CX 6459 6262 6336; CX 6464 6380 6249; CX 6465 5049 5076; CX 6477 6478 6352; CX 6445 6495 4851;
  CX 6443 6446 4963; CX 6495 6496 4637; CX 6443 6497 4681; CX 6265 6455 4846; CX 6319 6457 4839; CX 6319 6499 4630; CX 6505 5196 6327; CX 6506 6467 6382;
  CA 5072 6507 6092; CX 6517 6518 6394; CX 6367 6407 4612; CX 6457 6499 4766; CX 6125 5005 5073; CX 6094 4943 4948; CX 6519 6407 6093; CX 6520 6499 6175;
  CX 6521 6407 6184; CX 6522 6499 6248; CX 6523 6524 6402; CX 6525 6526 6434; CX 6527 6528 6404; CX 6529 6530 6406; CX 6531 6532 6403; CX 6533 6534 6353;
  CI 4712 6041; CX 6455 6498 4763; CX 6147 4946 5141; CI 6273 6238; CI 6474 6424; CI 6507 6423; CX 6543 6544 6426; CX 6547 6548 6395;
  CX 6549 6550 6354; CX 6445 6496 4764; CX 6427 6444 4711; CX 6446 6497 4894; CX 6186 5176 5217; CX 6464 6462 6180; CI 6371 6318; CI 6536 6441;
  CI 6391 6325; CI 6506 6442; CI 6387 6326; CI 6411 6362; CX 6564 6565 6466; CX 6578 6579 6397; CX 6582 6583 5104; CX 6584 6585 4875;
  CX 6586 6587 6491; CX 6589 6590 5055; CX 6591 6592 6451; CX 6593 6594 6452; CX 6595 6596 6487; CX 6597 6598 6363; CX 6599 6600 4729; CX 6601 6602 6234;
  CX 6603 6604 6489; CX 6605 6606 6236; CX 6607 6608 6485; CX 6609 6610 6454; CX 6611 6612 6453; CX 6613 6614 6364; CX 6171 5132 5138; CX 6405 6408 4701;
  CX 6621 6408 6124; CX 6622 6408 6203; CI 6412 6361; CX 6641 6642 6366; CX 6701 6702 6365; CX 6762 5197 6450; CX 6777 6778 6588; CX 6785 6786 6484;
  CX 6793 6794 6479; CX 6795 6796 6481; CX 6800 6801 6480; CX 6896 6897 6482; CX 6900 6901 6483; CX 6906 6907 6691; CX 6150 6050 5844; CX 6066 6152 5680;
  CX 6155 6065 6064; CX 6156 6152 6063; CX 6157 6150 6049; CX 6159 6160 6046; CX 6161 6155 6051; CX 6182 6105 6082; CX 6192 6100 5931; CX 6083 6193 5762;
  CX 6194 6193 6081; CX 6195 6192 6099; CX 6196 6197 6098; CX 6198 6182 6101; CA 4678 4679 6134; CX 5125 6262 5130; CX 5175 4831 5097; CX 5171 4907 5122;
  CX 6265 5125 5123; CX 4907 6266 4890; CX 6267 6266 4968; CX 6188 6266 4908; CX 6249 4843 4627; CX 6198 6197 5758; CA 5171 5170 6136; CA 5125 6287 6123;
  CX 5118 6318 5129; CX 6319 5118 5114; CX 6217 4780 4584; CX 5070 4777 5010; CX 6144 5076 5083; CX 4632 4905 4817; CX 6220 4718 4580; CX 6221 4777 4579;
  CX 6336 6337 6244; CX 6352 6353 6279; CX 6352 6354 6255; CA 5118 6371 6117; CX 6376 6327 4853; CX 6264 4963 4682; CX 6242 4851 4636; CX 6327 6377 4638;
  CX 6245 4846 4629; CX 6248 4839 4625; CX 6381 6382 6263; CA 5070 5066 6091; CX 6394 6395 6295; CX 6394 6397 6276; CA 6352 6400 6005; CA 6352 6401 6209;
  CX 6402 5073 5074; CX 6403 6353 6256; CX 6354 6403 6305; CX 6404 6405 4772; CX 6367 6406 4670; CX 6406 6407 4517; CX 6404 6408 4550; CX 6404 5073 5015;
  CX 6406 4948 4944; CX 6405 6402 4770; CX 6409 6402 6286; CA 6394 6421 6058; CA 6394 6422 6233; CX 5072 6423 5075; CX 5141 6424 5126; CX 6426 6395 6277;
  CX 6397 6426 6342; CI 4765 6076; CX 6427 6238 4848; CX 6428 5141 4949; CI 4767 6079; CX 6429 6424 4783; CX 6430 6423 4834; CX 6431 6238 6303;
  CX 6432 6424 6298; CX 6433 6423 6301; CA 4948 6434 6011; CA 6353 6435 6204; CA 6353 5049 6208; CA 6403 6436 6129; CA 6403 6437 6311; CX 5138 6441 5139;
  CX 6442 5217 5218; CX 6443 5217 5177; CX 6445 6441 4910; CX 6376 6325 4912; CX 6442 6446 4969; CX 6450 6377 6170; CX 6451 6365 4837; CX 6366 6452 4775;
  CX 6366 6453 4549; CX 6365 6454 4581; CX 6457 6318 4901; CX 6379 6326 4903; CX 6458 6325 6338; CX 6451 6361 4960; CX 6452 6362 4899; CX 6460 6318 6335;
  CX 6461 6326 6340; CX 6180 5112 5116; CX 6463 6362 6333; CX 6466 5798 6284; CX 6467 6441 6331; CA 6395 6468 6222; CA 6395 5003 6229; CA 6426 6470 6154;
  CA 6426 6471 6355; CA 5141 6474 6084; CA 6354 6475 6004; CA 6354 6476 6310; CI 4612 5920; CI 4766 6078; CX 6451 6454 4896; CX 6452 6453 4832;
  CX 6363 6364 4569; CX 6479 6454 6189; CX 6480 6453 6177; CX 6481 6364 6072; CX 6482 6454 6269; CX 6483 6453 6251; CX 6484 6364 6168; CI 6402 6410;
  CI 6434 6360; CX 6485 6486 6359; CX 6487 6488 6304; CX 6489 6490 6313; CX 6491 5796 6329; CX 6495 5138 5133; CX 6317 6361 6384; CA 5217 6506 6140;
  CA 6397 6511 6356; CA 6397 6514 6053; CI 4763 6077; CA 5138 6536 6107; CI 4764 6075; CI 4711 6040; CX 6456 6450 6172; CX 6482 6479 6191;
  CX 6483 6480 6181; CX 6484 6481 6074; CX 6588 5489 6314; CX 6691 6692 6368; CX 6045 6046 5843; CX 6049 6050 5661; CX 6051 6050 5663; CX 6054 6046 5839;
  CX 6055 6046 5856; CX 6056 6046 5857; CX 6063 6064 5674; CX 6065 6063 5853; CX 6066 6064 5855; CX 6051 6049 5858; CX 6081 6082 5756; CX 6083 6082 5881;
  CX 6097 6098 5930; CX 6099 6100 5749; CX 6101 6100 5751; CX 6102 6098 5928; CX 6103 6098 5882; CX 6104 6098 5940; CX 6105 6081 5938; CX 6101 6099 5941;
  CX 4968 5173 5121; CX 4968 4962 6013; CX 5130 4763 5038; CX 5123 4846 5068; CX 5170 4890 5098; CX 6188 4890 6015; CX 6190 4890 4824; CA 5123 5119 6121;
  CA 4890 4887 6027; CA 4627 4631 6118; CA 4968 4962 6025; CA 4908 4907 6023; CX 5129 4766 5034; CX 5114 4839 5064; CX 6238 5083 5086; CX 6239 5083 5081;
  CX 6244 4846 4822; CX 6245 6244 4913; CX 6174 6244 4845; CX 6255 6256 6199; CA 5114 5111 6116; CX 6243 4853 4634; CX 4638 4912 4828; CX 6263 4963 4893;
  CX 6185 6263 4964; CX 6264 6263 4966; CX 4631 4903 4814; CA 4580 4577 6089; CA 4579 4582 6090; CA 5083 6273 6087; CA 4584 4585 6086; CX 6276 6277 6213;
  CA 6255 6278 6207; CA 6279 6280 6130; CA 6279 6281 5801; CA 6255 6282 6205; CX 5074 4701 4934; CX 5015 4772 5007; CX 4944 4670 4881; CX 4550 4770 4700;
  CX 6203 4772 4548; CX 6184 4670 4516; CX 6285 6286 6202; CX 6005 6004 6001; CA 4625 4630 6115; CA 4629 4632 6122; CA 4636 4637 6106; CA 4682 4681 6141;
  CA 6276 6288 6228; CA 6276 6289 6224; CA 6295 6296 5848; CA 6295 6297 6158; CX 4585 4848 4757; CX 5126 4706 4936; CX 5075 4712 4993; CX 4949 4718 5011;
  CX 4577 4783 4747; CX 4582 4834 4745; CX 6298 6299 6218; CX 6300 6301 6219; CX 6302 6303 6216; CX 6058 6053 6048; CA 4944 4943 6012; CA 5015 5005 6067;
  CA 6305 6306 6003; CA 6256 6307 6132; CA 6305 6308 5802; CA 6256 6309 6133; CX 6310 6311 6009; CX 6311 6208 5633; CX 5116 6326 5128; CX 5139 4764 5040;
  CX 5218 4894 5099; CX 5177 4963 5179; CX 4637 4910 4826; CX 4681 4969 4895; CX 6328 5116 5113; CX 6314 6284 4616; CX 6284 6329 4453; CX 4630 4901 4812;
  CX 4581 4960 4810; CX 4549 4899 4742; CX 6269 4837 4575; CX 6251 4775 4546; CX 6330 6331 6240; CX 6332 6333 6250; CX 6334 6335 6246; CX 6338 6339 6241;
  CX 6340 6341 6247; CA 4949 4946 6088; CA 6342 6343 5845; CA 6277 6349 6164; CA 6342 6350 6057; CA 6277 6351 6163; CX 6355 6229 5668; CX 6356 6355 6061;
  CX 4948 6360 4950; CX 6363 6313 4619; CX 6314 6329 4570; CX 6313 6364 4374; CX 6367 6360 4717; CX 6359 6363 6070; CX 6368 6329 6071; CX 6369 6329 6167].
(** Lines 28005-28404 of the file. *)
Definition aes128_70 : list cg := [
  CX 6370 6360 6258; CX 5133 4851 5078; CX 6383 6384 6268; CA 5116 6387 6119; CA 5177 5176 6142; CA 5073 6410 6068; CA 5133 5132 6108; CI 4960 6187;
  CI 4899 6173; CI 4896 6096; CI 4832 6080; CI 4569 5877; CI 6359 6316; CI 6304 6283; CX 6172 5131 5136; CX 6191 5104 5169;
  CX 6181 5055 5110; CX 6074 4729 4883; CX 6368 6369 6073; CX 5838 5839 5675; CX 5840 5839 5660; CX 5843 5844 5679; CX 5846 5839 5662; CX 5847 5839 5681;
  CX 5853 5854 5677; CX 5855 5856 5652; CX 5857 5858 5654; CX 5881 5882 5697; CX 5927 5928 5757; CX 5929 5928 5748; CX 5930 5931 5761; CX 5932 5928 5750;
  CX 5933 5928 5763; CX 5938 5939 5759; CX 5940 5941 5746; CX 6095 4824 5935; CX 5122 5121 5645; CA 5121 5122 6024; CA 4824 4831 6022; CA 5098 5097 6026;
  CX 6134 6023 6014; CX 6135 6025 5821; CX 6136 6027 5934; CX 5086 4711 4995; CX 5081 4780 5013; CX 4913 5125 5069; CX 4913 4905 5960; CX 5119 4822 5037;
  CX 6174 4822 5961; CX 6178 4822 4754; CX 6185 4893 6021; CX 4966 5217 5178; CX 4969 4966 6020; CX 5176 4893 5100; CX 6186 4893 4891; CA 4822 4817 5997;
  CA 4913 4905 5993; CA 5081 5076 6085; CA 4845 4846 5995; CA 6199 6200 6131; CA 6199 6201 6128; CX 4772 6202 4710; CX 6203 6202 4771; CX 6124 6202 4784;
  CX 6204 6001 5493; CX 6205 6206 5806; CX 6207 5802 6008; CX 6130 6208 6127; CX 6209 5801 6126; CA 4964 4963 6037; CA 4634 4638 6109; CA 4893 4895 6039;
  CA 4966 4969 6035; CA 6213 6214 6153; CA 6213 6215 6162; CX 6216 4780 4762; CX 6217 6216 4855; CX 6143 6216 4781; CX 4718 6218 4755; CX 4777 6219 4752;
  CX 6220 6218 4785; CX 6145 6218 4715; CX 6146 6219 4778; CX 6221 6219 4856; CX 6222 6048 5537; CX 6224 6225 5852; CX 6228 5845 6062; CX 6158 6229 6151;
  CX 6233 5848 6149; CA 4548 4550 6069; CA 4516 4517 6010; CX 6133 6132 5631; CX 6240 4851 4829; CX 6241 4853 4830; CX 6169 6240 4850; CX 6242 6240 4915;
  CX 6243 6241 4916; CX 6170 6241 4854; CX 5128 4767 5035; CX 5113 4843 5065; CX 6246 4839 4820; CX 6247 4843 4821; CX 6175 6246 4840; CX 6248 6246 4918;
  CX 6176 6247 4842; CX 6249 6247 4914; CX 4775 6250 4743; CX 6167 4616 4452; CX 6177 6250 4774; CX 6251 6250 4917; CX 6164 6163 5670; CX 4950 4612 4872;
  CX 4517 4717 4664; CX 6168 4619 4373; CX 6257 6258 6183; CX 6268 4837 4815; CX 6269 6268 4967; CX 6189 6268 4836; CA 5113 5112 6120; CA 4575 4581 6137;
  CA 4546 4549 6112; CI 5011 6042; CI 4570 5876; CX 6314 6283 4667; CI 6070 4614; CX 6315 6283 6237; CX 6316 6317 6235; CX 5136 6325 5140;
  CX 5136 6327 5134; CX 6359 4883 4884; CX 5169 6361 5174; CX 5110 6362 5127; CX 6365 5169 5108; CX 6366 5110 5059; CA 4883 6316 5926; CA 5136 6391 6110;
  CX 6073 4875 4878; CA 5110 6411 6113; CA 5169 6412 6139; CI 4883 6312; CX 5652 5653 2391; CX 5654 5655 2436; CX 5660 5661 2610; CX 5662 5663 5530;
  CX 5674 5675 5538; CX 5676 5677 2854; CX 5678 5679 2690; CX 5680 5681 5532; CX 5697 5698 3606; CX 5746 5747 2335; CX 5748 5749 2539; CX 5750 5751 5591;
  CX 5756 5757 5595; CX 5758 5759 2792; CX 5760 5761 2641; CX 5762 5763 5593; CX 5934 5935 5752; CX 6013 6014 5822; CX 6015 6014 5824; CX 6022 6023 5753;
  CX 6024 6025 5820; CX 6026 6027 5823; CX 6077 4754 5892; CX 5069 5068 5618; CX 4891 4894 5943; CX 5178 5179 5649; CA 5069 5068 5992; CA 4754 4763 5994;
  CA 5038 5037 5996; CX 6121 5997 5891; CX 6122 5995 5959; CX 6123 5993 5792; CX 4771 5073 5006; CX 4771 4770 5868; CX 5005 4710 4937; CX 6124 4710 5869;
  CX 6125 4710 4702; CX 6126 6001 5800; CX 6009 6127 5635; CX 6128 6008 6007; CX 6129 6127 6006; CX 6130 6126 6000; CX 6131 6132 5999; CX 6133 6128 6002;
  CA 4891 4894 6036; CA 5099 5100 6038; CA 5178 5179 6034; CX 6140 6035 5831; CX 6141 6037 6019; CX 6142 6039 5942; CX 6143 4762 5895; CX 4855 5083 5014;
  CX 4848 4855 5894; CX 5076 4762 4996; CX 4785 5141 5016; CX 4856 5072 5009; CX 4785 4783 5897; CX 4856 4834 5901; CX 6144 4762 4709; CX 4946 4755 4938;
  CX 5066 4752 4994; CX 6145 4755 5898; CX 6146 4752 5899; CX 6147 4755 4707; CX 6148 4752 4704; CX 6149 6048 5842; CX 6061 6151 5672; CX 6153 6062 6060;
  CX 6154 6151 6059; CX 6158 6149 6047; CX 6162 6163 6044; CX 6164 6153 6052; CA 4771 4770 5871; CA 4710 4700 5875; CA 4784 4772 5873; CX 6169 4829 5946;
  CX 6170 4830 5949; CX 4915 5138 5084; CX 4916 5136 5085; CX 4910 4915 5945; CX 4916 4912 5948; CX 5132 4829 5039; CX 5131 4830 5042; CX 4918 5118 5063;
  CX 4914 5116 5061; CX 4918 4901 5954; CX 4914 4903 5956; CX 4917 5110 5057; CX 6171 4829 4759; CX 6172 4830 4761; CX 6173 4917 5955; CX 5111 4820 5033;
  CX 5112 4821 5036; CX 6175 4820 5952; CX 6176 4821 5958; CX 5055 4743 4992; CX 6177 4743 5950; CX 6179 4820 4749; CX 6180 4821 4751; CX 6181 4743 4819;
  CA 4715 4718 5911; CA 4755 4747 5913; CA 4752 4745 5915; CA 4856 4834 5919; CA 4762 4757 5907; CA 4855 4848 5903; CA 4781 4780 5905; CA 4785 4783 5909;
  CA 4778 4777 5917; CX 4670 6183 4665; CX 6184 6183 4719; CX 6093 6183 4669; CX 4967 5169 5106; CX 6187 4967 6018; CX 5104 4815 5032; CX 6189 4815 6016;
  CX 6191 4815 4889; CA 4743 4742 5973; CA 4820 4812 5979; CA 4821 4814 5991; CA 4452 4453 5922; CA 4917 4899 5977; CA 4918 4901 5983; CA 4914 4903 5987;
  CA 4829 4826 5963; CA 4830 4828 5971; CA 4915 4910 5965; CA 4916 4912 5985; CA 4850 4851 5967; CA 4854 4853 5969; CA 4774 4775 5975; CA 4840 4839 5981;
  CA 4842 4843 5989; CA 4373 4374 5924; CA 4815 4810 6033; CA 4967 4960 6031; CA 4836 4837 6029; CX 4453 4667 4608; CX 4614 4374 4564; CX 6234 6235 6166;
  CX 6236 6237 6165; CX 5140 4765 5041; CX 5134 4853 5080; CX 5174 4896 5031; CX 5127 4832 4991; CX 4884 4569 4800; CX 5108 4837 5107; CX 5059 4775 5058;
  CA 5134 5131 6111; CX 4878 6283 4885; CX 6284 4878 4876; CA 5059 5055 6114; CA 5108 5104 6138; CA 4878 6304 5921; CX 6312 6313 4726; CX 2610 5517 2246;
  CX 2391 5519 2198; CX 2690 5520 2248; CX 2436 5521 2247; CX 2854 5526 2249; CX 5530 5531 2251; CX 5532 5533 2253; CX 5538 5539 2612; CX 2539 5587 2157;
  CX 2641 5588 2161; CX 2335 5589 2160; CX 2792 5590 2163; CX 5591 5592 2169; CX 5593 5594 2171; CX 5595 5596 2541; CI 3606 2285; CX 5752 5753 5284;
  CX 5820 5753 5644; CX 5821 5822 5499; CX 5823 5824 5642; CX 5891 5892 5709; CX 5942 5943 5764; CX 5959 5960 5793; CX 5961 5959 5795; CX 5992 5993 5791;
  CX 5994 5995 5710; CX 5996 5997 5794; CX 4702 4701 5804; CX 5006 5007 5544; CX 5998 5999 5799; CX 6000 6001 5624; CX 6002 6001 5626; CX 6003 5999 5797;
  CX 6004 5999 5808; CX 6005 5999 5809; CX 6006 6007 5629; CX 6008 6006 5805; CX 6009 6007 5807; CX 6002 6000 5810; CX 6019 6020 5832; CX 6021 6019 5834;
  CX 6034 6035 5830; CX 6036 6037 5765; CX 6038 6039 5833; CX 6040 4709 5860; CX 5014 5013 5567; CX 4707 4706 5862; CX 6041 4704 5864; CX 6042 5016 5568;
  CX 5009 5010 5571; CX 6043 6044 5841; CX 6047 6048 5659; CX 6052 6048 5665; CX 6053 6044 5850; CX 6057 6044 5836; CX 6058 6044 5865; CX 6059 6060 5666;
  CX 6061 6060 5849; CX 6062 6059 5851; CX 6052 6047 5866; CA 5006 5007 5870; CA 4937 4934 5874; CA 4702 4701 5872; CX 6067 5875 5803; CX 6068 5871 5689;
  CX 6069 5873 5867; CX 6075 4759 5880; CX 6076 4761 5888; CX 5084 5078 5608; CX 5085 5080 5610; CX 6078 4749 5886; CX 6079 4751 5890; CX 5063 5064 5614;
  CX 5065 5061 5616; CX 6080 4819 5884; CX 5057 5058 5612; CA 5009 5010 5918; CA 5016 5011 5908; CA 4938 4936 5912; CA 4704 4712 5916; CA 5014 5013 5902;
  CA 4709 4711 5904; CA 4995 4996 5906; CA 4707 4706 5910; CA 4994 4993 5914; CX 6084 5909 5717; CX 6085 5907 5859; CX 6086 5905 5893; CX 6087 5903 5712;
  CX 6088 5913 5861; CX 6089 5911 5896; CX 6090 5917 5900; CX 6091 5915 5863; CX 6092 5919 5723; CX 4719 4948 4880; CX 4719 4717 5813; CX 4943 4665 4873;
  CX 6093 4665 5811; CX 6094 4665 4611; CX 6096 4889 5937; CX 5106 5107 5647; CA 5057 5058 5976; CA 5063 5064 5982; CA 5061 5065 5986; CA 4819 4832 5974].
(** Lines 28405-28804 of the file. *)
Definition aes128_71 : list cg := [
  CA 4749 4766 5980; CA 4751 4767 5988; CA 5084 5078 5964; CA 5085 5080 5984; CA 4759 4764 5966; CA 4761 4765 5968; CA 5040 5039 5962; CA 5041 5042 5970;
  CA 4992 4991 5972; CA 5034 5033 5978; CA 5036 5035 5990; CX 6106 5967 5944; CX 6107 5965 5768; CX 6108 5963 5879; CX 6109 5969 5947; CX 6110 5985 5771;
  CX 6111 5971 5887; CX 6112 5975 5951; CX 6113 5977 5778; CX 6114 5973 5883; CX 6115 5981 5953; CX 6116 5979 5885; CX 6117 5983 5783; CX 6118 5989 5957;
  CX 6119 5987 5786; CX 6120 5991 5889; CA 4665 4664 5819; CA 4719 4717 5815; CA 4669 4670 5817; CA 5106 5107 6030; CA 4889 4896 6028; CA 5032 5031 6032;
  CX 6137 6029 6017; CX 6138 6033 5936; CX 6139 6031 5828; CX 4616 6165 4609; CX 4619 6166 4565; CX 6167 6165 4671; CX 6071 6165 4617; CX 6168 6166 4618;
  CX 6072 6166 4620; CX 4885 4570 4799; CX 4876 4616 4804; CA 4876 4875 5923; CX 4726 4619 4728; CA 4726 4729 5925; CX 2246 5392 2109; CX 2612 5394 2111;
  CX 2251 5395 2110; CX 5396 2253 2112; CX 5400 2198 2081; CX 5401 2248 2114; CX 5402 2247 2113; CX 2249 5407 2115; CX 5452 2157 2056; CX 2541 5453 2061;
  CX 2169 5454 2060; CX 2171 5455 2062; CX 2160 5456 2065; CX 5457 2161 2066; CX 2163 5458 2068; CX 2285 5522 2130; CA 5284 5642 5549; CX 5644 5645 5282;
  CA 5642 5499 5367; CI 5284 5599; CX 5709 5710 5257; CX 5764 5765 5286; CI 5642 5585; CX 5791 5710 5617; CX 5792 5793 5463; CX 5794 5795 5606;
  CX 5796 5797 5630; CX 5798 5797 5623; CX 5799 5800 5634; CX 5801 5797 5625; CX 5802 5797 5636; CX 5803 5804 5627; CX 5805 5806 5632; CX 5807 5808 5619;
  CX 5809 5810 5621; CX 5830 5765 5648; CX 5831 5832 5498; CX 5833 5834 5584; CX 5835 5836 5667; CX 5837 5836 5658; CX 5841 5842 5669; CX 5845 5836 5673;
  CX 5848 5836 5664; CX 5849 5850 5650; CX 5851 5852 5671; CX 5859 5860 5682; CX 5861 5862 5684; CX 5863 5864 5686; CX 5865 5866 5656; CX 5867 5868 5690;
  CX 5869 5867 5692; CX 5870 5871 5688; CX 5872 5873 5628; CX 5874 5875 5691; CX 5879 5880 5699; CX 5883 5884 5703; CX 5885 5886 5705; CX 5887 5888 5701;
  CX 5889 5890 5707; CX 5893 5894 5713; CX 5895 5893 5715; CX 5896 5897 5718; CX 5898 5896 5720; CX 5899 5900 5722; CX 5900 5901 5724; CX 5902 5903 5711;
  CX 5904 5905 5683; CX 5906 5907 5714; CX 5908 5909 5716; CX 5910 5911 5685; CX 5912 5913 5719; CX 5914 5915 5721; CX 5916 5917 5687; CX 5918 5919 5725;
  CX 5920 4611 5727; CX 4880 4881 5497; CX 5936 5937 5754; CX 5944 5945 5769; CX 5946 5944 5767; CX 5947 5948 5772; CX 5949 5947 5775; CX 5950 5951 5777;
  CX 5952 5953 5782; CX 5953 5954 5784; CX 5955 5951 5779; CX 5956 5957 5787; CX 5958 5957 5790; CX 5962 5963 5766; CX 5964 5965 5770; CX 5966 5967 5700;
  CX 5968 5969 5702; CX 5970 5971 5774; CX 5972 5973 5776; CX 5974 5975 5704; CX 5976 5977 5780; CX 5978 5979 5781; CX 5980 5981 5706; CX 5982 5983 5785;
  CX 5984 5985 5773; CX 5986 5987 5788; CX 5988 5989 5708; CX 5990 5991 5789; CA 4880 4881 5814; CA 4611 4612 5816; CA 4873 4872 5818; CX 6010 5817 5812;
  CX 6011 5815 5640; CX 6012 5819 5726; CX 6016 6017 5827; CX 6018 6017 5829; CX 6028 6029 5755; CX 6030 6031 5825; CX 6032 6033 5826; CX 4671 4878 4803;
  CX 4618 4883 4730; CX 4671 4667 5729; CX 6070 4618 5733; CX 4875 4609 4798; CX 4729 4565 4797; CX 6071 4609 5730; CX 6072 4565 5731; CX 6073 4609 4568;
  CX 6074 4565 4566; CA 4609 4608 5739; CA 4565 4564 5743; CA 4671 4667 5737; CA 4618 4614 5745; CA 4617 4616 5735; CA 4620 4619 5741; CI 4728 5878;
  CX 5225 2111 2017; CX 2110 5226 2016; CX 5227 2112 2018; CX 5231 2114 1579; CX 5233 2109 2015; CX 2113 5235 2019; CX 5237 2081 1993; CX 2115 5240 1349;
  CX 5322 2061 1968; CX 5323 2060 1967; CX 5324 2062 1969; CX 5325 2066 1577; CX 5326 2056 1963; CX 2065 5327 1971; CX 2068 5328 1350; CX 2130 5403 2036;
  CI 2130 3552; CX 5499 5282 5368; CX 5367 5282 5426; CA 5549 5282 5329; CX 5584 5286 5429; CX 5585 5284 5425; CA 5599 5499 5503; CA 5606 5257 5513;
  CI 5282 5504; CX 5617 5618 5251; CX 5619 5620 2283; CX 5621 5622 2333; CX 5623 5624 2536; CX 5625 5626 5488; CX 5627 5628 5153; CX 5629 5630 5492;
  CX 5631 5632 2790; CX 5633 5634 2639; CX 5635 5636 5490; CA 5286 5498 5505; CX 5648 5649 5288; CI 5367 5459; CA 5606 5463 5345; CX 5650 5651 2223;
  CX 5656 5657 2281; CX 5658 5659 2490; CX 5664 5665 5534; CX 5666 5667 5536; CX 5668 5669 2595; CX 5670 5671 2761; CX 5672 5673 5528; CX 5682 5683 5207;
  CX 5684 5685 5155; CX 5686 5687 5205; CI 5257 5561; CX 5688 5628 5543; CX 5689 5690 5411; CX 5691 5692 5482; CA 5584 5498 5371; CX 5699 5700 5259;
  CX 5701 5702 5261; CX 5703 5704 5249; CX 5705 5706 5253; CI 5286 5600; CX 5707 5708 5255; CX 5711 5683 5566; CX 5712 5713 5436; CX 5714 5715 5564;
  CX 5716 5685 5569; CX 5717 5718 5437; CX 5719 5720 5515; CX 5721 5722 5565; CX 5723 5724 5438; CX 5725 5687 5570; CI 5606 5553; CX 5726 5727 5572;
  CX 5754 5755 5280; CX 5766 5767 5601; CX 5768 5769 5461; CX 5770 5700 5607; CX 5771 5772 5462; CX 5773 5702 5609; CX 5774 5775 5602; CX 5776 5777 5603;
  CX 5778 5779 5466; CX 5780 5704 5611; CX 5781 5782 5604; CX 5783 5784 5464; CX 5785 5706 5613; CX 5786 5787 5465; CX 5788 5708 5615; CX 5789 5790 5605;
  CX 5811 5812 5639; CX 5812 5813 5641; CX 5814 5815 5637; CX 5816 5817 5573; CX 5818 5819 5638; CX 5825 5755 5646; CX 5826 5827 5643; CX 5828 5829 5500;
  CX 5876 4568 5694; CX 5877 4566 5696; CX 4804 4803 5449; CX 5878 4730 5450; CA 4803 4804 5736; CA 4730 4728 5744; CA 4568 4570 5734; CA 4566 4569 5740;
  CA 4797 4800 5742; CA 4798 4799 5738; CX 5921 5737 5575; CX 5922 5735 5728; CX 5923 5739 5693; CX 5924 5741 5732; CX 5925 5743 5695; CX 5926 5745 5582;
  CX 2016 5048 1899; CX 5049 2018 1900; CX 5052 2017 1258; CX 1579 1993 4587; CX 5165 1967 1823; CX 5166 1969 1824; CX 5167 1968 1286; CI 2019 4999;
  CI 1993 3754; CX 5238 2036 1934; CI 1971 3806; CI 2036 3447; CX 5367 5368 5220; CA 5425 5426 5283; CX 5425 5459 5330; CX 5371 5429 5334;
  CX 5463 5251 5346; CX 5345 5251 5384; CX 5482 5153 5311; CX 2536 5483 2156; CX 2283 5484 2129; CX 2639 5485 2159; CX 5486 2333 2158; CX 2790 5487 2162;
  CX 5488 5489 2165; CX 5490 5491 2167; CX 5492 5493 2538; CX 5498 5288 5372; CX 5371 5288 5428; CA 5503 5504 5219; CA 5513 5251 5299; CX 5515 5155 5309;
  CX 2490 5518 2126; CX 2223 5523 2091; CX 2281 5524 2127; CX 2595 5525 2128; CX 2761 5527 2131; CX 5528 5529 2133; CX 5534 5535 2135; CX 5459 5284 5422;
  CX 5536 5537 2492; CA 5153 5411 5413; CX 5543 5544 5149; CX 5553 5257 5385; CX 5371 5286 5427; CA 5561 5463 5473; CA 5207 5564 5479; CA 5155 5437 5480;
  CA 5205 5565 5481; CX 5566 5567 5209; CX 5568 5569 5151; CX 5570 5571 5203; CI 5251 5474; CA 5482 5411 5272; CI 5153 5494; CX 5572 5573 5092;
  CA 5584 5600 5511; CA 5259 5601 5507; CA 5261 5602 5508; CA 5249 5603 5509; CA 5253 5604 5510; CA 5255 5605 5512; CX 5607 5608 5263; CX 5609 5610 5265;
  CX 5611 5612 5201; CX 5613 5614 5245; CI 5288 5506; CX 5615 5616 5247; CA 5565 5438 5305; CI 5345 5433; CA 5564 5436 5301; CA 5515 5437 5303;
  CI 5207 5542; CI 5155 5541; CI 5205 5540; CX 5637 5573 5496; CX 5638 5639 5495; CX 5640 5641 5363; CA 5280 5643 5550; CX 5646 5647 5243;
  CA 5604 5464 5341; CA 5605 5465 5343; CA 5601 5461 5335; CA 5602 5462 5337; CI 5259 5562; CI 5261 5563; CI 5249 5557; CI 5253 5559;
  CI 5255 5560; CI 5564 5514; CI 5565 5516; CX 5693 5694 5545; CX 5695 5696 5547; CI 5280 5597; CI 5601 5551; CI 5602 5552;
  CI 5603 5556; CI 5466 5558; CI 5604 5554; CI 5605 5555; CX 5728 5729 5576; CX 5730 5728 5578; CX 5731 5732 5581; CX 5733 5732 5583;
  CX 5734 5735 5546; CX 5736 5737 5574; CX 5738 5739 5577; CX 5740 5741 5548; CX 5742 5743 5580; CX 5744 5745 5579; CI 5643 5586; CI 5500 5598].
(** Lines 28805-29204 of the file. *)
Definition aes128_72 : list cg := [
  CX 1899 2015 2943; CX 2015 1258 2803; CX 1899 1258 2893; CX 1899 1993 2989; CX 2019 1258 4523; CX 1963 1823 3018; CX 1963 1286 2871; CX 1823 1286 2971;
  CX 1934 1823 3041; CX 1971 1286 4623; CX 4999 1349 4464; CI 1258 4768; CX 1577 1934 4684; CX 3806 1350 4573; CI 1286 4897; CI 1934 3553;
  CX 5219 5220 5026; CX 5283 5284 5102; CX 5329 5330 5028; CX 5345 5346 5191; CX 5355 2156 2055; CX 2538 5356 2058; CX 2165 5357 2057; CX 2167 5358 2059;
  CX 5359 2129 2035; CX 5360 2159 2064; CX 5361 2158 2063; CX 5362 2162 2067; CX 5272 5311 5211; CX 5371 5372 5224; CA 5384 5385 5256; CX 2126 5393 2029;
  CX 2492 5397 2031; CX 5398 2133 2032; CX 2135 5399 2030; CX 5404 2091 2004; CX 5405 2128 2034; CX 5406 2127 2033; CX 2131 5408 2037; CX 5303 5309 5269;
  CX 5411 5149 5273; CX 5272 5149 5312; CA 5368 5422 5281; CA 5427 5372 5287; CA 5428 5429 5285; CX 5385 5433 5300; CX 5436 5209 5302; CX 5437 5151 5304;
  CX 5438 5203 5306; CX 5305 5203 5351; CX 5301 5209 5353; CX 5272 5153 5313; CX 5461 5263 5336; CX 5462 5265 5338; CX 5464 5245 5342; CX 5465 5247 5344;
  CX 5466 5201 5340; CX 5341 5245 5381; CX 5343 5247 5383; CX 5335 5263 5388; CX 5337 5265 5390; CA 5473 5474 5190; CA 5479 5209 5266; CA 5480 5151 5144;
  CA 5481 5203 5270; CX 5303 5155 5308; CX 5433 5257 5377; CA 5494 5482 5415; CA 5092 5495 5416; CI 5149 5414; CX 5496 5497 5090; CX 5500 5243 5370;
  CA 5505 5506 5223; CA 5507 5263 5289; CA 5508 5265 5291; CA 5509 5201 5293; CA 5510 5245 5295; CA 5511 5288 5333; CA 5512 5247 5297; CX 5514 5207 5354;
  CX 5516 5205 5350; CA 5540 5438 5440; CA 5541 5515 5439; CA 5542 5436 5442; CI 5209 5443; CI 5151 5412; CI 5203 5441; CA 5495 5363 5212;
  CI 5092 5445; CX 5545 5546 5022; CX 5547 5548 4958; CA 5550 5243 5331; CX 5551 5259 5389; CX 5552 5261 5391; CX 5554 5253 5380; CX 5555 5255 5382;
  CX 5556 5249 5378; CA 5557 5558 5467; CA 5559 5464 5469; CA 5560 5465 5471; CA 5562 5461 5475; CA 5563 5462 5477; CI 5263 5476; CI 5265 5478;
  CI 5201 5468; CI 5245 5470; CI 5247 5472; CI 5305 5410; CI 5301 5409; CI 5495 5444; CX 5574 5546 5448; CX 5575 5576 5315;
  CX 5577 5578 5446; CX 5579 5548 5451; CX 5580 5581 5447; CX 5582 5583 5316; CX 5586 5280 5423; CA 5597 5598 5501; CI 5243 5502; CA 5603 5558 5339;
  CI 5341 5434; CI 5343 5435; CI 5335 5430; CI 5337 5431; CA 5643 5598 5369; CX 2803 2989 2912; CX 4587 2943 2913; CX 4523 4587 2942;
  CX 2871 3041 3011; CX 4684 3018 3012; CX 4623 4684 3017; CI 2893 4286; CX 4464 1900 3157; CX 4768 1349 4586; CI 2971 4459; CX 4573 1824 3229;
  CX 4897 1350 4683; CX 5028 5026 4807; CA 5026 5097 4388; CA 5026 5098 4687; CX 5028 5102 4961; CX 5190 5191 4976; CX 5192 2058 1965; CX 2057 5193 1964;
  CX 5194 2059 1966; CX 5195 2064 1635; CX 5196 2055 1962; CX 2063 5197 1970; CX 5198 2035 1935; CX 2067 5199 1411; CX 5223 5224 5023; CX 5228 2031 1931;
  CX 2030 5229 1930; CX 5230 2032 1932; CX 5232 2034 1394; CX 5234 2029 1929; CX 2033 5236 1933; CX 5239 2004 1895; CX 2037 5241 1234; CI 5102 5120;
  CX 5256 5257 5045; CX 5272 5273 5088; CX 5281 5282 5027; CX 5285 5286 5101; CX 5287 5288 5024; CI 5028 5172; CX 5299 5300 4982; CX 5301 5302 5143;
  CX 5303 5304 5145; CX 5305 5306 5147; CA 5311 5312 5152; CA 5273 5313 5148; CI 2059 3687; CX 5333 5334 5025; CX 5335 5336 5181; CX 5337 5338 5183;
  CX 5339 5340 5185; CX 5341 5342 5187; CX 5343 5344 5189; CA 5350 5351 5204; CA 5353 5354 5206; CI 2032 3688; CX 5363 5090 5213; CX 5212 5090 5276;
  CX 5369 5370 5222; CA 5377 5346 5250; CA 5380 5381 5252; CA 5382 5383 5254; CA 5388 5389 5258; CA 5390 5391 5260; CX 5354 5409 5267; CX 5350 5410 5271;
  CI 5304 5307; CX 5303 5412 5310; CA 5413 5414 5087; CA 5415 5149 5210; CA 5416 5090 5156; CX 5389 5430 5290; CX 5391 5431 5292; CX 5380 5434 5296;
  CX 5382 5435 5298; CI 5340 5347; CA 5439 5412 5268; CA 5440 5441 5146; CA 5442 5443 5142; CX 5444 5092 5275; CX 5410 5205 5349; CX 5409 5207 5352;
  CA 5445 5363 5364; CA 5022 5446 5366; CA 4958 5447 5319; CI 5090 5365; CX 5448 5449 5020; CX 5450 5451 4956; CI 5370 5373; CX 5339 5201 5379;
  CA 5467 5468 5184; CA 5469 5470 5186; CA 5471 5472 5188; CA 5475 5476 5180; CA 5477 5478 5182; CX 5434 5253 5375; CX 5435 5255 5376; CX 5430 5259 5386;
  CX 5431 5261 5387; CA 5446 5315 5158; CI 5212 5314; CI 5022 5419; CI 4958 5420; CX 5369 5243 5424; CA 5501 5502 5221; CI 5446 5417;
  CI 5447 5418; CI 5316 5421; CI 5339 5432; CI 5369 5460; CX 2913 1900 3045; CX 4464 2913 2890; CX 4523 2913 4116; CA 2913 2912 4123;
  CA 2942 2943 4181; CX 3012 1824 3187; CX 4573 3012 2970; CX 3157 1993 3161; CX 4586 2943 2800; CX 3157 2015 3154; CX 4586 4587 2990; CX 4623 3012 4219;
  CA 3012 3011 4223; CA 3017 3018 4285; CA 3157 3754 4343; CX 3229 1934 3230; CX 4683 3018 2870; CX 3229 1963 3227; CX 4683 4684 3042; CA 3229 3553 4461;
  CA 4961 4962 4162; CA 4961 4968 4389; CI 4807 4823; CX 4982 4976 4735; CX 5002 1964 1821; CX 5003 1966 1822; CX 5004 1965 1335; CX 1635 1935 4552;
  CX 5023 5024 4892; CX 5023 5025 4805; CX 5026 5027 4886; CA 4976 5037 4659; CA 4976 5038 4322; CX 4982 5045 4904; CX 5050 1930 1778; CX 5051 1932 1779;
  CX 1931 5053 1146; CX 5087 5088 4857; CA 5023 5099 4392; CA 5023 5100 4692; CX 5101 5024 4806; CX 5025 5101 4965; CX 5102 5027 4808; CA 5120 5121 4931;
  CA 5120 5122 4533; CX 5142 5143 4919; CX 5144 5145 4922; CX 5146 5147 4924; CI 1966 3624; CI 1970 4941; CI 1935 3753; CX 5148 5149 4858;
  CX 5152 5153 4940; CA 5027 5170 4688; CA 5027 5171 4685; CA 5172 5173 4390; CA 5172 5175 4930; CA 5024 5176 4690; CA 5024 5177 4686; CA 5101 5178 4989;
  CA 5101 5179 4538; CX 5180 5181 4970; CX 5182 5183 4972; CX 5184 5185 4928; CX 5186 5187 4978; CX 5188 5189 4980; CI 1932 3625; CI 1933 5000;
  CI 1895 4660; CX 5204 5205 4998; CI 5045 5067; CX 5206 5207 4997; CX 5210 5211 4859; CX 5212 5213 5018; CA 5025 5217 4387; CA 5025 5218 4988;
  CX 5221 5222 4983; CX 5250 5251 4977; CX 5252 5253 5046; CX 5254 5255 5047; CX 5258 5259 5043; CX 5260 5261 5044; CX 5266 5267 4921; CX 5268 5269 4926;
  CX 5270 5271 4927; CI 4982 5124; CA 5275 5276 5091; CX 5289 5290 4974; CX 5291 5292 4975; CX 5295 5296 4985; CX 5297 5298 4986; CA 5307 5308 5150;
  CA 5309 5310 5154; CX 5275 5314 5157; CX 5315 5020 5159; CX 5316 4956 5161; CX 5158 5020 5216; CA 5306 5349 5202; CA 5352 5302 5208; CA 5364 5365 5017;
  CA 5366 5020 5093; CX 5314 5092 5274; CA 5342 5375 5244; CA 5344 5376 5246; CA 5378 5379 5248; CA 5386 5336 5262; CA 5387 5338 5264; CX 5417 5022 5215;
  CX 5418 4958 5162; CA 5419 5315 5317; CA 5420 5421 5321; CI 5020 5318; CI 4956 5320; CA 5423 5424 5279; CX 5378 5432 5294; CX 5432 5249 5348;
  CI 5158 5277; CA 5447 5421 5160; CX 5423 5460 5332; CX 5460 5280 5374; CX 4286 2890 4089; CA 2890 2893 4180; CX 4459 2970 4218; CX 3161 2893 3044;
  CX 2990 3157 3079; CX 2990 2989 4118; CX 3154 2943 3073; CA 3154 1900 4344; CA 2990 2989 4125; CA 2800 2803 4342; CA 2970 2971 4284; CX 3230 2971 3186;
  CX 3042 3229 3199; CX 3042 3041 4221; CX 3227 3018 3198; CA 3227 1824 4462; CA 3042 3041 4225; CA 2870 2871 4460; CX 1962 1821 2906; CX 1962 1335 2779;
  CX 1821 1335 2861; CX 1821 1935 2940; CX 1970 1335 4463; CX 4805 4806 4680; CX 4807 4808 4677; CA 4823 4824 4649; CA 4823 4831 4491; CX 1778 1929 2946;
  CX 1895 1778 2993; CX 1146 1234 4639; CX 4857 4858 4699; CX 4857 4859 4661; CA 4886 4887 4163; CA 4886 4890 4531; CA 4805 4891 4691; CA 4892 4893 4537;
  CA 4805 4894 4536; CA 4892 4895 4165; CX 4388 4390 4379; CX 4392 4387 4381; CA 4904 4905 4072; CA 4904 4913 4309; CX 4921 4919 4693; CX 4922 4926 4695].
(** Lines 29205-29604 of the file. *)
Definition aes128_73 : list cg := [
  CX 4927 4924 4698; CI 4735 4753; CX 4930 4931 4331; CX 4688 4931 4526; CA 4857 4934 4193; CA 4857 4937 4558; CX 4859 4940 4769; CX 4940 4858 4662;
  CX 4941 1411 4401; CI 1822 3689; CI 1335 4713; CA 4806 4963 4543; CA 4806 4964 4544; CA 4965 4966 4391; CA 4965 4969 4164; CX 4974 4970 4731;
  CX 4975 4972 4733; CX 4976 4977 4816; CX 4985 4978 4737; CX 4986 4980 4739; CX 4988 4989 4396; CX 4690 4989 4529; CA 4924 4993 4253; CA 4924 4994 4603;
  CA 4919 4995 4243; CA 4919 4996 4594; CX 4921 4997 4847; CX 4927 4998 4833; CX 5000 1234 4465; CI 1779 3690; CI 1146 3686; CX 4660 1394 4588;
  CA 4858 5005 4557; CA 4940 5006 4790; CA 4940 5007 4354; CA 4858 5015 4553; CX 5017 5018 4786; CA 4978 5033 4655; CA 4978 5034 4320; CA 4980 5035 4321;
  CA 4980 5036 4658; CA 4970 5039 4646; CA 4970 5040 4308; CA 4972 5041 4317; CA 4972 5042 4652; CX 4974 5043 4909; CX 4975 5044 4911; CX 4985 5046 4900;
  CX 4986 5047 4902; CI 4808 4906; CX 5045 4977 4736; CA 5067 5068 4485; CA 5067 5069 4863; CA 4859 5073 4192; CA 4859 5074 4789; CI 4922 4935;
  CX 5091 5092 4874; CA 4977 5119 4647; CA 4977 5123 4640; CA 5124 5125 4313; CA 4926 5126 4793; CA 5124 5130 4864; CA 4926 5141 4249; CI 4928 4990;
  CX 5150 5151 4923; CX 5154 5155 4939; CI 4998 5008; CI 4997 5012; CX 5156 5157 4788; CX 5158 5159 4952; CX 5160 5161 4954; CI 4983 5030;
  CX 5202 5203 4925; CI 5046 5062; CI 5047 5060; CI 5043 5077; CI 5044 5079; CX 5208 5209 4920; CI 4921 5082; CI 4927 5071;
  CA 5215 5216 5021; CX 5244 5245 4979; CX 5246 5247 4981; CX 5248 5249 4942; CX 5262 5263 4971; CX 5264 5265 4973; CI 4974 5137; CI 4975 5135;
  CI 4985 5117; CI 4986 5115; CA 5213 5274 5089; CX 5215 5277 5094; CX 5279 5280 5001; CX 5293 5294 4987; CA 5317 5318 4951; CA 5319 5320 5095;
  CA 5321 4956 4953; CX 5277 5022 5214; CX 5331 5332 5029; CA 5347 5348 5200; CA 5373 5374 5242; CI 5160 5278; CX 4180 4181 3888; CX 3079 3073 3729;
  CX 4284 4285 3971; CA 3079 3073 4124; CA 3044 3045 4122; CX 4342 4181 4117; CX 4343 4125 3897; CX 4344 4123 4088; CX 3199 3198 3794; CA 3199 3198 4224;
  CA 3186 3187 4222; CX 4460 4285 4220; CX 4461 4225 3974; CX 4462 4223 4217; CX 2779 2940 2886; CX 4552 2906 2891; CX 4463 4552 2905; CX 4639 2946 2802;
  CX 4588 2946 2915; CX 4639 4588 2992; CX 4649 4162 4488; CX 4661 4662 4547; CA 4677 4678 4487; CA 4677 4679 4539; CA 4680 4681 4542; CA 4680 4682 4534;
  CX 4685 4379 4393; CX 4686 4381 4397; CX 4687 4163 4527; CX 4688 4531 4525; CX 4690 4537 4528; CX 4691 4164 4535; CX 4692 4165 4530; CA 4699 4700 3934;
  CA 4661 4701 4355; CA 4661 4702 4555; CA 4699 4710 4357; CI 2861 4226; CX 4401 1822 3078; CX 4713 1411 4551; CX 4193 4192 4184; CX 4735 4736 4628;
  CX 4544 4543 4399; CA 4753 4754 4592; CA 4753 4763 4420; CX 1929 3686 2804; CX 1778 3686 2892; CX 1933 3686 4524; CX 4465 1779 3159; CA 4769 4770 3935;
  CA 4769 4771 4191; CA 4662 4772 4368; CA 4662 4784 4366; CX 4788 4786 4606; CX 4789 4790 4197; CX 4557 4790 4347; CA 4816 4817 4071; CA 4816 4822 4499;
  CX 4322 4313 4292; CA 4833 4834 3995; CA 4847 4848 3991; CA 4847 4855 4242; CA 4833 4856 4251; CI 4693 4708; CI 4695 4705; CI 4698 4703;
  CX 4863 4647 4470; CX 4864 4863 4255; CA 4786 4872 4137; CA 4786 4873 4519; CX 4788 4874 4716; CA 4900 4901 4076; CA 4902 4903 4069; CA 4906 4907 4540;
  CA 4906 4908 4541; CA 4909 4910 4073; CA 4911 4912 4075; CA 4902 4914 4310; CA 4909 4915 4312; CA 4911 4916 4315; CA 4900 4918 4319; CX 4919 4920 4756;
  CI 4731 4758; CI 4733 4760; CX 4922 4923 4746; CX 4924 4925 4744; CI 4737 4748; CI 4739 4750; CA 4935 4936 4250; CA 4935 4938 4598;
  CX 4926 4939 4782; CX 4923 4939 4696; CX 4951 4952 4720; CX 4953 4954 4796; CX 4970 4971 4825; CX 4972 4973 4827; CX 4978 4979 4811; CX 4980 4981 4813;
  CX 4928 4987 4818; CA 4990 4991 4194; CA 4990 4992 4597; CX 4997 4920 4694; CX 4998 4925 4697; CI 4736 4844; CA 5008 5009 4795; CA 5008 5010 4436;
  CA 4939 5011 4431; CA 5012 5013 4425; CA 5012 5014 4792; CA 4939 5016 4723; CX 5021 5022 4801; CI 4874 4879; CX 4983 5029 4888; CA 5030 5031 4247;
  CA 5030 5032 4651; CX 5043 4971 4732; CX 5044 4973 4734; CX 4987 4942 4898; CX 5046 4979 4738; CX 5047 4981 4740; CA 5060 5061 4861; CA 5062 5063 4870;
  CA 5062 5064 4495; CA 5060 5065 4497; CA 4925 5066 4601; CA 4925 5070 4591; CA 5071 5072 4252; CA 5071 5075 4794; CA 4920 5076 4595; CA 5077 5078 4486;
  CA 5079 5080 4494; CA 4920 5081 4590; CA 5082 5083 4245; CA 5077 5084 4862; CA 5079 5085 4868; CA 5082 5086 4791; CX 5089 5090 4787; CI 4923 4945;
  CI 4788 4947; CX 5093 5094 4722; CX 5029 5001 4959; CA 4979 5111 4656; CA 4981 5112 4657; CA 4981 5113 4641; CA 4979 5114 4645; CA 5115 5116 4311;
  CA 5117 5118 4318; CA 5115 5128 4860; CA 5117 5129 4871; CA 4973 5131 4654; CA 4971 5132 4648; CA 4971 5133 4642; CA 4973 5134 4644; CA 5135 5136 4316;
  CA 5137 5138 4314; CA 5137 5139 4865; CA 5135 5140 4867; CX 5200 5201 5054; CI 4942 5056; CA 5159 5214 5019; CX 5242 5243 5103; CI 5001 5105;
  CI 4987 5109; CX 5162 5278 5096; CX 5278 4956 5163; CX 5278 4958 5164; CI 5029 5168; CX 4088 4089 3887; CX 4116 4117 3896; CX 4117 4118 3898;
  CX 4122 4123 3895; CX 4124 4125 3899; CX 4217 4218 3970; CX 4219 4220 3973; CX 4220 4221 3975; CX 4222 4223 3972; CX 4224 4225 3976; CX 2891 1822 3027;
  CX 4401 2891 2860; CX 4463 2891 4035; CX 2915 1779 3046; CX 4465 2915 2888; CX 4487 4488 4160; CX 4491 4488 4170; CA 2891 2886 4039; CA 2905 2906 4131;
  CX 4524 2915 4119; CX 2992 3159 3080; CX 2992 2993 4121; CX 4331 4525 3924; CX 4526 4527 4168; CX 4396 4528 3926; CX 4529 4530 4174; CX 4531 4527 4384;
  CX 4533 4525 4394; CX 4534 4535 4161; CX 4536 4535 4176; CX 4537 4530 4386; CX 4538 4528 4398; CX 4539 4540 4380; CX 4541 4487 4383; CX 4542 4543 4382;
  CX 4544 4534 4385; CA 2802 2804 4345; CA 2992 2993 4129; CA 4547 4548 4350; CA 4547 4550 4367; CX 3078 1935 3081; CX 4551 2906 2778; CX 3078 1962 3076;
  CX 4551 4552 2947; CX 4553 4184 4199; CX 4555 3935 4351; CX 4557 4357 4349; CX 4558 3934 4348; CX 3159 1895 3160; CX 3159 1929 3155; CX 2804 2993 2916;
  CX 4524 4588 2945; CX 4592 4072 4415; CA 3078 3753 4274; CX 4366 4368 4201; CA 4628 4629 4414; CA 4628 4632 4512; CX 4640 4292 4323; CX 4499 4647 4473;
  CX 4659 4071 4471; CA 3159 4660 4400; CX 4693 4694 4583; CX 4695 4696 4576; CX 4697 4698 4578; CX 4541 4540 4395; CA 4703 4704 4560; CA 4705 4706 4362;
  CA 4705 4707 4559; CA 4708 4709 4556; CA 4708 4711 4356; CA 4703 4712 4365; CI 2892 4287; CX 4250 4249 4231; CA 4716 4717 3909; CA 4716 4719 4136;
  CI 4606 4610; CX 4722 4720 4561; CX 4731 4732 4635; CX 4733 4734 4633; CX 4737 4738 4624; CX 4739 4740 4626; CA 4744 4745 3996; CA 4746 4747 3993;
  CA 4748 4749 4602; CA 4750 4751 4604; CA 4744 4752 4435; CA 4746 4755 4427; CA 4756 4757 3989; CA 4758 4759 4593; CA 4760 4761 4596; CA 4756 4762 4422;
  CA 4758 4764 4421; CA 4760 4765 4432; CA 4748 4766 4437; CA 4750 4767 4438; CX 4243 4245 4229; CX 4253 4252 4233; CA 4782 4783 3994; CA 4782 4785 4248;
  CX 4786 4787 4663; CX 4791 4792 4198; CX 4792 4595 4403; CX 4793 4723 4203; CX 4794 4795 4205; CX 4601 4795 4411; CA 4796 4797 4375; CA 4720 4798 4457;
  CA 4720 4799 4048; CA 4796 4800 3964; CX 4722 4801 4666; CA 4811 4812 4077; CA 4813 4814 4068; CA 4818 4819 4653; CA 4811 4820 4496; CA 4813 4821 4498;
  CA 4825 4826 4070; CA 4827 4828 4074; CA 4825 4829 4484; CA 4827 4830 4492; CA 4818 4832 4493; CX 4321 4311 4290; CX 4308 4314 4288; CX 4317 4316 4294;
  CX 4320 4318 4296; CA 4844 4845 4511; CA 4844 4846 4513; CX 4860 4861 4254; CX 4648 4862 4466; CX 4657 4861 4468; CX 4865 4862 4256; CX 4867 4868 4262].
(** Lines 29605-30004 of the file. *)
Definition aes128_74 : list cg := [
  CX 4654 4868 4478; CX 4870 4656 4481; CX 4871 4870 4269; CI 4696 4714; CX 4874 4787 4605; CA 4879 4880 4675; CA 4879 4881 4280; CI 4796 4672;
  CA 4888 4889 4689; CA 4888 4896 4532; CA 4898 4899 3937; CA 4898 4917 4195; CI 4694 4779; CI 4697 4776; CA 4787 4943 4520; CA 4787 4944 4518;
  CA 4945 4946 4600; CA 4947 4948 4138; CA 4945 4949 4554; CA 4947 4950 4676; CI 4801 4802; CA 4959 4960 3992; CA 4959 4967 4244; CI 4732 4849;
  CI 4734 4852; CI 4738 4838; CI 4740 4841; CX 5019 5020 4721; CI 4722 4877; CA 5054 5055 4599; CA 5056 5057 4866; CA 5056 5058 4430;
  CA 5054 5059 4589; CX 5095 5096 4674; CA 5103 5104 4650; CA 5105 5106 4933; CA 5105 5107 4489; CA 5103 5108 4643; CA 5109 5110 4196; CA 5109 5127 4869;
  CI 5054 4929; CA 5162 5163 4957; CA 5161 5164 4955; CA 5168 5169 4246; CA 5168 5174 4932; CI 5103 4984; CX 3887 3888 3289; CX 3895 3896 3746;
  CX 3897 3898 3614; CX 3899 3888 3728; CX 3970 3971 3435; CX 3972 3973 3855; CX 3974 3975 3671; CX 3976 3971 3793; CX 4226 2860 4034; CX 4287 2888 4101;
  CX 4331 4160 4090; CA 2860 2861 4130; CX 3076 2906 3038; CX 4347 4348 3944; CX 4197 4349 3773; CX 4350 4351 3932; CX 4354 4349 4200; CX 4355 4351 3942;
  CX 4357 4348 4189; CX 4366 4350 4188; CX 4367 4368 4185; CX 4379 4380 4169; CX 4381 4382 4175; CX 4383 4379 3917; CX 4384 4379 4156; CX 4385 4381 3921;
  CX 4386 4381 4158; CX 4387 4382 4173; CX 4388 4380 4166; CX 4389 4380 4157; CX 4390 4380 4091; CX 4391 4382 4159; CX 4392 4382 4178; CX 4383 4384 4167;
  CX 4393 4394 3918; CX 4395 4394 4171; CX 4396 4161 4172; CX 4397 4398 3922; CX 4399 4398 4177; CX 4385 4386 4179; CA 2888 2892 4182; CX 4400 4129 3902;
  CX 3081 2861 3028; CX 2947 3078 3039; CX 2947 2940 4037; CX 4414 4415 4063; CX 4420 4415 4084; CA 3076 1822 4275; CA 2947 2940 4041; CA 2778 2779 4273;
  CX 3160 2892 3043; CX 3155 2946 3075; CX 4470 4471 4082; CX 4255 4473 3883; CX 4485 4473 4324; CX 4499 4471 4303; CX 4511 4414 4300; CX 4512 4513 4293;
  CA 3155 1779 4346; CA 2915 2916 4127; CA 2945 2946 4183; CX 4554 4231 4266; CX 4556 3991 4353; CX 4559 3994 4359; CX 4560 3995 4364; CA 4576 4577 4445;
  CA 4578 4579 4363; CA 4576 4580 4358; CA 4578 4582 4448; CA 4583 4584 4352; CA 4583 4585 4439; CX 4590 4229 4258; CX 4591 4233 4270; CX 4593 4073 4419;
  CX 4594 3989 4404; CX 4422 4595 4402; CX 4596 4075 4429; CX 4598 3993 4409; CX 4600 4427 4410; CX 4601 4435 4413; CX 4602 4076 4434; CX 4603 3996 4412;
  CX 4604 4069 4417; CX 4605 4606 4515; CA 4610 4611 4456; CA 4610 4612 4212; CA 4624 4625 4433; CA 4626 4627 4416; CA 4624 4630 4505; CA 4626 4631 4508;
  CA 4633 4634 4428; CA 4635 4636 4418; CA 4635 4637 4500; CA 4633 4638 4502; CX 4641 4290 4325; CX 4642 4288 4327; CX 4644 4294 4335; CX 4645 4296 4340;
  CX 4646 4070 4467; CX 4648 4484 4474; CX 4652 4074 4479; CX 4653 3937 4361; CX 4654 4492 4480; CX 4655 4077 4482; CX 4496 4656 4483; CX 4657 4498 4472;
  CX 4658 4068 4469; CX 4511 4513 4329; CA 4663 4664 3908; CA 4663 4665 4279; CX 4137 4138 4132; CA 4666 4667 3845; CA 4666 4671 4047; CI 4561 4567;
  CX 4674 4672 4521; CX 4520 4675 4276; CX 4676 4675 4049; CX 4689 3992 4424; CA 4714 4715 4447; CA 4714 4718 4446; CX 4720 4721 4607; CX 4600 4723 4408;
  CX 4194 4196 4186; CA 4776 4777 4449; CA 4776 4778 4450; CA 4779 4780 4440; CA 4779 4781 4441; CI 4605 4668; CX 4801 4721 4562; CA 4802 4803 4621;
  CA 4802 4804 4213; CX 4247 4246 4227; CA 4838 4839 4506; CA 4838 4840 4507; CA 4841 4842 4510; CA 4841 4843 4509; CA 4849 4850 4514; CA 4849 4851 4501;
  CA 4852 4853 4503; CA 4852 4854 4504; CX 4599 4866 4405; CX 4869 4866 4204; CA 4721 4875 4458; CA 4721 4876 4455; CA 4877 4878 4046; CA 4877 4885 4622;
  CX 4928 4929 4741; CX 4932 4933 4257; CX 4650 4933 4475; CX 4929 4942 4773; CX 4955 4956 4673; CX 4957 4958 4724; CX 4983 4984 4809; CX 4984 5001 4835;
  CI 4674 4882; CX 4818 4773 4545; CX 4888 4835 4574; CX 3728 3729 3293; CA 3746 3289 3633; CA 3746 3614 3438; CX 3793 3794 3437; CI 3289 3725;
  CI 3746 3674; CA 3855 3435 3717; CA 3855 3671 3548; CI 3435 3792; CI 3855 3743; CX 4090 4091 3761; CX 4130 4131 3836; CX 4156 4157 3759;
  CX 4158 4159 3140; CX 4160 4157 3919; CX 4161 4159 3923; CX 4162 4157 3925; CX 4163 4157 3916; CX 4164 4159 3927; CX 4165 4159 3920; CX 4166 4167 3763;
  CX 4168 4169 3745; CX 4170 4171 3772; CX 4172 4173 3411; CX 4174 4175 3412; CX 4176 4177 3696; CX 4178 4179 3324; CX 4182 4183 3892; CX 3039 3038 3701;
  CX 4184 4185 3945; CX 4188 4184 3765; CX 4189 4184 3928; CX 4191 4185 3929; CX 4192 4185 3939; CX 4193 4185 3946; CX 4197 3932 3938; CX 4199 4200 3766;
  CX 4201 4200 3943; CX 4188 4189 3947; CX 3080 3075 3731; CX 4255 4063 3999; CA 3039 3038 4040; CA 3028 3027 4038; CX 4273 4131 4036; CX 4274 4041 3839;
  CX 4275 4039 4033; CX 4292 4293 4083; CX 4300 4292 3871; CX 4303 4292 4057; CX 4309 4293 4058; CX 4313 4293 4000; CX 4322 4293 4112; CX 4323 4324 3860;
  CX 4329 4324 4085; CX 4300 4303 4113; CA 3080 3075 4128; CA 3043 3046 4126; CX 4345 4183 4120; CX 4346 4127 4100; CX 4352 4353 3985; CX 4356 4353 4007;
  CX 4358 4359 3987; CX 4362 4359 4023; CX 4363 4364 3988; CX 4365 4364 4027; CX 4198 4402 3827; CX 4403 4404 4011; CX 4408 4409 4017; CX 4203 4410 3831;
  CX 4411 4412 4029; CX 4205 4413 3833; CX 4416 4417 4064; CX 4418 4419 4065; CX 4421 4419 4086; CX 4422 4404 4237; CX 4425 4402 4259; CX 4427 4409 4239;
  CX 4428 4429 4066; CX 4431 4410 4267; CX 4432 4429 4098; CX 4433 4434 4067; CX 4435 4412 4241; CX 4436 4413 4271; CX 4437 4434 4104; CX 4438 4417 4108;
  CX 4439 4440 4230; CX 4441 4352 4235; CX 4445 4446 4232; CX 4447 4358 4238; CX 4448 4449 4234; CX 4450 4363 4240; CX 4456 3909 4211; CX 4466 4467 4078;
  CX 4468 4469 4080; CX 4254 4472 3881; CX 4256 4474 3885; CX 4478 4479 4094; CX 4262 4480 3889; CX 4481 4482 4102; CX 4269 4483 3893; CX 4484 4467 4302;
  CX 4486 4474 4328; CX 4492 4479 4305; CX 4493 4361 4019; CX 4494 4480 4336; CX 4495 4483 4339; CX 4496 4482 4307; CX 4497 4472 4326; CX 4498 4469 4301;
  CX 4500 4501 4289; CX 4502 4503 4295; CX 4504 4428 4304; CX 4505 4506 4297; CX 4507 4433 4306; CX 4508 4509 4291; CX 4510 4416 4298; CX 4514 4418 4299;
  CA 4515 4516 4210; CA 4515 4517 4282; CX 4518 4132 4139; CX 4519 3908 4277; CX 4520 4279 4278; CX 4532 4424 4092; CA 4545 4546 4360; CA 4545 4549 4369;
  CX 4561 4562 4451; CX 4447 4446 4268; CA 4521 4566 4378; CA 4567 4568 4376; CA 4521 4569 4151; CA 4567 4570 4150; CA 4574 4575 4423; CA 4574 4581 4443;
  CX 4589 4186 4263; CX 4441 4440 4260; CX 4450 4449 4272; CA 4607 4608 3846; CA 4607 4609 4209; CX 4048 4046 4042; CX 4458 4621 4206; CX 4622 4621 3968;
  CX 4643 4227 4332; CX 4514 4501 4330; CX 4504 4503 4337; CX 4507 4506 4338; CX 4510 4509 4341; CA 4668 4669 4281; CA 4668 4670 4283; CX 4672 4673 4563;
  CX 4674 4724 4613; CI 4562 4615; CX 4724 4673 4522; CA 4741 4742 3936; CA 4741 4743 4426; CA 4773 4774 4371; CA 4773 4775 4370; CA 4809 4810 3990;
  CA 4809 4815 4490; CA 4835 4836 4442; CA 4835 4837 4444; CA 4882 4883 3962; CA 4882 4884 4571; CI 4673 4725; CI 4724 4727; CX 3614 3293 3439;
  CX 3438 3293 3469; CA 3633 3293 3390; CX 3671 3437 3549; CX 3548 3437 3602; CX 3674 3289 3470; CI 3293 3617; CA 3717 3437 3465; CA 3725 3614 3616;
  CI 3438 3581; CX 3743 3435 3603; CI 3437 3673; CA 3792 3671 3672; CI 3548 3632; CX 3696 3324 3595; CX 3696 3140 3596; CX 3916 3917 3637;
  CX 3918 3919 3643; CX 3920 3921 3744; CX 3922 3923 3087; CX 3924 3925 3367; CX 3926 3927 3150; CX 3928 3929 3138; CX 3932 3929 3767; CX 3934 3929 3764;
  CX 3935 3929 3774; CX 3938 3939 3491; CX 3942 3943 3758; CX 3944 3945 3504; CX 3946 3947 3503; CX 3999 4000 3610; CX 4033 4034 3835; CX 4035 4036 3838].
(** Lines 30005-30404 of the file. *)
Definition aes128_75 : list cg := [
  CX 4036 4037 3840; CX 4038 4039 3837; CX 4040 4041 3841; CX 4057 4058 3858; CX 4063 4058 3861; CX 4071 4058 3870; CX 4072 4058 3884; CX 4082 4083 3612;
  CX 4084 4085 3880; CX 4100 4101 3891; CX 4112 4113 3514; CX 4119 4120 3901; CX 4120 4121 3903; CX 4126 4127 3900; CX 4128 4129 3904; CX 4198 3985 3940;
  CX 4203 3987 3952; CX 4205 3988 3956; CX 4210 4211 3907; CX 4212 4211 3914; CX 4229 4230 4012; CX 4231 4232 4018; CX 4233 4234 4030; CX 4235 4229 3809;
  CX 4237 4229 3977; CX 4238 4231 3817; CX 4239 4231 3981; CX 4240 4233 3821; CX 4241 4233 3983; CX 4242 4230 3978; CX 4243 4230 4003; CX 4245 4230 3941;
  CX 4248 4232 3982; CX 4249 4232 3953; CX 4250 4232 4021; CX 4251 4234 3984; CX 4252 4234 3957; CX 4253 4234 4031; CX 4254 4064 3997; CX 4256 4065 4001;
  CX 4235 4237 4004; CX 4258 4259 3812; CX 4260 4259 4008; CX 4262 4066 4015; CX 4238 4239 4022; CX 4266 4267 3818; CX 4268 4267 4024; CX 4269 4067 4025;
  CX 4270 4271 3822; CX 4272 4271 4028; CX 4240 4241 4032; CX 4276 4277 3912; CX 4049 4278 3741; CX 4279 4277 4135; CX 4280 4278 4140; CX 4281 4210 4134;
  CX 4282 4283 4133; CX 4288 4289 4079; CX 4290 4291 4081; CX 4294 4295 4095; CX 4296 4297 4103; CX 4298 4290 3867; CX 4299 4288 3869; CX 4301 4290 4053;
  CX 4302 4288 4055; CX 4304 4294 3873; CX 4305 4294 4059; CX 4306 4296 3879; CX 4307 4296 4061; CX 4308 4289 4114; CX 4310 4291 4054; CX 4311 4291 3998;
  CX 4312 4289 4056; CX 4314 4289 4002; CX 4315 4295 4060; CX 4316 4295 4016; CX 4317 4295 4096; CX 4318 4297 4026; CX 4319 4297 4062; CX 4320 4297 4106;
  CX 4321 4291 4110; CX 4325 4326 3862; CX 4327 4328 3864; CX 4330 4328 4087; CX 4304 4305 4097; CX 4335 4336 3874; CX 4337 4336 4099; CX 4338 4339 4105;
  CX 4340 4339 3876; CX 4306 4307 4107; CX 4341 4326 4109; CX 4298 4301 4111; CX 4299 4302 4115; CX 4360 4361 3933; CX 4369 4370 4187; CX 4371 4360 4190;
  CX 4376 3845 4149; CX 4423 4424 3986; CX 4442 4423 4236; CX 4443 4444 4228; CA 4451 4452 4148; CA 4451 4453 4214; CX 4455 4042 4052; CX 4457 3846 4207;
  CX 4458 4209 4208; CX 4521 4522 4372; CX 4281 4283 4141; CA 4563 4564 3780; CA 4563 4565 4147; CX 4597 3936 4406; CX 4599 4426 4407; CX 4371 4370 4265;
  CX 3964 3962 3958; CA 4613 4614 3781; CA 4615 4616 4215; CA 4615 4617 4216; CA 4613 4618 3963; CA 4522 4619 4154; CA 4522 4620 4155; CX 4650 4490 4477;
  CX 4651 3990 4476; CX 4442 4444 4334; CA 4725 4726 4454; CA 4727 4728 4152; CA 4725 4729 4377; CA 4727 4730 4572; CX 3438 3439 3201; CA 3469 3470 3288;
  CX 3548 3549 3343; CX 3470 3581 3391; CA 3602 3603 3434; CA 3616 3617 3200; CX 3581 3289 3467; CX 3603 3632 3466; CA 3672 3673 3342; CX 3632 3435 3601;
  CX 3087 3744 3403; CX 3367 3637 3477; CX 3643 3637 3482; CX 3150 3744 3401; CX 3087 3411 3413; CX 3412 3744 3404; CX 3324 3744 3307; CX 3745 3637 3351;
  CX 3745 3504 3389; CX 3758 3503 3648; CX 3759 3138 3377; CX 3758 3138 3654; CX 3761 3491 3387; CX 3763 3503 3580; CX 3764 3765 3636; CX 3766 3767 3240;
  CX 3772 3758 3655; CX 3773 3774 3152; CX 3835 3836 3220; CX 3837 3838 3727; CX 3839 3840 3585; CX 3841 3836 3700; CX 3860 3861 3567; CX 3870 3871 3718;
  CI 3744 3534; CX 3883 3884 3724; CX 3891 3892 3291; CX 3900 3901 3747; CX 3902 3903 3615; CX 3904 3892 3730; CI 3758 3695; CX 3940 3941 3575;
  CX 3952 3953 3568; CX 3956 3957 3749; CX 3977 3978 3802; CX 3981 3982 3066; CX 3983 3984 3797; CX 3985 3978 3813; CX 3987 3982 3819; CX 3988 3984 3823;
  CX 3989 3978 3808; CX 3991 3978 3828; CX 3993 3982 3816; CX 3994 3982 3832; CX 3995 3984 3834; CX 3996 3984 3820; CX 3997 3998 3662; CX 4001 4002 3798;
  CX 4003 4004 3807; CX 4007 4008 3825; CX 4011 4012 3576; CX 4015 4016 3762; CX 4017 4018 3574; CX 4021 4022 3458; CX 4023 4024 3628; CX 4025 4026 3611;
  CX 4027 4028 3805; CX 4029 4030 3691; CX 4031 4032 3801; CX 4049 3907 3847; CX 4053 4054 3660; CX 4055 4056 3856; CX 4059 4060 3760; CX 4061 4062 3705;
  CX 4064 4054 3863; CX 4065 4056 3865; CX 4066 4060 3875; CX 4067 4062 3877; CX 4068 4054 3866; CX 4069 4054 3882; CX 4070 4056 3868; CX 4073 4056 3886;
  CX 4074 4060 3872; CX 4075 4060 3890; CX 4076 4062 3894; CX 4077 4062 3878; CX 4078 4079 3722; CX 4080 4081 3657; CX 4086 4087 3859; CX 4094 4095 3723;
  CX 4096 4097 3693; CX 4098 4099 3826; CX 4102 4103 3613; CX 4104 4105 3716; CX 4106 4107 3710; CX 4108 4109 3668; CX 4110 4111 3663; CX 4114 4115 3857;
  CX 4132 4133 3913; CX 4134 4132 3737; CX 4135 4132 3905; CX 4136 4133 3906; CX 4137 4133 3910; CX 4138 4133 3848; CX 4134 4135 3911; CX 4139 4140 3738;
  CX 4141 4140 3915; CX 4148 4149 3844; CX 4150 4149 3851; CX 4186 4187 3951; CX 4190 4186 3769; CX 4194 4187 3948; CX 4195 4187 3931; CX 4196 4187 3955;
  CX 4204 3933 3954; CX 4206 4207 3849; CX 3968 4208 3714; CX 4209 4207 4045; CX 4213 4208 4051; CX 4214 4215 4043; CX 4216 4148 4044; CX 4227 4228 4010;
  CX 4236 4227 3811; CX 4244 4228 3980; CX 4246 4228 4006; CX 4247 4228 4013; CX 4257 3986 4005; CA 4372 4373 4145; CA 4372 4374 4153; CX 4375 3780 4144;
  CX 4377 4147 4142; CX 4378 3781 4146; CX 4405 4406 3950; CX 4204 4407 3775; CX 4426 4406 4202; CX 4430 4407 4264; CX 4454 3958 3966; CX 4216 4215 4050;
  CX 4155 4154 3969; CX 4475 4476 4009; CX 4257 4477 3829; CX 4489 4477 4333; CX 4490 4476 4261; CX 4571 4572 3965; CX 4377 4572 4143; CX 3200 3201 3019;
  CX 3288 3289 3047; CX 3342 3343 3120; CX 3390 3391 3023; CX 3434 3435 3188; CX 3465 3466 3122; CA 3467 3439 3292; CA 3601 3549 3436; CX 3404 3140 3463;
  CX 3411 3401 3464; CX 3477 3491 3347; CX 3482 3504 3349; CX 3403 3412 3355; CX 3636 3637 3505; CX 3240 3636 3481; CX 3643 3240 3516; CX 3152 3637 3475;
  CX 3152 3636 3478; CX 3491 3240 3507; CX 3504 3636 3480; CX 3503 3636 3485; CX 3700 3701 3222; CX 3567 3718 3608; CX 3612 3718 3609; CX 3724 3718 3299;
  CA 3727 3220 3620; CX 3730 3731 3295; CA 3727 3585 3394; CA 3747 3291 3634; CA 3747 3615 3440; CX 3611 3749 3416; CX 3753 3749 3005; CX 3749 1895 3007;
  CX 3754 3749 3128; CX 3749 1286 3181; CX 3761 3575 3273; CX 3762 3568 3216; CI 3220 3699; CI 3727 3635; CX 3797 1350 3406; CX 3797 2015 3142;
  CX 3797 1929 3009; CX 3745 3576 2936; CX 3723 3574 3218; CX 3693 3458 3521; CX 3610 3798 3335; CX 3798 2223 2959; CX 2541 3798 3116; CX 3691 1635 2865;
  CX 3691 1579 2977; CX 3691 1394 3175; CX 3801 1823 3096; CX 3628 3458 3650; CX 3760 3066 3212; CX 3705 3797 3599; CX 3628 3066 3698; CX 3759 3802 3270;
  CX 3805 1234 3410; CX 3805 1349 3408; CX 3806 3805 3418; CX 3662 3610 3113; CX 3710 3801 3338; CX 3808 3809 3677; CX 3763 3807 3649; CX 3812 3813 3490;
  CX 3816 3817 3676; CX 3818 3819 3205; CX 3820 3821 3678; CX 3822 3823 3538; CX 3826 3628 3631; CX 3716 3805 3600; CX 3827 3828 3694; CX 3772 3825 3653;
  CX 3831 3832 3035; CI 3291 3726; CX 3833 3834 3681; CI 3747 3675; CX 3847 3848 3702; CX 2610 3856 3196; CX 3612 3657 2840; CX 3857 3514 3337;
  CX 3857 2169 3102; CX 2595 3722 3092; CX 2690 3722 3013; CX 2639 3722 3014; CX 3858 3856 3547; CX 3858 3660 3110; CX 3859 2761 3316; CX 3663 3514 3539;
  CX 3862 3863 3537; CX 3864 3865 3683; CX 3866 3867 3532; CX 3868 3869 3719; CX 3872 3873 3639; CX 3874 3875 3640; CX 3876 3877 3313; CX 3878 3879 3721;
  CX 3880 3859 3546; CX 3881 3882 3536; CX 3880 3668 3542; CX 3885 3886 3720; CX 3889 3890 3209; CX 3893 3894 3594; CX 3905 3906 3732; CX 3907 3906 3739;
  CX 3908 3906 3736; CX 3909 3906 3742; CX 3910 3911 3733; CX 3912 3913 3626; CX 3914 3915 3735; CX 3933 3931 3771; CX 3936 3931 3768; CX 3937 3931 3776;
  CI 3798 3751; CX 3950 3951 3512; CX 3954 3955 3511; CI 3801 3757; CX 3968 3844 3788; CI 3856 3795; CX 3986 3980 3815; CX 3990 3980 3810;
  CX 3992 3980 3830; CI 3859 3803; CX 4005 4006 3750; CX 4009 4010 3692; CI 3857 3799; CX 4042 4043 3850; CX 4044 4042 3712; CX 4045 4042 3842].
(** Lines 30405-30804 of the file. *)
Definition aes128_76 : list cg := [
  CX 4046 4043 3789; CX 4047 4043 3843; CX 4048 4043 3853; CX 4050 4051 3852; CX 4052 4051 3708; CX 4044 4045 3854; CX 3965 4142 3669; CX 4143 4144 3786;
  CX 4145 4146 3779; CX 4147 4144 3961; CX 4151 4146 3790; CX 4152 4142 3967; CX 4153 4154 3959; CX 4155 4145 3960; CX 4190 4202 3949; CX 4202 4186 3930;
  CX 4236 4261 4014; CX 4263 4264 3770; CX 4265 4264 4020; CX 4261 4227 3979; CX 4332 4333 3814; CX 4334 4333 4093; CX 3023 3019 2881; CA 3019 3044 2650;
  CA 3019 3045 2818; CX 3023 3047 2988; CX 3122 3120 2967; CA 3120 3186 2696; CA 3120 3187 2879; CX 3122 3188 3040; CI 3047 3072; CX 3292 3293 3020;
  CI 3023 3156; CI 3188 3197; CX 3436 3437 3121; CI 3122 3228; CX 3477 3478 3272; CX 3480 3138 3271; CX 3481 3482 3247; CX 3480 3351 3269;
  CX 3491 3478 3274; CX 3481 3504 3264; CX 3585 3222 3395; CX 3394 3222 3443; CX 3547 3609 3425; CX 3610 3299 3423; CX 3612 3608 3426; CX 3615 3295 3441;
  CX 3440 3295 3471; CA 3620 3222 3296; CA 3634 3295 3392; CX 3635 3220 3444; CX 3648 3649 3519; CX 3653 3377 3496; CX 3654 3653 3498; CX 3655 3649 3528;
  CI 3222 3587; CX 3675 3291 3472; CX 3676 3639 3506; CX 3677 3637 3486; CX 3205 3676 3562; CX 3538 3678 3558; CX 3643 3490 3508; CX 1899 3678 3098;
  CX 1821 3678 3169; CX 1778 3678 3106; CX 3640 3205 3578; CX 3490 3677 3565; CX 3035 3639 3479; CX 3035 3676 3493; CX 3681 3678 3550; CX 3683 3113 3566;
  CX 3538 3686 3185; CX 3538 1258 3183; CX 3205 3568 3509; CX 3689 3681 3166; CX 3690 3681 3108; CX 3574 3676 3555; CX 3458 3676 3487; CX 3691 3678 3559;
  CX 3576 3677 3564; CX 3693 3676 3484; CX 3694 3367 3494; CX 3694 3677 3476; CX 3600 3696 3584; CA 3699 3585 3586; CI 3295 3619; CI 3394 3526;
  CX 3511 3702 3577; CX 3702 2004 3134; CX 3702 1968 3280; CX 3718 3532 3309; CX 3718 3719 3311; CX 3720 3719 3604; CX 3683 3719 3605; CX 3537 3567 3327;
  CX 2135 3719 3242; CX 2251 3719 3104; CX 3537 3532 3304; CX 3536 3532 3300; CX 3209 3639 3554; CX 3640 3639 3563; CX 3313 3721 3561; CX 2612 3683 3118;
  CX 3722 3719 3607; CX 3657 3532 3305; CX 3613 3721 3560; CX 3723 3639 3258; CX 3724 3536 3315; CX 3594 3721 3399; CA 3726 3615 3618; CI 3440 3582;
  CX 2068 3732 3571; CX 2109 3732 3033; CX 2029 3732 3146; CX 3626 2034 3359; CX 3626 2114 2898; CX 3626 2064 2932; CX 3733 1967 3268; CX 3735 2115 3456;
  CX 3735 2037 3573; CX 3736 3737 3622; CX 3738 3739 3621; CX 3741 3742 3623; CI 2936 2902; CX 3512 3723 2937; CX 3575 3750 3515; CX 2391 3751 3190;
  CX 2283 3751 3192; CX 3757 2019 3419; CX 3757 1933 3421; CX 3762 3511 3370; CI 3677 3474; CI 3649 3645; CX 3768 3769 3638; CX 3770 3771 3454;
  CI 3678 3642; CI 3653 3652; CX 3775 3776 3647; CI 3702 3658; CX 3788 3789 3661; CX 2792 3795 3318; CX 2490 3795 2963; CX 2436 3799 3340;
  CX 2333 3799 3287; CX 2281 3799 3334; CX 3750 2091 3060; CX 3750 2061 3276; CX 3692 2159 2978; CX 3692 2248 2979; CX 2854 3803 3321; CX 3803 2335 3332;
  CI 3683 3684; CI 3719 3680; CX 3810 3811 3679; CX 3814 3815 3644; CI 3721 3397; CI 3720 3685; CX 3829 3830 3682; CX 3842 3843 3704;
  CX 3844 3843 3709; CX 3845 3843 3715; CX 3846 3843 3711; CI 3733 3703; CI 3735 3706; CX 3849 3850 3593; CX 3851 3852 3713; CX 3853 3854 3707;
  CX 3930 3931 3734; CI 3750 3752; CI 3692 3756; CX 3948 3949 3646; CX 3958 3959 3787; CX 3960 3958 3665; CX 3961 3958 3777; CX 3962 3959 3783;
  CX 3963 3959 3778; CX 3964 3959 3784; CX 3965 3779 3782; CX 3966 3967 3666; CX 3960 3961 3785; CX 3969 3967 3791; CX 3979 3980 3796; CX 4013 4014 3800;
  CX 4019 4020 3740; CX 4092 4093 3824; CA 2988 2989 2547; CA 2988 2990 2649; CI 2881 2889; CX 3019 3020 2911; CA 3040 3041 2616; CA 3040 3042 2695;
  CI 2967 2969; CX 3047 3020 2882; CA 3072 3073 2726; CA 3072 3079 2948; CX 3120 3121 3010; CA 3020 1900 2819; CA 3020 3154 2816; CA 3156 3157 2651;
  CA 3156 3161 2949; CX 3188 3121 2968; CA 3197 3198 2771; CA 3197 3199 3025; CA 3121 1824 2880; CA 3121 3227 2878; CA 3228 3229 2697; CA 3228 3230 3026;
  CX 3269 3270 3067; CX 3271 3270 3069; CX 3272 3273 3059; CX 3274 3273 3064; CX 3394 3395 3163; CX 3425 3305 3193; CX 3440 3441 3203; CA 3443 3444 3219;
  CA 3471 3472 3290; CX 3475 3476 3231; CX 3485 3486 3243; CX 3494 3478 3235; CX 3494 3505 3249; CX 3507 3508 3275; CX 3515 3516 3277; CX 3444 3526 3297;
  CX 3399 3550 3382; CX 3553 3550 3224; CX 3550 3397 3362; CX 3554 3493 3369; CX 3555 3066 3368; CX 3558 1577 3354; CX 3559 1963 3225; CX 3560 3559 3374;
  CX 3561 3558 3384; CX 3555 3258 3364; CX 3562 3563 3358; CX 3566 3567 3344; CX 3568 3493 3371; CX 3562 3574 3207; CX 3575 3476 3346; CX 3565 3576 3348;
  CX 3577 3578 3372; CX 3508 3387 3380; CX 3580 3486 3356; CX 3582 3472 3393; CA 3586 3587 3162; CX 3526 3220 3442; CX 3604 3299 3430; CX 2641 3605 3099;
  CX 3606 3604 2960; CX 2539 3607 2965; CX 3608 3605 3432; CX 3609 3607 3428; CX 3560 3599 3360; CX 3554 3568 3252; CX 3563 3574 3254; CX 3611 3399 3170;
  CX 3561 3613 3172; CA 3618 3619 3202; CX 3621 3622 3449; CX 2016 3622 3353; CX 1964 3622 3256; CX 1930 3622 3260; CX 3623 3622 3446; CX 3621 3370 3453;
  CX 3621 2017 3373; CX 3624 3623 3234; CX 3625 3623 3262; CX 3626 3622 3450; CX 3582 3291 3468; CX 3638 3639 3488; CX 3454 3640 3510; CX 3642 1824 3165;
  CX 3454 3638 3452; CX 3273 3644 3489; CX 3645 3636 3473; CX 3512 3638 3451; CX 3646 3638 3483; CX 3647 3209 3492; CX 3647 3638 3445; CX 3658 2081 3030;
  CX 3658 2035 3061; CX 3661 3611 3179; CX 3661 3411 3383; CX 3644 3679 3556; CX 3680 2171 3083; CX 2057 3679 3246; CX 2110 3679 3266; CX 2030 3679 3357;
  CX 3682 3679 3551; CX 3684 2492 3282; CX 2133 3685 3094; CX 2253 3685 3090; CX 2167 3685 3085; CX 3644 2031 3381; CX 3644 2111 3278; CX 3687 3682 3232;
  CX 3688 3682 3250; CX 3692 3679 3557; CX 3593 3613 2867; CX 3593 3412 3385; CX 3703 2113 3459; CX 3703 2033 3529; CX 3704 3140 3375; CX 3704 3705 3177;
  CX 3706 2065 3525; CX 3707 3324 3341; CI 3622 3589; CI 3621 3591; CX 3708 3709 3588; CX 3707 3710 3592; CX 3711 3712 3590; CX 3713 3696 3598;
  CX 3714 3715 3363; CX 3713 3716 3597; CX 3733 3646 3579; CX 3734 3732 3497; CI 3638 3448; CX 3740 3735 3627; CX 3646 3693 3651; CX 3752 2129 3132;
  CX 3752 2198 3130; CX 3756 2128 3248; CX 3734 3760 3365; CI 3679 3641; CX 3777 3778 3194; CX 3779 3778 3667; CX 3780 3778 3664; CX 3781 3778 3670;
  CX 3782 3783 3314; CX 3784 3785 3540; CX 3786 3787 3322; CX 3790 3791 3659; CX 2126 3796 3068; CX 2246 3796 3144; CX 3800 2060 3244; CX 3802 3796 3569;
  CX 3807 3800 3518; CX 3824 3825 3656; CX 3740 3826 3697; CI 3796 3748; CI 3800 3755; CI 3824 3804; CX 2881 2882 2799; CA 2889 2890 2795;
  CA 2889 2893 2789; CA 2911 2912 2546; CA 2911 2913 2725; CX 2650 2651 2644; CX 2948 2819 2346; CX 2949 2948 2606; CX 2967 2968 2869; CA 2969 2970 2855;
  CA 2969 2971 2853; CA 3010 3011 2615; CA 3010 3012 2770; CX 2696 2697 2693; CX 3025 2880 2443; CX 3026 3025 2675; CI 2882 2941; CX 3059 3060 2987;
  CX 3067 3068 2924; CI 2968 3016; CX 3162 3163 2995; CX 3193 3194 3015; CX 3202 3203 3021; CX 3219 3220 3029; CX 3231 3232 1714; CX 3243 3244 2925;
  CX 3247 3248 2785; CX 3249 3250 1457; CX 3275 3276 2928; CX 3277 3278 2976; CX 3290 3291 3048; CX 3296 3297 2997; CX 3346 3347 3131; CX 3348 3349 2851;
  CX 3354 3355 2909; CX 3356 3357 2897; CX 3358 3359 2810; CX 3362 3363 3149; CX 3364 3365 3145; CX 3368 3365 3148; CX 3369 3370 3133; CX 3371 3370 3136;
  CX 3372 3373 2896; CX 3374 3375 3141; CX 3380 3381 2927; CX 3382 3383 3127; CX 3384 3385 2847; CX 3392 3393 3024; CA 3442 3395 3221; CX 3445 3446 3215;
  CX 3447 3446 3135; CX 3448 3446 3208; CX 3449 2066 3206; CX 3450 2056 3147; CX 3451 3450 3211; CX 3452 3449 3217; CX 3453 3454 3204; CX 3463 3177 3226].
(** Lines 30805-31204 of the file. *)
Definition aes128_77 : list cg := [
  CX 3464 3179 3223; CA 3468 3441 3294; CX 3473 3474 3245; CX 3479 3445 3233; CX 3483 3484 3255; CX 3487 3488 3267; CX 3489 3490 3239; CX 3492 3493 3237;
  CX 3451 3497 3257; CX 3492 3506 3261; CX 3509 3510 3279; CX 3511 3445 3251; CX 3512 3452 3253; CX 3518 3505 3265; CX 3216 3510 3283; CX 3521 3488 3259;
  CX 3179 3538 3312; CX 3476 3551 3386; CX 3552 3551 3063; CX 3474 3551 3366; CX 3556 2161 3263; CX 3557 2157 3070; CX 3564 3557 3376; CX 3565 3556 3388;
  CX 3569 3564 3350; CX 3579 3506 3352; CX 3584 3177 3379; CX 3588 3313 3414; CX 3589 1969 3238; CX 3588 3087 3415; CX 3150 3590 3398; CX 3363 3590 3400;
  CX 3588 3590 3402; CX 3591 1931 3284; CX 3592 3534 3396; CX 3593 3590 3361; CX 3594 3363 3330; CX 3595 3592 3417; CX 3596 3597 3405; CX 3375 3597 3409;
  CX 3598 3592 3422; CX 3598 3599 3407; CX 3341 3600 3420; CX 3300 3314 3424; CX 3304 3322 3427; CX 3627 3628 3461; CX 3627 3521 3460; CX 3631 3497 3455;
  CX 3641 2062 3236; CX 3542 3540 3513; CX 3650 3651 3524; CX 3652 3518 3502; CX 3631 3651 3530; CX 3656 3580 3523; CX 3569 3655 3501; CX 3657 3322 3433;
  CX 3659 3540 3541; CX 3660 3194 3429; CX 3659 3194 3543; CX 3662 3314 3431; CX 3663 3540 3517; CX 3664 3665 3531; CX 3666 3667 3345; CI 3590 3533;
  CX 3668 3659 3545; CX 3669 3670 3535; CI 3597 3544; CX 3695 3656 3583; CX 3212 3697 3572; CX 3698 3697 3570; CI 3659 3629; CX 3748 2163 3499;
  CX 3755 2247 3522; CX 3755 2127 3527; CI 3697 3630; CX 2131 3804 3495; CX 2249 3804 3500; CX 2160 3804 3520; CX 2789 2790 2553; CX 2795 2547 2655;
  CA 2799 2800 2709; CA 2799 2803 2729; CX 2816 2644 2173; CX 2818 2546 2721; CX 2725 2819 2723; CX 2853 2854 2620; CX 2855 2616 2698; CA 2869 2870 2755;
  CA 2869 2871 2772; CX 2878 2693 2255; CX 2879 2615 2768; CX 2770 2880 2769; CX 2897 2924 1308; CX 2924 2927 1208; CA 2941 2942 2731; CA 2941 2943 2730;
  CX 2997 2995 2857; CX 3015 2536 2783; CA 3016 3017 2774; CA 3016 3018 2773; CX 3024 3021 2883; CA 2995 3027 2793; CA 2995 3028 2600; CX 2997 3029 2939;
  CI 2987 2894; CA 3021 3043 2653; CA 3021 3046 2820; CX 3024 3048 2991; CX 2925 2928 1373; CX 3063 3064 2917; CX 3069 3070 2926; CX 2897 2927 1302;
  CX 3127 3128 2743; CX 3131 3132 2805; CX 3133 3134 2994; CX 3135 3136 2918; CX 3141 3142 2745; CX 3145 3146 2922; CX 3147 3148 2923; CX 3149 3150 2983;
  CI 3029 3037; CX 3204 3205 3036; CX 3206 3207 2845; CX 3208 3209 3034; CX 3211 3212 3032; CX 3215 3216 3031; CX 3217 3218 2786; CI 3048 3074;
  CX 3221 3222 2996; CI 2997 3077; CX 3223 3224 2862; CX 3225 3226 2863; CX 3233 3234 1657; CX 3235 3236 1664; CX 3237 3238 1729; CX 3239 3240 3071;
  CX 3245 3246 2843; CX 3251 3252 3062; CX 3253 3254 2814; CX 3255 3256 2807; CX 3257 3258 3065; CX 3259 3260 2931; CX 3261 3262 1661; CX 3263 3264 2812;
  CX 3265 3266 2975; CX 3267 3268 2972; CX 3279 3280 2974; CX 3283 3284 2973; CX 3294 3295 3022; CI 3024 3158; CX 3312 3313 3086; CX 3344 3345 3153;
  CX 3350 3351 3137; CX 3352 3353 2895; CX 3360 3361 3139; CX 3366 3367 3151; CX 3376 3377 3143; CX 3379 1411 2836; CX 3386 3387 3129; CX 3388 3389 2849;
  CX 3396 3397 3168; CX 3398 3399 3167; CX 3400 3401 3178; CX 3402 3403 3174; CX 3361 3404 3176; CX 3330 3401 3164; CX 3405 3406 3001; CX 3407 3408 3002;
  CX 3409 3410 3003; CX 3400 3411 3171; CX 3402 3412 3173; CX 3413 3414 3180; CX 3415 3416 3182; CX 3417 3418 2998; CX 3383 3414 3184; CX 3419 3420 2999;
  CX 3421 3422 3000; CX 3423 3424 3191; CX 3426 3427 2876; CX 3428 3429 3195; CX 3430 3431 3189; CX 3432 3433 2874; CX 3455 3456 3125; CX 3459 3460 3123;
  CX 3461 3365 3213; CX 3495 3496 3126; CX 3498 3499 3057; CX 3500 3501 3056; CX 3502 3503 3285; CX 3513 3514 3286; CX 3431 3327 3281; CX 3517 3309 3241;
  CX 3519 3520 3051; CX 3522 3523 3052; CX 3524 3525 3050; CX 3527 3528 3124; CX 3529 3530 3049; CX 3531 3532 3325; CX 3533 3397 3306; CX 3533 3534 3329;
  CX 3345 3531 3303; CX 3535 3536 3328; CX 3537 3345 3336; CX 3535 3531 3301; CX 3535 3532 3298; CX 3539 3531 3310; CX 3314 3345 3326; CX 3322 3531 3302;
  CX 3540 3531 3308; CX 3541 3539 3331; CX 3429 3542 3317; CX 3543 3542 3319; CX 3544 3338 3323; CX 3545 3539 3333; CX 3517 3546 3339; CX 3547 3545 3320;
  CX 3570 3571 3054; CX 3572 3573 3053; CX 3583 3270 3378; CX 3629 3546 3462; CX 3630 3579 3457; CX 2709 2655 2605; CX 2721 2644 2543; CX 2606 2723 2350;
  CX 2725 2721 2645; CX 2726 2723 2604; CX 2729 2730 2640; CX 2731 2709 2643; CX 2755 2698 2674; CX 2768 2693 2614; CX 2675 2769 2447; CX 2770 2768 2694;
  CX 2771 2769 2673; CX 2772 2773 2691; CX 2774 2755 2692; CX 2731 2730 2344; CX 2774 2773 2441; CX 2897 2894 1375; CX 2902 2894 2784; CX 2925 2926 1494;
  CX 2926 2928 1217; CX 2925 2917 1496; CX 2936 2917 2813; CA 2939 2940 2495; CA 2939 2947 2602; CI 2857 2859; CX 2922 2931 1433; CX 2972 2923 1560;
  CX 2922 2973 1248; CX 2923 2974 1284; CX 2972 2918 1562; CX 2843 2805 1550; CX 2977 2743 2848; CX 2978 2805 2852; CX 2983 1900 1720; CX 2937 2918 2846;
  CA 2991 2992 2652; CA 2991 2993 2549; CX 2995 2996 2885; CI 2883 2887; CX 3021 3022 2914; CX 3029 2996 2858; CX 3030 3031 2699; CI 2917 2938;
  CX 3032 3033 2700; CX 3034 3035 2901; CX 3036 1965 2808; CA 3037 3038 2708; CA 3037 3039 2907; CX 2867 2862 2910; CX 3048 3022 2884; CX 2931 2973 1354;
  CX 2972 2974 1482; CX 2975 2976 1426; CX 3049 2973 2634; CX 3050 2974 2667; CX 3051 2928 2635; CX 3052 2976 2669; CX 3053 2973 2718; CX 3054 2974 2750;
  CX 3056 2976 2754; CX 3057 2928 2720; CI 2743 2776; CI 2805 2856; CX 3061 3062 2780; CI 2994 2919; CI 2918 2986; CX 3065 3066 2935;
  CX 3071 2058 2844; CA 3074 3075 2728; CA 2996 1822 2794; CA 2996 3076 2788; CA 3077 3078 2601; CA 3074 3080 2950; CA 3077 3081 2908; CX 3086 3087 2966;
  CX 2895 2896 1358; CX 3123 2896 2591; CX 3124 2927 2592; CX 3125 2896 2702; CX 3126 2927 2704; CX 3129 3130 2744; CX 3137 3138 2984; CX 3139 3140 2985;
  CX 3143 3144 2749; CX 3151 3152 2982; CX 3153 2538 2873; CA 3022 1779 2821; CA 3022 3155 2817; CA 3158 3159 2654; CA 3158 3160 2951; CX 2998 3001 2742;
  CX 2999 3002 2685; CX 3000 3003 2590; CX 3164 3165 1810; CX 3166 3167 1523; CX 3168 3169 2829; CX 3170 3171 3004; CX 3172 3173 2758; CX 3174 3175 2756;
  CX 3176 3177 3008; CX 3178 3179 3006; CX 3180 3181 2952; CX 3182 3183 2953; CX 3184 3185 2864; CI 2862 2903; CX 3189 3190 2826; CX 3191 3192 2781;
  CX 3195 3196 2839; CX 3123 3125 2593; CX 3213 2067 2900; CX 3049 3053 2637; CX 3050 3054 2670; CX 3124 3126 2594; CX 3057 3051 2638; CX 3052 3056 2672;
  CX 3241 3242 2833; CX 3281 3282 2837; CX 3285 2158 2933; CX 3286 3287 2980; CX 3298 3299 3084; CX 3300 3301 3112; CX 3302 3194 3111; CX 3303 3304 3091;
  CX 3302 3305 3109; CX 3306 3307 3095; CX 3308 3309 3101; CX 3310 3311 3088; CX 3314 3301 3114; CX 3315 3301 3082; CX 3316 3317 3058; CX 3318 3319 2956;
  CX 3320 3321 2957; CX 3303 3322 3100; CX 3323 3324 3119; CX 3315 3325 3093; CX 3326 3327 3115; CX 3328 3311 3089; CX 3329 3330 3107; CX 3331 3332 2954;
  CX 3333 3334 3055; CX 3335 3336 3117; CX 3337 3325 3103; CX 3329 3338 3097; CX 3339 3340 2955; CX 3306 3341 3105; CX 3378 2162 2934; CX 3457 3458 3214;
  CX 3462 2790 3210; CX 2604 2605 2348; CX 2606 2605 2501; CX 2639 2640 2542; CX 2643 2644 2337; CX 2645 2644 2339; CX 2649 2640 2537; CX 2650 2640 2550;
  CX 2651 2640 2502; CX 2643 2645 2551; CX 2655 2604 2552; CX 2673 2674 2445; CX 2675 2674 2576; CX 2690 2691 2613; CX 2692 2693 2438; CX 2694 2693 2440;
  CX 2695 2691 2611; CX 2696 2691 2617; CX 2697 2691 2577; CX 2692 2694 2618; CX 2698 2673 2619; CX 1208 1375 1361; CX 2784 2785 2703; CX 1217 1496 1370;
  CX 2720 1494 1218; CX 2704 1308 1209; CX 2812 2813 2719; CX 2685 1720 1762; CX 1284 1562 1480; CX 2718 1433 1247; CX 2750 1560 1285; CX 2845 2846 2748].
(** Lines 31205-31604 of the file. *)
Definition aes128_78 : list cg := [
  CX 2847 2848 2746; CX 2851 2852 2751; CX 2857 2858 2777; CA 2859 2860 2762; CA 2859 2861 2760; CX 2783 2873 1333; CX 2883 2884 2801; CA 2885 2886 2496;
  CA 2887 2888 2796; CA 2885 2891 2707; CA 2887 2892 2791; CX 2700 2895 1437; CX 2700 2896 1212; CX 2807 2808 1366; CX 2895 2699 1438; CX 2898 2699 2787;
  CX 2900 2808 2717; CX 2901 2018 1602; CX 2600 2601 2598; CX 2907 2794 2292; CX 2908 2907 2566; CX 2909 2910 2797; CA 2914 2915 2727; CA 2914 2916 2548;
  CX 2843 2844 1419; CX 2931 2919 1491; CX 2807 2780 1490; CX 2932 2780 2815; CX 2933 2844 2668; CX 2934 2844 2753; CX 2935 2055 2782; CX 2937 2919 2811;
  CX 2653 2654 2647; CX 2950 2821 2354; CX 2951 2950 2609; CX 2966 1335 2806; CX 2863 2952 1330; CX 2745 2953 1254; CX 2975 2749 1558; CX 2749 2976 1256;
  CX 2975 2744 1545; CX 2979 2744 2850; CX 2980 2873 2687; CX 2982 2112 1717; CX 2984 2156 2809; CX 2985 1962 2736; CI 2858 2904; CX 2742 1810 1865;
  CX 2998 2952 2741; CX 2999 2953 2684; CX 3000 2864 2588; CX 3001 2952 2798; CX 3002 2953 2747; CX 3003 2864 2679; CI 2699 2714; CX 3004 3005 2735;
  CX 3006 3007 2866; CX 3008 3009 2828; CX 3013 2826 2875; CX 3014 2781 2877; CI 2884 2944; CI 1354 2535; CI 2780 2823; CX 2833 2837 1240;
  CX 2637 1661 1653; CX 2670 1729 1761; CX 2594 1457 1650; CX 2638 1664 1725; CX 3055 2837 2511; CX 2934 2933 2671; CX 3058 2837 2659; CI 2744 2775;
  CX 3058 3055 2513; CX 2956 2954 2514; CX 2957 2955 2688; CX 3082 3083 1461; CX 3084 3085 1769; CX 3088 2165 2872; CX 3089 3090 1765; CX 3091 3092 2737;
  CX 3093 3094 1455; CX 3095 3096 2920; CX 3097 3098 2921; CX 3099 3100 2739; CX 3101 3102 2835; CX 3103 3104 2929; CX 3105 3106 2830; CX 3107 3108 1527;
  CX 3109 3110 2962; CX 3111 3110 2964; CX 3112 3113 2958; CX 3114 3113 2961; CX 3115 3116 2838; CX 3117 3118 2930; CX 3119 1970 2831; CI 2826 2868;
  CI 2781 2822; CX 3210 3110 2981; CX 3214 2063 2899; CX 2501 2502 2282; CX 2536 2537 2338; CX 2538 2537 2349; CX 2542 2543 2347; CX 2546 2537 2336;
  CX 2547 2537 2351; CX 2550 2551 2332; CX 2552 2553 2345; CX 2576 2577 2390; CX 2610 2611 2439; CX 2612 2611 2446; CX 2613 2614 2444; CX 2615 2611 2437;
  CX 2616 2611 2448; CX 2617 2618 2435; CX 2619 2620 2442; CX 1308 2703 1362; CX 2704 2703 1376; CX 2592 2703 1309; CX 1494 2719 1371; CX 2720 2719 1493;
  CX 2635 2719 1495; CX 2743 1762 1763; CX 2745 1762 1723; CX 2684 2746 1551; CX 2747 2746 1554; CX 1560 2748 1481; CX 2750 2748 1563; CX 2667 2748 1556;
  CX 2753 2751 1548; CX 2668 2751 1549; CA 1209 1208 2562; CA 1218 1217 2584; CX 2760 2761 2500; CX 2762 2495 2603; CA 1762 2776 2625; CA 1285 1284 2627;
  CA 2777 2778 2680; CA 2777 2779 2712; CX 1212 1438 1356; CX 2702 1437 1211; CX 2593 1602 1654; CX 2786 2787 2701; CX 2788 2598 2137; CX 2791 2792 2557;
  CX 2793 2496 2705; CX 2707 2794 2706; CX 2796 2549 2656; CA 1247 1248 2582; CX 2798 2797 1692; CX 2741 2797 1694; CA 2801 2802 2710; CA 2801 2804 2733;
  CX 2736 2806 1145; CX 2807 2782 1487; CX 2782 2808 1215; CX 1248 1491 1414; CX 2810 2811 2716; CX 2814 2815 2715; CX 2817 2647 2175; CX 2820 2548 2722;
  CX 2727 2821 2724; CX 2829 2806 1279; CX 2831 2806 2587; CX 2836 2806 2678; CX 2829 2736 1380; CX 2843 2809 1546; CX 2809 2844 1250; CX 1256 1545 1428;
  CX 2754 1558 1257; CX 2672 1717 1759; CX 2849 2850 2752; CX 2862 1865 1866; CX 2828 2830 1385; CX 2863 1865 1812; CX 2828 2864 1141; CX 2829 2735 1383;
  CX 2865 2735 2759; CX 2866 2867 2757; CX 2872 2783 1625; CX 2874 2875 2764; CX 2876 2877 2765; CX 1650 2894 1656; CX 2899 2808 2633; CA 1865 2903 2683;
  CA 2904 2905 2711; CA 2904 2906 2713; CX 2917 1725 1726; CX 2918 1761 1764; CX 1653 2919 1652; CX 2863 2920 1693; CX 2745 2921 1552; CX 2920 2862 1695;
  CX 2921 2743 1555; CX 2922 1653 1662; CX 2923 1761 1731; CX 2924 1650 1454; CX 2926 1725 1666; CX 2929 2839 1621; CX 2839 2930 1282; CX 2872 2873 1542;
  CX 2929 2826 1624; CX 2872 2781 1619; CX 2671 1714 1758; CA 1725 2938 2585; CA 2944 2945 2732; CA 2944 2946 2734; CX 2920 2952 1538; CX 2921 2953 1424;
  CX 2830 2864 1274; CX 2590 1527 1607; CX 2831 2836 2589; CX 2835 2838 1244; CX 2929 2930 1477; CX 2513 1455 1459; CX 2514 1461 1520; CX 2688 1765 1813;
  CX 2954 2838 2512; CX 2955 2930 2686; CX 2956 2838 2660; CX 2957 2930 2767; CX 2958 2959 2824; CX 2960 2961 2825; CI 2735 2763; CI 2866 2827;
  CX 2962 2963 2832; CX 2964 2965 2834; CX 2981 2873 2766; CA 1761 2986 2632; CA 1650 2987 2563; CA 1653 2994 2583; CI 1240 2384; CX 2899 2900 2636;
  CX 2980 2981 2689; CX 2282 2283 529; CX 2332 2333 521; CX 2336 2337 2164; CX 2338 2339 980; CX 2344 2345 1351; CX 2346 2347 1581; CX 2348 2349 2172;
  CX 2350 2351 2166; CX 2390 2391 423; CX 2435 2436 415; CX 2437 2438 2250; CX 2439 2440 895; CX 2441 2442 1268; CX 2443 2444 1440; CX 2445 2446 2254;
  CX 2447 2448 2252; CX 1457 1362 1514; CX 2592 1362 2369; CX 2594 1362 1303; CX 1376 1650 1519; CX 1376 1375 2371; CX 1664 1371 1593; CX 2635 1371 2406;
  CX 2638 1371 1372; CA 1376 1375 2383; CA 1362 1361 2381; CA 1309 1308 2379; CX 1493 1725 1665; CX 1493 1496 2408; CX 2667 1481 2462; CX 2670 1481 1483;
  CA 1495 1494 2422; CA 1371 1370 2420; CA 1493 1496 2424; CX 2680 2603 2565; CX 1763 1424 1644; CX 1554 1762 1722; CX 1554 1555 2458; CX 1723 1552 1721;
  CX 1563 1761 1730; CX 1563 1562 2464; CX 1548 1758 1715; CX 1548 1550 2453; CX 1729 1481 1708; CA 1554 1555 2476; CA 1549 1546 2468; CA 1548 1550 2466;
  CA 1563 1562 2488; CA 1723 1720 2626; CA 1551 1552 2474; CA 1481 1480 2486; CA 1556 1560 2484; CX 2699 1654 1655; CX 2700 1654 1604; CX 2701 1437 1357;
  CX 2591 2701 1434; CX 2702 2701 1436; CX 2705 2598 2494; CX 2566 2706 2296; CX 2707 2705 2597; CX 2708 2706 2564; CX 2710 2656 2608; CX 2711 2680 2599;
  CX 2712 2713 2596; CA 1654 2714 2559; CX 2678 1380 1144; CX 1145 1383 1276; CX 1487 2715 1365; CX 1433 2716 1415; CX 1215 1490 1364; CX 2717 1487 1214;
  CX 2633 2715 1486; CX 2717 2715 1489; CX 2718 2716 1485; CX 2634 2716 1432; CX 2722 2647 2545; CX 2609 2724 2358; CX 2727 2722 2648; CX 2728 2724 2607;
  CX 2732 2710 2646; CX 2733 2734 2642; CA 1211 1212 2558; CX 1692 1865 1811; CX 1692 1695 2569; CA 1694 1693 2571; CA 1692 1695 2575; CX 2744 1759 1773;
  CX 2746 1552 1423; CX 2749 1759 1728; CX 2751 1546 1418; CX 2752 1558 1429; CX 1250 1550 1417; CX 2753 1546 1251; CX 2754 2752 1557; CX 2669 2752 1559;
  CX 1866 1538 1754; CX 2679 1385 1142; CX 1812 1693 1809; CX 2756 2757 2677; CX 2758 2759 2676; CX 2764 1621 1476; CX 2765 1625 1541; CX 1333 1619 1540;
  CX 2766 1625 1334; CX 2686 2764 1620; CX 2767 2764 1623; CX 2766 2765 1626; CX 2687 2765 1627; CA 1759 2775 2630; CA 1257 1256 2629; CX 1656 1302 1513;
  CA 1812 1810 2681; CX 2711 2713 2290; CX 2797 1693 1536; CX 2805 1758 1760; CX 2798 1693 1331; CX 2747 1552 1253; CX 1330 1695 1535; CX 1254 1555 1422;
  CX 1652 1354 1639; CX 1764 1482 1707; CX 1662 1433 1598; CX 1731 1560 1712; CX 1726 1373 1592; CX 1454 1308 1518; CX 1666 1494 1663; CX 2809 1758 1716;
  CX 1282 1624 1475; CX 2767 1621 1281; CX 2732 2734 2352; CX 2824 1459 1460; CX 2825 1520 1521; CX 2826 1813 1814; CX 2827 1607 1600; CX 2828 1607 1529;
  CX 2827 2830 1378; CX 2589 1523 1605; CX 2832 2833 1306; CX 2834 2835 1312; CX 2832 2837 1075; CX 2834 2838 1080; CX 2832 1459 1456; CX 2834 1520 1464;
  CX 2839 1813 1768; CX 2833 2824 1305; CX 2835 2825 1315; CX 2840 2824 2738; CX 2840 2825 2740; CA 1758 2856 2621; CA 1454 1457 2561; CA 1662 1661 2581;
  CA 1666 1664 2586; CA 1731 1729 2631; CA 1813 2868 2662; CA 1607 2866 2510; CX 2636 1657 1718; CX 2689 1769 1815; CI 2824 2841; CI 2825 2842;
  CX 529 2129 447; CX 980 2156 900; CX 521 2158 439; CX 1581 2159 1508; CX 1351 2162 1299; CX 2164 2165 340; CX 2166 2167 344; CX 2172 2173 1259].
(** Lines 31605-32004 of the file. *)
Definition aes128_79 : list cg := [
  CX 423 2198 539; CX 895 2246 983; CX 415 2247 531; CX 1440 2248 1583; CX 1268 2249 1352; CX 2250 2251 297; CX 2252 2253 301; CX 2254 2255 1219;
  CX 1303 1302 2301; CX 1372 1373 2365; CX 1665 1663 2090; CA 1303 1302 2378; CA 1519 1518 2382; CA 1514 1513 2380; CX 2561 2381 2300; CX 2562 2379 2370;
  CX 2563 2383 2190; CX 2564 2565 2294; CX 2566 2565 2427; CX 1722 1721 2121; CX 1483 1482 2399; CX 1730 1712 2125; CA 1372 1373 2421; CA 1593 1592 2419;
  CA 1665 1663 2423; CX 2584 2422 2407; CX 2585 2424 2220; CX 2586 2420 2364; CX 2591 1357 2366; CX 2593 1357 1359; CX 2595 2596 2493; CX 2597 2598 2287;
  CX 2599 2598 2289; CX 2600 2596 2497; CX 2601 2596 2428; CX 2602 2596 2491; CX 2599 2597 2498; CX 2603 2564 2499; CX 2607 2608 2356; CX 2609 2608 2503;
  CA 1722 1721 2475; CA 1483 1482 2483; CA 1708 1707 2485; CA 1730 1712 2487; CX 2621 2466 2260; CX 2625 2476 2267; CX 2627 2484 2463; CX 2631 2486 2398;
  CX 2632 2488 2270; CX 1436 1654 1603; CX 1436 1438 2368; CX 1655 1358 1588; CX 1604 1437 1601; CX 1602 1357 1589; CX 2633 1365 2400; CX 2634 1415 2403;
  CX 2636 1365 1367; CX 2637 1415 1368; CX 2641 2642 2544; CX 2646 2647 2341; CX 2648 2647 2343; CX 2652 2642 2540; CX 2653 2642 2554; CX 2654 2642 2504;
  CX 2646 2648 2555; CX 2656 2607 2556; CA 1434 1437 2377; CA 1357 1356 2373; CA 1436 1438 2375; CA 1604 1602 2560; CX 1811 1809 2197; CX 1489 1718 1659;
  CX 1485 1653 1599; CX 1489 1490 2402; CX 1485 1491 2405; CX 1657 1365 1591; CX 1661 1415 1640; CX 1773 1426 1646; CX 1728 1558 1727; CX 1714 1418 1642;
  CX 1717 1429 1643; CX 2668 1418 2455; CX 2669 1429 2459; CX 2671 1418 1420; CX 2672 1429 1430; CA 1432 1433 2416; CA 1485 1491 2426; CA 1486 1487 2410;
  CA 1365 1364 2412; CA 1214 1215 2579; CA 1489 1490 2414; CA 1415 1414 2418; CA 1144 1145 2507; CX 2676 1380 1277; CX 2677 1385 1272; CX 2678 2676 1382;
  CX 2587 2676 1379; CX 2679 2677 1384; CX 2588 2677 1386; CA 1811 1809 2574; CX 2683 2575 2388; CX 2684 1423 2456; CX 1720 1423 1645; CX 1557 1759 1724;
  CX 1557 1545 2461; CX 2685 1423 1425; CX 1765 1476 1706; CX 1769 1541 1757; CX 2686 1476 2519; CX 2687 1541 2522; CX 2688 1476 1478; CX 2689 1541 1543;
  CA 1251 1250 2622; CA 1418 1417 2470; CA 1423 1422 2472; CA 1728 1717 2628; CA 1429 1428 2480; CA 1559 1558 2478; CA 1557 1545 2482; CA 1142 1141 2505;
  CX 1623 1813 1767; CX 1626 1815 1772; CX 1626 1619 2518; CX 1623 1624 2521; CA 1620 1621 2528; CA 1623 1624 2524; CA 1476 1475 2526; CA 1627 1625 2530;
  CA 1541 1540 2532; CA 1626 1619 2534; CA 1334 1333 2665; CX 1760 1419 1641; CX 1716 1546 1713; CX 2735 1605 1606; CX 1600 1274 1445; CX 1529 1385 1526;
  CX 1141 1378 1271; CX 1605 2736 1525; CX 1460 1240 1402; CX 1521 1244 1403; CX 1814 1477 1705; CX 1456 1306 1452; CX 1464 1312 1462; CX 1768 1621 1766;
  CX 1075 1305 1239; CX 1080 1315 1242; CX 2659 1306 1077; CX 2660 1312 1079; CX 2737 2738 2657; CX 2739 2740 2658; CX 2741 1536 2567; CX 1810 1536 1755;
  CX 2742 1536 1537; CA 1536 1535 2573; CA 1331 1330 2682; CA 1253 1254 2624; CA 1281 1282 2661; CA 1605 2763 2508; CA 1456 1455 2429; CA 1529 1527 2506;
  CA 1464 1461 2432; CA 1768 1765 2663; CA 1716 1714 2623; CX 2780 1718 1719; CX 2781 1815 1816; CX 2782 1718 1660; CI 1518 2489; CX 2783 1815 1771;
  CA 1815 2822 2666; CA 1718 2823 2580; CA 1459 2841 2431; CA 1520 2842 2434; CX 447 2035 366; CX 900 2055 777; CX 340 2057 305; CX 1259 2058 1220;
  CX 344 2059 309; CX 439 2063 358; CX 1508 2064 903; CX 1299 2067 1093; CX 539 2081 607; CX 983 2109 1020; CX 297 2110 346; CX 1219 2111 1260;
  CX 301 2112 350; CX 531 2113 599; CX 1583 2114 779; CX 1352 2115 988; CX 2300 2301 2140; CX 2364 2365 2180; CX 2369 2370 2188; CX 2370 2371 2191;
  CX 2378 2379 2141; CX 2380 2381 2187; CX 2382 2383 2189; CX 2398 2399 2205; CX 2406 2407 2218; CX 2407 2408 2221; CX 2419 2420 2217; CX 2421 2422 2181;
  CX 2423 2424 2219; CX 2427 2428 2222; CX 2462 2463 2278; CX 2463 2464 2271; CX 2475 2476 2269; CX 2483 2484 2206; CX 2485 2486 2277; CX 2487 2488 2279;
  CX 1359 1358 2299; CX 1603 1601 2072; CX 2489 1519 2073; CX 2490 2491 2286; CX 2492 2491 2295; CX 2493 2494 2293; CX 2495 2491 2297; CX 2496 2491 2288;
  CX 2497 2498 2280; CX 2499 2500 2291; CX 2503 2504 2284; CX 1367 1366 2361; CX 2535 1368 2363; CX 1599 1598 2088; CX 2539 2540 2342; CX 2541 2540 2357;
  CX 2544 2545 2355; CX 2548 2540 2340; CX 2549 2540 2359; CX 2554 2555 2334; CX 2556 2557 2353; CA 1588 1589 2372; CA 1359 1358 2376; CA 1603 1601 2374;
  CX 2558 2377 2367; CX 2559 2375 2184; CX 2560 2373 2298; CX 2574 2575 2387; CX 1425 1424 2395; CX 1420 1419 2393; CX 1430 1426 2397; CX 1713 1715 2119;
  CX 1724 1727 2123; CA 1599 1598 2425; CA 1368 1354 2415; CA 1367 1366 2409; CA 1640 1639 2417; CX 2579 2410 2401; CX 2580 2414 2209; CX 2581 2418 2362;
  CX 2582 2416 2404; CX 2583 2426 2215; CX 2587 1277 2302; CX 2588 1272 2307; CX 1382 1605 1524; CX 1384 1607 1528; CX 1382 1383 2304; CX 1378 1384 2306;
  CX 1523 1277 1448; CX 1527 1272 1446; CX 2589 1277 1278; CX 2590 1272 1273; CA 1384 1378 2319; CA 1272 1271 2315; CA 1379 1380 2311; CA 1277 1276 2309;
  CA 1382 1383 2313; CA 1386 1385 2317; CX 1478 1477 2450; CX 1543 1542 2452; CX 1767 1766 2153; CA 1420 1419 2467; CA 1715 1713 2465; CA 1642 1641 2469;
  CA 1644 1645 2471; CA 1425 1424 2473; CA 1430 1426 2477; CA 1646 1643 2479; CA 1724 1727 2481; CX 2622 2468 2454; CX 2623 2470 2392; CX 2624 2474 2457;
  CX 2626 2472 2394; CX 2628 2480 2396; CX 2629 2478 2460; CX 2630 2482 2275; CX 1606 1279 1447; CX 1525 1380 1522; CX 1306 2657 1237; CX 1312 2658 1243;
  CX 2659 2657 1310; CX 2660 2658 1314; CX 2512 2658 1311; CX 2511 2657 1316; CX 1537 1538 2516; CA 1767 1766 2523; CA 1706 1705 2525; CA 1478 1477 2527;
  CA 1543 1542 2529; CX 2661 2528 2520; CX 2662 2524 2324; CX 2663 2526 2449; CX 2665 2530 2517; CX 2666 2534 2330; CA 1077 1075 2430; CA 1079 1080 2433;
  CA 1525 1523 2509; CA 1537 1538 2570; CA 1754 1755 2572; CX 2681 2573 2515; CX 2682 2571 2568; CX 1719 1366 1590; CX 1660 1487 1658; CX 1816 1542 1756;
  CX 1771 1625 1770; CA 1660 1657 2578; CA 1771 1769 2664; CX 366 1935 665; CX 777 1962 661; CX 305 1964 271; CX 1220 1965 714; CX 309 1966 275;
  CX 358 1970 657; CX 607 1993 557; CX 1020 2015 553; CX 346 2016 396; CX 1260 2017 519; CX 350 2018 400; CX 599 2019 549; CI 1093 1235;
  CI 988 1412; CX 2140 2141 1678; CX 2180 2181 1787; CX 2187 2188 2028; CX 2189 2141 2074; CX 2190 2191 1976; CX 2205 2206 1836; CX 2217 2218 2025;
  CX 2219 2181 2089; CX 2220 2221 1927; CX 2222 2223 289; CX 2270 2271 2020; CX 2277 2278 2079; CX 2279 2206 2124; CX 2280 2281 287; CX 2284 2285 655;
  CX 2286 2287 692; CX 2288 2289 2134; CX 2290 2291 1184; CX 2292 2293 1324; CX 2294 2295 2136; CX 2296 2297 2132; CX 2298 2299 2138; CX 2334 2335 647;
  CX 2340 2341 2168; CX 2342 2343 1090; CX 2352 2353 1473; CX 2354 2355 1703; CX 2356 2357 2174; CX 2358 2359 2170; CX 2362 2363 2178; CX 2366 2367 2183;
  CX 2367 2368 2185; CX 2372 2373 2182; CX 2374 2375 2186; CX 2376 2377 2139; CX 2392 2393 2199; CX 2394 2395 2201; CX 2396 2397 2203; CX 2400 2401 2208;
  CX 2402 2401 2210; CX 2403 2404 2214; CX 2404 2405 2216; CX 2409 2410 2177; CX 2415 2416 2179; CX 2417 2418 2213; CX 2425 2426 2212; CX 1278 1279 2225;
  CX 1273 1274 2227; CX 1524 1522 2041; CX 1528 1526 2043; CX 2449 2450 2256; CX 2453 2454 2261; CX 2455 2454 2264; CX 2456 2457 2266; CX 2457 2458 2268;
  CX 2459 2460 2273; CX 2460 2461 2276; CX 2465 2466 2262; CX 2467 2468 2200; CX 2469 2470 2263; CX 2471 2472 2265; CX 2473 2474 2202; CX 2477 2478 2204;
  CX 2479 2480 2272; CX 2481 2482 2274; CA 1445 1446 2314; CA 1273 1274 2316; CA 1524 1522 2312; CA 1447 1448 2308; CA 1278 1279 2310; CA 1528 1526 2318].
(** Lines 32005-32404 of the file. *)
Definition aes128_80 : list cg := [
  CX 2505 2317 2305; CX 2506 2315 2226; CX 2507 2311 2303; CX 2508 2313 2146; CX 2509 2309 2224; CX 2510 2319 2150; CX 1455 1237 1401; CX 1461 1243 1404;
  CX 2511 1237 2228; CX 2512 1243 2231; CX 2513 1237 1238; CX 2514 1243 1245; CX 2515 2516 2320; CX 2517 2518 2331; CX 2519 2520 2323; CX 2520 2521 2325;
  CX 2522 2517 2329; CX 2523 2524 2326; CX 2525 2526 2322; CX 2527 2528 2257; CX 2529 2530 2259; CX 1658 1659 2086; CX 1310 1459 1458; CX 1314 1520 1463;
  CX 1310 1305 2230; CX 1314 1315 2233; CA 1310 1305 2239; CA 1316 1306 2235; CA 1237 1239 2237; CA 1311 1312 2241; CA 1243 1242 2243; CA 1314 1315 2245;
  CX 2567 2568 2386; CX 2568 2569 2389; CX 2570 2571 2321; CX 2572 2573 2385; CA 1591 1590 2411; CA 1659 1658 2413; CX 2578 2412 2360; CX 1772 1770 2155;
  CA 1772 1770 2533; CA 1757 1756 2531; CX 2664 2532 2451; CX 271 1821 461; CX 275 1822 465; CX 396 1899 378; CX 400 1900 382; CX 2028 1678 1853;
  CX 2025 1787 1926; CA 1678 1976 2001; CX 2073 2074 1676; CX 2079 1836 1959; CX 2089 2090 1781; CA 2028 1976 1851; CX 289 2091 394; CI 1678 2038;
  CA 1836 2020 2021; CX 2124 2125 1830; CA 2025 1927 1888; CX 692 2126 898; CX 287 2127 429; CX 1324 2128 1396; CX 655 2130 323; CX 1184 2131 1185;
  CX 2132 2133 261; CX 2134 2135 259; CX 2136 2137 334; CX 2138 2139 1743; CI 1787 1974; CA 2079 2020 1916; CX 1090 2157 709; CX 647 2160 313;
  CX 1703 2161 1326; CX 1473 2163 1186; CX 2168 2169 425; CX 2170 2171 437; CX 2174 2175 1336; CX 2178 2179 1791; CI 1836 2083; CX 2182 2183 2027;
  CX 2184 2185 1975; CX 2186 2139 2071; CX 2199 2200 1832; CX 2201 2202 1840; CX 2203 2204 1834; CX 2209 2210 1924; CX 2212 2179 2087; CX 2213 2214 2084;
  CX 2215 2216 1998; CX 2224 2225 2092; CX 2226 2227 2094; CX 2256 2257 1872; CX 2260 2261 1948; CX 2262 2200 2118; CX 2263 2264 2080; CX 2265 2266 2049;
  CX 2267 2268 1951; CX 2269 2202 2120; CX 2272 2273 2051; CX 2274 2204 2122; CX 2275 2276 1958; CX 2302 2303 2145; CX 2303 2304 2147; CX 2305 2306 2151;
  CX 2307 2305 2143; CX 2308 2309 2144; CX 2310 2311 2093; CX 2312 2313 2148; CX 2314 2315 2142; CX 2316 2317 2095; CX 2318 2319 2149; CX 2320 2321 1904;
  CX 2322 2323 2107; CX 2324 2325 1989; CX 2326 2257 2152; CX 2330 2331 2046; CX 2360 2361 2176; CX 2384 1238 2193; CX 1245 1244 2195; CX 1458 1452 2008;
  CX 1463 1462 2010; CX 2385 2386 2106; CX 2387 2321 2196; CX 2388 2389 2014; CX 2411 2412 2207; CX 2413 2414 2211; CA 1458 1452 2238; CA 1238 1240 2234;
  CA 1401 1402 2236; CA 1245 1244 2240; CA 1404 1403 2242; CA 1463 1462 2244; CX 2429 2237 2192; CX 2430 2235 2229; CX 2431 2239 2098; CX 2432 2243 2194;
  CX 2433 2241 2232; CX 2434 2245 2103; CX 2451 2452 2258; CX 2531 2532 2328; CX 2533 2534 2327; CX 1851 1853 1795; CX 1888 1926 1846; CX 1976 1676 1852;
  CX 1916 1959 1882; CX 1927 1781 1889; CX 1888 1781 1925; CA 2001 1676 1669; CX 394 2004 449; CX 1851 1678 1856; CX 2020 1830 1917; CX 1916 1830 1960;
  CA 1781 2025 1973; CX 2027 1743 1893; CX 898 2029 986; CX 259 2030 321; CX 334 2031 1178; CX 261 2032 303; CX 429 2033 541; CX 1396 2034 1442;
  CX 323 2036 459; CX 1185 2037 786; CX 1888 1787 1928; CA 2038 2028 1977; CI 1676 1936; CX 709 2056 906; CX 425 2060 263; CX 1336 2061 1081;
  CX 437 2062 267; CX 313 2065 451; CX 1326 2066 828; CX 1186 2068 1023; CX 1916 1836 1961; CA 1743 1975 1978; CX 2071 2072 1741; CX 2080 1832 1949;
  CX 2049 1840 1953; CX 2051 1834 1956; CA 2083 2079 2026; CA 1791 2084 2024; CX 2087 2088 1785; CI 1830 2022; CA 2027 1975 1849; CI 1743 2039;
  CX 2092 2093 1686; CX 2094 2095 1682; CX 2107 1872 1986; CX 2118 2119 1826; CX 2120 2121 1838; CX 2122 2123 1828; CA 2084 1998 1890; CI 1791 2069;
  CX 2142 2143 2003; CX 2144 2145 1981; CX 2146 2147 1859; CX 2148 2093 2040; CX 2149 2095 2042; CX 2150 2151 1857; CX 2106 1904 2012; CX 2152 2153 1868;
  CA 2080 1948 1910; CA 2049 1951 1912; CA 2051 1958 1914; CI 1832 2082; CX 2176 2177 1789; CI 1840 1997; CI 1834 1995; CI 2084 2054;
  CX 2192 2193 2075; CX 2194 2195 2077; CX 2196 2197 1902; CA 2107 1989 1943; CI 1872 2116; CX 2207 2208 2053; CX 2211 2177 2085; CX 2228 2229 2097;
  CX 2229 2230 2099; CX 2231 2232 2102; CX 2232 2233 2104; CX 2234 2235 2076; CX 2236 2237 2096; CX 2238 2239 2100; CX 2240 2241 2078; CX 2242 2243 2101;
  CX 2244 2245 2105; CA 2106 2014 1984; CI 1904 2045; CX 2258 2259 1874; CX 2327 2259 2154; CX 2328 2329 2108; CX 1851 1852 1670; CX 1888 1889 1674;
  CX 449 1895 376; CX 1916 1917 1777; CA 1925 1926 1786; CA 1889 1927 1848; CA 1889 1928 1780; CX 986 1929 372; CX 321 1930 352; CX 1178 1931 392;
  CX 303 1932 354; CX 541 1933 368; CX 459 1934 619; CX 1849 1893 1793; CI 1852 1855; CX 1851 1936 1854; CA 1959 1960 1835; CA 1917 1961 1829;
  CX 906 1963 613; CX 263 1967 325; CX 1081 1968 625; CX 267 1969 329; CX 451 1971 611; CA 1973 1974 1845; CX 1975 1741 1850; CX 1849 1741 1892;
  CA 1977 1936 1794; CX 1910 1949 1876; CX 1912 1953 1878; CX 1914 1956 1880; CX 1998 1785 1891; CX 1890 1785 1920; CX 2003 1682 1864; CX 1981 1686 1861;
  CI 1442 568; CI 786 1269; CX 1849 1743 1894; CX 1943 1986 1906; CX 1951 1838 1913; CX 1948 1826 1911; CX 1958 1828 1915; CX 1910 1826 1950;
  CX 1914 1828 1955; CX 1912 1838 1952; CA 2021 2022 1776; CA 2024 1785 1843; CA 2026 1830 1881; CI 1023 1300; CA 2039 2027 1980; CI 1741 1979;
  CX 2040 2041 1680; CX 2042 2043 1684; CX 1984 2012 1941; CX 1989 1868 1944; CX 1943 1868 1987; CA 1838 2049 1996; CA 1828 2051 1994; CX 2053 1789 1921;
  CX 2054 1791 1919; CX 1910 1832 1947; CX 1914 1834 1957; CX 1912 1840 1954; CA 2069 1998 1999; CI 1785 2000; CA 2003 1857 1798; CA 1981 1859 1796;
  CX 2075 2076 2005; CX 2077 2078 1615; CI 1686 1897; CI 1682 2006; CX 2014 1902 1985; CX 1984 1902 2011; CX 1943 1872 1988; CA 2082 2080 2023;
  CX 2085 2086 1783; CI 1890 1972; CX 2096 2097 1939; CX 2098 2099 1800; CX 2100 2076 2007; CX 2101 2102 1982; CX 2103 2104 1807; CX 2105 2078 2009;
  CA 1902 2106 2044; CX 2108 1874 1991; CX 1984 1904 2013; CA 2116 2107 2052; CA 2053 1924 1886; CI 1789 2070; CA 1874 2046 2047; CX 2154 2155 1870;
  CA 2108 2046 1945; CI 1874 2117; CX 1669 1670 1501; CX 1776 1777 1628; CX 352 1778 277; CX 354 1779 281; CX 1780 1781 1504; CX 1786 1787 1596;
  CX 1794 1795 1449; CX 325 1823 402; CX 329 1824 406; CX 1829 1830 1629; CX 1835 1836 1647; CX 1845 1846 1506; CA 1848 1787 1673; CX 1849 1850 1668;
  CA 1853 1854 1677; CA 1855 1856 1675; CX 1881 1882 1630; CX 1890 1891 1737; CA 1892 1893 1742; CA 1894 1850 1740; CX 1796 1861 1745; CX 1798 1864 1747;
  CX 1910 1911 1733; CX 1912 1913 1735; CX 1914 1915 1739; CA 1919 1920 1790; CX 1859 1680 1797; CX 1857 1684 1799; CX 1796 1680 1860; CX 1798 1684 1863;
  CX 1943 1944 1775; CA 1911 1947 1825; CA 1911 1948 1883; CA 1949 1950 1831; CA 1913 1951 1885; CA 1952 1953 1839; CA 1954 1913 1837; CA 1955 1956 1833;
  CA 1957 1915 1827; CA 1915 1958 1884; CX 1886 1921 1842; CX 1919 1972 1844; CA 1978 1979 1667; CA 1980 1741 1792; CA 1680 1981 1896; CX 1982 1615 1805;
  CX 1798 1682 1858; CX 1796 1686 1862; CX 1984 1985 1818; CA 1986 1987 1871; CA 1944 1988 1867; CA 1944 1989 1909; CA 1994 1995 1879; CA 1996 1997 1877;
  CX 1924 1783 1887; CX 1886 1783 1922; CA 1999 2000 1736; CX 1972 1791 1918; CA 2005 1939 1937; CA 2006 2003 1938; CX 2007 2008 1609; CX 2009 2010 1611;
  CA 2011 2012 1903; CA 2013 1985 1901; CA 1985 2014 1942; CX 1945 1991 1908; CA 2023 1826 1875; CX 1886 1789 1923; CA 1939 1800 1750; CA 1982 1807 1752;
  CI 2005 1613; CI 1615 1983; CA 2044 2045 1940; CX 2046 1870 1946; CX 1945 1870 1992; CA 2052 1868 1905; CA 2070 2053 2002; CX 1945 1874 1990].
(** Lines 32405-32804 of the file. *)
Definition aes128_81 : list cg := [
  CA 2117 2108 2050; CI 1870 2048; CX 1501 1449 1297; CX 1504 1596 1296; CI 1501 1512; CX 1628 1629 1479; CX 1628 1630 1407; CX 1506 1596 1492;
  CX 1647 1629 1408; CA 1449 1650 878; CA 1449 1656 1398; CA 1596 1663 1055; CA 1504 1664 1059; CA 1596 1665 1509; CA 1504 1666 920; CX 1667 1668 1497;
  CX 1673 1674 1503; CX 1675 1676 1451; CX 1677 1678 1450; CA 1628 1707 1017; CA 1628 1708 1290; CX 1630 1647 1561; CA 1647 1712 1170; CA 1506 1725 884;
  CA 1506 1726 1511; CA 1629 1729 1172; CA 1647 1730 1576; CA 1629 1731 1032; CX 1736 1737 1567; CX 1740 1741 1498; CX 1742 1743 1517; CA 1630 1761 1018;
  CA 1630 1764 1587; CX 1790 1791 1594; CX 1792 1793 1502; CX 1796 1797 1531; CX 1798 1799 1533; CX 1825 1826 1571; CX 1827 1828 1573; CX 1831 1832 1648;
  CX 1833 1834 1649; CX 1837 1838 1565; CX 1839 1840 1709; CX 1843 1844 1569; CA 1799 1857 1749; CA 1858 1799 1683; CA 1797 1859 1748; CA 1860 1861 1685;
  CA 1862 1797 1679; CA 1863 1864 1681; CX 1752 1805 1688; CX 1867 1868 1632; CX 1871 1872 1710; CX 1875 1876 1575; CX 1877 1878 1566; CX 1879 1880 1574;
  CA 1883 1832 1732; CA 1884 1834 1738; CA 1885 1840 1734; CX 1886 1887 1672; CA 1896 1897 1744; CX 1800 1609 1751; CX 1807 1611 1753; CX 1750 1609 1802;
  CX 1752 1611 1806; CX 1901 1902 1697; CX 1903 1904 1808; CX 1905 1906 1633; CA 1909 1872 1774; CA 1891 1918 1784; CA 1921 1922 1788; CA 1887 1923 1782;
  CA 1887 1924 1847; CA 1937 1609 1616; CA 1938 1684 1746; CX 1939 1613 1801; CX 1750 1613 1803; CX 1752 1615 1804; CX 1940 1941 1698; CA 1942 1904 1817;
  CX 1945 1946 1820; CA 1983 1982 1898; CA 1946 1990 1869; CA 1991 1992 1873; CA 2002 1783 1841; CA 2047 2048 1819; CA 2050 1870 1907; CX 1407 1408 1283;
  CI 1297 1301; CX 1449 1450 1374; CX 1451 1450 1298; CA 1479 1480 821; CA 1479 1481 1166; CA 1407 1482 1168; CA 1407 1483 1289; CX 1017 1018 1007;
  CA 1492 1493 882; CA 1296 1494 1071; CA 1296 1495 918; CA 1492 1496 669; CX 1497 1498 1355; CX 1501 1451 1360; CX 1497 1502 1291; CX 1503 1504 1369;
  CX 1506 1503 1295; CX 1509 828 455; CX 1511 1509 907; CA 1512 1513 877; CA 1512 1514 1224; CX 1517 1498 1292; CA 1450 1518 1035; CA 1450 1519 1395;
  CA 1408 1556 1030; CA 1408 1560 1177; CA 1561 1562 823; CA 1561 1563 1016; CX 1569 1567 1343; CX 1576 1577 1025; CX 1587 1576 1026; CA 1497 1588 873;
  CA 1497 1589 1222; CA 1503 1592 883; CA 1503 1593 1228; CX 1502 1517 1435; CA 1517 1601 1106; CA 1498 1602 1109; CA 1517 1603 1439; CA 1498 1604 911;
  CI 1451 1453; CA 1567 1639 974; CA 1567 1640 1265; CX 1569 1594 1484; CX 1571 1648 1348; CX 1573 1649 1346; CA 1502 1654 874; CA 1502 1655 1443;
  CX 1679 1680 1388; CX 1681 1682 1516; CX 1683 1684 1390; CX 1685 1686 1515; CX 1566 1709 1553; CX 1565 1709 1342; CX 1574 1649 1544; CX 1575 1648 1547;
  CX 1633 1710 1622; CX 1632 1710 1410; CA 1648 1713 1156; CA 1571 1714 1157; CA 1648 1715 1580; CA 1571 1716 994; CA 1573 1717 1110; CA 1565 1720 1118;
  CA 1709 1721 1116; CA 1709 1722 1582; CA 1565 1723 997; CA 1649 1724 1578; CA 1649 1727 1126; CA 1573 1728 1003; CX 1732 1733 1570; CX 1734 1735 1564;
  CX 1738 1739 1572; CI 1594 1597; CX 1744 1745 1391; CX 1746 1747 1392; CA 1748 1686 1530; CA 1749 1682 1532; CX 1750 1751 1466; CX 1752 1753 1468;
  CA 1575 1758 967; CA 1574 1759 978; CA 1575 1760 1584; CA 1566 1762 972; CA 1566 1763 1585; CA 1632 1765 1164; CA 1710 1766 1162; CA 1710 1767 1636;
  CA 1632 1768 1029; CA 1574 1773 1586; CX 1774 1775 1631; CX 1782 1783 1500; CX 1784 1785 1568; CX 1788 1789 1595; CI 1569 1651; CA 1751 1800 1689;
  CA 1801 1802 1612; CA 1751 1803 1608; CA 1753 1804 1610; CA 1805 1806 1614; CA 1753 1807 1690; CX 1750 1801 1617; CX 1698 1808 1691; CX 1697 1808 1470;
  CA 1808 1809 1191; CA 1697 1810 1193; CA 1808 1811 1702; CA 1697 1812 1099; CA 1633 1813 1015; CA 1633 1814 1637; CX 1817 1818 1696; CX 1819 1820 1699;
  CX 1841 1842 1505; CA 1847 1789 1671; CA 1698 1865 1076; CA 1698 1866 1704; CX 1869 1870 1700; CX 1873 1874 1711; CA 1898 1611 1687; CX 1907 1908 1701;
  CA 1283 1284 1176; CA 1283 1285 1173; CX 1007 1286 844; CX 1289 823 1169; CX 1290 821 1167; CX 1172 1166 1171; CX 1291 1292 1210; CX 1295 1296 1216;
  CX 1297 1298 1207; CX 1071 1300 456; CA 1301 1302 1004; CA 1301 1303 1179; CX 877 878 673; CX 1177 1350 842; CA 1355 1356 737; CA 1355 1357 1104;
  CA 1291 1358 1107; CA 1291 1359 1223; CA 1360 1361 634; CA 1360 1362 1033; CA 1369 1370 666; CA 1369 1371 1052; CA 1295 1372 1229; CA 1295 1373 1057;
  CX 873 874 668; CX 883 884 686; CA 1374 1375 637; CA 1374 1376 876; CX 1395 1396 435; CX 1398 1395 825; CI 1298 1307; CA 1292 1434 909;
  CA 1435 1436 871; CA 1292 1437 1065; CA 1435 1438 632; CX 1439 1440 421; CX 1443 1439 896; CA 1453 1454 914; CA 1453 1457 1038; CA 1484 1485 973;
  CA 1484 1491 746; CI 1343 1353; CX 1391 1515 1381; CX 1390 1516 1233; CX 1388 1515 1231; CX 1392 1516 1377; CA 1515 1522 944; CA 1388 1523 948;
  CA 1515 1524 1397; CA 1388 1525 800; CA 1516 1526 956; CA 1390 1527 958; CA 1516 1528 1393; CA 1390 1529 804; CX 1530 1531 1387; CX 1532 1533 1389;
  CA 1544 1545 754; CA 1348 1546 1132; CA 1547 1548 963; CA 1348 1549 992; CA 1547 1550 815; CA 1342 1551 995; CA 1342 1552 1135; CA 1553 1554 970;
  CA 1553 1555 743; CA 1544 1557 976; CA 1346 1558 1139; CA 1346 1559 1001; CX 1564 1565 1421; CX 1566 1564 1341; CX 1567 1568 1413; CX 1570 1571 1416;
  CX 1572 1573 1427; CX 1574 1572 1345; CX 1575 1570 1347; CX 1578 1579 990; CX 1580 1581 525; CX 1582 1583 537; CX 1584 1580 981; CX 1585 1582 984;
  CX 1586 1578 991; CX 1594 1568 1344; CX 1500 1595 1294; CA 1597 1598 1122; CA 1597 1599 1441; CA 1392 1600 1400; CA 1391 1605 763; CA 1391 1606 1399;
  CA 1392 1607 770; CX 1608 1609 1318; CX 1610 1611 1320; CX 1612 1613 1405; CX 1614 1615 1406; CX 1616 1617 1321; CA 1410 1620 1027; CA 1410 1621 1175;
  CA 1622 1623 1013; CA 1622 1624 820; CX 1631 1632 1474; CX 1633 1631 1409; CX 1636 779 605; CX 1637 1636 1021; CA 1570 1641 964; CA 1570 1642 1261;
  CA 1572 1643 1266; CA 1564 1644 971; CA 1564 1645 1263; CA 1572 1646 977; CX 1505 1595 1488; CA 1651 1652 1444; CA 1651 1653 975; CA 1500 1657 1045;
  CA 1595 1658 1043; CA 1595 1659 1507; CA 1500 1660 917; CA 1568 1661 1124; CA 1568 1662 1000; CX 1671 1672 1499; CX 1687 1688 1322; CA 1689 1613 1465;
  CA 1690 1615 1467; CA 1691 1692 1072; CA 1470 1693 1204; CA 1470 1694 1097; CA 1691 1695 848; CX 1696 1697 1534; CX 1698 1696 1469; CX 1699 1700 1539;
  CX 1699 1701 1471; CX 1702 1703 651; CX 1704 1702 1091; CA 1631 1705 1014; CA 1631 1706 1287; CX 1701 1711 1618; CX 1711 1700 1472; CA 1505 1718 881;
  CA 1505 1719 1510; CA 1696 1754 1073; CA 1696 1755 1337; CA 1699 1756 1086; CA 1699 1757 1339; CA 1700 1769 1201; CA 1711 1770 1199; CA 1700 1771 1102;
  CA 1711 1772 1634; CA 1701 1815 1088; CA 1701 1816 1638; CX 1166 1167 1012; CX 1168 1169 1022; CX 1170 1171 1031; CX 1172 1167 1024; CX 1173 1169 838;
  CX 1176 1177 1008; CX 1030 1173 1011; CX 1178 673 311; CX 1179 637 1005; CX 1026 1171 608; CA 1207 1208 1066; CA 1207 1209 1006; CA 1210 1211 1063;
  CA 1210 1212 1064; CA 1216 1217 1070; CA 1216 1218 1060; CX 1219 668 299; CX 625 686 327; CX 1222 737 1105; CX 1109 1104 1103; CX 1223 632 1108;
  CX 1224 634 1034; CX 1038 1033 1036; CX 1228 666 1053; CX 1059 1052 1056; CX 1229 669 1058; CX 1065 1268 417; CA 1307 1308 1067; CA 1307 1309 912;
  CX 1341 1342 1252; CX 1343 1344 1246; CX 1345 1346 1255; CX 1347 1348 1249; CX 1139 1349 809; CX 1132 1351 523; CX 1135 1352 533; CA 1353 1354 1047;
  CA 1353 1368 1227; CA 1377 1378 563; CA 1231 1379 798; CA 1231 1380 966; CA 1381 1382 759; CA 1381 1383 560; CA 1377 1384 768; CA 1233 1385 969].
(** Lines 32805-33204 of the file. *)
Definition aes128_82 : list cg := [
  CA 1233 1386 802; CX 1387 1388 1275; CX 1389 1390 1270; CX 1391 1387 1230; CX 1392 1389 1232; CX 1393 1394 788; CX 1397 903 364; CX 1399 1397 780;
  CX 1400 1393 789; CX 1321 1405 1304; CX 1322 1406 1313; CX 1405 1318 1181; CX 1320 1406 1183; CX 1409 1410 1280; CX 1175 1412 600; CA 1413 1414 744;
  CA 1413 1415 1120; CA 1416 1417 810; CA 1416 1418 1152; CA 1347 1419 1154; CA 1347 1420 1262; CA 1421 1422 741; CA 1421 1423 1112; CA 1341 1424 1114;
  CA 1341 1425 1264; CA 1345 1426 1128; CA 1427 1428 752; CA 1427 1429 1125; CA 1345 1430 1267; CX 964 967 749; CX 971 972 755; CX 974 975 756;
  CX 977 978 942; CX 1441 1442 547; CX 1444 1441 904; CA 1389 1445 769; CA 1389 1446 1149; CA 1387 1447 760; CA 1387 1448 1147; CA 1405 1452 935;
  CA 1318 1455 936; CA 1318 1456 722; CA 1405 1458 1323; CA 1321 1459 672; CA 1321 1460 1327; CA 1320 1461 857; CA 1406 1462 855; CA 1406 1463 1325;
  CA 1320 1464 727; CX 1465 1466 1317; CX 1467 1468 1319; CX 1469 1470 1329; CX 1471 1472 1332; CX 1204 1473 653; CA 1474 1475 818; CA 1474 1476 1158;
  CA 1409 1477 1160; CA 1409 1478 1288; CX 1014 1015 824; CA 1294 1486 915; CA 1294 1487 1069; CA 1488 1489 879; CA 1488 1490 640; CX 1499 1500 1363;
  CX 1505 1499 1293; CX 1507 1508 441; CX 1510 1507 901; CI 1344 1431; CA 1322 1520 679; CA 1322 1521 1328; CA 1534 1535 845; CA 1534 1536 1187;
  CA 1469 1537 1338; CA 1469 1538 1189; CA 1539 1540 869; CA 1539 1541 1195; CA 1471 1542 1197; CA 1471 1543 1340; CX 1073 1076 868; CX 1086 1088 1049;
  CA 1499 1590 880; CA 1499 1591 1225; CA 1618 1619 872; CA 1472 1625 1206; CA 1618 1626 1084; CA 1472 1627 1100; CX 1634 1635 1095; CX 1638 1634 1096;
  CX 1004 1005 696; CX 1006 1005 723; CX 1007 1008 827; CX 1011 1007 627; CX 1012 1007 826; CX 1016 1008 822; CX 1017 1008 839; CX 1018 1008 817;
  CX 1011 1012 840; CX 1022 1023 617; CX 1024 1025 614; CX 1026 838 816; CX 1030 1031 841; CX 1032 1031 843; CX 1033 1034 897; CX 1035 1036 913;
  CX 1038 1034 698; CX 1052 1053 905; CX 1055 1056 919; CX 1057 1058 730; CX 1059 1053 732; CX 1060 1058 736; CX 909 1063 860; CX 1064 1065 847;
  CX 1066 1067 849; CX 912 1006 861; CX 918 1060 863; CX 1070 1071 859; CX 896 1103 468; CX 825 1036 485; CX 907 1056 409; CX 1104 1105 893;
  CX 1106 1103 910; CX 1107 1108 684; CX 1109 1105 687; CX 1063 1108 715; CX 1067 1185 431; CX 1227 746 1048; CX 1230 1231 1143; CX 1232 1233 1140;
  CX 969 1234 592; CX 966 1235 359; CA 1246 1247 1051; CA 1246 1248 1136; CA 1249 1250 1131; CA 1249 1251 1133; CA 1252 1253 1119; CA 1252 1254 1134;
  CA 1255 1256 1138; CA 1255 1257 1130; CX 942 1258 812; CX 1259 749 342; CX 1260 755 348; CX 1261 810 1153; CX 1262 815 1155; CX 1157 1152 1151;
  CX 1263 741 1113; CX 1264 743 1115; CX 1118 1112 1117; CX 1265 744 1121; CX 1124 1120 1123; CX 1266 752 1111; CX 1110 1125 1127; CX 1267 754 1129;
  CA 1270 1271 561; CA 1270 1272 951; CA 1232 1273 1150; CA 1232 1274 953; CA 1275 1276 516; CA 1275 1277 940; CA 1230 1278 1148; CA 1230 1279 946;
  CX 760 763 566; CX 769 770 739; CA 1280 1281 1165; CA 1280 1282 1174; CX 519 824 398; CX 1287 818 1159; CX 1288 820 1161; CX 1164 1158 1163;
  CX 1293 1294 1213; CX 1069 1299 445; CA 1304 1305 500; CA 1181 1306 865; CA 1304 1310 670; CA 1183 1311 725; CA 1183 1312 867; CA 1313 1314 677;
  CA 1313 1315 413; CA 1181 1316 718; CX 1317 1318 1236; CX 1319 1320 1241; CX 1321 1317 1180; CX 1322 1319 1182; CX 1323 1324 295; CX 1325 1326 317;
  CX 1327 1323 693; CX 1328 1325 712; CA 1329 1330 1203; CA 1329 1331 1194; CA 1332 1333 1205; CA 1332 1334 1202; CX 1049 1335 928; CX 1336 868 427;
  CX 1337 845 1188; CX 1338 848 1190; CX 1193 1187 1192; CX 1339 869 1196; CX 1340 872 1198; CX 1201 1195 1200; CA 1363 1364 638; CA 1363 1365 1039;
  CA 1293 1366 1041; CA 1293 1367 1226; CX 880 881 674; CI 756 1221; CA 1317 1401 1082; CA 1317 1402 671; CA 1319 1403 678; CA 1319 1404 1085;
  CX 1206 1411 925; CA 1431 1432 998; CA 1431 1433 1137; CX 816 817 618; CX 821 822 626; CX 823 822 609; CX 825 723 622; CX 826 822 612;
  CX 827 828 615; CX 838 822 624; CX 839 840 610; CX 841 842 616; CX 843 844 403; CX 668 847 688; CX 673 849 699; CX 686 859 733;
  CX 860 668 480; CX 861 673 504; CX 863 686 490; CX 871 847 633; CX 873 847 683; CX 874 847 690; CX 876 849 635; CX 877 849 695;
  CX 878 849 623; CX 882 859 667; CX 883 859 728; CX 884 859 735; CX 860 893 682; CX 893 895 418; CX 896 715 689; CX 861 897 694;
  CX 897 898 432; CX 863 905 729; CX 905 906 452; CX 907 736 734; CX 909 910 685; CX 911 910 466; CX 912 913 697; CX 914 913 481;
  CX 918 919 731; CX 920 919 407; CX 1047 1048 792; CX 1051 1048 801; CX 1110 1111 989; CX 1112 1113 982; CX 1114 1115 775; CX 1116 1117 996;
  CX 1118 1113 781; CX 1119 1115 797; CX 1120 1121 985; CX 1122 1123 999; CX 1124 1121 795; CX 1125 1111 962; CX 1126 1127 1002; CX 1128 1129 987;
  CX 1130 1129 805; CX 1131 1132 937; CX 992 1133 950; CX 995 1119 955; CX 1134 1135 938; CX 1136 1137 939; CX 998 1051 960; CX 1138 1139 943;
  CX 1001 1130 961; CA 1140 1141 968; CA 1140 1142 959; CA 1143 1144 949; CA 1143 1145 965; CX 739 1146 594; CX 714 566 273; CX 1147 516 941;
  CX 948 940 945; CX 1148 560 947; CX 1149 561 952; CX 1150 563 954; CX 958 951 957; CX 981 1151 514; CX 984 1117 572; CX 904 1123 586;
  CX 991 1127 512; CX 1152 1153 979; CX 1154 1155 761; CX 1156 1151 993; CX 1157 1153 764; CX 1133 1155 794; CX 1158 1159 1019; CX 1160 1161 831;
  CX 1162 1163 1028; CX 1164 1159 833; CX 1165 1161 837; CX 1027 1165 1010; CX 1174 1175 1009; CX 1180 1181 1074; CX 1182 1183 1078; CX 865 1184 291;
  CX 867 1186 319; CX 1021 1163 630; CX 1187 1188 1089; CX 1189 1190 887; CX 1191 1192 1098; CX 1193 1188 889; CX 1194 1190 908; CX 1195 1196 1062;
  CX 1197 1198 1092; CX 1199 1200 1101; CX 1201 1196 1094; CX 1202 1198 926; CX 1203 1204 1037; CX 1097 1194 1054; CX 1205 1206 1050; CX 1100 1202 1061;
  CA 1213 1214 1046; CA 1213 1215 1068; CX 1220 674 307; CX 1221 392 356; CX 1225 638 1040; CX 1226 640 1042; CX 1045 1039 1044; CA 1236 1237 931;
  CA 1180 1238 1083; CA 1236 1239 497; CA 1180 1240 933; CA 1241 1242 411; CA 1241 1243 851; CA 1182 1244 853; CA 1182 1245 1087; CX 671 672 483;
  CX 678 679 474; CX 1091 1192 680; CX 1096 1200 641; CX 1137 1269 542; CX 608 609 405; CX 610 611 33865; CX 612 613 33867; CX 614 615 33868;
  CX 616 617 33866; CX 618 619 33870; CX 622 623 393; CX 624 625 404; CX 626 627 401; CX 632 633 469; CX 634 635 503; CX 637 635 486;
  CX 666 667 489; CX 668 633 419; CX 669 667 410; CX 673 635 433; CX 682 683 414; CX 684 685 416; CX 686 667 453; CX 687 688 420;
  CX 689 690 422; CX 694 695 428; CX 696 697 430; CX 698 699 434; CX 715 633 467; CX 723 635 482; CX 728 729 450; CX 730 731 457;
  CX 732 733 454; CX 734 735 458; CX 736 667 408; CX 737 633 479; CX 904 801 716; CX 749 937 765; CX 755 938 782; CX 756 939 796;
  CX 940 941 774; CX 942 943 778; CX 944 945 799; CX 946 947 576; CX 948 941 578; CX 949 947 588; CX 950 749 559; CX 951 952 751;
  CX 953 954 785; CX 955 755 509; CX 956 957 803; CX 958 952 787; CX 959 954 597; CX 960 756 565; CX 961 942 585; CX 962 942 771;
  CX 963 937 750; CX 798 949 747; CX 964 937 757; CX 965 966 738; CX 967 937 767; CX 968 969 740; CX 802 959 748; CX 970 938 742].
(** Lines 33205-33604 of the file. *)
Definition aes128_83 : list cg := [
  CX 971 938 772; CX 972 938 784; CX 973 939 745; CX 974 939 791; CX 975 939 717; CX 976 943 753; CX 977 943 806; CX 978 943 814;
  CX 950 979 758; CX 979 980 526; CX 981 794 766; CX 955 982 773; CX 982 983 534; CX 984 797 783; CX 960 985 790; CX 985 986 544;
  CX 961 962 807; CX 987 988 551; CX 989 990 554; CX 991 805 813; CX 992 993 762; CX 994 993 510; CX 995 996 776; CX 997 996 570;
  CX 998 999 793; CX 1000 999 582; CX 1001 1002 808; CX 1003 1002 811; CX 780 945 389; CX 789 957 337; CX 824 1009 834; CX 1010 824 621;
  CX 1013 1009 819; CX 1014 1009 829; CX 1015 1009 836; CX 1010 1019 830; CX 1019 1020 602; CX 1021 837 835; CX 1027 1028 832; CX 1029 1028 628;
  CX 868 1037 890; CX 1039 1040 899; CX 1041 1042 704; CX 1043 1044 916; CX 1045 1040 706; CX 1046 1042 724; CX 1049 1050 902; CX 1054 868 701;
  CX 1061 1049 721; CX 1062 1049 894; CX 915 1046 862; CX 1068 1069 850; CX 1072 1037 846; CX 1073 1037 885; CA 1074 1075 864; CX 1076 1037 892;
  CA 1074 1077 875; CA 1078 1079 858; CA 1078 1080 866; CX 1081 474 265; CX 1082 497 932; CX 1083 500 934; CX 936 931 921; CX 1084 1050 870;
  CX 1085 411 852; CX 1086 1050 922; CX 1087 413 854; CX 857 851 856; CX 1088 1050 930; CX 1054 1089 886; CX 1089 1090 648; CX 1091 908 891;
  CX 1061 1062 923; CX 1092 1093 663; CX 1094 1095 658; CX 1096 926 929; CX 1097 1098 888; CX 1099 1098 675; CX 1100 1101 924; CX 1102 1101 927;
  CX 901 1044 491; CX 393 394 33782; CX 401 402 33864; CX 403 404 33869; CX 405 406 33871; CX 407 408 326; CX 409 410 328; CX 414 415 33761;
  CX 416 417 33762; CX 418 419 33763; CX 420 421 33764; CX 422 423 33766; CX 428 429 33777; CX 430 431 33778; CX 432 433 33779; CX 434 435 33780;
  CX 450 451 33833; CX 452 453 33835; CX 454 455 33836; CX 456 457 33834; CX 458 459 33838; CX 466 467 298; CX 468 469 300; CX 479 480 296;
  CX 481 482 310; CX 485 486 302; CX 489 490 324; CX 503 504 320; CX 716 717 448; CX 566 738 579; CX 739 740 569; CX 741 742 508;
  CX 743 742 573; CX 744 745 564; CX 746 745 587; CX 747 566 384; CX 748 739 386; CX 749 750 527; CX 751 739 567; CX 752 753 584;
  CX 754 753 513; CX 755 742 535; CX 756 745 545; CX 757 758 520; CX 759 738 517; CX 760 738 574; CX 761 762 522; CX 763 738 581;
  CX 764 765 524; CX 766 767 528; CX 768 740 562; CX 769 740 589; CX 770 740 596; CX 771 753 552; CX 772 773 530; CX 747 774 575;
  CX 775 776 532; CX 774 777 361; CX 778 779 555; CX 780 588 580; CX 781 782 536; CX 783 784 538; CX 748 751 590; CX 785 786 370;
  CX 787 788 374; CX 789 597 595; CX 790 791 540; CX 792 793 543; CX 794 750 511; CX 795 796 546; CX 797 742 571; CX 798 799 577;
  CX 800 799 387; CX 801 745 583; CX 802 803 591; CX 804 803 593; CX 805 753 518; CX 806 807 548; CX 808 809 550; CX 810 750 558;
  CX 811 812 379; CX 813 814 556; CX 815 750 515; CX 818 819 620; CX 820 819 631; CX 824 819 603; CX 829 830 598; CX 831 832 601;
  CX 833 834 604; CX 835 836 606; CX 837 819 629; CX 845 846 700; CX 848 846 681; CX 674 850 707; CX 851 852 708; CX 853 854 495;
  CX 855 856 726; CX 857 852 498; CX 858 854 505; CX 862 674 507; CX 864 865 643; CX 725 858 645; CX 866 867 636; CX 868 846 649;
  CX 869 870 720; CX 872 870 642; CX 718 875 644; CX 879 850 639; CX 880 850 702; CX 881 850 711; CX 885 886 646; CX 887 888 652;
  CX 889 890 650; CX 891 892 654; CX 894 870 660; CX 862 899 703; CX 899 900 442; CX 901 724 710; CX 902 903 659; CX 908 846 676;
  CX 915 916 705; CX 917 916 487; CX 693 921 283; CX 922 923 656; CX 712 856 332; CX 924 925 662; CX 926 870 713; CX 927 928 462;
  CX 929 930 664; CX 931 932 691; CX 933 934 472; CX 935 921 719; CX 936 932 475; CX 875 934 269; CX 296 297 33760; CX 298 299 33765;
  CX 300 301 33767; CX 302 303 33783; CX 310 311 33781; CX 320 321 33776; CX 324 325 33832; CX 326 327 33837; CX 328 329 33839; CX 448 449 33814;
  CX 508 509 345; CX 510 511 341; CX 512 513 381; CX 514 515 343; CX 516 517 383; CX 518 519 380; CX 520 521 33753; CX 522 523 33754;
  CX 524 525 33756; CX 526 527 33755; CX 528 529 33758; CX 530 531 33793; CX 532 533 33794; CX 534 535 33795; CX 536 537 33796; CX 538 539 33798;
  CX 540 541 33809; CX 542 543 33810; CX 544 545 33811; CX 546 547 33812; CX 548 549 33857; CX 550 551 33858; CX 552 553 33859; CX 554 555 33860;
  CX 556 557 33862; CX 558 559 339; CX 560 517 390; CX 561 562 385; CX 563 562 338; CX 564 565 351; CX 566 517 362; CX 567 562 371;
  CX 568 569 373; CX 570 571 347; CX 572 573 349; CX 574 575 357; CX 576 577 360; CX 578 579 363; CX 580 581 365; CX 582 583 355;
  CX 584 585 377; CX 586 587 353; CX 588 517 388; CX 589 590 367; CX 591 592 369; CX 593 594 278; CX 595 596 375; CX 597 562 391;
  CX 598 599 33825; CX 600 601 33826; CX 602 603 33827; CX 604 605 33828; CX 606 607 33830; CX 620 621 395; CX 628 629 397; CX 630 631 399;
  CX 474 636 499; CX 638 639 506; CX 640 639 492; CX 641 642 464; CX 483 643 476; CX 644 483 336; CX 645 474 285; CX 646 647 33769;
  CX 648 649 33771; CX 650 651 33772; CX 652 653 33770; CX 654 655 33774; CX 656 657 33849; CX 658 659 33852; CX 660 661 33851; CX 662 663 33850;
  CX 664 665 33854; CX 670 643 484; CX 671 643 470; CX 672 643 478; CX 674 639 443; CX 675 676 426; CX 677 636 412; CX 678 636 493;
  CX 679 636 502; CX 680 681 436; CX 644 691 471; CX 691 692 292; CX 693 269 477; CX 700 701 424; CX 702 703 438; CX 704 705 444;
  CX 706 707 440; CX 645 708 494; CX 708 709 314; CX 710 711 446; CX 712 505 501; CX 713 714 463; CX 718 719 473; CX 720 721 460;
  CX 722 719 256; CX 724 639 488; CX 725 726 496; CX 727 726 330; CX 337 338 280; CX 339 340 33752; CX 341 342 33757; CX 343 344 33759;
  CX 345 346 33792; CX 347 348 33797; CX 349 350 33799; CX 351 352 33808; CX 353 354 33815; CX 355 356 33813; CX 357 358 33817; CX 359 360 33818;
  CX 361 362 33819; CX 363 364 33820; CX 365 366 33822; CX 367 368 33841; CX 369 370 33842; CX 371 372 33843; CX 373 374 33844; CX 375 376 33846;
  CX 377 378 33856; CX 379 380 33861; CX 381 382 33863; CX 383 384 270; CX 385 386 276; CX 387 388 272; CX 389 390 274; CX 391 392 279;
  CX 395 396 33824; CX 397 398 33829; CX 399 400 33831; CX 411 412 284; CX 413 412 333; CX 424 425 33768; CX 426 427 33773; CX 436 437 33775;
  CX 438 439 33785; CX 440 441 33788; CX 442 443 33787; CX 444 445 33786; CX 446 447 33790; CX 460 461 33848; CX 462 463 33853; CX 464 465 33855;
  CX 470 471 286; CX 472 473 290; CX 474 412 315; CX 475 476 294; CX 477 478 288; CX 483 484 293; CX 487 488 306; CX 491 492 308;
  CX 493 494 312; CX 495 496 318; CX 497 484 335; CX 498 499 316; CX 500 484 282; CX 501 502 322; CX 505 412 331; CX 506 507 304;
  CX 270 271 33816; CX 272 273 33821; CX 274 275 33823; CX 276 277 33840; CX 278 279 33845; CX 280 281 33847; CX 282 283 260; CX 284 285 262;
  CX 286 287 33745; CX 288 289 33750; CX 290 291 33746; CX 292 293 33747; CX 294 295 33748; CX 304 305 33784; CX 306 307 33789; CX 308 309 33791].
(** Lines 33605-33620 of the file. *)
Definition aes128_84 : list cg := [
  CX 312 313 33801; CX 314 315 33803; CX 316 317 33804; CX 318 319 33802; CX 322 323 33806; CX 330 331 264; CX 332 333 266; CX 334 293 268;
  CX 335 336 258; CX 258 259 33744; CX 260 261 33751; CX 262 263 33800; CX 264 265 33805; CX 266 267 33807; CX 268 269 257; CX 256 257 33749].
(** /repo/src/circuits/cryptography/AES-non-expanded.txt; lines 1-4 are the header. *)
Definition aes128_gates : list cg := concat [aes128_0; aes128_1; aes128_2; aes128_3; aes128_4; aes128_5; aes128_6; aes128_7; aes128_8; aes128_9; aes128_10; aes128_11; aes128_12; aes128_13; aes128_14; aes128_15; aes128_16; aes128_17; aes128_18; aes128_19; aes128_20; aes128_21; aes128_22; aes128_23; aes128_24; aes128_25; aes128_26; aes128_27; aes128_28; aes128_29; aes128_30; aes128_31; aes128_32; aes128_33; aes128_34; aes128_35; aes128_36; aes128_37; aes128_38; aes128_39; aes128_40; aes128_41; aes128_42; aes128_43; aes128_44; aes128_45; aes128_46; aes128_47; aes128_48; aes128_49; aes128_50; aes128_51; aes128_52; aes128_53; aes128_54; aes128_55; aes128_56; aes128_57; aes128_58; aes128_59; aes128_60; aes128_61; aes128_62; aes128_63; aes128_64; aes128_65; aes128_66; aes128_67; aes128_68; aes128_69; aes128_70; aes128_71; aes128_72; aes128_73; aes128_74; aes128_75; aes128_76; aes128_77; aes128_78; aes128_79; aes128_80; aes128_81; aes128_82; aes128_83; aes128_84].
Definition aes128 : netlist := NL ("33616 33872"%string, "2 128 128"%string, "1 128"%string, ""%string) (33616, 33872, [128; 128], [128]) aes128_gates (Blank 1).
