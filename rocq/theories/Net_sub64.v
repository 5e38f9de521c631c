(** Generated by /verif/tools/gen_netlists.py from /repo/src/circuits/arithmetic/sub64.txt. *)
From Verif Require Import Netlist.
Open Scope N_scope.
Open Scope list_scope.

(** Lines 5-404 of the file. *)
Definition sub64_0 : list cg := [
  CX 63 127 439; CX 62 126 438; CX 61 125 437; CX 60 124 436; CX 59 123 435; CX 58 122 434; CX 57 121 433; CX 56 120 432;
  CX 55 119 431; CX 54 118 430; CX 53 117 429; CX 52 116 428; CX 51 115 427; CX 50 114 426; CX 49 113 425; CX 48 112 424;
  CX 47 111 423; CX 46 110 422; CX 45 109 421; CX 44 108 420; CX 43 107 419; CX 42 106 418; CX 41 105 417; CX 40 104 416;
  CX 39 103 415; CX 38 102 414; CX 37 101 413; CX 36 100 412; CX 35 99 411; CX 34 98 410; CX 33 97 409; CX 32 96 408;
  CX 31 95 407; CX 30 94 406; CX 29 93 405; CX 28 92 404; CX 27 91 403; CX 26 90 402; CX 25 89 401; CX 24 88 400;
  CX 23 87 399; CX 22 86 398; CX 21 85 397; CX 20 84 396; CX 19 83 395; CX 18 82 394; CX 17 81 393; CX 16 80 392;
  CX 15 79 391; CX 14 78 390; CX 13 77 389; CX 12 76 388; CX 11 75 387; CX 10 74 386; CX 9 73 385; CX 8 72 384;
  CX 7 71 383; CX 6 70 382; CX 5 69 381; CX 4 68 380; CX 3 67 379; CX 2 66 378; CX 1 65 377; CX 0 64 503;
  CI 0 314; CA 314 64 440; CX 65 440 129; CX 377 440 504; CI 1 315; CX 315 440 128; CA 128 129 130; CX 130 440 441;
  CX 66 441 132; CX 378 441 505; CI 2 316; CX 316 441 131; CA 131 132 133; CX 133 441 442; CX 67 442 135; CX 379 442 506;
  CI 3 317; CX 317 442 134; CA 134 135 136; CX 136 442 443; CX 68 443 138; CX 380 443 507; CI 4 318; CX 318 443 137;
  CA 137 138 139; CX 139 443 444; CX 69 444 141; CX 381 444 508; CI 5 319; CX 319 444 140; CA 140 141 142; CX 142 444 445;
  CX 70 445 144; CX 382 445 509; CI 6 320; CX 320 445 143; CA 143 144 145; CX 145 445 446; CX 71 446 147; CX 383 446 510;
  CI 7 321; CX 321 446 146; CA 146 147 148; CX 148 446 447; CX 72 447 150; CX 384 447 511; CI 8 322; CX 322 447 149;
  CA 149 150 151; CX 151 447 448; CX 73 448 153; CX 385 448 512; CI 9 323; CX 323 448 152; CA 152 153 154; CX 154 448 449;
  CX 74 449 156; CX 386 449 513; CI 10 324; CX 324 449 155; CA 155 156 157; CX 157 449 450; CX 75 450 159; CX 387 450 514;
  CI 11 325; CX 325 450 158; CA 158 159 160; CX 160 450 451; CX 76 451 162; CX 388 451 515; CI 12 326; CX 326 451 161;
  CA 161 162 163; CX 163 451 452; CX 77 452 165; CX 389 452 516; CI 13 327; CX 327 452 164; CA 164 165 166; CX 166 452 453;
  CX 78 453 168; CX 390 453 517; CI 14 328; CX 328 453 167; CA 167 168 169; CX 169 453 454; CX 79 454 171; CX 391 454 518;
  CI 15 329; CX 329 454 170; CA 170 171 172; CX 172 454 455; CX 80 455 174; CX 392 455 519; CI 16 330; CX 330 455 173;
  CA 173 174 175; CX 175 455 456; CX 81 456 177; CX 393 456 520; CI 17 331; CX 331 456 176; CA 176 177 178; CX 178 456 457;
  CX 82 457 180; CX 394 457 521; CI 18 332; CX 332 457 179; CA 179 180 181; CX 181 457 458; CX 83 458 183; CX 395 458 522;
  CI 19 333; CX 333 458 182; CA 182 183 184; CX 184 458 459; CX 84 459 186; CX 396 459 523; CI 20 334; CX 334 459 185;
  CA 185 186 187; CX 187 459 460; CX 85 460 189; CX 397 460 524; CI 21 335; CX 335 460 188; CA 188 189 190; CX 190 460 461;
  CX 86 461 192; CX 398 461 525; CI 22 336; CX 336 461 191; CA 191 192 193; CX 193 461 462; CX 399 462 526; CX 87 462 195;
  CI 23 337; CX 337 462 194; CA 194 195 196; CX 196 462 463; CX 88 463 198; CX 400 463 527; CI 24 338; CX 338 463 197;
  CA 197 198 199; CX 199 463 464; CX 401 464 528; CX 89 464 201; CI 25 339; CX 339 464 200; CA 200 201 202; CX 202 464 465;
  CX 402 465 529; CX 90 465 204; CI 26 340; CX 340 465 203; CA 203 204 205; CX 205 465 466; CX 91 466 207; CX 403 466 530;
  CI 27 341; CX 341 466 206; CA 206 207 208; CX 208 466 467; CX 92 467 210; CX 404 467 531; CI 28 342; CX 342 467 209;
  CA 209 210 211; CX 211 467 468; CX 405 468 532; CX 93 468 213; CI 29 343; CX 343 468 212; CA 212 213 214; CX 214 468 469;
  CX 94 469 216; CX 406 469 533; CI 30 344; CX 344 469 215; CA 215 216 217; CX 217 469 470; CX 407 470 534; CX 95 470 219;
  CI 31 345; CX 345 470 218; CA 218 219 220; CX 220 470 471; CX 96 471 222; CX 408 471 535; CI 32 346; CX 346 471 221;
  CA 221 222 223; CX 223 471 472; CX 97 472 225; CX 409 472 536; CI 33 347; CX 347 472 224; CA 224 225 226; CX 226 472 473;
  CX 410 473 537; CX 98 473 228; CI 34 348; CX 348 473 227; CA 227 228 229; CX 229 473 474; CX 411 474 538; CX 99 474 231;
  CI 35 349; CX 349 474 230; CA 230 231 232; CX 232 474 475; CX 412 475 539; CX 100 475 234; CI 36 350; CX 350 475 233;
  CA 233 234 235; CX 235 475 476; CX 413 476 540; CX 101 476 237; CI 37 351; CX 351 476 236; CA 236 237 238; CX 238 476 477;
  CX 414 477 541; CX 102 477 240; CI 38 352; CX 352 477 239; CA 239 240 241; CX 241 477 478; CX 103 478 243; CX 415 478 542;
  CI 39 353; CX 353 478 242; CA 242 243 244; CX 244 478 479; CX 416 479 543; CX 104 479 246; CI 40 354; CX 354 479 245;
  CA 245 246 247; CX 247 479 480; CX 417 480 544; CX 105 480 249; CI 41 355; CX 355 480 248; CA 248 249 250; CX 250 480 481;
  CX 418 481 545; CX 106 481 252; CI 42 356; CX 356 481 251; CA 251 252 253; CX 253 481 482; CX 107 482 255; CX 419 482 546;
  CI 43 357; CX 357 482 254; CA 254 255 256; CX 256 482 483; CX 420 483 547; CX 108 483 258; CI 44 358; CX 358 483 257;
  CA 257 258 259; CX 259 483 484; CX 109 484 261; CX 421 484 548; CI 45 359; CX 359 484 260; CA 260 261 262; CX 262 484 485;
  CX 422 485 549; CX 110 485 264; CI 46 360; CX 360 485 263; CA 263 264 265; CX 265 485 486; CX 423 486 550; CX 111 486 267;
  CI 47 361; CX 361 486 266; CA 266 267 268; CX 268 486 487; CX 112 487 270; CX 424 487 551; CI 48 362; CX 362 487 269;
  CA 269 270 271; CX 271 487 488; CX 113 488 273; CX 425 488 552; CI 49 363; CX 363 488 272; CA 272 273 274; CX 274 488 489;
  CX 114 489 276; CX 426 489 553; CI 50 364; CX 364 489 275; CA 275 276 277; CX 277 489 490; CX 115 490 279; CX 427 490 554;
  CI 51 365; CX 365 490 278; CA 278 279 280; CX 280 490 491; CX 116 491 282; CX 428 491 555; CI 52 366; CX 366 491 281;
  CA 281 282 283; CX 283 491 492; CX 117 492 285; CX 429 492 556; CI 53 367; CX 367 492 284; CA 284 285 286; CX 286 492 493;
  CX 118 493 288; CX 430 493 557; CI 54 368; CX 368 493 287; CA 287 288 289; CX 289 493 494; CX 431 494 558; CX 119 494 291;
  CI 55 369; CX 369 494 290; CA 290 291 292; CX 292 494 495; CX 432 495 559; CX 120 495 294; CI 56 370; CX 370 495 293].
(** Lines 405-443 of the file. *)
Definition sub64_1 : list cg := [
  CA 293 294 295; CX 295 495 496; CX 121 496 297; CX 433 496 560; CI 57 371; CX 371 496 296; CA 296 297 298; CX 298 496 497;
  CX 122 497 300; CX 434 497 561; CI 58 372; CX 372 497 299; CA 299 300 301; CX 301 497 498; CX 123 498 303; CX 435 498 562;
  CI 59 373; CX 373 498 302; CA 302 303 304; CX 304 498 499; CX 436 499 563; CX 124 499 306; CI 60 374; CX 374 499 305;
  CA 305 306 307; CX 307 499 500; CX 125 500 309; CX 437 500 564; CI 61 375; CX 375 500 308; CA 308 309 310; CX 310 500 501;
  CX 438 501 565; CX 126 501 312; CI 62 376; CX 376 501 311; CA 311 312 313; CX 313 501 502; CX 439 502 566].
(** /repo/src/circuits/arithmetic/sub64.txt; lines 1-4 are the header. *)
Definition sub64_gates : list cg := concat [sub64_0; sub64_1].
Definition sub64 : netlist := NL ("439 567"%string, "2 64 64 "%string, "1 64 "%string, ""%string) (439, 567, [64; 64], [64]) sub64_gates (Blank 2).
