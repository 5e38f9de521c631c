(** Generated by /verif/tools/gen_netlists.py from /repo/src/circuits/arithmetic/adder64.txt. *)
From Verif Require Import Netlist.
Open Scope N_scope.
Open Scope list_scope.

(** Lines 5-380 of the file. *)
Definition adder64_0 : list cg := [
  CX 63 127 376; CX 62 126 375; CX 61 125 374; CX 60 124 373; CX 59 123 372; CX 58 122 371; CX 57 121 370; CX 56 120 369;
  CX 55 119 368; CX 54 118 367; CX 53 117 366; CX 52 116 365; CX 51 115 364; CX 50 114 363; CX 49 113 362; CX 48 112 361;
  CX 47 111 360; CX 46 110 359; CX 45 109 358; CX 44 108 357; CX 43 107 356; CX 42 106 355; CX 41 105 354; CX 40 104 353;
  CX 39 103 352; CX 38 102 351; CX 37 101 350; CX 36 100 349; CX 35 99 348; CX 34 98 347; CX 33 97 346; CX 32 96 345;
  CX 31 95 344; CX 30 94 343; CX 29 93 342; CX 28 92 341; CX 27 91 340; CX 26 90 339; CX 25 89 338; CX 24 88 337;
  CX 23 87 336; CX 22 86 335; CX 21 85 334; CX 20 84 333; CX 19 83 332; CX 18 82 331; CX 17 81 330; CX 16 80 329;
  CX 15 79 328; CX 14 78 327; CX 13 77 326; CX 12 76 325; CX 11 75 324; CX 10 74 323; CX 9 73 322; CX 8 72 321;
  CX 7 71 320; CX 6 70 319; CX 5 69 318; CX 4 68 317; CX 3 67 316; CX 2 66 315; CX 1 65 314; CX 0 64 440;
  CA 0 64 377; CX 65 377 129; CX 1 377 128; CA 128 129 130; CX 130 377 378; CX 66 378 132; CX 2 378 131; CA 131 132 133;
  CX 133 378 379; CX 67 379 135; CX 3 379 134; CA 134 135 136; CX 136 379 380; CX 68 380 138; CX 4 380 137; CA 137 138 139;
  CX 139 380 381; CX 69 381 141; CX 5 381 140; CA 140 141 142; CX 142 381 382; CX 70 382 144; CX 6 382 143; CA 143 144 145;
  CX 145 382 383; CX 71 383 147; CX 7 383 146; CA 146 147 148; CX 148 383 384; CX 72 384 150; CX 8 384 149; CA 149 150 151;
  CX 151 384 385; CX 73 385 153; CX 9 385 152; CA 152 153 154; CX 154 385 386; CX 74 386 156; CX 10 386 155; CA 155 156 157;
  CX 157 386 387; CX 75 387 159; CX 11 387 158; CA 158 159 160; CX 160 387 388; CX 76 388 162; CX 12 388 161; CA 161 162 163;
  CX 163 388 389; CX 77 389 165; CX 13 389 164; CA 164 165 166; CX 166 389 390; CX 78 390 168; CX 14 390 167; CA 167 168 169;
  CX 169 390 391; CX 79 391 171; CX 15 391 170; CA 170 171 172; CX 172 391 392; CX 80 392 174; CX 16 392 173; CA 173 174 175;
  CX 175 392 393; CX 81 393 177; CX 17 393 176; CA 176 177 178; CX 178 393 394; CX 82 394 180; CX 18 394 179; CA 179 180 181;
  CX 181 394 395; CX 83 395 183; CX 19 395 182; CA 182 183 184; CX 184 395 396; CX 84 396 186; CX 20 396 185; CA 185 186 187;
  CX 187 396 397; CX 85 397 189; CX 21 397 188; CA 188 189 190; CX 190 397 398; CX 86 398 192; CX 22 398 191; CA 191 192 193;
  CX 193 398 399; CX 87 399 195; CX 23 399 194; CA 194 195 196; CX 196 399 400; CX 88 400 198; CX 24 400 197; CA 197 198 199;
  CX 199 400 401; CX 89 401 201; CX 25 401 200; CA 200 201 202; CX 202 401 402; CX 90 402 204; CX 26 402 203; CA 203 204 205;
  CX 205 402 403; CX 91 403 207; CX 27 403 206; CA 206 207 208; CX 208 403 404; CX 341 404 468; CX 92 404 210; CX 28 404 209;
  CA 209 210 211; CX 211 404 405; CX 342 405 469; CX 340 403 467; CX 93 405 213; CX 29 405 212; CA 212 213 214; CX 214 405 406;
  CX 343 406 470; CX 339 402 466; CX 94 406 216; CX 30 406 215; CA 215 216 217; CX 217 406 407; CX 338 401 465; CX 31 407 218;
  CX 344 407 471; CX 337 400 464; CX 95 407 219; CA 218 219 220; CX 220 407 408; CX 345 408 472; CX 336 399 463; CX 96 408 222;
  CX 32 408 221; CA 221 222 223; CX 223 408 409; CX 346 409 473; CX 335 398 462; CX 97 409 225; CX 33 409 224; CA 224 225 226;
  CX 226 409 410; CX 347 410 474; CX 334 397 461; CX 98 410 228; CX 34 410 227; CA 227 228 229; CX 229 410 411; CX 333 396 460;
  CX 35 411 230; CX 348 411 475; CX 332 395 459; CX 99 411 231; CA 230 231 232; CX 232 411 412; CX 349 412 476; CX 331 394 458;
  CX 100 412 234; CX 36 412 233; CA 233 234 235; CX 235 412 413; CX 350 413 477; CX 330 393 457; CX 101 413 237; CX 37 413 236;
  CA 236 237 238; CX 238 413 414; CX 351 414 478; CX 329 392 456; CX 102 414 240; CX 38 414 239; CA 239 240 241; CX 241 414 415;
  CX 328 391 455; CX 39 415 242; CX 352 415 479; CX 327 390 454; CX 103 415 243; CA 242 243 244; CX 244 415 416; CX 353 416 480;
  CX 326 389 453; CX 104 416 246; CX 40 416 245; CA 245 246 247; CX 247 416 417; CX 354 417 481; CX 325 388 452; CX 105 417 249;
  CX 41 417 248; CA 248 249 250; CX 250 417 418; CX 355 418 482; CX 324 387 451; CX 106 418 252; CX 42 418 251; CA 251 252 253;
  CX 253 418 419; CX 323 386 450; CX 43 419 254; CX 356 419 483; CX 322 385 449; CX 107 419 255; CA 254 255 256; CX 256 419 420;
  CX 357 420 484; CX 321 384 448; CX 108 420 258; CX 44 420 257; CA 257 258 259; CX 259 420 421; CX 358 421 485; CX 320 383 447;
  CX 109 421 261; CX 45 421 260; CA 260 261 262; CX 262 421 422; CX 359 422 486; CX 319 382 446; CX 110 422 264; CX 46 422 263;
  CA 263 264 265; CX 265 422 423; CX 318 381 445; CX 47 423 266; CX 360 423 487; CX 317 380 444; CX 111 423 267; CA 266 267 268;
  CX 268 423 424; CX 361 424 488; CX 316 379 443; CX 112 424 270; CX 48 424 269; CA 269 270 271; CX 271 424 425; CX 362 425 489;
  CX 315 378 442; CX 113 425 273; CX 49 425 272; CA 272 273 274; CX 274 425 426; CX 363 426 490; CX 314 377 441; CX 114 426 276;
  CX 50 426 275; CA 275 276 277; CX 277 426 427; CX 115 427 279; CX 51 427 278; CA 278 279 280; CX 280 427 428; CX 116 428 282;
  CX 52 428 281; CA 281 282 283; CX 283 428 429; CX 117 429 285; CX 53 429 284; CA 284 285 286; CX 286 429 430; CX 118 430 288;
  CX 54 430 287; CA 287 288 289; CX 289 430 431; CX 119 431 291; CX 55 431 290; CA 290 291 292; CX 292 431 432; CX 120 432 294;
  CX 56 432 293; CA 293 294 295; CX 295 432 433; CX 370 433 497; CX 121 433 297; CX 57 433 296; CA 296 297 298; CX 298 433 434;
  CX 371 434 498; CX 369 432 496; CX 122 434 300; CX 58 434 299; CA 299 300 301; CX 301 434 435; CX 372 435 499; CX 368 431 495;
  CX 123 435 303; CX 59 435 302; CA 302 303 304; CX 304 435 436; CX 367 430 494; CX 60 436 305; CX 373 436 500; CX 366 429 493;
  CX 124 436 306; CA 305 306 307; CX 307 436 437; CX 374 437 501; CX 365 428 492; CX 125 437 309; CX 61 437 308; CA 308 309 310;
  CX 310 437 438; CX 375 438 502; CX 364 427 491; CX 126 438 312; CX 62 438 311; CA 311 312 313; CX 313 438 439; CX 376 439 503].
(** /repo/src/circuits/arithmetic/adder64.txt; lines 1-4 are the header. *)
Definition adder64_gates : list cg := concat [adder64_0].
Definition adder64 : netlist := NL ("376 504"%string, "2 64 64 "%string, "1 64 "%string, ""%string) (376, 504, [64; 64], [64]) adder64_gates (Blank 2).
