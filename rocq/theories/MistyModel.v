(* MISTY1. *)
From Verif Require Import Words TaskModel ModeModel CipherBase.
Open Scope N_scope.

(* src/kryptos_misty1.c:64-72 kryptos_misty1_S7 *)
Definition misty1_S7 : list N :=
  [27; 50; 51; 90; 59; 16; 23; 84; 91; 26; 114; 115; 107; 44; 102; 73;
   31; 36; 19; 108; 55; 46; 63; 74; 93; 15; 64; 86; 37; 81; 28; 4;
   11; 70; 32; 13; 123; 53; 68; 66; 43; 30; 65; 20; 75; 121; 21; 111;
   14; 85; 9; 54; 116; 12; 103; 83; 40; 10; 126; 56; 2; 7; 96; 41;
   25; 18; 101; 47; 48; 57; 8; 104; 95; 120; 42; 76; 100; 69; 117; 61;
   89; 72; 3; 87; 124; 79; 98; 60; 29; 33; 94; 39; 106; 112; 77; 58;
   1; 109; 110; 99; 24; 119; 35; 5; 38; 118; 0; 49; 45; 122; 127; 97;
   80; 34; 17; 6; 71; 22; 82; 78; 113; 62; 105; 67; 52; 92; 88; 125]%N.

(* src/kryptos_misty1.c:74-106 kryptos_misty1_S9 *)
Definition misty1_S9 : list N :=
  [451; 203; 339; 415; 483; 233; 251; 53; 385; 185; 279; 491; 307; 9; 45; 211;
   199; 330; 55; 126; 235; 356; 403; 472; 163; 286; 85; 44; 29; 418; 355; 280;
   331; 338; 466; 15; 43; 48; 314; 229; 273; 312; 398; 99; 227; 200; 500; 27;
   1; 157; 248; 416; 365; 499; 28; 326; 125; 209; 130; 490; 387; 301; 244; 414;
   467; 221; 482; 296; 480; 236; 89; 145; 17; 303; 38; 220; 176; 396; 271; 503;
   231; 364; 182; 249; 216; 337; 257; 332; 259; 184; 340; 299; 430; 23; 113; 12;
   71; 88; 127; 420; 308; 297; 132; 349; 413; 434; 419; 72; 124; 81; 458; 35;
   317; 423; 357; 59; 66; 218; 402; 206; 193; 107; 159; 497; 300; 388; 250; 406;
   481; 361; 381; 49; 384; 266; 148; 474; 390; 318; 284; 96; 373; 463; 103; 281;
   101; 104; 153; 336; 8; 7; 380; 183; 36; 25; 222; 295; 219; 228; 425; 82;
   265; 144; 412; 449; 40; 435; 309; 362; 374; 223; 485; 392; 197; 366; 478; 433;
   195; 479; 54; 238; 494; 240; 147; 73; 154; 438; 105; 129; 293; 11; 94; 180;
   329; 455; 372; 62; 315; 439; 142; 454; 174; 16; 149; 495; 78; 242; 509; 133;
   253; 246; 160; 367; 131; 138; 342; 155; 316; 263; 359; 152; 464; 489; 3; 510;
   189; 290; 137; 210; 399; 18; 51; 106; 322; 237; 368; 283; 226; 335; 344; 305;
   327; 93; 275; 461; 121; 353; 421; 377; 158; 436; 204; 34; 306; 26; 232; 4;
   391; 493; 407; 57; 447; 471; 39; 395; 198; 156; 208; 334; 108; 52; 498; 110;
   202; 37; 186; 401; 254; 19; 262; 47; 429; 370; 475; 192; 267; 470; 245; 492;
   269; 118; 276; 427; 117; 268; 484; 345; 84; 287; 75; 196; 446; 247; 41; 164;
   14; 496; 119; 77; 378; 134; 139; 179; 369; 191; 270; 260; 151; 347; 352; 360;
   215; 187; 102; 462; 252; 146; 453; 111; 22; 74; 161; 313; 175; 241; 400; 10;
   426; 323; 379; 86; 397; 358; 212; 507; 333; 404; 410; 135; 504; 291; 167; 440;
   321; 60; 505; 320; 42; 341; 282; 417; 408; 213; 294; 431; 97; 302; 343; 476;
   114; 394; 170; 150; 277; 239; 69; 123; 141; 325; 83; 95; 376; 178; 46; 32;
   469; 63; 457; 487; 428; 68; 56; 20; 177; 363; 171; 181; 90; 386; 456; 468;
   24; 375; 100; 207; 109; 256; 409; 304; 346; 5; 288; 443; 445; 224; 79; 214;
   319; 452; 298; 21; 6; 255; 411; 166; 67; 136; 80; 351; 488; 289; 115; 382;
   188; 194; 201; 371; 393; 501; 116; 460; 486; 424; 405; 31; 65; 13; 442; 50;
   61; 465; 128; 168; 87; 441; 354; 328; 217; 261; 98; 122; 33; 511; 274; 264;
   448; 169; 285; 432; 422; 205; 243; 92; 258; 91; 473; 324; 502; 173; 165; 58;
   459; 310; 383; 70; 225; 30; 477; 230; 311; 506; 389; 140; 143; 64; 437; 190;
   120; 0; 172; 272; 350; 292; 2; 444; 162; 234; 112; 508; 278; 348; 76; 450]%N.

(* src/kryptos_misty1.c:19-27 kryptos_misty1_FI *)
Definition misty1_FI (i k : N) : N :=
  let d9 := and (shr i 7) 0x1FF in
  let d7 := and i 0x7F in
  let d9 := xor (nthN misty1_S9 d9) d7 in
  let d7 := and (xor (nthN misty1_S7 d7) d9) 0x7F in
  let d7 := xor d7 (shr k 9) in
  let d9 := xor d9 (and k 0x1FF) in
  let d9 := xor (nthN misty1_S9 d9) d7 in
  or (shlw 16 d7 9) d9.

(* src/kryptos_misty1.c:29-42 kryptos_misty1_FO *)
Definition misty1_FO (EK : list N) (i : N) (k : nat) : N :=
  let ek j := nth j EK 0 in
  let t0 := shr i 16 in
  let t1 := and i 0xFFFF in
  let t0 := xor t0 (ek k) in
  let t0 := misty1_FI t0 (ek ((k + 5) mod 8 + 8)%nat) in
  let t0 := xor t0 t1 in
  let t1 := xor t1 (ek ((k + 2) mod 8)%nat) in
  let t1 := misty1_FI t1 (ek ((k + 1) mod 8 + 8)%nat) in
  let t1 := xor t1 t0 in
  let t0 := xor t0 (ek ((k + 7) mod 8)%nat) in
  let t0 := misty1_FI t0 (ek ((k + 3) mod 8 + 8)%nat) in
  let t0 := xor t0 t1 in
  let t1 := xor t1 (ek ((k + 4) mod 8)%nat) in
  or (shl32 t1 16) t0.

(* the sub-keys and-ed and or-ed by FL and its inverse, for even and odd k: lines 47-50, 56-59 *)
Definition misty1_FL_and (EK : list N) (k : nat) : N :=
  if Nat.even k then nth (k / 2) EK 0 else nth (((k - 1) / 2 + 2) mod 8 + 8) EK 0.
Definition misty1_FL_or (EK : list N) (k : nat) : N :=
  if Nat.even k then nth ((k / 2 + 6) mod 8 + 8) EK 0 else nth (((k - 1) / 2 + 4) mod 8) EK 0.

(* src/kryptos_misty1.c:44-51 kryptos_misty1_FL *)
Definition misty1_FL (EK : list N) (i : N) (k : nat) : N :=
  let d0 := shr i 16 in
  let d1 := and i 0xFFFF in
  let d1 := xor d1 (and d0 (misty1_FL_and EK k)) in
  let d0 := xor d0 (or d1 (misty1_FL_or EK k)) in
  or (shl32 d0 16) d1.

(* src/kryptos_misty1.c:53-60 kryptos_misty1_FL_1 *)
Definition misty1_FL_1 (EK : list N) (i : N) (k : nat) : N :=
  let d0 := shr i 16 in
  let d1 := and i 0xFFFF in
  let d0 := xor d0 (or d1 (misty1_FL_or EK k)) in
  let d1 := xor d1 (and d0 (misty1_FL_and EK k)) in
  or (shl32 d0 16) d1.

(* src/kryptos_misty1.c:144-193 kryptos_misty1_ld_user_key (16 calls), kryptos_misty1_sched_skeys *)
Definition misty1_sched (key : list N) : list N :=
  let K := ld_user_key 2 8 16 key in
  let E := map (fun i => misty1_FI (nth i K 0) (nth ((i + 1) mod 8) K 0)) (seq 0 8) in
  K ++ E ++ map (fun x => and x 0x1FF) E ++ map (fun x => shr x 9) E.

(* src/kryptos_misty1.c:202-228: rounds 2j and 2j+1 on (D0, D1) *)
Definition misty1_enc_round (EK : list N) (s : N * N) (j : nat) : N * N :=
  let '(D0, D1) := s in
  let D0 := misty1_FL EK D0 (2 * j) in
  let D1 := misty1_FL EK D1 (2 * j + 1) in
  let D1 := xor D1 (misty1_FO EK D0 (2 * j)) in
  let D0 := xor D0 (misty1_FO EK D1 (2 * j + 1)) in
  (D0, D1).

(* src/kryptos_misty1.c:258-288: the rounds reversed *)
Definition misty1_dec_round (EK : list N) (s : N * N) (j : nat) : N * N :=
  let '(D0, D1) := s in
  let D0 := xor D0 (misty1_FO EK D1 (2 * j + 1)) in
  let D1 := xor D1 (misty1_FO EK D0 (2 * j)) in
  let D0 := misty1_FL_1 EK D0 (2 * j) in
  let D1 := misty1_FL_1 EK D1 (2 * j + 1) in
  (D0, D1).

(* src/kryptos_misty1.c:195-244 kryptos_misty1_block_encrypt *)
Definition misty1_encrypt_words (EK : list N) (s : N * N) : N * N :=
  let '(D0, D1) := fold_left (misty1_enc_round EK) (seq 0 4) s in
  (misty1_FL EK D1 9, misty1_FL EK D0 8).

(* src/kryptos_misty1.c:246-295 kryptos_misty1_block_decrypt *)
Definition misty1_decrypt_words (EK : list N) (s : N * N) : N * N :=
  let '(D1, D0) := s in
  fold_left (misty1_dec_round EK) (rev (seq 0 4)) (misty1_FL_1 EK D0 8, misty1_FL_1 EK D1 9).

(* src/kryptos_misty1.c:127-142 *)
Definition misty1 : blockcipher :=
  {| bc_id := MISTY1; bc_bs := 8;
     bc_check := fun _ => Done Success;
     bc_enc := fun key => blk_be 4 2 (on2 (misty1_encrypt_words (misty1_sched key)));
     bc_dec := fun key => blk_be 4 2 (on2 (misty1_decrypt_words (misty1_sched key)));
     bc_gcm := GcmNoSupport |}.
