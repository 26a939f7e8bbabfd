From Verif Require Import Words TaskModel ModeModel CipherBase.
Open Scope N_scope.

(* Model of src/kryptos_camellia.c. A 64-bit half is kept, as in the code, as two 32-bit words. *)

(* src/kryptos_camellia.c:39-54 *)
Definition camellia_s1 : list N :=
  [112; 130; 44; 236; 179; 39; 192; 229; 228; 133; 87; 53; 234; 12; 174; 65;
   35; 239; 107; 147; 69; 25; 165; 33; 237; 14; 79; 78; 29; 101; 146; 189;
   134; 184; 175; 143; 124; 235; 31; 206; 62; 48; 220; 95; 94; 197; 11; 26;
   166; 225; 57; 202; 213; 71; 93; 61; 217; 1; 90; 214; 81; 86; 108; 77;
   139; 13; 154; 102; 251; 204; 176; 45; 116; 18; 43; 32; 240; 177; 132; 153;
   223; 76; 203; 194; 52; 126; 118; 5; 109; 183; 169; 49; 209; 23; 4; 215;
   20; 88; 58; 97; 222; 27; 17; 28; 50; 15; 156; 22; 83; 24; 242; 34;
   254; 68; 207; 178; 195; 181; 122; 145; 36; 8; 232; 168; 96; 252; 105; 80;
   170; 208; 160; 125; 161; 137; 98; 151; 84; 91; 30; 149; 224; 255; 100; 210;
   16; 196; 0; 72; 163; 247; 117; 219; 138; 3; 230; 218; 9; 63; 221; 148;
   135; 92; 131; 2; 205; 74; 144; 51; 115; 103; 246; 243; 157; 127; 191; 226;
   82; 155; 216; 38; 200; 55; 198; 59; 129; 150; 111; 75; 19; 190; 99; 46;
   233; 121; 167; 140; 159; 110; 188; 142; 41; 245; 249; 182; 47; 253; 180; 89;
   120; 152; 6; 106; 231; 70; 113; 186; 212; 37; 171; 66; 136; 162; 141; 250;
   114; 7; 185; 85; 248; 238; 172; 10; 54; 73; 42; 104; 60; 56; 241; 164;
   64; 40; 211; 123; 187; 201; 67; 193; 21; 227; 173; 244; 119; 199; 128; 158]%N.

(* src/kryptos_camellia.c:56-71 *)
Definition camellia_s2 : list N :=
  [224; 5; 88; 217; 103; 78; 129; 203; 201; 11; 174; 106; 213; 24; 93; 130;
   70; 223; 214; 39; 138; 50; 75; 66; 219; 28; 158; 156; 58; 202; 37; 123;
   13; 113; 95; 31; 248; 215; 62; 157; 124; 96; 185; 190; 188; 139; 22; 52;
   77; 195; 114; 149; 171; 142; 186; 122; 179; 2; 180; 173; 162; 172; 216; 154;
   23; 26; 53; 204; 247; 153; 97; 90; 232; 36; 86; 64; 225; 99; 9; 51;
   191; 152; 151; 133; 104; 252; 236; 10; 218; 111; 83; 98; 163; 46; 8; 175;
   40; 176; 116; 194; 189; 54; 34; 56; 100; 30; 57; 44; 166; 48; 229; 68;
   253; 136; 159; 101; 135; 107; 244; 35; 72; 16; 209; 81; 192; 249; 210; 160;
   85; 161; 65; 250; 67; 19; 196; 47; 168; 182; 60; 43; 193; 255; 200; 165;
   32; 137; 0; 144; 71; 239; 234; 183; 21; 6; 205; 181; 18; 126; 187; 41;
   15; 184; 7; 4; 155; 148; 33; 102; 230; 206; 237; 231; 59; 254; 127; 197;
   164; 55; 177; 76; 145; 110; 141; 118; 3; 45; 222; 150; 38; 125; 198; 92;
   211; 242; 79; 25; 63; 220; 121; 29; 82; 235; 243; 109; 94; 251; 105; 178;
   240; 49; 12; 212; 207; 140; 226; 117; 169; 74; 87; 132; 17; 69; 27; 245;
   228; 14; 115; 170; 241; 221; 89; 20; 108; 146; 84; 208; 120; 112; 227; 73;
   128; 80; 167; 246; 119; 147; 134; 131; 42; 199; 91; 233; 238; 143; 1; 61]%N.

(* src/kryptos_camellia.c:73-88 *)
Definition camellia_s3 : list N :=
  [56; 65; 22; 118; 217; 147; 96; 242; 114; 194; 171; 154; 117; 6; 87; 160;
   145; 247; 181; 201; 162; 140; 210; 144; 246; 7; 167; 39; 142; 178; 73; 222;
   67; 92; 215; 199; 62; 245; 143; 103; 31; 24; 110; 175; 47; 226; 133; 13;
   83; 240; 156; 101; 234; 163; 174; 158; 236; 128; 45; 107; 168; 43; 54; 166;
   197; 134; 77; 51; 253; 102; 88; 150; 58; 9; 149; 16; 120; 216; 66; 204;
   239; 38; 229; 97; 26; 63; 59; 130; 182; 219; 212; 152; 232; 139; 2; 235;
   10; 44; 29; 176; 111; 141; 136; 14; 25; 135; 78; 11; 169; 12; 121; 17;
   127; 34; 231; 89; 225; 218; 61; 200; 18; 4; 116; 84; 48; 126; 180; 40;
   85; 104; 80; 190; 208; 196; 49; 203; 42; 173; 15; 202; 112; 255; 50; 105;
   8; 98; 0; 36; 209; 251; 186; 237; 69; 129; 115; 109; 132; 159; 238; 74;
   195; 46; 193; 1; 230; 37; 72; 153; 185; 179; 123; 249; 206; 191; 223; 113;
   41; 205; 108; 19; 100; 155; 99; 157; 192; 75; 183; 165; 137; 95; 177; 23;
   244; 188; 211; 70; 207; 55; 94; 71; 148; 250; 252; 91; 151; 254; 90; 172;
   60; 76; 3; 53; 243; 35; 184; 93; 106; 146; 213; 33; 68; 81; 198; 125;
   57; 131; 220; 170; 124; 119; 86; 5; 27; 164; 21; 52; 30; 28; 248; 82;
   32; 20; 233; 189; 221; 228; 161; 224; 138; 241; 214; 122; 187; 227; 64; 79]%N.

(* src/kryptos_camellia.c:90-111 *)
Definition camellia_s4 : list N :=
  [112; 44; 179; 192; 228; 87; 234; 174; 35; 107; 69; 165; 237; 79; 29; 146;
   134; 175; 124; 31; 62; 220; 94; 11; 166; 57; 213; 93; 217; 90; 81; 108;
   139; 154; 251; 176; 116; 43; 240; 132; 223; 203; 52; 118; 109; 169; 209; 4;
   20; 58; 222; 17; 50; 156; 83; 242; 254; 207; 195; 122; 36; 232; 96; 105;
   170; 160; 161; 98; 84; 30; 224; 100; 16; 0; 163; 117; 138; 230; 9; 221;
   135; 131; 205; 144; 115; 246; 157; 191; 82; 216; 200; 198; 129; 111; 19; 99;
   233; 167; 159; 188; 41; 249; 47; 180; 120; 6; 231; 113; 212; 171; 136; 141;
   114; 185; 248; 172; 54; 42; 60; 241; 64; 211; 187; 67; 21; 173; 119; 128;
   130; 236; 39; 229; 133; 53; 12; 65; 239; 147; 25; 33; 14; 78; 101; 189;
   184; 143; 235; 206; 48; 95; 197; 26; 225; 202; 71; 61; 1; 214; 86; 77;
   13; 102; 204; 45; 18; 32; 177; 153; 76; 194; 126; 5; 183; 49; 23; 215;
   88; 97; 27; 28; 15; 22; 24; 34; 68; 178; 181; 145; 8; 168; 252; 80;
   208; 125; 137; 151; 91; 149; 255; 210; 196; 72; 247; 219; 3; 218; 63; 148;
   92; 2; 74; 51; 103; 243; 127; 226; 155; 38; 55; 59; 150; 75; 190; 46;
   121; 140; 110; 142; 245; 182; 253; 89; 152; 106; 70; 186; 37; 66; 162; 250;
   7; 85; 238; 10; 73; 104; 56; 164; 40; 123; 201; 193; 227; 244; 199; 158]%N.


(* src/kryptos_camellia.c:20-31 *)
Definition camellia_sigma : list (N * N) :=
  [(0xa09e667f, 0x3bcc908b); (0xb67ae858, 0x4caa73b2); (0xc6ef372f, 0xe94f82be);
   (0x54ff53a5, 0xf1d36f1c); (0x10e527fa, 0xde682d1d); (0xb05688c2, 0xb3e6c1fd)].

(* src/kryptos_camellia.c:33 kryptos_camellia_get_u8_from_u32 *)
Definition camellia_u8 (x b : N) : N := and (shr x (24 - 8 * b)) 0xff.

(* src/kryptos_camellia.c:665-699 kryptos_camellia_F *)
Definition camellia_F (d : N * N) (k : N * N) : N * N :=
  let x0 := xor (fst d) (fst k) in
  let x1 := xor (snd d) (snd k) in
  let S s x b := nthN s (camellia_u8 x b) in
  let t1 := S camellia_s1 x0 0 in let t2 := S camellia_s2 x0 1 in
  let t3 := S camellia_s3 x0 2 in let t4 := S camellia_s4 x0 3 in
  let t5 := S camellia_s2 x1 0 in let t6 := S camellia_s3 x1 1 in
  let t7 := S camellia_s4 x1 2 in let t8 := S camellia_s1 x1 3 in
  let y1 := xor (xor (xor (xor (xor t1 t3) t4) t6) t7) t8 in
  let y2 := xor (xor (xor (xor (xor t1 t2) t4) t5) t7) t8 in
  let y3 := xor (xor (xor (xor (xor t1 t2) t3) t5) t6) t8 in
  let y4 := xor (xor (xor (xor (xor t2 t3) t4) t5) t6) t7 in
  let y5 := xor (xor (xor (xor t1 t2) t6) t7) t8 in
  let y6 := xor (xor (xor (xor t2 t3) t5) t7) t8 in
  let y7 := xor (xor (xor (xor t3 t4) t5) t6) t8 in
  let y8 := xor (xor (xor (xor t1 t4) t5) t6) t7 in
  (or (or (or (shl32 y1 24) (shl32 y2 16)) (shl32 y3 8)) y4,
   or (or (or (shl32 y5 24) (shl32 y6 16)) (shl32 y7 8)) y8).

(* src/kryptos_camellia.c:1077-1080 kryptos_camellia_FL *)
Definition camellia_FL (d : N * N) (k : N * N) : N * N :=
  let d1 := xor (snd d) (rotl32 (and (fst d) (fst k)) 1) in
  (xor (fst d) (or d1 (snd k)), d1).
(* src/kryptos_camellia.c:1082-1085 kryptos_camellia_FL_1 *)
Definition camellia_FL_1 (d : N * N) (k : N * N) : N * N :=
  let d0 := xor (fst d) (or (snd d) (snd k)) in
  (d0, xor (snd d) (rotl32 (and d0 (fst k)) 1)).

Definition camellia_xor2 (a b : N * N) : N * N := (xor (fst a) (fst b), xor (snd a) (snd b)).

(* src/kryptos_camellia.c:208-233 kryptos_camellia_roll128b: one level of the recursion, then s levels *)
Definition camellia_roll1 (x : (N * N) * (N * N)) : (N * N) * (N * N) :=
  let '((x0, x1), (x2, x3)) := x in
  let tt v := rotl32 (shl32 (rotl32 v 1) 31) 1 in
  ((or (shl32 x0 1) (tt x1), or (shl32 x1 1) (tt x2)), (or (shl32 x2 1) (tt x3), or (shl32 x3 1) (tt x0))).
Definition camellia_roll (s : nat) (x : (N * N) * (N * N)) : (N * N) * (N * N) := Nat.iter s camellia_roll1 x.

(* src/kryptos_camellia.c:113-118 struct kryptos_camellia_subkeys. The columns past the first two of each
   row are never used. *)
Record camellia_keys := { cam_k : list (N * N); cam_ke : list (N * N); cam_kw : list (N * N) }.

(* two rounds, as they alternate in every function of the file: D2 ^= F(D1, ka); D1 ^= F(D2, kb) *)
Definition camellia_two (ka kb : N * N) (s : (N * N) * (N * N)) : (N * N) * (N * N) :=
  let '(D1, D2) := s in
  let D2 := camellia_xor2 D2 (camellia_F D1 ka) in
  let D1 := camellia_xor2 D1 (camellia_F D2 kb) in
  (D1, D2).

Definition camellia_xor4 (a b : (N * N) * (N * N)) : (N * N) * (N * N) :=
  (camellia_xor2 (fst a) (fst b), camellia_xor2 (snd a) (snd b)).
Definition camellia_sg (i : nat) : N * N := nth i camellia_sigma (0, 0).
(* src/kryptos_camellia.c:360-387 (KR = 0) and 510-537: KA *)
Definition camellia_KA (KL KR : (N * N) * (N * N)) : (N * N) * (N * N) :=
  let s := camellia_two (camellia_sg 0) (camellia_sg 1) (camellia_xor4 KL KR) in
  camellia_two (camellia_sg 2) (camellia_sg 3) (camellia_xor4 s KL).
(* src/kryptos_camellia.c:538-552: KB *)
Definition camellia_KB (KA KR : (N * N) * (N * N)) : (N * N) * (N * N) :=
  camellia_two (camellia_sg 4) (camellia_sg 5) (camellia_xor4 KA KR).

Definition camellia_both (x : (N * N) * (N * N)) : list (N * N) := [fst x; snd x].
(* src/kryptos_camellia.c:349-476 kryptos_camellia_keyexp_128 with 235-258 kryptos_camellia_ld_128_user_key *)
Definition camellia_keyexp_128 (key : list N) : camellia_keys :=
  let w := ld_user_key 4 4 16 key in
  let KL := ((nth 0 w 0, nth 1 w 0), (nth 2 w 0, nth 3 w 0)) in
  let KA := camellia_KA KL ((0, 0), (0, 0)) in
  let B := camellia_both in let R := camellia_roll in
  {| cam_kw := B KL ++ B (R 111 KA);
     cam_k := B KA ++ B (R 15 KL) ++ B (R 15 KA) ++ B (R 45 KL) ++ [fst (R 45 KA)] ++ [snd (R 60 KL)] ++
              B (R 60 KA) ++ B (R 94 KL) ++ B (R 94 KA) ++ B (R 111 KL);
     cam_ke := B (R 30 KA) ++ B (R 77 KL) |}%nat.

(* src/kryptos_camellia.c:553-663: the sub-keys of the two larger key sizes *)
Definition camellia_keys_192_256 (KL KR : (N * N) * (N * N)) : camellia_keys :=
  let KA := camellia_KA KL KR in
  let KB := camellia_KB KA KR in
  let B := camellia_both in let R := camellia_roll in
  {| cam_kw := B KL ++ B (R 111 KB);
     cam_k := B KB ++ B (R 15 KR) ++ B (R 15 KA) ++ B (R 30 KB) ++ B (R 45 KL) ++ B (R 45 KA) ++
              B (R 60 KR) ++ B (R 60 KB) ++ B (R 77 KL) ++ B (R 94 KR) ++ B (R 94 KA) ++ B (R 111 KL);
     cam_ke := B (R 30 KR) ++ B (R 60 KL) ++ B (R 77 KA) |}%nat.
(* src/kryptos_camellia.c:478-509 kryptos_camellia_keyexp_192_256 with 260-347 the key loaders *)
Definition camellia_keyexp_192 (key : list N) : camellia_keys :=
  let w := ld_user_key 4 6 24 key in
  camellia_keys_192_256 ((nth 0 w 0, nth 1 w 0), (nth 2 w 0, nth 3 w 0))
                        ((nth 4 w 0, nth 5 w 0), (notw 32 (nth 4 w 0), notw 32 (nth 5 w 0))).
Definition camellia_keyexp_256 (key : list N) : camellia_keys :=
  let w := ld_user_key 4 8 32 key in
  camellia_keys_192_256 ((nth 0 w 0, nth 1 w 0), (nth 2 w 0, nth 3 w 0))
                        ((nth 4 w 0, nth 5 w 0), (nth 6 w 0, nth 7 w 0)).

(* One step of a block function: two rounds with sub-keys k[i], k[j], or FL with ke[i] on D1 and FLINV with
   ke[j] on D2. *)
Inductive camellia_op := CamRounds (i j : nat) | CamFL (i j : nat).
Definition camellia_step (K : camellia_keys) (s : (N * N) * (N * N)) (o : camellia_op) : (N * N) * (N * N) :=
  match o with
  | CamRounds i j => camellia_two (nth i (cam_k K) (0, 0)) (nth j (cam_k K) (0, 0)) s
  | CamFL i j => (camellia_FL (fst s) (nth i (cam_ke K) (0, 0)), camellia_FL_1 (snd s) (nth j (cam_ke K) (0, 0)))
  end.
(* a block function: whitening of D1 with kw[p] and D2 with kw[q], the steps, whitening of D1 with kw[u] and
   D2 with kw[v]; the block written back is D2 followed by D1 *)
Definition camellia_words (K : camellia_keys) (p q : nat) (ops : list camellia_op) (u v : nat)
  (s : (N * N) * (N * N)) : (N * N) * (N * N) :=
  let W i := nth i (cam_kw K) (0, 0) in
  let s := fold_left (camellia_step K) ops (camellia_xor4 s (W p, W q)) in
  let '(D1, D2) := camellia_xor4 s (W u, W v) in
  (D2, D1).

(* src/kryptos_camellia.c:716-776 *)
Definition camellia_enc128_ops : list camellia_op :=
  [CamRounds 0 1; CamRounds 2 3; CamRounds 4 5; CamFL 0 1;
   CamRounds 6 7; CamRounds 8 9; CamRounds 10 11; CamFL 2 3;
   CamRounds 12 13; CamRounds 14 15; CamRounds 16 17].
(* src/kryptos_camellia.c:796-856 *)
Definition camellia_dec128_ops : list camellia_op :=
  [CamRounds 17 16; CamRounds 15 14; CamRounds 13 12; CamFL 3 2;
   CamRounds 11 10; CamRounds 9 8; CamRounds 7 6; CamFL 1 0;
   CamRounds 5 4; CamRounds 3 2; CamRounds 1 0].
(* src/kryptos_camellia.c:882-964 *)
Definition camellia_enc256_ops : list camellia_op :=
  [CamRounds 0 1; CamRounds 2 3; CamRounds 4 5; CamFL 0 1;
   CamRounds 6 7; CamRounds 8 9; CamRounds 10 11; CamFL 2 3;
   CamRounds 12 13; CamRounds 14 15; CamRounds 16 17; CamFL 4 5;
   CamRounds 18 19; CamRounds 20 21; CamRounds 22 23].
(* src/kryptos_camellia.c:985-1064 *)
Definition camellia_dec256_ops : list camellia_op :=
  [CamRounds 23 22; CamRounds 21 20; CamRounds 19 18; CamFL 5 4;
   CamRounds 17 16; CamRounds 15 14; CamRounds 13 12; CamFL 3 2;
   CamRounds 11 10; CamRounds 9 8; CamRounds 7 6; CamFL 1 0;
   CamRounds 5 4; CamRounds 3 2; CamRounds 1 0].

Definition camellia_on4 (f : (N * N) * (N * N) -> (N * N) * (N * N)) : list N -> list N :=
  on4 (fun s => let '(a, b, c, d) := s in let '((a', b'), (c', d')) := f ((a, b), (c, d)) in (a', b', c', d')).
(* src/kryptos_camellia.c:701-783 kryptos_camellia_block_encrypt_128 *)
Definition camellia_block_encrypt_128 (K : camellia_keys) : list N -> list N :=
  blk_be 4 4 (camellia_on4 (camellia_words K 0 1 camellia_enc128_ops 3 2)).
(* src/kryptos_camellia.c:785-867 kryptos_camellia_block_decrypt_128 *)
Definition camellia_block_decrypt_128 (K : camellia_keys) : list N -> list N :=
  blk_be 4 4 (camellia_on4 (camellia_words K 2 3 camellia_dec128_ops 1 0)).
(* src/kryptos_camellia.c:869-971 kryptos_camellia_block_encrypt_192_256 *)
Definition camellia_block_encrypt_192_256 (K : camellia_keys) : list N -> list N :=
  blk_be 4 4 (camellia_on4 (camellia_words K 0 1 camellia_enc256_ops 3 2)).
(* src/kryptos_camellia.c:973-1075 kryptos_camellia_block_decrypt_192_256 *)
Definition camellia_block_decrypt_192_256 (K : camellia_keys) : list N -> list N :=
  blk_be 4 4 (camellia_on4 (camellia_words K 2 3 camellia_dec256_ops 1 0)).

(* src/kryptos_camellia.c:145-163 *)
Definition camellia128 : blockcipher :=
  {| bc_id := CAMELLIA; bc_bs := 16; bc_check := fun _ => Done Success;
     bc_enc := fun key => camellia_block_encrypt_128 (camellia_keyexp_128 key);
     bc_dec := fun key => camellia_block_decrypt_128 (camellia_keyexp_128 key);
     bc_gcm := GcmStandard |}.
(* src/kryptos_camellia.c:165-184 *)
Definition camellia192 : blockcipher :=
  {| bc_id := CAMELLIA; bc_bs := 16; bc_check := fun _ => Done Success;
     bc_enc := fun key => camellia_block_encrypt_192_256 (camellia_keyexp_192 key);
     bc_dec := fun key => camellia_block_decrypt_192_256 (camellia_keyexp_192 key);
     bc_gcm := GcmStandard |}.
(* src/kryptos_camellia.c:186-205 *)
Definition camellia256 : blockcipher :=
  {| bc_id := CAMELLIA; bc_bs := 16; bc_check := fun _ => Done Success;
     bc_enc := fun key => camellia_block_encrypt_192_256 (camellia_keyexp_256 key);
     bc_dec := fun key => camellia_block_decrypt_192_256 (camellia_keyexp_256 key);
     bc_gcm := GcmStandard |}.
