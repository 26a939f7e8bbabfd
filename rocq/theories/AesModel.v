(* AES, src/kryptos_aes.c. The 4x4 state matrix state.data[r][c] is the list of its 16 bytes column by
   column, the order of the block (lines 699-714, 775-790). The code packs columns and rows into 32-bit
   words and takes the bytes out again; the model works on the bytes. *)
From Verif Require Import Words TaskModel ModeModel CipherBase.
Open Scope N_scope.

(* src/kryptos_aes.c:51-62 *)
Definition aes_rcon : list N :=
  [16777216; 33554432; 67108864; 134217728; 268435456; 536870912; 1073741824; 2147483648; 452984832; 905969664]%N.

(* src/kryptos_aes.c:66-83, the 16x16 table row after row *)
Definition aes_sbox : list N :=
  [99; 124; 119; 123; 242; 107; 111; 197; 48; 1; 103; 43; 254; 215; 171; 118;
   202; 130; 201; 125; 250; 89; 71; 240; 173; 212; 162; 175; 156; 164; 114; 192;
   183; 253; 147; 38; 54; 63; 247; 204; 52; 165; 229; 241; 113; 216; 49; 21;
   4; 199; 35; 195; 24; 150; 5; 154; 7; 18; 128; 226; 235; 39; 178; 117;
   9; 131; 44; 26; 27; 110; 90; 160; 82; 59; 214; 179; 41; 227; 47; 132;
   83; 209; 0; 237; 32; 252; 177; 91; 106; 203; 190; 57; 74; 76; 88; 207;
   208; 239; 170; 251; 67; 77; 51; 133; 69; 249; 2; 127; 80; 60; 159; 168;
   81; 163; 64; 143; 146; 157; 56; 245; 188; 182; 218; 33; 16; 255; 243; 210;
   205; 12; 19; 236; 95; 151; 68; 23; 196; 167; 126; 61; 100; 93; 25; 115;
   96; 129; 79; 220; 34; 42; 144; 136; 70; 238; 184; 20; 222; 94; 11; 219;
   224; 50; 58; 10; 73; 6; 36; 92; 194; 211; 172; 98; 145; 149; 228; 121;
   231; 200; 55; 109; 141; 213; 78; 169; 108; 86; 244; 234; 101; 122; 174; 8;
   186; 120; 37; 46; 28; 166; 180; 198; 232; 221; 116; 31; 75; 189; 139; 138;
   112; 62; 181; 102; 72; 3; 246; 14; 97; 53; 87; 185; 134; 193; 29; 158;
   225; 248; 152; 17; 105; 217; 142; 148; 155; 30; 135; 233; 206; 85; 40; 223;
   140; 161; 137; 13; 191; 230; 66; 104; 65; 153; 45; 15; 176; 84; 187; 22]%N.

(* src/kryptos_aes.c:85-102 *)
Definition aes_sbox_1 : list N :=
  [82; 9; 106; 213; 48; 54; 165; 56; 191; 64; 163; 158; 129; 243; 215; 251;
   124; 227; 57; 130; 155; 47; 255; 135; 52; 142; 67; 68; 196; 222; 233; 203;
   84; 123; 148; 50; 166; 194; 35; 61; 238; 76; 149; 11; 66; 250; 195; 78;
   8; 46; 161; 102; 40; 217; 36; 178; 118; 91; 162; 73; 109; 139; 209; 37;
   114; 248; 246; 100; 134; 104; 152; 22; 212; 164; 92; 204; 93; 101; 182; 146;
   108; 112; 72; 80; 253; 237; 185; 218; 94; 21; 70; 87; 167; 141; 157; 132;
   144; 216; 171; 0; 140; 188; 211; 10; 247; 228; 88; 5; 184; 179; 69; 6;
   208; 44; 30; 143; 202; 63; 15; 2; 193; 175; 189; 3; 1; 19; 138; 107;
   58; 145; 17; 65; 79; 103; 220; 234; 151; 242; 207; 206; 240; 180; 230; 115;
   150; 172; 116; 34; 231; 173; 53; 133; 226; 249; 55; 232; 28; 117; 223; 110;
   71; 241; 26; 113; 29; 41; 197; 137; 111; 183; 98; 14; 170; 24; 190; 27;
   252; 86; 62; 75; 198; 210; 121; 32; 154; 219; 192; 254; 120; 205; 90; 244;
   31; 221; 168; 51; 136; 7; 199; 49; 177; 18; 16; 89; 39; 128; 236; 95;
   96; 81; 127; 169; 25; 181; 74; 13; 45; 229; 122; 159; 147; 201; 156; 239;
   160; 224; 59; 77; 174; 42; 245; 176; 200; 235; 187; 60; 131; 83; 153; 97;
   23; 43; 4; 126; 186; 119; 214; 38; 225; 105; 20; 99; 85; 33; 12; 125]%N.

(* src/kryptos_aes.c:106-119 *)
Definition aes_ptable : list N :=
  [1; 3; 5; 15; 17; 51; 85; 255; 26; 46; 114; 150; 161; 248; 19; 53;
   95; 225; 56; 72; 216; 115; 149; 164; 247; 2; 6; 10; 30; 34; 102; 170;
   229; 52; 92; 228; 55; 89; 235; 38; 106; 190; 217; 112; 144; 171; 230; 49;
   83; 245; 4; 12; 20; 60; 68; 204; 79; 209; 104; 184; 211; 110; 178; 205;
   76; 212; 103; 169; 224; 59; 77; 215; 98; 166; 241; 8; 24; 40; 120; 136;
   131; 158; 185; 208; 107; 189; 220; 127; 129; 152; 179; 206; 73; 219; 118; 154;
   181; 196; 87; 249; 16; 48; 80; 240; 11; 29; 39; 105; 187; 214; 97; 163;
   254; 25; 43; 125; 135; 146; 173; 236; 47; 113; 147; 174; 233; 32; 96; 160;
   251; 22; 58; 78; 210; 109; 183; 194; 93; 231; 50; 86; 250; 21; 63; 65;
   195; 94; 226; 61; 71; 201; 64; 192; 91; 237; 44; 116; 156; 191; 218; 117;
   159; 186; 213; 100; 172; 239; 42; 126; 130; 157; 188; 223; 122; 142; 137; 128;
   155; 182; 193; 88; 232; 35; 101; 175; 234; 37; 111; 177; 200; 67; 197; 84;
   252; 31; 33; 99; 165; 244; 7; 9; 27; 45; 119; 153; 176; 203; 70; 202;
   69; 207; 74; 222; 121; 139; 134; 145; 168; 227; 62; 66; 198; 81; 243; 14;
   18; 54; 90; 238; 41; 123; 141; 140; 143; 138; 133; 148; 167; 242; 13; 23;
   57; 75; 221; 124; 132; 151; 162; 253; 28; 36; 108; 180; 199; 82; 246; 1]%N.

(* src/kryptos_aes.c:121-134 *)
Definition aes_ltable : list N :=
  [0; 255; 25; 1; 50; 2; 26; 198; 75; 199; 27; 104; 51; 238; 223; 3;
   100; 4; 224; 14; 52; 141; 129; 239; 76; 113; 8; 200; 248; 105; 28; 193;
   125; 194; 29; 181; 249; 185; 39; 106; 77; 228; 166; 114; 154; 201; 9; 120;
   101; 47; 138; 5; 33; 15; 225; 36; 18; 240; 130; 69; 53; 147; 218; 142;
   150; 143; 219; 189; 54; 208; 206; 148; 19; 92; 210; 241; 64; 70; 131; 56;
   102; 221; 253; 48; 191; 6; 139; 98; 179; 37; 226; 152; 34; 136; 145; 16;
   126; 110; 72; 195; 163; 182; 30; 66; 58; 107; 40; 84; 250; 133; 61; 186;
   43; 121; 10; 21; 155; 159; 94; 202; 78; 212; 172; 229; 243; 115; 167; 87;
   175; 88; 168; 80; 244; 234; 214; 116; 79; 174; 233; 213; 231; 230; 173; 232;
   44; 215; 117; 122; 235; 22; 11; 245; 89; 203; 95; 176; 156; 169; 81; 160;
   127; 12; 246; 111; 23; 196; 73; 236; 216; 67; 31; 45; 164; 118; 123; 183;
   204; 187; 62; 90; 251; 96; 177; 134; 59; 82; 161; 108; 170; 85; 41; 157;
   151; 178; 135; 144; 97; 190; 220; 252; 188; 149; 207; 205; 55; 63; 91; 209;
   83; 57; 132; 60; 65; 162; 109; 71; 20; 42; 158; 93; 86; 242; 211; 171;
   68; 17; 146; 217; 35; 32; 46; 137; 180; 124; 184; 38; 119; 153; 227; 165;
   103; 74; 237; 222; 197; 49; 254; 24; 13; 99; 140; 128; 192; 247; 112; 7]%N.


(* src/kryptos_aes.c:575-581 kryptos_aes_mul_xy *)
Definition aes_mul_xy (x y : N) : N :=
  if (negb (x =? 0) && negb (y =? 0))%bool
  then nthN aes_ptable ((nthN aes_ltable x + nthN aes_ltable y) mod 255)
  else 0.

(* one of the four sums of src/kryptos_aes.c:597-600 etc.; db = the bytes of the constant *)
Definition aes_dot (db wb : list N) : N :=
  xor (xor (xor (aes_mul_xy (nth 0 wb 0) (nth 0 db 0)) (aes_mul_xy (nth 1 wb 0) (nth 1 db 0)))
           (aes_mul_xy (nth 2 wb 0) (nth 2 db 0)))
      (aes_mul_xy (nth 3 wb 0) (nth 3 db 0)).
(* src/kryptos_aes.c:23-26, 583-636 kryptos_aes_mix_col, on the four bytes of the column *)
Definition aes_mix_col (wb : list N) : list N :=
  [aes_dot [0x02; 0x03; 0x01; 0x01] wb; aes_dot [0x01; 0x02; 0x03; 0x01] wb;
   aes_dot [0x01; 0x01; 0x02; 0x03] wb; aes_dot [0x03; 0x01; 0x01; 0x02] wb].
(* src/kryptos_aes.c:29-32, 638-691 kryptos_aes_inv_mix_col *)
Definition aes_inv_mix_col (wb : list N) : list N :=
  [aes_dot [0x0E; 0x0B; 0x0D; 0x09] wb; aes_dot [0x09; 0x0E; 0x0B; 0x0D] wb;
   aes_dot [0x0D; 0x09; 0x0E; 0x0B] wb; aes_dot [0x0B; 0x0D; 0x09; 0x0E] wb].

(* src/kryptos_aes.c:726-736, 891-900: kryptos_aes_subbytes (233-240) on every byte *)
Definition aes_subbytes (sbox : list N) (s : list N) : list N := map (nthN sbox) s.
(* src/kryptos_aes.c:738-755: row r rotated left by r; index of the byte that moves to each place *)
Definition aes_shift_rows : list N -> list N :=
  perm [0; 5; 10; 15; 4; 9; 14; 3; 8; 13; 2; 7; 12; 1; 6; 11]%nat.
(* src/kryptos_aes.c:872-888: row r rotated left by 4 - r *)
Definition aes_inv_shift_rows : list N -> list N :=
  perm [0; 13; 10; 7; 4; 1; 14; 11; 8; 5; 2; 15; 12; 9; 6; 3]%nat.
(* src/kryptos_aes.c:757-766, 847-862: a function of each column *)
Definition aes_columns (f : list N -> list N) (s : list N) : list N :=
  f (slice s 0 4) ++ f (slice s 4 4) ++ f (slice s 8 4) ++ f (slice s 12 4).

(* src/kryptos_aes.c:724-786, round r; K = the round keys *)
Definition aes_enc_round (nr : nat) (K : list (list N)) (s : list N) (r : nat) : list N :=
  let s := aes_shift_rows (aes_subbytes aes_sbox s) in
  if Nat.ltb r nr then xorl (aes_columns aes_mix_col s) (nth r K []) else xorl s (nth r K []).
(* src/kryptos_aes.c:836-901, round r *)
Definition aes_dec_round (nr : nat) (K : list (list N)) (s : list N) (r : nat) : list N :=
  let s := if Nat.ltb r nr then aes_columns aes_inv_mix_col (xorl s (nth r K [])) else xorl s (nth r K []) in
  aes_subbytes aes_sbox_1 (aes_inv_shift_rows s).
(* src/kryptos_aes.c:693-800 kryptos_aes_block_encrypt *)
Definition aes_block_encrypt (nr : nat) (K : list (list N)) (s : list N) : list N :=
  fold_left (aes_enc_round nr K) (seq 1 nr) (xorl s (nth 0 K [])).
(* src/kryptos_aes.c:802-915 kryptos_aes_block_decrypt *)
Definition aes_block_decrypt (nr : nat) (K : list (list N)) (s : list N) : list N :=
  xorl (fold_left (aes_dec_round nr K) (rev (seq 1 nr)) s) (nth 0 K []).

(* src/kryptos_aes.c:511-514 kryptos_aes_h: the s-box on the bytes of a word *)
Definition aes_h (v : N) : N := be_val (map (nthN aes_sbox) (be_bytes 4 v)).
(* src/kryptos_aes.c:34-38 kryptos_aes_g *)
Definition aes_g (v rc : N) : N := xor rc (rotl32 (aes_h v) 8).

(* the word of W that is n places before its end *)
Definition back (W : list N) (n : nat) : N := nth (length W - n) W 0.
(* W[end] = W[end - nk] ^ x *)
Definition aes_ext (nk : nat) (W : list N) (x : N) : list N := W ++ [xor (back W nk) x].
(* W[end] = W[end - nk] ^ W[end - 1], n times *)
Fixpoint aes_run (nk n : nat) (W : list N) : list N :=
  match n with
  | O => W
  | S m => aes_run nk m (aes_ext nk W (back W 1))
  end.
(* src/kryptos_aes.c:322-327 kryptos_aes128_eval_skey_chunk, 407-422 kryptos_aes192_eval_skey_chunk
   (more = 5) and its head (more = 3), 516-526 the head of kryptos_aes256_eval_skey_chunk *)
Definition aes_chunk (nk more : nat) (W : list N) (i : nat) : list N :=
  aes_run nk more (aes_ext nk W (aes_g (back W 1) (nth i aes_rcon 0))).
(* src/kryptos_aes.c:516-531 kryptos_aes256_eval_skey_chunk *)
Definition aes256_chunk (W : list N) (i : nat) : list N :=
  let W := aes_chunk 8 3 W i in
  aes_run 8 3 (aes_ext 8 W (aes_h (back W 1))).

(* src/kryptos_aes.c:221-231 kryptos_aes_sto_u32_into_byte_matrix: four words of W per round key *)
Definition aes_round_keys (nr : nat) (W : list N) : list (list N) :=
  map (fun r => store_be 4 (slice W (4 * r) 4)) (seq 0 (nr + 1)).

(* src/kryptos_aes.c:242-263, 315-362 kryptos_aes128_ld_user_key (16 calls), kryptos_aes128_eval_skeys *)
Definition aes128_eval_skeys (key : list N) : list (list N) :=
  aes_round_keys 10 (fold_left (aes_chunk 4 3) (seq 0 10) (ld_user_key 4 4 16 key)).
(* src/kryptos_aes.c:365-461 kryptos_aes192_ld_user_key (24 calls), kryptos_aes192_eval_skeys *)
Definition aes192_eval_skeys (key : list N) : list (list N) :=
  aes_round_keys 12 (aes_chunk 6 3 (fold_left (aes_chunk 6 5) (seq 0 7) (ld_user_key 4 6 24 key)) 7).
(* src/kryptos_aes.c:463-573 kryptos_aes256_ld_user_key (32 calls), kryptos_aes256_eval_skeys *)
Definition aes256_eval_skeys (key : list N) : list (list N) :=
  aes_round_keys 14 (aes_chunk 8 3 (fold_left aes256_chunk (seq 0 6) (ld_user_key 4 8 32 key)) 6).

(* src/kryptos_aes.c:164-219 *)
Definition aes128 : blockcipher :=
  {| bc_id := AES128; bc_bs := 16; bc_check := fun _ => Done Success;
     bc_enc := fun key => aes_block_encrypt 10 (aes128_eval_skeys key);
     bc_dec := fun key => aes_block_decrypt 10 (aes128_eval_skeys key);
     bc_gcm := GcmStandard |}.
Definition aes192 : blockcipher :=
  {| bc_id := AES192; bc_bs := 16; bc_check := fun _ => Done Success;
     bc_enc := fun key => aes_block_encrypt 12 (aes192_eval_skeys key);
     bc_dec := fun key => aes_block_decrypt 12 (aes192_eval_skeys key);
     bc_gcm := GcmStandard |}.
Definition aes256 : blockcipher :=
  {| bc_id := AES256; bc_bs := 16; bc_check := fun _ => Done Success;
     bc_enc := fun key => aes_block_encrypt 14 (aes256_eval_skeys key);
     bc_dec := fun key => aes_block_decrypt 14 (aes256_eval_skeys key);
     bc_gcm := GcmStandard |}.
