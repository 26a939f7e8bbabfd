From Verif Require Import Words TaskModel ModeModel CipherBase.
Open Scope N_scope.

(* Model of src/kryptos_twofish.c, without KRYPTOS_TWOFISH_WITH_PRE_COMPUTED_Q_PERMS (the default). *)

(* src/kryptos_twofish.c:63-68 *)
Definition twofish_q0_lt : list (list N) :=
  [[8; 1; 7; 13; 6; 15; 3; 2; 0; 11; 5; 9; 14; 12; 10; 4];
   [14; 12; 11; 8; 1; 2; 3; 5; 15; 4; 10; 6; 7; 0; 9; 13];
   [11; 10; 5; 14; 6; 13; 9; 0; 12; 8; 15; 3; 2; 4; 7; 1];
   [13; 7; 15; 4; 1; 2; 6; 14; 9; 11; 3; 0; 8; 5; 12; 10]].
(* src/kryptos_twofish.c:70-75 *)
Definition twofish_q1_lt : list (list N) :=
  [[2; 8; 11; 13; 15; 7; 6; 14; 3; 1; 9; 4; 0; 10; 12; 5];
   [1; 14; 2; 11; 4; 12; 3; 7; 6; 13; 10; 5; 15; 9; 0; 8];
   [4; 12; 7; 5; 1; 6; 9; 10; 0; 14; 13; 8; 2; 11; 3; 15];
   [11; 9; 5; 1; 12; 3; 13; 14; 6; 4; 7; 15; 2; 0; 8; 10]].
(* src/kryptos_twofish.c:153-170 *)
Definition twofish_mds_log : list N :=
  [0; 0; 16; 1; 32; 2; 17; 204; 48; 205; 18; 125; 33; 215; 220; 3;
   64; 4; 221; 119; 34; 153; 141; 216; 49; 25; 231; 206; 236; 126; 19; 145;
   80; 146; 20; 164; 237; 107; 135; 127; 50; 98; 169; 26; 157; 207; 232; 211;
   65; 74; 41; 5; 247; 120; 222; 182; 252; 217; 142; 61; 35; 38; 161; 154;
   96; 155; 162; 133; 36; 250; 180; 39; 253; 30; 123; 218; 151; 62; 143; 229;
   66; 175; 114; 75; 185; 6; 42; 88; 173; 183; 223; 225; 248; 94; 227; 121;
   81; 194; 90; 147; 57; 165; 21; 44; 8; 128; 136; 102; 238; 187; 198; 108;
   13; 212; 233; 116; 158; 71; 77; 208; 51; 68; 54; 99; 177; 27; 170; 85;
   112; 86; 171; 92; 178; 131; 149; 28; 52; 83; 11; 69; 196; 100; 55; 192;
   14; 202; 46; 213; 139; 117; 234; 23; 167; 209; 78; 105; 159; 59; 245; 72;
   82; 10; 191; 195; 130; 148; 91; 111; 201; 45; 22; 138; 58; 244; 104; 166;
   189; 109; 199; 242; 239; 240; 241; 188; 9; 190; 110; 129; 243; 103; 137; 200;
   97; 168; 210; 156; 106; 134; 163; 79; 73; 40; 181; 246; 37; 160; 60; 251;
   24; 230; 144; 235; 152; 140; 118; 63; 254; 15; 203; 31; 214; 219; 124; 47;
   29; 122; 228; 150; 249; 179; 132; 95; 174; 113; 87; 184; 93; 226; 224; 172;
   67; 53; 84; 176; 70; 76; 115; 12; 193; 89; 43; 56; 186; 197; 101; 7]%N.
(* src/kryptos_twofish.c:172-189 *)
Definition twofish_mds_antilog : list N :=
  [1; 3; 5; 15; 17; 51; 85; 255; 104; 184; 161; 138; 247; 112; 144; 217;
   2; 6; 10; 30; 34; 102; 170; 151; 208; 25; 43; 125; 135; 224; 73; 219;
   4; 12; 20; 60; 68; 204; 61; 71; 201; 50; 86; 250; 103; 169; 146; 223;
   8; 24; 40; 120; 136; 241; 122; 142; 251; 100; 172; 157; 206; 59; 77; 215;
   16; 48; 80; 240; 121; 139; 244; 117; 159; 200; 49; 83; 245; 118; 154; 199;
   32; 96; 160; 137; 242; 127; 129; 234; 87; 249; 98; 166; 131; 236; 93; 231;
   64; 192; 41; 123; 141; 254; 107; 189; 174; 155; 196; 37; 111; 177; 186; 167;
   128; 233; 82; 246; 115; 149; 214; 19; 53; 95; 225; 74; 222; 11; 29; 39;
   105; 187; 164; 133; 230; 67; 197; 38; 106; 190; 171; 148; 213; 22; 58; 78;
   210; 31; 33; 99; 165; 134; 227; 76; 212; 21; 63; 65; 195; 44; 116; 156;
   205; 62; 66; 198; 35; 101; 175; 152; 193; 42; 126; 130; 239; 88; 232; 81;
   243; 124; 132; 229; 70; 202; 55; 89; 235; 84; 252; 109; 183; 176; 185; 162;
   143; 248; 97; 163; 140; 253; 110; 178; 191; 168; 145; 218; 7; 9; 27; 45;
   119; 153; 194; 47; 113; 147; 220; 13; 23; 57; 75; 221; 14; 18; 54; 90;
   238; 91; 237; 94; 226; 79; 209; 26; 46; 114; 150; 211; 28; 36; 108; 180;
   181; 182; 179; 188; 173; 158; 203; 52; 92; 228; 69; 207; 56; 72; 216]%N.
(* src/kryptos_twofish.c:193-210 *)
Definition twofish_rs_log : list N :=
  [0; 0; 122; 1; 244; 2; 123; 181; 111; 182; 124; 84; 245; 224; 48; 3;
   233; 4; 49; 19; 246; 107; 206; 225; 112; 250; 91; 183; 170; 85; 125; 56;
   100; 57; 126; 150; 171; 40; 141; 86; 113; 146; 229; 251; 73; 184; 92; 164;
   234; 10; 117; 5; 213; 20; 50; 156; 37; 226; 207; 210; 247; 203; 178; 108;
   222; 109; 179; 120; 248; 168; 17; 204; 38; 98; 162; 227; 8; 211; 208; 176;
   235; 193; 13; 11; 96; 6; 118; 15; 195; 157; 51; 68; 214; 237; 31; 21;
   101; 216; 132; 58; 239; 151; 127; 188; 80; 87; 142; 33; 172; 27; 23; 41;
   159; 165; 93; 65; 74; 197; 77; 185; 114; 200; 70; 147; 45; 252; 230; 53;
   89; 54; 231; 105; 46; 82; 242; 253; 115; 154; 35; 201; 139; 148; 71; 144;
   160; 174; 220; 166; 29; 66; 94; 191; 130; 186; 78; 25; 75; 63; 43; 198;
   102; 136; 60; 217; 135; 59; 133; 134; 218; 189; 128; 61; 240; 103; 137; 152;
   62; 42; 24; 129; 173; 219; 190; 28; 81; 241; 104; 88; 153; 34; 143; 138;
   223; 47; 83; 110; 254; 121; 180; 243; 106; 205; 18; 232; 249; 90; 55; 169;
   202; 177; 209; 36; 9; 116; 155; 212; 39; 140; 149; 99; 145; 228; 163; 72;
   26; 22; 32; 79; 215; 131; 187; 238; 196; 76; 64; 158; 199; 69; 52; 44;
   236; 30; 67; 194; 192; 12; 14; 95; 167; 16; 119; 221; 97; 161; 175; 7]%N.
(* src/kryptos_twofish.c:212-229 *)
Definition twofish_rs_antilog : list N :=
  [1; 3; 5; 15; 17; 51; 85; 255; 76; 212; 49; 83; 245; 82; 246; 87;
   249; 70; 202; 19; 53; 95; 225; 110; 178; 155; 224; 109; 183; 148; 241; 94;
   226; 107; 189; 138; 211; 56; 72; 216; 37; 111; 177; 158; 239; 124; 132; 193;
   14; 18; 54; 90; 238; 127; 129; 206; 31; 33; 99; 165; 162; 171; 176; 157;
   234; 115; 149; 242; 91; 237; 122; 142; 223; 44; 116; 156; 233; 118; 154; 227;
   104; 184; 133; 194; 11; 29; 39; 105; 187; 128; 205; 26; 46; 114; 150; 247;
   84; 252; 73; 219; 32; 96; 160; 173; 186; 131; 200; 21; 63; 65; 195; 8;
   24; 40; 120; 136; 213; 50; 86; 250; 67; 197; 2; 6; 10; 30; 34; 102;
   170; 179; 152; 229; 98; 166; 167; 164; 161; 174; 191; 140; 217; 38; 106; 190;
   143; 220; 41; 123; 141; 218; 35; 101; 175; 188; 137; 214; 55; 89; 235; 112;
   144; 253; 74; 222; 47; 113; 147; 248; 69; 207; 28; 36; 108; 180; 145; 254;
   79; 209; 62; 66; 198; 7; 9; 27; 45; 119; 153; 230; 103; 169; 182; 151;
   244; 81; 243; 88; 232; 117; 159; 236; 121; 139; 208; 61; 71; 201; 22; 58;
   78; 210; 59; 77; 215; 52; 92; 228; 97; 163; 168; 181; 146; 251; 64; 192;
   13; 23; 57; 75; 221; 42; 126; 130; 203; 16; 48; 80; 240; 93; 231; 100;
   172; 185; 134; 199; 4; 12; 20; 60; 68; 204; 25; 43; 125; 135; 196]%N.

(* src/kryptos_twofish.c:237-240, byte n of each row as kryptos_twofish_get_byte_n reads it (291) *)
Definition twofish_mds_rows : list (list N) :=
  [[0xef; 0xef; 0x5b; 0x01]; [0x01; 0x5b; 0xef; 0xef]; [0xef; 0x01; 0xef; 0x5b]; [0x5b; 0xef; 0x01; 0x5b]].
(* src/kryptos_twofish.c:232-235 *)
Definition twofish_rs_rows : list (list N) :=
  [[0x01; 0xa4; 0x55; 0x87; 0x5a; 0x58; 0xdb; 0x9e]; [0xa4; 0x56; 0x82; 0xf3; 0x1e; 0xc6; 0x68; 0xe5];
   [0x02; 0xa1; 0xfc; 0xc1; 0x47; 0xae; 0x3d; 0x19]; [0xa4; 0x55; 0x87; 0x5a; 0x58; 0xdb; 0x9e; 0x03]].

(* src/kryptos_twofish.c:291 kryptos_twofish_get_byte_n of a kryptos_u32_t *)
Definition twofish_byte (x n : N) : N := and (shr x (24 - 8 * n)) 0xff.
(* src/kryptos_twofish.c:248 kryptos_twofish_nror(n, 1) *)
Definition twofish_nror1 (n : N) : N := and (or (shr n 1) (N.shiftl n 3)) 0xf.

(* src/kryptos_twofish.c:254-264 kryptos_twofish_qn_perm, the byte shifted into y *)
Definition twofish_q (t : list (list N)) (x : N) : N :=
  let T i v := nthN (nth i t []) v in
  let a0 := shr x 4 in let b0 := and x 0xf in
  let a1 := xor a0 b0 in
  let b1 := and (xor (xor a0 (twofish_nror1 b0)) (N.shiftl a0 3)) 0xf in
  let a2 := T 0%nat a1 in let b2 := T 1%nat b1 in
  let a3 := xor a2 b2 in
  let b3 := and (xor (xor a2 (twofish_nror1 b2)) (N.shiftl a2 3)) 0xf in
  or (N.shiftl (T 3%nat b3) 4) (T 2%nat a3).
Definition twofish_q0 : N -> N := twofish_q twofish_q0_lt.
Definition twofish_q1 : N -> N := twofish_q twofish_q1_lt.

(* four of the kryptos_twofish_q0_perm / q1_perm in a row: the four bytes shifted into Kc push out what it
   held (lines 266-268) *)
Definition twofish_qs (f0 f1 f2 f3 : N -> N) (x : N) : N :=
  let push y b := or (shl32 y 8) b in
  push (push (push (f0 (twofish_byte x 0)) (f1 (twofish_byte x 1))) (f2 (twofish_byte x 2))) (f3 (twofish_byte x 3)).

(* src/kryptos_twofish.c:286-289 kryptos_twofish_gfmul *)
Definition twofish_gfmul (lg alg : list N) (x y : N) : N :=
  if (negb (x =? 0) && negb (y =? 0))%bool then nthN alg ((nthN lg x + nthN lg y) mod 255) else 0.

(* src/kryptos_twofish.c:304-338 kryptos_twofish_mds *)
Definition twofish_mds (y : N) : N :=
  let row b r :=
    let m k := twofish_gfmul twofish_mds_log twofish_mds_antilog b (nth k (nth r twofish_mds_rows []) 0) in
    or (or (or (shl32 (m 0%nat) 24) (shl32 (m 1%nat) 16)) (shl32 (m 2%nat) 8)) (m 3%nat) in
  xor (xor (xor (row (twofish_byte y 0) 0%nat) (row (twofish_byte y 1) 1%nat)) (row (twofish_byte y 2) 2%nat))
      (row (twofish_byte y 3) 3%nat).

(* src/kryptos_twofish.c:483-486 kryptos_twofish_inv_endianness *)
Definition twofish_inv (v : N) : N :=
  or (or (or (shr (and v 0xff000000) 24) (shr (and v 0xff0000) 8)) (shl32 (and v 0xff00) 8)) (shl32 (and v 0xff) 24).

(* src/kryptos_twofish.c:340-407 kryptos_twofish_rs of the 64-bit word with bytes m, most significant first *)
Definition twofish_rs (m : list N) : N :=
  let row r := fold_left (fun a k => xor a (twofish_gfmul twofish_rs_log twofish_rs_antilog (nth k m 0)
                                              (nth k (nth r twofish_rs_rows []) 0))) (seq 0 8) 0 in
  twofish_inv (or (or (or (row 0%nat) (shl32 (row 1%nat) 8)) (shl32 (row 2%nat) 16)) (shl32 (row 3%nat) 24)).

(* src/kryptos_twofish.c:409-413 kryptos_twofish_pht *)
Definition twofish_pht (s : N * N) : N * N :=
  let '(t0, t1) := s in (add32 t0 t1, and (add32 t0 (shl32 t1 1)) 0xffffffff).

(* src/kryptos_twofish.c:425-460 kryptos_twofish_hh *)
Definition twofish_hh (k : nat) (S0 S1 S2 S3 ic : N) : N :=
  let q0 := twofish_q0 in let q1 := twofish_q1 in
  let t := ic in
  let t := if Nat.eqb k 4 then xor (twofish_qs q1 q0 q0 q1 t) S3 else t in
  let t := if Nat.leb 3 k then xor (twofish_qs q1 q1 q0 q0 t) S2 else t in
  let t := xor (twofish_qs q0 q1 q0 q1 t) S1 in
  let t := xor (twofish_qs q0 q0 q1 q1 t) S0 in
  twofish_mds (twofish_qs q1 q0 q1 q0 t).

(* src/kryptos_twofish.c:488-492 struct kryptos_twofish_subkeys *)
Record twofish_subkeys := { tf_K : list N; tf_S : list N; tf_k : nat }.

(* src/kryptos_twofish.c:415-423 kryptos_twofish_f with 293-298 kryptos_twofish_g *)
Definition twofish_f (sk : twofish_subkeys) (r : nat) (r0 r1 : N) : N * N :=
  let S i := nth i (tf_S sk) 0 in
  let g := twofish_hh (tf_k sk) (S 0%nat) (S 1%nat) (S 2%nat) (S 3%nat) in
  let '(f0, f1) := twofish_pht (g (twofish_inv r0), g (rotr32 (twofish_inv r1) 8)) in
  (add32 f0 (nth (8 + 2 * r) (tf_K sk) 0), add32 f1 (nth (9 + 2 * r) (tf_K sk) 0)).

Definition twofish_state : Type := (N * N * N * N)%type.
(* R[i] ^= K[o + i] *)
Definition twofish_whiten (K : list N) (o : nat) (R : twofish_state) : twofish_state :=
  let '(a, b, c, d) := R in
  (xor a (nth o K 0), xor b (nth (o + 1) K 0), xor c (nth (o + 2) K 0), xor d (nth (o + 3) K 0)).

(* src/kryptos_twofish.c:796-802 kryptos_twofish_round_iter: the new f0, f1 *)
Definition twofish_round_f (sk : twofish_subkeys) (r : nat) (R : twofish_state) : N * N :=
  let '(a, b, c, d) := R in
  let '(f0, f1) := twofish_f sk r a b in
  (rotr32 (xor f0 c) 1, xor (rotl32 d 1) f1).
(* src/kryptos_twofish.c:811-816 kryptos_twofish_assign_next *)
Definition twofish_round_next (sk : twofish_subkeys) (R : twofish_state) (r : nat) : twofish_state :=
  let '(a, b, c, d) := R in let '(f0, f1) := twofish_round_f sk r R in (f0, f1, a, b).
(* src/kryptos_twofish.c:818-821 kryptos_twofish_assign_done *)
Definition twofish_round_done (sk : twofish_subkeys) (R : twofish_state) (r : nat) : twofish_state :=
  let '(a, b, c, d) := R in let '(f0, f1) := twofish_round_f sk r R in (a, b, f0, f1).

(* src/kryptos_twofish.c:769-873 kryptos_twofish_encrypt_block *)
Definition twofish_enc (sk : twofish_subkeys) (R : twofish_state) : twofish_state :=
  let R := twofish_whiten (tf_K sk) 0 R in
  let R := fold_left (twofish_round_next sk) (seq 0 15) R in
  let R := twofish_round_done sk R 15 in
  twofish_whiten (tf_K sk) 4 R.
Definition twofish_encrypt_block (sk : twofish_subkeys) : list N -> list N := blk_le 4 4 (on4 (twofish_enc sk)).

(* src/kryptos_twofish.c:914-919 kryptos_twofish_round_iter_next_left *)
Definition twofish_left (sk : twofish_subkeys) (R : twofish_state) (r : nat) : twofish_state :=
  let '(a, b, c, d) := R in
  let '(f0, f1) := twofish_f sk r c d in (xor (rotl32 a 1) f0, rotr32 (xor b f1) 1, c, d).
(* src/kryptos_twofish.c:921-926 kryptos_twofish_round_iter_next_right *)
Definition twofish_right (sk : twofish_subkeys) (R : twofish_state) (r : nat) : twofish_state :=
  let '(a, b, c, d) := R in
  let '(f0, f1) := twofish_f sk r a b in (a, b, xor (rotl32 c 1) f0, rotr32 (xor d f1) 1).
(* src/kryptos_twofish.c:932-947: rounds 15, 14, .., 0, the odd ones left, the even ones right *)
Definition twofish_unround (sk : twofish_subkeys) (R : twofish_state) (r : nat) : twofish_state :=
  if Nat.odd r then twofish_left sk R r else twofish_right sk R r.

(* src/kryptos_twofish.c:875-989 kryptos_twofish_decrypt_block *)
Definition twofish_dec (sk : twofish_subkeys) (R : twofish_state) : twofish_state :=
  let '(a, b, c, d) := R in
  let K i := nth i (tf_K sk) 0 in
  let R := (xor c (K 6%nat), xor d (K 7%nat), xor a (K 4%nat), xor b (K 5%nat)) in
  let R := fold_left (twofish_unround sk) (rev (seq 0 16)) R in
  twofish_whiten (tf_K sk) 0 R.
Definition twofish_decrypt_block (sk : twofish_subkeys) : list N -> list N := blk_le 4 4 (on4 (twofish_dec sk)).

(* src/kryptos_twofish.c:462-474 kryptos_twofish_h_iter: the sub-keys i and i + 1 *)
Definition twofish_h_iter (k : nat) (M : list N) (i : N) : list N :=
  let m j := nth j M 0 in
  let rep i := or (or (or (shl32 i 24) (shl32 i 16)) (shl32 i 8)) i in
  let Kc := twofish_hh k (m 0%nat) (m 2%nat) (m 4%nat) (m 6%nat) (rep i) in
  let Kn := twofish_hh k (m 1%nat) (m 3%nat) (m 5%nat) (m 7%nat) (rep (i + 1)) in
  let '(Kc, Kn) := twofish_pht (Kc, rotl32 Kn 8) in
  [Kc; rotl32 Kn 9].

(* src/kryptos_twofish.c:575-613: ek[8 * k], the key cut or padded with zeros *)
Definition twofish_ek (k : nat) (key : list N) : list N :=
  let key := firstn (8 * k) key in key ++ repeat 0 (8 * k - length key).
(* src/kryptos_twofish.c:615-767 kryptos_twofish_eval_skeys: M[i] is read most significant byte first, and
   M[2k ..] repeats M[0 ..] (629-728); S[k - s - 1] = rs(M[2s] || M[2s + 1]) *)
Definition twofish_eval_skeys (k : nat) (key : list N) : twofish_subkeys :=
  let ek := twofish_ek k key in
  let M := firstn 8 (load_be 4 (2 * k) ek ++ load_be 4 (2 * k) ek) in
  {| tf_K := concat (map (fun s => twofish_h_iter k M (N.of_nat (2 * s))) (seq 0 20));
     tf_S := map (fun s => twofish_rs (slice ek (8 * (k - 1 - s)) 8)) (seq 0 k);
     tf_k := k |}.

(* src/kryptos_twofish.c:512-613 *)
Definition twofish (id : cipher_id) (k : nat) : blockcipher :=
  {| bc_id := id; bc_bs := 16; bc_check := fun _ => Done Success;
     bc_enc := fun key => twofish_encrypt_block (twofish_eval_skeys k key);
     bc_dec := fun key => twofish_decrypt_block (twofish_eval_skeys k key);
     bc_gcm := GcmStandard |}.
(* src/kryptos_twofish.c:514-533 *)
Definition twofish128 : blockcipher := twofish TWOFISH128 2.
(* src/kryptos_twofish.c:535-554 *)
Definition twofish192 : blockcipher := twofish TWOFISH192 3.
(* src/kryptos_twofish.c:556-575 *)
Definition twofish256 : blockcipher := twofish TWOFISH256 4.
