(* RC2, RC5 and RC6. *)
From Verif Require Import Words TaskModel ModeModel CipherBase.
Open Scope N_scope.

(* --------------------------------------------------------------------- RC2 *)

(* src/kryptos_rc2.c:64-81 kryptos_rc2_PITABLE *)
Definition rc2_pitable : list N :=
  [217; 120; 249; 196; 25; 221; 181; 237; 40; 233; 253; 121; 74; 160; 216; 157;
   198; 126; 55; 131; 43; 118; 83; 142; 98; 76; 100; 136; 68; 139; 251; 162;
   23; 154; 89; 245; 135; 179; 79; 19; 97; 69; 109; 141; 9; 129; 125; 50;
   189; 143; 64; 235; 134; 183; 123; 11; 240; 149; 33; 34; 92; 107; 78; 130;
   84; 214; 101; 147; 206; 96; 178; 28; 115; 86; 192; 20; 167; 140; 241; 220;
   18; 117; 202; 31; 59; 190; 228; 209; 66; 61; 212; 48; 163; 60; 182; 38;
   111; 191; 14; 218; 70; 105; 7; 87; 39; 242; 29; 155; 188; 148; 67; 3;
   248; 17; 199; 246; 144; 239; 62; 231; 6; 195; 213; 47; 200; 102; 30; 215;
   8; 232; 234; 222; 128; 82; 238; 247; 132; 170; 114; 172; 53; 77; 106; 42;
   150; 26; 210; 113; 90; 21; 73; 116; 75; 159; 208; 94; 4; 24; 164; 236;
   194; 224; 65; 110; 15; 81; 203; 204; 36; 145; 175; 80; 161; 244; 112; 57;
   153; 124; 58; 133; 35; 184; 180; 122; 252; 2; 54; 91; 37; 85; 151; 49;
   45; 93; 250; 152; 227; 138; 146; 174; 5; 223; 41; 16; 103; 108; 186; 201;
   211; 0; 230; 207; 225; 158; 168; 44; 99; 22; 1; 63; 88; 226; 137; 169;
   13; 56; 52; 27; 171; 51; 255; 176; 187; 72; 12; 95; 185; 177; 205; 46;
   197; 243; 219; 71; 229; 165; 156; 119; 10; 166; 32; 104; 254; 127; 193; 173]%N.


(* src/kryptos_pw2.h kryptos_pw2 on small exponents: 2^e *)
Definition rc2_tm (t1 tn : N) : N := 255 mod 2 ^ (8 + t1 - 8 * tn).

(* src/kryptos_rc2.c:311-313: for (i = T; i < 128; i++) L[i] = PITABLE[(L[i-1] + L[i-T]) % 256] *)
Definition rc2_expand_up (T : nat) (L : list N) : list N :=
  fold_left (fun L i => upd L i (nthN rc2_pitable ((nth (i - 1) L 0 + nth (i - T) L 0) mod 256)))
            (seq T (128 - T)) L.

(* src/kryptos_rc2.c:317-319: for (i = 127 - Tn; i >= 0; i--) L[i] = PITABLE[L[i+1] ^ L[i+Tn]] *)
Definition rc2_expand_down (tn : nat) (L : list N) : list N :=
  fold_left (fun L i => upd L i (nthN rc2_pitable (xor (nth (i + 1) L 0) (nth (i + tn) L 0))))
            (rev (seq 0 (128 - tn))) L.

(* src/kryptos_rc2.c:291-331 kryptos_rc2_inflate_key. The user key is first loaded in 64 big-endian
   16-bit words (lines 146-289) which lines 300-305 split again into the 128 bytes of L.
   L[128 - Tn] is outside of L when Tn = 129: UB. *)
Definition rc2_inflate_key (t1 : N) (key : list N) : outcome (list N) :=
  let K := ld_user_key 2 64 128 key in
  let L := store_be 2 K in
  let tn := (t1 + 7) / 8 in
  let T := length key in
  let L := rc2_expand_up T L in
  if 128 <? tn then UB
  else
    let n := N.to_nat tn in
    let L := upd L (128 - n) (nthN rc2_pitable (and (nth (128 - n) L 0) (rc2_tm t1 tn))) in
    let L := rc2_expand_down n L in
    Done (load_le 2 64 L).

(* src/kryptos_rc2.c:25-28 kryptos_rc2_mixupr: r1, r2, r3 are r[(i+1)%4], r[(i+2)%4], r[(i+3)%4] *)
Definition rc2_mixup (r r1 r2 r3 k s : N) : N :=
  rotl 16 (add16 (add16 (add16 r k) (and r3 r2)) (and (notw 16 r3) r1)) s.
(* src/kryptos_rc2.c:44-47 kryptos_rc2_rmixupr *)
Definition rc2_rmixup (r r1 r2 r3 k s : N) : N :=
  sub16 (sub16 (sub16 (rotr 16 r s) k) (and r3 r2)) (and (notw 16 r3) r1).

(* src/kryptos_rc2.c:32-35 kryptos_rc2_mixinground using sub-keys j .. j+3; rotations 1, 2, 3, 5 (line 23) *)
Definition rc2_mixinground (K : list N) (r : N * N * N * N) (j : nat) : N * N * N * N :=
  let '(r0, r1, r2, r3) := r in
  let r0 := rc2_mixup r0 r1 r2 r3 (nth j K 0) 1 in
  let r1 := rc2_mixup r1 r2 r3 r0 (nth (j + 1) K 0) 2 in
  let r2 := rc2_mixup r2 r3 r0 r1 (nth (j + 2) K 0) 3 in
  let r3 := rc2_mixup r3 r0 r1 r2 (nth (j + 3) K 0) 5 in
  (r0, r1, r2, r3).
(* src/kryptos_rc2.c:51-54 kryptos_rc2_rmixinground, using sub-keys j+3 down to j *)
Definition rc2_rmixinground (K : list N) (r : N * N * N * N) (j : nat) : N * N * N * N :=
  let '(r0, r1, r2, r3) := r in
  let r3 := rc2_rmixup r3 r0 r1 r2 (nth (j + 3) K 0) 5 in
  let r2 := rc2_rmixup r2 r3 r0 r1 (nth (j + 2) K 0) 3 in
  let r1 := rc2_rmixup r1 r2 r3 r0 (nth (j + 1) K 0) 2 in
  let r0 := rc2_rmixup r0 r1 r2 r3 (nth j K 0) 1 in
  (r0, r1, r2, r3).
(* src/kryptos_rc2.c:30, 37-40 kryptos_rc2_mashinground *)
Definition rc2_mashinground (K : list N) (r : N * N * N * N) : N * N * N * N :=
  let '(r0, r1, r2, r3) := r in
  let r0 := add16 r0 (nthN K (and r3 63)) in
  let r1 := add16 r1 (nthN K (and r0 63)) in
  let r2 := add16 r2 (nthN K (and r1 63)) in
  let r3 := add16 r3 (nthN K (and r2 63)) in
  (r0, r1, r2, r3).
(* src/kryptos_rc2.c:49, 56-59 kryptos_rc2_rmashinground *)
Definition rc2_rmashinground (K : list N) (r : N * N * N * N) : N * N * N * N :=
  let '(r0, r1, r2, r3) := r in
  let r3 := sub16 r3 (nthN K (and r2 63)) in
  let r2 := sub16 r2 (nthN K (and r1 63)) in
  let r1 := sub16 r1 (nthN K (and r0 63)) in
  let r0 := sub16 r0 (nthN K (and r3 63)) in
  (r0, r1, r2, r3).

(* src/kryptos_rc2.c:333-383 kryptos_rc2_block_encrypt: 5 mixing rounds, mashing, 6, mashing, 5.
   get as big-endian then kryptos_rc2_rev is a little-endian load (lines 337-347). *)
Definition rc2_encrypt_words (K : list N) (r : N * N * N * N) : N * N * N * N :=
  let r := fold_left (rc2_mixinground K) (map (fun i => 4 * i)%nat (seq 0 5)) r in
  let r := rc2_mashinground K r in
  let r := fold_left (rc2_mixinground K) (map (fun i => 4 * i)%nat (seq 5 6)) r in
  let r := rc2_mashinground K r in
  fold_left (rc2_mixinground K) (map (fun i => 4 * i)%nat (seq 11 5)) r.

(* src/kryptos_rc2.c:385-435 kryptos_rc2_block_decrypt *)
Definition rc2_decrypt_words (K : list N) (r : N * N * N * N) : N * N * N * N :=
  let r := fold_left (rc2_rmixinground K) (rev (map (fun i => 4 * i)%nat (seq 11 5))) r in
  let r := rc2_rmashinground K r in
  let r := fold_left (rc2_rmixinground K) (rev (map (fun i => 4 * i)%nat (seq 5 6))) r in
  let r := rc2_rmashinground K r in
  fold_left (rc2_rmixinground K) (rev (map (fun i => 4 * i)%nat (seq 0 5))) r.

(* src/kryptos_rc2.c:98-145; arg[0] points to T1, None when NULL *)
Definition rc2 (t1 : option Z) : blockcipher :=
  let subkeys key := match t1 with
                     | Some t => match rc2_inflate_key (Z.to_N t) key with Done K => K | UB => [] end
                     | None => []
                     end in
  {| bc_id := RC2; bc_bs := 8;
     bc_check := fun key =>
       if Nat.ltb 128 (length key) then Done InvalidParams
       else match t1 with
            | None => Done InvalidParams
            | Some t => if (1025 <? t)%Z || (t <? 1)%Z then Done InvalidParams
                        else obind (rc2_inflate_key (Z.to_N t) key) (fun _ => Done Success)
            end;
     bc_enc := fun key => blk_le 2 4 (on4 (rc2_encrypt_words (subkeys key)));
     bc_dec := fun key => blk_le 2 4 (on4 (rc2_decrypt_words (subkeys key)));
     bc_gcm := GcmNoSupport |}.

(* --------------------------------------------------------------------- RC5 *)

(* src/kryptos_rc5.c:26-28, src/kryptos_rc6.c:27-29 *)
Definition rc5_pw : N := 0xB7E15163.
Definition rc5_qw : N := 0x9E3779B9.
Definition rc5_k_nr : nat := 800.

(* src/kryptos_rc5.c:36-39 kryptos_rc5_rev32, src/kryptos_rc6.c:37-40 *)
Definition rev32 (w : N) : N :=
  or (or (or (shl32 w 24) (shl32 (and w 0xFF00) 8)) (shr (and w 0xFF0000) 8)) (shr w 24).

(* src/kryptos_rc5.c:202-206, src/kryptos_rc6.c:284-288: K[0] = PW; K[i] = K[i-1] + QW for 0 < i < t;
   the entries from t on keep the contents junk the uninitialised structure had *)
Definition rc5_init_K (t : nat) (junk : list N) : list N :=
  fold_left (fun K i => upd K i (add32 (nth (i - 1) K 0) rc5_qw)) (seq 1 (t - 1)) (upd junk 0 rc5_pw).

(* src/kryptos_rc5.c:215-220, src/kryptos_rc6.c:296-301: one step of the mixing loop on
   (K, L, A, B, i, j), with i counted modulo t and j modulo c. A rotation by 0 has the shift w >> 32,
   which C leaves undefined; modelled as compilers implement it, a rotation by 0. *)
Definition rc5_mix (t c : nat) (s : list N * list N * N * N * nat * nat) : list N * list N * N * N * nat * nat :=
  let '(K, L, A, B, i, j) := s in
  let A := rotl32 (add32 (nth i K 0) (add32 A B)) 3 in
  let K := upd K i A in
  let B := rotl32 (add32 (nth j L 0) (add32 A B)) (add32 A B mod 32) in
  let L := upd L j B in
  (K, L, A, B, Nat.modulo (i + 1) t, Nat.modulo (j + 1) c).

(* src/kryptos_rc5.c:180-225 kryptos_rc5_ksched; junk = the contents of sks->K before the call
   (the structure is an uninitialised local variable, src/kryptos_types.h:582) *)
Definition rc5_ksched (rounds : nat) (junk : list N) (key : list N) : list N :=
  let c := Nat.div (length key + 3) 4 in
  let L := ld_user_key 4 rc5_k_nr 64 key in
  let L := map rev32 (firstn c L) ++ skipn c L in
  let t := (2 * rounds + 2)%nat in
  let K := rc5_init_K t junk in
  let t := if Nat.ltb t c then c else t in
  let '(K, _, _, _, _, _) := Nat.iter (3 * t) (rc5_mix t c) (K, L, 0, 0, 0%nat, 0%nat) in K.

(* src/kryptos_rc5.c:244-247 *)
Definition rc5_enc_round (K : list N) (s : N * N) (r : nat) : N * N :=
  let '(A, B) := s in
  let A := add32 (rotl32 (xor A B) (B mod 32)) (nth (2 * r) K 0) in
  let B := add32 (rotl32 (xor B A) (A mod 32)) (nth (2 * r + 1) K 0) in
  (A, B).
(* src/kryptos_rc5.c:278-281 *)
Definition rc5_dec_round (K : list N) (s : N * N) (r : nat) : N * N :=
  let '(A, B) := s in
  let B := xor (rotr32 (sub32 B (nth (2 * r + 1) K 0)) (A mod 32)) A in
  let A := xor (rotr32 (sub32 A (nth (2 * r) K 0)) (B mod 32)) B in
  (A, B).

(* src/kryptos_rc5.c:227-261 kryptos_rc5_block_encrypt *)
Definition rc5_encrypt (rounds : nat) (K : list N) : list N -> list N :=
  blk_le 4 2 (on2 (fun '(A, B) =>
    fold_left (rc5_enc_round K) (seq 1 rounds) (add32 A (nth 0 K 0), add32 B (nth 1 K 0)))).
(* src/kryptos_rc5.c:263-298 kryptos_rc5_block_decrypt *)
Definition rc5_decrypt (rounds : nat) (K : list N) : list N -> list N :=
  blk_le 4 2 (on2 (fun s =>
    let '(A, B) := fold_left (rc5_dec_round K) (rev (seq 1 rounds)) s in
    (sub32 A (nth 0 K 0), sub32 B (nth 1 K 0)))).

(* src/kryptos_rc5.c:82-92, src/kryptos_rc6.c:92-101: the int is converted to a 64-bit size_t, then
   checked; the sum and the shift wrap around. A negative number of rounds that
   passes (-1 and -2) makes the loops run 2^64 - |r| rounds and leave the sub-key array. *)
Definition rc5_rounds_check (rounds : option Z) : outcome result :=
  match rounds with
  | None => Done InvalidParams
  | Some r =>
      let u := Z.to_N (r mod 2 ^ 64) in
      if u <? 1 then Done InvalidParams
      else if N.of_nat rc5_k_nr <? shlw 64 (addw 64 u 2) 1 then Done InvalidParams
      else if (r <? 0)%Z then UB else Done Success
  end.

(* src/kryptos_rc5.c:56-104; junk_e and junk_d are the uninitialised contents of the sub-key array
   when encrypting and when decrypting. *)
Definition rc5 (junk_e junk_d : list N) (rounds : option Z) : blockcipher :=
  {| bc_id := RC5; bc_bs := 8;
     bc_check := fun key => if Nat.ltb 64 (length key) then Done KeyError else rc5_rounds_check rounds;
     bc_enc := fun key => match rounds with
                          | Some r => rc5_encrypt (Z.to_nat r) (rc5_ksched (Z.to_nat r) junk_e key)
                          | None => fun x => x
                          end;
     bc_dec := fun key => match rounds with
                          | Some r => rc5_decrypt (Z.to_nat r) (rc5_ksched (Z.to_nat r) junk_d key)
                          | None => fun x => x
                          end;
     bc_gcm := GcmNoSupport |}.

(* --------------------------------------------------------------------- RC6 *)

(* src/kryptos_rc6.c:261-306 kryptos_rc6_ksched; ksize is 16, 24 or 32 (lines 43-47) *)
Definition rc6_ksched (ksize rounds : nat) (junk : list N) (key : list N) : list N :=
  let cp_uk := key ++ repeat 0 (32 - length key) in
  let L := ld_user_key 4 rc5_k_nr 32 (firstn ksize cp_uk) in
  let c := Nat.div ksize 4 in
  let L := map rev32 (firstn c L) ++ skipn c L in
  let t := (2 * rounds + 4)%nat in
  let K := rc5_init_K t junk in
  let '(K, _, _, _, _, _) := Nat.iter (3 * t) (rc5_mix t c) (K, L, 0, 0, 0%nat, 0%nat) in K.

(* src/kryptos_rc6.c:336-337, 410-411: rotl(B * ((B << 1) + 1), 5) *)
Definition rc6_f (B : N) : N := rotl32 (mul32 B (add32 (shl32 B 1) 1)) 5.

(* src/kryptos_rc6.c:335-345 *)
Definition rc6_enc_round (K : list N) (s : N * N * N * N) (r : nat) : N * N * N * N :=
  let '(A, B, C, D) := s in
  let t := rc6_f B in
  let u := rc6_f D in
  let A := add32 (rotl32 (xor A t) (u mod 32)) (nth (2 * r) K 0) in
  let C := add32 (rotl32 (xor C u) (t mod 32)) (nth (2 * r + 1) K 0) in
  (B, C, D, A).
(* src/kryptos_rc6.c:402-414 *)
Definition rc6_dec_round (K : list N) (s : N * N * N * N) (r : nat) : N * N * N * N :=
  let '(B, C, D, A) := s in
  let u := rc6_f D in
  let t := rc6_f B in
  let C := xor (rotr32 (sub32 C (nth (2 * r + 1) K 0)) (t mod 32)) u in
  let A := xor (rotr32 (sub32 A (nth (2 * r) K 0)) (u mod 32)) t in
  (A, B, C, D).

(* src/kryptos_rc6.c:308-373 kryptos_rc6_block_encrypt *)
Definition rc6_encrypt (rounds : nat) (K : list N) : list N -> list N :=
  blk_le 4 4 (on4 (fun '(A, B, C, D) =>
    let '(A, B, C, D) := fold_left (rc6_enc_round K) (seq 1 rounds)
                           (A, add32 B (nth 0 K 0), C, add32 D (nth 1 K 0)) in
    (add32 A (nth (2 * rounds + 2) K 0), B, add32 C (nth (2 * rounds + 3) K 0), D))).
(* src/kryptos_rc6.c:375-446 kryptos_rc6_block_decrypt *)
Definition rc6_decrypt (rounds : nat) (K : list N) : list N -> list N :=
  blk_le 4 4 (on4 (fun '(A, B, C, D) =>
    let C := sub32 C (nth (2 * rounds + 3) K 0) in
    let A := sub32 A (nth (2 * rounds + 2) K 0) in
    let '(A, B, C, D) := fold_left (rc6_dec_round K) (rev (seq 1 rounds)) (A, B, C, D) in
    (A, sub32 B (nth 0 K 0), C, sub32 D (nth 1 K 0)))).

(* src/kryptos_rc6.c:66-220; the three variants differ by the key size limit *)
Definition rc6 (id : cipher_id) (ksize : nat) (junk_e junk_d : list N) (rounds : option Z) : blockcipher :=
  {| bc_id := id; bc_bs := 16;
     bc_check := fun key => if Nat.ltb ksize (length key) then Done KeyError else rc5_rounds_check rounds;
     bc_enc := fun key => match rounds with
                          | Some r => rc6_encrypt (Z.to_nat r) (rc6_ksched ksize (Z.to_nat r) junk_e key)
                          | None => fun x => x
                          end;
     bc_dec := fun key => match rounds with
                          | Some r => rc6_decrypt (Z.to_nat r) (rc6_ksched ksize (Z.to_nat r) junk_d key)
                          | None => fun x => x
                          end;
     bc_gcm := GcmCustom |}.
Definition rc6_128 := rc6 RC6_128 16.
Definition rc6_192 := rc6 RC6_192 24.
Definition rc6_256 := rc6 RC6_256 32.
