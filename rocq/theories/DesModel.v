(* DES and triple DES, src/kryptos_des.c *)
From Verif Require Import Words TaskModel ModeModel CipherBase.
Open Scope N_scope.

(* src/kryptos_des.c:25-25 *)
Definition des_SH : list N :=
  [0; 5; 5; 6; 6; 6; 6; 6; 6; 5; 6; 6; 6; 6; 6; 6;
   5]%N.

(* src/kryptos_des.c:28-37 *)
Definition des_PC_1 : list nat :=
  [56; 48; 40; 32; 24; 16; 8; 0; 57; 49; 41; 33; 25; 17; 9; 1;
   58; 50; 42; 34; 26; 18; 10; 2; 59; 51; 43; 35; 62; 54; 46; 38;
   30; 22; 14; 6; 61; 53; 45; 37; 29; 21; 13; 5; 60; 52; 44; 36;
   28; 20; 12; 4; 27; 19; 11; 3]%nat.

(* src/kryptos_des.c:40-49 *)
Definition des_PC_2 : list nat :=
  [13; 16; 10; 23; 0; 4; 2; 27; 14; 5; 20; 9; 22; 18; 11; 3;
   25; 7; 15; 6; 26; 19; 12; 1; 40; 51; 30; 36; 46; 54; 29; 39;
   50; 44; 32; 47; 43; 48; 38; 55; 33; 52; 45; 41; 49; 35; 28; 31]%nat.

(* src/kryptos_des.c:110-119 *)
Definition des_IP : list nat :=
  [57; 49; 41; 33; 25; 17; 9; 1; 59; 51; 43; 35; 27; 19; 11; 3;
   61; 53; 45; 37; 29; 21; 13; 5; 63; 55; 47; 39; 31; 23; 15; 7;
   56; 48; 40; 32; 24; 16; 8; 0; 58; 50; 42; 34; 26; 18; 10; 2;
   60; 52; 44; 36; 28; 20; 12; 4; 62; 54; 46; 38; 30; 22; 14; 6]%nat.

(* src/kryptos_des.c:122-131 *)
Definition des_E : list nat :=
  [31; 0; 1; 2; 3; 4; 3; 4; 5; 6; 7; 8; 7; 8; 9; 10;
   11; 12; 11; 12; 13; 14; 15; 16; 15; 16; 17; 18; 19; 20; 19; 20;
   21; 22; 23; 24; 23; 24; 25; 26; 27; 28; 27; 28; 29; 30; 31; 0]%nat.

(* src/kryptos_des.c:134-143 *)
Definition des_P : list nat :=
  [15; 6; 19; 20; 28; 11; 27; 16; 0; 14; 22; 25; 4; 17; 30; 9;
   1; 7; 23; 13; 31; 26; 2; 8; 18; 12; 29; 5; 21; 10; 3; 24]%nat.

(* src/kryptos_des.c:146-155 *)
Definition des_IP_1 : list nat :=
  [39; 7; 47; 15; 55; 23; 63; 31; 38; 6; 46; 14; 54; 22; 62; 30;
   37; 5; 45; 13; 53; 21; 61; 29; 36; 4; 44; 12; 52; 20; 60; 28;
   35; 3; 43; 11; 51; 19; 59; 27; 34; 2; 42; 10; 50; 18; 58; 26;
   33; 1; 41; 9; 49; 17; 57; 25; 32; 0; 40; 8; 48; 16; 56; 24]%nat.

(* src/kryptos_des.c:53-58: row l, column c is entry 16 * l + c *)
Definition des_S1 : list N :=
  [14; 4; 13; 1; 2; 15; 11; 8; 3; 10; 6; 12; 5; 9; 0; 7;
   0; 15; 7; 4; 14; 2; 13; 1; 10; 6; 12; 11; 9; 5; 3; 8;
   4; 1; 14; 8; 13; 6; 2; 11; 15; 12; 9; 7; 3; 10; 5; 0;
   15; 12; 8; 2; 4; 9; 1; 7; 5; 11; 3; 14; 10; 0; 6; 13]%N.

(* src/kryptos_des.c:60-65: row l, column c is entry 16 * l + c *)
Definition des_S2 : list N :=
  [15; 1; 8; 14; 6; 11; 3; 4; 9; 7; 2; 13; 12; 0; 5; 10;
   3; 13; 4; 7; 15; 2; 8; 14; 12; 0; 1; 10; 6; 9; 11; 5;
   0; 14; 7; 11; 10; 4; 13; 1; 5; 8; 12; 6; 9; 3; 2; 15;
   13; 8; 10; 1; 3; 15; 4; 2; 11; 6; 7; 12; 0; 5; 14; 9]%N.

(* src/kryptos_des.c:67-72: row l, column c is entry 16 * l + c *)
Definition des_S3 : list N :=
  [10; 0; 9; 14; 6; 3; 15; 5; 1; 13; 12; 7; 11; 4; 2; 8;
   13; 7; 0; 9; 3; 4; 6; 10; 2; 8; 5; 14; 12; 11; 15; 1;
   13; 6; 4; 9; 8; 15; 3; 0; 11; 1; 2; 12; 5; 10; 14; 7;
   1; 10; 13; 0; 6; 9; 8; 7; 4; 15; 14; 3; 11; 5; 2; 12]%N.

(* src/kryptos_des.c:74-79: row l, column c is entry 16 * l + c *)
Definition des_S4 : list N :=
  [7; 13; 14; 3; 0; 6; 9; 10; 1; 2; 8; 5; 11; 12; 4; 15;
   13; 8; 11; 5; 6; 15; 0; 3; 4; 7; 2; 12; 1; 10; 14; 9;
   10; 6; 9; 0; 12; 11; 7; 13; 15; 1; 3; 14; 5; 2; 8; 4;
   3; 15; 0; 6; 10; 1; 13; 8; 9; 4; 5; 11; 12; 7; 2; 14]%N.

(* src/kryptos_des.c:81-86: row l, column c is entry 16 * l + c *)
Definition des_S5 : list N :=
  [2; 12; 4; 1; 7; 10; 11; 6; 8; 5; 3; 15; 13; 0; 14; 9;
   14; 11; 2; 12; 4; 7; 13; 1; 5; 0; 15; 10; 3; 9; 8; 6;
   4; 2; 1; 11; 10; 13; 7; 8; 15; 9; 12; 5; 6; 3; 0; 14;
   11; 8; 12; 7; 1; 14; 2; 13; 6; 15; 0; 9; 10; 4; 5; 3]%N.

(* src/kryptos_des.c:88-93: row l, column c is entry 16 * l + c *)
Definition des_S6 : list N :=
  [12; 1; 10; 15; 9; 2; 6; 8; 0; 13; 3; 4; 14; 7; 5; 11;
   10; 15; 4; 2; 7; 12; 9; 5; 6; 1; 13; 14; 0; 11; 3; 8;
   9; 14; 15; 5; 2; 8; 12; 3; 7; 0; 4; 10; 1; 13; 11; 6;
   4; 3; 2; 12; 9; 5; 15; 10; 11; 14; 1; 7; 6; 0; 8; 13]%N.

(* src/kryptos_des.c:95-100: row l, column c is entry 16 * l + c *)
Definition des_S7 : list N :=
  [4; 11; 2; 14; 15; 0; 8; 13; 3; 12; 9; 7; 5; 10; 6; 1;
   13; 0; 11; 7; 4; 9; 1; 10; 14; 3; 5; 12; 2; 15; 8; 6;
   1; 4; 11; 13; 12; 3; 7; 14; 10; 15; 6; 8; 0; 5; 9; 2;
   6; 11; 13; 8; 1; 4; 10; 7; 9; 5; 0; 15; 14; 2; 3; 12]%N.

(* src/kryptos_des.c:102-107: row l, column c is entry 16 * l + c *)
Definition des_S8 : list N :=
  [13; 2; 8; 4; 6; 15; 11; 1; 10; 9; 3; 14; 5; 0; 12; 7;
   1; 15; 13; 8; 10; 3; 7; 4; 12; 5; 6; 11; 0; 14; 9; 2;
   7; 11; 4; 1; 9; 12; 14; 2; 0; 6; 10; 13; 15; 3; 5; 8;
   2; 1; 14; 7; 4; 10; 8; 13; 15; 12; 9; 0; 3; 5; 6; 11]%N.

(* src/kryptos_des.c:833-870 the registered weak keys *)
Definition des_weak_keys : list (N * N) :=
  [(0x01010101, 0x01010101); (0x1F1F1F1F, 0x0E0E0E0E); (0xE0E0E0E0, 0xF1F1F1F1); (0xFEFEFEFE, 0xFEFEFEFE);
   (0x01FE01FE, 0x01FE01FE); (0xFE01FE01, 0xFE01FE01); (0x1FE01FE0, 0x0EF10EF1); (0xE0F1E0F1, 0xF10EF10E);
   (0x01E001E0, 0x01F101F1); (0xE001E001, 0xF101F101); (0x1FFE1FFE, 0x0EFE0EFE); (0xFE1FFE1F, 0xFE0EFE0E);
   (0x01F101F1, 0x010E010E); (0x1F011F01, 0x0E010E01); (0x0EFE0EFE, 0xF1FEF1FE); (0xFE0EFE0E, 0xFEF1FEF1);
   (0x1F1F0101, 0x0E0E0101); (0x0E010EF1, 0xF10101F1); (0x011F1F01, 0x010E0E01); (0xFEF101E0, 0xFE0E01F1);
   (0x1F01011F, 0x0E01010E); (0xFE011FE0, 0xFE010EF1); (0x01011F1F, 0x01010E0E); (0xE01F1FE0, 0xF10E0EF1);
   (0xE0E00101, 0xF1F10101); (0xFE0101FE, 0xFE0101FE); (0xFEFE0101, 0xFEFE0101); (0xE01F01FE, 0xF10E01FE);
   (0xFEE01F01, 0xFEF10E01); (0xE0011FFE, 0xF1010EFE); (0xE0FE1F01, 0xF1FE0E01); (0xFE1F1FFE, 0xFE0E0EFE);
   (0xFEE0011F, 0xFEF1010E); (0x1FFE01E0, 0x0EFE01F1); (0xE0FE011F, 0xF1FE010E); (0x01FE1FE0, 0x01FE0EF1);
   (0xE0E01F1F, 0xF1F10E0E); (0x1FE001FE, 0x0EF101FE); (0xFEFE1F1F, 0xFEFE0E0E); (0x01E01FFE, 0x01F10EFE);
   (0xFE1FE001, 0xFE0EF101); (0x0101E0E0, 0x0101F1F1); (0xE01FFE01, 0xF10EFE01); (0x1F1FE0E0, 0x0E0EF1F1);
   (0xFE01E01F, 0xFE01F10E); (0x1F01FEE0, 0x0E01FEF1); (0xE001FE1F, 0xF101FE0E); (0x011FFEE0, 0x010EFEF1);
   (0x01E0E001, 0x01F1F101); (0x1F01E0FE, 0x0E01F1FE); (0x1FFEE001, 0x0EFEF001); (0x011FE0FE, 0x010EF1FE);
   (0x1FE0FE01, 0x0EF1FE01); (0x0101FEFE, 0x0101FEFE); (0x01FEFE01, 0x01FEFE01); (0x1F1FFEFE, 0x0E0EFEFE);
   (0x1FE0E01F, 0x0EF1F10E); (0xFEFEE0E0, 0xFEFEF1F1); (0x01FEE01F, 0x01FEF10E); (0xE0FEFEE0, 0xF1FEFEF1);
   (0x01E0FE1F, 0x01F1FE0E); (0xFEE0E0FE, 0xFEF1F1FE); (0x1FFEFE1F, 0x0EFEFE0E); (0xE0E0FEFE, 0xF1F1FEFE)].

(* src/kryptos_des.c:173 kryptos_des_getbit_from_u32: bit n from the top of a 32-bit word. The code
   keeps bits as the characters '0' and '1', the model as the numbers 0 and 1. *)
Definition des_getbit (w n : N) : N := shr (shl32 w n) 31.
(* n bits of w, the first one off places from the top *)
Definition des_bits (off : N) (n : nat) (w : N) : list N := map (fun i => des_getbit w (off + i)) (range n).
(* src/kryptos_des.c:411-420 kryptos_des_bitseq_to_u32 *)
Definition des_val (bs : list N) : N := fold_left (fun v b => or (shl32 v 1) b) bs 0.

(* src/kryptos_des.c:456-500: one s-box, six bits of x from the s-th *)
Definition des_sbox (t : list N) (x s : N) : N :=
  let b := shr x s in
  let l := or (shr (and b 0x20) 4) (and b 0x1) in
  let c := shr (and b 0x1e) 1 in
  nthN t (16 * l + c).
(* src/kryptos_des.c:422-520 kryptos_des_f *)
Definition des_f (R KL KR : N) : N :=
  let REx := perm des_E (des_bits 0 32 R) in
  let RL := shl32 (xor (des_val (slice REx 0 24)) KL) 8 in
  let RR := shl32 (xor (des_val (slice REx 24 24)) KR) 8 in
  let R := des_sbox des_S1 RL 26 in
  let R := or (shl32 R 4) (des_sbox des_S2 RL 20) in
  let R := or (shl32 R 4) (des_sbox des_S3 RL 14) in
  let R := or (shl32 R 4) (des_sbox des_S4 RL 8) in
  let R := or (shl32 R 4) (des_sbox des_S5 RR 26) in
  let R := or (shl32 R 4) (des_sbox des_S6 RR 20) in
  let R := or (shl32 R 4) (des_sbox des_S7 RR 14) in
  let R := or (shl32 R 4) (des_sbox des_S8 RR 8) in
  des_val (perm des_P (des_bits 0 32 R)).

(* src/kryptos_des.c:552-555, 632-635: one round under sub-key i *)
Definition des_round (K : list (N * N)) (s : N * N) (i : nat) : N * N :=
  let '(L, R) := s in
  let '(KL, KR) := nth i K (0, 0) in
  (R, xor L (des_f R KL KR)).
(* src/kryptos_des.c:529-550, 558-585 and 610-630, 638-664: the permutation p on the 64 bits of two words *)
Definition des_perm64 (p : list nat) (s : N * N) : N * N :=
  let '(a, b) := s in
  let bs := perm p (des_bits 0 32 a ++ des_bits 0 32 b) in
  (des_val (slice bs 0 32), des_val (slice bs 32 32)).
(* src/kryptos_des.c:522-601 kryptos_des_block_encrypt (order = 0 .. 15) and 603-680
   kryptos_des_block_decrypt (order = 15 .. 0) on the two words of the block *)
Definition des_words (order : list nat) (K : list (N * N)) (s : N * N) : N * N :=
  let '(L, R) := fold_left (des_round K) order (des_perm64 des_IP s) in
  des_perm64 des_IP_1 (R, L).
Definition des_block_encrypt (K : list (N * N)) (x : list N) : list N := blk_be 4 2 (on2 (des_words (seq 0 16) K)) x.
Definition des_block_decrypt (K : list (N * N)) (x : list N) : list N := blk_be 4 2 (on2 (des_words (rev (seq 0 16)) K)) x.

(* src/kryptos_des.c:779-783 and the macro 19: the shift binds tighter than the or *)
Definition des_shl (c s : N) : N := shr (or (shl32 c s) (shl32 (shr c (32 - s)) 4)) 4.
(* C[i], D[i] *)
Fixpoint des_cd (n : nat) (c d : N) : N * N :=
  match n with
  | O => (c, d)
  | S m => let '(c, d) := des_cd m c d in (des_shl c (nth n des_SH 0), des_shl d (nth n des_SH 0))
  end.
(* src/kryptos_des.c:786-820: the two 24-bit halves of sub-key i *)
Definition des_subkey (C0 D0 : N) (i : nat) : N * N :=
  let '(c, d) := des_cd i C0 D0 in
  let bs := perm des_PC_2 (des_bits 4 28 c ++ des_bits 4 28 d) in
  (des_val (slice bs 0 24), des_val (slice bs 24 24)).
(* src/kryptos_des.c:872-883 the search of is_somekind_des_weak_key *)
Definition des_weak (k0 k1 : N) : bool :=
  existsb (fun w => (k0 =? fst w) && (k1 =? snd w))%bool des_weak_keys.
(* src/kryptos_des.c:718-735 kryptos_des_ld_user_key: 8 calls *)
Definition des_key_words (key : list N) : list N := ld_user_key 4 2 8 key.
(* src/kryptos_des.c:737-831 kryptos_des_expand_user_key, when the key is not a registered weak key *)
Definition des_expand (key : list N) : list (N * N) :=
  let k := des_key_words key in
  let bs := perm des_PC_1 (des_bits 0 32 (nth 0 k 0) ++ des_bits 0 32 (nth 1 k 0)) in
  map (des_subkey (des_val (slice bs 0 28)) (des_val (slice bs 28 28))) (seq 1 16).
(* the answer of kryptos_des_expand_user_key, 0 being the rejection *)
Definition des_key_ok (key : list N) : bool :=
  let k := des_key_words key in negb (des_weak (nth 0 k 0) (nth 1 k 0)).

(* src/kryptos_des.c:213-231 *)
Definition des : blockcipher :=
  {| bc_id := DES; bc_bs := 8;
     bc_check := fun key => Done (if des_key_ok key then Success else KeyError);
     bc_enc := fun key => des_block_encrypt (des_expand key);
     bc_dec := fun key => des_block_decrypt (des_expand key);
     bc_gcm := GcmNoSupport |}.

(* src/kryptos_des.c:682-698 kryptos_triple_des_block_encrypt, _decrypt (ede = false) and 700-716
   kryptos_triple_des_ede_block_encrypt, _decrypt (ede = true); the rejections are 358-376.
   key2, key3 are arg[0] and arg[2] with their sizes. *)
Definition triple_des (ede : bool) (key2 key3 : list N) : blockcipher :=
  {| bc_id := if ede then DES3EDE else DES3; bc_bs := 8;
     bc_check := fun key =>
       Done (if (des_key_ok key && des_key_ok key2 && des_key_ok key3)%bool then Success else KeyError);
     bc_enc := fun key x =>
       des_block_encrypt (des_expand key3)
         ((if ede then des_block_decrypt else des_block_encrypt) (des_expand key2)
            (des_block_encrypt (des_expand key) x));
     bc_dec := fun key x =>
       des_block_decrypt (des_expand key)
         ((if ede then des_block_encrypt else des_block_decrypt) (des_expand key2)
            (des_block_decrypt (des_expand key3) x));
     bc_gcm := GcmNoSupport |}.
(* src/kryptos_des.c:301-409 kryptos_triple_des_cipher: GCM is refused, and EDE refuses a first key
   equal to the second; the rest is what the processor of the other ciphers does. key2, key3: None
   when arg[0], arg[1] or arg[2], arg[3] is NULL. *)
Definition triple_des_cipher (ede : bool) (key2 key3 : option (list N)) (pem_has : pk_param -> list N -> bool)
           (rnd : nat -> N) (aad : list N) (t : task) : outcome run :=
  let stop r := Done {| r_result := r; r_out := None; r_iv := iv_bytes t |} in
  match task_check pem_has t with
  | Success =>
      match t_mode t with
      | GCM => stop NoSupport
      | _ =>
          match key2, key3 with
          | Some k2, Some k3 =>
              if (ede && eqb_list (key_bytes t) k2)%bool then stop InvalidParams
              else block_cipher (triple_des ede k2 k3) pem_has rnd aad t
          | _, _ => stop InvalidParams
          end
      end
  | r => stop r
  end.
