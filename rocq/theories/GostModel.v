(* GOST 28147-89 with the DES s-boxes and with the s-boxes of the caller. *)
From Verif Require Import Words TaskModel ModeModel CipherBase.
Open Scope N_scope.

(* src/kryptos_gost.c:50-52 kryptos_gost_s1 *)
Definition gost_s1 : list N :=
  [13; 2; 8; 4; 6; 15; 11; 1; 10; 9; 3; 14; 5; 0; 12; 7]%N.

(* src/kryptos_gost.c:46-48 kryptos_gost_s2 *)
Definition gost_s2 : list N :=
  [4; 11; 2; 14; 15; 0; 8; 13; 3; 12; 9; 7; 5; 10; 6; 1]%N.

(* src/kryptos_gost.c:42-44 kryptos_gost_s3 *)
Definition gost_s3 : list N :=
  [12; 1; 10; 15; 9; 2; 6; 8; 0; 13; 3; 4; 14; 7; 5; 11]%N.

(* src/kryptos_gost.c:38-40 kryptos_gost_s4 *)
Definition gost_s4 : list N :=
  [2; 12; 4; 1; 7; 10; 11; 6; 8; 5; 3; 15; 13; 0; 14; 9]%N.

(* src/kryptos_gost.c:34-36 kryptos_gost_s5 *)
Definition gost_s5 : list N :=
  [7; 13; 14; 3; 0; 6; 9; 10; 1; 2; 8; 5; 11; 12; 4; 15]%N.

(* src/kryptos_gost.c:30-32 kryptos_gost_s6 *)
Definition gost_s6 : list N :=
  [10; 0; 9; 14; 6; 3; 15; 5; 1; 13; 12; 7; 11; 4; 2; 8]%N.

(* src/kryptos_gost.c:26-28 kryptos_gost_s7 *)
Definition gost_s7 : list N :=
  [15; 1; 8; 14; 6; 11; 3; 4; 9; 7; 2; 13; 12; 0; 5; 10]%N.

(* src/kryptos_gost.c:22-24 kryptos_gost_s8 *)
Definition gost_s8 : list N :=
  [14; 4; 13; 1; 2; 15; 11; 8; 3; 10; 6; 12; 5; 9; 0; 7]%N.

(* src/kryptos_gost.c:54-59 kryptos_gost_rounds_k_lt *)
Definition gost_rounds_k_lt : list N :=
  [0; 1; 2; 3; 4; 5; 6; 7; 0; 1; 2; 3; 4; 5; 6; 7;
   0; 1; 2; 3; 4; 5; 6; 7; 7; 6; 5; 4; 3; 2; 1; 0]%N.

(* src/kryptos_gost.c:91-94: the eight s-boxes, s1 first *)
Definition gost_ds_sboxes : list (list N) := [gost_s1; gost_s2; gost_s3; gost_s4; gost_s5; gost_s6; gost_s7; gost_s8].

(* sks->s<i>[x] *)
Definition gost_s (sb : list (list N)) (i : nat) (x : N) : N := nthN (nth (i - 1) sb []) x.

(* src/kryptos_gost.c:67-76 kryptos_gost_sub. The shifts are done in int in C: a byte >= 8 shifted
   by 28 overflows it; modelled as the 32-bit word compilers produce. The s-box entries of the
   caller may be any byte. *)
Definition gost_sub (sb : list (list N)) (b : N) : N :=
  or (or (or (or (or (or (or
    (shl32 (gost_s sb 8 (and (shr b 28) 0xF)) 28)
    (shl32 (gost_s sb 7 (and (shr b 24) 0xF)) 24))
    (shl32 (gost_s sb 6 (and (shr b 20) 0xF)) 20))
    (shl32 (gost_s sb 5 (and (shr b 16) 0xF)) 16))
    (shl32 (gost_s sb 4 (and (shr b 12) 0xF)) 12))
    (shl32 (gost_s sb 3 (and (shr b 8) 0xF)) 8))
    (shl32 (gost_s sb 2 (and (shr b 4) 0xF)) 4))
    (gost_s sb 1 (and b 0xF)).

(* src/kryptos_gost.c:78-89 kryptos_gost_f, kryptos_gost_round on (L, R) *)
Definition gost_round (sb : list (list N)) (K : list N) (s : N * N) (r : nat) : N * N :=
  let '(L, R) := s in
  (R, xor (rotl32 (gost_sub sb (add32 R (nthN K (nth r gost_rounds_k_lt 0)))) 11) L).

(* src/kryptos_gost.c:284-372 kryptos_gost_block_encrypt (rounds 0..31), kryptos_gost_block_decrypt
   (31..0): R is loaded from the first half of the block and L from the second; L is stored first *)
Definition gost_words (rs : list nat) (sb : list (list N)) (K : list N) (s : N * N) : N * N :=
  let '(x, y) := s in fold_left (gost_round sb K) rs (y, x).

(* src/kryptos_gost.c:245-282 kryptos_gost_load_user_key: 32 calls of kryptos_ld_user_key_byte *)
Definition gost_key (key : list N) : list N := ld_user_key 4 8 32 key.

(* src/kryptos_gost.c:106-131 *)
Definition gost_ds : blockcipher :=
  {| bc_id := GOSTDS; bc_bs := 8;
     bc_check := fun _ => Done Success;
     bc_enc := fun key => blk_be 4 2 (on2 (gost_words (seq 0 32) gost_ds_sboxes (gost_key key)));
     bc_dec := fun key => blk_be 4 2 (on2 (gost_words (rev (seq 0 32)) gost_ds_sboxes (gost_key key)));
     bc_gcm := GcmNoSupport |}.

(* src/kryptos_gost.c:210-243; args are the eight s-box pointers, None when NULL *)
Definition gost (args : list (option (list N))) : blockcipher :=
  let sb := map (fun o => match o with Some l => l | None => [] end) args in
  {| bc_id := GOST; bc_bs := 8;
     bc_check := fun _ =>
       if existsb (fun o => match o with None => true | Some _ => false end) args then Done InvalidParams
       else Done Success;
     bc_enc := fun key => blk_be 4 2 (on2 (gost_words (seq 0 32) sb (gost_key key)));
     bc_dec := fun key => blk_be 4 2 (on2 (gost_words (rev (seq 0 32)) sb (gost_key key)));
     bc_gcm := GcmNoSupport |}.
