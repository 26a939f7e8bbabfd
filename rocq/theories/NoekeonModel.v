(* NOEKEON in indirect and in direct key mode. *)
From Verif Require Import Words TaskModel ModeModel CipherBase.
Open Scope N_scope.

(* src/kryptos_noekeon.c:32-41 kryptos_noekeon_Gamma *)
Definition noekeon_gamma (a : N * N * N * N) : N * N * N * N :=
  let '(a0, a1, a2, a3) := a in
  let a1 := xor a1 (notw 32 (or a3 a2)) in
  let a0 := xor a0 (and a2 a1) in
  let '(a0, a3) := (a3, a0) in
  let a2 := xor a2 (xor (xor a0 a1) a3) in
  let a1 := xor a1 (notw 32 (or a3 a2)) in
  let a0 := xor a0 (and a2 a1) in
  (a0, a1, a2, a3).

(* src/kryptos_noekeon.c:44-45, 52-53: t ^= lsh(t, 24) ^ lsh(t, 8) *)
Definition noekeon_t (t : N) : N := xor t (xor (rotl32 t 24) (rotl32 t 8)).

(* src/kryptos_noekeon.c:43-56 kryptos_noekeon_Theta *)
Definition noekeon_theta (k a : N * N * N * N) : N * N * N * N :=
  let '(a0, a1, a2, a3) := a in
  let '(k0, k1, k2, k3) := k in
  let t := noekeon_t (xor a0 a2) in
  let a1 := xor a1 t in
  let a3 := xor a3 t in
  let a0 := xor a0 k0 in
  let a1 := xor a1 k1 in
  let a2 := xor a2 k2 in
  let a3 := xor a3 k3 in
  let t := noekeon_t (xor a1 a3) in
  let a0 := xor a0 t in
  let a2 := xor a2 t in
  (a0, a1, a2, a3).

(* src/kryptos_noekeon.c:62-72 kryptos_noekeon_Pi1, kryptos_noekeon_Pi2 *)
Definition noekeon_pi1 (a : N * N * N * N) : N * N * N * N :=
  let '(a0, a1, a2, a3) := a in (a0, rotl32 a1 1, rotl32 a2 5, rotl32 a3 2).
Definition noekeon_pi2 (a : N * N * N * N) : N * N * N * N :=
  let '(a0, a1, a2, a3) := a in (a0, rotl32 a1 31, rotl32 a2 27, rotl32 a3 30).

(* s[0] ^= c *)
Definition noekeon_rc (c : N) (a : N * N * N * N) : N * N * N * N :=
  let '(a0, a1, a2, a3) := a in (xor a0 c, a1, a2, a3).

(* src/kryptos_noekeon.c:20-27 kryptos_noekeon_Round *)
Definition noekeon_round (k s : N * N * N * N) (c1 c2 : N) : N * N * N * N :=
  noekeon_pi2 (noekeon_gamma (noekeon_pi1 (noekeon_rc c2 (noekeon_theta k (noekeon_rc c1 s))))).

(* src/kryptos_noekeon.c:74-79 kryptos_noekeon_RC *)
Definition noekeon_RC : list N :=
  [0x80; 0x1B; 0x36; 0x6C; 0xD8; 0xAB; 0x4D; 0x9A; 0x2F; 0x5E; 0xBC; 0x63; 0xC6; 0x97; 0x35; 0x6A; 0xD4].

(* src/kryptos_noekeon.c:191-226 kryptos_noekeon_block_encrypt *)
Definition noekeon_encrypt_words (k s : N * N * N * N) : N * N * N * N :=
  let s := fold_left (fun s r => noekeon_round k s (nth r noekeon_RC 0) 0) (seq 0 16) s in
  noekeon_theta k (noekeon_rc (nth 16 noekeon_RC 0) s).

(* src/kryptos_noekeon.c:228-266 kryptos_noekeon_block_decrypt, k being the inverse working key *)
Definition noekeon_decrypt_words (k s : N * N * N * N) : N * N * N * N :=
  let s := fold_left (fun s r => noekeon_round k s 0 (nth r noekeon_RC 0)) (rev (seq 1 16)) s in
  noekeon_rc (nth 0 noekeon_RC 0) (noekeon_theta k s).

Definition words4 (l : list N) : N * N * N * N := (nth 0 l 0, nth 1 l 0, nth 2 l 0, nth 3 l 0).

(* src/kryptos_noekeon.c:146-168: the key padded with zeroes up to a block, then encrypted under the
   null key. A key longer than the block has been rejected by the task check. *)
Definition noekeon_indirect_key (key : list N) : N * N * N * N :=
  words4 (load_be 4 4 (blk_be 4 4 (on4 (noekeon_encrypt_words (0, 0, 0, 0)))
                         (key ++ repeat 0 (16 - length key)))).

(* src/kryptos_noekeon.c:169-188, 16 calls of kryptos_ld_user_key_byte *)
Definition noekeon_direct_key (key : list N) : N * N * N * N := words4 (ld_user_key 4 4 16 key).

(* src/kryptos_noekeon.c:97-140: the processors; before decrypting, the working key goes through
   Theta with the null key (lines 107-110, 132-135) *)
Definition noekeon : blockcipher :=
  {| bc_id := NOEKEON; bc_bs := 16;
     bc_check := fun _ => Done Success;
     bc_enc := fun key => blk_be 4 4 (on4 (noekeon_encrypt_words (noekeon_indirect_key key)));
     bc_dec := fun key => blk_be 4 4 (on4 (noekeon_decrypt_words (noekeon_theta (0, 0, 0, 0) (noekeon_indirect_key key))));
     bc_gcm := GcmStandard |}.
Definition noekeon_d : blockcipher :=
  {| bc_id := NOEKEOND; bc_bs := 16;
     bc_check := fun _ => Done Success;
     bc_enc := fun key => blk_be 4 4 (on4 (noekeon_encrypt_words (noekeon_direct_key key)));
     bc_dec := fun key => blk_be 4 4 (on4 (noekeon_decrypt_words (noekeon_theta (0, 0, 0, 0) (noekeon_direct_key key))));
     bc_gcm := GcmStandard |}.
