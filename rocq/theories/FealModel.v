(* FEAL. *)
From Verif Require Import Words TaskModel ModeModel CipherBase.
Open Scope N_scope.

(* src/kryptos_feal.c:22 kryptos_feal_get_byte_from_u32 *)
Definition feal_byte (w n : N) : N := and (shr w (24 - 8 * n)) 0xff.
(* src/kryptos_feal.c:24 kryptos_feal_get_byte_from_u16 *)
Definition feal_byte16 (w n : N) : N := and (shr w (8 - 8 * n)) 0xff.

(* src/kryptos_feal.c:20, 94-97 kryptos_feal_Sd *)
Definition feal_sd (T U d : N) : N := rotl 8 ((T + U + d) mod 256) 2.

(* src/kryptos_feal.c:113, 257: the four bytes of U as a word *)
Definition feal_pack (u0 u1 u2 u3 : N) : N :=
  or (or (or (shl32 u0 24) (shl32 u1 16)) (shl32 u2 8)) u3.

(* src/kryptos_feal.c:99-114 kryptos_feal_fK *)
Definition feal_fk (V W : N) : N :=
  let t1 := xor (feal_byte V 0) (feal_byte V 1) in
  let t2 := xor (feal_byte V 2) (feal_byte V 3) in
  let u1 := feal_sd t1 (xor t2 (feal_byte W 0)) 1 in
  let u2 := feal_sd t2 (xor u1 (feal_byte W 1)) 0 in
  let u0 := feal_sd (feal_byte V 0) (xor u1 (feal_byte W 2)) 0 in
  let u3 := feal_sd (feal_byte V 3) (xor u2 (feal_byte W 3)) 1 in
  feal_pack u0 u1 u2 u3.

(* src/kryptos_feal.c:243-258 kryptos_feal_f *)
Definition feal_f (V W : N) : N :=
  let t1 := xor (xor (feal_byte V 0) (feal_byte V 1)) (feal_byte16 W 0) in
  let t2 := xor (xor (feal_byte V 2) (feal_byte V 3)) (feal_byte16 W 1) in
  let u1 := feal_sd t1 t2 1 in
  let u2 := feal_sd t2 u1 0 in
  let u0 := feal_sd (feal_byte V 0) u1 0 in
  let u3 := feal_sd (feal_byte V 3) u2 1 in
  feal_pack u0 u1 u2 u3.

(* src/kryptos_feal.c:152-161: one iteration on (D, A, B), giving the two 16-bit sub-keys of B[r] *)
Fixpoint feal_expand (n : nat) (D A B : N) : list N :=
  match n with
  | O => []
  | S m =>
      let B' := feal_fk A (xor B D) in
      or (shlw 16 (feal_byte B' 0) 8) (feal_byte B' 1)
      :: or (shlw 16 (feal_byte B' 2) 8) (feal_byte B' 3)
      :: feal_expand m A B B'
  end.

(* src/kryptos_feal.c:134-169 kryptos_feal_expand_key; K holds 801 entries, the others being 0.
   kryptos_feal_ld_user_key (116-132) takes the first 8 bytes of the key. *)
Definition feal_expand_key (rounds : nat) (key : list N) : list N :=
  let uk := ld_user_key 4 2 8 key in
  let r_nr := (Nat.div (rounds + 8) 2 + Nat.modulo (rounds + 8) 2)%nat in
  let k := feal_expand r_nr 0 (nth 0 uk 0) (nth 1 uk 0) in
  k ++ repeat 0 (801 - length k).

(* two 16-bit sub-keys as a 32-bit word, src/kryptos_feal.c:182-186, 197-198 *)
Definition feal_key32 (K : list N) (i : nat) : N := or (shl32 (nth i K 0) 16) (nth (i + 1) K 0).

(* src/kryptos_feal.c:190-193 on (L, R) *)
Definition feal_enc_round (K : list N) (s : N * N) (r : nat) : N * N :=
  let '(L, R) := s in (R, xor L (feal_f R (nth (r - 1) K 0))).
(* src/kryptos_feal.c:223-226 *)
Definition feal_dec_round (K : list N) (s : N * N) (r : nat) : N * N :=
  let '(L, R) := s in (xor R (feal_f L (nth (r - 1) K 0)), L).

(* src/kryptos_feal.c:171-205 kryptos_feal_block_encrypt *)
Definition feal_encrypt_words (rounds : nat) (K : list N) (s : N * N) : N * N :=
  let '(L, R) := s in
  let L := xor L (feal_key32 K rounds) in
  let R := xor R (feal_key32 K (rounds + 2)) in
  let R := xor R L in
  let '(L, R) := fold_left (feal_enc_round K) (seq 1 rounds) (L, R) in
  let L := xor L R in
  let R := xor R (feal_key32 K (rounds + 4)) in
  let L := xor L (feal_key32 K (rounds + 6)) in
  (R, L).

(* src/kryptos_feal.c:207-241 kryptos_feal_block_decrypt *)
Definition feal_decrypt_words (rounds : nat) (K : list N) (s : N * N) : N * N :=
  let '(R, L) := s in
  let L := xor L (feal_key32 K (rounds + 6)) in
  let R := xor R (feal_key32 K (rounds + 4)) in
  let L := xor L R in
  let '(L, R) := fold_left (feal_dec_round K) (rev (seq 1 rounds)) (L, R) in
  let R := xor R L in
  let L := xor L (feal_key32 K rounds) in
  let R := xor R (feal_key32 K (rounds + 2)) in
  (L, R).

(* src/kryptos_feal.c:47-92; the int is converted to a 64-bit size_t before the checks (lines 68-80) *)
Definition feal (rounds : option Z) : blockcipher :=
  {| bc_id := FEAL; bc_bs := 8;
     bc_check := fun _ =>
       match rounds with
       | None => Done InvalidParams
       | Some r => let u := Z.to_N (r mod 2 ^ 64) in
                   if 801 - 8 <=? u then Done InvalidParams
                   else if u <? 1 then Done InvalidParams else Done Success
       end;
     bc_enc := fun key => match rounds with
                          | Some r => blk_be 4 2 (on2 (feal_encrypt_words (Z.to_nat r) (feal_expand_key (Z.to_nat r) key)))
                          | None => fun x => x
                          end;
     bc_dec := fun key => match rounds with
                          | Some r => blk_be 4 2 (on2 (feal_decrypt_words (Z.to_nat r) (feal_expand_key (Z.to_nat r) key)))
                          | None => fun x => x
                          end;
     bc_gcm := GcmNoSupport |}.
