(* Small helpers: bounded random numbers, byte order, djb2, powers of two, release of memory. *)
From Verif Require Import Words CipherBase MpModel.
Open Scope N_scope.

(* ------------------------------------------------------------------ bounded random numbers *)
(* the or of shifted bytes in src/kryptos_random.c:30, 41, 53-55, 84-91: the k bytes returned by the calls of
   kryptos_get_random_byte, taken from left to right (C leaves the order of the calls open; another order permutes the bytes) *)
Definition drawn (k : nat) (raw : nat -> N) (at_ : nat) : N :=
  fold_left (fun r i => or r (N.shiftl (raw (at_ + i)%nat) (8 * N.of_nat (k - 1 - i)))) (seq 0 k) 0.
(* src/kryptos_random.c:26-35 (k = 1), 37-47 (k = 2), 49-61 (k = 4), 80-96 (k = 8, user mode) kryptos_unbiased_rand_mod_u8/u16/u32/u64:
   do draw while (r >= MAX - (MAX % n)); r %= n. raw is the stream of random bytes, at_ the next one; None: the fuel is used up
   and the loop still runs. The second component counts the bytes consumed so far. *)
Fixpoint rand_loop (fuel k : nat) (n : N) (raw : nat -> N) (at_ : nat) : option (N * nat) :=
  match fuel with
  | O => None
  | S f =>
      let r := drawn k raw at_ in
      let max := 2 ^ (8 * N.of_nat k) - 1 in
      if max - max mod n <=? r then rand_loop f k n raw (at_ + k) else Some (r mod n, (at_ + k)%nat)
  end.
(* the first evaluation of MAX % n divides by zero when n is 0 *)
Definition rand_mod (fuel k : nat) (n : N) (raw : nat -> N) : outcome (option (N * nat)) :=
  if n =? 0 then UB else Done (rand_loop fuel k n raw 0).

(* ------------------------------------------------------------------------------ byte order *)
(* src/kryptos_endianness_utils.c on a little endian processor (kryptos_little_endian_cpu, 13-20, returns 1). data is the
   buffer, data_size its size. *)
(* 22-39 *)
Definition get_u32_be (d : list N) : N :=
  if Nat.ltb (length d) 4 then 0
  else or (or (or (N.shiftl (nth 0 d 0) 24) (N.shiftl (nth 1 d 0) 16)) (N.shiftl (nth 2 d 0) 8)) (nth 3 d 0).
(* src/kryptos_endianness_utils.h:17 kryptos_u32_rev *)
Definition u32_rev (w : N) : N :=
  or (or (or (shlw 32 w 24) (shlw 32 (and w 0x0000FF00) 8)) (N.shiftr (and w 0x00FF0000) 8)) (N.shiftr w 24).
(* 41-43 *)
Definition get_u32_le (d : list N) : N := u32_rev (get_u32_be d).
(* 45-60; None: NULL is returned and nothing is written *)
Definition cpy_u32_be (d : list N) (v : N) : option (list N) :=
  if Nat.ltb (length d) 4 then None
  else Some (upd (upd (upd (upd d 0 (and (N.shiftr v 24) 0xFF)) 1 (and (N.shiftr v 16) 0xFF)) 2 (and (N.shiftr v 8) 0xFF)) 3 (and v 0xFF)).
(* 62-64 *)
Definition cpy_u32_le (d : list N) (v : N) : option (list N) := cpy_u32_be d (u32_rev v).
(* 66-81; the or is computed as an int, which cannot overflow *)
Definition get_u16_be (d : list N) : N :=
  if Nat.ltb (length d) 2 then 0 else or (N.shiftl (nth 0 d 0) 8) (nth 1 d 0).
(* 83-96 *)
Definition cpy_u16_be (d : list N) (v : N) : option (list N) :=
  if Nat.ltb (length d) 2 then None else Some (upd (upd d 0 (and (N.shiftr v 8) 0xFF)) 1 (and v 0xFF)).
(* 98-117 *)
Definition cpy_u64_be (d : list N) (v : N) : option (list N) :=
  if Nat.ltb (length d) 8 then None
  else Some (fold_left (fun d i => upd d i (and (N.shiftr v (8 * N.of_nat (7 - i))) 0xFF)) (seq 0 8) d).
(* 119-140 *)
Definition get_u64_be (d : list N) : N :=
  if Nat.ltb (length d) 8 then 0
  else fold_left (fun v i => or v (N.shiftl (nth i d 0) (8 * N.of_nat (7 - i)))) (seq 0 8) 0.
(* src/kryptos_endianness_utils.h:19-26 kryptos_u64_rev *)
Definition u64_rev (w : N) : N :=
  or (or (or (or (or (or (or (shlw 64 w 56)
    (shlw 64 (and w 0x000000000000FF00) 40))
    (shlw 64 (and w 0x0000000000FF0000) 24))
    (shlw 64 (and w 0x00000000FF000000) 8))
    (N.shiftr (and w 0x000000FF00000000) 8))
    (N.shiftr (and w 0x0000FF0000000000) 24))
    (N.shiftr (and w 0x00FF000000000000) 40))
    (N.shiftr w 56).
(* 142-144 *)
Definition get_u64_le (d : list N) : N := u64_rev (get_u64_be d).

(* ---------------------------------------------------------------------------- hexadecimal *)
(* src/kryptos_hex.c:16-41 kryptos_u8_ptr_to_hex with o_size != NULL: hex digits without the final NUL; None: NULL *)
Definition hex_lt (n : N) : N := nthN [48; 49; 50; 51; 52; 53; 54; 55; 56; 57; 65; 66; 67; 68; 69; 70] n.
Definition u8_ptr_to_hex (l : list N) : option (list N) :=
  match l with [] => None | _ => Some (concat (map (fun b => [hex_lt (N.shiftr b 4); hex_lt (and b 0xF)]) l)) end.

(* ------------------------------------------------------------------------------------ djb2 *)
(* src/kryptos_djb2.c:10-27 kryptos_djb2_hash; None is a NULL buffer *)
Definition djb2 (d : option (list N)) : N :=
  match d with
  | None => 5381
  | Some l => fold_left (fun s b => addw 64 (addw 64 (shlw 64 s 5) s) b) l 5381
  end.

(* -------------------------------------------------------------------------- powers of two *)
(* src/kryptos_pw2.c:16-51 kryptos_pw2_lt: 31 powers, then 224 times KRYPTOS_PW2_NAN *)
Definition pw2_lt : list Z :=
  [1; 2; 4; 8; 16; 32; 64; 128; 256; 512; 1024; 2048; 4096; 8192; 16384; 32768; 65536; 131072; 262144; 524288; 1048576; 2097152;
   4194304; 8388608; 16777216; 33554432; 67108864; 134217728; 268435456; 536870912; 1073741824]%Z ++ repeat (-2147483648)%Z 224.
(* src/kryptos_pw2.c:55-57 kryptos_pw2: the int is converted to size_t before the remainder is taken; None: read out of the table *)
Definition pw2 (e : Z) : option Z := nth_error pw2_lt (Z.to_nat ((e mod 2 ^ 64) mod 255)).

(* ------------------------------------------------------------------------ release of memory *)
(* src/kryptos_memory.c:123-177 kryptos_freeseg on a block with the bytes m: what the block holds when it is handed back to the
   allocator. The write of 255s (line 136) is overwritten; the build with the FREAK_PARANOID macro is not modelled. UB: more
   bytes written than the block has. *)
Definition freeseg (m : list N) (ssize : nat) : outcome (list N) :=
  if Nat.ltb (length m) ssize then UB else Done (repeat 0 ssize ++ skipn ssize m).
(* the bytes of the digits in memory, on a little endian processor *)
Definition mp_memory (v : mp) : list N := concat (map (le_bytes 8) (data v)).
(* src/kryptos_mp.c:266-277 kryptos_del_mp_value: the digits are released with data_size, a number of digits *)
Definition del_mp_value (v : mp) : outcome (list N) := freeseg (mp_memory v) (length (data v)).
