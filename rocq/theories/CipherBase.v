(* Shared pieces of the block cipher models: bytes to words and back, and loading the user key. *)
From Verif Require Import Words.
Open Scope N_scope.

(* the operators of C on kryptos_u32_t and kryptos_u16_t *)
Notation xor := N.lxor.
Notation and := N.land.
Notation or := N.lor.
Notation add32 := (addw 32).
Notation sub32 := (subw 32).
Notation mul32 := (mulw 32).
Notation shl32 := (shlw 32).
Notation shr := N.shiftr.
Notation rotl32 := (rotl 32).
Notation rotr32 := (rotr 32).
Notation add16 := (addw 16).
Notation sub16 := (subw 16).
Notation add8 := (addw 8).
Notation sub8 := (subw 8).

(* n bytes of l from index i *)
Definition slice (l : list N) (i n : nat) : list N := firstn n (skipn i l).

(* C: block bytes shifted and or-ed into words, most significant byte first, e.g.
   src/kryptos_endianness_utils.c:22-39 kryptos_get_u32_as_big_endian; and the converse store,
   src/kryptos_endianness_utils.c:45-60 kryptos_cpy_u32_as_big_endian. wb = bytes per word. *)
Definition load_be (wb n : nat) (l : list N) : list N :=
  map (fun i => be_val (slice l (i * wb) wb)) (seq 0 n).
Definition store_be (wb : nat) (ws : list N) : list N := concat (map (be_bytes wb) ws).

(* the same, least significant byte first *)
Definition load_le (wb n : nat) (l : list N) : list N :=
  map (fun i => le_val (slice l (i * wb) wb)) (seq 0 n).
Definition store_le (wb : nat) (ws : list N) : list N := concat (map (le_bytes wb) ws).

(* A C block function: load n words of wb bytes from the block, transform them, store them back *)
Definition blk_be (wb n : nat) (f : list N -> list N) (x : list N) : list N :=
  store_be wb (f (load_be wb n x)).
Definition blk_le (wb n : nat) (f : list N -> list N) (x : list N) : list N :=
  store_le wb (f (load_le wb n x)).

(* functions of 2 or 4 local variables as functions of lists *)
Definition on2 (f : N * N -> N * N) (ws : list N) : list N :=
  match ws with
  | [a; b] => let '(c, d) := f (a, b) in [c; d]
  | _ => ws
  end.
Definition on4 (f : N * N * N * N -> N * N * N * N) (ws : list N) : list N :=
  match ws with
  | [a; b; c; d] => let '(a', b', c', d') := f (a, b, c, d) in [a'; b'; c'; d']
  | _ => ws
  end.

(* a[i] = v *)
Fixpoint upd (l : list N) (i : nat) (v : N) : list N :=
  match l, i with
  | [], _ => []
  | _ :: r, O => v :: r
  | a :: r, S j => a :: upd r j v
  end.

(* src/kryptos.h:155-165 kryptos_ld_user_key_byte: state of wb-byte words, word index w, byte index b *)
Definition ld_user_key_byte (wb nr : nat) (s : list N * nat * nat) (k : N) : list N * nat * nat :=
  let '(st, w, b) := s in
  let st' := if Nat.ltb w nr then upd st w (N.lor (shlw (8 * N.of_nat wb) (nth w st 0) 8) k) else st in
  let b' := Nat.modulo (b + 1) wb in
  (st', if Nat.eqb b' 0 then S w else w, b').

(* src/kryptos.h:143-185 kryptos_ld_user_key_prologue, the calls of kryptos_ld_user_key_byte (calls
   of them, so at most that many bytes of the key are used), kryptos_ld_user_key_epilogue. The
   epilogue shifts a partial last word left by 8 * (number of its bytes): what the code does. *)
Definition ld_user_key (wb nr calls : nat) (key : list N) : list N :=
  match key with
  | [] => repeat 0 nr
  | _ =>
      let '(st, w, b) := fold_left (ld_user_key_byte wb nr) (firstn calls key) (repeat 0 nr, 0%nat, 0%nat) in
      if Nat.ltb w nr
      then upd st w (shlw (8 * N.of_nat wb) (nth w st 0) (8 * N.of_nat b))
      else st
  end.

(* the list whose entries are the entries p of s *)
Definition perm (p : list nat) (s : list N) : list N := map (fun i => nth i s 0) p.
