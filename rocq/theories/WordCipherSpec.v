(* TEA (Wheeler, Needham 1994), XTEA (Needham, Wheeler 1997) and IDEA (Lai 1992) as published: arithmetic on numbers modulo 2^32, 2^16 and 2^16+1. *)
From Verif Require Import Words.
Open Scope N_scope.

(* the i-th word of k bytes of a string, most significant byte first *)
Definition be_word (k : nat) (l : list N) (i : nat) : N := be_val (firstn k (skipn (i * k) l)).

(* ---------------------------------------------------------- TEA, XTEA *)
Definition M32 : N := 2 ^ 32.
Definition delta : N := 0x9E3779B9.
(* cycle n = 1, 2, ...: the sum has n times delta *)
Definition TEA_cycle (k : nat -> N) (v : N * N) (n : nat) : N * N :=
  let sum := (N.of_nat n * delta) mod M32 in
  let mixed z k0 k1 := N.lxor (N.lxor (((z * 2 ^ 4) mod M32 + k0) mod M32) ((z + sum) mod M32)) ((z / 2 ^ 5 + k1) mod M32) in
  let y := (fst v + mixed (snd v) (k 0%nat) (k 1%nat)) mod M32 in
  let z := (snd v + mixed y (k 2%nat) (k 3%nat)) mod M32 in
  (y, z).
Definition TEA (key block : list N) : list N :=
  let v := fold_left (TEA_cycle (be_word 4 key)) (seq 1 32) (be_word 4 block 0, be_word 4 block 1) in
  be_bytes 4 (fst v) ++ be_bytes 4 (snd v).

Definition XTEA_cycle (k : nat -> N) (v : N * N) (n : nat) : N * N :=
  let sum i := (N.of_nat i * delta) mod M32 in
  let mixed z s j := N.lxor ((N.lxor ((z * 2 ^ 4) mod M32) (z / 2 ^ 5) + z) mod M32) ((s + k (N.to_nat j)) mod M32) in
  let y := (fst v + mixed (snd v) (sum (n - 1)%nat) (sum (n - 1)%nat mod 4)) mod M32 in
  let z := (snd v + mixed y (sum n) ((sum n / 2 ^ 11) mod 4)) mod M32 in
  (y, z).
Definition XTEA (cycles : nat) (key block : list N) : list N :=
  let v := fold_left (XTEA_cycle (be_word 4 key)) (seq 1 cycles) (be_word 4 block 0, be_word 4 block 1) in
  be_bytes 4 (fst v) ++ be_bytes 4 (snd v).

(* --------------------------------------------------------------- IDEA *)
(* multiplication modulo 2^16 + 1, the word 0 standing for 2^16 *)
Definition omul (x y : N) : N :=
  let v a := if a =? 0 then 2 ^ 16 else a in ((v x * v y) mod (2 ^ 16 + 1)) mod 2 ^ 16.
Definition oadd (x y : N) : N := (x + y) mod 2 ^ 16.
(* the 128-bit key turned left by 25 bits after every eight sub-keys *)
Definition turn (K : N) : N := (2 * K) mod 2 ^ 128 + K / 2 ^ 127.
Definition subkey (K : N) (i : nat) : N :=
  (Nat.iter (25 * (i / 8)) turn K / 2 ^ (16 * (7 - N.of_nat (i mod 8)))) mod 2 ^ 16.
(* one of the eight rounds, with sub-keys z 0 ... z 5; the two middle words change places *)
Definition IDEA_round (z : nat -> N) (x : N * N * N * N) : N * N * N * N :=
  let '(x1, x2, x3, x4) := x in
  let a := omul x1 (z 0%nat) in let b := oadd x2 (z 1%nat) in let c := oadd x3 (z 2%nat) in let d := omul x4 (z 3%nat) in
  let e := omul (N.lxor a c) (z 4%nat) in
  let f := omul (oadd (N.lxor b d) e) (z 5%nat) in
  let g := oadd e f in
  (N.lxor a f, N.lxor c f, N.lxor b g, N.lxor d g).
Definition IDEA (key block : list N) : list N :=
  let z := subkey (be_val key) in
  let x := fold_left (fun x r => IDEA_round (fun j => z (6 * r + j)%nat) x) (seq 0 8)
             (be_word 2 block 0, be_word 2 block 1, be_word 2 block 2, be_word 2 block 3) in
  let '(x1, x2, x3, x4) := x in
  (* the last exchange is undone *)
  be_bytes 2 (omul x1 (z 48%nat)) ++ be_bytes 2 (oadd x3 (z 49%nat)) ++ be_bytes 2 (oadd x2 (z 50%nat)) ++ be_bytes 2 (omul x4 (z 51%nat)).
