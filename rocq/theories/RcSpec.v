(* RC5-32/r/b (Rivest, FSE 1994) and RC6-32/r/b (Rivest, Robshaw, Sidney, Yin, 1998) over numbers modulo 2^32; arrays are functions of the index. A key whose size is no multiple of four is filled up with zero bytes. *)
From Verif Require Import Words.
Open Scope N_scope.

Definition P32 : N := 0xB7E15163.
Definition Q32 : N := 0x9E3779B9.
(* x <<< n: the rotation by the low five bits of n *)
Definition rol (x n : N) : N := (x * 2 ^ (n mod 32)) mod 2 ^ 32 + x / 2 ^ (32 - n mod 32).
Definition sum (x y : N) : N := (x + y) mod 2 ^ 32.
Definition word_of (l : list N) (i : nat) : N := le_val (firstn 4 (skipn (4 * i) l)).
Definition put (f : nat -> N) (i : nat) (v : N) : nat -> N := fun n => if Nat.eqb n i then v else f n.

(* step number k (from 0) of the mixing loop on W (the S of the papers), L, A, B *)
Definition mix (t c k : nat) (st : (nat -> N) * (nat -> N) * N * N) : (nat -> N) * (nat -> N) * N * N :=
  let '(W, L, A, B) := st in
  let i := Nat.modulo k t in
  let j := Nat.modulo k c in
  let A := rol (sum (W i) (A + B)) 3 in
  let B' := rol (sum (L j) (A + B)) (A + B) in
  (put W i A, put L j B', A, B').
Fixpoint mixed (t c n : nat) (st : (nat -> N) * (nat -> N) * N * N) :=
  match n with O => st | S m => mix t c m (mixed t c m st) end.
(* the t words of the expanded key *)
Definition expanded (t : nat) (key : list N) : nat -> N :=
  let c := Nat.div (length key + 3) 4 in
  let '(W, _, _, _) := mixed t c (3 * Nat.max t c) (fun i => (P32 + N.of_nat i * Q32) mod 2 ^ 32, word_of key, 0, 0) in W.

Definition RC5_round (W : nat -> N) (s : N * N) (i : nat) : N * N :=
  let '(A, B) := s in
  let A := sum (rol (N.lxor A B) B) (W (2 * i)%nat) in
  let B := sum (rol (N.lxor B A) A) (W (2 * i + 1)%nat) in
  (A, B).
Definition RC5 (r : nat) (key block : list N) : list N :=
  let W := expanded (2 * r + 2) key in
  let '(A, B) := fold_left (RC5_round W) (seq 1 r) (sum (word_of block 0) (W 0%nat), sum (word_of block 1) (W 1%nat)) in
  le_bytes 4 A ++ le_bytes 4 B.

Definition quad (x : N) : N := rol ((x * (2 * x + 1)) mod 2 ^ 32) 5.
Definition RC6_round (W : nat -> N) (s : N * N * N * N) (i : nat) : N * N * N * N :=
  let '(A, B, C, D) := s in
  let t := quad B in
  let u := quad D in
  (B, sum (rol (N.lxor C u) t) (W (2 * i + 1)%nat), D, sum (rol (N.lxor A t) u) (W (2 * i)%nat)).
Definition RC6 (r : nat) (key block : list N) : list N :=
  let W := expanded (2 * r + 4) key in
  let '(A, B, C, D) := fold_left (RC6_round W) (seq 1 r)
      (word_of block 0, sum (word_of block 1) (W 0%nat), word_of block 2, sum (word_of block 3) (W 1%nat)) in
  le_bytes 4 (sum A (W (2 * r + 2)%nat)) ++ le_bytes 4 B ++ le_bytes 4 (sum C (W (2 * r + 3)%nat)) ++ le_bytes 4 D.
