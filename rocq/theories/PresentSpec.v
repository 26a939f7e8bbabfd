(* PRESENT (Bogdanov et al., CHES 2007) over numbers: the state of 64 bits and the key register of 80 or 128 bits, bit 0 the least significant. *)
From Verif Require Import Words.
Open Scope N_scope.

Definition S4 (x : N) : N := nth (N.to_nat x) [0xC; 5; 6; 0xB; 9; 0; 0xA; 0xD; 3; 0xE; 0xF; 8; 4; 7; 1; 2] 0.
Definition total (l : list N) : N := fold_right N.add 0 l.
(* every nibble through S *)
Definition sBoxLayer (s : N) : N := total (map (fun i => S4 (s / 2 ^ (4 * i) mod 16) * 2 ^ (4 * i)) (range 16)).
(* bit i moves to position P(i) = 16 i mod 63, P(63) = 63 *)
Definition P (i : N) : N := if i =? 63 then 63 else (16 * i) mod 63.
Definition pLayer (s : N) : N := total (map (fun i => N.b2n (N.testbit s i) * 2 ^ P i) (range 64)).

(* the key register turned left by one bit; w = its size *)
Definition turn (w K : N) : N := (2 * K) mod 2 ^ w + K / 2 ^ (w - 1).
(* S on the four bits whose lowest is bit p *)
Definition S_at (p K : N) : N := K / 2 ^ (p + 4) * 2 ^ (p + 4) + S4 (K / 2 ^ p mod 16) * 2 ^ p + K mod 2 ^ p.
(* 80 bits: turn by 61, S on the leftmost nibble, counter on bits 19..15 *)
Definition update80 (i : N) (K : N) : N := N.lxor (S_at 76 (Nat.iter 61 (turn 80) K)) (i * 2 ^ 15).
(* 128 bits: turn by 61, S on the two leftmost nibbles, counter on bits 66..62 *)
Definition update128 (i : N) (K : N) : N := N.lxor (S_at 120 (S_at 124 (Nat.iter 61 (turn 128) K))) (i * 2 ^ 62).

(* the register for round key 1, 2, ...; a round key is the 64 leftmost bits *)
Fixpoint register (update : N -> N -> N) (n : nat) (K : N) : N :=
  match n with O => K | S m => update (N.of_nat (S m)) (register update m K) end.
Definition round (k : nat -> N) (s : N) (i : nat) : N := pLayer (sBoxLayer (N.lxor s (k i))).
Definition encrypt (k : nat -> N) (s : N) : N := N.lxor (fold_left (round k) (seq 0 31) s) (k 31%nat).
Definition PRESENT80 (key block : list N) : list N :=
  be_bytes 8 (encrypt (fun i => register update80 i (be_val key) / 2 ^ 16) (be_val block)).
Definition PRESENT128 (key block : list N) : list N :=
  be_bytes 8 (encrypt (fun i => register update128 i (be_val key) / 2 ^ 64) (be_val block)).
