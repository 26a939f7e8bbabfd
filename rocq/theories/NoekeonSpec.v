(* NOEKEON (Daemen, Peeters, Van Assche, Rijmen, Nessie proposal 2000) over four words of 32 bits, in direct and in indirect key mode. *)
From Verif Require Import Words.
Open Scope N_scope.

Definition state : Type := N * N * N * N.
Definition rol (x n : N) : N := (x * 2 ^ n) mod 2 ^ 32 + x / 2 ^ (32 - n).
(* Gamma: the S-box on each of the 32 columns of four bits, a0 the lowest *)
Definition Sb (x : N) : N := nth (N.to_nat x) [7; 0xA; 2; 0xC; 4; 8; 0xF; 0; 5; 9; 1; 0xE; 3; 0xD; 0xB; 6] 0.
Definition column (s : state) (j : N) : N :=
  let '(a0, a1, a2, a3) := s in
  N.b2n (N.testbit a0 j) + 2 * N.b2n (N.testbit a1 j) + 4 * N.b2n (N.testbit a2 j) + 8 * N.b2n (N.testbit a3 j).
Definition from_bits (f : N -> bool) : N := fold_right (fun j v => N.lor (N.shiftl (N.b2n (f j)) j) v) 0 (range 32).
Definition Gamma (s : state) : state :=
  let row i := from_bits (fun j => N.testbit (Sb (column s j)) i) in (row 0, row 1, row 2, row 3).
(* Theta: x + (x >>> 8) + (x <<< 8) of the sum of the even words goes to the odd ones, the key is added, and the other way round *)
Definition spread (x : N) : N := N.lxor x (N.lxor (rol x 24) (rol x 8)).
Definition Theta (k s : state) : state :=
  let '(k0, k1, k2, k3) := k in
  let '(a0, a1, a2, a3) := s in
  let e := spread (N.lxor a0 a2) in
  let '(b0, b1, b2, b3) := (N.lxor a0 k0, N.lxor (N.lxor a1 e) k1, N.lxor a2 k2, N.lxor (N.lxor a3 e) k3) in
  let o := spread (N.lxor b1 b3) in
  (N.lxor b0 o, b1, N.lxor b2 o, b3).
Definition Pi1 (s : state) : state := let '(a0, a1, a2, a3) := s in (a0, rol a1 1, rol a2 5, rol a3 2).
Definition Pi2 (s : state) : state := let '(a0, a1, a2, a3) := s in (a0, rol a1 31, rol a2 27, rol a3 30).
(* the round constants 0x80 x^i in GF(2^8) modulo x^8 + x^4 + x^3 + x + 1 *)
Fixpoint constant (i : nat) : N :=
  match i with
  | O => 0x80
  | S m => let c := 2 * constant m in if c <? 256 then c else N.lxor c 0x11B
  end.
Definition add_constant (i : nat) (s : state) : state := let '(a0, a1, a2, a3) := s in (N.lxor a0 (constant i), a1, a2, a3).
Definition Round (k : state) (s : state) (i : nat) : state := Pi2 (Gamma (Pi1 (Theta k (add_constant i s)))).
Definition Noekeon (k s : state) : state := Theta k (add_constant 16 (fold_left (Round k) (seq 0 16) s)).

Definition words_of (b : list N) : state :=
  (be_val (firstn 4 b), be_val (firstn 4 (skipn 4 b)), be_val (firstn 4 (skipn 8 b)), be_val (firstn 4 (skipn 12 b))).
Definition bytes_of (s : state) : list N := let '(a0, a1, a2, a3) := s in be_bytes 4 a0 ++ be_bytes 4 a1 ++ be_bytes 4 a2 ++ be_bytes 4 a3.
(* direct mode: the key is the working key; indirect mode: the working key is the key encrypted under the zero key *)
Definition Direct (key block : list N) : list N := bytes_of (Noekeon (words_of key) (words_of block)).
Definition Indirect (key block : list N) : list N := bytes_of (Noekeon (Noekeon (0, 0, 0, 0) (words_of key)) (words_of block)).
