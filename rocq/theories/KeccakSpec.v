(* FIPS 202: the permutation KECCAK-p[1600, 24], the sponge, SHA3-224 to SHA3-512, and the KECCAK hashes of the submission, which
   differ only in the missing suffix. Everything is in bits, as in the standard. *)
From Coq Require Import List Arith Bool NArith.
Import ListNotations.

(* 3.1.2, 3.1.3: A[x, y, z] = S[w (5y + x) + z], w = 64 *)
Definition array (S : list bool) (x y z : nat) : bool := nth (64 * (5 * y + x) + z) S false.
Definition string (A : nat -> nat -> nat -> bool) : list bool :=
  map (fun i => A (i / 64 mod 5) (i / 64 / 5) (i mod 64)) (seq 0 (1600)).
(* 3.2.1 *)
Definition Theta (A : nat -> nat -> nat -> bool) (x y z : nat) : bool :=
  let C x z := xorb (xorb (xorb (xorb (A x 0 z) (A x 1 z)) (A x 2 z)) (A x 3 z)) (A x 4 z) in
  let D x z := xorb (C ((x + 4) mod 5) z) (C ((x + 1) mod 5) ((z + 63) mod 64)) in
  xorb (A x y z) (D x z).
(* 3.2.2: the walk (1, 0), (0, 2), ... visits every (x, y) but (0, 0); step t rotates by (t + 1)(t + 2) / 2 *)
Definition place (t : nat) : nat * nat := Nat.iter t (fun '(x, y) => (y, (2 * x + 3 * y) mod 5)) (1, 0).
Definition offset (x y : nat) : nat :=
  match find (fun t => (fst (place t) =? x) && (snd (place t) =? y))%bool (seq 0 24) with Some t => (t + 1) * (t + 2) / 2 | None => 0 end.
Definition Rho (A : nat -> nat -> nat -> bool) (x y z : nat) : bool := A x y ((z + 64 - offset x y mod 64) mod 64).
(* 3.2.3 *)
Definition Pi (A : nat -> nat -> nat -> bool) (x y z : nat) : bool := A ((x + 3 * y) mod 5) x z.
(* 3.2.4 *)
Definition Chi (A : nat -> nat -> nat -> bool) (x y z : nat) : bool :=
  xorb (A x y z) (negb (A ((x + 1) mod 5) y z) && A ((x + 2) mod 5) y z).
(* 3.2.5: the shift register of 8 bits, R[0] first *)
Definition shift (R : list bool) : list bool :=
  match R with
  | [r0; r1; r2; r3; r4; r5; r6; r7] => [r7; r0; r1; r2; xorb r3 r7; xorb r4 r7; xorb r5 r7; r6]
  | _ => R
  end.
Definition rc (t : nat) : bool := nth 0 (Nat.iter (t mod 255) shift [true; false; false; false; false; false; false; false]) false.
(* the bits 2^j - 1 of RC, j = 0 .. 6; all others are 0 *)
Definition RC (ir z : nat) : bool := existsb (fun j => ((z =? 2 ^ j - 1) && rc (j + 7 * ir))%bool) (seq 0 7).
Definition Iota (ir : nat) (A : nat -> nat -> nat -> bool) (x y z : nat) : bool :=
  if ((x =? 0) && (y =? 0))%bool then xorb (A x y z) (RC ir z) else A x y z.
(* 3.3 *)
Definition Rnd (ir : nat) (A : nat -> nat -> nat -> bool) : nat -> nat -> nat -> bool := Iota ir (Chi (Pi (Rho (Theta A)))).
Definition KECCAK_p (S : list bool) : list bool := string (fold_left (fun A ir => Rnd ir A) (seq 0 24) (array S)).

(* 4 and 5.1: the sponge with rate r and pad10*1 *)
Definition pad10star1 (x m : nat) : list bool := [true] ++ repeat false ((x - (m + 2) mod x) mod x) ++ [true].
Fixpoint blocks (n r : nat) (P : list bool) : list (list bool) := match n with O => [] | S n => firstn r P :: blocks n r (skipn r P) end.
Definition xor_string (a b : list bool) : list bool := map (fun p => xorb (fst p) (snd p)) (combine a b).
Definition sponge (r : nat) (N : list bool) (d : nat) : list bool :=
  let P := N ++ pad10star1 r (length N) in
  let S := fold_left (fun S Pi => KECCAK_p (xor_string S (Pi ++ repeat false (1600 - r)))) (blocks (length P / r) r P) (repeat false 1600) in
  let Zs := map (fun i => firstn r (Nat.iter i KECCAK_p S)) (seq 0 ((d + r - 1) / r)) in
  firstn d (concat Zs).
(* 5.2, 6.1 *)
Definition SHA3 (d : nat) (M : list bool) : list bool := sponge (1600 - 2 * d) (M ++ [false; true]) d.
(* the hash of the KECCAK submission with the same parameters *)
Definition KECCAK (d : nat) (M : list bool) : list bool := sponge (1600 - 2 * d) M d.
(* B.1: the bits of a byte, least significant first *)
Definition bits_of (bytes : list N) : list bool := concat (map (fun b => map (fun i => N.testbit b (N.of_nat i)) (seq 0 8)) bytes).
