(* The hash function WHIRLPOOL as in Barreto, Rijmen, "The WHIRLPOOL hashing function" (ISO/IEC 10118-3). A state is a matrix of 8 x 8
   bytes, kept row by row in a list of 64. *)
From Verif Require Import Words EncSpec HashSpec.
From Coq Require Import PeanoNat.
Open Scope N_scope.

Definition entry (a : list N) (i j : nat) : N := nth (8 * i + j) a 0.
Definition matrix (f : nat -> nat -> N) : list N := map (fun n => f (n / 8)%nat (n mod 8)%nat) (seq 0 64).

(* GF(2^8) with the polynomial x^8 + x^4 + x^3 + x^2 + 1 *)
Definition times_x (a : N) : N := if a <? 0x80 then 2 * a else N.lxor (2 * a) 0x11D.
Definition gf_mul (a b : N) : N :=
  fold_right N.lxor 0 (map (fun i => if N.testbit b (N.of_nat i) then Nat.iter i times_x a else 0) (seq 0 8)).

(* section 3.2: the substitution box from the mini-boxes E, its inverse, and R *)
Definition box_E : list N := [0x1; 0xB; 0x9; 0xC; 0xD; 0x6; 0xF; 0x3; 0xE; 0x8; 0x7; 0x4; 0xA; 0x2; 0x5; 0x0].
Definition box_R : list N := [0x7; 0xC; 0xB; 0xD; 0xE; 0x4; 0x9; 0xF; 0x6; 0x3; 0x8; 0xA; 0x2; 0x5; 0x1; 0x0].
Definition look (l : list N) (i : N) : N := nth (N.to_nat i) l 0.
Definition inverse_E (y : N) : N := match find (fun x => N.eqb (look box_E x) y) (map N.of_nat (seq 0 16)) with Some x => x | None => 0 end.
Definition S_box (x : N) : N :=
  let u := look box_E (x / 16) in let v := inverse_E (x mod 16) in let r := look box_R (N.lxor u v) in
  16 * look box_E (N.lxor u r) + inverse_E (N.lxor v r).

(* the layers: substitution, cyclical permutation of the columns, diffusion by a circulant matrix, key addition *)
Definition SubBytes (a : list N) : list N := matrix (fun i j => S_box (entry a i j)).
Definition ShiftColumns (a : list N) : list N := matrix (fun i j => entry a ((i + 8 - j) mod 8) j).
Definition circulant (k j : nat) : N := nth ((j + 8 - k) mod 8) [1; 1; 4; 1; 8; 5; 2; 9] 0.
Definition MixRows (a : list N) : list N :=
  matrix (fun i j => fold_right N.lxor 0 (map (fun k => gf_mul (entry a i k) (circulant k j)) (seq 0 8))).
Definition AddKey (k a : list N) : list N := matrix (fun i j => N.lxor (entry a i j) (entry k i j)).
Definition W_round (k a : list N) : list N := AddKey k (MixRows (ShiftColumns (SubBytes a))).
(* round constants, r = 1 .. 10 *)
Definition W_const (r : nat) : list N := matrix (fun i j => if Nat.eqb i 0 then S_box (N.of_nat (8 * (r - 1) + j)) else 0).
Fixpoint W_key (k : list N) (r : nat) : list N := match r with O => k | S r' => W_round (W_const r) (W_key k r') end.
(* the block cipher W, the compression (Miyaguchi-Preneel), the hash: 256 bits of length *)
Definition W (k a : list N) : list N := fold_left (fun s r => W_round (W_key k r) s) (seq 1 10) (AddKey k a).
Definition W_block (h m : list N) : list N := AddKey m (AddKey h (W h m)).
Definition WHIRLPOOL (m : list N) : list N := iterate 64 W_block (repeat 0 64) (pad_be 64 32 m).
