(* AES as in FIPS 197: the field GF(2^8), the S-box from inversion and the affine map, the four transformations on the 4x4 state, the key expansion. *)
From Verif Require Import Words.
Open Scope N_scope.

(* 4.2: multiplication by x modulo x^8 + x^4 + x^3 + x + 1, and multiplication of polynomials *)
Definition xtime (b : N) : N := if b <? 128 then 2 * b else N.lxor (2 * b) 0x11B.
Definition gmul (a b : N) : N :=
  fold_left N.lxor (map (fun i => if N.testbit b (N.of_nat i) then Nat.iter i xtime a else 0) (seq 0 8)) 0.
(* 5.1.1: the inverse (b^254 = b^2 b^4 ... b^128, 0 for 0), then the affine transformation b_i + b_(i+4) + b_(i+5) + b_(i+6) + b_(i+7) + c_i with c = {63} *)
Definition gpow (b : N) (n : nat) : N := Nat.iter n (gmul b) 1.
Definition gsq (b : N) : N := gmul b b.
Definition ginv (b : N) : N := fold_left gmul (map (fun i => Nat.iter i gsq b) (seq 1 7)) 1.
Definition affine (b : N) : N :=
  fold_left N.lxor (map (fun i =>
    let bit k := N.testbit b ((N.of_nat i + k) mod 8) in
    if xorb (xorb (xorb (xorb (xorb (bit 0) (bit 4)) (bit 5)) (bit 6)) (bit 7)) (N.testbit 0x63 (N.of_nat i)) then 2 ^ N.of_nat i else 0) (seq 0 8)) 0.
Definition sbox (b : N) : N := affine (ginv b).

(* 3.4: the state s[r,c] is byte r + 4c of the block *)
Definition at_ (s : list N) (r c : nat) : N := nth (r + 4 * c) s 0.
Definition state (f : nat -> nat -> N) : list N := map (fun k => f (k mod 4)%nat (k / 4)%nat) (seq 0 16).
Definition SubBytes (s : list N) : list N := state (fun r c => sbox (at_ s r c)).
Definition ShiftRows (s : list N) : list N := state (fun r c => at_ s r ((c + r) mod 4)).
Definition MixColumns (s : list N) : list N :=
  state (fun r c => N.lxor (N.lxor (N.lxor (gmul (at_ s r c) 2) (gmul (at_ s ((r + 1) mod 4) c) 3)) (at_ s ((r + 2) mod 4) c)) (at_ s ((r + 3) mod 4) c)).
(* words are lists of four bytes; w = the expanded key *)
Definition AddRoundKey (w : list (list N)) (round : nat) (s : list N) : list N :=
  state (fun r c => N.lxor (at_ s r c) (nth r (nth (4 * round + c) w []) 0)).
Definition Cipher (Nr : nat) (w : list (list N)) (s : list N) : list N :=
  let s := AddRoundKey w 0 s in
  let s := fold_left (fun s round => AddRoundKey w round (MixColumns (ShiftRows (SubBytes s)))) (seq 1 (Nr - 1)) s in
  AddRoundKey w Nr (ShiftRows (SubBytes s)).

(* 5.2 *)
Definition xor4 (a b : list N) : list N := map (fun i => N.lxor (nth i a 0) (nth i b 0)) (seq 0 4).
Definition RotWord (a : list N) : list N := map (fun i => nth ((i + 1) mod 4) a 0) (seq 0 4).
Definition SubWord (a : list N) : list N := map (fun i => sbox (nth i a 0)) (seq 0 4).
Definition Rcon (j : nat) : list N := [gpow 2 (j - 1); 0; 0; 0].
Definition next_word (Nk : nat) (w : list (list N)) (i : nat) : list N :=
  let temp := nth (i - 1) w [] in
  let temp := if Nat.eqb (i mod Nk) 0 then xor4 (SubWord (RotWord temp)) (Rcon (i / Nk))
              else if Nat.ltb 6 Nk && Nat.eqb (i mod Nk) 4 then SubWord temp else temp in
  xor4 (nth (i - Nk) w []) temp.
Definition KeyExpansion (Nk Nr : nat) (key : list N) : list (list N) :=
  fold_left (fun w i => w ++ [next_word Nk w i]) (seq Nk (4 * (Nr + 1) - Nk)) (map (fun i => map (fun j => nth (4 * i + j) key 0) (seq 0 4)) (seq 0 Nk)).
Definition AES (Nk Nr : nat) (key block : list N) : list N := Cipher Nr (KeyExpansion Nk Nr key) block.
Definition AES128 := AES 4 10.
Definition AES192 := AES 6 12.
Definition AES256 := AES 8 14.
