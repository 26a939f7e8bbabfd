(* SipHash-c-d as in "SipHash: a fast short-input PRF" (Aumasson, Bernstein), section 2. *)
From Verif Require Import Words.
Open Scope N_scope.

Definition plus (a b : N) : N := (a + b) mod 2 ^ 64.
Definition rot (a n : N) : N := (a * 2 ^ n) mod 2 ^ 64 + a / 2 ^ (64 - n).
Definition SipRound (v : N * N * N * N) : N * N * N * N :=
  let '(v0, v1, v2, v3) := v in
  let v0 := plus v0 v1 in              let v2 := plus v2 v3 in
  let v1 := rot v1 13 in               let v3 := rot v3 16 in
  let v1 := N.lxor v1 v0 in            let v3 := N.lxor v3 v2 in
  let v0 := rot v0 32 in
  let v2 := plus v2 v1 in              let v0 := plus v0 v3 in
  let v1 := rot v1 17 in               let v3 := rot v3 21 in
  let v1 := N.lxor v1 v2 in            let v3 := N.lxor v3 v0 in
  let v2 := rot v2 32 in
  (v0, v1, v2, v3).
(* the b-byte string m becomes w = ceil((b+1)/8) little-endian words; the last ends with the byte b mod 256 after null bytes *)
Definition sip_words (m : list N) : list N :=
  map le_val (chunks 8 (m ++ repeat 0 (7 - length m mod 8) ++ [N.of_nat (length m) mod 256])).
Definition compress (c : nat) (v : N * N * N * N) (m : N) : N * N * N * N :=
  let '(v0, v1, v2, v3) := v in
  let '(v0, v1, v2, v3) := Nat.iter c SipRound (v0, v1, v2, N.lxor v3 m) in
  (N.lxor v0 m, v1, v2, v3).
Definition SipHash (c d : nat) (k m : list N) : N :=
  let k0 := le_val (firstn 8 k) in
  let k1 := le_val (skipn 8 k) in
  let '(v0, v1, v2, v3) := fold_left (compress c) (sip_words m)
    (N.lxor k0 0x736f6d6570736575, N.lxor k1 0x646f72616e646f6d, N.lxor k0 0x6c7967656e657261, N.lxor k1 0x7465646279746573) in
  let '(v0, v1, v2, v3) := Nat.iter d SipRound (v0, v1, N.lxor v2 0xff, v3) in
  N.lxor (N.lxor (N.lxor v0 v1) v2) v3.

(* a key brought to 16 bytes: padded with zeros to a multiple of 16, the 16-byte pieces xored together *)
Definition key16 (key : list N) : list N :=
  fold_left xorl (chunks 16 (key ++ repeat 0 ((16 - length key mod 16) mod 16))) (repeat 0 16).
