(* RFC 2104, RFC 5869, RFC 8018 and RFC 4226, over an arbitrary hash function H. *)
From Verif Require Import Words.
Open Scope N_scope.

Definition xor_with (c : N) (l : list N) : list N := map (fun x => N.lxor x c) l.
(* RFC 2104 section 2; B is the block size of H in bytes *)
Definition HMAC (H : list N -> list N) (B : nat) (K text : list N) : list N :=
  let K0 := if (length K <=? B)%nat then K else H K in
  let K1 := K0 ++ repeat 0 (B - length K0) in
  H (xor_with 0x5C K1 ++ H (xor_with 0x36 K1 ++ text)).

(* RFC 5869 section 2: PRK = HMAC(salt, IKM); T(0) = empty, T(n) = HMAC(PRK, T(n-1) | info | n); OKM = first L octets of
   T(1) | T(2) | ... *)
Definition HKDF_extract (H : list N -> list N) (B : nat) (salt ikm : list N) : list N := HMAC H B salt ikm.
Fixpoint HKDF_T (H : list N -> list N) (B : nat) (PRK info : list N) (n : nat) : list N :=
  match n with
  | O => []
  | S m => HMAC H B PRK (HKDF_T H B PRK info m ++ info ++ [N.of_nat n])
  end.
Definition HKDF_expand (H : list N -> list N) (B : nat) (PRK info : list N) (L : nat) : list N :=
  firstn L (concat (map (HKDF_T H B PRK info) (seq 1 L))).
Definition HKDF (H : list N -> list N) (B : nat) (salt ikm info : list N) (L : nat) : list N :=
  HKDF_expand H B (HKDF_extract H B salt ikm) info L.

(* RFC 8018 section 5.2: U_1 = PRF(P, S | INT(i)), U_j = PRF(P, U_{j-1}); F = U_1 xor ... xor U_c; DK = first dkLen octets of
   F(1) | F(2) | ... *)
Fixpoint U (PRF : list N -> list N -> list N) (P S : list N) (i : N) (j : nat) : list N :=
  match j with
  | O => PRF P (S ++ be_bytes 4 i)
  | Datatypes.S j => PRF P (U PRF P S i j)
  end.
Fixpoint xor_all (l : list (list N)) (acc : list N) : list N :=
  match l with [] => acc | u :: l => xor_all l (xorl acc u) end.
Definition F (PRF : list N -> list N -> list N) (P S : list N) (c : nat) (i : N) : list N :=
  xor_all (map (U PRF P S i) (seq 1 (c - 1))) (U PRF P S i 0).
Definition PBKDF2 (PRF : list N -> list N -> list N) (P S : list N) (c dkLen : nat) : list N :=
  firstn dkLen (concat (map (fun i => F PRF P S c (N.of_nat i)) (seq 1 dkLen))).

(* RFC 4226 section 5.3: the offset is the low four bits of the last byte; four bytes from there, without the top bit, modulo
   10^Digit *)
Definition truncate (HS : list N) : N :=
  let offset := N.to_nat (last HS 0 mod 16) in
  be_val (firstn 4 (skipn offset HS)) mod 2 ^ 31.
Definition HOTP (H : list N -> list N) (B : nat) (K : list N) (digits C : N) : N :=
  truncate (HMAC H B K (be_bytes 8 C)) mod 10 ^ digits.
