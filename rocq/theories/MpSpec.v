(* What a multiprecision value stands for. *)
From Verif Require Import Words MpModel.
Open Scope N_scope.

(* the number with the digits l in base 2^64, the least significant first *)
Fixpoint in_base (l : list N) : N := match l with [] => 0 | d :: l => d + 2 ^ 64 * in_base l end.
Definition magnitude (a : mp) : N := in_base (data a).
Definition value (a : mp) : Z := if neg a then (- Z.of_N (magnitude a))%Z else Z.of_N (magnitude a).
(* a C object: at least one digit, all digits fit in 64 bits *)
Definition well_formed (a : mp) : Prop := data a <> [] /\ Forall (fun d => d < 2 ^ 64) (data a).
(* no negative zero *)
Definition normal (a : mp) : Prop := well_formed a /\ (neg a = true -> magnitude a <> 0).
(* no zero digit at the top *)
Definition trimmed_digits (a : mp) : Prop := last (data a) 0 <> 0.

(* Schoolbook division guesses each digit of the quotient from the two leading digits of what is left and the leading digit of the
   divisor, shifted so that it is at least half of the base. The guess is at most B - 1 unless the leading digits are equal. With n
   the number of digits of the divisor and 2^s the shift: they never are equal. *)
Definition no_equal_leads (x y : N) : Prop :=
  forall n s j : N, 2 <= n -> (2 ^ 64) ^ (n - 1) <= y -> (2 ^ 64) ^ n <= 2 * (2 ^ s * y) -> 2 ^ s * y < (2 ^ 64) ^ n ->
  2 ^ s * (x mod (y * (2 ^ 64) ^ (j + 1))) / (2 ^ 64) ^ (n + j) <> 2 ^ s * y / (2 ^ 64) ^ (n - 1).

(* hexadecimal digits, both cases, and the number a string of them denotes *)
Definition hex_char (c : N) : Prop := 48 <= c <= 57 \/ 65 <= c <= 70 \/ 97 <= c <= 102.
Definition hex_value (c : N) : N := if c <=? 57 then c - 48 else if c <=? 70 then c - 55 else c - 87.
Definition hex_number (l : list N) : N := fold_left (fun a c => a * 16 + hex_value c) l 0.
