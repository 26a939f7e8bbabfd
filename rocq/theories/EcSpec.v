(* The curve y^2 = x^3 + a x + b over the integers modulo p and its chord and tangent law. *)
From Coq Require Import ZArith NArith Znumtheory.
Open Scope Z_scope.

Inductive point := Inf | Aff (x y : Z).
Definition on_curve (p a b : Z) (P : point) : Prop :=
  match P with Inf => True | Aff x y => 0 <= x < p /\ 0 <= y < p /\ (y * y) mod p = (x * x * x + a * x + b) mod p end.
(* P + Q = R. The slope is a number s with s (x1 - x2) = y1 - y2, for a tangent s (2 y) = 3 x^2 + a. *)
Inductive sum (p a : Z) : point -> point -> point -> Prop :=
| sum_inf_l : forall Q, sum p a Inf Q Q
| sum_inf_r : forall P, sum p a P Inf P
| sum_opposite : forall x y1 y2, (y1 + y2) mod p = 0 -> sum p a (Aff x y1) (Aff x y2) Inf
| sum_chord : forall s x1 y1 x2 y2 x3 y3, x1 <> x2 -> (s * (x1 - x2)) mod p = (y1 - y2) mod p ->
    x3 = (s * s - x1 - x2) mod p -> y3 = (s * (x1 - x3) - y1) mod p -> sum p a (Aff x1 y1) (Aff x2 y2) (Aff x3 y3)
| sum_tangent : forall s x y x3 y3, y <> 0 -> (s * (2 * y)) mod p = (3 * x * x + a) mod p ->
    x3 = (s * s - x - x) mod p -> y3 = (s * (x - x3) - y) mod p -> sum p a (Aff x y) (Aff x y) (Aff x3 y3).
(* R is made of n copies of P by point additions *)
Inductive multiple (p a : Z) (P : point) : N -> point -> Prop :=
| multiple_0 : multiple p a P 0 Inf
| multiple_1 : multiple p a P 1 P
| multiple_add : forall i j A B C, multiple p a P i A -> multiple p a P j B -> sum p a A B C -> multiple p a P (i + j) C.
(* P added to Inf n times *)
Inductive times (p a : Z) (P : point) : nat -> point -> Prop :=
| times_0 : times p a P O Inf
| times_S : forall n A B, times p a P n A -> sum p a A P B -> times p a P (S n) B.
(* the points of the curve have an associative sum, as those of every curve without a singular point do *)
Definition associative (p a b : Z) : Prop :=
  forall A B C AB BC R S, on_curve p a b A -> on_curve p a b B -> on_curve p a b C -> sum p a A B AB -> sum p a B C BC -> sum p a AB C R -> sum p a A BC S -> R = S.
