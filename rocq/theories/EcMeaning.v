(* Which points and curves of the specification the values of the library stand for. *)
From Verif Require Import Words MpModel MpSpec EcModel EcSpec.
From Coq Require Import Znumtheory.
Open Scope Z_scope.

(* the curve has an odd prime p below 2^64, and (0, 0), which the library takes for the point at infinity, is not on it *)
Definition small_curve (c : curve) : Prop :=
  well_formed (cp c) /\ neg (cp c) = false /\ length (data (cp c)) = 1%nat /\ prime (value (cp c)) /\ value (cp c) <> 2 /\ normal (ca c) /\ value (cb c) mod value (cp c) <> 0.
(* the pair m stands for the point P *)
Definition stands (m : pt) (P : point) : Prop :=
  well_formed (px m) /\ well_formed (py m) /\ neg (px m) = false /\ neg (py m) = false /\
  match P with Inf => value (px m) = 0 /\ value (py m) = 0 | Aff x y => value (px m) = x /\ value (py m) = y end.
Definition is_on (c : curve) (P : point) : Prop := on_curve (value (cp c)) (value (ca c)) (value (cb c)) P.
(* domain parameters: G stands for the point g of the odd prime order q *)
Record domain (c : curve) (G : pt) (q : mp) (g : point) : Prop := mkDom {
  dm_c : small_curve c; dm_a : well_formed (ca c) /\ neg (ca c) = false; dm_b : well_formed (cb c) /\ neg (cb c) = false;
  dm_g : stands G g; dm_on : on_curve (value (cp c)) (value (ca c)) (value (cb c)) g;
  dm_n : well_formed q /\ neg q = false; dm_1 : length (data q) = 1%nat; dm_prime : prime (Z.of_N (magnitude q)); dm_odd : magnitude q <> 2%N;
  dm_order : times (value (cp c)) (value (ca c)) g (N.to_nat (magnitude q)) Inf;
  dm_assoc : associative (value (cp c)) (value (ca c)) (value (cb c)) }.
