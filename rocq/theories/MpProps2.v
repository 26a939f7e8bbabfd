(* Number theory over multiprecision values: properties C62-C64, C67, C96. *)
From Verif Require Import Words MpModel MpModel2 MpSpec MpProofs MpProofs2 MpProofs3 MpProofs4 MpProofs5 MpProofs6.
From Coq Require Import Znumtheory.
Open Scope N_scope.
Local Ltac wfok := lazymatch goal with
  | |- well_formed _ => split; [discriminate|repeat constructor]
  | |- trimmed_digits _ => vm_compute; discriminate
  | |- bytes _ => repeat constructor
  | |- _ /\ _ => split; wfok
  | |- _ <> _ => vm_compute; discriminate
  | |- _ => vm_compute; reflexivity
  end.

(* C62. The greatest common divisor of two positive values, after finitely many turns. *)
Theorem mp_gcd : forall a b, well_formed a -> well_formed b -> neg a = false -> neg b = false -> magnitude a <> 0 -> magnitude b <> 0 ->
  exists turns, forall fuel, (turns <= fuel)%nat -> exists g, gcd fuel a b = Done (Some g) /\ well_formed g /\ neg g = false /\ magnitude g = N.gcd (magnitude a) (magnitude b).
Proof. intros a b Wa Wb Na Nb A0 B0. exists (N.to_nat (magnitude a + magnitude b) + 1)%nat. intros fuel F. destruct (gcd_ok a b fuel (conj Wa Na) (conj Wb Nb) A0 B0 F) as (g & E & [Wg Ng] & V). exists g. repeat (split; [assumption|]). exact V. Qed.
(* with a zero it never ends, although gcd(a, 0) is a *)
Theorem mp_gcd_zero_refuted : forall a b fuel, well_formed a -> well_formed b -> neg a = false -> neg b = false -> magnitude a = 0 \/ magnitude b = 0 -> gcd fuel a b = Done None.
Proof. intros a b fuel Wa Wb Na Nb. apply gcd_zero; split; assumption. Qed.
Example mp_gcd_meets : let a := mkMp false [0; 6] in let b := mkMp false [9] in well_formed a /\ well_formed b /\ neg a = false /\ neg b = false /\ magnitude a <> 0 /\ magnitude b <> 0 /\ gcd 200 a b = Done (Some (mkMp false [3])).
Proof. cbv zeta. wfok. Qed.

(* C63. Odd moduli (of any size): the inverse below the modulus if there is one, 0 otherwise. *)
Theorem mp_inverse_odd : forall a m, well_formed a -> well_formed m -> neg a = false -> neg m = false -> N.odd (magnitude m) = true ->
  exists turns, forall fuel, (turns <= fuel)%nat -> exists r, modinv fuel a m = Done (Some r) /\ well_formed r /\ neg r = false /\ magnitude r < magnitude m /\
    (N.gcd (magnitude a) (magnitude m) = 1 -> magnitude r * magnitude a mod magnitude m = 1 mod magnitude m) /\ (N.gcd (magnitude a) (magnitude m) <> 1 -> magnitude r = 0).
Proof.
  intros a m Wa Wm Na Nm O. exists (N.to_nat (magnitude a + magnitude m) + 1)%nat. intros fuel F. unfold modinv. rewrite odd_ok, O by exact Wm. destruct (modinv_rs_ok a m fuel (conj Wa Na) (conj Wm Nm) O F) as (r & E & [Wr Nr] & L & G). exists r. repeat (split; [assumption|]). exact G.
Qed.
(* Even moduli: whatever is returned is right; for one-digit values something is returned. Missing: termination for larger even moduli,
   which is false, see mp_inverse_even_refuted. *)
Theorem mp_inverse_even_partial : forall fuel a m r, well_formed a -> well_formed m -> neg a = false -> neg m = false -> magnitude m <> 0 -> N.odd (magnitude m) = false -> modinv fuel a m = Done (Some r) ->
  well_formed r /\ neg r = false /\ magnitude r < magnitude m /\
    (N.gcd (magnitude a) (magnitude m) = 1 -> magnitude r * magnitude a mod magnitude m = 1 mod magnitude m) /\ (N.gcd (magnitude a) (magnitude m) <> 1 -> magnitude r = 0).
Proof. intros fuel a m r Wa Wm Na Nm M0 O E. destruct (modinv_even_ok fuel a m r (conj Wa Na) (conj Wm Nm) M0) as ([Wr Nr] & L & G); [rewrite odd_ok by exact Wm; exact O|exact E|]. repeat (split; [assumption|]). exact G. Qed.
Theorem mp_inverse_even_one_digit : forall a m, well_formed a -> well_formed m -> neg a = false -> neg m = false -> length (data a) = 1%nat -> length (data m) = 1%nat -> magnitude m <> 0 -> N.odd (magnitude m) = false ->
  exists turns, forall fuel, (turns <= fuel)%nat -> exists r, modinv fuel a m = Done (Some r).
Proof. intros a m Wa Wm Na Nm Sa Sm M0 O. exists (N.to_nat (magnitude m) + 2)%nat. intros fuel F. apply modinv_even_one; try assumption; try (split; assumption); [rewrite odd_ok by exact Wm; exact O|lia]. Qed.
(* the inverse of 3 modulo 2^256: the second division works on a divisor with zero digits on top, its quotient is 0 and 0 + 0 reads
   memory nobody wrote *)
Theorem mp_inverse_even_refuted : let a := num 3 in let m := mkMp false [0; 0; 0; 0; 1] in N.gcd (magnitude a) (magnitude m) = 1 /\ forall fuel, modinv (3 + fuel) a m = UB.
Proof. split; [vm_compute; reflexivity|]. intro fuel. vm_compute. reflexivity. Qed.
Example mp_inverse_meets : let a := mkMp false [10; 1] in let m := mkMp false [7; 0; 1] in well_formed a /\ well_formed m /\ neg a = false /\ neg m = false /\ N.odd (magnitude m) = true /\ N.gcd (magnitude a) (magnitude m) = 1 /\ length (data (num 7)) = 1%nat /\ N.odd (magnitude (num 40)) = false /\ modinv 20 (num 7) (num 40) = Done (Some (num 23)).
Proof. cbv zeta. wfok. Qed.

(* C64. Odd one-digit primes n: neither test ever answers "composite", whatever the random bytes are, provided that the number of squarings
   suffices: 2^(squarings + 2) does not divide n - 1. Missing: larger primes, and primes for which it does not suffice (refuted below).
   Done None: the random bytes or the fuel are used up. *)
Theorem miller_rabin_prime_partial : forall fuel n squarings rs, well_formed n -> neg n = false -> length (data n) = 1%nat -> prime (Z.of_N (magnitude n)) -> magnitude n <> 2 ->
  ~ N.divide (2 ^ N.of_nat (squarings + 2)) (magnitude n - 1) -> bytes rs ->
  miller_rabin fuel n squarings rs = Done None \/ exists rest, miller_rabin fuel n squarings rs = Done (Some (true, rest)).
Proof. intros fuel n sn rs Wn Nn Sn P N2 D H. pose proof (primeN_ge _ P). apply miller_rabin_prime; try assumption; [split; assumption|lia]. Qed.
Theorem fermat_test_prime_partial : forall n k rs, well_formed n -> neg n = false -> length (data n) = 1%nat -> prime (Z.of_N (magnitude n)) -> bytes rs -> (k <= length rs)%nat ->
  exists rest, fermat n k rs = Done (Some (true, rest)).
Proof. intros n k rs Wn Nn Sn P H L. rewrite fermat_prime; try assumption; [|split; assumption]. assert (Nat.ltb (length rs) k = false) as -> by (apply Nat.ltb_ge; exact L). destruct (magnitude n =? 2); eexists; reflexivity. Qed.
Theorem is_prime_prime_partial : forall fuel n rs, well_formed n -> neg n = false -> length (data n) = 1%nat -> prime (Z.of_N (magnitude n)) -> magnitude n <> 2 -> ~ N.divide (2 ^ 16) (magnitude n - 1) -> bytes rs ->
  is_prime fuel n rs = Done None \/ exists rest, is_prime fuel n rs = Done (Some (true, rest)).
Proof. intros fuel n rs Wn Nn Sn P N2 D H. pose proof (primeN_ge _ P). apply is_prime_prime; try assumption; [split; assumption|lia]. Qed.
(* 65537 = 2^16 + 1 is prime and 14 squarings are too few: with the random byte 3 it is "composite". So is 2, always. *)
Theorem is_prime_prime_refuted : prime 65537 /\ forall fuel rs, (N.to_nat 32768 <= fuel)%nat -> bytes rs -> is_prime fuel (num 65537) (repeat 3 8 ++ rs) = Done (Some (false, rs)).
Proof. split; [exact prime_65537|exact is_prime_65537]. Qed.
Theorem is_prime_two_refuted : prime 2 /\ forall fuel rs, is_prime fuel (num 2) rs = Done (Some (false, rs)).
Proof. split; [exact prime_2|exact is_prime_two]. Qed.
Example is_prime_meets : let n := num 7 in well_formed n /\ neg n = false /\ length (data n) = 1%nat /\ prime (Z.of_N (magnitude n)) /\ magnitude n <> 2 /\ ~ N.divide (2 ^ 16) (magnitude n - 1) /\ bytes [1; 2; 3; 4; 5; 6; 7; 8; 9].
Proof.
  cbv zeta. split; [wfok|]. split; [reflexivity|]. split; [reflexivity|]. split; [change (prime 7); apply (prime_by_trial 7 2); try lia; vm_compute; reflexivity|]. split; [vm_compute; discriminate|]. split; [|wfok].
  intro D. apply N.divide_pos_le in D; [apply N.leb_le in D; vm_compute in D; discriminate|reflexivity].
Qed.

(* C67. A random value is made of one random byte in each 64-bit digit. One-digit bounds up to 256: every value below the bound can come
   out. Missing: larger bounds; there most values never come out. *)
Theorem random_covers_partial : forall n v, well_formed n -> neg n = false -> length (data n) = 1%nat -> magnitude n <= 256 -> v < magnitude n ->
  exists byte, byte < 256 /\ forall rs, bytes rs -> exists r, gen_random n (byte :: rs) = Done (Some (Some r, rs)) /\ neg r = false /\ magnitude r = v.
Proof. exact random_covers. Qed.
(* always below the bound (for one-digit bounds) *)
Theorem random_below : forall n rs, well_formed n -> neg n = false -> length (data n) = 1%nat -> magnitude n <> 0 -> bytes rs -> rs <> [] ->
  exists r, gen_random n rs = Done (Some (Some r, tl rs)) /\ well_formed r /\ neg r = false /\ magnitude r < magnitude n.
Proof. exact random_bounded. Qed.
Theorem random_covers_refuted : exists n v, well_formed n /\ neg n = false /\ v < magnitude n /\ forall rs r rest, bytes rs -> gen_random n rs = Done (Some (Some r, rest)) -> magnitude r <> v.
Proof. exact random_gap. Qed.
Example random_meets : well_formed (num 200) /\ magnitude (num 200) <= 256 /\ bytes [250; 1] /\ gen_random (num 200) [250; 1] = Done (Some (Some (num 50), [1])).
Proof. split; [wfok|]. split; [apply N.leb_le; vm_compute; reflexivity|]. split; [repeat constructor|vm_compute; reflexivity]. Qed.

(* C96. Barrett: exact below twice the modulus; a congruent value above, the exact one for one-digit moduli. *)
Theorem barrett_reduction : forall x m, well_formed x -> well_formed m -> neg m = false -> magnitude m <> 0 ->
  exists r, barrett x None m = Done (Some r) /\ well_formed r /\ neg r = false /\ (value r mod value m = value x mod value m)%Z /\
    ((neg x = false /\ magnitude x < 2 * magnitude m) \/ (length (data m) = 1%nat) -> value r = (value x mod value m)%Z).
Proof. exact barrett_exact. Qed.
Theorem montgomery_reduction_partial : forall x y, well_formed x -> well_formed y -> neg x = false -> neg y = false -> N.odd (magnitude y) = true -> length (data y) = 1%nat ->
  exists r, montgomery x y = Done (Some r) /\ well_formed r /\ neg r = false /\ magnitude r = magnitude x mod magnitude y.
Proof. exact montgomery_exact. Qed.
(* larger moduli: a result of two digits or more is copied to an object made for one *)
Theorem montgomery_reduction_refuted : let x := mkMp false [5; 1] in let y := mkMp false [1; 2] in montgomery x y = UB.
Proof. vm_compute. reflexivity. Qed.
Example reduction_meets : let x := mkMp false [5; 1; 9] in well_formed x /\ neg x = false /\ well_formed (num 7) /\ magnitude (num 7) <> 0 /\ N.odd (magnitude (num 7)) = true.
Proof. cbv zeta. wfok. Qed.

Print Assumptions mp_gcd.
Print Assumptions mp_gcd_zero_refuted.
Print Assumptions mp_inverse_odd.
Print Assumptions mp_inverse_even_partial.
Print Assumptions mp_inverse_even_one_digit.
Print Assumptions mp_inverse_even_refuted.
Print Assumptions miller_rabin_prime_partial.
Print Assumptions fermat_test_prime_partial.
Print Assumptions is_prime_prime_partial.
Print Assumptions is_prime_prime_refuted.
Print Assumptions is_prime_two_refuted.
Print Assumptions random_covers_partial.
Print Assumptions random_below.
Print Assumptions random_covers_refuted.
Print Assumptions barrett_reduction.
Print Assumptions montgomery_reduction_partial.
Print Assumptions montgomery_reduction_refuted.
