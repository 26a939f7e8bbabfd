(* Fermat's little theorem, and what it gives for products of two primes. *)
From Coq Require Import ZArith Znumtheory List Permutation Lia.
Import ListNotations.
Open Scope Z_scope.

Definition prod (l : list Z) : Z := fold_right Z.mul 1 l.
Lemma prod_perm : forall l l', Permutation l l' -> prod l = prod l'.
Proof. intros l l' H. induction H; cbn [prod fold_right] in *; try unfold prod in *; lia. Qed.
Lemma prod_map_mod : forall p a l, p <> 0 -> prod (map (fun i => (a * i) mod p) l) mod p = (a ^ Z.of_nat (length l) * prod l) mod p.
Proof.
  intros p a l P. induction l as [|i l IH]; [cbn; reflexivity|]. cbn [map prod fold_right length]. fold (prod (map (fun i => (a * i) mod p) l)) (prod l).
  rewrite Z.mul_mod, Z.mod_mod, IH, <- Z.mul_mod by exact P. rewrite Nat2Z.inj_succ, Z.pow_succ_r by lia. f_equal. ring.
Qed.
Lemma prod_coprime : forall p l, prime p -> (forall i, In i l -> ~ (p | i)) -> ~ (p | prod l).
Proof.
  intros p l P H. induction l as [|i l IH]; cbn [prod fold_right]; intro D.
  - apply Z.divide_1_r_nonneg in D; [|apply prime_ge_2 in P; lia]. apply prime_ge_2 in P. lia.
  - apply prime_mult in D; [|exact P]. destruct D as [D|D]; [apply (H i); [left; reflexivity|exact D]|]. apply IH; [|exact D]. intros j Hj. apply H. right. exact Hj.
Qed.
Lemma small_not_divide : forall p i, 0 < i < p -> ~ (p | i).
Proof. intros p i H D. apply Z.divide_pos_le in D; lia. Qed.
Theorem fermat_inverse : forall p a, prime p -> ~ (p | a) -> (p | a ^ (p - 1) - 1).
Proof.
  intros p a P A. pose proof (prime_ge_2 p P) as P2. set (n := Z.to_nat (p - 1)). set (l := map Z.of_nat (seq 1 n)).
  assert (forall i, In i l <-> 0 < i < p) as Hl.
  { intro i. unfold l. rewrite in_map_iff. split; [intros (k & <- & K); apply in_seq in K; lia|]. intro I. exists (Z.to_nat i). split; [lia|]. apply in_seq. lia. }
  assert (NoDup l) as Nl. { unfold l. apply FinFun.Injective_map_NoDup; [intros x y E; lia|apply seq_NoDup]. }
  set (f := fun i => (a * i) mod p).
  assert (Permutation l (map f l)) as Pm.
  { symmetry. apply NoDup_Permutation_bis; [|rewrite map_length; lia|].
    - assert (forall k, incl k l -> NoDup k -> NoDup (map f k)) as G; [|apply G; [intros x Hx; exact Hx|exact Nl]]. induction k as [|i k IH]; intros I N; [constructor|]. inversion N as [|? ? N1 N2]; subst. cbn [map]. constructor; [|apply IH; [intros x Hx; apply I; right; exact Hx|exact N2]].
      intro M. apply in_map_iff in M. destruct M as (j & E & J). unfold f in E. assert (In i l) as Li by (apply I; left; reflexivity). assert (In j l) as Lj by (apply I; right; exact J). apply Hl in Li. apply Hl in Lj.
      assert (p | a * (j - i)) as D. { apply Z.mod_divide; [lia|]. rewrite Z.mul_sub_distr_l, Zminus_mod, E, Z.sub_diag. apply Z.mod_0_l. lia. } apply prime_mult in D; [|exact P]. destruct D as [D|D]; [contradiction|].
      destruct (Z.eq_dec i j) as [->|Ne]; [contradiction|]. apply Z.divide_abs_r in D. revert D. apply small_not_divide. lia.
    - intros x Hx. apply in_map_iff in Hx. destruct Hx as (i & <- & I). apply Hl. apply Hl in I. unfold f. pose proof (Z.mod_pos_bound (a * i) p ltac:(lia)) as B. destruct (Z.eq_dec ((a * i) mod p) 0) as [Z|Z]; [|lia]. exfalso. apply Z.mod_divide in Z; [|lia]. apply prime_mult in Z; [|exact P]. destruct Z as [Z|Z]; [contradiction|]. revert Z. apply small_not_divide. lia. }
  apply prod_perm in Pm. pose proof (prod_map_mod p a l ltac:(lia)) as M. fold f in M. rewrite <- Pm in M. assert (length l = n) as Ln by (unfold l; rewrite map_length, seq_length; reflexivity). rewrite Ln in M. unfold n in M at 1. rewrite Z2Nat.id in M by lia.
  assert (p | prod l * (a ^ (p - 1) - 1)) as D. { apply Z.mod_divide; [lia|]. replace (prod l * (a ^ (p - 1) - 1)) with (a ^ (p - 1) * prod l - prod l) by ring. rewrite Zminus_mod, <- M, Z.sub_diag. apply Z.mod_0_l. lia. }
  apply prime_mult in D; [|exact P]. destruct D as [D|D]; [|exact D]. exfalso. revert D. apply prod_coprime; [exact P|]. intros i I. apply Hl in I. apply small_not_divide. lia.
Qed.
(* a power of a with an exponent congruent to 1 modulo p - 1 is a *)
Theorem fermat_power : forall p a e k, prime p -> 0 <= k -> 0 <= e -> e = 1 + k * (p - 1) -> (p | a ^ e - a).
Proof.
  intros p a e k P K E0 E. pose proof (prime_ge_2 p P) as P2. destruct (Zdivide_dec p a) as [D|D].
  - replace e with (Z.succ (e - 1)) by lia. rewrite Z.pow_succ_r by nia. apply Z.divide_sub_r; [apply Z.divide_mul_l|]; exact D.
  - rewrite E. rewrite Z.pow_add_r, Z.pow_1_r by nia. rewrite Z.mul_comm, (Z.mul_comm k), Z.pow_mul_r by lia. pose proof (fermat_inverse p a P D) as F.
    assert (p | (a ^ (p - 1)) ^ k - 1) as G. { set (b := a ^ (p - 1)) in *. clearbody b. clear - F K. revert k K. apply (natlike_ind (fun k => (p | b ^ k - 1))) ; [exists 0; reflexivity|]. intros x X I. rewrite Z.pow_succ_r by exact X. replace (b * b ^ x - 1) with (b * (b ^ x - 1) + (b - 1)) by ring. apply Z.divide_add_r; [apply Z.divide_mul_r|]; assumption. }
    replace ((a ^ (p - 1)) ^ k * a - a) with (a * ((a ^ (p - 1)) ^ k - 1)) by ring. apply Z.divide_mul_r, G.
Qed.
Theorem two_primes : forall p q x, prime p -> prime q -> p <> q -> (p | x) -> (q | x) -> (p * q | x).
Proof.
  intros p q x P Q N [k ->] D. apply prime_mult in D; [|exact Q]. destruct D as [[j ->]|D]; [exists j; ring|]. exfalso. apply prime_div_prime in D; [|exact Q|exact P]. congruence.
Qed.
Print Assumptions fermat_power.
