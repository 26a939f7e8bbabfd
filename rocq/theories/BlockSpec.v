(* What it means for a block cipher of the library to decrypt what it encrypts (properties C16-C35).
   Only the notion of an octet string is used. *)
From Verif Require Import Words EncSpec.
Open Scope N_scope.

Definition block (n : nat) (x : list N) : Prop := octets x /\ length x = n.

(* E and D map n-byte blocks to n-byte blocks and undo each other, in both orders *)
Definition inverse_permutations (n : nat) (E D : list N -> list N) : Prop :=
  forall x, block n x ->
    block n (E x) /\ block n (D x) /\ D (E x) = x /\ E (D x) = x.

(* a non-empty user key of at most n bytes *)
Definition user_key (n : nat) (key : list N) : Prop := key <> [] /\ octets key /\ (length key <= n)%nat.
Definition any_user_key (key : list N) : Prop := key <> [] /\ octets key.
