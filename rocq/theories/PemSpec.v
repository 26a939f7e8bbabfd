(* A PEM buffer as a map from headers to data. *)
From Verif Require Import Words EncSpec TaskModel.
Open Scope N_scope.

Definition eqb_header (a b : list N) : bool := if list_eq_dec N.eq_dec a b then true else false.
Definition pem_map := list N -> option (list N).
Definition empty_map : pem_map := fun _ => None.
Definition insert (m : pem_map) (h d : list N) : pem_map := fun h' => if eqb_header h h' then Some d else m h'.
(* storing under a new header succeeds; under a header in use it fails and changes nothing *)
Definition map_put (m : pem_map) (h d : list N) : result * pem_map :=
  match m h with Some _ => (InvalidParams, m) | None => (Success, insert m h d) end.
(* a header: a C string without dashes; data: one byte at least *)
Definition good_header (h : list N) : Prop := octets h /\ ~ In 0 h /\ ~ In 45 h.
Definition good_data (d : list N) : Prop := octets d /\ d <> [] /\ N.of_nat (length d) < 2 ^ 60.

(* run a list of puts: the results in order, and the final state *)
Fixpoint run {S : Type} (put : S -> list N -> list N -> result * S) (s : S) (ops : list (list N * list N)) : list result * S :=
  match ops with
  | [] => ([], s)
  | (h, d) :: ops => let '(r, s) := put s h d in let '(rs, s) := run put s ops in (r :: rs, s)
  end.
