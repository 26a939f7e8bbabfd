(* RFC 4648 Base16/32/64, written from the RFC: concatenate the bits of the octets, most
   significant first, cut them in groups of 4/5/6 bits (the last one zero padded), map each
   group to a character, and fill with '=' up to a full quantum. *)
From Verif Require Import Words.
From Coq Require Import String Ascii.
Open Scope N_scope.

Definition byte_bits (b : N) : list bool :=
  map (N.testbit b) [7; 6; 5; 4; 3; 2; 1; 0].

Definition bits_val (bs : list bool) : N :=
  fold_left (fun v (b : bool) => 2 * v + (if b then 1 else 0)) bs 0.

(* groups of w bits, the last one padded with zero bits on the right *)
Fixpoint groups_fuel (fuel w : nat) (bs : list bool) : list (list bool) :=
  match fuel with
  | O => []
  | S f => match bs with
           | [] => []
           | _ => let g := firstn w bs in
                  (g ++ repeat false (w - List.length g)) :: groups_fuel f w (skipn w bs)
           end
  end.
Definition groups (w : nat) (bs : list bool) := groups_fuel (List.length bs) w bs.

Definition codes (s : string) : list N := map N_of_ascii (list_ascii_of_string s).

Definition rfc4648 (alphabet : string) (w quantum : nat) (l : list N) : list N :=
  let cs := map (fun g => nthN (codes alphabet) (bits_val g))
                (groups w (flat_map byte_bits l)) in
  cs ++ repeat 61 ((quantum - List.length cs mod quantum) mod quantum).

Definition rfc_base16 := rfc4648 "0123456789ABCDEF" 4 2.
Definition rfc_base32 := rfc4648 "ABCDEFGHIJKLMNOPQRSTUVWXYZ234567" 5 8.
Definition rfc_base64 :=
  rfc4648 "ABCDEFGHIJKLMNOPQRSTUVWXYZabcdefghijklmnopqrstuvwxyz0123456789+/" 6 4.

(* the encodings are defined on octets *)
Definition octets (l : list N) : Prop := Forall (fun b => b < 256) l.
