(* SHACAL-1 and SHACAL-2 (Handschuh and Naccache, Nessie proposals): the steps of the compression functions of SHA-1 and SHA-256 (HashSpec.v)
   with the key, filled up with zeros, as the message block and the text block as the chaining value, without the final addition. *)
From Verif Require Import Words HashSpec.
Open Scope N_scope.

Definition message_block (key : list N) : list N := key ++ repeat 0 (64 - length key).
Definition SHACAL1 (key block : list N) : list N :=
  match be_words 4 block with
  | [a; b; c; d; e] =>
      let '(A, B, C, D, E) := fold_left (SHA1_step (SHA1_W (message_block key))) (seq 0 80) (a, b, c, d, e) in
      be_string 4 [A; B; C; D; E]
  | _ => []
  end.
Definition SHACAL2 (key block : list N) : list N :=
  match be_words 4 block with
  | [a; b; c; d; e; f; g; h] =>
      let '(A, B, C, D, E, F, G, H) :=
        fold_left (SHA2_step SHA32 (SHA2_W SHA32 (be_words 4 (message_block key)))) (seq 0 64) (a, b, c, d, e, f, g, h) in
      be_string 4 [A; B; C; D; E; F; G; H]
  | _ => []
  end.
