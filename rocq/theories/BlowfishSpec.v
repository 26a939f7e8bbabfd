(* Blowfish (Schneier, FSE 1993): the key, repeated, is added to the 18 words P; then the 521 pairs of words of P and the four S-boxes are replaced one after
   the other by the encryption of the previous pair, beginning with zero. The 16 rounds bf_encrypt, the words key_word of the repeated key and the initial state pi_words
   (the digits of pi, taken from the tables of the code) are those of BcryptSpec.v. *)
From Verif Require Import Words BcryptSpec.
Open Scope N_scope.

Definition Schedule (key : list N) : list N :=
  fst (fold_left (fun s i => let '(st, LR) := s in
                             let '(L, R) := bf_encrypt st LR in
                             (set2 st (2 * i) L R, (L, R)))
        (seq 0 521) (map (fun i => N.lxor (nth i pi_words 0) (key_word key i)) (seq 0 18) ++ skipn 18 pi_words, (0, 0))).
Definition Blowfish (key block : list N) : list N :=
  let '(L, R) := bf_encrypt (Schedule key) (be_val (firstn 4 block), be_val (firstn 4 (skipn 4 block))) in
  be_bytes 4 L ++ be_bytes 4 R.
