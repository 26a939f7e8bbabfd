(* bcrypt as in Provos, Mazieres, "A Future-Adaptable Password Scheme" (USENIX 1999), with the encoding of the OpenBSD implementation: salt and hash
   in base 64 over the alphabet "./A-Za-z0-9", the last byte of the ciphertext left out, the password with its terminating zero byte. *)
From Verif Require Import Words EncSpec.
From Verif Require BlowfishModel.
From Coq Require Import String PeanoNat.
Notation length := List.length (only parsing).
Notation concat := List.concat (only parsing).
Open Scope N_scope.

(* The state of Blowfish: the 18 words P followed by the four S-boxes of 256 words. It starts with the digits of pi; the tables are those of the code *)
Definition pi_words : list N :=
  BlowfishModel.blowfish_parray ++ BlowfishModel.blowfish_sbox0 ++ BlowfishModel.blowfish_sbox1 ++ BlowfishModel.blowfish_sbox2 ++ BlowfishModel.blowfish_sbox3.
Definition sbox (st : list N) (k : nat) (x : N) : N := nth (18 + 256 * k + N.to_nat (x mod 256)) st 0.
(* ((S1[a] + S2[b]) xor S3[c]) + S4[d] for the bytes a, b, c, d of x *)
Definition bf_F (st : list N) (x : N) : N :=
  (N.lxor ((sbox st 0 (x / 2 ^ 24) + sbox st 1 (x / 2 ^ 16)) mod 2 ^ 32) (sbox st 2 (x / 2 ^ 8)) + sbox st 3 x) mod 2 ^ 32.
Definition bf_encrypt (st : list N) (LR : N * N) : N * N :=
  let '(L, R) := fold_left (fun LR i => let '(L, R) := LR in let L := N.lxor L (nth i st 0) in (N.lxor R (bf_F st L), L)) (seq 0 16) LR in
  (N.lxor R (nth 17 st 0), N.lxor L (nth 16 st 0)).

(* byte i of the key repeated without end, and word i of it; word i of a salt *)
Definition cyclic_byte (key : list N) (i : nat) : N := nth (i mod length key) key 0.
Definition key_word (key : list N) (i : nat) : N := be_val (map (fun j => cyclic_byte key (4 * i + j)) (seq 0 4)).
Definition salt_word (salt : list N) (i : nat) : N := be_val (firstn 4 (skipn (4 * i) salt)).
Definition set2 (st : list N) (j : nat) (x y : N) : list N := firstn j st ++ [x; y] ++ skipn (j + 2) st.
(* ExpandKey(state, salt, key): the key is added to P; then the 521 pairs of words are replaced one after the other by the encryption of the previous
   pair, to which the halves of the salt are added in turn *)
Definition ExpandKey (st salt key : list N) : list N :=
  fst (fold_left (fun s i => let '(st, (L, R)) := s in
                             let '(L, R) := bf_encrypt st (N.lxor L (salt_word salt (2 * (i mod 2))), N.lxor R (salt_word salt (2 * (i mod 2) + 1))) in
                             (set2 st (2 * i) L R, (L, R)))
        (seq 0 521) (map (fun i => N.lxor (nth i st 0) (key_word key i)) (seq 0 18) ++ skipn 18 st, (0, 0))).
Definition EksBlowfishSetup (cost : N) (salt key : list N) : list N :=
  N.iter (2 ^ cost) (fun st => ExpandKey (ExpandKey st (repeat 0 16) key) (repeat 0 16) salt) (ExpandKey pi_words salt key).
(* 64 encryptions of the magic text in ECB mode *)
Definition magic : list (N * N) :=
  let w s := be_val (codes s) in
  [(w "Orph"%string, w "eanB"%string); (w "ehol"%string, w "derS"%string); (w "cryD"%string, w "oubt"%string)].
Definition bcrypt_raw (cost : N) (salt key : list N) : list N :=
  let st := EksBlowfishSetup cost salt key in
  concat (map (fun b => let '(L, R) := Nat.iter 64 (bf_encrypt st) b in be_bytes 4 L ++ be_bytes 4 R) magic).
Definition bcrypt64 : list N -> list N := rfc4648 "./ABCDEFGHIJKLMNOPQRSTUVWXYZabcdefghijklmnopqrstuvwxyz0123456789" 6 4.
Definition digit (n : N) : N := 48 + n.
(* the 60 characters: "$2a$", two digits, "$", 22 of the salt, 31 of the hash; pads are left out *)
Definition BCRYPT (cost : N) (salt password : list N) : list N :=
  codes "$2a$" ++ [digit (cost / 10); digit (cost mod 10)] ++ codes "$" ++ firstn 22 (bcrypt64 salt) ++
  firstn 31 (bcrypt64 (firstn 23 (bcrypt_raw cost salt (password ++ [0])))).
