(* The published hash functions, written down from their documents, without reference to the model: RFC 1320 (MD4),
   RFC 1321 (MD5), RFC 3174 (SHA-1), FIPS 180-4 (SHA-2), Dobbertin, Bosselaers, Preneel "RIPEMD-160: a strengthened version
   of RIPEMD" (RIPEMD-128 and RIPEMD-160). A word is a number below 2^32 (2^64 in SHA-384 and SHA-512). *)
From Verif Require Import Words.
Open Scope N_scope.

(* ---- padding: the message, one token byte, the least number of zero bytes that makes the whole a multiple of the block size
   bs, and the length of the message in bits as a field of lb bytes *)
Definition zeros_needed (bs lb len : nat) : nat := (bs - (len + 1 + lb) mod bs) mod bs.
Definition padded (bs lb : nat) (tok : N) (field : N -> list N) (m : list N) : list N :=
  m ++ [tok] ++ repeat 0 (zeros_needed bs lb (length m)) ++ field (8 * N.of_nat (length m)).
Definition pad_be (bs lb : nat) : list N -> list N := padded bs lb 0x80 (be_bytes lb).
Definition pad_le (bs lb : nat) : list N -> list N := padded bs lb 0x80 (le_bytes lb).

(* ---- the iteration: compress the blocks of the padded message one after the other into the state *)
Definition iterate (bs : nat) (comp : list N -> list N -> list N) (init : list N) (padded_message : list N) : list N :=
  fold_left comp (chunks bs padded_message) init.

(* the words of a block or digest *)
Definition be_words (wb : nat) (block : list N) : list N := map be_val (chunks wb block).
Definition le_words (wb : nat) (block : list N) : list N := map le_val (chunks wb block).
Definition be_string (wb : nat) (ws : list N) : list N := concat (map (be_bytes wb) ws).
Definition le_string (wb : nat) (ws : list N) : list N := concat (map (le_bytes wb) ws).

(* ---- words *)
Definition sum (w : N) (l : list N) : N := fold_right N.add 0 l mod 2 ^ w.
Definition ROTL (w n x : N) : N := N.lor ((N.shiftl x n) mod 2 ^ w) (N.shiftr x (w - n)).
Definition ROTR (w n x : N) : N := N.lor (N.shiftr x n) ((N.shiftl x (w - n)) mod 2 ^ w).
Definition compl (w x : N) : N := N.lxor x (N.ones w).
Definition each_sum (w : N) (a b : list N) : list N := map (fun p => sum w [fst p; snd p]) (combine a b).
Infix "&." := N.land (at level 40, left associativity).
Infix "^." := N.lxor (at level 48, left associativity).
Infix "|." := N.lor (at level 50, left associativity).
Notation "~. x" := (compl 32 x) (at level 35, right associativity).

(* ---- MD4 and MD5. Step i takes (a, b, c, d) to (d, new b, b, c): the macro calls [ABCD k s], [DABC k s], ... of the RFCs *)
Definition quad := (N * N * N * N)%type.
Definition in_quad (f : quad -> quad) (st : list N) : list N :=
  match st with
  | [a; b; c; d] => let '(a, b, c, d) := f (a, b, c, d) in [a; b; c; d]
  | _ => st
  end.
Definition pick {A} (d : A) (l : list A) (i : nat) : A := nth i l d.
(* floor (2^30 * sqrt n) *)
Definition root30 (n : N) : N := N.sqrt (n * 2 ^ 60).

Definition MD4_F (round : nat) (x y z : N) : N :=
  match round with
  | 0%nat => x &. y |. (~. x) &. z
  | 1%nat => x &. y |. x &. z |. y &. z
  | _ => x ^. y ^. z
  end.
Definition MD4_K (round : nat) : N := pick 0 [0; root30 2; root30 3] round.
Definition MD4_s (i : nat) : N := pick 0 (pick [] [[3; 7; 11; 19]; [3; 5; 9; 13]; [3; 9; 11; 15]] (i / 16)) (i mod 4).
Definition MD4_k (i : nat) : nat :=
  match (i / 16)%nat with
  | 0%nat => i
  | 1%nat => (4 * (i mod 4) + (i mod 16) / 4)%nat
  | _ => pick 0%nat [0; 8; 4; 12; 2; 10; 6; 14; 1; 9; 5; 13; 3; 11; 7; 15]%nat (i mod 16)
  end.
Definition MD4_step (X : list N) (q : quad) (i : nat) : quad :=
  let '(a, b, c, d) := q in
  (d, ROTL 32 (MD4_s i) (sum 32 [a; MD4_F (i / 16) b c d; pick 0 X (MD4_k i); MD4_K (i / 16)]), b, c).
Definition MD4_block (st block : list N) : list N :=
  each_sum 32 st (in_quad (fun q => fold_left (MD4_step (le_words 4 block)) (seq 0 48) q) st).
Definition MD_init : list N := [0x67452301; 0xefcdab89; 0x98badcfe; 0x10325476].
Definition MD4 (m : list N) : list N := le_string 4 (iterate 64 MD4_block MD_init (pad_le 64 8 m)).

Definition MD5_F (round : nat) (x y z : N) : N :=
  match round with
  | 0%nat => x &. y |. (~. x) &. z
  | 1%nat => x &. z |. y &. (~. z)
  | 2%nat => x ^. y ^. z
  | _ => y ^. (x |. ~. z)
  end.
(* floor (2^32 * abs (sin (i + 1))) *)
Definition MD5_T : list N :=
  [0xd76aa478; 0xe8c7b756; 0x242070db; 0xc1bdceee; 0xf57c0faf; 0x4787c62a; 0xa8304613; 0xfd469501;
   0x698098d8; 0x8b44f7af; 0xffff5bb1; 0x895cd7be; 0x6b901122; 0xfd987193; 0xa679438e; 0x49b40821;
   0xf61e2562; 0xc040b340; 0x265e5a51; 0xe9b6c7aa; 0xd62f105d; 0x02441453; 0xd8a1e681; 0xe7d3fbc8;
   0x21e1cde6; 0xc33707d6; 0xf4d50d87; 0x455a14ed; 0xa9e3e905; 0xfcefa3f8; 0x676f02d9; 0x8d2a4c8a;
   0xfffa3942; 0x8771f681; 0x6d9d6122; 0xfde5380c; 0xa4beea44; 0x4bdecfa9; 0xf6bb4b60; 0xbebfbc70;
   0x289b7ec6; 0xeaa127fa; 0xd4ef3085; 0x04881d05; 0xd9d4d039; 0xe6db99e5; 0x1fa27cf8; 0xc4ac5665;
   0xf4292244; 0x432aff97; 0xab9423a7; 0xfc93a039; 0x655b59c3; 0x8f0ccc92; 0xffeff47d; 0x85845dd1;
   0x6fa87e4f; 0xfe2ce6e0; 0xa3014314; 0x4e0811a1; 0xf7537e82; 0xbd3af235; 0x2ad7d2bb; 0xeb86d391].
Definition MD5_s (i : nat) : N :=
  pick 0 (pick [] [[7; 12; 17; 22]; [5; 9; 14; 20]; [4; 11; 16; 23]; [6; 10; 15; 21]] (i / 16)) (i mod 4).
Definition MD5_k (i : nat) : nat :=
  match (i / 16)%nat with
  | 0%nat => i
  | 1%nat => ((5 * i + 1) mod 16)%nat
  | 2%nat => ((3 * i + 5) mod 16)%nat
  | _ => ((7 * i) mod 16)%nat
  end.
Definition MD5_step (X : list N) (q : quad) (i : nat) : quad :=
  let '(a, b, c, d) := q in
  (d, sum 32 [b; ROTL 32 (MD5_s i) (sum 32 [a; MD5_F (i / 16) b c d; pick 0 X (MD5_k i); pick 0 MD5_T i])], b, c).
Definition MD5_block (st block : list N) : list N :=
  each_sum 32 st (in_quad (fun q => fold_left (MD5_step (le_words 4 block)) (seq 0 64) q) st).
Definition MD5 (m : list N) : list N := le_string 4 (iterate 64 MD5_block MD_init (pad_le 64 8 m)).

(* ---- RIPEMD. The order of the words in round j is rho^j for the left line and rho^j after pi for the right line; the
   rotation depends on the round and the word *)
Definition rho : list nat := [7; 4; 13; 1; 10; 6; 15; 3; 12; 0; 9; 5; 2; 14; 11; 8]%nat.
Definition pi (i : nat) : nat := ((9 * i + 5) mod 16)%nat.
Definition RMD_r (j : nat) : nat := Nat.iter (j / 16) (pick 0%nat rho) (j mod 16)%nat.
Definition RMD_r' (j : nat) : nat := Nat.iter (j / 16) (pick 0%nat rho) (pi (j mod 16)%nat).
(* the rotation for each word, round after round; both lines use the same table *)
Definition RMD_shift (round word : nat) : N :=
  pick 0 (pick [] [[11; 14; 15; 12; 5; 8; 7; 9; 11; 13; 14; 15; 6; 7; 9; 8];
                   [12; 13; 11; 15; 6; 9; 9; 7; 12; 15; 11; 13; 7; 8; 7; 7];
                   [13; 15; 14; 11; 7; 7; 6; 8; 13; 14; 13; 12; 5; 5; 6; 9];
                   [14; 11; 12; 14; 8; 6; 5; 5; 15; 12; 15; 14; 9; 9; 8; 6];
                   [15; 12; 13; 13; 9; 5; 8; 6; 14; 11; 12; 11; 8; 6; 5; 5]] round) word.
(* floor (2^30 * cube root of n) is the c with c^3 <= n * 2^90 < (c + 1)^3; here found by setting the bits from the top *)
Definition cube_root (bits : nat) (n : N) : N :=
  fold_left (fun c b => let d := c + 2 ^ N.of_nat b in if d * d * d <=? n then d else c) (rev (seq 0 bits)) 0.
Definition croot30 (n : N) : N := cube_root 32 (n * 2 ^ 90).
Definition RMD_K (round : nat) : N := pick 0 [0; root30 2; root30 3; root30 5; root30 7] round.
Definition RMD_F (f : nat) (x y z : N) : N :=
  match f with
  | 0%nat => x ^. y ^. z
  | 1%nat => x &. y |. (~. x) &. z
  | 2%nat => (x |. ~. y) ^. z
  | 3%nat => x &. z |. y &. (~. z)
  | _ => x ^. (y |. ~. z)
  end.
Definition RMD160_K' (round : nat) : N := pick 0 [croot30 2; croot30 3; croot30 5; croot30 7; 0] round.
Definition RMD128_K' (round : nat) : N := pick 0 [croot30 2; croot30 3; croot30 5; 0] round.

Definition RMD128_step (f : nat -> nat) (K : nat -> N) (r : nat -> nat) (X : list N) (q : quad) (j : nat) : quad :=
  let '(A, B, C, D) := q in
  let T := ROTL 32 (RMD_shift (j / 16) (r j)) (sum 32 [A; RMD_F (f (j / 16)%nat) B C D; pick 0 X (r j); K (j / 16)%nat]) in
  (D, T, B, C).
Definition RMD128_block (h block : list N) : list N :=
  match h with
  | [h0; h1; h2; h3] =>
      let X := le_words 4 block in
      let '(A, B, C, D) := fold_left (RMD128_step (fun i => i) RMD_K RMD_r X) (seq 0 64) (h0, h1, h2, h3) in
      let '(A', B', C', D') := fold_left (RMD128_step (fun i => 3 - i)%nat RMD128_K' RMD_r' X) (seq 0 64) (h0, h1, h2, h3) in
      [sum 32 [h1; C; D']; sum 32 [h2; D; A']; sum 32 [h3; A; B']; sum 32 [h0; B; C']]
  | _ => h
  end.
Definition RIPEMD128 (m : list N) : list N := le_string 4 (iterate 64 RMD128_block MD_init (pad_le 64 8 m)).

Definition RMD160_step (f : nat -> nat) (K : nat -> N) (r : nat -> nat) (X : list N) (q : N * N * N * N * N) (j : nat) :=
  let '(A, B, C, D, E) := q in
  let T := sum 32 [ROTL 32 (RMD_shift (j / 16) (r j)) (sum 32 [A; RMD_F (f (j / 16)%nat) B C D; pick 0 X (r j); K (j / 16)%nat]); E] in
  (E, T, B, ROTL 32 10 C, D).
Definition RMD160_block (h block : list N) : list N :=
  match h with
  | [h0; h1; h2; h3; h4] =>
      let X := le_words 4 block in
      let '(A, B, C, D, E) := fold_left (RMD160_step (fun i => i) RMD_K RMD_r X) (seq 0 80) (h0, h1, h2, h3, h4) in
      let '(A', B', C', D', E') := fold_left (RMD160_step (fun i => 4 - i)%nat RMD160_K' RMD_r' X) (seq 0 80) (h0, h1, h2, h3, h4) in
      [sum 32 [h1; C; D']; sum 32 [h2; D; E']; sum 32 [h3; E; A']; sum 32 [h4; A; B']; sum 32 [h0; B; C']]
  | _ => h
  end.
Definition SHA1_init : list N := [0x67452301; 0xefcdab89; 0x98badcfe; 0x10325476; 0xc3d2e1f0].
Definition RIPEMD160 (m : list N) : list N := le_string 4 (iterate 64 RMD160_block SHA1_init (pad_le 64 8 m)).

(* ---- SHA: the message schedule, word after word *)
Fixpoint extend (next : list N -> N) (n : nat) (W : list N) : list N :=
  match n with
  | O => W
  | S n => extend next n (W ++ [next W])
  end.
(* the word k places before the one to be computed *)
Definition back (W : list N) (k : nat) : N := nth (length W - k) W 0.

(* ---- SHA-1, RFC 3174 section 6.1 *)
Definition SHA1_f (t : nat) (B C D : N) : N :=
  match (t / 20)%nat with
  | 0%nat => B &. C |. (~. B) &. D
  | 1%nat => B ^. C ^. D
  | 2%nat => B &. C |. B &. D |. C &. D
  | _ => B ^. C ^. D
  end.
Definition SHA1_K (t : nat) : N := pick 0 [root30 2; root30 3; root30 5; root30 10] (t / 20).
Definition SHA1_W (block : list N) : list N :=
  extend (fun W => ROTL 32 1 (back W 3 ^. back W 8 ^. back W 14 ^. back W 16)) 64 (be_words 4 block).
Definition SHA1_step (W : list N) (q : N * N * N * N * N) (t : nat) : N * N * N * N * N :=
  let '(A, B, C, D, E) := q in
  (sum 32 [ROTL 32 5 A; SHA1_f t B C D; E; pick 0 W t; SHA1_K t], A, ROTL 32 30 B, C, D).
Definition SHA1_block (h block : list N) : list N :=
  match h with
  | [h0; h1; h2; h3; h4] =>
      let '(A, B, C, D, E) := fold_left (SHA1_step (SHA1_W block)) (seq 0 80) (h0, h1, h2, h3, h4) in
      [sum 32 [h0; A]; sum 32 [h1; B]; sum 32 [h2; C]; sum 32 [h3; D]; sum 32 [h4; E]]
  | _ => h
  end.
Definition SHA1 (m : list N) : list N := be_string 4 (iterate 64 SHA1_block SHA1_init (pad_be 64 8 m)).

(* ---- SHA-2, FIPS 180-4. The constants are fractional parts of square and cube roots of primes *)
Definition prime (n : nat) : bool := (Nat.leb 2 n && forallb (fun d => negb (Nat.eqb (n mod d) 0)) (seq 2 (n - 2)))%bool.
Definition first_primes (n : nat) : list N := map N.of_nat (firstn n (filter prime (seq 0 410))).
(* the first w bits of the fractional part of the cube root, of the square root of n *)
Definition cube_frac (w : N) (n : N) : N := cube_root (N.to_nat w + 4) (n * 2 ^ (3 * w)) mod 2 ^ w.
Definition sqrt_frac (w : N) (n : N) : N := N.sqrt (n * 2 ^ (2 * w)) mod 2 ^ w.

Definition Ch (w x y z : N) : N := x &. y ^. (compl w x) &. z.
Definition Maj (x y z : N) : N := x &. y ^. x &. z ^. y &. z.
(* word size, number of rounds, the functions Sigma0, Sigma1, sigma0, sigma1, the constants K *)
Record sha2 := { w : N; rounds : nat; Sigma0 : N -> N; Sigma1 : N -> N; sigma0 : N -> N; sigma1 : N -> N; K : list N }.
Definition SHA32 : sha2 := {| w := 32; rounds := 64;
  Sigma0 := fun x => ROTR 32 2 x ^. ROTR 32 13 x ^. ROTR 32 22 x;
  Sigma1 := fun x => ROTR 32 6 x ^. ROTR 32 11 x ^. ROTR 32 25 x;
  sigma0 := fun x => ROTR 32 7 x ^. ROTR 32 18 x ^. N.shiftr x 3;
  sigma1 := fun x => ROTR 32 17 x ^. ROTR 32 19 x ^. N.shiftr x 10;
  K := map (cube_frac 32) (first_primes 64) |}.
Definition SHA64 : sha2 := {| w := 64; rounds := 80;
  Sigma0 := fun x => ROTR 64 28 x ^. ROTR 64 34 x ^. ROTR 64 39 x;
  Sigma1 := fun x => ROTR 64 14 x ^. ROTR 64 18 x ^. ROTR 64 41 x;
  sigma0 := fun x => ROTR 64 1 x ^. ROTR 64 8 x ^. N.shiftr x 7;
  sigma1 := fun x => ROTR 64 19 x ^. ROTR 64 61 x ^. N.shiftr x 6;
  K := map (cube_frac 64) (first_primes 80) |}.
Definition SHA2_W (p : sha2) (words : list N) : list N :=
  extend (fun W => sum (w p) [sigma1 p (back W 2); back W 7; sigma0 p (back W 15); back W 16]) (rounds p - 16) words.
Definition oct := (N * N * N * N * N * N * N * N)%type.
Definition SHA2_step (p : sha2) (W : list N) (q : oct) (t : nat) : oct :=
  let '(a, b, c, d, e, f, g, h) := q in
  let T1 := sum (w p) [h; Sigma1 p e; Ch (w p) e f g; pick 0 (K p) t; pick 0 W t] in
  let T2 := sum (w p) [Sigma0 p a; Maj a b c] in
  (sum (w p) [T1; T2], a, b, c, sum (w p) [d; T1], e, f, g).
Definition SHA2_block (p : sha2) (wb : nat) (H block : list N) : list N :=
  match H with
  | [h0; h1; h2; h3; h4; h5; h6; h7] =>
      let '(a, b, c, d, e, f, g, h) :=
        fold_left (SHA2_step p (SHA2_W p (be_words wb block))) (seq 0 (rounds p)) (h0, h1, h2, h3, h4, h5, h6, h7) in
      [sum (w p) [a; h0]; sum (w p) [b; h1]; sum (w p) [c; h2]; sum (w p) [d; h3];
       sum (w p) [e; h4]; sum (w p) [f; h5]; sum (w p) [g; h6]; sum (w p) [h; h7]]
  | _ => H
  end.
Definition SHA256_init : list N := map (sqrt_frac 32) (first_primes 8).
Definition SHA512_init : list N := map (sqrt_frac 64) (first_primes 8).
(* the 9th to 16th primes *)
Definition SHA384_init : list N := map (sqrt_frac 64) (skipn 8 (first_primes 16)).
(* the second 32 bits of the initial values of SHA-384 *)
Definition SHA224_init : list N := map (fun x => x mod 2 ^ 32) SHA384_init.
Definition SHA224 (m : list N) : list N := be_string 4 (firstn 7 (iterate 64 (SHA2_block SHA32 4) SHA224_init (pad_be 64 8 m))).
Definition SHA256 (m : list N) : list N := be_string 4 (iterate 64 (SHA2_block SHA32 4) SHA256_init (pad_be 64 8 m)).
Definition SHA384 (m : list N) : list N := be_string 8 (firstn 6 (iterate 128 (SHA2_block SHA64 8) SHA384_init (pad_be 128 16 m))).
Definition SHA512 (m : list N) : list N := be_string 8 (iterate 128 (SHA2_block SHA64 8) SHA512_init (pad_be 128 16 m)).
