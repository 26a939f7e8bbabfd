(* The block cipher modes as in NIST SP 800-38A (with a 32-bit counter for CTR), the ANSI X9.23
   padding rule and GF(2^128) as in NIST SP 800-38D, written independently of the code. *)
From Verif Require Import Words TaskModel ModeModel EncSpec.
Open Scope N_scope.

(* bytes xored position by position, up to the shorter one *)
Definition xor_bytes (a b : list N) : list N := map (fun p => N.lxor (fst p) (snd p)) (combine a b).

(* X9.23: the text, then k-1 arbitrary filler bytes, then the count k of added bytes, 1 <= k <= bs,
   the whole being a multiple of the block size *)
Definition x923_padded (bs : nat) (text padded : list N) : Prop :=
  exists filler k, (1 <= k <= bs)%nat /\ length filler = (k - 1)%nat /\
    padded = text ++ filler ++ [N.of_nat k] /\ (length padded mod bs = 0)%nat.

(* a message cut into blocks *)
Definition in_blocks (bs : nat) (l : list N) (blocks : list (list N)) : Prop :=
  concat blocks = l /\ Forall (fun b => length b = bs) blocks.

(* SP 800-38A 6.1 *)
Definition spec_ecb (E : list N -> list N) (P : list (list N)) : list (list N) := map E P.
(* SP 800-38A 6.2: C_1 = E(P_1 xor IV), C_j = E(P_j xor C_(j-1)) *)
Fixpoint spec_cbc (E : list N -> list N) (prev : list N) (P : list (list N)) : list (list N) :=
  match P with
  | [] => []
  | p :: r => let c := E (xor_bytes p prev) in c :: spec_cbc E c r
  end.
(* SP 800-38A 6.4: O_j = E^j(IV), C_j = P_j xor O_j *)
Definition spec_ofb (E : list N -> list N) (iv : list N) (P : list (list N)) : list (list N) :=
  map (fun jp => xor_bytes (snd jp) (Nat.iter (S (fst jp)) E iv)) (combine (seq 0 (length P)) P).
(* SP 800-38A 6.5 with the standard incrementing function on the last 32 bits (B.1):
   the j-th counter block is the initial one with j added to its last 32 bits, modulo 2^32 *)
Definition counter_block (iv : list N) (j : nat) : list N :=
  let n := (length iv - 4)%nat in
  firstn n iv ++ be_bytes 4 ((be_val (skipn n iv) + N.of_nat j) mod 2 ^ 32).
Definition spec_ctr (E : list N -> list N) (iv : list N) (P : list (list N)) : list (list N) :=
  map (fun jp => xor_bytes (snd jp) (E (counter_block iv (fst jp)))) (combine (seq 0 (length P)) P).

(* GF(2^128), SP 800-38D 6.3. A polynomial over GF(2) is the N whose bit i is the coefficient of
   x^i; addition is N.lxor; the carry-less product is schoolbook multiplication without carries. *)
Fixpoint clmul_pos (a : positive) (b : N) : N :=
  match a with
  | xH => b
  | xO a' => 2 * clmul_pos a' b
  | xI a' => N.lxor b (2 * clmul_pos a' b)
  end.
Definition clmul (a b : N) : N := match a with N0 => 0 | Npos p => clmul_pos p b end.
(* x^128 + x^7 + x^2 + x + 1 *)
Definition gf_modulus : N := 2 ^ 128 + 2 ^ 7 + 2 ^ 2 + 2 + 1.
(* p and z are congruent: their difference is a multiple of the modulus *)
Definition gf_congr (p z : N) : Prop := exists q, N.lxor p z = clmul q gf_modulus.
(* In a block the leftmost bit is the coefficient of x^0: reverse the n bits of v *)
Fixpoint rev_bits (n : nat) (v : N) : N :=
  match n with O => 0 | S m => (v mod 2) * 2 ^ N.of_nat m + rev_bits m (v / 2) end.
Definition poly_of_block (v : N) : N := rev_bits 128 v.

(* SP 800-38D algorithm 1 on blocks read as 128-bit big-endian numbers, R = 11100001 || 0^120 *)
Definition nist_step (x : N) (s : N * N) (i : nat) : N * N :=
  let '(z, v) := s in
  (if N.testbit x (127 - N.of_nat i) then N.lxor z v else z,
   if N.testbit v 0 then N.lxor (v / 2) (0xE1 * 2 ^ 120) else v / 2).
Definition nist_mult (x y : N) : N := fst (fold_left (nist_step x) (seq 0 128) (0, y)).

(* SP 800-38D 6.4 and 7.1: GHASH_H over A and C zero padded to whole blocks, then the bit lengths *)
Definition zero_padded (l : list N) : list N := l ++ repeat 0 ((16 - length l mod 16) mod 16).
Definition nist_ghash (h : N) (a c : list N) : N :=
  fold_left (fun x b => nist_mult (N.lxor x b) h)
    (map be_val (chunks 16 (zero_padded a)) ++ map be_val (chunks 16 (zero_padded c)) ++
     [8 * N.of_nat (length a) * 2 ^ 64 + 8 * N.of_nat (length c)]) 0.

(* D undoes E on every block of bs bytes, and both yield blocks of bs bytes *)
Definition inverse_on (bs : nat) (E D : list N -> list N) : Prop :=
  forall x, octets x -> length x = bs ->
    D (E x) = x /\ (octets (E x) /\ length (E x) = bs) /\ (octets (D x) /\ length (D x) = bs).

(* What a caller sets up before calling the cipher: buffers with matching sizes *)
Definition user_task (id : cipher_id) (m : cmode) (a : action) (key iv inp : list N) : task :=
  {| t_cipher := id; t_mode := m; t_action := a;
     t_key := Some key; t_key_size := N.of_nat (length key);
     t_iv := Some iv; t_iv_size := N.of_nat (length iv);
     t_in := Some inp; t_in_size := N.of_nat (length inp); t_arg := [] |}.

(* keys the cipher accepts: not empty, at most 16 bytes for NOEKEON, passing the cipher's own test
   without undefined behaviour *)
Definition acceptable_key (c : blockcipher) (key : list N) : Prop :=
  key <> [] /\ octets key /\
  (bc_id c = NOEKEON \/ bc_id c = NOEKEOND -> (length key <= 16)%nat) /\
  bc_check c key = Done Success.

(* a block cipher of the library whose block function is invertible under every acceptable key *)
Definition lawful (c : blockcipher) : Prop :=
  is_block_cipher (bc_id c) = true /\ iv_len (bc_id c) = N.of_nat (bc_bs c) /\
  (4 <= bc_bs c < 256)%nat /\
  forall key, acceptable_key c key ->
    inverse_on (bc_bs c) (bc_enc c key) (bc_dec c key).

(* the text a finished decryption hands to the caller: the first out_size bytes of out *)
Definition plaintext (p : produced) : list N := firstn (N.to_nat (p_out_size p)) (p_out p).

(* The authentication tag of SP 800-38D for a 16-byte iv, F being the block cipher under the key:
   H = F(0), J0 = GHASH_H({}, iv), tag = GHASH_H(A, C) xor F(J0) *)
Definition gcm_tag_spec (F : list N -> list N) (aad iv c : list N) : list N :=
  let h := be_val (F (repeat 0 16)) in
  xor_bytes (be_bytes 16 (nist_ghash h aad c)) (F (be_bytes 16 (nist_ghash h [] iv))).

(* What the documentation requires from a block cipher task *)
Definition valid_block_task (t : task) : Prop :=
  (exists k, t_key t = Some k) /\ t_key_size t <> 0 /\
  t_mode t <> ModeNr /\
  (t_mode t <> ECB -> (exists iv, t_iv t = Some iv) /\ t_iv_size t = iv_len (t_cipher t)) /\
  (t_action t = Encrypt \/ t_action t = Decrypt \/ t_action t = EncryptWithoutRandomPad) /\
  (t_cipher t = NOEKEON \/ t_cipher t = NOEKEOND -> t_key_size t <= 16) /\
  (exists i, t_in t = Some i) /\ t_in_size t <> 0.

(* and from a stream cipher task: an optional nonce of the right size for SALSA20, CHACHA20 and
   RABBIT *)
Definition valid_stream_task (t : task) : Prop :=
  (exists k, t_key t = Some k) /\ t_key_size t <> 0 /\
  (t_cipher t = RABBIT \/ t_cipher t = SALSA20 \/ t_cipher t = CHACHA20 ->
     (t_iv t = None /\ t_iv_size t = 0) \/
     ((exists iv, t_iv t = Some iv) /\ t_iv_size t = iv_len (t_cipher t))) /\
  (exists i, t_in t = Some i) /\ t_in_size t <> 0.
