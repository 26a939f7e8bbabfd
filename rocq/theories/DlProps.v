(* C72-C74, C79: ElGamal, DSA and discrete logarithm parameters. "magnitude" is the number a multiprecision value stands for (MpSpec),
   be_val the number a byte string denotes in base 256, the most significant byte first; "number a": a is a value the library can hold,
   not negative; "one_digit a": it is below 2^64 without leading zero digits. "fits": shorter than 2^60 bytes. *)
From Verif Require Import Words EncSpec TaskModel MpModel MpModel2 MpSpec PemModel PemSpec DlModel MpProofs MpProofs2 MpProofs3 MpProofs4 MpProofs5 MpProofs6 NumTheory PkLib DlProofs.
From Coq Require Import Znumtheory.
Open Scope N_scope.

Definition number (a : mp) : Prop := well_formed a /\ neg a = false.
Definition one_digit (a : mp) : Prop := number a /\ length (data a) = 1%nat /\ magnitude a <> 0.
Definition is_a_prime (a : mp) : Prop := prime (Z.of_N (magnitude a)).
Lemma digit_small : forall a, one_digit a -> small a.
Proof.
  intros a (Pa & L & Z). split; [exact Pa|]. assert (magnitude a < 2 ^ 64) as M by (pose proof (num_size a Pa L) as S; rewrite B_eq in S; exact S). split; [split; [destruct (magnitude a); [congruence|reflexivity]|exact M]|]. apply one_trim; assumption.
Qed.

(* C72. Every number from 1 to p - 1 is encrypted, and decrypts to a number congruent to it modulo p: to the same number if p is below
   2^64 (missing: equality for longer p, where a division may leave a remainder that is not reduced, C61). *)
Theorem elgamal_decrypts_partial : forall fuel p q g rs r1 pub r2 priv rs', number p -> number q -> number g -> is_a_prime p -> 2 < magnitude q < magnitude p -> ~ N.divide (magnitude p) (magnitude g) -> bytes rs ->
  eg_key_pair fuel p q g rs = Done (Some ((r1, Some pub), (r2, Some priv), rs')) -> fits pub -> fits priv ->
  r1 = Success /\ r2 = Success /\
  forall inp rs2, bytes inp -> bytes rs2 -> inp <> [] -> 1 <= be_val inp < magnitude p ->
  eg_encrypt fuel pub inp rs2 = Done None (* no more random bytes *) \/
  exists r c rest, eg_encrypt fuel pub inp rs2 = Done (Some (r, Some c, rest)) /\
    (fits c -> r = Success /\ exists out, eg_decrypt priv c = Done (Some (Success, Some out, [])) /\ be_val out mod magnitude p = be_val inp mod magnitude p /\ (one_digit p -> be_val out = be_val inp)).
Proof.
  intros fuel p q g rs r1 pub r2 priv rs' Pp Pq Pg P Q G Hb E F1 F2. assert (magnitude p <> 0) as P0 by (clear - Q; lia). destruct (eg_keys_ok fuel p q g rs r1 pub r2 priv rs' Pp Pq Pg P0 (proj1 Q) Hb E F1 F2) as (S1 & S2 & _ & b & d & K). split; [exact S1|]. split; [exact S2|].
  intros inp rs2 Hi Hr N0 V. assert (magnitude g mod magnitude p <> 0) as G' by (intro Z; apply G, N.mod_divide; assumption).
  destruct (eg_roundtrip fuel p q g b d pub priv K Pp Pq Pg P Q G' inp rs2 Hi Hr N0 V) as [X|(r & c & rest & X & Y)]; [left; exact X|]. right. exists r, c, rest. split; [exact X|]. intro F. destruct (Y F) as (R & out & D1 & D2 & D3). split; [exact R|]. exists out. split; [exact D1|]. split; [exact D2|]. intro O. apply digit_small in O. destruct O as (_ & O1 & O2). apply D3; [apply O1|exact O2].
Qed.
(* other messages are refused *)
Theorem elgamal_range : forall fuel p q g rs r1 pub r2 priv rs', number p -> number q -> number g -> magnitude p <> 0 -> 2 < magnitude q -> bytes rs ->
  eg_key_pair fuel p q g rs = Done (Some ((r1, Some pub), (r2, Some priv), rs')) -> fits pub -> fits priv ->
  forall inp rs2, bytes inp -> inp <> [] -> be_val inp = 0 \/ magnitude p <= be_val inp -> eg_encrypt fuel pub inp rs2 = Done (Some (InvalidParams, None, rs2)).
Proof.
  intros fuel p q g rs r1 pub r2 priv rs' Pp Pq Pg P0 Q Hb E F1 F2 inp rs2 Hi N0 V. destruct (eg_keys_ok fuel p q g rs r1 pub r2 priv rs' Pp Pq Pg P0 Q Hb E F1 F2) as (_ & _ & _ & b & d & K). apply (eg_range fuel p pub inp rs2 Pp); try assumption; [clear - P0; lia|apply (ek_p _ _ _ _ _ _ _ K)].
Qed.
(* the private exponent is between 2 and q - 2 and the public key is its power *)
Theorem elgamal_key : forall fuel p q g rs r1 pub r2 priv rs', number p -> number q -> number g -> magnitude p <> 0 -> 2 < magnitude q -> bytes rs ->
  eg_key_pair fuel p q g rs = Done (Some ((r1, Some pub), (r2, Some priv), rs')) -> fits pub -> fits priv ->
  exists b d, pem_get_mp eg_b (Some pub) = Done (Some b) /\ pem_get_mp eg_d (Some priv) = Done (Some d) /\ 2 <= magnitude d <= magnitude q - 2 /\ magnitude b mod magnitude p = magnitude g ^ magnitude d mod magnitude p.
Proof.
  intros fuel p q g rs r1 pub r2 priv rs' Pp Pq Pg P0 Q Hb E F1 F2. destruct (eg_keys_ok fuel p q g rs r1 pub r2 priv rs' Pp Pq Pg P0 Q Hb E F1 F2) as (_ & _ & _ & b & d & [_ _ _ K4 _ K6 _ R V]). exists b, d. split; [exact K4|]. split; [exact K6|]. split; [exact R|exact V].
Qed.

(* C73. What is signed verifies, and the message comes out, if p and q are below 2^64, the number of the hash is not 0 and s is not 0
   (missing: longer p and q, as in C72; s = 0 is never retried, see dsa_zero_s_refuted). hash: any function to bytes. *)
Theorem dsa_signature_verifies_partial : forall fuel hash p q g rs r1 pub r2 priv rs', one_digit p -> one_digit q -> number g -> is_a_prime q -> magnitude q <> 2 -> magnitude g ^ magnitude q mod magnitude p = 1 mod magnitude p -> bytes rs ->
  dsa_key_pair fuel p q g rs = Done (Some ((r1, Some pub), (r2, Some priv), rs')) -> fits pub -> fits priv -> (2 * N.to_nat (magnitude q) <= fuel)%nat ->
  r1 = Success /\ r2 = Success /\
  forall x rs2, octets x -> x <> [] -> bytes (hash x) -> be_val (hash x) <> 0 -> bytes rs2 ->
  dsa_sign fuel hash priv x rs2 <> UB /\
  forall sg rest, dsa_sign fuel hash priv x rs2 = Done (Some (Success, Some sg, rest)) -> fits sg ->
  exists s, pem_get_mp dsa_s (Some sg) = Done (Some s) /\ (magnitude s <> 0 -> dsa_verify fuel hash pub sg = Done (Some (Success, Some x, []))).
Proof.
  intros fuel hash p q g rs r1 pub r2 priv rs' Dp Dq Pg Q Q2 G Hb E F1 F2 Fu. apply digit_small in Dp. apply digit_small in Dq. assert (pos p /\ pos q) as [Pp Pq] by (split; [apply Dp|apply Dq]). assert (magnitude p <> 0) as P0 by (destruct Dp as (_ & L & _); clear - L; lia). pose proof (primeN_ge _ Q) as Q3. assert (1 < magnitude q) as Q1 by (clear - Q3; lia).
  destruct (dsa_keys_ok fuel p q g rs r1 pub r2 priv rs' Pp Pq Pg P0 Q1 Hb E F1 F2) as (S1 & S2 & _ & e & d & K). split; [exact S1|]. split; [exact S2|]. intros x rs2 O N0 Hh H0 Hr.
  destruct (dsa_sign_ok fuel hash p q g e d pub priv x rs2 K Dp Dq Pg Q Q2 O N0 Hh H0 Hr Fu) as [X|[(rest & X)|(sg & rest & X & Y)]]; rewrite X; (split; [discriminate|]); intros sg' rest' Z F; try discriminate. injection Z as <- <-. destruct (Y F) as (r & s & k & SG & Pr & Ps & Lk & Mr & Ls & V). exists s. split; [apply SG|]. intro S0.
  apply (dsa_verify_ok fuel hash p q g e d pub priv x r s k sg K); try assumption; [intro Z; rewrite Z in H0; apply H0; reflexivity|clear - S0 Ls; lia].
Qed.
(* A signature with 0 < s < q is accepted exactly when the standard's equation holds (FIPS 186-4, section 4.7; missing: longer p and q;
   r and s out of range, which the standard refuses and dsa_forgery_refuted abuses). w is the inverse of s. *)
Theorem dsa_verify_exact_partial : forall fuel hash p q g e r s w key x sg, pem_get_mp dsa_p (Some key) = Done (Some p) -> pem_get_mp dsa_q (Some key) = Done (Some q) -> pem_get_mp dsa_g (Some key) = Done (Some g) -> pem_get_mp dsa_e (Some key) = Done (Some e) ->
  pem_get dsa_x (Some sg) = Done (Some x) -> pem_get_mp dsa_r (Some sg) = Done (Some r) -> pem_get_mp dsa_s (Some sg) = Done (Some s) ->
  one_digit p -> one_digit q -> is_a_prime q -> magnitude q <> 2 -> x <> [] -> bytes (hash x) -> hash x <> [] -> 0 < magnitude s < magnitude q -> w * magnitude s mod magnitude q = 1 -> (2 * N.to_nat (magnitude q) <= fuel)%nat ->
  let u1 := w * be_val (hash x) mod magnitude q in let u2 := w * magnitude r mod magnitude q in
  let good := (magnitude g ^ u1 * magnitude e ^ u2 mod magnitude p) mod magnitude q = magnitude r mod magnitude q in
  (good -> dsa_verify fuel hash key sg = Done (Some (Success, Some x, []))) /\ (~ good -> dsa_verify fuel hash key sg = Done (Some (InvalidSignature, None, []))).
Proof.
  intros fuel hash p q g e r s w key x sg K1 K2 K3 K4 S1 S2 S3 Dp Dq Q Q2 N0 Hh H0 Ls W F. cbv zeta. apply digit_small in Dp. apply digit_small in Dq. rewrite (dsa_verdict fuel hash p q g e key x r s sg w); try assumption; [|repeat split; assumption].
  split; intro C; [apply N.eqb_eq in C|apply N.eqb_neq in C]; rewrite C; reflexivity.
Qed.
(* p = 23, q = 11, g = 4, d = 3, k = 2: the hash 7 gives s = 0, and the signature is refused *)
Theorem dsa_zero_s_refuted : exists pub priv sg, dsa_key_pair 5 (num 23) (num 11) (num 4) [0; 0; 0; 0; 0; 0; 0; 3] = Done (Some ((Success, Some pub), (Success, Some priv), [])) /\
  dsa_sign 50 (fun x => x) priv [7] [0; 0; 0; 0; 0; 0; 0; 2] = Done (Some (Success, Some sg, [])) /\ dsa_verify 50 (fun x => x) pub sg = Done (Some (InvalidSignature, None, [])).
Proof. eexists _, _, _. split; [vm_compute; reflexivity|]. split; [vm_compute; reflexivity|]. vm_compute. reflexivity. Qed.
(* C74. Anyone can sign: r = 1 with s = 0 is accepted for every message, under every key with an odd q. *)
Theorem dsa_forgery_refuted : forall fuel hash p q g e key x sg, pem_get_mp dsa_p (Some key) = Done (Some p) -> pem_get_mp dsa_q (Some key) = Done (Some q) -> pem_get_mp dsa_g (Some key) = Done (Some g) -> pem_get_mp dsa_e (Some key) = Done (Some e) ->
  1 < magnitude p -> 1 < magnitude q -> N.odd (magnitude q) = true -> (N.to_nat (magnitude q) < fuel)%nat ->
  octets x -> x <> [] -> bytes (hash x) -> hash x <> [] -> put_mps (snd (pem_put None dsa_x x)) [(dsa_r, num 1); (dsa_s, num 0)] = (Success, Some sg) -> fits sg ->
  dsa_verify fuel hash key sg = Done (Some (Success, Some x, [])).
Proof.
  intros fuel hash p q g e key x sg K1 K2 K3 K4 P1 Q1 Oq Fu O N0 Hh H0 E F. assert (pos (num 1) /\ pos (num 0)) as [R S] by (split; apply pos_num; reflexivity). destruct (pem_put None dsa_x x) as [r0 o] eqn:E0. destruct (PkLib.rel_put None empty_map dsa_x x PemProofs.rel_empty ltac:(RsaProofs.hdr) eq_refl O N0) as (p1 & E1 & _). rewrite E0 in E1. injection E1 as -> ->. cbn [snd] in E.
  destruct (signature_ok x (num 1) (num 0) p1 Success sg O N0 R S E0 E F) as [_ SG]. apply (dsa_forgery fuel hash p q g e key x (num 1) (num 0) sg); try assumption; apply mag_num.
Qed.
(* a buffer without one of the parameters is read through an uninitialised pointer *)
Theorem dsa_missing_refuted : forall fuel hash key inp rs, pem_get_mp dsa_p (Some key) = Done None -> dsa_verify fuel hash key inp = UB /\ dsa_sign fuel hash key inp rs = UB.
Proof. intros fuel hash key inp rs H. unfold dsa_verify, dsa_sign, fetch_or. rewrite H. split; reflexivity. Qed.

(* C79. What is accepted: g is between 1 and p - 1, q divides p - 1, g^q = 1 modulo p, and the primality test has accepted q and p
   (missing: that they are primes, which the test does not decide, see dl_params_refuted). *)
Theorem dl_params_sound_partial : forall fuel p q g rs rest, number p -> number q -> number g -> 1 < magnitude p -> verify_dl fuel p q g rs = Done (Some (Success, rest)) ->
  1 < magnitude g < magnitude p - 1 /\ magnitude q <> 0 /\ N.divide (magnitude q) (magnitude p - 1) /\ magnitude g ^ magnitude q mod magnitude p = 1 /\
  exists rs1 rs2, is_prime fuel q rs = Done (Some (true, rs1)) /\ is_prime fuel p rs1 = Done (Some (true, rs2)).
Proof.
  intros fuel p q g rs rest Pp Pq Pg P1 E. destruct (verify_dl_sound fuel p q g rs rest Pp Pq Pg P1 E) as (A & (rs1 & I1 & rs2 & I2) & Z & D & V). split; [exact A|]. split; [exact Z|]. split; [apply N.mod_divide; assumption|]. split; [exact V|]. exists rs1, rs2. split; assumption.
Qed.
(* good parameters below 2^64 are accepted, whatever the random bytes, unless 2^16 divides p - 1 or q - 1 (C64) *)
Theorem dl_params_complete_partial : forall fuel p q g rs, one_digit p -> one_digit q -> number g -> is_a_prime p -> is_a_prime q -> 2 < magnitude q -> ~ N.divide (2 ^ 16) (magnitude p - 1) -> ~ N.divide (2 ^ 16) (magnitude q - 1) -> bytes rs ->
  1 < magnitude g < magnitude p - 1 -> N.divide (magnitude q) (magnitude p - 1) -> magnitude g ^ magnitude q mod magnitude p = 1 ->
  verify_dl fuel p q g rs = Done None (* no more random bytes *) \/ exists rest, verify_dl fuel p q g rs = Done (Some (Success, rest)).
Proof.
  intros fuel p q g rs Dp Dq Pg P Q Q2 D1 D2 Hb G D V. assert (length (data p) = 1%nat /\ length (data q) = 1%nat) as [L1 L2] by (split; [apply Dp|apply Dq]). apply digit_small in Dp. apply digit_small in Dq. apply (verify_dl_complete fuel p q g rs); try assumption. apply N.mod_divide; [clear - Q2; lia|exact D].
Qed.
(* q = 49 is accepted as a prime *)
Theorem dl_params_refuted : ~ prime 49 /\ verify_dl 100 (num 197) (num 49) (num 16) (repeat 0 7 ++ [18] ++ repeat 0 7 ++ [2]) = Done (Some (Success, [])).
Proof. split; [|vm_compute; reflexivity]. intros [_ H]. specialize (H 7%Z ltac:(lia)). destruct H as [_ _ H]. specialize (H 7%Z ltac:(exists 1%Z; reflexivity) ltac:(exists 7%Z; reflexivity)). destruct H as [k K]. lia. Qed.

(* p = 23, q = 11, g = 4 *)
Lemma prime_23 : prime 23. Proof. apply (prime_by_trial _ 5); reflexivity. Qed.
Lemma prime_11 : prime 11. Proof. apply (prime_by_trial _ 4); reflexivity. Qed.
Lemma digit_num : forall d, 0 < d < 2 ^ 64 -> one_digit (num d).
Proof. intros d H. split; [apply pos_num; apply H|]. split; [reflexivity|]. rewrite mag_num. clear - H. lia. Qed.
Example elgamal_meets : let p := num 23 in let q := num 11 in let g := num 4 in
  one_digit p /\ number q /\ number g /\ is_a_prime p /\ 2 < magnitude q < magnitude p /\ ~ N.divide (magnitude p) (magnitude g) /\
  exists pub priv, eg_key_pair 5 p q g [0; 0; 0; 0; 0; 0; 0; 3] = Done (Some ((Success, Some pub), (Success, Some priv), [])) /\ fits pub /\ fits priv.
Proof.
  cbv zeta. split; [apply digit_num; split; reflexivity|]. split; [apply pos_num; reflexivity|]. split; [apply pos_num; reflexivity|]. split; [unfold is_a_prime; rewrite mag_num; exact prime_23|]. split; [rewrite !mag_num; split; reflexivity|]. split; [rewrite !mag_num; intro D; apply N.mod_divide in D; discriminate|]. eexists _, _. split; [vm_compute; reflexivity|split; reflexivity].
Qed.
Example dsa_meets : let p := num 23 in let q := num 11 in let g := num 4 in
  one_digit p /\ one_digit q /\ number g /\ is_a_prime p /\ is_a_prime q /\ ~ N.divide (2 ^ 16) (magnitude p - 1) /\ ~ N.divide (2 ^ 16) (magnitude q - 1) /\ N.divide (magnitude q) (magnitude p - 1) /\ magnitude g ^ magnitude q mod magnitude p = 1 /\ 1 < magnitude g < magnitude p - 1 /\
  exists pub priv sg, dsa_key_pair 5 p q g [0; 0; 0; 0; 0; 0; 0; 3] = Done (Some ((Success, Some pub), (Success, Some priv), [])) /\ fits pub /\ fits priv /\
    dsa_sign 50 (fun x => x) priv [17] [0; 0; 0; 0; 0; 0; 0; 5] = Done (Some (Success, Some sg, [])) /\ fits sg.
Proof.
  cbv zeta. split; [apply digit_num; split; reflexivity|]. split; [apply digit_num; split; reflexivity|]. split; [apply pos_num; reflexivity|]. unfold is_a_prime. rewrite !mag_num. split; [exact prime_23|]. split; [exact prime_11|]. split; [intro D; apply N.mod_divide in D; discriminate|]. split; [intro D; apply N.mod_divide in D; discriminate|]. split; [exists 2; reflexivity|]. split; [reflexivity|]. split; [split; reflexivity|].
  eexists _, _, _. split; [vm_compute; reflexivity|]. split; [reflexivity|]. split; [reflexivity|]. split; [vm_compute; reflexivity|reflexivity].
Qed.

Print Assumptions elgamal_decrypts_partial.
Print Assumptions elgamal_range.
Print Assumptions elgamal_key.
Print Assumptions dsa_signature_verifies_partial.
Print Assumptions dsa_verify_exact_partial.
Print Assumptions dsa_zero_s_refuted.
Print Assumptions dsa_forgery_refuted.
Print Assumptions dsa_missing_refuted.
Print Assumptions dl_params_sound_partial.
Print Assumptions dl_params_complete_partial.
Print Assumptions dl_params_refuted.
