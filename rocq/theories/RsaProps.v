(* C68-C70: plain RSA keys, encryption and signatures. "magnitude" is the number a multiprecision value stands for (MpSpec), be_val the
   number a byte string denotes in base 256, the most significant byte first. "fits": shorter than 2^60 bytes. *)
From Verif Require Import Words TaskModel MpModel MpModel2 MpSpec PemModel RsaModel MpProofs MpProofs2 MpProofs3 MpProofs6 PkLib RsaProofs.
From Coq Require Import Znumtheory.
Open Scope N_scope.

Definition prime_number (a : mp) : Prop := well_formed a /\ neg a = false /\ prime (Z.of_N (magnitude a)).
Definition keys (fuel : nat) (p q : mp) (rs pub priv : list N) : Prop :=
  prime_number p /\ prime_number q /\ magnitude p <> magnitude q /\ bytes rs /\ rsa_key_pair fuel p q rs = Done (Some (pub, priv)) /\ fits pub /\ fits priv.
Lemma of_keys : forall fuel p q rs pub priv, keys fuel p q rs pub priv -> exists n e d, pair_of (magnitude p) (magnitude q) pub priv n e d.
Proof. intros fuel p q rs pub priv ((W1 & N1 & P1) & (W2 & N2 & P2) & Ne & B1 & E & F1 & F2). apply (key_pair_ok fuel p q rs pub priv); try assumption; split; assumption. Qed.
Lemma room : forall n, pos n -> trimmed_digits n -> forall inp : list N, bytes inp -> (exists v, N.of_nat (length inp) = v /\ 256 ^ v <= magnitude n) -> (length inp <= 8 * size n)%nat.
Proof.
  intros n Pn T inp _ (v & <- & L). pose proof (mag_lt n (proj1 Pn)) as M. rewrite B_eq in M. change 2 with (2 ^ 1) in M. assert (256 ^ N.of_nat (length inp) < 256 ^ N.of_nat (8 * size n)) as X. { eapply N.le_lt_trans; [exact L|]. replace (256 ^ N.of_nat (8 * size n)) with (((2 ^ 1) ^ 64) ^ N.of_nat (size n)); [exact M|]. rewrite Nnat.Nat2N.inj_mul, N.pow_mul_r. reflexivity. }
  apply N.pow_lt_mono_r_iff in X; [lia|reflexivity].
Qed.

(* C68. Every message of at most as many bytes as the modulus has is encrypted, and decrypts to a number congruent to it modulo pq, also if
   it is not coprime to pq; to the same number if it is below pq and pq below 2^64. Missing: equality for longer moduli, where a division
   of the exponentiation may leave a remainder that is not reduced (C61). *)
Theorem rsa_decrypts_partial : forall fuel p q rs pub priv inp, keys fuel p q rs pub priv -> bytes inp -> inp <> [] -> 256 ^ N.of_nat (length inp) <= magnitude p * magnitude q \/ (length inp <= 8)%nat ->
  exists c, rsa_encrypt pub inp = Done (Success, Some c) /\
    (fits c -> exists out, rsa_decrypt priv c = Done (Success, Some out) /\ be_val out mod (magnitude p * magnitude q) = be_val inp mod (magnitude p * magnitude q) /\
      (be_val inp < magnitude p * magnitude q < 2 ^ 64 -> be_val out = be_val inp)).
Proof.
  intros fuel p q rs pub priv inp K Hb N0 L. destruct (of_keys _ _ _ _ _ _ K) as (n & e & d & R). destruct K as ((W1 & N1 & P1) & (W2 & N2 & P2) & Ne & _).
  destruct (encrypt_decrypt _ _ pub priv n e d R P1 P2 Ne inp Hb N0) as (c & E & D).
  { destruct L as [L|L]; [|pose proof (wf_size n (proj1 (pr_n _ _ _ _ _ _ _ R))); lia]. apply (room n (pr_n _ _ _ _ _ _ _ R) (pr_nt _ _ _ _ _ _ _ R) inp Hb). exists (N.of_nat (length inp)). split; [reflexivity|]. rewrite (pr_nm _ _ _ _ _ _ _ R). exact L. }
  exists c. split; [exact E|]. intro F. destruct (D F) as (out & D1 & _ & _ & D2 & D3). exists out. split; [exact D1|]. split; [exact D2|exact D3].
Qed.
(* C69. The decrypted buffer has a multiple of eight bytes, so it is never the message if that has not; below 2^64 it is the message with
   zero bytes before it. *)
Theorem rsa_bytes_refuted : forall fuel p q rs pub priv inp, keys fuel p q rs pub priv -> bytes inp -> inp <> [] -> (length inp <= 8)%nat ->
  exists c, rsa_encrypt pub inp = Done (Success, Some c) /\
    (fits c -> exists out, rsa_decrypt priv c = Done (Success, Some out) /\ (length out mod 8 = 0)%nat /\ (length inp mod 8 <> 0 -> out <> inp)%nat /\
      (be_val inp < magnitude p * magnitude q < 2 ^ 64 -> exists k, out = repeat 0 k ++ inp)).
Proof.
  intros fuel p q rs pub priv inp K Hb N0 L. destruct (of_keys _ _ _ _ _ _ K) as (n & e & d & R). destruct K as ((W1 & N1 & P1) & (W2 & N2 & P2) & Ne & _).
  destruct (encrypt_decrypt _ _ pub priv n e d R P1 P2 Ne inp Hb N0) as (c & E & D). { pose proof (wf_size n (proj1 (pr_n _ _ _ _ _ _ _ R))); lia. }
  exists c. split; [exact E|]. intro F. destruct (D F) as (out & D1 & Bo & [Lo G] & D2 & D3). exists out. split; [exact D1|]. split; [exact Lo|]. split; [intros X Y; subst; contradiction|].
  intro H. specialize (D3 H).
  set (k := (length out - length inp)%nat). exists k. assert (bytes (repeat 0 k ++ inp)) as Bk. { apply Forall_app. split; [|exact Hb]. apply Forall_forall. intros z Hz. apply repeat_spec in Hz. subst z. reflexivity. }
  assert (length out = length (repeat 0 k ++ inp)) as Ll by (rewrite app_length, repeat_length; unfold k; lia). assert (be_val (repeat 0 k ++ inp) = be_val out) as Vk. { rewrite D3. clear. induction k as [|k IH]; [reflexivity|]. exact IH. }
  transitivity (be_bytes (length out) (be_val out)); [symmetry; apply be_bytes_val; exact Bo|]. rewrite <- Vk, Ll. apply be_bytes_val. exact Bk.
Qed.
(* C70. A signature verifies, and the message comes out, if the message is below the modulus and that below 2^64 (missing: longer
   moduli, as in C68). *)
Theorem rsa_signature_verifies_partial : forall fuel p q rs pub priv inp, keys fuel p q rs pub priv -> bytes inp -> inp <> [] -> (length inp <= 8)%nat ->
  be_val inp < magnitude p * magnitude q < 2 ^ 64 ->
  exists sg, rsa_sign priv inp = Done (Success, Some sg) /\ (fits sg -> exists out, rsa_verify pub sg = Done (Success, Some out) /\ be_val out = be_val inp).
Proof.
  intros fuel p q rs pub priv inp K Hb N0 L V. destruct (of_keys _ _ _ _ _ _ K) as (n & e & d & R). destruct K as ((W1 & N1 & P1) & (W2 & N2 & P2) & Ne & _).
  apply (sign_verify _ _ pub priv n e d R P1 P2 Ne inp Hb N0); [|pose proof (wf_size n (proj1 (pr_n _ _ _ _ _ _ _ R))); lia|exact V]. apply (N.le_lt_trans _ 8); [lia|reflexivity].
Qed.
(* whatever the buffers hold, a signature is accepted only if s^e is the claimed x modulo n *)
Theorem rsa_verify_sound : forall key inp out, rsa_verify key inp = Done (Success, Some out) ->
  exists n e x s, pem_get_mp hdr_n (Some key) = Done (Some n) /\ pem_get_mp hdr_e (Some key) = Done (Some e) /\ pem_get_mp hdr_x (Some inp) = Done (Some x) /\ pem_get_mp hdr_s (Some inp) = Done (Some s) /\
    magnitude n <> 0 /\ magnitude s ^ magnitude e mod magnitude n = magnitude x mod magnitude n /\ be_val out = magnitude x.
Proof. exact verify_sound. Qed.
(* A message of the size of the modulus but not below it is signed without a complaint, and the signature is refused. *)
Theorem rsa_sign_large_refuted : forall fuel p q rs pub priv inp, keys fuel p q rs pub priv -> bytes inp -> inp <> [] -> (length inp <= 8)%nat ->
  magnitude p * magnitude q < 2 ^ 64 -> magnitude p * magnitude q <= be_val inp ->
  exists sg, rsa_sign priv inp = Done (Success, Some sg) /\ (fits sg -> rsa_verify pub sg = Done (InvalidSignature, None)).
Proof.
  intros fuel p q rs pub priv inp K Hb N0 L V1 V2. destruct (of_keys _ _ _ _ _ _ K) as (n & e & d & R). destruct K as ((W1 & N1 & P1) & (W2 & N2 & P2) & Ne & _).
  apply (sign_refused _ _ pub priv n e d R P1 P2 Ne inp Hb N0); [|pose proof (wf_size n (proj1 (pr_n _ _ _ _ _ _ _ R))); lia|exact V1|exact V2]. apply (N.le_lt_trans _ 8); [lia|reflexivity].
Qed.
(* p = 11, q = 23: n = 253, e = 3, d = 147 *)
Example rsa_meets : exists pub priv, keys 300 (num 11) (num 23) [0; 0; 0; 3] pub priv /\ bytes [77] /\ 256 ^ N.of_nat (length [77]) <= 11 * 23 + 3 /\ be_val [77] < 11 * 23 < 2 ^ 64.
Proof.
  destruct (rsa_key_pair 300 (num 11) (num 23) [0; 0; 0; 3]) as [[[pub priv]|]|] eqn:E; [|vm_compute in E; discriminate|vm_compute in E; discriminate]. exists pub, priv.
  assert (E' := E). vm_compute in E'. injection E' as <- <-. split; [|split; [repeat constructor|split; [vm_compute; discriminate|split; reflexivity]]].
  split; [split; [apply wf_num; rewrite B_eq; reflexivity|split; [reflexivity|rewrite mag_num; apply (prime_by_trial _ 5); reflexivity]]|].
  split; [split; [apply wf_num; rewrite B_eq; reflexivity|split; [reflexivity|rewrite mag_num; apply (prime_by_trial _ 5); reflexivity]]|].
  split; [rewrite !mag_num; discriminate|]. split; [repeat constructor|]. split; [exact E|split; reflexivity].
Qed.

Print Assumptions rsa_decrypts_partial.
Print Assumptions rsa_bytes_refuted.
Print Assumptions rsa_signature_verifies_partial.
Print Assumptions rsa_verify_sound.
Print Assumptions rsa_sign_large_refuted.
