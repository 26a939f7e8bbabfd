(* C42-C50: HMAC, the cipher+HMAC pipeline, HKDF, PBKDF2, HOTP and TOTP against MacSpec.v *)
From Verif Require Import Words EncSpec TaskModel CipherBase HashModel HashSpec HashProofs4 ModeModel ModeSpec ModeProps AesModel AesProofs MacModel MacSpec MacProofs MacProofs2 MacPipe.
From Coq Require Import PeanoNat.
Open Scope N_scope.

(* the hash functions a program can pass, with their block and digest sizes; ptrs h B hs are the three function pointers *)
Definition hashes : list (hash_params * nat * nat) :=
  [(md4, 64, 16); (md5, 64, 16); (ripemd128, 64, 16); (ripemd160, 64, 20); (sha1, 64, 20); (sha224, 64, 28); (sha256, 64, 32); (sha384, 128, 48); (sha512, 128, 64)]%nat.
(* what the implementation of h returns; C40 relates it to the standards *)
Definition digest (h : hash_params) (m : list N) : list N := match hash_fn h m with Done d => d | UB => [] end.
(* bytes, fewer than 2^60 *)
Definition text_ok (m : list N) : Prop := octets m /\ N.of_nat (length m) < 2 ^ 60.

Lemma all_implement : forall h B hs, In (h, B, hs) hashes -> implements (ptrs h B hs) (digest h) B hs.
Proof.
  intros h B hs A. cbn [In hashes] in A. destruct A as [E|[E|[E|[E|[E|[E|[E|[E|[E|[]]]]]]]]]]; injection E as <- <- <-.
  - exact i_md4. - exact i_md5. - exact i_rmd128. - exact i_rmd160. - exact i_sha1. - exact i_sha224. - exact i_sha256. - exact i_sha384. - exact i_sha512.
Qed.

(* ------------------------------------------------------------------ C42 *)
Theorem C42_hmac_is_rfc2104 : forall h B hs, In (h, B, hs) hashes -> forall K x i r, text_ok K -> text_ok x -> x <> [] ->
  kryptos_hmac (ptrs h B hs) (mkMT Encrypt (Some K) i (Some x) r) =
  Done (mkMT Encrypt (Some K) i (Some (HMAC (digest h) B K x ++ x)) Success).
Proof. intros h B hs A. exact (hmac_generates _ _ _ _ (all_implement h B hs A)). Qed.
Print Assumptions C42_hmac_is_rfc2104.
Example C42_meets : In (sha256, 64, 32)%nat hashes /\ text_ok [1; 2; 3] /\ text_ok (repeat 170 131).
Proof. split; [cbn; tauto|]. split; split; try reflexivity; repeat constructor. Qed.
(* with the standard hash function, where C40 gives it; missing: text ending at a block boundary, long keys likewise *)
Theorem C42_hmac_standard_64_partial : forall h H, In (h, H) hashes64 -> forall K x, text_ok K -> text_ok x -> (length x mod 64 <> 0)%nat ->
  (length K <= 64 \/ length K mod 64 <> 0)%nat -> HMAC (digest h) 64 K x = HMAC H 64 K x.
Proof. exact hmac_standard_64. Qed.
Print Assumptions C42_hmac_standard_64_partial.
Theorem C42_hmac_standard_128_partial : forall h H, In (h, H) hashes128 -> forall K x, text_ok K -> text_ok x ->
  let good n := (n mod 128 <> 0 /\ (n mod 128 < 112 \/ 120 <= n mod 128))%nat in
  good (length x) -> (length K <= 128)%nat \/ good (length K) -> HMAC (digest h) 128 K x = HMAC H 128 K x.
Proof. exact hmac_standard_128. Qed.
Print Assumptions C42_hmac_standard_128_partial.
(* nothing to authenticate, no key or no hash: the HMAC error, and the task is otherwise as it was *)
Theorem C42_hmac_error : forall p t, h_fn p = None \/ h_input_size p = None \/ h_size p = None \/ mt_key t = None \/
  (mt_action t = Encrypt /\ (mt_out t = None \/ mt_out t = Some [])) \/ (mt_action t <> Encrypt /\ mt_action t <> Decrypt) ->
  kryptos_hmac p t = Done (mkMT (mt_action t) (mt_key t) (mt_in t) (mt_out t) HMACError).
Proof.
  intros p t H. unfold kryptos_hmac, set_result. destruct (h_fn p); [|reflexivity]. destruct (h_input_size p); [|reflexivity].
  destruct (h_size p); [|reflexivity]. destruct (mt_key t); [|reflexivity].
  destruct H as [H|[H|[H|[H|[[H [H'|H']]|[H H']]]]]]; try discriminate; try (rewrite H, H'; reflexivity). destruct (mt_action t); congruence.
Qed.
Print Assumptions C42_hmac_error.

(* ------------------------------------------------------------------ C43 *)
Theorem C43_hmac_verification : forall h B hs, In (h, B, hs) hashes -> forall K inp o r, text_ok K -> text_ok inp ->
  let valid := exists tag x, inp = tag ++ x /\ length tag = hs /\ x <> [] /\ tag = HMAC (digest h) B K x in
  let run := kryptos_hmac (ptrs h B hs) (mkMT Decrypt (Some K) (Some inp) o r) in
  (valid -> run = Done (mkMT Decrypt (Some K) (Some (skipn hs inp)) o Success)) /\
  (~ valid -> run = Done (mkMT Decrypt (Some K) (Some inp) o HMACError)).
Proof.
  intros h B hs A K inp o r HK Hi valid run. unfold run. rewrite (hmac_verifies _ _ _ _ (all_implement h B hs A) K inp o r HK Hi).
  destruct (Nat.ltb hs (length inp) && eqb_list (firstn hs inp) (HMAC (digest h) B K (skipn hs inp)))%bool eqn:E.
  - split; [reflexivity|]. intro X. exfalso. apply X. apply andb_true_iff in E. destruct E as [E1 E2]. apply Nat.ltb_lt in E1. apply eqb_list_eq in E2.
    exists (firstn hs inp), (skipn hs inp). split; [symmetry; apply firstn_skipn|]. split; [rewrite firstn_length; lia|]. split; [|exact E2].
    intro Y. apply (f_equal (@length N)) in Y. rewrite skipn_length in Y. cbn [length] in Y. lia.
  - split; [|reflexivity]. intros (tag & x & -> & L & Hx & Et). exfalso. apply andb_false_iff in E.
    rewrite (CipherLib.firstn_exact N _ _ hs L), (CipherLib.skipn_exact N _ _ hs L) in E. destruct E as [E|E].
    + apply Nat.ltb_ge in E. rewrite app_length in E. destruct x; [congruence|]. cbn [length] in E. lia.
    + rewrite <- Et in E. assert (eqb_list tag tag = true) as Y by (apply eqb_list_eq; reflexivity). congruence.
Qed.
Print Assumptions C43_hmac_verification.
Example C43_meets : exists inp, text_ok inp /\ exists tag x, inp = tag ++ x /\ length tag = 16%nat /\ x <> [] /\ tag = HMAC (digest md5) 64 [1] x.
Proof.
  assert (text_ok [1]) as A by (split; [repeat constructor|reflexivity]). assert (text_ok [7]) as A' by (split; [repeat constructor|reflexivity]).
  destruct (HMAC_ok _ _ _ _ i_md5 [1] [7] A A') as [L O]. exists (HMAC (digest md5) 64 [1] [7] ++ [7]). split.
  - split; [apply octets_app; [exact O|apply A']|]. rewrite app_length. unfold digest, MacProofs.digest in *. rewrite L. reflexivity.
  - exists (HMAC (digest md5) 64 [1] [7]), [7]. split; [reflexivity|]. split; [exact L|]. split; [discriminate|reflexivity].
Qed.
(* Forgery, because the hash functions leave out the padding of whole blocks (C39): from a tag for text anyone computes another
   text accepted with the same tag under the same, unknown, key. *)
Theorem C43_forgery_refuted : forall tag text, octets (tag ++ text) -> N.of_nat (length text) + 256 < 2 ^ 60 -> (length text mod 64 <> 0)%nat ->
  let other field := text ++ [0x80] ++ repeat 0 (zeros_needed 64 8 (64 + length text)) ++ field (8 * N.of_nat (64 + length text)) in
  let accepts h hs K m := exists t, kryptos_hmac (ptrs h 64 hs) (mkMT Decrypt (Some K) (Some (tag ++ m)) None Success) = Done t /\ mt_result t = Success /\ mt_in t = Some m in
  (forall field, other field <> text) /\
  forall K, text_ok K ->
  (forall h hs, In (h, hs) [(md4, 16); (md5, 16); (ripemd128, 16); (ripemd160, 20)]%nat -> length tag = hs -> accepts h hs K text -> accepts h hs K (other (le_bytes 8))) /\
  (forall h hs, In (h, hs) [(sha1, 20); (sha224, 28); (sha256, 32)]%nat -> length tag = hs -> accepts h hs K text -> accepts h hs K (other (be_bytes 8))).
Proof.
  intros tag text O L M other accepts. split; [intro field; apply extended_differs|]. intros K HK.
  assert (forall h field block init out hs, made_of h 64 field block init out -> (forall t, length (field t) = 8%nat /\ octets (field t)) ->
    implements (ptrs h 64 hs) (digest h) 64 hs -> length tag = hs -> accepts h hs K text -> accepts h hs K (other field)) as G.
  { intros h field block init out hs A F I Lt (t & E & R & Ei). eexists. split; [apply (forged h field block init out hs A F I); try assumption|split; reflexivity].
    assert (text_ok (tag ++ text)) as T. { split; [exact O|]. pose proof I as (_ & _ & Hhs & HB & _). rewrite app_length, Lt. lia. }
    rewrite (hmac_verifies _ _ _ _ I K _ None Success HK T) in E |- *. rewrite (CipherLib.skipn_exact N tag text hs Lt) in *.
    destruct (Nat.ltb hs (length (tag ++ text)) && eqb_list (firstn hs (tag ++ text)) (HMAC (digest h) 64 K text))%bool; [reflexivity|].
    injection E as <-. discriminate R. }
  split; intros h hs A.
  - cbn [In] in A. destruct A as [E|[E|[E|[E|[]]]]]; injection E as <- <-.
    + exact (G _ _ _ _ _ _ m_md4 le8 i_md4). + exact (G _ _ _ _ _ _ m_md5 le8 i_md5). + exact (G _ _ _ _ _ _ m_rmd128 le8 i_rmd128). + exact (G _ _ _ _ _ _ m_rmd160 le8 i_rmd160).
  - cbn [In] in A. destruct A as [E|[E|[E|[]]]]; injection E as <- <-.
    + exact (G _ _ _ _ _ _ m_sha1 be8 i_sha1). + exact (G _ _ _ _ _ _ m_sha224 be8 i_sha224). + exact (G _ _ _ _ _ _ m_sha256 be8 i_sha256).
Qed.
Print Assumptions C43_forgery_refuted.

(* ------------------------------------------------------------------ C44 *)
(* Whatever the cipher: it sees received data only behind a valid MAC, and then exactly the authenticated bytes *)
Theorem C44_only_verified_data : forall h B hs, In (h, B, hs) hashes -> forall K inp o r, text_ok K -> text_ok inp ->
  let valid := exists tag x, inp = tag ++ x /\ length tag = hs /\ x <> [] /\ tag = HMAC (digest h) B K x in
  forall cipher : mac_task -> outcome mac_task,
  let run := run_cipher_mac cipher (kryptos_hmac (ptrs h B hs)) (mkMT Decrypt (Some K) (Some inp) o r) in
  (valid -> run = cipher (mkMT Decrypt (Some K) (Some (skipn hs inp)) o Success)) /\
  (~ valid -> run = Done (mkMT Decrypt (Some K) (Some inp) o HMACError)).
Proof.
  intros h B hs A K inp o r HK Hi valid cipher run. destruct (C43_hmac_verification h B hs A K inp o r HK Hi) as [V1 V2]. unfold run, run_cipher_mac. cbn [mt_action].
  split; intro V; [rewrite (V1 V)|rewrite (V2 V)]; reflexivity.
Qed.
Print Assumptions C44_only_verified_data.
(* encrypting then decrypting, for every block cipher that satisfies its round trip law (all of BlockProps.v), mode and hash *)
Theorem C44_round_trip : forall h B hs, In (h, B, hs) hashes -> forall c m, lawful c -> unauthenticated m ->
  forall pem rnd rnd2 aad aad2 key iv iv2 text r r2, text_ok key -> acceptable_key c key -> octets iv -> octets iv2 ->
  (m <> ECB -> length iv = bc_bs c /\ length iv2 = bc_bs c) -> octets text -> text <> [] -> byte_source rnd -> N.of_nat (length text) < 2 ^ 59 ->
  exists ct, (length text < length ct)%nat /\
    run_cipher_mac (block_step c pem rnd aad m iv) (kryptos_hmac (ptrs h B hs)) (mkMT Encrypt (Some key) (Some text) None r) =
      Done (mkMT Encrypt (Some key) (Some text) (Some (HMAC (digest h) B key ct ++ ct)) Success) /\
    run_cipher_mac (block_step c pem rnd2 aad2 m iv2) (kryptos_hmac (ptrs h B hs)) (mkMT Decrypt (Some key) (Some (HMAC (digest h) B key ct ++ ct)) None r2) =
      Done (mkMT Decrypt (Some key) (Some ct) (Some text) Success).
Proof. intros h B hs A c m. exact (block_pipeline _ _ _ _ c m (all_implement h B hs A)). Qed.
Print Assumptions C44_round_trip.
Example C44_meets : lawful aes128 /\ unauthenticated CBC /\ text_ok (range 16).
Proof. split; [exact aes128_lawful|]. split; [right; left; reflexivity|]. split; [repeat constructor|reflexivity]. Qed.
(* if the cipher fails there is no MAC and no change to what it left *)
Theorem C44_cipher_failure : forall cipher mac t t', mt_action t = Encrypt -> cipher t = Done t' -> mt_result t' <> Success -> run_cipher_mac cipher mac t = Done t'.
Proof.
  intros cipher mac t t' H E R. unfold run_cipher_mac. rewrite H, E. cbn [obind]. destruct (result_beq (mt_result t') Success) eqn:X; [|reflexivity].
  exfalso. apply R. destruct (mt_result t'); (discriminate || reflexivity).
Qed.
Print Assumptions C44_cipher_failure.

(* ------------------------------------------------------------------ C45 *)
(* salt and info may be NULL with size 0, which is the empty string *)
Theorem C45_hkdf_is_rfc5869_partial : forall h B hs, In (h, B, hs) hashes -> forall ikm salt info L,
  text_ok ikm -> ikm <> [] -> text_ok salt -> octets info -> N.of_nat (length info) < 2 ^ 59 ->
  (1 <= L <= 255 * hs)%nat -> forall so io, so = Some salt \/ so = None /\ salt = [] -> io = Some info \/ io = None /\ info = [] ->
  do_hkdf (ptrs h B hs) (Some ikm) so (N.of_nat (length salt)) io (N.of_nat (length info)) L = Done (Some (HKDF (digest h) B salt ikm info L)).
Proof. intros h B hs A. exact (hkdf_spec _ _ _ _ (all_implement h B hs A)). Qed.
Print Assumptions C45_hkdf_is_rfc5869_partial.
Example C45_meets : In (sha1, 64, 20)%nat hashes /\ text_ok (repeat 11 22) /\ (1 <= 42 <= 255 * 20)%nat.
Proof. split; [cbn; tauto|]. split; [split; [repeat constructor|reflexivity]|lia]. Qed.
(* "if not provided, salt is set to a string of HashLen zeros" *)
Theorem C45_no_salt_is_zero_salt : forall h B hs, In (h, B, hs) hashes -> forall ikm info L,
  HKDF (digest h) B [] ikm info L = HKDF (digest h) B (repeat 0 hs) ikm info L.
Proof.
  intros h B hs A ikm info L. unfold HKDF, HKDF_extract. rewrite HMAC_zeros; [reflexivity|].
  destruct (all_implement h B hs A) as (_ & _ & X & _). lia.
Qed.
Print Assumptions C45_no_salt_is_zero_salt.
(* what is out of range is refused *)
Theorem C45_out_of_range : forall h B hs ikm so ss io is L, L = 0%nat \/ (255 * hs < L)%nat -> do_hkdf (ptrs h B hs) ikm so ss io is L = Done None.
Proof.
  intros h B hs ikm so ss io is L H. unfold do_hkdf, ptrs. cbn [h_fn h_input_size h_size]. destruct ikm as [ikm|]; [|reflexivity].
  match goal with |- (if ?b then _ else _) = _ => replace b with true; [reflexivity|] end. symmetry.
  apply orb_true_iff. destruct H as [->|H]; [left|right; apply Nat.ltb_lt; exact H]. rewrite orb_true_r. reflexivity.
Qed.
Print Assumptions C45_out_of_range.
(* RFC 5869 also covers an empty ikm: there is no key here; and the NULL default for the digest size is called, not replaced *)
Theorem C45_empty_ikm_refuted : forall h B hs so ss io is L, In (h, B, hs) hashes -> do_hkdf (ptrs h B hs) (Some []) so ss io is L = Done None.
Proof.
  intros h B hs so ss io is L _. unfold do_hkdf, ptrs. cbn [h_fn h_input_size h_size].
  match goal with |- (if ?b then _ else _) = _ => destruct b; reflexivity end.
Qed.
Print Assumptions C45_empty_ikm_refuted.
Theorem C45_default_size_refuted : do_hkdf (mkPtrs None None None) (Some [1]) None 0 None 0 1 = UB.
Proof. vm_compute. reflexivity. Qed.
Print Assumptions C45_default_size_refuted.

(* ------------------------------------------------------------------ C46 *)
Theorem C46_pbkdf2_is_rfc8018 : forall h B hs, In (h, B, hs) hashes -> forall P S c dklen so,
  text_ok P -> octets S -> N.of_nat (length S) < 2 ^ 59 -> so = Some S \/ so = None /\ S = [] ->
  1 <= c -> N.of_nat dklen <= (2 ^ 32 - 1) * N.of_nat hs ->
  do_pbkdf2 (ptrs h B hs) (Some P) so (N.of_nat (length S)) c dklen = Done (Some (PBKDF2 (HMAC (digest h) B) P S (N.to_nat c) dklen)).
Proof. intros h B hs A P S c dklen so H1 H2 H3 H4 _ H5. exact (pbkdf2_spec _ _ _ _ (all_implement h B hs A) P S c dklen so H1 H2 H3 H4 H5). Qed.
Print Assumptions C46_pbkdf2_is_rfc8018.
Example C46_meets : In (sha1, 64, 20)%nat hashes /\ text_ok [112; 97; 115; 115] /\ octets [115; 97; 108; 116] /\ 1 <= 4096 /\ N.of_nat 25 <= (2 ^ 32 - 1) * N.of_nat 20.
Proof. split; [cbn; tauto|]. split; [split; [repeat constructor|reflexivity]|]. split; [repeat constructor|]. split; discriminate. Qed.
(* a count of 0 is taken as 1, where RFC 8018 has no value; a missing salt with a size is read *)
Theorem C46_count_zero : forall h B hs, In (h, B, hs) hashes -> forall P S dklen,
  text_ok P -> octets S -> N.of_nat (length S) < 2 ^ 59 -> N.of_nat dklen <= (2 ^ 32 - 1) * N.of_nat hs ->
  do_pbkdf2 (ptrs h B hs) (Some P) (Some S) (N.of_nat (length S)) 0 dklen = Done (Some (PBKDF2 (HMAC (digest h) B) P S 1 dklen)).
Proof. intros h B hs A P S dklen H1 H2 H3 H5. exact (pbkdf2_spec _ _ _ _ (all_implement h B hs A) P S 0 dklen (Some S) H1 H2 H3 (or_introl eq_refl) H5). Qed.
Print Assumptions C46_count_zero.
Theorem C46_null_salt_refuted : forall p P n c dklen, h_size p = Some 20%nat -> 0 < n -> (0 < dklen < 255)%nat -> do_pbkdf2 p P None n c dklen = UB.
Proof.
  intros p P n c dklen H Hn Hd. unfold do_pbkdf2. rewrite H. destruct (N.ltb_spec ((2 ^ 32 - 1) * N.of_nat 20) (N.of_nat dklen)) as [X|_]; [exfalso; lia|].
  destruct dklen as [|k]; [lia|]. cbn [pbkdf2_loop]. unfold pbkdf2_f. replace (n =? 0) with false by (symmetry; apply N.eqb_neq; lia). reflexivity.
Qed.
Print Assumptions C46_null_salt_refuted.

(* ------------------------------------------------------------------ C47 *)
(* hashes whose digest has 20 bytes or more, as RFC 4226 requires for the offset 0..15 *)
Definition otp_hash_ok (h : hash_params) (B hs : nat) : Prop := In (h, B, hs) hashes /\ (20 <= hs)%nat.
(* the token as it is handed over: four bytes, little-endian *)
Definition token_of (h : hash_params) (B : nat) (K : list N) (d c : N) : list N := le_bytes 4 (HOTP (digest h) B K d c).
Theorem C47_hotp_value_partial : forall h B hs, otp_hash_ok h B hs -> forall K d r token c t res o, text_ok K -> 1 <= d <= 9 ->
  kryptos_hotp (mkOtp GenerateToken K r d (ptrs h B hs)) token (mkOS c t res o) =
  Done (mkOS ((c + 1) mod 2 ^ 64) t Success (Some (token_of h B K d c))).
Proof.
  intros h B hs [A Hh] K d r token c t res o HK Hd. unfold kryptos_hotp.
  rewrite (do_hotp_spec _ _ _ _ K d r (all_implement h B hs A) ltac:(lia) HK ltac:(lia)) by (left; reflexivity). reflexivity.
Qed.
Print Assumptions C47_hotp_value_partial.
Example C47_meets : otp_hash_ok sha1 64 20 /\ text_ok (repeat 49 20) /\ 1 <= 6 <= 9.
Proof. split; [split; [cbn; tauto|lia]|]. split; [split; [repeat constructor|reflexivity]|lia]. Qed.
(* RFC 4226 appendix D, counters 0, 1 and 9 of the secret "12345678901234567890" *)
Example C47_rfc4226 : map (HOTP SHA1 64 [49;50;51;52;53;54;55;56;57;48;49;50;51;52;53;54;55;56;57;48] 6) [0; 1; 9] = [755224; 287082; 520489].
Proof. vm_compute. reflexivity. Qed.
(* what init accepts *)
Theorem C47_init : forall task act secret moving thr rs digits p, hotp_init task act secret moving thr rs digits p = Success <->
  task = true /\ (exists b s, secret = Some (b :: s)) /\ moving <> None /\ (exists d, digits = Some d /\ 1 <= d <= 9) /\
  h_fn p <> None /\ h_input_size p <> None /\ (exists hs, h_size p = Some hs /\ (15 <= hs)%nat) /\
  (act = GenerateToken \/ act = ValidateToken /\ rs <> None /\ exists t, thr = Some t /\ 0 < t).
Proof.
  intros task act secret moving thr rs digits p. unfold hotp_init. split.
  - intro H. destruct task; [|discriminate]. destruct secret as [[|b s]|]; try discriminate. destruct moving; [|discriminate]. destruct digits as [d|]; [|discriminate].
    destruct (h_fn p); [|discriminate]. destruct (h_input_size p); [|discriminate]. destruct (h_size p) as [hs|]; [|discriminate].
    destruct ((d =? 0) || (9 <? d))%bool eqn:E; [discriminate|]. apply orb_false_iff in E. destruct E as [E1 E2]. apply N.eqb_neq in E1. apply N.ltb_ge in E2.
    split; [reflexivity|]. split; [eauto|]. split; [discriminate|]. split; [exists d; split; [reflexivity|lia]|]. split; [discriminate|]. split; [discriminate|].
    destruct act; try discriminate; destruct (Nat.ltb_spec hs 15); try discriminate.
    + split; [eauto|]. left. reflexivity.
    + split; [eauto|]. right. split; [reflexivity|]. destruct thr as [t|]; [|discriminate]. destruct rs; [|discriminate].
      destruct (N.eqb_spec t 0); [discriminate|]. split; [discriminate|]. exists t. split; [reflexivity|lia].
  - intros (-> & (b & s & ->) & Hm & (d & -> & Hd) & H1 & H2 & (hs & E & Hh) & H3). destruct moving; [|congruence]. destruct (h_fn p); [|congruence].
    destruct (h_input_size p); [|congruence]. rewrite E. replace (d =? 0) with false by (symmetry; apply N.eqb_neq; lia). replace (9 <? d) with false by (symmetry; apply N.ltb_ge; lia).
    cbn [orb]. replace (Nat.ltb hs 15) with false by (symmetry; apply Nat.ltb_ge; exact Hh).
    destruct H3 as [->|(-> & Hr & t & -> & Ht)]; [reflexivity|]. destruct rs; [|congruence]. replace (t =? 0) with false by (symmetry; apply N.eqb_neq; lia). reflexivity.
Qed.
Print Assumptions C47_init.
(* digests of 15 to 18 bytes, which init lets through, are truncated from bytes that are not of the MAC: the token then also
   depends on the counter bytes that follow it in the buffer *)
Theorem C47_short_digest_refuted : hotp_init true GenerateToken (Some [1]) (Some 0) None None (Some 6) (ptrs md5 64 16) = Success /\
  exists mac c1 c2 d, octets mac /\ length mac = 16%nat /\ hotp_trunc (mac ++ c1) 16 d <> hotp_trunc (mac ++ c2) 16 d.
Proof.
  split; [reflexivity|]. exists (repeat 15 16), [0;0;0;0;0;0;0;0], [0;0;1;0;0;0;0;0], 9. split; [repeat constructor|]. split; [reflexivity|]. vm_compute. discriminate.
Qed.
Print Assumptions C47_short_digest_refuted.

(* ------------------------------------------------------------------ C48 *)
(* Accepted: the token of counter c + k, for the least such k within the resync window and while attempts are left. The
   counter moves behind it. *)
Theorem C48_accepts : forall h B hs, otp_hash_ok h B hs -> forall K d r, text_ok K -> 1 <= d <= 9 ->
  forall k c t o res token, c < 2 ^ 64 -> k <= r -> k < t -> token = token_of h B K d ((c + k) mod 2 ^ 64) ->
  (forall j, j < k -> token <> token_of h B K d ((c + j) mod 2 ^ 64)) ->
  kryptos_hotp (mkOtp ValidateToken K r d (ptrs h B hs)) token (mkOS c t res o) =
  Done (mkOS ((c + k + 1) mod 2 ^ 64) (t - k) Success o).
Proof. intros h B hs [A Hh] K d r HK Hd. exact (validate_accept _ _ _ _ K d r (all_implement h B hs A) ltac:(lia) HK ltac:(lia)). Qed.
Print Assumptions C48_accepts.
(* Rejected: every other token *)
Theorem C48_rejects : forall h B hs, otp_hash_ok h B hs -> forall K d r, text_ok K -> 1 <= d <= 9 ->
  forall c t o res token, c < 2 ^ 64 -> (forall k, k <= r -> k < t -> token <> token_of h B K d ((c + k) mod 2 ^ 64)) ->
  kryptos_hotp (mkOtp ValidateToken K r d (ptrs h B hs)) token (mkOS c t res o) =
  Done (if 1 <? t then mkOS ((c + r) mod 2 ^ 64) (t - 1 - r) InvalidToken o else mkOS c 0 InvalidToken o).
Proof. intros h B hs [A Hh] K d r HK Hd. exact (validate_reject _ _ _ _ K d r (all_implement h B hs A) ltac:(lia) HK ltac:(lia)). Qed.
Print Assumptions C48_rejects.
(* every token is one or the other *)
Theorem C48_decides : forall h B hs, otp_hash_ok h B hs -> forall K d r, text_ok K -> 1 <= d <= 9 ->
  forall c t o res token, c < 2 ^ 64 -> exists s, kryptos_hotp (mkOtp ValidateToken K r d (ptrs h B hs)) token (mkOS c t res o) = Done s /\
  (os_result s = Success <-> exists k, k <= r /\ k < t /\ token = token_of h B K d ((c + k) mod 2 ^ 64)) /\
  (os_result s <> Success -> os_result s = InvalidToken).
Proof.
  intros h B hs A K d r HK Hd c t o res token Hc.
  assert (19 <= hs)%nat as Hh' by (destruct A; lia).
  destruct (least_match (digest h) B hs K d Hh' ltac:(lia) c t token (S (N.to_nat r))) as [(k & A1 & A2 & A3 & A4)|A'].
  - eexists. split; [apply (C48_accepts h B hs A K d r HK Hd k); try assumption; lia|]. cbn [os_result]. split; [|congruence].
    split; [intros _; exists k; repeat split; [lia|exact A2|exact A3]|reflexivity].
  - eexists. split; [apply (C48_rejects h B hs A K d r HK Hd); [exact Hc|intros k H1 H2; apply A'; lia]|].
    destruct (1 <? t); cbn [os_result]; (split; [|reflexivity]); (split; [discriminate|]); intros (k & H1 & H2 & H3); exfalso; apply (A' k); try assumption; lia.
Qed.
Print Assumptions C48_decides.
(* No replay: over any history of validations on one task in which the counter does not wrap, an accepted token is the token of
   a counter k below the counter left behind, and not below any counter left behind before: the accepted counters increase. *)
Theorem C48_no_replay : forall h B hs, otp_hash_ok h B hs -> forall K d r, text_ok K -> 1 <= d <= 9 ->
  forall tokens s rs, os_c s + N.of_nat (length tokens) * (r + 1) < 2 ^ 64 -> hotp_history (mkOtp ValidateToken K r d (ptrs h B hs)) tokens s = Done rs ->
  length rs = length tokens /\
  (forall i res c, nth_error rs i = Some (res, c) -> os_c s <= c /\
     (res = Success -> exists k token, os_c s <= k < c /\ nth_error tokens i = Some token /\ token = token_of h B K d k)) /\
  (forall i j res c res' c', (i < j)%nat -> nth_error rs i = Some (res, c) -> nth_error rs j = Some (res', c') -> c <= c' /\
     (res' = Success -> exists k token, c <= k < c' /\ nth_error tokens j = Some token /\ token = token_of h B K d k)).
Proof. intros h B hs [A Hh] K d r HK Hd. exact (history_counters _ _ _ _ K d r (all_implement h B hs A) ltac:(lia) HK ltac:(lia)). Qed.
Print Assumptions C48_no_replay.

(* ------------------------------------------------------------------ C49 *)
(* A rejected token moves the counter by the whole resync window when at least two attempts are left. The empty token is always
   rejected. *)
Theorem C49_rejection_moves_counter_refuted : forall h B hs, otp_hash_ok h B hs -> forall K d r, text_ok K -> 1 <= d <= 9 ->
  forall c t o res, 1 < t -> c + r < 2 ^ 64 ->
  kryptos_hotp (mkOtp ValidateToken K r d (ptrs h B hs)) [] (mkOS c t res o) = Done (mkOS (c + r) (t - 1 - r) InvalidToken o).
Proof.
  intros h B hs A K d r HK Hd c t o res Ht Hc. rewrite (C48_rejects h B hs A K d r HK Hd) by (try lia; intros k _ _ E; apply (f_equal (@length N)) in E; unfold token_of in E; rewrite CipherLib.le_bytes_length in E; discriminate).
  replace (1 <? t) with true by (symmetry; apply N.ltb_lt; exact Ht). rewrite N.mod_small by exact Hc. reflexivity.
Qed.
Print Assumptions C49_rejection_moves_counter_refuted.
(* what is true: it stays when one attempt is left, or with an empty window *)
Theorem C49_rejection_partial : forall h B hs, otp_hash_ok h B hs -> forall K d r, text_ok K -> 1 <= d <= 9 ->
  forall c t o res token s, c < 2 ^ 64 -> t <= 1 \/ r = 0 -> kryptos_hotp (mkOtp ValidateToken K r d (ptrs h B hs)) token (mkOS c t res o) = Done s ->
  os_result s <> Success -> os_c s = c.
Proof.
  intros h B hs A K d r HK Hd c t o res token s Hc Ht E R.
  assert (19 <= hs)%nat as Hh' by (destruct A; lia).
  destruct (least_match (digest h) B hs K d Hh' ltac:(lia) c t token (S (N.to_nat r))) as [(k & A1 & A2 & A3 & A4)|A'].
  - rewrite (C48_accepts h B hs A K d r HK Hd k c t o res token) in E; try assumption; [|lia]. injection E as <-. exfalso. apply R. reflexivity.
  - rewrite (C48_rejects h B hs A K d r HK Hd) in E by (try exact Hc; intros k H1 H2; apply A'; lia). injection E as <-.
    destruct (N.ltb_spec 1 t) as [H|H]; [|reflexivity]. destruct Ht as [Ht| ->]; [lia|]. cbn [os_c]. rewrite N.add_0_r. apply N.mod_small. exact Hc.
Qed.
Print Assumptions C49_rejection_partial.
(* ... so a client that stays in step is locked out by rejected attempts of others: here after one bad token with r = 3 *)
Theorem C49_lock_out_refuted : forall h B hs, otp_hash_ok h B hs -> forall K d r, text_ok K -> 1 <= d <= 9 -> 0 < r ->
  forall c t o res, c + r < 2 ^ 63 -> r + 2 <= t -> (forall k, k < c + 2 * r -> c < k -> token_of h B K d k <> token_of h B K d c) ->
  token_of h B K d (c + 2 * r) <> token_of h B K d c ->
  exists s s', kryptos_hotp (mkOtp ValidateToken K r d (ptrs h B hs)) [] (mkOS c t res o) = Done s /\ os_result s = InvalidToken /\
  kryptos_hotp (mkOtp ValidateToken K r d (ptrs h B hs)) (token_of h B K d c) s = Done s' /\ os_result s' = InvalidToken.
Proof.
  intros h B hs A K d r HK Hd Hr c t o res Hc Ht Hk He. eexists. eexists. split; [apply (C49_rejection_moves_counter_refuted h B hs A K d r HK Hd); lia|].
  split; [reflexivity|]. split; [apply (C48_rejects h B hs A K d r HK Hd); [lia|]|].
  - intros k H1 H2. rewrite N.mod_small by lia. destruct (N.eq_dec k r) as [->|Hne]; [replace (c + r + r) with (c + 2 * r) by lia; congruence|].
    intro X. apply (Hk (c + r + k)); [lia|lia|]. symmetry. exact X.
  - destruct (1 <? t - 1 - r); reflexivity.
Qed.
Print Assumptions C49_lock_out_refuted.

(* ------------------------------------------------------------------ C50 *)
(* the time steps tried. The current one, the preceding one, and a third whose sign of T0 is reversed *)
Definition steps (T0 X now : N) : list N :=
  [(now - T0) / X] ++ (if 2 * X <? now then [(now - X - T0) / X] else []) ++ (if 3 * X <? now then [(now - 2 * X + T0) / X] else []).
Theorem C50_totp_window : forall h B hs, otp_hash_ok h B hs -> forall K d, text_ok K -> 1 <= d <= 9 ->
  forall token T0 X now, 0 < X -> T0 + X <= now -> now < 2 ^ 63 ->
  exists o, kryptos_totp (mkOtp ValidateToken K 1 d (ptrs h B hs)) token T0 X now =
    Done (if existsb (fun c => eqb_list (token_of h B K d c) token) (steps T0 X now) then Success else InvalidToken, o).
Proof.
  intros h B hs [A Hh] K d HK Hd token T0 X now HX H0 Hn.
  destruct (totp_validate _ _ _ _ K d (all_implement h B hs A) ltac:(lia) HK ltac:(lia) token T0 X now HX) as [o E]. exists o. rewrite E.
  assert (tries T0 X now = steps T0 X now) as ->; [|reflexivity]. unfold tries, steps.
  assert (forall y, T0 <= y -> y < 2 ^ 64 -> (y + 2 ^ 64 - T0) mod 2 ^ 64 = y - T0) as W.
  { intros y H1 H2. replace (y + 2 ^ 64 - T0) with ((y - T0) + 1 * 2 ^ 64) by lia. rewrite N.mod_add by discriminate. apply N.mod_small. lia. }
  rewrite !W by lia. rewrite (N.mod_small (now - 2 * X + T0)) by lia. reflexivity.
Qed.
Print Assumptions C50_totp_window.
Example C50_meets : 0 < 30 /\ 0 + 30 <= 1111111109 /\ 1111111109 < 2 ^ 63 /\ steps 0 30 1111111109 = [37037036; 37037035; 37037034].
Proof. repeat split. discriminate. Qed.
(* with T0 = 0 the tokens accepted are those of the current and the two preceding steps *)
Theorem C50_epoch : forall X now, 0 < X -> 3 * X < now -> steps 0 X now = [now / X; now / X - 1; now / X - 2].
Proof.
  intros X now HX Hn. unfold steps. replace (2 * X <? now) with true by (symmetry; apply N.ltb_lt; lia). replace (3 * X <? now) with true by (symmetry; apply N.ltb_lt; lia).
  rewrite !N.sub_0_r, N.add_0_r. cbn [app].
  assert (3 <= now / X) as G by (apply N.div_le_lower_bound; lia).
  assert (forall k, k <= now / X -> (now - k * X) / X = now / X - k) as D.
  { intros k Hk. symmetry. apply (N.div_unique _ _ _ (now mod X)); [apply N.mod_lt; lia|]. pose proof (N.div_mod now X ltac:(lia)) as E.
    rewrite N.mul_sub_distr_l. rewrite E at 1. rewrite (N.mul_comm k X). assert (X * k <= X * (now / X)) by (apply N.mul_le_mono_l; exact Hk). lia. }
  rewrite <- (D 1), <- (D 2) by lia. rewrite N.mul_1_l. reflexivity.
Qed.
Print Assumptions C50_epoch.
Theorem C50_totp_generates : forall h B hs, otp_hash_ok h B hs -> forall K d, text_ok K -> 1 <= d <= 9 ->
  forall token T0 X now, 0 < X -> T0 <= now -> now < 2 ^ 64 ->
  kryptos_totp (mkOtp GenerateToken K 1 d (ptrs h B hs)) token T0 X now = Done (Success, Some (token_of h B K d ((now - T0) / X))).
Proof. intros h B hs [A Hh] K d HK Hd. exact (totp_generate _ _ _ _ K d (all_implement h B hs A) ltac:(lia) HK ltac:(lia)). Qed.
Print Assumptions C50_totp_generates.
(* for T0 > 0 the third attempt is not the step before the preceding one: it accepts tokens of the future *)
Theorem C50_future_token_refuted : forall h B hs, otp_hash_ok h B hs -> forall K d, text_ok K -> 1 <= d <= 9 ->
  let now := 1000000 in let T0 := 100000 in let X := 30 in let future := (now - T0 + 199940) / X in
  exists o, kryptos_totp (mkOtp ValidateToken K 1 d (ptrs h B hs)) (token_of h B K d future) T0 X now = Done (Success, o) /\ (now - T0) / X + 6000 < future.
Proof.
  intros h B hs A K d HK Hd now T0 X future.
  destruct (C50_totp_window h B hs A K d HK Hd (token_of h B K d future) T0 X now) as [o E]; [reflexivity|discriminate|reflexivity|].
  exists o. split; [|reflexivity]. rewrite E.
  assert (steps T0 X now = [30000; 29999; future]) as -> by reflexivity. cbn [existsb].
  replace (eqb_list (token_of h B K d future) (token_of h B K d future)) with true by (symmetry; apply eqb_list_eq; reflexivity).
  rewrite orb_true_l, !orb_true_r. reflexivity.
Qed.
Print Assumptions C50_future_token_refuted.
(* a time step of 0 is not refused but divides *)
Theorem C50_zero_step_refuted : forall o token T0 now, kryptos_totp o token T0 0 now = UB.
Proof. intros. reflexivity. Qed.
Print Assumptions C50_zero_step_refuted.
