(* C51 SipHash and C52 the Poly1305 task. *)
From Verif Require Import Words EncSpec TaskModel CipherLib MacModel MacProofs SipModel SipSpec SipProofs.
From Coq Require Import PeanoNat.
Open Scope N_scope.

(* ------------------------------------------------------------------ C51 *)
(* Appending a tag: the tag is SipHash-c-d, big-endian, of the whole buffer under the key brought to 16 bytes. *)
Theorem C51_siphash_tag : forall c d key m i r, octets key -> octets m -> m <> [] ->
  kryptos_siphash c d (mkMT Encrypt (Some key) i (Some m) r) =
    Done (mkMT Encrypt (Some key) i (Some (be_bytes 8 (SipHash c d (key16 key) m) ++ m)) Success).
Proof.
  intros c d key m i r Ok Om Hm. unfold kryptos_siphash. cbn [mt_key mt_action mt_out mt_in]. destruct m as [|b m]; [congruence|].
  destruct (key16_ok key Ok) as [O16 L16]. rewrite sip_key_eq, do_siphash_eq by assumption. cbv zeta. rewrite sip_tag_bytes by (apply siphash_lt; assumption). reflexivity.
Qed.
Print Assumptions C51_siphash_tag.
(* a key of exactly 16 bytes is used as it is; a shorter one as if zeros followed it *)
Theorem C51_keys : (forall key, length key = 16%nat -> key16 key = key) /\ (forall key n, (length key + n <= 16)%nat -> key16 (key ++ repeat 0 n) = key16 key).
Proof.
  split; [|exact key16_pads]. intros key L. rewrite <- sip_key_eq. unfold sip_key. rewrite L. cbn. apply app_nil_r.
Qed.
Print Assumptions C51_keys.
(* the test vector of appendix A of the paper *)
Example C51_vector : SipHash 2 4 (key16 (range 16)) (range 15) = 0xa129ca6149be45e5.
Proof. vm_compute. reflexivity. Qed.
(* Verification accepts exactly the buffers made of the tag of a non-empty text and that text, and strips the tag. *)
Theorem C51_verification : forall c d key inp o r, octets key -> octets inp ->
  let valid := exists tag x, inp = tag ++ x /\ x <> [] /\ tag = be_bytes 8 (SipHash c d (key16 key) x) in
  let run := kryptos_siphash c d (mkMT Decrypt (Some key) (Some inp) o r) in
  (valid -> run = Done (mkMT Decrypt (Some key) (Some (skipn 8 inp)) o Success)) /\
  (~ valid -> run = Done (mkMT Decrypt (Some key) (Some inp) o SipHashError)).
Proof.
  intros c d key inp o r Ok Oi valid run. unfold run, kryptos_siphash. cbn [mt_key mt_action mt_out mt_in]. destruct (key16_ok key Ok) as [O16 L16].
  pose proof (octets_skipn 8 inp Oi) as Os. pose proof (octets_firstn 8 inp Oi) as Of.
  rewrite sip_key_eq, do_siphash_eq by assumption. pose proof (siphash_lt (skipn 8 inp) (key16 key) c d Os O16 L16) as Hs.
  destruct (Nat.leb_spec (length inp) 8) as [H|H].
  - split; [|reflexivity]. intros (tag & x & -> & Hx & ->). exfalso. rewrite app_length, be_bytes_length in H. destruct x; [congruence|]. cbn [length] in H. lia.
  - assert (length (firstn 8 inp) = 8%nat) as L8 by (rewrite firstn_length; lia).
    destruct (N.eqb_spec (SipHash c d (key16 key) (skipn 8 inp)) (be_val (firstn 8 inp))) as [E|E]; split; intro V; try reflexivity; exfalso.
    + apply V. exists (firstn 8 inp), (skipn 8 inp). split; [symmetry; apply firstn_skipn|]. split.
      * intro Y. apply (f_equal (@length N)) in Y. rewrite skipn_length in Y. cbn [length] in Y. lia.
      * rewrite E. rewrite <- L8 at 2. symmetry. apply be_bytes_val. apply (proj1 (octets_bytes _)). exact Of.
    + destruct V as (tag & x & -> & Hx & Et). assert (length tag = 8%nat) as Lt by (rewrite Et; apply be_bytes_length).
      rewrite (firstn_exact N _ _ 8 Lt), (skipn_exact N _ _ 8 Lt) in *. apply E. rewrite Et, be_val_bytes; [reflexivity|]. exact Hs.
Qed.
Print Assumptions C51_verification.
Example C51_meets : exists inp, octets inp /\ exists tag x, inp = tag ++ x /\ x <> [] /\ tag = be_bytes 8 (SipHash 2 4 (key16 [1; 2; 3]) x).
Proof.
  exists (be_bytes 8 (SipHash 2 4 (key16 [1; 2; 3]) [7]) ++ [7]). split.
  - apply octets_app; [apply (proj2 (octets_bytes _)), be_bytes_bytes|repeat constructor].
  - eexists; eexists. split; [reflexivity|]. split; [discriminate|reflexivity].
Qed.
(* with a cipher: the plaintext of an unverified buffer is never computed *)
Theorem C51_only_verified_data : forall c d key inp o r, octets key -> octets inp ->
  let valid := exists tag x, inp = tag ++ x /\ x <> [] /\ tag = be_bytes 8 (SipHash c d (key16 key) x) in
  forall cipher : mac_task -> outcome mac_task,
  let run := run_cipher_mac cipher (kryptos_siphash c d) (mkMT Decrypt (Some key) (Some inp) o r) in
  (valid -> run = cipher (mkMT Decrypt (Some key) (Some (skipn 8 inp)) o Success)) /\
  (~ valid -> run = Done (mkMT Decrypt (Some key) (Some inp) o SipHashError)).
Proof.
  intros c d key inp o r HK Hi valid cipher run. destruct (C51_verification c d key inp o r HK Hi) as [V1 V2]. unfold run, run_cipher_mac. cbn [mt_action].
  split; intro V; [rewrite (V1 V)|rewrite (V2 V)]; reflexivity.
Qed.
Print Assumptions C51_only_verified_data.
Theorem C51_errors : forall c d key t,
  (mt_key t = None -> kryptos_siphash c d t = Done (set_result t KeyError)) /\
  (mt_key t = Some key -> mt_action t <> Encrypt -> mt_action t <> Decrypt -> kryptos_siphash c d t = Done (set_result t NoSupport)).
Proof.
  intros c d key [a k i o r]. cbn [mt_key mt_action]. unfold kryptos_siphash. cbn [mt_key mt_action]. split; [intros ->; reflexivity|].
  intros -> H1 H2. destruct a; congruence.
Qed.
Print Assumptions C51_errors.
(* the plain function, for keys of at least 16 bytes *)
Theorem C51_sum : forall c d key m size, octets key -> octets m -> (0 < c)%nat -> (0 < d)%nat -> (16 <= length key)%nat -> size = N.of_nat (length m) ->
  siphash_sum (Some m) size (Some key) c d = Done (SipHash c d (firstn 16 key) m).
Proof.
  intros c d key m size Ok Om Hc Hd L _. unfold siphash_sum.
  replace (Nat.eqb c 0) with false by (symmetry; apply Nat.eqb_neq; lia). replace (Nat.eqb d 0) with false by (symmetry; apply Nat.eqb_neq; lia).
  replace (Nat.eqb (length key) 0) with false by (symmetry; apply Nat.eqb_neq; lia). cbn [orb].
  replace (Nat.ltb (length key) 16) with false by (symmetry; apply Nat.ltb_ge; exact L).
  rewrite do_siphash_eq; [reflexivity|exact Om|apply octets_firstn, Ok|rewrite firstn_length; lia].
Qed.
Print Assumptions C51_sum.
(* Not so: the empty key is not refused (it acts as sixteen zeros); *)
Theorem C51_empty_key_refuted : forall c d m i r, octets m -> m <> [] ->
  kryptos_siphash c d (mkMT Encrypt (Some []) i (Some m) r) =
    Done (mkMT Encrypt (Some []) i (Some (be_bytes 8 (SipHash c d (repeat 0 16) m) ++ m)) Success).
Proof. intros c d m i r Om Hm. exact (C51_siphash_tag c d [] m i r (Forall_nil _) Om Hm). Qed.
Print Assumptions C51_empty_key_refuted.
(* the plain function reads past a key shorter than 16 bytes, and drops what a longer key has after 16 bytes: it is not the value of
   the tag under the same key. *)
Theorem C51_sum_refuted : (forall c d m size key, (0 < c)%nat -> (0 < d)%nat -> (0 < length key < 16)%nat -> siphash_sum (Some m) size (Some key) c d = UB) /\
  siphash_sum (Some [1]) 1 (Some (range 17)) 2 4 <> Done (SipHash 2 4 (key16 (range 17)) [1]).
Proof.
  split.
  - intros c d m size key Hc Hd L. unfold siphash_sum.
    replace (Nat.eqb c 0) with false by (symmetry; apply Nat.eqb_neq; lia). replace (Nat.eqb d 0) with false by (symmetry; apply Nat.eqb_neq; lia).
    replace (Nat.eqb (length key) 0) with false by (symmetry; apply Nat.eqb_neq; lia). cbn [orb].
    replace (Nat.ltb (length key) 16) with true by (symmetry; apply Nat.ltb_lt; lia). reflexivity.
  - vm_compute. discriminate.
Qed.
Print Assumptions C51_sum_refuted.

(* ------------------------------------------------------------------ C52 *)
(* key: what is left of a user key, at most 16 bytes; the nonce fills it up to the 32 bytes of a one-time key *)
Definition mac_key (key : list N) : list N := if Nat.ltb 16 (length key) then key16 key else key.
Definition nonce_size (key : list N) : nat := (32 - length (mac_key key))%nat.
(* Verification accepts exactly tag ‖ nonce ‖ text with the tag of the text under key ‖ nonce. tag: any function returning 16
   octets. Missing for the full property: that it is the polynomial of RFC 8439; see C52_multiplication_refuted. *)
Theorem C52_verification_partial : forall (tag : list N -> list N -> list N) nonce key inp o r,
  (forall k m, length (tag k m) = 16%nat) -> key <> [] ->
  let valid := exists n x, inp = tag x (mac_key key ++ n) ++ n ++ x /\ length n = nonce_size key /\ x <> [] in
  let run := do_poly1305 (fun m k => Done (tag m k)) nonce (mkMT Decrypt (Some key) (Some inp) o r) in
  (valid -> run = Done (mkMT Decrypt (Some key) (Some (skipn (16 + nonce_size key) inp)) o Success)) /\
  (~ valid -> run = Done (mkMT Decrypt (Some key) (Some inp) o POLY1305Error)).
Proof.
  intros tag nonce key inp o r Ht Hk valid run. unfold run, valid, nonce_size, mac_key in *. clear run valid. fold (pkey key). split.
  - intros (n & x & -> & Ln & Hx). rewrite (poly_checks2 _ nonce key _ n x o r (tag x (pkey key ++ n)) Hk (Ht _ _) Ln Hx eq_refl).
    replace (eqb_list _ _) with true by (symmetry; apply eqb_list_eq; reflexivity).
    rewrite (app_assoc _ n x), (skipn_exact N (tag x (pkey key ++ n) ++ n) x) by (rewrite app_length, Ht, Ln; reflexivity). reflexivity.
  - intro V. destruct (Nat.leb_spec (length inp) (16 + (32 - length (pkey key)))) as [H|H]; [apply poly_checks; assumption|].
    set (n := (32 - length (pkey key))%nat) in *. set (g := firstn 16 inp). set (nn := firstn n (skipn 16 inp)). set (x := skipn n (skipn 16 inp)).
    assert (inp = g ++ nn ++ x) as E by (unfold g, nn, x; rewrite !firstn_skipn; reflexivity).
    assert (length g = 16%nat) as Lg by (unfold g; rewrite firstn_length; lia). assert (length nn = n) as Ln by (unfold nn; rewrite firstn_length, skipn_length; lia).
    assert (x <> []) as Hx. { intro Y. apply (f_equal (@length N)) in Y. unfold x in Y. rewrite !skipn_length in Y. cbn [length] in Y. lia. }
    rewrite E, (poly_checks2 _ nonce key g nn x o r (tag x (pkey key ++ nn)) Hk Lg Ln Hx eq_refl).
    destruct (eqb_list _ g) eqn:B; [|reflexivity]. apply eqb_list_eq in B. exfalso. apply V. exists nn, x. rewrite B. split; [exact E|]. split; [exact Ln|exact Hx].
Qed.
Print Assumptions C52_verification_partial.
(* what the tagging task makes, the verifying task accepts and strips *)
Theorem C52_round_trip_partial : forall (tag : list N -> list N -> list N) nonce nonce2 key x i o r r2,
  (forall k m, length (tag k m) = 16%nat) -> (forall n, length (nonce n) = n) -> key <> [] -> x <> [] ->
  exists buf, do_poly1305 (fun m k => Done (tag m k)) nonce (mkMT Encrypt (Some key) i (Some x) r) = Done (mkMT Encrypt (Some key) i (Some buf) Success) /\
    length buf = (16 + nonce_size key + length x)%nat /\
    do_poly1305 (fun m k => Done (tag m k)) nonce2 (mkMT Decrypt (Some key) (Some buf) o r2) = Done (mkMT Decrypt (Some key) (Some x) o Success).
Proof.
  intros tag nonce nonce2 key x i o r r2 Ht Hn Hk Hx. unfold nonce_size, mac_key. fold (pkey key).
  rewrite (poly_tags (fun m k => Done (tag m k)) nonce key x i r _ Hk Hx eq_refl). set (n := (32 - length (pkey key))%nat) in *.
  eexists. split; [reflexivity|]. split; [rewrite !app_length, Ht, Hn; lia|].
  rewrite (poly_checks2 _ nonce2 key _ (nonce n) x o r2 _ Hk (Ht _ _) (Hn n) Hx eq_refl).
  replace (eqb_list _ _) with true by (symmetry; apply eqb_list_eq; reflexivity). reflexivity.
Qed.
Print Assumptions C52_round_trip_partial.
Example C52_meets : exists (tag : list N -> list N -> list N) inp, (forall k m, length (tag k m) = 16%nat) /\
  exists n x, inp = tag x (mac_key (range 20) ++ n) ++ n ++ x /\ length n = nonce_size (range 20) /\ x <> [].
Proof.
  exists (fun k m => firstn 16 (m ++ k ++ repeat 0 16)). eexists. split.
  - intros k m. rewrite firstn_length, !app_length, repeat_length. lia.
  - exists (repeat 3 16), [9]. split; [reflexivity|]. split; [reflexivity|discriminate].
Qed.
(* Not so: an unknown action is not refused; nothing is computed and the task ends with success. *)
Theorem C52_action_refuted : forall tag nonce key i o r a, key <> [] -> a <> Encrypt -> a <> Decrypt ->
  do_poly1305 tag nonce (mkMT a (Some key) i o r) = Done (mkMT a (Some key) i o Success).
Proof.
  intros tag nonce key i o r a Hk H1 H2. pose proof (pkey_length key Hk) as L. unfold do_poly1305. cbn [mt_key mt_action mt_in mt_out mt_result].
  destruct key as [|k0 key]; [congruence|]. rewrite pkey_eq. unfold kryptos_poly1305. cbn [mt_key mt_action mt_in mt_out mt_result].
  replace (Nat.ltb 32 (length (pkey (k0 :: key)))) with false by (symmetry; apply Nat.ltb_ge; lia). destruct a; try congruence; reflexivity.
Qed.
Print Assumptions C52_action_refuted.
(* Not so: without a key nothing is done and the old result stays, so a verification can end with the success of an earlier step. *)
Theorem C52_no_key_refuted : forall tag nonce a i o, do_poly1305 tag nonce (mkMT a None i o Success) = Done (mkMT a None i o Success) /\
  do_poly1305 tag nonce (mkMT a (Some []) i o Success) = Done (mkMT a (Some []) i o Success).
Proof. intros. split; reflexivity. Qed.
Print Assumptions C52_no_key_refuted.
(* Not so: the multiplication on which the tag rests writes outside its seven-digit product array for every pair of operands. *)
Theorem C52_multiplication_refuted : forall x y, length x = 7%nat -> length y = 7%nat -> poly_mul x y = UB.
Proof. exact poly_mul_ub. Qed.
Print Assumptions C52_multiplication_refuted.
