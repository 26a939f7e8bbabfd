(* C78: the Fortuna generator. *)
From Verif Require Import Words EncSpec ModeModel AesModel HashModel MacModel CipherBase CipherLib FortunaModel FortunaProofs.
Open Scope N_scope.

(* ---- what the generator should do *)
(* the digest the library computes *)
Definition digest256 (m : list N) : list N := match hash_fn sha256 m with Done d => d | UB => [] end.
(* block number c under key K: the AES-128 permutation of the padded counter (the library applies the inverse permutation) *)
Definition cipher_block (K : list N) (c : N) : list N := bc_dec aes128 K (le_bytes 4 c ++ repeat 0 11 ++ [12]).
(* blocks c, c + 1, ..., c + k - 1 *)
Definition blocks_from (K : list N) (c : N) (k : nat) : list N := concat (map (fun i => cipher_block K ((c + N.of_nat i) mod 2 ^ 32)) (seq 0 k)).
(* a generator: 32 key bytes, a 32 bit counter, a seed of at most 32 bytes *)
Definition generator (f : fortuna) : Prop :=
  (length (f_K f) = 32%nat /\ octets (f_K f)) /\ f_C f < 2 ^ 32 /\ octets (f_seed f) /\ (length (f_seed f) <= 32)%nat.
Definition system_block (s : list N) : Prop := octets s /\ length s = 32%nat.
Definition good_seed (c : fortuna_call) : Prop := match c with Reseed s => octets s /\ (length s <= 32)%nat | _ => True end.
Definition system_blocks (sys : nat -> list N * list N) : Prop := forall i, system_block (fst (sys i)) /\ system_block (snd (sys i)).
(* the answer that fits a call: as many bytes as requested, if they are between 1 and 2^20 - 1 *)
Definition fitting (c : fortuna_call) (a : fortuna_answer) : Prop :=
  match c, a with
  | Reseed _, Reseeded => True
  | GetBlock n, Block (Some b) => 0 < n < 2 ^ 20 /\ length b = N.to_nat n /\ octets b
  | GetBlock n, Block None => ~ (0 < n < 2 ^ 20)
  | GetByte, Byte b => b < 256
  | _, _ => False
  end.

Lemma cipher_block_eq : cipher_block = B.
Proof. rewrite B_def. reflexivity. Qed.
Lemma digest256_eq : digest256 = H.
Proof. rewrite H_def. reflexivity. Qed.
Lemma blocks_from_eq : blocks_from = stream.
Proof. unfold blocks_from. rewrite cipher_block_eq. reflexivity. Qed.

(* every history of calls on a new generator, with seeds of at most 32 bytes, is answered without error *)
Theorem C78_output_length_partial : forall sys l, system_blocks sys -> Forall good_seed l ->
  exists answers f, fortuna_run sys fortuna_init l = Done (answers, f) /\ Forall2 fitting l answers /\ generator f.
Proof. intros sys l S F. exact (run_ok l sys fortuna_init init_proper S F). Qed.
Print Assumptions C78_output_length_partial.
(* missing: longer seeds. The second copy of kryptos_fortuna_reseed reads past the end of the digest. *)
Theorem C78_long_seed_refuted : forall f s, generator f -> octets s -> (32 < length s)%nat -> N.of_nat (length s) < 2 ^ 60 -> reseed f s = UB.
Proof.
  intros f s ((LK & OK) & _) O L L2. unfold reseed. destruct (H_ok (f_K f ++ s)) as (E & LH & _).
  - apply Forall_app. split; assumption.
  - rewrite app_length, LK, Nat2N.inj_add. change (2 ^ 61) with (2 ^ 60 + 2 ^ 60). apply N.add_lt_mono; [reflexivity|exact L2].
  - rewrite E. cbn [obind]. rewrite LH. rewrite (proj2 (Nat.ltb_lt _ _) L). reflexivity.
Qed.
Print Assumptions C78_long_seed_refuted.

(* Equal seeds, equal streams: what the operating system would have returned does not matter. The counter has 32 bits; the calls may
   use up to 2^32 - 2 blocks. *)
Definition blocks_used (c : fortuna_call) : N :=
  match c with Reseed _ => 1 | GetBlock n => if (0 <? n) && (n <? 2 ^ 20) then 16 * n + 4 else 0 | GetByte => 260 end.
Theorem C78_equal_seeds_equal_streams : forall seed l sys sys', octets seed -> (length seed <= 32)%nat -> Forall good_seed l ->
  system_blocks sys -> system_blocks sys' -> fold_right (fun c n => blocks_used c + n) 0 l + 1 < 2 ^ 32 ->
  fortuna_run sys fortuna_init (Reseed seed :: l) = fortuna_run sys' fortuna_init (Reseed seed :: l).
Proof.
  intros seed l sys sys' O L F S S' Hs. cbn [fortuna_run fortuna_step]. destruct (reseed_ok fortuna_init seed init_proper O L) as [E P]. rewrite E. cbn [obind].
  rewrite (run_indep l (fun i => sys (Datatypes.S i)) (fun i => sys' (Datatypes.S i)) _ P (fun i => S (Datatypes.S i)) (fun i => S' (Datatypes.S i)) F).
  - reflexivity.
  - cbn. discriminate.
  - change (f_C (reseeded fortuna_init seed)) with 1. rewrite N.add_comm. exact Hs.
Qed.
Print Assumptions C78_equal_seeds_equal_streams.
Example C78_case : system_blocks (fun _ => (repeat 7 32, repeat 9 32)) /\ Forall good_seed [GetBlock 100; GetByte; Reseed [1; 2; 3]; GetBlock 5; GetBlock 0] /\
  fold_right (fun c n => blocks_used c + n) 0 [GetBlock 100; GetByte; Reseed [1; 2; 3]; GetBlock 5; GetBlock 0] + 1 < 2 ^ 32.
Proof.
  split; [intro i; split; (split; [repeat constructor|reflexivity])|]. split; [|reflexivity].
  repeat constructor; cbn; lia.
Qed.

(* The answer to a request is taken from consecutive blocks under the current key; the next two blocks become the new key, and they are
   not part of any answer. (A seeded generator, fewer than 63 calls since the last reseed.) *)
Theorem C78_key_replaced : forall sys sys2 f n, generator f -> f_C f <> 0 -> f_calls f + 2 <= 64 -> 0 < n < 2 ^ 20 -> f_C f + 16 * n < 2 ^ 32 ->
  system_block sys -> system_block sys2 ->
  get_random_block sys sys2 f n =
    Done (Some (firstn (N.to_nat n) (blocks_from (f_K f) (f_C f) (16 * N.to_nat n))),
          mkF (cipher_block (f_K f) (f_C f + 16 * n) ++ cipher_block (f_K f) ((f_C f + 16 * n + 1) mod 2 ^ 32))
              ((f_C f + 16 * n + 2) mod 2 ^ 32) (f_calls f + 2) (f_seed f)).
Proof.
  intros sys sys2 f n P Hn Hc R Hs [O1 L1] [O2 L2]. rewrite cipher_block_eq, blocks_from_eq. destruct (request_ok sys sys2 f n P O1 L1 O2 L2 R) as (E & _ & _). rewrite E.
  assert (prepared sys f = called f) as E1.
  { unfold prepared. destruct (N.eqb_spec (f_C f) 0); [contradiction|]. cbn [called f_calls]. destruct (N.ltb_spec 64 (f_calls f + 1)); [lia|reflexivity]. }
  assert (f_C (advanced (called f) (16 * N.to_nat n)) = f_C f + 16 * n) as E3.
  { rewrite advanced_C; cbn [called f_C]; [lia|]. replace (N.of_nat (16 * N.to_nat n)) with (16 * n) by lia. exact Hs. }
  assert (prepared sys2 (advanced (called f) (16 * N.to_nat n)) = called (advanced (called f) (16 * N.to_nat n))) as E2.
  { unfold prepared. rewrite E3. destruct (N.eqb_spec (f_C f + 16 * n) 0); [lia|]. cbn [called f_calls advanced]. destruct (N.ltb_spec 64 (f_calls f + 1 + 1)); [lia|reflexivity]. }
  unfold after. cbv zeta. rewrite E1, E2. unfold rekeyed. cbn [f_calls f_seed f_K called advanced]. change (f_C (called f)) with (f_C f).
  cbn [advanced f_C called] in *. rewrite E3. apply (f_equal Done). apply (f_equal2 pair); [reflexivity|].
  replace (f_calls f + 1 + 1) with (f_calls f + 2) by lia. apply (f_equal4 mkF); try reflexivity.
  unfold stream. cbn [seq map concat]. rewrite app_nil_r. change (N.of_nat 0) with 0. change (N.of_nat 1) with 1. rewrite N.add_0_r, (N.mod_small _ _ Hs). reflexivity.
Qed.
Print Assumptions C78_key_replaced.
(* After 64 calls the key is mixed with the stored seed before blocks are made. *)
Theorem C78_forced_reseed : forall sys f k, generator f -> f_C f <> 0 -> f_calls f = 64 -> system_block sys ->
  exists g, generate_blocks sys f k = Done (Some (blocks_from (digest256 (f_K f ++ f_seed f)) ((f_C f + 1) mod 2 ^ 32) k), g) /\
    f_K g = digest256 (f_K f ++ f_seed f) /\ f_calls g = 0.
Proof.
  intros sys f k P Hn Hc [O L]. rewrite (generate_ok sys f k P O L), digest256_eq, blocks_from_eq.
  assert (prepared sys f = rested (reseeded (called f) (f_seed f))) as ->.
  { unfold prepared. destruct (N.eqb_spec (f_C f) 0); [contradiction|]. change (f_calls (called f)) with (f_calls f + 1). rewrite Hc. reflexivity. }
  eexists. split; [reflexivity|]. split; reflexivity.
Qed.
Print Assumptions C78_forced_reseed.
(* requests of no bytes or of a megabyte and more are refused, and leave the generator as it is *)
Theorem C78_limit : forall sys sys2 f n, n = 0 \/ 2 ^ 20 <= n -> get_random_block sys sys2 f n = Done (None, f).
Proof. intros sys sys2 f n R. apply refused. unfold requested. intros [A B']. destruct R as [->|R]; [discriminate A|]. apply (N.lt_irrefl n). eapply N.lt_le_trans; eassumption. Qed.
Print Assumptions C78_limit.

(* Choosing Fortuna as the generator of the library takes a seed of 1 to 31 system bytes. One time in 31 it is a single byte, and then
   there are only 256 generators: everything the library draws afterwards is one of 256 streams. *)
Theorem C78_single_byte_seed_refuted : exists generators, length generators = 256%nat /\
  forall sys4 more, octets more -> more <> [] -> le_val sys4 mod 31 = 0 -> exists f, In f generators /\ set_csprng_fortuna sys4 more = Done f.
Proof.
  exists (map (fun b => reseeded fortuna_init [b]) (map N.of_nat (seq 0 256))). split; [rewrite !map_length; apply seq_length|].
  intros sys4 more O Hm E. destruct more as [|b more]; [congruence|]. inversion O as [|x y Hb _]; subst. exists (reseeded fortuna_init [b]). split.
  - apply (in_map (fun b => reseeded fortuna_init [b])). apply in_map_iff. exists (N.to_nat b). split; [apply N2Nat.id|]. apply in_seq. clear - Hb. lia.
  - unfold set_csprng_fortuna. rewrite E. cbn [N.to_nat Nat.add firstn]. apply reseed_ok; [exact init_proper|repeat constructor; exact Hb|cbn; lia].
Qed.
Print Assumptions C78_single_byte_seed_refuted.
Example C78_single_byte_seed_case : le_val [31; 0; 0; 0] mod 31 = 0 /\ le_val [0x78; 0x56; 0x34; 0x12] mod 31 <> 0.
Proof. split; [reflexivity|discriminate]. Qed.
