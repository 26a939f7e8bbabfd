(* BLAKE3: the hashes and the key derivation. *)
From Verif Require Import Words EncSpec TaskModel CipherBase CipherLib StreamModel HashModel UtilModel Blake3Model BlakeSpec Blake3Spec RcProofs BlakeProofs BlakeProofs2 Blake3Proofs Blake3Proofs2 Blake3Proofs3.
From Verif Require UtilProofs HashProofs3.
From Coq Require Import List PeanoNat Lia.
Open Scope N_scope.
Opaque compression.

Definition start_state (mode : blake3_mode) (k : list N) : b3 := mkB3 k (k ++ repeat 0 8) 0 (or (mode_flag mode) CHUNK_START) ([], [], []) [] false 0 0 None.
Lemma start_chk : forall mode k M, length k = 8%nat -> chk mode k M (start_state mode k) 0.
Proof.
  intros mode k M L. unfold chk, start_state. cbn [s_h s_v s_t s_d s_block_nr s_out s_stack s_chunk_nr s_right]. repeat split. rewrite firstn_app, L, Nat.sub_diag, app_nil_r. apply firstn_all2. lia.
Qed.
Lemma root_single : forall mode k M, (length M <= 1024)%nat -> BLAKE3_root k (mode_flag mode) M = leaf mode k M 0.
Proof.
  intros mode k M L. unfold BLAKE3_root. assert (pieces 1024 M = 1%nat) as ->.
  { unfold pieces. pose proof (Nat.div_mod (length M + 1024 - 1) 1024 ltac:(discriminate)) as D. pose proof (Nat.mod_upper_bound (length M + 1024 - 1) 1024 ltac:(discriminate)) as U. lia. }
  reflexivity.
Qed.
Lemma root_many : forall mode k M, BLAKE3_root k (mode_flag mode) M = sub k (mode_flag mode) (leaf mode k M) 0 (N.of_nat (pieces 1024 M)).
Proof. intros. unfold BLAKE3_root, sub. rewrite Nat2N.id. reflexivity. Qed.
Definition padding (w : N) : list N := repeat 0 (N.to_nat (sum_size w) - N.to_nat w).
Lemma do_ok : forall mode wanted key h M, mode <> ModeDeriveKey1stStage -> let k := key_words mode key h in length k = 8%nat -> words k -> octets M -> M <> [] -> N.of_nat (length M) < 2 ^ 60 -> 0 < wanted < 2 ^ 60 ->
  do_blake3 mode wanted key h M = Done (Some (root_output (BLAKE3_root k (mode_flag mode) M) (N.to_nat wanted) ++ padding wanted), repeat 0 8).
Proof.
  intros mode wanted key h M Hm k Lk Wk OM NE HM Hw. unfold do_blake3. fold k. fold (start_state mode k).
  assert (forall A (a b : A), match mode with ModeDeriveKey1stStage => a | _ => b end = b) as MM by (intros; destruct mode; try reflexivity; contradiction).
  rewrite !MM.
  assert (exists s', chunks_loop (S (length M)) mode k (N.of_nat (length M)) wanted ((N.of_nat (length M) <=? 1024) && true) (start_state mode k) M = Done s' /\
            s_out s' = Some (out_of (BLAKE3_root k (mode_flag mode) M) wanted)) as (s' & E & EO).
  { destruct (N.leb_spec (N.of_nat (length M)) 1024) as [L|L]; cbn [andb].
    - rewrite root_single by lia. apply single_ok; try assumption; [|lia]. apply (chk_blk mode k M). apply start_chk. exact Lk.
    - rewrite root_many. pose proof (many_ok mode k M wanted Lk Wk OM HM Hw L Hm (pieces 1024 M - 1) (start_state mode k) 0 (S (length M))) as X. cbv zeta in X.
      change (1024 * N.to_nat 0)%nat with 0%nat in X. rewrite skipn_O in X. apply X; [| |apply start_chk; exact Lk|lia].
      + unfold pieces. lia.
      + right. unfold pieces. pose proof (Nat.div_mod (length M + 1024 - 1) 1024 ltac:(discriminate)) as D. pose proof (Nat.mod_upper_bound (length M + 1024 - 1) 1024 ltac:(discriminate)) as U. lia. }
  rewrite E. cbn [obind]. rewrite EO, MM. rewrite out_of_root, out_of_length. reflexivity.
Qed.
Lemma root_output_length : forall x n, length (root_output x n) = n.
Proof. intros x n. rewrite <- (Nat2N.id n). rewrite <- out_of_root. rewrite firstn_length, out_of_length. destruct (sum_size_ok (N.of_nat n)) as (q & E1 & E2 & _). lia. Qed.
Lemma root_output_bytes : forall x n, bytes (root_output x n).
Proof.
  intros x n. unfold root_output. apply bytes_firstn. apply Forall_concat. apply Forall_map. apply Forall_forall. intros i _. unfold root_block. apply Forall_concat. apply Forall_map. apply Forall_forall.
  intros y _. unfold bytes_of_word. apply Forall_map. apply Forall_forall. intros j _. unfold byte. apply N.mod_lt. discriminate.
Qed.
Lemma octets_are_bytes : forall l, octets l -> bytes l.
Proof. intros l O. exact O. Qed.
Lemma key_words_ok : forall key h, octets key -> length key = 32%nat -> key_words ModeKeyedHash key h = key_words_of key /\ length (key_words_of key) = 8%nat /\ words (key_words_of key).
Proof.
  intros key h O L. split; [|split].
  - unfold key_words, key_words_of. apply map_ext_in. intros i Hi. apply in_seq in Hi. rewrite UtilProofs.get32_le; [|apply bytes_firstn, bytes_skipn; exact O|rewrite firstn_length, skipn_length; lia].
    rewrite firstn_firstn, little. reflexivity.
  - unfold key_words_of. rewrite map_length, seq_length. reflexivity.
  - unfold key_words_of. apply Forall_map. apply Forall_forall. intros i Hi. apply in_seq in Hi. rewrite little.
    pose proof (le_val_lt (firstn 4 (skipn (4 * i) key)) ltac:(apply bytes_firstn, bytes_skipn; exact O)) as X. rewrite firstn_length, skipn_length in X.
    replace (Nat.min 4 (length key - 4 * i)) with 4%nat in X by lia. exact X.
Qed.
Lemma IV_ok : length blake3_IV = 8%nat /\ words blake3_IV.
Proof. split; [reflexivity|]. repeat constructor. Qed.
Lemma bytes4 : forall x, x < 2 ^ 32 -> little_endian (bytes_of_word x) = x.
Proof.
  intros x Hx. unfold bytes_of_word. cbn [seq map little_endian]. change (256 ^ N.of_nat 0) with 1. change (256 ^ N.of_nat 1) with 256. change (256 ^ N.of_nat 2) with (256 * 256). change (256 ^ N.of_nat 3) with (256 * (256 * 256)).
  rewrite N.div_1_r. rewrite <- !N.div_div by discriminate. assert (x / 256 / 256 / 256 < 256) as B.
  { rewrite !N.div_div by discriminate. apply N.div_lt_upper_bound; [discriminate|exact Hx]. }
  rewrite (N.mod_small (x / 256 / 256 / 256)) by exact B.
  pose proof (N.div_mod x 256 ltac:(discriminate)). pose proof (N.div_mod (x / 256) 256 ltac:(discriminate)). pose proof (N.div_mod (x / 256 / 256) 256 ltac:(discriminate)). lia.
Qed.
Lemma words_back : forall l, words l -> length l = 8%nat -> key_words_of (concat (map bytes_of_word l)) = l.
Proof.
  intros l F L. destruct (length8 l L) as (a & b & c & d & e & f & g & i & ->). unfold words in F. rewrite !Forall_cons_iff in F. destruct F as (Fa & Fb & Fc & Fd & Fe & Ff & Fg & Fi & _).
  transitivity (map (fun x => little_endian (bytes_of_word x)) [a; b; c; d; e; f; g; i]); [reflexivity|]. cbn [map]. rewrite !bytes4 by assumption. reflexivity.
Qed.
(* the key that the context gives *)
Lemma root32 : forall x, n_t x = 0 -> root_output x 32 = concat (map bytes_of_word (firstn 8 (compression (n_h x) (n_m x) 0 (n_b x) (N.lor (n_d x) F_ROOT)))).
Proof.
  intros x _. unfold root_output. change (32 / 64 + 1)%nat with 1%nat. cbn [seq map concat]. rewrite app_nil_r. unfold root_block. change (N.of_nat 0) with 0.
  rewrite <- (firstn_skipn 8 (compression (n_h x) (n_m x) 0 (n_b x) (N.lor (n_d x) F_ROOT))) at 1. rewrite map_app, concat_app.
  apply firstn_exact. rewrite bytes4_length, firstn_length, compression_length. reflexivity.
Qed.
Notation stage1 := ModeDeriveKey1stStage (only parsing).
Lemma first_ok : forall wanted M, octets M -> M <> [] -> (length M <= 1024)%nat -> 0 < wanted < 2 ^ 60 ->
  let k1 := key_words_of (root_output (BLAKE3_root (IV 32) F_DERIVE_KEY_CONTEXT M) 32) in
  do_blake3 stage1 wanted [] (repeat 0 8) M = Done (None, k1) /\ length k1 = 8%nat /\ words k1.
Proof.
  intros wanted M OM NE LM Hw. cbv zeta. assert (N.of_nat (length M) < 2 ^ 60) as HM by lia. destruct IV_ok as [Lk Wk]. rewrite <- IV3. change F_DERIVE_KEY_CONTEXT with (mode_flag stage1). rewrite root_single by exact LM.
  unfold do_blake3. rewrite andb_false_r. change (key_words stage1 [] (repeat 0 8)) with blake3_IV. fold (start_state stage1 blake3_IV).
  pose proof (to_last stage1 blake3_IV M wanted Lk Wk OM ltac:(lia) Hw false (start_state stage1 blake3_IV) 0 M (S (length M))) as X. cbv zeta in X.
  destruct X as (s1 & g & p & E1 & B1 & K1 & G1 & LFl); [reflexivity|exact NE|reflexivity|apply start_chk; exact Lk|lia|]. rewrite E1. clear E1.
  assert (firstn 1024 M = M) as EM by (apply firstn_all2; exact LM). assert (skipn 1024 M = []) as EN by (apply skipn_all2; exact LM). rewrite EM in *. rewrite EN in *.
  destruct B1 as (Q1 & Q2 & Q3 & Q4 & Q5 & Q6). unfold block_step. rewrite Q5, LFl. rewrite Q1, Q2, Q3, Q4. rewrite last_d.
  destruct (N.leb_spec (N.of_nat (length M)) 1024) as [_|X]; [|lia]. cbn [andb]. change (or (fl stage1 M (lastb M)) ROOT) with (N.lor (fl stage1 M (lastb M)) F_ROOT).
  destruct (hs_ok stage1 blake3_IV M wanted Lk Wk HM Hw M 0 (lastb M) ltac:(reflexivity)) as [LH WH].
  destruct (compress_ok (hs stage1 blake3_IV M 0 (lastb M)) (block_words (piece 64 M (lastb M))) 0 _ _ LH WH ltac:(reflexivity) (piece_small blake3_IV M wanted Lk HM Hw M (lastb M)) (proj2 (fl_small stage1 M (lastb M)))) as [EC EW].
  change (0 mod 2 ^ 32) with 0 in EC. change (0 / 2 ^ 32) with 0 in EC. change (and 0 0xFFFFFFFF) with 0. change (shr 0 32 mod 2 ^ 32) with 0. rewrite EC.
  assert (leaf stage1 blake3_IV M 0 = at_ stage1 M 0 (hs stage1 blake3_IV M 0 (lastb M)) (lastb M)) as ELF by (unfold leaf; rewrite chunk_node_eq; unfold piece; cbn [N.to_nat]; rewrite Nat.mul_0_r, skipn_O, EM; reflexivity).
  rewrite ELF. rewrite root32 by reflexivity. cbn [at_ n_h n_m n_t n_b n_d].
  rewrite words_back; [|apply words_firstn; exact EW|rewrite firstn_length, compression_length; reflexivity].
  split; [|split; [rewrite firstn_length, compression_length; reflexivity|apply words_firstn; exact EW]].
  destruct K1 as (K1 & K2 & K3 & K4). cbn [start_state s_stack s_right s_chunk_nr] in K2, K3, K4.
  unfold do_parents, flush_pc_stack. cbn [obind s_right s_stack s_h s_v s_chunk_nr s_out s_t s_d s_save s_block_nr Nat.ltb Nat.leb]. rewrite K3. cbn [obind s_right s_stack s_h s_v s_chunk_nr s_out s_t s_d s_save s_block_nr Nat.ltb Nat.leb].
  rewrite Q6. reflexivity.
Qed.
(* an odd number of chunks, three or more: only the last one counts *)
Lemma mids : forall mode k M wanted, 0 < wanted < 2 ^ 60 -> length k = 8%nat -> words k -> octets M -> N.of_nat (length M) < 2 ^ 60 -> 1024 < N.of_nat (length M) ->
  forall j s t fuel, chk mode k M s t -> 1024 * (t + N.of_nat j) < N.of_nat (length M) -> let l0 := skipn (1024 * N.to_nat t) M in (length l0 <= fuel)%nat ->
  exists s' g, chunks_loop fuel mode k (N.of_nat (length M)) wanted false s l0 = chunks_loop g mode k (N.of_nat (length M)) wanted false s' (skipn (1024 * N.to_nat (t + N.of_nat j)) M) /\
    chk mode k M s' (t + N.of_nat j) /\ (length (skipn (1024 * N.to_nat (t + N.of_nat j)) M) <= g)%nat.
Proof.
  intros mode k M wanted Hw Lk Wk OM HM HB. induction j as [|j IH]; intros s t fuel C H l0 LF.
  - exists s, fuel. rewrite N.add_0_r. split; [reflexivity|]. split; [exact C|exact LF].
  - destruct (chunk_mid mode k M wanted Lk Wk OM HM Hw HB s t fuel C ltac:(lia) ltac:(lia) LF) as (s1 & g1 & E1 & C1 & G1). fold l0 in E1. rewrite E1.
    replace (t + N.of_nat (S j)) with (t + 1 + N.of_nat j) by lia. apply IH; [exact C1|lia|exact G1].
Qed.
Lemma odd_first : forall wanted q M, 0 < wanted < 2 ^ 60 -> 0 < q -> octets M -> N.of_nat (length M) < 2 ^ 60 -> 2048 * q < N.of_nat (length M) <= 2048 * q + 1024 ->
  do_blake3 stage1 wanted [] (repeat 0 8) M = Done (None, chaining_value (leaf stage1 blake3_IV M (2 * q))).
Proof.
  intros wanted q M Hw Hq OM HM HL. destruct IV_ok as [Lk Wk]. unfold do_blake3. rewrite andb_false_r. change (key_words stage1 [] (repeat 0 8)) with blake3_IV. fold (start_state stage1 blake3_IV).
  pose proof (mids stage1 blake3_IV M wanted Hw Lk Wk OM HM ltac:(lia) (N.to_nat (2 * q)) (start_state stage1 blake3_IV) 0 (S (length M))) as X. cbv zeta in X.
  change (1024 * N.to_nat 0)%nat with 0%nat in X. rewrite skipn_O, N2Nat.id, N.add_0_l in X.
  destruct X as (s1 & g1 & E1 & C1 & G1); [apply start_chk; exact Lk|lia|lia|]. rewrite E1. clear E1.
  set (l0 := skipn (1024 * N.to_nat (2 * q)) M) in *. assert (length l0 = (length M - 1024 * N.to_nat (2 * q))%nat) as Ll by apply skipn_length.
  assert (l0 <> []) as NE by (intro X; rewrite X in Ll; cbn [length] in Ll; lia).
  destruct (to_last stage1 blake3_IV M wanted Lk Wk OM HM Hw false s1 (2 * q) l0 g1 eq_refl NE ltac:(lia) C1 G1) as (s2 & g2 & p & E2 & B2 & K2 & _ & LFl). rewrite E2. clear E2.
  set (c := firstn 1024 l0) in *. assert (skipn 1024 l0 = []) as EN by (apply skipn_all2; lia). rewrite EN in *.
  destruct B2 as (Q1 & Q2 & Q3 & Q4 & Q5 & Q6). unfold block_step. rewrite Q5, LFl. rewrite Q1, Q2, Q3, Q4. rewrite last_d.
  rewrite (big_no_root blake3_IV M wanted Lk HM Hw ltac:(lia)). rewrite no_root. cbn [negb andb].
  destruct (last_compress stage1 blake3_IV M wanted Lk Wk HM Hw (2 * q) l0 c eq_refl eq_refl ltac:(lia)) as [v EC]. rewrite EC.
  destruct K2 as (K1 & K2 & K3 & K4). destruct C1 as (_ & _ & _ & _ & _ & _ & C7 & C8 & C9).
  assert (s_right s2 = false) as ER by (rewrite K3, C9, N.odd_mul; reflexivity).
  unfold do_parents, flush_pc_stack. cbn [obind s_right s_stack s_h s_v s_chunk_nr s_out s_t s_d s_save s_block_nr Nat.ltb Nat.leb]. rewrite ER. cbn [obind s_right s_stack s_h s_v s_chunk_nr s_out s_t s_d s_save s_block_nr Nat.ltb Nat.leb].
  rewrite Q6. reflexivity.
Qed.
Lemma cv_ok : forall x, length (chaining_value x) = 8%nat.
Proof. intro x. unfold chaining_value. rewrite firstn_length, compression_length. reflexivity. Qed.

(* the processors *)
Lemma run3 : forall wanted k kn m, good_key k kn -> octets m -> m <> [] -> N.of_nat (length m) < 2 ^ 60 -> 0 < wanted < 2 ^ 60 ->
  exists kb, buf k kn = Done kb /\ do_blake3 (key_mode k) wanted kb (repeat 0 8) m = Done (Some (BLAKE3 (N.to_nat wanted) k m ++ padding wanted), repeat 0 8) /\ bad_key k kn = false.
Proof.
  intros wanted k kn m G O NE HM Hw. destruct G as [[-> ->]|(key & -> & -> & L & OK)].
  - exists []. split; [reflexivity|]. split; [|reflexivity]. destruct IV_ok as [Lk Wk]. cbn [key_mode BLAKE3]. rewrite do_ok; try assumption; [|discriminate].
    cbn [key_words]. rewrite IV3. reflexivity.
  - exists key. destruct (key_words_ok key (repeat 0 8) OK L) as (E & Lk & Wk). split; [|split; [|reflexivity]].
    + change 32 with (N.of_nat 32). rewrite <- L. apply buf_all.
    + cbn [key_mode BLAKE3]. rewrite do_ok; try assumption; try discriminate; rewrite E; try assumption. reflexivity.
Qed.
Lemma BLAKE3_length : forall n k m, length (BLAKE3 n k m) = n /\ bytes (BLAKE3 n k m).
Proof. intros n [key|] m; split; first [apply root_output_length|apply root_output_bytes]. Qed.
Lemma split4 : forall n z, (length z = 4 * n)%nat -> bytes z -> concat (map (fun i => word_to_hex 4 (be_val (firstn 4 (skipn (4 * i) z)))) (seq 0 n)) = rfc_base16 z.
Proof.
  induction n as [|n IH]; intros z L Hb; [destruct z; [reflexivity|discriminate]|]. cbn [seq map concat]. rewrite <- seq_shift, map_map. replace (rfc_base16 z) with (rfc_base16 (firstn 4 z ++ skipn 4 z)) by (rewrite firstn_skipn; reflexivity). rewrite HashProofs3.base16_app. f_equal.
  - rewrite HashProofs3.word_to_hex_eq. rewrite Nat.mul_0_r, skipn_O. assert (length (firstn 4 z) = 4%nat) as L1 by (rewrite firstn_length; lia). f_equal. rewrite <- L1 at 1. apply be_bytes_val. apply bytes_firstn. exact Hb.
  - rewrite <- (IH (skipn 4 z)); [|rewrite skipn_length; lia|apply bytes_skipn; exact Hb]. f_equal. apply map_ext. intro i. rewrite skipn_add. replace (4 + 4 * i)%nat with (4 * S i)%nat by lia. reflexivity.
Qed.
Lemma hex32 : forall z, length z = 32%nat -> bytes z -> blake3_hex z = rfc_base16 z.
Proof. intros z L B. unfold blake3_hex. apply split4; [exact L|exact B]. Qed.
Lemma blake3_ok : forall hex k kn m, good_key k kn -> octets m -> m <> [] -> N.of_nat (length m) < 2 ^ 60 ->
  let z := BLAKE3 32 k m in
  blake3_processor hex k kn (Some m) (N.of_nat (length m)) = returns (if hex then rfc_base16 z else z).
Proof.
  intros hex k kn m G O NE HM z. destruct (run3 32 k kn m G O NE HM ltac:(lia)) as (kb & E1 & E2 & E3). unfold blake3_processor. rewrite E3, E1, buf_all. cbn [obind]. rewrite E2. cbn [obind fst].
  change (padding 32) with (@nil N). rewrite app_nil_r. change (N.to_nat 32) with 32%nat. fold z. destruct (BLAKE3_length 32 k m) as [L B]. fold z in L, B. rewrite L. cbn [Nat.eqb].
  destruct hex; [rewrite hex32 by assumption|]; reflexivity.
Qed.
Lemma blake3N_ok : forall hex nn k kn m, (0 < nn)%nat -> N.of_nat nn < 2 ^ 60 -> good_key k kn -> octets m -> m <> [] -> N.of_nat (length m) < 2 ^ 60 ->
  let z := BLAKE3 nn k m in
  blake3N_processor hex (N.of_nat nn) k kn (Some m) (N.of_nat (length m)) = returns (if hex then rfc_base16 z else z).
Proof.
  intros hex nn k kn m Hn Hn2 G O NE HM z. destruct (run3 (N.of_nat nn) k kn m G O NE HM ltac:(lia)) as (kb & E1 & E2 & E3). unfold blake3N_processor. rewrite E3, E1, buf_all. cbn [obind].
  destruct (N.eqb_spec (N.of_nat nn) 0) as [X|_]; [lia|]. rewrite E2. cbn [obind fst]. rewrite Nat2N.id. fold z. destruct (BLAKE3_length nn k m) as [L B]. fold z in L, B.
  destruct (N.ltb_spec (N.of_nat (length (z ++ padding (N.of_nat nn)))) (N.of_nat nn)) as [X|_]; [rewrite app_length in X; lia|].
  rewrite (firstn_exact _ z) by exact L. destruct hex.
  - rewrite hex_any by (try assumption; intro X; rewrite X in L; cbn in L; lia). reflexivity.
  - unfold returns. rewrite L. reflexivity.
Qed.
Lemma refuse3 : forall hex nn k kn m n,
  blake3_processor hex k kn None n = Done (mkHashRun InvalidParams None 0) /\
  blake3N_processor hex nn k kn None n = Done (mkHashRun InvalidParams None nn) /\
  ((k = None /\ kn <> 0) \/ (k <> None /\ kn <> 32) ->
     blake3_processor hex k kn (Some m) n = Done (mkHashRun KeyError None 0) /\ blake3N_processor hex nn k kn (Some m) n = Done (mkHashRun KeyError None nn)) /\
  (good_key k kn -> blake3N_processor hex 0 k kn (Some m) n = Done (mkHashRun ProcessError None 0)).
Proof.
  intros hex nn k kn m n. split; [reflexivity|]. split; [reflexivity|]. split.
  - intro H. unfold blake3_processor, blake3N_processor. assert (bad_key k kn = true) as ->; [|split; reflexivity].
    destruct H as [[-> H]|[H H']]; [cbn [bad_key]; apply negb_true_iff, N.eqb_neq; exact H|]. destruct k; [|contradiction]. cbn [bad_key]. apply negb_true_iff, N.eqb_neq. exact H'.
  - intros [[-> ->]|(key & -> & -> & _)]; reflexivity.
Qed.
Lemma empty_ub : forall hex k kn, good_key k kn -> blake3_processor hex k kn (Some []) 0 = UB.
Proof.
  intros hex k kn G. unfold blake3_processor. destruct G as [[-> ->]|(key & -> & -> & L & _)]; cbn [bad_key N.eqb negb Pos.eqb].
  - reflexivity.
  - change (buf (Some key) 32) with (buf (Some key) (N.of_nat 32)). rewrite <- L at 1. rewrite buf_all. reflexivity.
Qed.
Lemma kdf_ok : forall size c m, 0 < size < 2 ^ 60 -> octets c -> c <> [] -> (length c <= 1024)%nat -> octets m -> m <> [] -> N.of_nat (length m) < 2 ^ 60 ->
  blake3_kdf (Some c) (N.of_nat (length c)) (Some m) (N.of_nat (length m)) size = Done (Some (BLAKE3_derive_key (N.to_nat size) c m ++ padding size)).
Proof.
  intros size c m Hs Oc NEc Lc Om NEm HM. unfold blake3_kdf. destruct (N.eqb_spec size 0) as [X|_]; [lia|]. rewrite !buf_all. cbn [obind].
  destruct (first_ok size c Oc NEc Lc Hs) as (E & Lk & Wk). rewrite E. cbn [obind]. clear E. unfold BLAKE3_derive_key.
  revert Lk Wk. generalize (key_words_of (root_output (BLAKE3_root (IV 32) F_DERIVE_KEY_CONTEXT c) 32)). intros k1 Lk Wk.
  assert (key_words ModeDeriveKey2ndStage [] k1 = k1) as EK by (cbn [key_words]; apply firstn_all2; lia).
  rewrite do_ok; try assumption; try discriminate; rewrite EK; try assumption. reflexivity.
Qed.
Lemma kdf_collision : forall size q a b c m, size < 2 ^ 60 -> 0 < q -> N.of_nat (length a) = 2048 * q -> length b = length a -> octets a -> octets b -> octets c -> (1 <= length c <= 1024)%nat -> N.of_nat (length a + length c) < 2 ^ 60 ->
  blake3_kdf (Some (a ++ c)) (N.of_nat (length (a ++ c))) (Some m) (N.of_nat (length m)) size = blake3_kdf (Some (b ++ c)) (N.of_nat (length (b ++ c))) (Some m) (N.of_nat (length m)) size.
Proof.
  intros size q a b c m Hs Hq La Lb Oa Ob Oc Lc HL. unfold blake3_kdf. destruct (N.eqb_spec size 0) as [X|X]; [reflexivity|]. rewrite !buf_all. cbn [obind].
  rewrite (odd_first size q (a ++ c)), (odd_first size q (b ++ c)); try (rewrite app_length, ?Lb; lia); try exact Hq; try lia; try (apply Forall_app; split; assumption).
  assert (forall a' : list N, N.of_nat (length a') = 2048 * q -> leaf stage1 blake3_IV (a' ++ c) (2 * q) = chunk_node blake3_IV (mode_flag stage1) (2 * q) c) as E.
  { intros a' L'. unfold leaf, piece. f_equal. rewrite skipn_exact by lia. apply firstn_all2. lia. }
  rewrite !E by (rewrite ?Lb; exact La). reflexivity.
Qed.
