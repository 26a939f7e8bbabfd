(* BLAKE3: the loop over the input. *)
From Verif Require Import Words EncSpec TaskModel CipherBase CipherLib StreamModel HashModel UtilModel Blake3Model BlakeSpec Blake3Spec RcProofs BlakeProofs Blake3Proofs Blake3Proofs2.
From Coq Require Import List PeanoNat Lia.
Open Scope N_scope.
Opaque compression.

Definition out_of (x : node) (wanted : N) : list N := firstn (N.to_nat (sum_size wanted)) (stream (n_h x) (n_m x) (n_b x) (N.lor (n_d x) F_ROOT) (N.to_nat (sum_size wanted / 32))).
Lemma sum_size_ok : forall w, exists q, sum_size w = 32 * q /\ w <= 32 * q /\ 32 * q < w + 32 /\ sum_size w / 32 = q.
Proof.
  intro w. unfold sum_size. pose proof (N.div_mod w 32 ltac:(discriminate)) as D. pose proof (N.mod_lt w 32 ltac:(discriminate)) as L.
  destruct (N.eq_dec (w mod 32) 0) as [Z|Z].
  - rewrite Z. change ((32 - 0) mod 32) with 0. rewrite N.add_0_r. exists (w / 32). repeat split; lia.
  - rewrite (N.mod_small (32 - w mod 32)) by lia. exists (w / 32 + 1). assert (w + (32 - w mod 32) = 32 * (w / 32 + 1)) as E by lia. rewrite E. repeat split; try lia.
Qed.
Lemma get_sum_ok : forall wanted s h m b d, 0 < wanted < 2 ^ 60 -> length h = 8%nat -> words h -> b < 2 ^ 32 -> d < 2 ^ 32 ->
  s_save s = (h, h ++ firstn 4 blake3_IV ++ [0; 0; b; d], m) -> s_v s = compression h m 0 b d ->
  get_sum wanted s = Done (firstn (N.to_nat (sum_size wanted)) (stream h m b d (N.to_nat (sum_size wanted / 32)))).
Proof.
  intros wanted s h m b d Hw Lh Wh Hb Hd ES EV. unfold get_sum. destruct (sum_size_ok wanted) as (q & E1 & E2 & E3 & E4). rewrite ES, EV, E4, E1.
  apply (sum_ok h m b d Lh Wh Hb Hd (S (N.to_nat q)) 0 wanted q); lia.
Qed.
Lemma out_of_length : forall x w, length (out_of x w) = N.to_nat (sum_size w).
Proof. intros x w. unfold out_of. rewrite firstn_length, stream_length. destruct (sum_size_ok w) as (q & E1 & _ & _ & E4). rewrite E4, E1. lia. Qed.
Lemma out_of_root : forall x w, firstn (N.to_nat w) (out_of x w) = root_output x (N.to_nat w).
Proof.
  intros x w. unfold out_of, root_output. destruct (sum_size_ok w) as (q & E1 & E2 & E3 & E4). rewrite E4, E1. rewrite firstn_firstn, Nat.min_l by lia.
  change (concat (map (fun i => root_block x (N.of_nat i)) (seq 0 (N.to_nat w / 64 + 1)))) with (stream (n_h x) (n_m x) (n_b x) (N.lor (n_d x) F_ROOT) (N.to_nat w / 64 + 1)).
  pose proof (Nat.div_mod (N.to_nat w) 64 ltac:(discriminate)) as D. pose proof (Nat.mod_upper_bound (N.to_nat w) 64 ltac:(discriminate)) as U.
  destruct (Nat.le_ge_cases (N.to_nat q) (N.to_nat w / 64 + 1)).
  - symmetry. apply stream_take; lia.
  - apply stream_take; lia.
Qed.

Lemma flag_next : forall mode (b : bool), and (N.lor (N.lor (mode_flag mode) (if b then F_CHUNK_START else 0)) 0) (notw 32 CHUNK_START) = N.lor (mode_flag mode) 0.
Proof. intros [] []; reflexivity. Qed.
Section Loop.
Variables (mode : blake3_mode) (k M : list N) (wanted : N).
Local Notation f := (mode_flag mode).
Local Notation in_size := (N.of_nat (length M)).
Hypotheses (Lk : length k = 8%nat) (Wk : words k) (OM : octets M) (HM : in_size < 2 ^ 60) (Hw : 0 < wanted < 2 ^ 60).

Definition lastb (c : list N) : nat := (pieces 64 c - 1)%nat.
Definition fl (c : list N) (i : nat) : N := N.lor (N.lor f (if (i =? 0)%nat then F_CHUNK_START else 0)) (if (i =? lastb c)%nat then F_CHUNK_END else 0).
Definition at_ (c : list N) (t : N) (h : list N) (i : nat) : node := mkNode h (block_words (piece 64 c i)) t (N.of_nat (length (piece 64 c i))) (fl c i).
Definition hs (c : list N) (t : N) (i : nat) : list N := fold_left (fun h i => chaining_value (at_ c t h i)) (seq 0 i) k.
Lemma chunk_node_eq : forall c t, chunk_node k f t c = at_ c t (hs c t (lastb c)) (lastb c).
Proof. reflexivity. Qed.
Lemma hs_S : forall c t i, hs c t (S i) = chaining_value (at_ c t (hs c t i) i).
Proof. intros. unfold hs. rewrite seq_S, fold_left_app. reflexivity. Qed.
Lemma fl_small : forall c i, fl c i < 2 ^ 32 /\ N.lor (fl c i) F_ROOT < 2 ^ 32.
Proof. intros c i. unfold fl. destruct mode, (i =? 0)%nat, (i =? lastb c)%nat; split; reflexivity. Qed.
Lemma piece_small : forall c i, N.of_nat (length (piece 64 c i)) < 2 ^ 32.
Proof. intros c i. unfold piece. rewrite firstn_length. change (2 ^ 32) with 4294967296. lia. Qed.
Lemma hs_ok : forall c t i, t < 2 ^ 64 -> length (hs c t i) = 8%nat /\ words (hs c t i).
Proof.
  intros c t i Ht. induction i as [|i [L W]]; [split; assumption|]. rewrite hs_S. unfold chaining_value. cbn [at_ n_h n_m n_t n_b n_d]. split; [rewrite firstn_length, compression_length; reflexivity|].
  apply words_firstn. apply (proj2 (compress_ok _ _ t _ _ L W Ht (piece_small c i) (proj1 (fl_small c i)))).
Qed.
Lemma lastb_spec : forall c i, (64 * i < length c)%nat -> (length c <= 64 * (i + 1))%nat <-> i = lastb c.
Proof.
  intros c i H. unfold lastb, pieces. pose proof (Nat.div_mod (length c + 64 - 1) 64 ltac:(discriminate)) as D. pose proof (Nat.mod_upper_bound (length c + 64 - 1) 64 ltac:(discriminate)) as U. lia.
Qed.
Lemma lastb_in : forall c, c <> [] -> (64 * lastb c < length c)%nat /\ (length c <= 64 * (lastb c + 1))%nat.
Proof.
  intros c H. assert (0 < length c)%nat by (destruct c; [contradiction|cbn; lia]). unfold lastb, pieces.
  pose proof (Nat.div_mod (length c + 64 - 1) 64 ltac:(discriminate)) as D. pose proof (Nat.mod_upper_bound (length c + 64 - 1) 64 ltac:(discriminate)) as U. lia.
Qed.
Lemma piece_eq : forall l i, (i < 16)%nat -> piece 64 (firstn 1024 l) i = firstn 64 (skipn (64 * i) l).
Proof. intros l i H. unfold piece. rewrite skipn_firstn_comm, firstn_firstn. f_equal. lia. Qed.

(* before block i of the chunk c, which has the number t *)
Definition blk (s : b3) (c : list N) (t : N) (i : nat) : Prop :=
  s_h s = hs c t i /\ firstn 8 (s_v s) = hs c t i /\ s_t s = t /\ s_d s = N.lor f (if (i =? 0)%nat then F_CHUNK_START else 0) /\ s_block_nr s = i /\ s_out s = None.
Definition keep (s s' : b3) : Prop := s_save s' = s_save s /\ s_stack s' = s_stack s /\ s_right s' = s_right s /\ s_chunk_nr s' = s_chunk_nr s.
Lemma and32 : forall t, and t 0xFFFFFFFF = t mod 2 ^ 32.
Proof. intro t. change 0xFFFFFFFF with (N.ones 32). apply N.land_ones. Qed.
Lemma hi32 : forall t, t < 2 ^ 64 -> shr t 32 mod 2 ^ 32 = t / 2 ^ 32.
Proof. intros t Ht. rewrite N.shiftr_div_pow2. apply N.mod_small. apply N.div_lt_upper_bound; [discriminate|exact Ht]. Qed.
Lemma no_root : forall c i, (and (fl c i) ROOT =? 0) = true.
Proof. intros c i. unfold fl. destruct mode, (i =? 0)%nat, (i =? lastb c)%nat; reflexivity. Qed.
Lemma some_root : forall c i, (and (N.lor (fl c i) F_ROOT) ROOT =? 0) = false.
Proof. intros c i. unfold fl. destruct mode, (i =? 0)%nat, (i =? lastb c)%nat; reflexivity. Qed.

Lemma step_mid : forall single s l0 t i p, let c := firstn 1024 l0 in t < 2 ^ 64 -> (i < lastb c)%nat -> c <> [] -> blk s c t i -> (p = true -> skipn 64 (skipn (64 * i) l0) = []) ->
  exists s', block_step mode k in_size wanted single s (block_words (piece 64 c i)) (N.of_nat (length (piece 64 c i))) (skipn 64 (skipn (64 * i) l0)) p = Done s' /\ blk s' c t (S i) /\ keep s s'.
Proof.
  intros single s l0 t i p c Ht Hi NE (B1 & B2 & B3' & B4 & B5 & B6) HP.
  destruct (lastb_in c NE) as [L1 L2]. assert (length c = Nat.min 1024 (length l0)) as Lc by (unfold c; apply firstn_length).
  destruct (skipn 64 (skipn (64 * i) l0)) as [|y l'] eqn:El.
  { exfalso. assert (length (skipn 64 (skipn (64 * i) l0)) = 0%nat) as X by (rewrite El; reflexivity). rewrite !skipn_length in X. lia. }
  assert (p = false) as -> by (destruct p; [specialize (HP eq_refl); discriminate HP|reflexivity]).
  unfold block_step. rewrite B1, B2, B3', B4, B5. assert ((S i =? 16)%nat = false) as -> by (apply Nat.eqb_neq; lia). cbn [orb andb].
  assert (N.lor f (if (i =? 0)%nat then F_CHUNK_START else 0) = fl c i) as ->.
  { unfold fl. destruct (Nat.eqb_spec i (lastb c)); [lia|]. rewrite N.lor_0_r. reflexivity. }
  rewrite no_root. cbn [negb]. rewrite and32, hi32 by exact Ht. destruct (hs_ok c t i Ht) as [LH WH].
  rewrite (proj1 (compress_ok (hs c t i) (block_words (piece 64 c i)) t _ _ LH WH Ht (piece_small c i) (proj1 (fl_small c i)))).
  rewrite andb_false_r. cbn [obind s_block_nr s_d s_h s_v s_t s_save s_stack s_right s_chunk_nr s_out Nat.ltb Nat.leb].
  eexists. split; [reflexivity|]. split; [|repeat split]. unfold blk. cbn [s_block_nr s_d s_h s_v s_t s_out]. rewrite hs_S.
  unfold chaining_value. cbn [at_ n_h n_m n_t n_b n_d]. repeat split; [|exact B6].
  unfold fl. destruct (Nat.eqb_spec i (lastb c)); [lia|]. apply flag_next.
Qed.
Lemma chunk_run : forall single l0 t, let c := firstn 1024 l0 in t < 2 ^ 64 -> c <> [] -> octets l0 -> forall j i s fuel, (i + j = lastb c)%nat -> blk s c t i ->
  exists s', chunks_loop (j + fuel) mode k in_size wanted single s (skipn (64 * i) l0) = chunks_loop fuel mode k in_size wanted single s' (skipn (64 * lastb c) l0) /\ blk s' c t (lastb c) /\ keep s s'.
Proof.
  intros single l0 t c Ht NE O. destruct (lastb_in c NE) as [L1 L2]. assert (length c = Nat.min 1024 (length l0)) as Lc by (unfold c; apply firstn_length).
  induction j as [|j IH]; intros i s fuel E B.
  - exists s. rewrite Nat.add_0_r in E. subst i. split; [reflexivity|]. split; [exact B|repeat split].
  - cbn [Nat.add chunks_loop]. assert (skipn (64 * i) l0 <> []) as NEl.
    { intro X. assert (length (skipn (64 * i) l0) = 0%nat) as Y by (rewrite X; reflexivity). rewrite skipn_length in Y. lia. }
    destruct (block_ok (skipn (64 * i) l0)) as (p & EG & HP); [apply CipherLib.bytes_skipn; exact O|exact NEl|]. rewrite EG. cbn [obind].
    rewrite <- piece_eq by lia. fold c.
    destruct (step_mid single s l0 t i p Ht ltac:(fold c; lia) NE B HP) as (s1 & E1 & B1 & K1). fold c in E1, B1. rewrite E1. cbn [obind].
    destruct (IH (S i) s1 fuel ltac:(lia) B1) as (s2 & E2 & B2 & K2). exists s2.
    assert ((if single then match s_out s1 with Some out => wanted <=? N.of_nat (length out) | None => false end else match skipn 64 (skipn (64 * i) l0) with [] => true | _ => false end) = false) as ->.
    { destruct B1 as (_ & _ & _ & _ & _ & ->). destruct single; [reflexivity|]. destruct (skipn 64 (skipn (64 * i) l0)) eqn:X; [|reflexivity].
      assert (length (skipn 64 (skipn (64 * i) l0)) = 0%nat) as Y by (rewrite X; reflexivity). rewrite !skipn_length in Y. lia. }
    rewrite skipn_add. replace (64 * i + 64)%nat with (64 * S i)%nat by lia. rewrite E2. split; [reflexivity|]. split; [exact B2|].
    destruct K1 as (? & ? & ? & ?). destruct K2 as (? & ? & ? & ?). repeat split; congruence.
Qed.
Lemma last_flag : forall l0 p, let c := firstn 1024 l0 in c <> [] -> (p = true -> skipn 64 (skipn (64 * lastb c) l0) = []) ->
  (S (if p : bool then 15%nat else lastb c) =? 16)%nat || match skipn 64 (skipn (64 * lastb c) l0) with [] => true | _ => false end = true.
Proof.
  intros l0 p c NE HP. destruct (lastb_in c NE) as [L1 L2]. assert (length c = Nat.min 1024 (length l0)) as Lc by (unfold c; apply firstn_length).
  destruct p; [reflexivity|]. destruct (Nat.eqb_spec (S (lastb c)) 16) as [X|X]; [reflexivity|]. cbn [orb].
  rewrite skipn_add, skipn_all2 by lia. reflexivity.
Qed.
Lemma ends_iff : forall l0, let c := firstn 1024 l0 in c <> [] -> skipn 64 (skipn (64 * lastb c) l0) = skipn 1024 l0.
Proof.
  intros l0 c NE. destruct (lastb_in c NE) as [L1 L2]. assert (length c = Nat.min 1024 (length l0)) as Lc by (unfold c; apply firstn_length).
  rewrite skipn_add. destruct (Nat.le_gt_cases (length l0) 1024); [rewrite !skipn_all2 by lia; reflexivity|]. f_equal. lia.
Qed.
Definition leaf (i : N) : node := chunk_node k f i (piece 1024 M (N.to_nat i)).
Lemma last_d : forall c, or (N.lor f (if (lastb c =? 0)%nat then F_CHUNK_START else 0)) CHUNK_END = fl c (lastb c).
Proof. intro c. unfold fl. rewrite Nat.eqb_refl. reflexivity. Qed.

(* one chunk, compressed as the root *)
Lemma single_ok : forall s fuel, M <> [] -> in_size <= 1024 -> blk s M 0 0 -> (length M <= fuel)%nat ->
  exists s', chunks_loop fuel mode k in_size wanted true s M = Done s' /\ s_out s' = Some (out_of (leaf 0) wanted).
Proof.
  intros s fuel NE HS B LF. assert (firstn 1024 M = M) as EM by (apply firstn_all2; lia).
  pose proof (chunk_run true M 0 ltac:(reflexivity) ltac:(rewrite EM; exact NE) OM (lastb M) 0 s (fuel - lastb M)) as CR. cbv zeta in CR. rewrite EM in CR.
  destruct (lastb_in M NE) as [L1 L2]. destruct (CR ltac:(lia) B) as (s1 & E1 & B1 & _). clear CR. rewrite Nat.mul_0_r, skipn_O in E1.
  replace (lastb M + (fuel - lastb M))%nat with fuel in E1 by lia. rewrite E1. destruct (fuel - lastb M)%nat as [|g] eqn:EG; [lia|]. cbn [chunks_loop].
  destruct (block_ok (skipn (64 * lastb M) M)) as (p & EK & HP).
  { apply CipherLib.bytes_skipn; exact OM. }
  { intro X. assert (length (skipn (64 * lastb M) M) = 0%nat) as Y by (rewrite X; reflexivity). rewrite skipn_length in Y. lia. }
  rewrite EK. cbn [obind]. pose proof (piece_eq M (lastb M) ltac:(lia)) as EP. rewrite EM in EP. rewrite <- EP.
  pose proof (last_flag M p) as LFl. pose proof (ends_iff M) as EN. cbv zeta in LFl, EN. rewrite EM in LFl, EN. specialize (LFl NE HP). specialize (EN NE). rewrite (skipn_all2 (n := 1024)) in EN by lia.
  destruct B1 as (Q1 & Q2 & Q3 & Q4 & Q5 & Q6). unfold block_step. rewrite Q5, LFl. rewrite EN. rewrite Q1, Q2, Q3, Q4. rewrite last_d.
  destruct (N.leb_spec in_size 1024) as [_|X]; [|lia]. cbn [andb]. change (or (fl M (lastb M)) ROOT) with (N.lor (fl M (lastb M)) F_ROOT). rewrite some_root. cbn [negb andb].
  destruct (hs_ok M 0 (lastb M) ltac:(reflexivity)) as [LH WH].
  pose proof (proj1 (compress_ok (hs M 0 (lastb M)) (block_words (piece 64 M (lastb M))) 0 _ _ LH WH ltac:(reflexivity) (piece_small M (lastb M)) (proj2 (fl_small M (lastb M))))) as EC.
  change (0 mod 2 ^ 32) with 0 in EC. change (0 / 2 ^ 32) with 0 in EC. change (and 0 0xFFFFFFFF) with 0. change (shr 0 32 mod 2 ^ 32) with 0. rewrite EC.
  match goal with |- context [get_sum wanted ?s0] => rewrite (get_sum_ok wanted s0 (hs M 0 (lastb M)) (block_words (piece 64 M (lastb M))) _ _ Hw LH WH (piece_small M (lastb M)) (proj2 (fl_small M (lastb M))) eq_refl eq_refl) end.
  cbn [obind s_out s_h s_v s_t s_d s_save s_stack s_right s_chunk_nr s_block_nr].
  assert (leaf 0 = at_ M 0 (hs M 0 (lastb M)) (lastb M)) as ELF by (unfold leaf; rewrite chunk_node_eq; unfold piece; cbn [N.to_nat]; rewrite Nat.mul_0_r, skipn_O, EM; reflexivity).
  match goal with |- context [Some ?o] => assert (o = out_of (leaf 0) wanted) as EO by (rewrite ELF; reflexivity); rewrite EO end.
  rewrite out_of_length. destruct (sum_size_ok wanted) as (q & S1 & S2 & S3 & S4). rewrite N2Nat.id. destruct (N.leb_spec wanted (sum_size wanted)) as [_|X]; [|lia].
  eexists. split; [reflexivity|]. reflexivity.
Qed.

(* before chunk t *)
Definition chk (s : b3) (t : N) : Prop :=
  s_h s = k /\ firstn 8 (s_v s) = k /\ s_t s = t /\ s_d s = N.lor f F_CHUNK_START /\ s_block_nr s = 0%nat /\ s_out s = None /\
  s_stack s = map (val k f leaf) (dec t) /\ s_chunk_nr s = t /\ s_right s = N.odd t.
Lemma chk_blk : forall s t c, chk s t -> blk s c t 0.
Proof. intros s t c (A & B & C & D & E & F & _). repeat split; assumption. Qed.
Lemma leaf_val : forall t l0, l0 = skipn (1024 * N.to_nat t) M -> let c := firstn 1024 l0 in
  leaf t = at_ c t (hs c t (lastb c)) (lastb c).
Proof. intros t l0 -> c. reflexivity. Qed.
(* up to the last block of a chunk *)
Lemma to_last : forall single s t l0 fuel, l0 = skipn (1024 * N.to_nat t) M -> l0 <> [] -> t < 2 ^ 64 -> chk s t -> (length l0 <= fuel)%nat ->
  let c := firstn 1024 l0 in
  exists s1 g p, chunks_loop fuel mode k in_size wanted single s l0 =
    obind (block_step mode k in_size wanted single s1 (block_words (piece 64 c (lastb c))) (N.of_nat (length (piece 64 c (lastb c)))) (skipn 1024 l0) p) (fun s2 =>
      if (if single then match s_out s2 with Some out => wanted <=? N.of_nat (length out) | None => false end else match skipn 1024 l0 with [] => true | _ => false end)
      then Done s2 else chunks_loop g mode k in_size wanted single s2 (skipn 1024 l0)) /\
    blk s1 c t (lastb c) /\ keep s s1 /\ (length (skipn 1024 l0) <= g)%nat /\
    (S (if p : bool then 15%nat else lastb c) =? 16)%nat || match skipn 1024 l0 with [] => true | _ => false end = true.
Proof.
  intros single s t l0 fuel El NE Ht C LF c. assert (length c = Nat.min 1024 (length l0)) as Lc by (unfold c; apply firstn_length).
  assert (0 < length l0)%nat as Ll by (destruct l0; [contradiction|cbn; lia]).
  assert (c <> []) as NEc by (intro X; rewrite X in Lc; cbn [length] in Lc; lia). destruct (lastb_in c NEc) as [L1 L2].
  assert (octets l0) as Ol by (rewrite El; apply CipherLib.bytes_skipn; exact OM).
  destruct (chunk_run single l0 t Ht NEc Ol (lastb c) 0 s (fuel - lastb c) ltac:(fold c; lia) (chk_blk s t c C)) as (s1 & E1 & B1 & K1). fold c in E1, B1.
  rewrite Nat.mul_0_r, skipn_O in E1. replace (lastb c + (fuel - lastb c))%nat with fuel in E1 by lia. rewrite E1. destruct (fuel - lastb c)%nat as [|g] eqn:EG; [lia|]. cbn [chunks_loop].
  destruct (block_ok (skipn (64 * lastb c) l0)) as (p & EK & HP).
  { apply CipherLib.bytes_skipn; exact Ol. }
  { intro X. assert (length (skipn (64 * lastb c) l0) = 0%nat) as Y by (rewrite X; reflexivity). rewrite skipn_length in Y. lia. }
  rewrite EK. cbn [obind]. rewrite <- piece_eq by lia. fold c. pose proof (last_flag l0 p NEc HP) as LFl. pose proof (ends_iff l0 NEc) as EN. fold c in LFl, EN. rewrite EN in *.
  exists s1, g, p. split; [reflexivity|]. split; [exact B1|]. split; [exact K1|]. split; [rewrite skipn_length; lia|exact LFl].
Qed.
Hypothesis Hbig : 1024 < in_size.
Lemma big_no_root : forall (b : bool), b && (in_size <=? 1024) = false.
Proof. intro b. destruct (N.leb_spec in_size 1024); [lia|]. apply andb_false_r. Qed.
Lemma last_compress : forall t l0 c, l0 = skipn (1024 * N.to_nat t) M -> c = firstn 1024 l0 -> t < 2 ^ 64 -> exists v,
  blake3_COMPRESS (hs c t (lastb c)) (hs c t (lastb c) ++ firstn 4 blake3_IV ++ [and t 0xFFFFFFFF; shr t 32 mod 2 ^ 32; N.of_nat (length (piece 64 c (lastb c))); fl c (lastb c)]) (block_words (piece 64 c (lastb c))) =
  (val k f leaf (t, 1), v).
Proof.
  intros t l0 c El Ec Ht. rewrite and32, hi32 by exact Ht. destruct (hs_ok c t (lastb c) Ht) as [LH WH].
  rewrite (proj1 (compress_ok _ _ t _ _ LH WH Ht (piece_small c (lastb c)) (proj1 (fl_small c (lastb c))))). eexists. f_equal.
  unfold val. cbn [fst snd]. rewrite sub_one. rewrite (leaf_val t l0 El). cbv zeta. rewrite <- Ec. reflexivity.
Qed.
Lemma chunk_mid : forall s t fuel, chk s t -> (1024 * (t + 1) < in_size) -> t < 2 ^ 60 -> let l0 := skipn (1024 * N.to_nat t) M in (length l0 <= fuel)%nat ->
  exists s' g, chunks_loop fuel mode k in_size wanted false s l0 = chunks_loop g mode k in_size wanted false s' (skipn (1024 * N.to_nat (t + 1)) M) /\ chk s' (t + 1) /\
               (length (skipn (1024 * N.to_nat (t + 1)) M) <= g)%nat.
Proof.
  intros s t fuel C Ht2 Ht l0 LF. assert (length l0 = (length M - 1024 * N.to_nat t)%nat) as Ll by apply skipn_length.
  assert (l0 <> []) as NE by (intro X; rewrite X in Ll; cbn [length] in Ll; lia). assert (t < 2 ^ 64) as Ht' by lia.
  destruct (to_last false s t l0 fuel eq_refl NE Ht' C LF) as (s1 & g & p & E1 & B1 & K1 & G1 & LFl). rewrite E1. set (c := firstn 1024 l0) in *.
  assert (skipn 1024 l0 = skipn (1024 * N.to_nat (t + 1)) M) as EN by (unfold l0; rewrite skipn_add; f_equal; lia). rewrite EN in *.
  destruct (skipn (1024 * N.to_nat (t + 1)) M) as [|y r] eqn:ER.
  { exfalso. assert (length (skipn (1024 * N.to_nat (t + 1)) M) = 0%nat) as X by (rewrite ER; reflexivity). rewrite skipn_length in X. lia. }
  destruct B1 as (Q1 & Q2 & Q3 & Q4 & Q5 & Q6). unfold block_step. rewrite Q5, LFl. rewrite Q1, Q2, Q3, Q4, last_d. rewrite big_no_root. rewrite no_root. cbn [negb andb].
  destruct (last_compress t l0 c eq_refl eq_refl Ht') as [v EC]. rewrite EC. cbn [obind]. unfold do_parents.
  destruct K1 as (K1 & K2 & K3 & K4). destruct C as (C1 & C2 & C3 & C4 & C5 & C6 & C7 & C8 & C9).
  match goal with |- context [flush_pc_stack mode k false ?s0] => destruct (flush_mid k f leaf mode Lk Wk eq_refl s0 t) as (s2 & E2 & S1 & S2 & S3 & S4 & S5 & S6) end;
    [cbn [s_stack]; congruence|reflexivity|cbn [s_chunk_nr]; congruence|cbn [s_right]; congruence|]. rewrite E2. cbn [obind Nat.ltb Nat.leb s_block_nr].
  cbn [s_t s_out s_block_nr] in S4, S6. eexists. exists g. split; [reflexivity|]. split; [|exact G1]. unfold chk. cbn [s_h s_v s_t s_d s_block_nr s_out s_stack s_chunk_nr s_right].
  repeat split; try assumption.
  - rewrite firstn_app, Lk, Nat.sub_diag, app_nil_r. apply firstn_all2. lia.
  - rewrite S4. unfold addw. apply N.mod_small. lia.
  - rewrite N.lor_comm. reflexivity.
  - rewrite S6. exact Q6.
Qed.
Lemma chunk_end : forall s t fuel, mode <> ModeDeriveKey1stStage -> 0 < t -> chk s t -> (1024 * t < in_size) -> in_size <= 1024 * (t + 1) -> t < 2 ^ 60 -> let l0 := skipn (1024 * N.to_nat t) M in (length l0 <= fuel)%nat ->
  exists s', chunks_loop fuel mode k in_size wanted false s l0 = Done s' /\ s_out s' = Some (out_of (sub k f leaf 0 (t + 1)) wanted).
Proof.
  intros s t fuel Hm Hpos C Ht2 Ht3 Ht l0 LF. assert (length l0 = (length M - 1024 * N.to_nat t)%nat) as Ll by apply skipn_length.
  assert (l0 <> []) as NE by (intro X; rewrite X in Ll; cbn [length] in Ll; lia). assert (t < 2 ^ 64) as Ht' by lia.
  destruct (to_last false s t l0 fuel eq_refl NE Ht' C LF) as (s1 & g & p & E1 & B1 & K1 & G1 & LFl). rewrite E1. set (c := firstn 1024 l0) in *.
  assert (skipn 1024 l0 = []) as EN by (apply skipn_all2; lia). rewrite EN in *.
  destruct B1 as (Q1 & Q2 & Q3 & Q4 & Q5 & Q6). unfold block_step. rewrite Q5, LFl. rewrite Q1, Q2, Q3, Q4, last_d. rewrite big_no_root. rewrite no_root. cbn [negb andb].
  destruct (last_compress t l0 c eq_refl eq_refl Ht') as [v EC]. rewrite EC. cbn [obind]. unfold do_parents.
  destruct K1 as (K1 & K2 & K3 & K4). destruct C as (C1 & C2 & C3 & C4 & C5 & C6 & C7 & C8 & C9).
  match goal with |- context [flush_pc_stack mode k true ?s0] => destruct (flush_end k f leaf mode Lk Wk eq_refl s0 t Hpos) as (s2 & E2 & CL & S1 & S2) end;
    [cbn [s_stack]; congruence|reflexivity|cbn [s_chunk_nr]; congruence|cbn [s_right]; congruence|]. rewrite E2. cbn [obind].
  destruct (collapse_ok k f leaf mode Lk Wk eq_refl (length (s_stack s2)) s2 (t + 1) CL (le_n _)) as (s3 & E3 & _ & R3).
  destruct R3 as (R1 & R2 & R3 & R4 & R5 & R6 & _). set (x := sub k f leaf 0 (t + 1)) in *.
  assert (N.lor (n_d x) F_ROOT < 2 ^ 32) as Hd by (rewrite R4; clear; destruct mode; reflexivity).
  assert (get_sum wanted s3 = Done (out_of x wanted)) as EG.
  { unfold out_of. rewrite R2, R3. apply get_sum_ok; try assumption. reflexivity. }
  assert (forall A (a b : A), match mode with ModeDeriveKey1stStage => a | _ => b end = b) as MM by (intros; destruct mode; try reflexivity; contradiction).
  rewrite MM. rewrite E3. cbn [obind]. rewrite EG. cbn [obind Nat.ltb Nat.leb s_block_nr]. eexists. split; [reflexivity|]. reflexivity.
Qed.
Lemma many_ok : mode <> ModeDeriveKey1stStage -> forall j s t fuel, N.of_nat j + t + 1 = N.of_nat (pieces 1024 M) -> (0 < t \/ (0 < j)%nat) -> chk s t -> let l0 := skipn (1024 * N.to_nat t) M in (length l0 <= fuel)%nat ->
  exists s', chunks_loop fuel mode k in_size wanted false s l0 = Done s' /\ s_out s' = Some (out_of (sub k f leaf 0 (N.of_nat (pieces 1024 M))) wanted).
Proof.
  intro Hm. assert (1024 * N.of_nat (pieces 1024 M) < in_size + 1024 /\ in_size <= 1024 * N.of_nat (pieces 1024 M)) as [P1 P2].
  { unfold pieces. pose proof (Nat.div_mod (length M + 1024 - 1) 1024 ltac:(discriminate)) as D. pose proof (Nat.mod_upper_bound (length M + 1024 - 1) 1024 ltac:(discriminate)) as U. lia. }
  induction j as [|j IH]; intros s t fuel E P C l0 LF.
  - rewrite <- E. change (N.of_nat 0 + t + 1) with (t + 1). apply chunk_end; try assumption; lia.
  - destruct (chunk_mid s t fuel C ltac:(lia) ltac:(lia) LF) as (s' & g & E1 & C1 & G1). fold l0 in E1. rewrite E1. apply IH; try assumption; lia.
Qed.
End Loop.
