From Verif Require Import Words EncSpec TaskModel ModeModel ModeSpec CipherBase CipherLib KeyProofs BlowfishModel BlowfishProofs BcryptModel BcryptSpec BcryptProofs BlowfishSpec.
From Verif Require StreamProofs MacProofs2.
Ltac Zify.zify_post_hook ::= Z.div_mod_to_equations.
Notation length := List.length (only parsing).
Open Scope list_scope.
Open Scope N_scope.

Definition sched_step (s : list N * (N * N)) (i : nat) : list N * (N * N) :=
  let '(st, LR) := s in let '(L, R) := bf_encrypt st LR in (set2 st (2 * i) L R, (L, R)).
Lemma sched_step_is : forall k s i, shaped k -> sched_step (flat k, s) i =
  (set2 (flat k) (2 * i) (fst (blowfish_encrypt_words k s)) (snd (blowfish_encrypt_words k s)), blowfish_encrypt_words k s).
Proof. intros k s i Hk. unfold sched_step. rewrite enc_flat by exact Hk. destruct (blowfish_encrypt_words _ _) as [L' R']. reflexivity. Qed.
Lemma step_pair : forall k s i, words 32 (bf_P k) -> w2 32 s -> blowfish_step (k, pair_bytes s) i =
  (blowfish_put k i (fst (blowfish_encrypt_words k s)) (snd (blowfish_encrypt_words k s)), pair_bytes (blowfish_encrypt_words k s)).
Proof.
  intros k s i HP Hs. unfold blowfish_step. rewrite block_pair by exact Hs. pose proof (bf_enc_wf k s HP Hs) as He. generalize dependent (blowfish_encrypt_words k s). intros e He.
  destruct (pair_words e He) as [-> ->]. exact eq_refl.
Qed.
Lemma put_words : forall k i x y, words 32 (bf_P k) -> x < 2 ^ 32 -> y < 2 ^ 32 -> words 32 (bf_P (blowfish_put k i x y)).
Proof.
  intros k i x y HP Hx Hy. unfold blowfish_put.
  destruct (Nat.ltb i 9); [|destruct (Nat.ltb i 137); [|destruct (Nat.ltb i 265); [|destruct (Nat.ltb i 393)]]]; cbn [bf_P]; try exact HP. apply upd_words; [apply upd_words; assumption|assumption].
Qed.
Lemma sim_gen : forall (A B C : Type) (f : A * B -> nat -> A * B) (g : C * (N * N) -> nat -> C * (N * N)) (R : A * B -> C * (N * N) -> Prop) (n i : nat) x y,
  (forall j x y, (j < i + n)%nat -> R x y -> R (f x j) (g y j)) -> R x y -> R (fold_left f (seq i n) x) (fold_left g (seq i n) y).
Proof.
  intros A B C f g R n. induction n as [|n IH]; intros i x y H Hxy; [exact Hxy|]. cbn [seq fold_left]. apply IH; [|apply H; [lia|exact Hxy]]. intros j x' y' Hj. apply H. lia.
Qed.
Definition related (x : bf_keys * list N) (y : list N * (N * N)) : Prop :=
  snd x = pair_bytes (snd y) /\ fst y = flat (fst x) /\ shaped (fst x) /\ words 32 (bf_P (fst x)) /\ w2 32 (snd y).
Lemma related_step : forall j x y, (j < 0 + 521)%nat -> related x y -> related (blowfish_step x j) (sched_step y j).
Proof.
  intros j [k pl] [st s] Hj (E1 & E2 & Hk & HP & Hs). cbn [fst snd] in *. subst pl st. rewrite sched_step_is by exact Hk. rewrite step_pair by assumption.
  pose proof (bf_enc_wf k s HP Hs) as He. generalize dependent (blowfish_encrypt_words k s). intros e He.
  destruct (put_flat k j (fst e) (snd e) Hk Hj) as [F1 F2]. unfold related. cbn [fst snd]. split; [exact eq_refl|]. split; [symmetry; exact F1|]. split; [exact F2|]. split; [|exact He].
  destruct He as [H1 H2]. apply put_words; assumption.
Qed.
Lemma key_word_is : forall key m j, (0 < m <= 14)%nat -> bytes key -> length key = (4 * m)%nat ->
  rd (blowfish_key_words key) (N.of_nat (Nat.modulo j m)) = Done (key_word key j).
Proof.
  intros key m j Hm Hb HL. pose proof (Nat.mod_upper_bound j m ltac:(lia)) as Hj. unfold blowfish_key_words.
  rewrite (ld_user_key_words 4 14 56 m 0 key); [| |exact Hb| | | | |]; try lia; [|intros ->; cbn in HL; lia].
  change (Nat.eqb 0 0) with true. cbv iota.
  assert (length (load_be 4 m key) = m) as LL by (unfold load_be; rewrite map_length, seq_length; reflexivity).
  rewrite MacProofs2.rd_nth by (rewrite Nat2N.id, app_length, LL; lia). rewrite Nat2N.id, app_nth1 by lia. f_equal.
  unfold load_be. rewrite (nth_indep _ 0 (be_val (slice key (0 * 4) 4))) by (rewrite map_length, seq_length; lia).
  rewrite (map_nth (fun i => be_val (slice key (i * 4) 4))). rewrite seq_nth by lia. cbn [Nat.add]. unfold key_word. f_equal.
  rewrite StreamProofs.slice4 by lia. cbn [seq map]. unfold cyclic_byte. rewrite HL.
  assert (forall q, (q < 4)%nat -> ((4 * j + q) mod (4 * m) = j mod m * 4 + q)%nat) as E.
  { intros q Hq. pose proof (Nat.div_mod j m ltac:(lia)) as D. symmetry. apply (Nat.mod_unique _ _ (j / m)%nat); [lia|]. set (d := (j / m)%nat) in *. set (r := (j mod m)%nat) in *. clearbody d r. subst j. lia. }
  rewrite !E by lia. rewrite Nat.add_0_r. reflexivity.
Qed.
Lemma whiten_is : forall key m n, (0 < m <= 14)%nat -> bytes key -> length key = (4 * m)%nat ->
  blowfish_whiten n key = Done (map (fun i => N.lxor (nth i blowfish_parray 0) (key_word key i)) (seq 0 n)).
Proof.
  intros key m n Hm Hb HL. induction n as [|n IH]; [reflexivity|]. cbn [blowfish_whiten]. rewrite IH. cbn [obind].
  assert (blowfish_w_size (length key) = m) as -> by (unfold blowfish_w_size; rewrite HL; destruct (Nat.ltb_spec (4 * m) 5); lia).
  rewrite (key_word_is key m n Hm Hb HL). cbn [obind]. rewrite seq_S, map_app. reflexivity.
Qed.
Lemma puff_is : forall key m, (0 < m <= 14)%nat -> bytes key -> length key = (4 * m)%nat ->
  exists k, blowfish_puff_up key = Done k /\ flat k = Schedule key /\ shaped k.
Proof.
  intros key m Hm Hb HL. unfold blowfish_puff_up. rewrite (whiten_is key m 18 Hm Hb HL). cbn [obind].
  set (P := map _ (seq 0 18)). assert (length P = 18%nat) as LP by (unfold P; rewrite map_length, seq_length; reflexivity).
  assert (words 32 P) as WP by (apply Forall_map, Forall_forall; intros j _; apply lxor_lt; [apply nth_words, bf_parray_words|apply key_word_lt, Hb]).
  change (repeat 0 8) with (pair_bytes (0, 0)).
  pose proof (sim_gen _ _ _ blowfish_step sched_step related 521 0 (blowfish_init P, pair_bytes (0, 0)) (flat (blowfish_init P), (0, 0)) related_step) as G.
  specialize (G (conj eq_refl (conj eq_refl (conj (boxes_shaped P LP) (conj WP (conj eq_refl eq_refl)))))). destruct G as (_ & G1 & G2 & _).
  eexists. split; [exact eq_refl|]. split; [|exact G2]. rewrite <- G1. unfold Schedule. fold sched_step. clear G1 G2.
  set (st := map _ (seq 0 18) ++ skipn 18 _). enough (flat (blowfish_init P) = st) as -> by exact eq_refl. unfold st, flat, P. clear.
  assert (forall (a b : list N) n, length a = n -> skipn n (a ++ b) = b) as SK by (intros a b n <-; rewrite skipn_app, skipn_all, Nat.sub_diag; reflexivity).
  cbn [bf_P bf_S1 bf_S2 bf_S3 bf_S4 blowfish_init]. unfold pi_words. rewrite SK by reflexivity. apply f_equal2; [|reflexivity]. apply map_ext_in. intros j Hj. apply in_seq in Hj. apply f_equal2; [|reflexivity]. symmetry. apply app_nth1. change (length blowfish_parray) with 18%nat. lia.
Qed.
Lemma blowfish_is : forall key block, bytes key -> (0 < length key <= 56)%nat -> Nat.modulo (length key) 4 = 0%nat ->
  bc_check blowfish key = Done Success /\ bc_enc blowfish key block = Blowfish key block.
Proof.
  intros key block Hb HL Hm. destruct (puff_is key (length key / 4) ltac:(lia) Hb ltac:(lia)) as (k & E & F & Sh).
  unfold blowfish. cbn [bc_check bc_enc]. rewrite E. cbn [obind]. split; [reflexivity|].
  unfold Blowfish. rewrite <- F. rewrite enc_flat by exact Sh. unfold blowfish_block_encrypt, blk_be, load_be. cbn [seq map].
  change (slice block (0 * 4) 4) with (firstn 4 block). change (slice block (1 * 4) 4) with (firstn 4 (skipn 4 block)).
  unfold on2. destruct (blowfish_encrypt_words k _) as [L R]. unfold store_be. cbn [map List.concat]. rewrite app_nil_r. reflexivity.
Qed.
