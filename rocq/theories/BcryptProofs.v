(* The key expansion of bcrypt is that of the paper. *)
From Verif Require Import Words CipherBase CipherLib BlowfishModel BlowfishProofs StreamModel BcryptModel BcryptSpec.
From Verif Require HashProofs StreamProofs WhirlProofs RcProofs.
From Coq Require Import String PeanoNat.
Notation length := List.length (only parsing).
Notation concat := List.concat (only parsing).
Open Scope string_scope.
Open Scope list_scope.
Open Scope N_scope.

Definition flat (k : bf_keys) : list N := bf_P k ++ bf_S1 k ++ bf_S2 k ++ bf_S3 k ++ bf_S4 k.
Definition shaped (k : bf_keys) : Prop :=
  length (bf_P k) = 18%nat /\ length (bf_S1 k) = 256%nat /\ length (bf_S2 k) = 256%nat /\ length (bf_S3 k) = 256%nat /\ length (bf_S4 k) = 256%nat.

Lemma flat_length : forall k, shaped k -> length (flat k) = 1042%nat.
Proof. intros k (A & B & C & D & E). unfold flat. rewrite !app_length, A, B, C, D, E. reflexivity. Qed.
Lemma flat_P : forall k i, shaped k -> (i < 18)%nat -> nth i (flat k) 0 = nth i (bf_P k) 0.
Proof. intros k i (A & _) Hi. unfold flat. apply app_nth1. lia. Qed.
Lemma nth_skip_app : forall (a b : list N) i n, length a = n -> nth (n + i) (a ++ b) 0 = nth i b 0.
Proof. intros a b i n <-. apply app_nth2_plus. Qed.
Lemma box_index : forall x, (N.to_nat (x mod 256) < 256)%nat.
Proof. intro x. pose proof (N.mod_lt x 256). lia. Qed.
Lemma flat_boxes : forall k x, shaped k ->
  sbox (flat k) 0 x = nthN (bf_S1 k) (x mod 256) /\ sbox (flat k) 1 x = nthN (bf_S2 k) (x mod 256) /\
  sbox (flat k) 2 x = nthN (bf_S3 k) (x mod 256) /\ sbox (flat k) 3 x = nthN (bf_S4 k) (x mod 256).
Proof.
  intros k x (A & B & C & D & E). unfold sbox, nthN, flat. pose proof (box_index x) as H. set (j := N.to_nat (x mod 256)) in *.
  repeat split.
  - replace (18 + 256 * 0 + j)%nat with (18 + j)%nat by lia. rewrite nth_skip_app by exact A. apply app_nth1. lia.
  - replace (18 + 256 * 1 + j)%nat with (18 + (256 + j))%nat by lia. rewrite nth_skip_app by exact A. rewrite nth_skip_app by exact B. apply app_nth1. lia.
  - replace (18 + 256 * 2 + j)%nat with (18 + (256 + (256 + j)))%nat by lia. rewrite nth_skip_app by exact A. rewrite nth_skip_app by exact B.
    rewrite nth_skip_app by exact C. apply app_nth1. lia.
  - replace (18 + 256 * 3 + j)%nat with (18 + (256 + (256 + (256 + j))))%nat by lia. rewrite nth_skip_app by exact A. rewrite nth_skip_app by exact B.
    rewrite nth_skip_app by exact C. rewrite nth_skip_app by exact D. reflexivity.
Qed.
Lemma low_byte : forall x n, N.land (N.shiftr x n) 0xff = (x / 2 ^ n) mod 256.
Proof. intros. rewrite N.shiftr_div_pow2. change 0xff with (N.ones 8). rewrite N.land_ones. reflexivity. Qed.
Lemma F_flat : forall k x, shaped k -> bf_F (flat k) x = blowfish_F k x.
Proof.
  intros k x H. unfold bf_F, blowfish_F, addw. rewrite !low_byte.
  destruct (flat_boxes k (x / 2 ^ 24) H) as (-> & _). destruct (flat_boxes k (x / 2 ^ 16) H) as (_ & -> & _).
  destruct (flat_boxes k (x / 2 ^ 8) H) as (_ & _ & -> & _). destruct (flat_boxes k x H) as (_ & _ & _ & ->).
  change (2 ^ 0) with 1. rewrite N.div_1_r. reflexivity.
Qed.
Lemma enc_flat : forall k s, shaped k -> bf_encrypt (flat k) s = blowfish_encrypt_words k s.
Proof.
  intros k s H. unfold bf_encrypt, blowfish_encrypt_words.
  rewrite (RcProofs.fold_left_ext_in _ _ _ (blowfish_round k)).
  - destruct (fold_left (blowfish_round k) (seq 0 16) s) as [L R]. rewrite !flat_P by (try exact H; lia). reflexivity.
  - intros [L R] i Hi. apply in_seq in Hi. unfold blowfish_round. rewrite flat_P by (try exact H; lia). rewrite F_flat by exact H. f_equal. apply N.lxor_comm.
Qed.

Definition pair_bytes (s : N * N) : list N := be_bytes 4 (fst s) ++ be_bytes 4 (snd s).
Lemma pair_bytes_length : forall s, length (pair_bytes s) = 8%nat.
Proof. intro s. unfold pair_bytes. rewrite app_length, !be_bytes_length. reflexivity. Qed.
Lemma pair_load : forall s, w2 32 s -> load_be 4 2 (pair_bytes s) = [fst s; snd s].
Proof.
  intros [L R] [HL HR]. cbn [fst snd] in *. pose proof (load_store_be 4 [L; R]) as H. unfold store_be in H. cbn [map List.concat List.length] in H.
  rewrite app_nil_r in H. apply H. repeat constructor; assumption.
Qed.
Lemma pair_words : forall s, w2 32 s -> be_val (slice (pair_bytes s) 0 4) = fst s /\ be_val (slice (pair_bytes s) 4 4) = snd s.
Proof.
  intros s H. pose proof (pair_load s H) as E. unfold load_be in E. cbn [seq map] in E. injection E. intros E2 E1. split; assumption.
Qed.
Lemma block_pair : forall k s, w2 32 s -> blowfish_block_encrypt k (pair_bytes s) = pair_bytes (blowfish_encrypt_words k s).
Proof.
  intros k s H. unfold blowfish_block_encrypt, blk_be. rewrite pair_load by exact H. unfold on2. destruct s as [L R]. cbn [fst snd].
  destruct (blowfish_encrypt_words k (L, R)) as [L' R']. unfold store_be, pair_bytes. cbn [map List.concat fst snd]. rewrite app_nil_r. reflexivity.
Qed.

(* ---------------------------------------------------------------- where the words go *)
Lemma upd_at : forall (l : list N) j x, (j < length l)%nat -> upd l j x = firstn j l ++ x :: skipn (S j) l.
Proof.
  induction l as [|a l IH]; intros j x H; [cbn in H; lia|]. destruct j as [|j]; [reflexivity|].
  cbn [upd firstn skipn app]. rewrite IH by (cbn in H; lia). reflexivity.
Qed.
Lemma upd_upd : forall (l : list N) j x y, (j + 2 <= length l)%nat -> upd (upd l j x) (j + 1) y = set2 l j x y.
Proof.
  induction l as [|a l IH]; intros j x y H; [cbn in H; lia|]. destruct j as [|j].
  - destruct l as [|b l]; [cbn in H; lia|]. reflexivity.
  - cbn [upd Nat.add]. rewrite IH by (cbn in H; lia). reflexivity.
Qed.
Lemma set2_l : forall a b j x y, (j + 2 <= length a)%nat -> set2 (a ++ b) j x y = set2 a j x y ++ b.
Proof.
  intros a b j x y H. unfold set2. rewrite firstn_app, skipn_app. replace (j - length a)%nat with 0%nat by lia.
  replace (j + 2 - length a)%nat with 0%nat by lia. cbn [firstn skipn]. rewrite app_nil_r, <- !app_assoc. reflexivity.
Qed.
Lemma set2_r : forall a b j x y n, length a = n -> set2 (a ++ b) (n + j) x y = a ++ set2 b j x y.
Proof.
  intros a b j x y n <-. unfold set2. rewrite firstn_app, skipn_app. rewrite firstn_all2 by lia.
  replace (length a + j - length a)%nat with j by lia. rewrite (skipn_all2 a) by lia.
  replace (length a + j + 2 - length a)%nat with (j + 2)%nat by lia. rewrite <- !app_assoc. reflexivity.
Qed.
Lemma set2_length : forall l j x y, (j + 2 <= length l)%nat -> length (set2 l j x y) = length l.
Proof. intros. unfold set2. rewrite !app_length, firstn_length, skipn_length. cbn [List.length]. lia. Qed.

Lemma put_flat : forall k i x y, shaped k -> (i < 521)%nat -> flat (blowfish_put k i x y) = set2 (flat k) (2 * i) x y /\ shaped (blowfish_put k i x y).
Proof.
  intros k i x y (A & B & C & D & E) Hi. unfold blowfish_put, flat, shaped.
  destruct (Nat.ltb_spec i 9); [|destruct (Nat.ltb_spec i 137); [|destruct (Nat.ltb_spec i 265); [|destruct (Nat.ltb_spec i 393)]]];
    cbn [bf_P bf_S1 bf_S2 bf_S3 bf_S4]; rewrite upd_upd by lia.
  - split; [rewrite set2_l by lia; reflexivity|rewrite set2_length by lia; tauto].
  - split; [|rewrite set2_length by lia; tauto]. replace (2 * i)%nat with (18 + 2 * (i - 9))%nat by lia.
    rewrite (set2_r (bf_P k)) by exact A. rewrite set2_l by lia. reflexivity.
  - split; [|rewrite set2_length by lia; tauto]. replace (2 * i)%nat with (18 + (256 + 2 * (i - 137)))%nat by lia.
    rewrite (set2_r (bf_P k)) by exact A. rewrite (set2_r (bf_S1 k)) by exact B. rewrite set2_l by lia. reflexivity.
  - split; [|rewrite set2_length by lia; tauto]. replace (2 * i)%nat with (18 + (256 + (256 + 2 * (i - 265))))%nat by lia.
    rewrite (set2_r (bf_P k)) by exact A. rewrite (set2_r (bf_S1 k)) by exact B. rewrite (set2_r (bf_S2 k)) by exact C. rewrite set2_l by lia. reflexivity.
  - split; [|rewrite set2_length by lia; tauto]. replace (2 * i)%nat with (18 + (256 + (256 + (256 + 2 * (i - 393)))))%nat by lia.
    rewrite (set2_r (bf_P k)) by exact A. rewrite (set2_r (bf_S1 k)) by exact B. rewrite (set2_r (bf_S2 k)) by exact C. rewrite (set2_r (bf_S3 k)) by exact D. reflexivity.
Qed.

(* ---------------------------------------------------------------- the salt *)
Lemma be_bytes_xor : forall k x y, be_bytes k (N.lxor x y) = xorl (be_bytes k x) (be_bytes k y).
Proof.
  assert (forall a b x y, length a = length b -> xorl (a ++ [x]) (b ++ [y]) = xorl a b ++ [N.lxor x y]) as X.
  { induction a as [|p a IH]; intros [|q b] x y H; try discriminate H; [reflexivity|]. cbn [xorl app]. f_equal. apply IH. injection H. auto. }
  induction k as [|k IH]; intros x y; [reflexivity|]. cbn [be_bytes]. rewrite X by (rewrite !be_bytes_length; reflexivity). rewrite <- IH. f_equal.
  - f_equal. change 256 with (2 ^ 8). rewrite <- !N.shiftr_div_pow2. apply N.shiftr_lxor.
  - f_equal. change 256 with (2 ^ 8). rewrite <- !N.land_ones. apply N.bits_inj. intro i. rewrite !N.land_spec, !N.lxor_spec, !N.land_spec.
    destruct (N.testbit x i), (N.testbit y i), (N.testbit (N.ones 8) i); reflexivity.
Qed.
Definition salted (salt : list N) (m : nat) (s : N * N) : N * N := (N.lxor (fst s) (salt_word salt (2 * m)), N.lxor (snd s) (salt_word salt (2 * m + 1))).
Lemma mix_bytes : forall salt pl c, length salt = 16%nat -> length pl = 8%nat -> c = 0%nat \/ c = 8%nat ->
  bc_mix salt pl c = (xorl pl (slice salt c 8), (8 - c)%nat).
Proof.
  intros salt pl c Hs Hp Hc.
  do 16 (destruct salt as [|? salt]; [discriminate Hs|]). destruct salt; [|discriminate Hs].
  do 8 (destruct pl as [|? pl]; [discriminate Hp|]). destruct pl; [|discriminate Hp].
  destruct Hc as [-> | ->]; cbv -[N.lxor]; reflexivity.
Qed.
Lemma salt_word_lt : forall salt i, bytes salt -> salt_word salt i < 2 ^ 32.
Proof. intros. unfold salt_word. apply (be_slice_lt salt (4 * i)). assumption. Qed.
Lemma half_words : forall salt m, bytes salt -> length salt = 16%nat -> (m < 2)%nat ->
  slice salt (8 * m) 8 = be_bytes 4 (salt_word salt (2 * m)) ++ be_bytes 4 (salt_word salt (2 * m + 1)).
Proof.
  intros salt m Hb Hl Hm.
  assert (forall i, (4 * i + 4 <= 16)%nat -> be_bytes 4 (salt_word salt i) = slice salt (4 * i) 4) as W.
  { intros i Hi. unfold salt_word. pose proof (be_bytes_val (slice salt (4 * i) 4) (bytes_firstn _ _ (bytes_skipn _ _ Hb))) as E.
    rewrite slice_length in E by lia. exact E. }
  rewrite !W by lia. unfold slice. replace (4 * (2 * m + 1))%nat with (8 * m + 4)%nat by lia. replace (4 * (2 * m))%nat with (8 * m)%nat by lia.
  rewrite <- skipn_add. set (t := skipn (8 * m) salt). assert (8 <= length t)%nat by (unfold t; rewrite skipn_length; lia).
  do 8 (destruct t as [|? t]; [cbn in *; lia|]). reflexivity.
Qed.
Lemma mix_pair : forall salt s m, bytes salt -> length salt = 16%nat -> (m < 2)%nat ->
  bc_mix salt (pair_bytes s) (8 * m) = (pair_bytes (salted salt m s), (8 * (1 - m))%nat).
Proof.
  intros salt s m Hb Hl Hm. rewrite mix_bytes by (try exact Hl; try apply pair_bytes_length; lia). f_equal; [|lia].
  rewrite half_words by assumption. unfold pair_bytes, salted. cbn [fst snd]. rewrite !be_bytes_xor.
  assert (forall a b c d : list N, length a = length c -> xorl (a ++ b) (c ++ d) = xorl a c ++ xorl b d) as X.
  { induction a as [|p a IH]; intros b [|q c] d H; try discriminate H; [reflexivity|]. cbn [xorl app]. f_equal. apply IH. injection H. auto. }
  apply X. rewrite !be_bytes_length. reflexivity.
Qed.
Lemma salted_wf : forall salt m s, bytes salt -> w2 32 s -> w2 32 (salted salt m s).
Proof. intros salt m s Hb [HL HR]. split; cbn [salted fst snd]; apply lxor_lt; try assumption; apply salt_word_lt, Hb. Qed.

Definition spec_step (salt : list N) (s : list N * (N * N)) (i : nat) : list N * (N * N) :=
  let '(st, (L, R)) := s in
  let '(L, R) := bf_encrypt st (N.lxor L (salt_word salt (2 * (i mod 2))), N.lxor R (salt_word salt (2 * (i mod 2) + 1))) in
  (set2 st (2 * i) L R, (L, R)).
Lemma steps_sim : forall salt n i k s, bytes salt -> length salt = 16%nat -> (i + n <= 521)%nat -> shaped k -> words 32 (bf_P k) -> w2 32 s ->
  let '(k', _, _) := fold_left (bc_step salt) (seq i n) (k, pair_bytes (salted salt (i mod 2) s), (8 * (1 - i mod 2))%nat) in
  flat k' = fst (fold_left (spec_step salt) (seq i n) (flat k, s)) /\ shaped k' /\ words 32 (bf_P k').
Proof.
  intros salt n. induction n as [|n IH]; intros i k s Hb Hl Hi Hk HP Hs; [cbn [seq fold_left fst]; auto|].
  cbn [seq fold_left].
  assert (spec_step salt (flat k, s) i = (set2 (flat k) (2 * i) (fst (blowfish_encrypt_words k (salted salt (i mod 2) s))) (snd (blowfish_encrypt_words k (salted salt (i mod 2) s))),
          blowfish_encrypt_words k (salted salt (i mod 2) s))) as E.
  { unfold spec_step. destruct s as [L R]. rewrite enc_flat by exact Hk. unfold salted. cbn [fst snd].
    destruct (blowfish_encrypt_words _ _) as [L' R']. reflexivity. }
  rewrite E. clear E.
  pose proof (salted_wf salt (i mod 2) s Hb Hs) as Hw. pose proof (bf_enc_wf k _ HP Hw) as He.
  unfold bc_step at 2. rewrite block_pair by exact Hw. set (e := blowfish_encrypt_words k (salted salt (i mod 2) s)) in *.
  destruct (pair_words e He) as [-> ->].
  pose proof (Nat.mod_upper_bound i 2 ltac:(lia)) as Hm.
  rewrite mix_pair by (try assumption; lia).
  assert (S i mod 2 = 1 - i mod 2)%nat as Em.
  { clear. rewrite <- Nat.add_1_r, Nat.add_mod by lia. pose proof (Nat.mod_upper_bound i 2 ltac:(lia)). destruct (i mod 2)%nat as [|[|]]; [reflexivity|reflexivity|lia]. }
  rewrite <- Em. destruct (put_flat k i (fst e) (snd e) Hk ltac:(lia)) as [<- Hk'].
  apply IH; try assumption; [lia|]. destruct He as [He1 He2]. apply bf_put_words; assumption.
Qed.

(* ---------------------------------------------------------------- the key *)
Lemma wrap_mod : forall n c, (c < n)%nat -> bc_wrap n c = ((c + 1) mod n)%nat.
Proof.
  intros n c H. unfold bc_wrap. destruct (Nat.eqb_spec (S c) n) as [E|E].
  - replace (c + 1)%nat with n by lia. rewrite Nat.mod_same by lia. reflexivity.
  - rewrite Nat.mod_small by lia. lia.
Qed.
Lemma shl_or : forall w b, w < 2 ^ 24 -> b < 256 -> or (shlw 32 w 8) b = w * 256 + b.
Proof.
  intros w b Hw Hb. unfold shlw. rewrite N.mod_small. { apply (lor_add w b 8). exact Hb. }
  rewrite N.shiftl_mul_pow2. change (2 ^ 32) with (2 ^ 24 * 2 ^ 8). apply N.mul_lt_mono_pos_r; [reflexivity|exact Hw].
Qed.
Lemma word_cyclic : forall pw t, bytes pw -> pw <> [] ->
  bc_word pw (t mod length pw) = (be_val (map (fun j => cyclic_byte pw (t + j)) (seq 0 4)), ((t + 4) mod length pw)%nat).
Proof.
  intros pw t Hb Hn. assert (length pw <> 0)%nat as Hz by (destruct pw; [congruence|discriminate]).
  assert (forall c, (c mod length pw < length pw)%nat) as U by (intro; apply Nat.mod_upper_bound; exact Hz).
  assert (forall c, bc_wrap (length pw) (c mod length pw) = ((c + 1) mod length pw)%nat) as W.
  { intro c. rewrite wrap_mod by apply U. rewrite Nat.add_mod_idemp_l by exact Hz. reflexivity. }
  assert (forall i, nth i pw 0 < 256) as B.
  { intro i. destruct (Nat.lt_ge_cases i (length pw)) as [L|L]; [apply (proj1 (Forall_forall _ _) Hb); apply nth_In; exact L|rewrite nth_overflow by exact L; reflexivity]. }
  unfold bc_word. cbn [seq fold_left map]. rewrite !W. rewrite <- !Nat.add_assoc. cbn [Nat.add]. f_equal.
  unfold cyclic_byte. rewrite Nat.add_0_r. change (1 + 1)%nat with 2%nat.
  pose proof (B (t mod length pw)%nat) as B0. pose proof (B ((t + 1) mod length pw)%nat) as B1. pose proof (B ((t + 2) mod length pw)%nat) as B2. pose proof (B ((t + 3) mod length pw)%nat) as B3.
  unfold be_val. cbn [fold_left].
  rewrite (shl_or 0) by (try assumption; reflexivity).
  set (x0 := nth (t mod length pw) pw 0) in *. set (x1 := nth ((t + 1) mod length pw) pw 0) in *. set (x2 := nth ((t + 2) mod length pw) pw 0) in *. set (x3 := nth ((t + 3) mod length pw) pw 0) in *.
  clearbody x0 x1 x2 x3. change (2 ^ 24) with 16777216 in *.
  rewrite (shl_or (0 * 256 + x0) x1) by (change (2 ^ 24) with 16777216; lia). rewrite (shl_or ((0 * 256 + x0) * 256 + x1) x2) by (change (2 ^ 24) with 16777216; lia).
  rewrite shl_or by (change (2 ^ 24) with 16777216; lia). reflexivity.
Qed.
Lemma key_word_lt : forall pw i, bytes pw -> key_word pw i < 2 ^ 32.
Proof.
  intros pw i Hb. unfold key_word. change (2 ^ 32) with (256 ^ N.of_nat (length (map (fun j => cyclic_byte pw (4 * i + j)) (seq 0 4)))). apply be_val_lt.
  apply Forall_map, Forall_forall. intros j _. unfold cyclic_byte.
  destruct (Nat.lt_ge_cases ((4 * i + j) mod length pw) (length pw)) as [L|L]; [apply (proj1 (Forall_forall _ _) Hb); apply nth_In; exact L|rewrite nth_overflow by exact L; reflexivity].
Qed.
Lemma whiten_gen : forall (init : bool) pw n i P, bytes pw -> pw <> [] -> (i + n <= length P)%nat ->
  fst (fold_left (fun s i => let '(P, c) := s in let '(w, c) := bc_word pw c in
                             (upd P i (if init then xor (nth i blowfish_parray 0) w else xor (nth i P 0) w), c)) (seq i n) (P, ((4 * i) mod length pw)%nat)) =
  firstn i P ++ map (fun j => xor (nth j (if init then blowfish_parray else P) 0) (key_word pw j)) (seq i n) ++ skipn (i + n) P.
Proof.
  intros init pw n. induction n as [|n IH]; intros i P Hb Hn HL.
  - cbn [seq fold_left fst map app]. rewrite Nat.add_0_r, firstn_skipn. reflexivity.
  - cbn [seq fold_left map]. rewrite word_cyclic by assumption. fold (key_word pw i).
    replace (4 * i + 4)%nat with (4 * S i)%nat by lia. rewrite IH by (try assumption; rewrite ?upd_length; lia).
    set (v := if init then _ else _). assert (v = xor (nth i (if init then blowfish_parray else P) 0) (key_word pw i)) as Ev by (unfold v; destruct init; reflexivity).
    rewrite <- Ev. clearbody v. clear Ev. rewrite upd_at by lia.
    assert (length (firstn i P) = i) as Lf by (rewrite firstn_length; lia).
    rewrite firstn_app, Lf. replace (S i - i)%nat with 1%nat by lia. rewrite firstn_all2 by lia. cbn [firstn].
    rewrite <- !app_assoc. cbn [app]. f_equal. f_equal. f_equal.
    + apply map_ext_in. intros j Hj. apply in_seq in Hj. destruct init; [reflexivity|]. f_equal.
      rewrite app_nth2 by lia. rewrite Lf. destruct (j - i)%nat as [|d] eqn:Ed; [lia|]. cbn [nth]. rewrite WhirlProofs.nth_skip. f_equal. lia.
    + rewrite skipn_app, Lf. rewrite skipn_all2 by lia. cbn [app]. replace (S i + n - i)%nat with (S n) by lia.
      match goal with |- skipn (S n) (v :: ?t) = _ => change (skipn (S n) (v :: t)) with (skipn n t) end. rewrite skipn_add. f_equal. lia.
Qed.
Lemma whiten_spec : forall init pw P, bytes pw -> pw <> [] -> length P = 18%nat ->
  bc_whiten init pw P = map (fun j => xor (nth j (if init then blowfish_parray else P) 0) (key_word pw j)) (seq 0 18).
Proof.
  intros init pw P Hb Hn HL. assert (length pw <> 0)%nat as Hz by (destruct pw; [congruence|discriminate]).
  pose proof (whiten_gen init pw 18 0 P Hb Hn ltac:(lia)) as H. rewrite Nat.mul_0_r, Nat.mod_0_l in H by exact Hz. unfold bc_whiten. etransitivity; [exact H|].
  cbn [firstn app]. rewrite skipn_all2 by lia. apply app_nil_r.
Qed.

Lemma boxes_shaped : forall P, length P = 18%nat -> shaped (blowfish_init P).
Proof. intros P H. unfold shaped, blowfish_init. cbn [bf_P bf_S1 bf_S2 bf_S3 bf_S4]. split; [exact H|]. repeat split; reflexivity. Qed.
Lemma puff_expand : forall pw salt k (init : bool), bytes pw -> pw <> [] -> bytes salt -> length salt = 16%nat -> shaped k -> words 32 (bf_P k) ->
  flat (bc_puff_up pw salt k init) = ExpandKey (if init then pi_words else flat k) salt pw /\
  shaped (bc_puff_up pw salt k init) /\ words 32 (bf_P (bc_puff_up pw salt k init)).
Proof.
  intros pw salt k init Hb Hn Hs Ls Hk HP. unfold bc_puff_up. cbv zeta.
  set (P0 := if init then blowfish_parray else bf_P k).
  assert (length P0 = 18%nat) as LP0 by (unfold P0; destruct init; [reflexivity|apply Hk]).
  assert (words 32 P0) as WP0 by (unfold P0; destruct init; [apply bf_parray_words|exact HP]).
  rewrite whiten_spec by (try assumption; apply Hk). fold P0.
  set (P := map _ (seq 0 18)).
  assert (length P = 18%nat) as LP by (unfold P; rewrite map_length, seq_length; reflexivity).
  assert (words 32 P) as WP by (apply Forall_map, Forall_forall; intros j _; apply lxor_lt; [apply nth_words, WP0|apply key_word_lt, Hb]).
  set (k1 := if init then blowfish_init P else _).
  assert (shaped k1 /\ words 32 (bf_P k1) /\ bf_P k1 = P) as (Hk1 & W1 & EP).
  { unfold k1. destruct init; [split; [apply boxes_shaped, LP|split; [exact WP|reflexivity]]|]. split; [|split; [exact WP|reflexivity]].
    destruct Hk as (A & B & C & D & E). unfold shaped. cbn [bf_P bf_S1 bf_S2 bf_S3 bf_S4]. auto. }
  pose proof (steps_sim salt 521 0 k1 (0, 0) Hs Ls ltac:(lia) Hk1 W1 ltac:(split; reflexivity)) as H.
  change (0 mod 2)%nat with 0%nat in H. change (8 * (1 - 0))%nat with 8%nat in H.
  assert (pair_bytes (salted salt 0 (0, 0)) = slice salt 0 8) as E.
  { change 0%nat with (8 * 0)%nat at 2. rewrite half_words by (try assumption; lia). unfold pair_bytes, salted. cbn [fst snd]. rewrite !N.lxor_0_l. reflexivity. }
  rewrite E in H. destruct (fold_left (bc_step salt) (seq 0 521) _) as [[k' pl'] c']. cbn [fst]. destruct H as (H1 & H2 & H3).
  split; [|split; assumption]. rewrite H1. unfold ExpandKey. fold (spec_step salt).
  set (st := map _ (seq 0 18) ++ skipn 18 _). enough (flat k1 = st) as -> by reflexivity. unfold st. clear st H1 H2 H3 E.
  unfold flat at 1. rewrite EP. unfold P, P0, k1.
  assert (forall (a b : list N) n, length a = n -> skipn n (a ++ b) = b) as SK by (intros a b n <-; rewrite skipn_app, skipn_all, Nat.sub_diag; reflexivity).
  destruct init.
  - cbn [bf_S1 bf_S2 bf_S3 bf_S4 blowfish_init]. unfold pi_words. rewrite SK by reflexivity. apply f_equal2; [|reflexivity]. apply map_ext_in. intros j Hj. apply in_seq in Hj. apply f_equal2; [|reflexivity]. symmetry. apply app_nth1. change (length blowfish_parray) with 18%nat. lia.
  - cbn [bf_S1 bf_S2 bf_S3 bf_S4]. unfold flat at 2. rewrite SK by apply Hk. apply f_equal2; [|reflexivity]. apply map_ext_in. intros j Hj. apply in_seq in Hj. apply f_equal2; [|reflexivity]. symmetry. apply flat_P; [exact Hk|lia].
Qed.
Lemma zeros16 : bytes (repeat 0 16) /\ length (repeat 0 16) = 16%nat.
Proof. split; [|reflexivity]. repeat constructor. Qed.
Opaque bc_puff_up ExpandKey.
Lemma setup_spec : forall cost salt pw, bytes pw -> pw <> [] -> bytes salt -> length salt = 16%nat ->
  flat (bc_setup cost salt pw) = EksBlowfishSetup cost salt pw /\ shaped (bc_setup cost salt pw) /\ words 32 (bf_P (bc_setup cost salt pw)).
Proof.
  intros cost salt pw Hb Hn Hs Ls. unfold bc_setup, EksBlowfishSetup. cbv zeta. destruct zeros16 as [Hz Lz].
  assert (salt <> []) as Hsn by (intros ->; discriminate Ls).
  assert (words 32 (bf_P (blowfish_init (repeat 0 18)))) as W0 by (cbn [bf_P blowfish_init]; repeat constructor).
  pose proof (puff_expand pw salt (blowfish_init (repeat 0 18)) true Hb Hn Hs Ls (boxes_shaped (repeat 0 18) eq_refl) W0) as H0. cbv iota in H0.
  revert H0. generalize (bc_puff_up pw salt (blowfish_init (repeat 0 18)) true). generalize (ExpandKey pi_words salt pw). generalize (2 ^ cost).
  set (Z := repeat 0 16) in *. clearbody Z. clear W0.
  induction n as [|n IH] using N.peano_ind; intros st k H0; [exact H0|]. rewrite !N.iter_succ.
  destruct (IH st k H0) as (E & A & B).
  destruct (puff_expand pw Z _ false Hb Hn Hz Lz A B) as (E1 & A1 & B1). destruct (puff_expand salt Z _ false Hs Hsn Hz Lz A1 B1) as (E2 & A2 & B2).
  cbv iota in E1, E2. rewrite E2, E1, E. split; [reflexivity|]. split; [exact A2|exact B2].
Qed.

(* ---------------------------------------------------------------- the text *)
Lemma slice_pairs : forall a b c, slice (pair_bytes a ++ pair_bytes b ++ pair_bytes c) 0 8 = pair_bytes a /\
  slice (pair_bytes a ++ pair_bytes b ++ pair_bytes c) 8 8 = pair_bytes b /\ slice (pair_bytes a ++ pair_bytes b ++ pair_bytes c) 16 8 = pair_bytes c.
Proof. intros a b c. unfold pair_bytes. cbn [be_bytes app]. repeat split. Qed.
Lemma ctext_raw : forall cost salt pw, bytes pw -> pw <> [] -> bytes salt -> length salt = 16%nat -> bc_ctext (bc_setup cost salt pw) = bcrypt_raw cost salt pw.
Proof.
  intros cost salt pw Hb Hn Hs Ls. destruct (setup_spec cost salt pw Hb Hn Hs Ls) as (E & A & B). unfold bcrypt_raw. cbv zeta. rewrite <- E.
  set (k := bc_setup cost salt pw) in *. clearbody k.
  assert (forall n, let f := Nat.iter n (bf_encrypt (flat k)) in
          Nat.iter n (fun c => blowfish_block_encrypt k (slice c 0 8) ++ blowfish_block_encrypt k (slice c 8 8) ++ blowfish_block_encrypt k (slice c 16 8)) bc_magic =
          List.concat (map (fun b => pair_bytes (f b)) magic) /\ Forall (fun b => w2 32 (f b)) magic) as H.
  { induction n as [|n IH]; cbv zeta in *.
    - split; [reflexivity|]. repeat constructor.
    - destruct IH as [IH1 IH2]. unfold Nat.iter in *. cbn [nat_rect]. rewrite IH1. unfold magic in *. cbv zeta in *. cbn [map List.concat] in *. rewrite !app_nil_r in *.
      inversion IH2 as [|? ? W1 T1]; subst. inversion T1 as [|? ? W2 T2]; subst. inversion T2 as [|? ? W3 T3]; subst. clear IH1 IH2 T1 T2 T3.
      destruct (slice_pairs (nat_rect (fun _ : nat => (N * N)%type) (be_val (EncSpec.codes "Orph"), be_val (EncSpec.codes "eanB")) (fun _ : nat => bf_encrypt (flat k)) n)
        (nat_rect (fun _ : nat => (N * N)%type) (be_val (EncSpec.codes "ehol"), be_val (EncSpec.codes "derS")) (fun _ : nat => bf_encrypt (flat k)) n)
        (nat_rect (fun _ : nat => (N * N)%type) (be_val (EncSpec.codes "cryD"), be_val (EncSpec.codes "oubt")) (fun _ : nat => bf_encrypt (flat k)) n)) as (-> & -> & ->).
      rewrite !block_pair by assumption. rewrite !enc_flat by exact A. split; [reflexivity|].
      constructor; [|constructor; [|constructor; [|constructor]]]; rewrite enc_flat by exact A; apply bf_enc_wf; assumption. }
  unfold bc_ctext. revert H. generalize 64%nat. intros n H. destruct (H n) as [H1 _]. rewrite H1. clear. generalize (bf_encrypt (flat k)) magic. intros f m.
  apply f_equal. apply map_ext. intro b. unfold pair_bytes. destruct (Nat.iter n f b). reflexivity.
Qed.
