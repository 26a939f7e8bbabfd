(* BLAKE3: the stack of chaining values is a binary counter of complete subtrees. *)
From Verif Require Import Words EncSpec TaskModel CipherBase CipherLib StreamModel HashModel UtilModel Blake3Model BlakeSpec Blake3Spec RcProofs BlakeProofs Blake3Proofs.
From Coq Require Import List PeanoNat Lia.
Open Scope N_scope.

(* segments (first leaf, number of leaves), the last ones first *)
Definition dbl (l : list (N * N)) : list (N * N) := map (fun '(s, z) => (2 * s, 2 * z)) l.
Fixpoint decp (p : positive) : list (N * N) :=
  match p with
  | xH => [(0, 1)]
  | xO q => dbl (decp q)
  | xI q => (2 * Npos q, 1) :: dbl (decp q)
  end.
Definition dec (n : N) : list (N * N) := match n with 0 => [] | Npos p => decp p end.
Definition mrg (l : list (N * N)) : list (N * N) := match l with (s2, z2) :: (s1, z1) :: r => (s1, z1 + z2) :: r | _ => l end.
Definition two (l : list (N * N)) : bool := match l with _ :: _ :: _ => true | _ => false end.
Lemma dec_double : forall q, dec (2 * q) = dbl (dec q).
Proof. intros [|p]; reflexivity. Qed.
Lemma dec_double1 : forall q, dec (2 * q + 1) = (2 * q, 1) :: dbl (dec q).
Proof. intros [|p]; reflexivity. Qed.
Lemma mrg_dbl : forall l, mrg (dbl l) = dbl (mrg l).
Proof. intros [|[s2 z2] [|[s1 z1] r]]; try reflexivity. cbn [dbl map mrg]. f_equal. f_equal. lia. Qed.
Lemma two_dbl : forall l, two (dbl l) = two l.
Proof. intros [|[s2 z2] [|[s1 z1] r]]; reflexivity. Qed.
Fixpoint mloop (fuel : nat) (temp : N) (l : list (N * N)) : option (list (N * N)) :=
  if (N.land temp 1 =? 0) && two l then match fuel with O => None | S fuel => mloop fuel (N.shiftr temp 1) (mrg l) end else Some l.
Lemma mloop_dbl : forall fuel temp l, mloop fuel temp (dbl l) = match mloop fuel temp l with Some r => Some (dbl r) | None => None end.
Proof.
  induction fuel as [|fuel IH]; intros temp l; cbn [mloop]; rewrite two_dbl; destruct ((N.land temp 1 =? 0) && two l); try reflexivity. rewrite mrg_dbl. apply IH.
Qed.
Lemma even_land : forall q, (N.land (2 * q) 1 =? 0) = true.
Proof. intro q. rewrite (N.land_ones _ 1 : N.land _ 1 = _). change (2 ^ 1) with 2. rewrite N.mul_comm, N.mod_mul by discriminate. reflexivity. Qed.
Lemma odd_land : forall q, (N.land (2 * q + 1) 1 =? 0) = false.
Proof. intro q. rewrite (N.land_ones _ 1 : N.land _ 1 = _). change (2 ^ 1) with 2. rewrite N.add_comm, N.mul_comm, N.mod_add by discriminate. reflexivity. Qed.
Lemma half : forall q, N.shiftr (2 * q) 1 = q.
Proof. intro q. rewrite N.shiftr_div_pow2. change (2 ^ 1) with 2. rewrite N.mul_comm. apply N.div_mul. discriminate. Qed.
Lemma merge_pair : forall q, mrg ((2 * q + 1, 1) :: dec (2 * q + 1)) = dbl ((q, 1) :: dec q).
Proof. intro q. rewrite dec_double1. reflexivity. Qed.
Lemma dbl_length : forall l, length (dbl l) = length l.
Proof. intro. apply map_length. Qed.
(* adding one to the counter *)
Lemma count_up : forall n fuel, (length (dec n) <= fuel)%nat -> mloop fuel (n + 1) ((n, 1) :: dec n) = Some (dec (n + 1)).
Proof.
  induction n as [|n IH|n IH] using N.binary_ind; intros fuel F.
  - destruct fuel; reflexivity.
  - rewrite dec_double1. replace (N.double n) with (2 * n) by (symmetry; apply N.double_spec).
    rewrite dec_double. destruct fuel; cbn [mloop]; rewrite odd_land; reflexivity.
  - replace (N.succ_double n) with (2 * n + 1) in * by (rewrite N.succ_double_spec; lia). replace (2 * n + 1 + 1) with (2 * (n + 1)) by lia.
    rewrite dec_double1 in F. cbn [length] in F. rewrite dbl_length in F. destruct fuel as [|fuel]; [lia|].
    rewrite dec_double. cbn [mloop]. rewrite even_land. rewrite half, merge_pair. rewrite dec_double1. cbn [two andb].
    rewrite mloop_dbl. rewrite IH by lia. reflexivity.
Qed.

Fixpoint ok (e : N) (l : list (N * N)) (b : N) : Prop :=
  match l with
  | [] => e = 0
  | (s, z) :: r => s + z = e /\ (exists a, z = 2 ^ a) /\ b <= z /\ ok s r (2 * z)
  end.
Definition wok (e : N) (l : list (N * N)) : Prop := match l with [] => False | (s, z) :: r => s + z = e /\ 0 < z /\ ok s r z end.
Lemma ok_less : forall l e b b', ok e l b -> b' <= b -> ok e l b'.
Proof. intros [|[s z] r] e b b' H L; cbn in *; [exact H|]. destruct H as (A & B & C & D). repeat split; try assumption. lia. Qed.
Lemma ok_dbl : forall l e b, ok e l b -> ok (2 * e) (dbl l) (2 * b).
Proof.
  induction l as [|[s z] r IH]; intros e b H; cbn [ok dbl map] in *; [lia|]. destruct H as (A & (a & B) & C & D). split; [lia|]. split; [exists (N.succ a); rewrite N.pow_succ_r'; lia|].
  split; [lia|]. apply IH. exact D.
Qed.
Lemma dec_ok : forall n, ok n (dec n) 1.
Proof.
  induction n as [|n IH|n IH] using N.binary_ind.
  - reflexivity.
  - rewrite N.double_spec, dec_double. apply ok_less with (2 * 1); [apply ok_dbl; exact IH|lia].
  - rewrite N.succ_double_spec, dec_double1. cbn [ok]. split; [reflexivity|]. split; [exists 0; reflexivity|]. split; [lia|]. apply (ok_dbl _ _ 1). exact IH.
Qed.
Lemma push_wok : forall n, wok (n + 1) ((n, 1) :: dec n).
Proof. intro n. cbn [wok]. split; [reflexivity|]. split; [lia|]. apply dec_ok. Qed.
Lemma dec_wok : forall n, 0 < n -> wok n (dec n).
Proof.
  intros n Hn. pose proof (dec_ok n) as D. destruct (dec n) as [|[s z] r]; cbn [ok wok] in *; [lia|]. destruct D as (A & (a & B) & C & D). split; [exact A|]. split; [lia|].
  apply ok_less with (2 * z); [exact D|lia].
Qed.
Lemma mrg_wok : forall e s2 z2 s1 z1 r, wok e ((s2, z2) :: (s1, z1) :: r) -> wok e ((s1, z1 + z2) :: r) /\ s1 + z1 = s2 /\ (exists a, z1 = 2 ^ a) /\ 0 < z2 <= z1.
Proof.
  intros e s2 z2 s1 z1 r (A & B & C & D & E & F). cbn [wok]. repeat split; try assumption; try lia. apply ok_less with (2 * z1); [exact F|lia].
Qed.

Section Tree.
Variables (k : list N) (f : N) (leaf : N -> node).
Lemma tree_fuel : forall fuel fuel' s n, (N.to_nat n <= fuel)%nat -> (N.to_nat n <= fuel')%nat -> tree fuel k f leaf s n = tree fuel' k f leaf s n.
Proof.
  induction fuel as [|fuel IH]; intros fuel' s n H1 H2.
  - destruct fuel' as [|fuel']; [reflexivity|]. cbn [tree]. destruct (N.leb_spec n 1); [reflexivity|lia].
  - destruct fuel' as [|fuel']; cbn [tree]; destruct (N.leb_spec n 1) as [L|L]; try reflexivity; [lia|].
    pose proof (N.log2_spec (n - 1) ltac:(lia)) as [S1 S2]. pose proof (N.pow_nonzero 2 (N.log2 (n - 1)) ltac:(discriminate)) as P.
    revert S1 S2 P. generalize (2 ^ N.log2 (n - 1)). intros x S1 S2 P. cbv zeta. f_equal; apply IH; lia.
Qed.
Definition sub (s z : N) : node := tree (N.to_nat z) k f leaf s z.
Lemma sub_one : forall s, sub s 1 = leaf s.
Proof. reflexivity. Qed.
Lemma sub_join : forall s z1 z2, (exists a, z1 = 2 ^ a) -> 0 < z2 <= z1 -> sub s (z1 + z2) = parent_node k f (sub s z1) (sub (s + z1) z2).
Proof.
  intros s z1 z2 (a & Ea) H. unfold sub at 1. remember (N.to_nat (z1 + z2)) as fuel eqn:EF. destruct fuel as [|fuel]; [lia|]. cbn [tree].
  destruct (N.leb_spec (z1 + z2) 1) as [L|L]; [lia|].
  assert (N.log2 (z1 + z2 - 1) = a) as -> by (apply N.log2_unique; [lia|rewrite N.pow_succ_r', <- Ea; lia]). rewrite <- Ea. cbv zeta.
  replace (z1 + z2 - z1) with z2 by lia. unfold sub. f_equal; apply tree_fuel; lia.
Qed.
Definition val (x : N * N) : list N := chaining_value (sub (fst x) (snd x)).

Variable mode : blake3_mode.
Hypotheses (Lk : length k = 8%nat) (Wk : words k) (Hf : f = mode_flag mode).
Definition same (s s' : b3) : Prop := s_t s' = s_t s /\ s_d s' = s_d s /\ s_right s' = s_right s /\ s_chunk_nr s' = s_chunk_nr s /\ s_block_nr s' = s_block_nr s /\ s_out s' = s_out s.
(* the stack holds the chaining values of the segments *)
Definition top_is (s : b3) (e : N) (l : list (N * N)) : Prop := s_stack s = map val l /\ wok e l.
Lemma flag_small : mode_flag mode < 2 ^ 7.
Proof. destruct mode; reflexivity. Qed.
Lemma merge_mid : forall s e l, top_is s e l -> two l = true -> exists s', pc_compress mode k false s = Done s' /\ same s s' /\ top_is s' e (mrg l).
Proof.
  intros s e l [ES WO] T. destruct l as [|[s2 z2] [|[s1 z1] r]]; try discriminate T. destruct (mrg_wok _ _ _ _ _ _ WO) as (WO' & E1 & E2 & E3).
  unfold pc_compress. rewrite ES. cbn [map andb]. change (or (or PARENT 0) (mode_flag mode)) with (N.lor PARENT (mode_flag mode)). rewrite <- Hf.
  assert (N.lor PARENT f < 2 ^ 32) as Hd by (rewrite Hf; destruct mode; reflexivity).
  pose proof (proj1 (compress_ok k (val (s1, z1) ++ val (s2, z2)) 0 64 (N.lor PARENT f) Lk Wk eq_refl eq_refl Hd)) as EC. change (0 mod 2 ^ 32) with 0 in EC. change (0 / 2 ^ 32) with 0 in EC. rewrite EC.
  eexists. split; [reflexivity|]. split; [repeat split|]. split; [|exact WO']. cbn [mrg map]. cbn [s_stack]. f_equal. unfold val at 3. cbn [fst snd]. rewrite sub_join by assumption.
  unfold chaining_value at 1, parent_node. cbn [n_h n_m n_t n_b n_d]. rewrite E1. rewrite (N.lor_comm f). reflexivity.
Qed.
(* when the input has ended the last pair becomes the root *)
Definition is_root (s : b3) (e : N) : Prop :=
  let x := sub 0 e in
  n_t x = 0 /\ n_h x = k /\ n_b x = 64 /\ n_d x = N.lor f F_PARENT /\
  s_save s = (k, k ++ firstn 4 blake3_IV ++ [0; 0; 64; N.lor (n_d x) F_ROOT], n_m x) /\
  s_v s = compression k (n_m x) 0 64 (N.lor (n_d x) F_ROOT) /\ s_h s = firstn 8 (s_v s) /\ s_stack s = [s_h s].
Lemma merge_end : forall s e l, top_is s e l -> two l = true -> exists s', pc_compress mode k true s = Done s' /\ same s s' /\ length (s_stack s) = S (length (s_stack s')) /\
  (is_root s' e \/ (top_is s' e (mrg l) /\ two (mrg l) = true)).
Proof.
  intros s e l [ES WO] T. destruct l as [|[s2 z2] [|[s1 z1] r]]; try discriminate T. destruct (mrg_wok _ _ _ _ _ _ WO) as (WO' & E1 & E2 & E3).
  unfold pc_compress. rewrite ES. cbn [map andb]. destruct r as [|[s0 z0] r].
  - cbn [map]. cbn [wok] in WO'. destruct WO' as (A & B & C). cbn [ok] in C. subst s1. rewrite N.add_0_l in *. subst s2.
    change (or (or PARENT ROOT) (mode_flag mode)) with (N.lor (N.lor PARENT ROOT) (mode_flag mode)).
    assert (N.lor (N.lor PARENT ROOT) (mode_flag mode) = N.lor (N.lor f F_PARENT) F_ROOT) as -> by (rewrite Hf; destruct mode; reflexivity).
    assert (N.lor (N.lor f F_PARENT) F_ROOT < 2 ^ 32) as Hd by (rewrite Hf; destruct mode; reflexivity).
    assert ((and (N.lor (N.lor f F_PARENT) F_ROOT) ROOT =? 0) = false) as -> by (rewrite Hf; destruct mode; reflexivity).
    pose proof (proj1 (compress_ok k (val (0, z1) ++ val (z1, z2)) 0 64 _ Lk Wk eq_refl eq_refl Hd)) as EC. change (0 mod 2 ^ 32) with 0 in EC. change (0 / 2 ^ 32) with 0 in EC. rewrite EC.
    eexists. split; [reflexivity|]. split; [repeat split|]. split; [reflexivity|]. left. unfold is_root. cbv zeta. rewrite <- A. rewrite sub_join by assumption. rewrite N.add_0_l.
    unfold parent_node. cbn [n_h n_m n_t n_b n_d s_save s_v s_h s_stack]. repeat split.
  - cbn [map]. change (or (or PARENT 0) (mode_flag mode)) with (N.lor PARENT (mode_flag mode)). rewrite <- Hf.
    assert (N.lor PARENT f < 2 ^ 32) as Hd by (rewrite Hf; destruct mode; reflexivity).
    pose proof (proj1 (compress_ok k (val (s1, z1) ++ val (s2, z2)) 0 64 (N.lor PARENT f) Lk Wk eq_refl eq_refl Hd)) as EC. change (0 mod 2 ^ 32) with 0 in EC. change (0 / 2 ^ 32) with 0 in EC. rewrite EC.
    eexists. split; [reflexivity|]. split; [repeat split|]. split; [reflexivity|]. right. split; [|reflexivity]. split; [|exact WO']. cbn [mrg map]. cbn [s_stack]. f_equal. unfold val at 3. cbn [fst snd]. rewrite sub_join by assumption.
    unfold chaining_value at 1, parent_node. cbn [n_h n_m n_t n_b n_d]. rewrite E1. rewrite (N.lor_comm f). reflexivity.
Qed.
Lemma same_refl : forall s, same s s.
Proof. intro. repeat split. Qed.
Lemma same_trans : forall a b c, same a b -> same b c -> same a c.
Proof. unfold same. intros a b c (A & B & C & D & E & F) (A' & B' & C' & D' & E' & F'). repeat split; congruence. Qed.
Lemma two_map : forall (g : N * N -> list N) l, two_or_more (map g l) = two l.
Proof. intros g [|? [|? ?]]; reflexivity. Qed.
Lemma loop_mid : forall fuel temp s e l r, top_is s e l -> mloop fuel temp l = Some r -> exists s', pc_loop fuel mode k false temp s = Done s' /\ same s s' /\ top_is s' e r.
Proof.
  induction fuel as [|fuel IH]; intros temp s e l r T M; cbn [mloop pc_loop] in *; rewrite (proj1 T), two_map; destruct ((N.land temp 1 =? 0) && two l) eqn:Q.
  - discriminate M.
  - injection M as <-. exists s. split; [reflexivity|]. split; [apply same_refl|exact T].
  - apply andb_true_iff in Q. destruct Q as [_ Q]. destruct (merge_mid s e l T Q) as (s1 & E1 & S1 & T1). rewrite E1. cbn [obind].
    destruct (IH _ _ _ _ _ T1 M) as (s2 & E2 & S2 & T2). exists s2. split; [exact E2|]. split; [eapply same_trans; eassumption|exact T2].
  - injection M as <-. exists s. split; [reflexivity|]. split; [apply same_refl|exact T].
Qed.
(* a chunk that is not the last *)
Lemma flush_mid : forall s n, s_stack s = map val (dec n) -> s_h s = val (n, 1) -> s_chunk_nr s = n -> s_right s = N.odd n ->
  exists s', flush_pc_stack mode k false s = Done s' /\ s_stack s' = map val (dec (n + 1)) /\ s_chunk_nr s' = n + 1 /\ s_right s' = N.odd (n + 1) /\
             s_t s' = s_t s /\ s_block_nr s' = s_block_nr s /\ s_out s' = s_out s.
Proof.
  intros s n ES EH EC ER. unfold flush_pc_stack. cbn [s_right s_chunk_nr s_stack]. rewrite ER.
  set (s1 := mkB3 _ _ _ _ _ _ _ _ _ _). assert (top_is s1 (n + 1) ((n, 1) :: dec n)) as T by (split; [cbn [s1 s_stack map]; rewrite ES, EH; reflexivity|apply push_wok]).
  destruct (N.odd n) eqn:O.
  - apply N.odd_spec in O. destruct O as [q ->]. unfold pc_do_compress.
    destruct (merge_mid s1 _ _ T) as (s2 & E2 & S2 & T2); [rewrite dec_double1; reflexivity|]. rewrite E2. cbn [obind].
    rewrite merge_pair in T2. assert (s_chunk_nr s1 = 2 * (q + 1)) as -> by (cbn [s1 s_chunk_nr]; rewrite EC; lia). rewrite half.
    assert (mloop (length (s_stack s1)) (q + 1) (dbl ((q, 1) :: dec q)) = Some (dec (2 * q + 1 + 1))) as M.
    { rewrite mloop_dbl, count_up; [replace (2 * q + 1 + 1) with (2 * (q + 1)) by lia; rewrite dec_double; reflexivity|].
      rewrite (proj1 T), map_length, dec_double1. cbn [length]. rewrite dbl_length. lia. }
    destruct (loop_mid _ _ _ _ _ _ T2 M) as (s3 & E3 & S3 & T3). rewrite E3. cbn [obind]. eexists. split; [reflexivity|]. cbn [s_stack s_chunk_nr s_right s_t s_block_nr s_out].
    destruct S2 as (A & B & C & D & E & F). destruct S3 as (A' & B' & C' & D' & E' & F'). split; [exact (proj1 T3)|]. split; [rewrite D', D; cbn [s1 s_chunk_nr]; rewrite EC; reflexivity|].
    split; [replace (2 * q + 1 + 1) with (2 * (q + 1)) by lia; symmetry; rewrite <- N.negb_even, N.even_mul; reflexivity|].
    rewrite A', A, E', E, F', F. repeat split.
  - eexists. split; [reflexivity|]. cbn [s_stack s_chunk_nr s_right s_t s_block_nr s_out s1]. rewrite ES, EH, EC.
    assert (exists q, n = 2 * q) as [q ->] by (apply N.even_spec; rewrite <- N.negb_odd, O; reflexivity).
    split; [rewrite dec_double1, dec_double; reflexivity|]. split; [reflexivity|]. split; [rewrite N.add_1_r, N.odd_succ, N.even_mul; reflexivity|]. repeat split.
Qed.
(* the end of the input *)
Definition closing (s : b3) (e : N) : Prop := is_root s e \/ exists l, top_is s e l /\ two l = true.
Lemma root_one : forall s e, is_root s e -> two_or_more (s_stack s) = false.
Proof. intros s e (_ & _ & _ & _ & _ & _ & _ & E). rewrite E. reflexivity. Qed.
Lemma loop_end : forall fuel temp s e, closing s e -> (length (s_stack s) <= fuel)%nat ->
  exists s', pc_loop fuel mode k true temp s = Done s' /\ same s s' /\ (length (s_stack s') <= length (s_stack s))%nat /\ closing s' e.
Proof.
  induction fuel as [|fuel IH]; intros temp s e C L; cbn [pc_loop]; destruct ((N.land temp 1 =? 0) && two_or_more (s_stack s)) eqn:Q.
  - apply andb_true_iff in Q. destruct Q as [_ Q]. destruct (s_stack s); [discriminate Q|cbn in L; lia].
  - exists s. split; [reflexivity|]. split; [apply same_refl|]. split; [lia|exact C].
  - apply andb_true_iff in Q. destruct Q as [_ Q]. destruct C as [C|(l & T & T2)]; [rewrite (root_one s e C) in Q; discriminate Q|].
    destruct (merge_end s e l T T2) as (s1 & E1 & S1 & L1 & C1). rewrite E1. cbn [obind].
    destruct (IH (N.shiftr temp 1) s1 e) as (s2 & E2 & S2 & L2 & C2); [destruct C1 as [C1|C1]; [left; exact C1|right; eexists; exact C1]|lia|].
    exists s2. split; [exact E2|]. split; [eapply same_trans; eassumption|]. split; [lia|exact C2].
  - exists s. split; [reflexivity|]. split; [apply same_refl|]. split; [lia|exact C].
Qed.
Lemma do_end : forall s e l, top_is s e l -> two l = true ->
  exists s', pc_do_compress mode k true s = Done s' /\ same s s' /\ (length (s_stack s') < length (s_stack s))%nat /\ closing s' e.
Proof.
  intros s e l T T2. unfold pc_do_compress. destruct (merge_end s e l T T2) as (s1 & E1 & S1 & L1 & C1). rewrite E1. cbn [obind].
  destruct (loop_end (length (s_stack s)) (N.shiftr (s_chunk_nr s) 1) s1 e) as (s2 & E2 & S2 & L2 & C2); [destruct C1 as [C1|C1]; [left; exact C1|right; eexists; exact C1]|lia|].
  exists s2. split; [exact E2|]. split; [eapply same_trans; eassumption|]. split; [lia|exact C2].
Qed.
Lemma collapse_ok : forall fuel s e, closing s e -> (length (s_stack s) <= fuel)%nat -> exists s', collapse fuel mode k s = Done s' /\ same s s' /\ is_root s' e.
Proof.
  induction fuel as [|fuel IH]; intros s e C L; cbn [collapse]; destruct C as [C|(l & T & T2)].
  - rewrite (root_one s e C). exists s. split; [reflexivity|]. split; [apply same_refl|exact C].
  - rewrite (proj1 T), map_length in L. destruct l; [discriminate T2|cbn in L; lia].
  - rewrite (root_one s e C). exists s. split; [reflexivity|]. split; [apply same_refl|exact C].
  - rewrite (proj1 T), two_map, T2. destruct (do_end s e l T T2) as (s1 & E1 & S1 & L1 & C1). rewrite E1. cbn [obind].
    destruct (IH s1 e C1 ltac:(lia)) as (s2 & E2 & S2 & R2). exists s2. split; [exact E2|]. split; [eapply same_trans; eassumption|exact R2].
Qed.
Lemma flush_end : forall s n, 0 < n -> s_stack s = map val (dec n) -> s_h s = val (n, 1) -> s_chunk_nr s = n -> s_right s = N.odd n ->
  exists s', flush_pc_stack mode k true s = Done s' /\ closing s' (n + 1) /\ s_out s' = s_out s /\ s_t s' = s_t s.
Proof.
  intros s n Hn ES EH EC ER. unfold flush_pc_stack. cbn [s_right s_chunk_nr s_stack]. rewrite ER.
  set (s1 := mkB3 _ _ _ _ _ _ _ _ _ _). assert (top_is s1 (n + 1) ((n, 1) :: dec n)) as T by (split; [cbn [s1 s_stack map]; rewrite ES, EH; reflexivity|apply push_wok]).
  assert (two ((n, 1) :: dec n) = true) as T2 by (pose proof (dec_wok n Hn) as X; destruct (dec n); [destruct X|reflexivity]).
  destruct (N.odd n) eqn:O.
  - destruct (do_end s1 _ _ T T2) as (s2 & E2 & S2 & _ & C2). rewrite E2. cbn [obind]. eexists. split; [reflexivity|]. destruct S2 as (A & B & C & D & E & F).
    split; [|cbn [s_out s_t]; rewrite F, A; split; reflexivity]. exact C2.
  - eexists. split; [reflexivity|]. split; [|split; reflexivity]. right. eexists. split; [exact T|exact T2].
Qed.
End Tree.
