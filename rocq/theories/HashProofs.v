(* Proofs about the frame of the Merkle-Damgard hashes: which padded message the code compresses. *)
From Verif Require Import Words EncSpec TaskModel CipherBase CipherLib RcProofs StreamModel HashModel HashSpec.
From Coq Require Import PeanoNat.
Open Scope N_scope.

(* ---- lists *)
Lemma nth_load_be : forall wb n l i, (i < n)%nat -> nth i (load_be wb n l) 0 = be_val (slice l (i * wb) wb).
Proof.
  intros wb n l i H. unfold load_be.
  rewrite (nth_indep _ 0 (be_val (slice l (0 * wb) wb))) by (rewrite map_length, seq_length; exact H).
  rewrite (map_nth (fun i => be_val (slice l (i * wb) wb)) (seq 0 n) 0%nat i), seq_nth by exact H. reflexivity.
Qed.
Lemma list_ext : forall (a b : list N), length a = length b -> (forall i, (i < length a)%nat -> nth i a 0 = nth i b 0) -> a = b.
Proof. intros a b L H. apply (nth_ext _ _ 0 0 L H). Qed.
Lemma slice_app_l : forall a b i n, (i + n <= length a)%nat -> slice (a ++ b) i n = slice a i n.
Proof.
  intros a b i n H. unfold slice. rewrite skipn_app, firstn_app, skipn_length.
  replace (n - (length a - i))%nat with 0%nat by lia. rewrite firstn_O, app_nil_r. reflexivity.
Qed.
Lemma slice_app_r : forall a b i n, (length a <= i)%nat -> slice (a ++ b) i n = slice b (i - length a) n.
Proof. intros a b i n H. unfold slice. rewrite skipn_app, skipn_all2 by exact H. reflexivity. Qed.
Lemma slice_short : forall a i n, (length a <= i)%nat -> slice a i n = [].
Proof. intros a i n H. unfold slice. rewrite skipn_all2 by exact H. apply firstn_nil. Qed.
Lemma slice_repeat : forall k i n, slice (repeat 0 k) i n = repeat 0 (Nat.min n (k - i)).
Proof.
  intros k i n. unfold slice. apply list_ext.
  - rewrite firstn_length, skipn_length, !repeat_length. reflexivity.
  - intros j H. rewrite firstn_length, skipn_length, repeat_length in H.
    assert (Forall (fun x => x = 0) (firstn n (skipn i (repeat 0 k)))) as F.
    { apply Forall_forall. intros x Hx. apply (repeat_spec k 0). rewrite <- (firstn_skipn i (repeat 0 k)).
      apply in_or_app. right. rewrite <- (firstn_skipn n (skipn i (repeat 0 k))). apply in_or_app. left. exact Hx. }
    rewrite nth_repeat. rewrite Forall_forall in F. apply F. apply nth_In.
    rewrite firstn_length, skipn_length, repeat_length. exact H.
Qed.
Lemma be_val_zeros_l : forall k l, be_val (repeat 0 k ++ l) = be_val l.
Proof.
  intros k l. unfold be_val. rewrite fold_left_app. f_equal. induction k; [reflexivity|]. cbn [repeat fold_left]. exact IHk.
Qed.
Lemma be_val_zeros : forall k, be_val (repeat 0 k) = 0.
Proof. intro k. rewrite <- (app_nil_r (repeat 0 k)). rewrite be_val_zeros_l. reflexivity. Qed.
Lemma be_val_zeros_r : forall k l, be_val (l ++ repeat 0 k) = be_val l * 256 ^ N.of_nat k.
Proof.
  induction k as [|k IH]; intro l.
  - cbn [repeat]. rewrite app_nil_r. cbn. lia.
  - replace (repeat 0 (S k)) with (repeat 0 k ++ [0]) by (symmetry; apply (repeat_cons k 0)).
    rewrite app_assoc, be_val_app, IH. rewrite Nat2N.inj_succ, N.pow_succ_r'. lia.
Qed.
Lemma bytes_app : forall a b, bytes a -> bytes b -> bytes (a ++ b).
Proof. intros a b Ha Hb. apply Forall_app. split; assumption. Qed.
Lemma bytes_zeros : forall k, bytes (repeat 0 k).
Proof. intro k. apply Forall_forall. intros x H. apply repeat_spec in H. subst x. reflexivity. Qed.
Lemma bytes_slice : forall l i n, bytes l -> bytes (slice l i n).
Proof. intros l i n H. apply bytes_firstn, bytes_skipn, H. Qed.
Lemma pow256w : forall wb, 256 ^ N.of_nat wb = 2 ^ (8 * N.of_nat wb).
Proof. intro wb. apply CipherLib.pow256. Qed.
Lemma nth_snoc : forall (l : list N) x i, nth i (l ++ [x]) 0 = if (i =? length l)%nat then x else nth i l 0.
Proof.
  intros l x i. destruct (Nat.eqb_spec i (length l)) as [->|H]; [apply nth_middle|].
  destruct (Nat.lt_ge_cases i (length l)) as [H1|H1]; [apply app_nth1, H1|].
  rewrite !nth_overflow; [reflexivity|lia|rewrite app_length; cbn; lia].
Qed.

(* ---- loading a buffer into words *)
Lemma div_lt_iff : forall k wb i, (0 < wb)%nat -> ((k / wb)%nat = i <-> (i * wb <= k < i * wb + wb)%nat).
Proof.
  intros k wb i H. pose proof (Nat.div_mod k wb ltac:(lia)) as E. pose proof (Nat.mod_upper_bound k wb ltac:(lia)) as B. split.
  - intros <-. lia.
  - intros [H1 H2]. symmetry. apply (Nat.div_unique k wb i (k - i * wb)); lia.
Qed.
Lemma slice_snoc_in : forall l x i n, (i <= length l < i + n)%nat -> slice (l ++ [x]) i n = slice l i n ++ [x].
Proof.
  intros l x i n H. unfold slice. rewrite skipn_app. replace (i - length l)%nat with 0%nat by lia.
  change (skipn 0 [x]) with [x]. rewrite !firstn_all2 by (rewrite ?app_length, skipn_length; cbn [length]; lia). reflexivity.
Qed.
Lemma slice_snoc_out : forall l x i n, (length l < i \/ i + n <= length l)%nat -> slice (l ++ [x]) i n = slice l i n.
Proof.
  intros l x i n [H|H]; [|apply slice_app_l, H]. rewrite !slice_short by (rewrite ?app_length; cbn [length]; lia). reflexivity.
Qed.
Lemma load_be_snoc : forall wb nr l x, (0 < wb)%nat -> bytes l -> x < 256 -> (length l < nr * wb)%nat ->
  upd (load_be wb nr l) (length l / wb) (N.lor (shlw (8 * N.of_nat wb) (nth (length l / wb) (load_be wb nr l) 0) 8) x) =
  load_be wb nr (l ++ [x]).
Proof.
  intros wb nr l x Hw Hl Hx H.
  assert (length l / wb < nr)%nat as Hb by (apply Nat.div_lt_upper_bound; lia).
  apply list_ext; [rewrite upd_length, !load_be_length; reflexivity|].
  intros i Hi. rewrite upd_length, load_be_length in Hi.
  rewrite nth_upd by (rewrite load_be_length; exact Hb). rewrite !nth_load_be by assumption.
  destruct (div_lt_iff (length l) wb i Hw) as [D1 D2].
  destruct (Nat.eqb_spec (length l / wb) i) as [E|E].
  - subst i. specialize (D1 eq_refl). rewrite slice_snoc_in by lia. rewrite be_val_app.
    set (v := be_val (slice l (length l / wb * wb) wb)).
    assert (v * 256 < 2 ^ (8 * N.of_nat wb)) as V.
    { rewrite <- pow256w. destruct wb as [|wb']; [lia|]. rewrite Nat2N.inj_succ, N.pow_succ_r'. rewrite (N.mul_comm v). apply N.mul_lt_mono_pos_l; [lia|].
      eapply N.lt_le_trans; [apply be_val_lt, bytes_slice, Hl|]. apply N.pow_le_mono_r; [lia|].
      unfold slice. rewrite firstn_length, skipn_length. lia. }
    unfold shlw. rewrite N.shiftl_mul_pow2. change (2 ^ 8) with 256. rewrite N.mod_small by exact V.
    change 256 with (2 ^ 8). rewrite <- N.shiftl_mul_pow2, lor_add by exact Hx. rewrite N.shiftl_mul_pow2. reflexivity.
  - rewrite slice_snoc_out; [reflexivity|]. destruct (Nat.lt_ge_cases (length l) (i * wb)); [left; lia|right].
    destruct (Nat.lt_ge_cases (length l) (i * wb + wb)); [exfalso; apply E, D2; lia|lia].
Qed.
Lemma load_be_nil : forall wb nr, load_be wb nr [] = repeat 0 nr.
Proof.
  intros wb nr. apply list_ext; [rewrite load_be_length, repeat_length; reflexivity|].
  intros i H. rewrite load_be_length in H. rewrite nth_load_be by exact H. rewrite slice_short by (cbn; lia). rewrite nth_repeat. reflexivity.
Qed.
Lemma firstn_snoc : forall (l : list N) k, (k < length l)%nat -> firstn (S k) l = firstn k l ++ [nth k l 0].
Proof.
  intros l k H. rewrite <- (firstn_skipn k l) at 1. rewrite firstn_app, firstn_length.
  replace (Nat.min k (length l)) with k by lia. replace (S k - k)%nat with 1%nat by lia.
  rewrite firstn_firstn. replace (Nat.min (S k) k) with k by lia. f_equal.
  rewrite <- (firstn_skipn k l) at 2. rewrite app_nth2 by (rewrite firstn_length; lia). rewrite firstn_length.
  replace (k - Nat.min k (length l))%nat with 0%nat by lia.
  destruct (skipn k l) eqn:E; [|reflexivity]. exfalso. assert (length (skipn k l) = 0%nat) by (rewrite E; reflexivity).
  rewrite skipn_length in *. lia.
Qed.
Lemma ld_blocks_spec : forall wb nr blk buf, (0 < wb)%nat -> bytes buf -> (length buf <= nr * wb)%nat ->
  ld_blocks wb nr blk buf = load_be wb nr buf.
Proof.
  intros wb nr blk buf Hw Hb H. unfold ld_blocks.
  replace (Nat.ltb (nr * wb) (length buf)) with false by (symmetry; apply Nat.ltb_ge; lia).
  assert (forall k, (k <= length buf)%nat ->
    fold_left (fun inp b => upd inp (b / wb) (N.lor (shlw (8 * N.of_nat wb) (nth (b / wb) inp 0) 8) (nth b buf 0))) (seq 0 k) (repeat 0 nr)
    = load_be wb nr (firstn k buf)) as P.
  { induction k as [|k IH]; intro Hk.
    - cbn [seq fold_left]. rewrite firstn_O. symmetry. apply load_be_nil.
    - rewrite seq_S, fold_left_app, IH by lia. cbn [fold_left]. change (0 + k)%nat with k. rewrite firstn_snoc by lia.
      assert (length (firstn k buf) = k) as Lk by (rewrite firstn_length; lia).
      assert (nth k buf 0 < 256) as Hn by (unfold bytes in Hb; rewrite Forall_forall in Hb; apply Hb, nth_In; lia).
      pose proof (load_be_snoc wb nr (firstn k buf) (nth k buf 0) Hw (bytes_firstn k buf Hb) Hn ltac:(lia)) as S1.
      rewrite Lk in S1. exact S1. }
  rewrite P by lia. rewrite firstn_all. reflexivity.
Qed.

(* ---- the padding token *)
Lemma load_be_zeros_r : forall wb nr l k, (0 < wb)%nat -> (length l mod wb = 0)%nat -> load_be wb nr (l ++ repeat 0 k) = load_be wb nr l.
Proof.
  intros wb nr l k Hw M. apply list_ext; [rewrite !load_be_length; reflexivity|].
  intros i H. rewrite load_be_length in H. rewrite !nth_load_be by exact H.
  pose proof (Nat.div_mod (length l) wb ltac:(lia)) as E. rewrite M, Nat.add_0_r in E.
  destruct (Nat.lt_ge_cases i (length l / wb)) as [L|L].
  - rewrite slice_app_l; [reflexivity|]. rewrite E. nia.
  - assert (length l <= i * wb)%nat by (rewrite E; nia).
    rewrite slice_app_r, slice_repeat, be_val_zeros, slice_short by assumption. reflexivity.
Qed.
Lemma pad_word : forall wb nr l tok, (0 < wb)%nat -> bytes l -> tok < 256 -> (length l < nr * wb)%nat ->
  let w := 8 * N.of_nat wb in let b := (length l / wb)%nat in
  upd (load_be wb nr l) b (shlw w (N.lor (shlw w (nth b (load_be wb nr l) 0) 8) tok) (w - 8 - 8 * N.of_nat (length l mod wb))) =
  load_be wb nr (l ++ tok :: repeat 0 (nr * wb - length l - 1)).
Proof.
  intros wb nr l tok Hw Hl Ht H w b.
  assert (b < nr)%nat as Hb by (apply Nat.div_lt_upper_bound; lia).
  pose proof (load_be_snoc wb nr l tok Hw Hl Ht H) as S1. fold w b in S1.
  pose proof (Nat.mod_upper_bound (length l) wb ltac:(lia)) as M. pose proof (Nat.div_mod (length l) wb ltac:(lia)) as E.
  assert (nth b (load_be wb nr (l ++ [tok])) 0 = N.lor (shlw w (nth b (load_be wb nr l) 0) 8) tok) as V.
  { rewrite <- S1. rewrite nth_upd by (rewrite load_be_length; exact Hb). rewrite Nat.eqb_refl. reflexivity. }
  rewrite <- V. clear V S1.
  set (r := (wb - 1 - length l mod wb)%nat).
  assert (l ++ tok :: repeat 0 (nr * wb - length l - 1) = (l ++ [tok] ++ repeat 0 r) ++ repeat 0 (nr * wb - length l - 1 - r)) as ->.
  { rewrite <- !app_assoc. cbn [app]. do 2 f_equal. rewrite <- repeat_app. f_equal. unfold r.
    assert (b * wb + wb <= nr * wb)%nat by nia. unfold b in *. nia. }
  rewrite load_be_zeros_r; [|exact Hw|].
  2:{ rewrite !app_length, repeat_length. cbn [length]. unfold r.
      replace (length l + (1 + (wb - 1 - length l mod wb)))%nat with ((length l / wb + 1) * wb)%nat by nia. apply Nat.mod_mul. lia. }
  apply list_ext; [rewrite upd_length, !load_be_length; reflexivity|].
  intros i Hi. rewrite upd_length, load_be_length in Hi.
  rewrite nth_upd by (rewrite load_be_length; exact Hb). rewrite !nth_load_be by assumption.
  destruct (Nat.eqb_spec b i) as [Ei|Ei].
  - subst i.
    assert (slice (l ++ [tok] ++ repeat 0 r) (b * wb) wb = slice (l ++ [tok]) (b * wb) wb ++ repeat 0 r) as ->.
    { rewrite app_assoc. unfold slice. rewrite skipn_app.
      replace (b * wb - length (l ++ [tok]))%nat with 0%nat by (rewrite app_length; cbn [length]; unfold b; nia).
      change (skipn 0 (repeat 0 r)) with (repeat 0 r).
      rewrite (firstn_all2 (skipn (b * wb) (l ++ [tok]))) by (rewrite skipn_length, app_length; cbn [length]; unfold b; nia).
      apply firstn_all2. rewrite app_length, skipn_length, app_length, repeat_length. cbn [length]. unfold r, b. nia. }
    rewrite be_val_zeros_r. set (v := be_val (slice (l ++ [tok]) (b * wb) wb)).
    assert (w - 8 - 8 * N.of_nat (length l mod wb) = 8 * N.of_nat r) as -> by (unfold w, r; lia).
    unfold shlw. rewrite N.shiftl_mul_pow2, <- pow256w. apply N.mod_small.
    unfold w. rewrite <- pow256w.
    assert (v < 256 ^ N.of_nat (wb - r)) as Hv.
    { eapply N.lt_le_trans; [apply be_val_lt, bytes_slice, bytes_app; [exact Hl|constructor; [exact Ht|constructor]]|].
      apply N.pow_le_mono_r; [lia|]. unfold slice. rewrite firstn_length, skipn_length, app_length. cbn [length]. unfold r, b. nia. }
    replace (N.of_nat wb) with (N.of_nat (wb - r) + N.of_nat r) by (unfold r; lia). rewrite N.pow_add_r.
    apply N.mul_lt_mono_pos_r; [|exact Hv]. apply N.neq_0_lt_0, N.pow_nonzero. lia.
  - destruct (Nat.lt_ge_cases i b) as [L|L].
    + rewrite slice_app_l; [reflexivity|]; unfold b in L; nia.
    + assert (length l < i * wb)%nat by (unfold b in *; nia).
      rewrite (slice_short l) by lia.
      rewrite app_assoc, slice_app_r by (rewrite app_length; cbn [length]; lia). rewrite slice_repeat, be_val_zeros. reflexivity.
Qed.

(* ---- the length field *)
Lemma be_bytes_app : forall b a x, be_bytes (a + b) x = be_bytes a (x / 256 ^ N.of_nat b) ++ be_bytes b x.
Proof.
  induction b as [|b IH]; intros a x.
  - rewrite Nat.add_0_r. cbn [be_bytes]. rewrite app_nil_r. cbn. rewrite N.div_1_r. reflexivity.
  - rewrite Nat.add_succ_r. cbn [be_bytes]. rewrite IH, app_assoc. do 2 f_equal.
    rewrite Nat2N.inj_succ, N.pow_succ_r', N.div_div by (try apply N.pow_nonzero; lia). reflexivity.
Qed.
Lemma be_val_mod : forall k x, be_val (be_bytes k x) = x mod 256 ^ N.of_nat k.
Proof.
  induction k as [|k IH]; intro x; [cbn; rewrite N.mod_1_r; reflexivity|].
  cbn [be_bytes]. rewrite be_val_app, IH, Nat2N.inj_succ, N.pow_succ_r'.
  rewrite N.mod_mul_r by (try apply N.pow_nonzero; lia). lia.
Qed.
Lemma put_len_spec : forall wb nr X total, wb = 4%nat \/ wb = 8%nat -> (2 <= nr)%nat -> length X = (nr * wb - 8)%nat -> total < 2 ^ 64 ->
  put_len wb nr (load_be wb nr (X ++ repeat 0 8)) total = load_be wb nr (X ++ be_bytes 8 total).
Proof.
  intros wb nr X total [->| ->] Hn HX Ht; unfold put_len; cbn [Nat.eqb].
  - apply list_ext; [rewrite !upd_length, !load_be_length; reflexivity|].
    intros i Hi. rewrite !upd_length, load_be_length in Hi.
    rewrite !nth_upd by (rewrite ?upd_length, load_be_length; lia). rewrite !nth_load_be by exact Hi.
    change (be_bytes 8 total) with (be_bytes (4 + 4) total). rewrite be_bytes_app.
    change (256 ^ N.of_nat 4) with (2 ^ 32). rewrite N.shiftr_div_pow2.
    destruct (Nat.eqb_spec (nr - 1) i) as [E|E].
    + subst i. rewrite app_assoc, slice_app_r by (rewrite app_length, be_bytes_length; lia).
      rewrite app_length, be_bytes_length. replace ((nr - 1) * 4 - (length X + 4))%nat with 0%nat by lia.
      unfold slice. change (skipn 0 (be_bytes 4 total)) with (be_bytes 4 total).
      rewrite firstn_all2 by (rewrite be_bytes_length; lia). rewrite be_val_mod.
      change 0x00000000ffffffff with (N.ones 32). rewrite N.land_ones. reflexivity.
    + destruct (Nat.eqb_spec (nr - 2) i) as [E2|E2].
      * subst i. rewrite slice_app_r by lia. replace ((nr - 2) * 4 - length X)%nat with 0%nat by lia.
        rewrite slice_app_l by (rewrite be_bytes_length; lia). unfold slice.
        change (skipn 0 ?a) with a. rewrite firstn_all2 by (rewrite be_bytes_length; lia).
        rewrite be_val_mod. rewrite N.mod_small; [reflexivity|]. apply N.div_lt_upper_bound; [discriminate|]. exact Ht.
      * rewrite !slice_app_l by lia. reflexivity.
  - apply list_ext; [rewrite !upd_length, !load_be_length; reflexivity|].
    intros i Hi. rewrite !upd_length, load_be_length in Hi.
    rewrite !nth_upd by (rewrite ?upd_length, load_be_length; lia). rewrite !nth_load_be by exact Hi.
    destruct (Nat.eqb_spec (nr - 1) i) as [E|E].
    + subst i. rewrite slice_app_r by lia. replace ((nr - 1) * 8 - length X)%nat with 0%nat by lia.
      unfold slice. change (skipn 0 ?a) with a. rewrite firstn_all2 by (rewrite be_bytes_length; lia).
      rewrite be_val_bytes; [reflexivity|exact Ht].
    + rewrite !slice_app_l by lia. reflexivity.
Qed.

(* ---- chunks *)
Lemma chunks_fuel_enough : forall n f l, (0 < n)%nat -> (length l <= f)%nat -> chunks_fuel f n l = chunks n l.
Proof.
  intros n f l Hn. unfold chunks.
  assert (forall f g l, (length l <= f)%nat -> (length l <= g)%nat -> chunks_fuel f n l = chunks_fuel g n l) as P.
  { induction f0 as [|f0 IH]; intros g l0 H1 H2.
    - destruct l0; [|cbn in H1; lia]. destruct g; reflexivity.
    - destruct g as [|g]; [destruct l0; [reflexivity|cbn in H2; lia]|]. cbn [chunks_fuel].
      destruct l0 as [|x l0]; [reflexivity|]. f_equal. cbn [length] in H1, H2. apply IH; rewrite skipn_length; cbn [length]; lia. }
  intro H. apply P; lia.
Qed.
Lemma chunks_app : forall n b r, (0 < n)%nat -> length b = n -> chunks n (b ++ r) = b :: chunks n r.
Proof.
  intros n b r Hn Hb. unfold chunks at 1. rewrite app_length.
  destruct b as [|x b]; [cbn in Hb; lia|]. cbn [length Nat.add chunks_fuel app].
  change (x :: b ++ r) with ((x :: b) ++ r). rewrite firstn_exact, skipn_exact by exact Hb. f_equal.
  apply chunks_fuel_enough; lia.
Qed.
Lemma chunks_one : forall n b, (0 < n)%nat -> length b = n -> chunks n b = [b].
Proof. intros n b Hn Hb. rewrite <- (app_nil_r b) at 1. rewrite chunks_app by assumption. reflexivity. Qed.
Lemma chunks_concat : forall n l r, (0 < n)%nat -> (forall b, In b l -> length b = n) -> chunks n (concat l ++ r) = l ++ chunks n r.
Proof.
  intros n l r Hn. induction l as [|b l IH]; intro H; [reflexivity|]. cbn [concat]. rewrite <- app_assoc.
  rewrite chunks_app; [|exact Hn|apply H; left; reflexivity]. cbn [app]. f_equal. apply IH. intros c Hc. apply H. right. exact Hc.
Qed.
Lemma be_words_load : forall wb n l, (0 < wb)%nat -> length l = (n * wb)%nat -> be_words wb l = load_be wb n l.
Proof.
  intros wb n. induction n as [|n IH]; intros l Hw H.
  - destruct l; [reflexivity|cbn in H; lia].
  - unfold be_words. rewrite <- (firstn_skipn wb l) at 1.
    rewrite chunks_app; [|exact Hw|rewrite firstn_length; cbn in H; lia]. cbn [map].
    rewrite load_be_cons. f_equal. apply IH; [exact Hw|]. rewrite skipn_length. cbn in H. lia.
Qed.
Lemma le_words_load : forall wb n l, (0 < wb)%nat -> length l = (n * wb)%nat -> le_words wb l = load_le wb n l.
Proof.
  intros wb n. induction n as [|n IH]; intros l Hw H.
  - destruct l; [reflexivity|cbn in H; lia].
  - unfold le_words. rewrite <- (firstn_skipn wb l) at 1.
    rewrite chunks_app; [|exact Hw|rewrite firstn_length; cbn in H; lia]. cbn [map].
    rewrite load_le_cons. f_equal. apply IH; [exact Hw|]. rewrite skipn_length. cbn in H. lia.
Qed.
(* every list is full blocks and a rest *)
Lemma blocks_of : forall n (m : list N), (0 < n)%nat -> exists l last, m = concat l ++ last /\ (forall b, In b l -> length b = n) /\
  length l = (length m / n)%nat /\ length last = (length m mod n)%nat.
Proof.
  intros n m Hn. remember (length m) as k eqn:E. revert m E. induction k as [k IH] using lt_wf_ind. intros m E.
  destruct (Nat.lt_ge_cases k n) as [L|L].
  - exists [], m. rewrite Nat.div_small, Nat.mod_small by exact L. split; [reflexivity|]. split; [intros b []|]. split; [reflexivity|lia].
  - destruct (IH (k - n)%nat ltac:(lia) (skipn n m) ltac:(rewrite skipn_length; lia)) as (l & la & E1 & E2 & E3 & E4).
    exists (firstn n m :: l), la. split; [cbn [concat]; rewrite <- app_assoc, <- E1; symmetry; apply firstn_skipn|].
    assert (k = (k - n) + 1 * n)%nat as Ek by lia.
    split; [|split].
    + intros b [<-|H]; [rewrite firstn_length; lia|apply E2, H].
    + cbn [length]. rewrite E3. rewrite Ek at 2. rewrite Nat.div_add by lia. lia.
    + rewrite E4. rewrite Ek at 2. rewrite Nat.mod_add by lia. reflexivity.
Qed.

(* ---- the frame *)
(* the zero bytes between token and length that the code writes for a message of len bytes *)
Definition code_zeros (bs off len : nat) : nat :=
  let r := (len mod bs)%nat in if Nat.ltb r off then (bs - 9 - r)%nat else (2 * bs - 9 - r)%nat.
(* the message the code compresses *)
Definition code_padded (bs off : nat) (tok : N) (field : N -> list N) (m : list N) : list N :=
  if (negb (Nat.eqb (length m) 0) && Nat.eqb (length m mod bs) 0)%bool then m
  else m ++ [tok] ++ repeat 0 (code_zeros bs off (length m)) ++ field (8 * N.of_nat (length m)).

Section Frame.
  Variable h : hash_params.
  Variable words : list N -> list N.
  Variable field : N -> list N.
  (* what the last bytes before the length must look like *)
  Variable good : list N -> Prop.
  Let wb := hp_wb h.
  Let nr := hp_nr h.
  Let bs := (nr * wb)%nat.
  Hypothesis Hwb : wb = 4%nat \/ wb = 8%nat.
  Hypothesis Hnr : (2 <= nr)%nat.
  Hypothesis Hoff : (hp_off h + 8 <= bs)%nat.
  Hypothesis Htok : hp_tok h < 256.
  Hypothesis Hord : forall B, bytes B -> length B = bs -> hp_ord h (load_be wb nr B) = words B.
  Hypothesis Hfix : forall X total, bytes X -> length X = (bs - 8)%nat -> total < 2 ^ 64 -> good X ->
    hp_ord h (hp_fix h (load_be wb nr (X ++ be_bytes 8 total))) = words (X ++ field total).
  Hypothesis Hfield : forall t, t < 2 ^ 64 -> length (field t) = 8%nat.
  Let C := fun st b => hp_comp h st (words b).

  Lemma wb_pos : (0 < wb)%nat.
  Proof. destruct Hwb as [->| ->]; lia. Qed.
  Lemma bs_big : (8 <= bs)%nat.
  Proof. unfold bs. destruct Hwb as [->| ->]; lia. Qed.

  Lemma flush_full : forall total buf c, bytes buf -> length buf = bs -> hc_p2 c = false ->
    exists c', flush h total buf c = Done c' /\ hc_st c' = C (hc_st c) buf /\ hc_p2 c' = false.
  Proof.
    intros total buf c Hb L P. unfold flush. fold wb nr. rewrite ld_blocks_spec; [|apply wb_pos|exact Hb|fold bs; lia].
    cbn [do_block]. fold wb nr bs. replace (Nat.ltb (length buf) bs) with false by (symmetry; apply Nat.ltb_ge; lia).
    cbn [hc_blk hc_st hc_p2]. rewrite P. eexists. split; [reflexivity|]. cbn [hc_st hc_p2]. split; [|reflexivity].
    rewrite Hord by assumption. reflexivity.
  Qed.
  Lemma flush_one : forall total buf c, bytes buf -> (length buf < hp_off h)%nat -> hc_p2 c = false -> total < 2 ^ 64 ->
    good (buf ++ [hp_tok h] ++ repeat 0 (bs - 9 - length buf)) ->
    exists c', flush h total buf c = Done c' /\
      hc_st c' = C (hc_st c) (buf ++ [hp_tok h] ++ repeat 0 (bs - 9 - length buf) ++ field total).
  Proof.
    intros total buf c Hb L P Ht G. pose proof bs_big. unfold flush. fold wb nr.
    rewrite ld_blocks_spec; [|apply wb_pos|exact Hb|fold bs; lia].
    cbn [do_block]. fold wb nr bs. replace (Nat.ltb (length buf) bs) with true by (symmetry; apply Nat.ltb_lt; lia).
    cbn [hc_blk hc_st hc_p2]. rewrite P. unfold apply_pad. cbv zeta. fold wb nr.
    replace (Nat.ltb (length buf) (hp_off h)) with true by (symmetry; apply Nat.ltb_lt; lia). cbn [orb].
    rewrite (pad_word wb nr buf (hp_tok h)); [|apply wb_pos|exact Hb|exact Htok|fold bs; lia]. fold bs.
    assert (buf ++ hp_tok h :: repeat 0 (bs - length buf - 1) = (buf ++ [hp_tok h] ++ repeat 0 (bs - 9 - length buf)) ++ repeat 0 8) as ->.
    { rewrite <- !app_assoc. cbn [app]. do 2 f_equal. rewrite <- repeat_app. f_equal. lia. }
    rewrite put_len_spec; [|exact Hwb|exact Hnr|rewrite !app_length, repeat_length; cbn [length]; fold bs; lia|exact Ht].
    rewrite Hfix; [| | |exact Ht|exact G].
    - eexists. split; [reflexivity|]. cbn [hc_st]. unfold C. rewrite <- !app_assoc. reflexivity.
    - apply bytes_app; [exact Hb|]. apply bytes_app; [constructor; [exact Htok|constructor]|apply bytes_zeros].
    - rewrite !app_length, repeat_length. cbn [length]. lia.
  Qed.
  Lemma flush_two : forall total buf c, bytes buf -> (hp_off h <= length buf < bs)%nat -> hc_p2 c = false -> total < 2 ^ 64 ->
    good (repeat 0 (bs - 8)) ->
    exists c', flush h total buf c = Done c' /\
      hc_st c' = C (C (hc_st c) (buf ++ [hp_tok h] ++ repeat 0 (bs - 1 - length buf))) (repeat 0 (bs - 8) ++ field total).
  Proof.
    intros total buf c Hb L P Ht G. pose proof bs_big. unfold flush. fold wb nr.
    rewrite ld_blocks_spec; [|apply wb_pos|exact Hb|fold bs; lia].
    cbn [do_block]. fold wb nr bs. replace (Nat.ltb (length buf) bs) with true by (symmetry; apply Nat.ltb_lt; lia).
    cbn [hc_blk hc_st hc_p2]. rewrite P. unfold apply_pad at 1. cbv zeta. fold wb nr.
    replace (Nat.ltb (length buf) (hp_off h)) with false by (symmetry; apply Nat.ltb_ge; lia). cbn [orb].
    rewrite (pad_word wb nr buf (hp_tok h)); [|apply wb_pos|exact Hb|exact Htok|fold bs; lia]. fold bs.
    replace (bs - length buf - 1)%nat with (bs - 1 - length buf)%nat by lia.
    cbn [hc_blk hc_st hc_p2]. unfold apply_pad. cbv zeta. fold wb nr. rewrite Bool.orb_true_r.
    rewrite ld_blocks_spec; [|apply wb_pos|constructor|cbn [length]; lia]. rewrite load_be_nil, <- (load_be_nil wb nr).
    rewrite <- (load_be_zeros_r wb nr [] bs); [|apply wb_pos|cbn [length]; apply Nat.mod_0_l; pose proof wb_pos; lia].
    cbn [app]. assert (repeat 0 bs = repeat 0 (bs - 8) ++ repeat 0 8) as -> by (rewrite <- repeat_app; f_equal; lia).
    rewrite put_len_spec; [|exact Hwb|exact Hnr|rewrite repeat_length; fold bs; lia|exact Ht].
    rewrite Hfix; [|apply bytes_zeros|rewrite repeat_length; reflexivity|exact Ht|exact G].
    rewrite Hord.
    - eexists. split; [reflexivity|]. cbn [hc_st]. reflexivity.
    - apply bytes_app; [exact Hb|]. constructor; [exact Htok|apply bytes_zeros].
    - rewrite !app_length. cbn [length]. rewrite repeat_length. lia.
  Qed.

  Lemma fill : forall total m buf c, (length buf + length m <= bs)%nat ->
    fold_left (hash_byte h total) m (Done (buf, c)) = Done (buf ++ m, c).
  Proof.
    intros total m. induction m as [|x m IH]; intros buf c H; cbn [fold_left]; [rewrite app_nil_r; reflexivity|].
    cbn [length] in H. unfold hash_byte at 2. cbn [obind]. fold wb nr bs.
    replace (Nat.ltb (length buf) bs) with true by (symmetry; apply Nat.ltb_lt; lia).
    rewrite IH by (rewrite app_length; cbn [length]; lia). rewrite <- app_assoc. reflexivity.
  Qed.
  Lemma run_blocks : forall total l last c, (forall b, In b l -> length b = bs /\ bytes b) -> bytes last -> (length last <= bs)%nat ->
    last <> [] -> hc_p2 c = false ->
    exists c', fold_left (hash_byte h total) (concat l ++ last) (Done ([], c)) = Done (last, c') /\
      hc_st c' = fold_left C l (hc_st c) /\ hc_p2 c' = false.
  Proof.
    intros total l. induction l as [|b l IH]; intros last c Hl Hb L Hn P.
    - cbn [concat app fold_left]. rewrite fill by (cbn [length]; lia). exists c. auto.
    - cbn [concat fold_left]. rewrite <- app_assoc, fold_left_app.
      destruct (Hl b (or_introl eq_refl)) as [Lb Bb]. rewrite fill by (cbn [length]; lia). cbn [app].
      destruct (flush_full total b c Bb Lb P) as (c1 & F1 & F2 & F3).
      assert (exists x r, concat l ++ last = x :: r) as (x & r & E).
      { destruct (concat l ++ last) as [|x r] eqn:E; [apply app_eq_nil in E; tauto|eauto]. }
      specialize (IH last c1 (fun b' H' => Hl b' (or_intror H')) Hb L Hn F3). rewrite <- F2.
      rewrite E in *. cbn [fold_left] in IH |- *.
      unfold hash_byte at 2. cbn [obind]. fold wb nr bs.
      replace (Nat.ltb (length b) bs) with false by (symmetry; apply Nat.ltb_ge; lia). rewrite F1. cbn [obind].
      unfold hash_byte at 2 in IH. cbn [obind length] in IH. fold wb nr bs in IH.
      replace (Nat.ltb 0 bs) with true in IH by (symmetry; apply Nat.ltb_lt; pose proof bs_big; lia). exact IH.
  Qed.

  (* what the code computes for any message *)
  Lemma process_spec : forall m, bytes m -> 8 * N.of_nat (length m) < 2 ^ 64 ->
    (forall buf, bytes buf -> buf = skipn (length m / bs * bs) m -> (length buf < hp_off h)%nat -> good (buf ++ [hp_tok h] ++ repeat 0 (bs - 9 - length buf))) ->
    good (repeat 0 (bs - 8)) ->
    process_message h (8 * N.of_nat (length m)) m =
    Done (iterate bs C (hp_init h) (code_padded bs (hp_off h) (hp_tok h) field m)).
  Proof.
    intros m Hb Ht G1 G2. pose proof bs_big as B8. unfold process_message, iterate, code_padded.
    destruct (blocks_of bs m ltac:(lia)) as (l & la & E & Hl & Ll & Lla).
    set (total := 8 * N.of_nat (length m)) in *.
    set (c0 := mkCtx (repeat 0 (hp_nr h)) (hp_init h) false).
    assert (forall b, In b l -> length b = bs /\ bytes b) as Hl'.
    { intros b Hin. split; [apply Hl, Hin|]. apply Forall_forall. intros x Hx. unfold bytes in Hb. rewrite Forall_forall in Hb. apply Hb.
      rewrite E. apply in_or_app. left. apply in_concat. exists b. auto. }
    assert (bytes la) as Hla. { rewrite E in Hb. apply Forall_app in Hb. apply Hb. }
    assert (la = skipn (length m / bs * bs) m) as Sla.
    { rewrite E at 2. symmetry. apply skipn_exact. rewrite <- Ll. clear - Hl. induction l as [|b l IH]; [reflexivity|].
      cbn [concat length]. rewrite app_length, IH by (intros; apply Hl; right; assumption). rewrite (Hl b (or_introl eq_refl)). lia. }
    pose proof (Nat.mod_upper_bound (length m) bs ltac:(lia)) as Mb.
    destruct la as [|x la'] eqn:Ela.
    - rewrite <- Lla. cbn [length Nat.eqb]. rewrite app_nil_r in E.
      destruct l as [|b0 l0] eqn:El0.
      + (* the empty message *)
        assert (m = []) as Em by exact E. clear E.
        assert (total = 0) as Et by (unfold total; rewrite Em; reflexivity). rewrite Em. cbn [length negb andb Nat.eqb fold_left obind app].
        rewrite Et.
        assert (code_zeros bs (hp_off h) 0 = if Nat.ltb 0 (hp_off h) then (bs - 9)%nat else (2 * bs - 9)%nat) as ->.
        { unfold code_zeros. rewrite Nat.mod_0_l by lia. rewrite !Nat.sub_0_r. reflexivity. }
        destruct (Nat.ltb_spec 0 (hp_off h)) as [O|O].
        * destruct (flush_one 0 [] c0 (Forall_nil _) O eq_refl eq_refl) as (c1 & F1 & F2).
          { exact (G1 [] Hla Sla O). }
          rewrite F1. cbn [obind]. rewrite F2. cbn [length app] in *. rewrite Nat.sub_0_r.
          rewrite chunks_one; [reflexivity|lia|]. cbn [length]. rewrite app_length, repeat_length, (Hfield 0 eq_refl). lia.
        * destruct (flush_two 0 [] c0 (Forall_nil _) ltac:(cbn [length]; lia) eq_refl eq_refl G2) as (c1 & F1 & F2).
          rewrite F1. cbn [obind]. rewrite F2. cbn [length app] in *. rewrite Nat.sub_0_r.
          replace (2 * bs - 9)%nat with ((bs - 1) + (bs - 8))%nat by lia. rewrite repeat_app, <- app_assoc.
          change (hp_tok h :: repeat 0 (bs - 1) ++ repeat 0 (bs - 8) ++ field 0) with ((hp_tok h :: repeat 0 (bs - 1)) ++ repeat 0 (bs - 8) ++ field 0).
          rewrite chunks_app; [|lia|cbn [length]; rewrite repeat_length; lia].
          rewrite chunks_one; [reflexivity|lia|]. rewrite app_length, repeat_length, (Hfield 0 eq_refl). lia.
      + (* whole blocks only *)
        rewrite <- El0 in *. assert (length m =? 0 = false)%nat as ->.
        { apply Nat.eqb_neq. rewrite E, El0. cbn [concat]. rewrite app_length. rewrite (Hl b0) by (rewrite El0; left; reflexivity). lia. }
        cbn [negb andb].
        destruct (exists_last (l := l)) as (l1 & b1 & El1); [rewrite El0; discriminate|].
        assert (m = concat l1 ++ b1) as Em by (rewrite E, El1, concat_app; cbn [concat]; rewrite app_nil_r; reflexivity).
        destruct (Hl' b1) as [Lb1 Bb1]; [rewrite El1; apply in_or_app; right; left; reflexivity|].
        destruct (run_blocks total l1 b1 c0) as (c1 & F1 & F2 & F3).
        { intros b Hin. apply Hl'. rewrite El1. apply in_or_app. left. exact Hin. }
        { exact Bb1. } { lia. } { intros ->. cbn in Lb1. lia. } { reflexivity. }
        rewrite Em. rewrite F1. cbn [obind].
        destruct (flush_full total b1 c1 Bb1 Lb1 F3) as (c2 & F4 & F5 & _). rewrite F4. cbn [obind]. rewrite F5, F2.
        rewrite chunks_concat; [|lia|intros b Hin; apply Hl; rewrite El1; apply in_or_app; left; exact Hin].
        rewrite chunks_one by lia. rewrite fold_left_app. reflexivity.
    - rewrite <- Ela in *.
      assert (la <> []) as Nla by (rewrite Ela; discriminate).
      assert (0 < length la)%nat as Pla by (rewrite Ela; cbn; lia).
      replace ((length m mod bs =? 0)%nat) with false by (symmetry; apply Nat.eqb_neq; lia). rewrite Bool.andb_false_r.
      destruct (run_blocks total l la c0 Hl' Hla ltac:(lia) Nla eq_refl) as (c1 & F1 & F2 & F3).
      rewrite <- E in F1. rewrite F1. cbn [obind].
      unfold code_zeros. rewrite <- Lla. rewrite E at 1. rewrite <- app_assoc. rewrite chunks_concat by (try lia; exact Hl).
      rewrite fold_left_app. cbn [hc_st] in F2.
      destruct (Nat.ltb_spec (length la) (hp_off h)) as [O|O].
      + destruct (flush_one total la c1 Hla O F3 Ht (G1 la Hla Sla O)) as (c2 & F4 & F5). rewrite F4. cbn [obind]. rewrite F5, F2.
        rewrite chunks_one; [reflexivity|lia|]. rewrite !app_length, repeat_length, (Hfield total Ht). cbn [length]. lia.
      + destruct (flush_two total la c1 Hla ltac:(lia) F3 Ht G2) as (c2 & F4 & F5). rewrite F4. cbn [obind]. rewrite F5, F2.
        replace (2 * bs - 9 - length la)%nat with ((bs - 1 - length la) + (bs - 8))%nat by lia. rewrite repeat_app, <- app_assoc.
        set (Y := la ++ [hp_tok h] ++ repeat 0 (bs - 1 - length la)) in *.
        assert (la ++ [hp_tok h] ++ repeat 0 (bs - 1 - length la) ++ repeat 0 (bs - 8) ++ field total = Y ++ repeat 0 (bs - 8) ++ field total) as ->
          by (unfold Y; rewrite <- !app_assoc; reflexivity).
        rewrite chunks_app; [|lia|unfold Y; rewrite !app_length, repeat_length; cbn [length]; lia].
        rewrite chunks_one; [reflexivity|lia|]. rewrite app_length, repeat_length, (Hfield total Ht). lia.
  Qed.
End Frame.
