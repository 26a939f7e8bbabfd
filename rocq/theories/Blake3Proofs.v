(* BLAKE3: the compression function, the blocks, the output. *)
From Verif Require Import Words EncSpec TaskModel CipherBase CipherLib StreamModel HashModel UtilModel Blake2Model Blake3Model BlakeSpec Blake3Spec RcProofs BlakeProofs.
From Verif Require UtilProofs.
From Coq Require Import List PeanoNat Lia.
Open Scope N_scope.

Lemma rsh_ok : forall x n, x < 2 ^ 32 -> n <= 32 -> blake3_RSH x n = ror 32 x n.
Proof. intros x n Hx Hn. rewrite <- rot_ok by assumption. unfold blake3_RSH, blake2_ROT. first [reflexivity|apply N.lor_comm]. Qed.
Lemma rsh_step : forall v V i j n, rep 32 v V -> (i < 16)%nat -> (j < 16)%nat -> n <= 32 ->
  rep 32 (upd v i (blake3_RSH (xor (nth i v 0) (nth j v 0)) n)) (assign V i (ror 32 (N.lxor (V i) (V j)) n)).
Proof.
  intros v V i j n P Hi Hj Hn. assert (N.lxor (V i) (V j) < 2 ^ 32) as X by (apply lxor_lt; eapply rep_lt; eassumption).
  apply rep_upd; [exact P|exact Hi| |apply ror_lt; assumption]. rewrite (rep_get 32 v V i P Hi), (rep_get 32 v V j P Hj). apply rsh_ok; assumption.
Qed.
Lemma sum3_step : forall v V i j x, rep 32 v V -> (i < 16)%nat -> (j < 16)%nat ->
  rep 32 (upd v i (addw 32 (addw 32 (nth i v 0) (nth j v 0)) x)) (assign V i ((V i + V j + x) mod 2 ^ 32)).
Proof.
  intros v V i j x P Hi Hj. apply rep_upd; [exact P|exact Hi| |apply add_lt]. rewrite (rep_get 32 v V i P Hi), (rep_get 32 v V j P Hj).
  unfold addw. rewrite N.add_mod_idemp_l by (apply N.pow_nonzero; discriminate). reflexivity.
Qed.
Lemma G3_ok : forall v V a b c d x y, rep 32 v V -> (a < 16)%nat -> (b < 16)%nat -> (c < 16)%nat -> (d < 16)%nat ->
  rep 32 (blake3_G a b c d x y v) (mix 32 16 12 8 7 V a b c d x y).
Proof.
  intros v V a b c d x y P Ha Hb Hc Hd. unfold blake3_G, mix. cbv zeta.
  apply (rsh_step _ _ b c 7); [|assumption|assumption|lia].
  apply (add_step 32 _ _ c d); [|assumption|assumption].
  apply (rsh_step _ _ d a 8); [|assumption|assumption|lia].
  apply (sum3_step _ _ a b y); [|assumption|assumption].
  apply (rsh_step _ _ b c 12); [|assumption|assumption|lia].
  apply (add_step 32 _ _ c d); [|assumption|assumption].
  apply (rsh_step _ _ d a 16); [|assumption|assumption|lia].
  apply (sum3_step _ _ a b x); assumption.
Qed.
Definition holds (m : list N) (M : nat -> N) : Prop := forall i, (i < 16)%nat -> nth i m 0 = M i.
Lemma round_ok : forall v V m M, rep 32 v V -> holds m M -> rep 32 (blake3_ROUND v m) (round3 V M).
Proof.
  intros v V m M P H. unfold blake3_ROUND, round3. cbv zeta. rewrite !H by lia. repeat (apply G3_ok; [|lia|lia|lia|lia]). exact P.
Qed.
Lemma perm_ok : forall m M, holds m M -> holds (blake3_PERM m) (fun i => M (nth i PERMUTATION 0%nat)).
Proof.
  intros m M H i Hi. unfold blake3_PERM. do 16 (destruct i as [|i]; [cbn [map nth PERMUTATION]; apply H; lia|]). lia.
Qed.
Fixpoint rr (n : nat) (v m : list N) : list N := match n with O => v | S n => rr n (blake3_ROUND v m) (blake3_PERM m) end.
Lemma rr_ok : forall n v V m M, rep 32 v V -> holds m M -> rep 32 (rr n v m) (rounds n V M).
Proof. induction n as [|n IH]; intros v V m M P H; cbn [rr rounds]; [exact P|]. apply IH; [apply round_ok; assumption|apply perm_ok; exact H]. Qed.
Lemma compress_rr : forall h v m, blake3_COMPRESS h v m =
  let v := fold_left (fun v i => upd v (i + 8) (xor (nth (i + 8) v 0) (nth i h 0))) (seq 0 8) (fold_left (fun v i => upd v i (xor (nth i v 0) (nth (i + 8) v 0))) (seq 0 8) (rr 7 v m)) in (firstn 8 v, v).
Proof. intros. unfold blake3_COMPRESS. cbv zeta. cbn [rr]. reflexivity. Qed.
Lemma length8 : forall (h : list N), length h = 8%nat -> exists a b c d e f g i, h = [a; b; c; d; e; f; g; i].
Proof. intros h L. do 8 (destruct h as [|? h]; [discriminate L|]). destruct h; [|discriminate L]. repeat eexists. Qed.
Lemma finish_ok : forall h v, length h = 8%nat -> length v = 16%nat ->
  fold_left (fun v i => upd v (i + 8) (xor (nth (i + 8) v 0) (nth i h 0))) (seq 0 8) (fold_left (fun v i => upd v i (xor (nth i v 0) (nth (i + 8) v 0))) (seq 0 8) v) =
  map (fun i => if (i <? 8)%nat then N.lxor (nth i v 0) (nth (i + 8) v 0) else N.lxor (nth i v 0) (nth (i - 8) h 0)) (seq 0 16).
Proof.
  intros h v Lh Lv. do 16 (destruct v as [|? v]; [discriminate Lv|]). destruct v; [|discriminate Lv].
  destruct (length8 h Lh) as (? & ? & ? & ? & ? & ? & ? & ? & ->). reflexivity.
Qed.
Lemma IV3 : blake3_IV = IV 32.
Proof. vm_compute. reflexivity. Qed.
Definition words (l : list N) : Prop := Forall (fun x => x < 2 ^ 32) l.
Lemma nth_words3 : forall l i, words l -> nth i l 0 < 2 ^ 32.
Proof. intros l i F. destruct (Nat.lt_ge_cases i (length l)); [apply (proj1 (Forall_forall _ _) F); apply nth_In; assumption|rewrite nth_overflow by assumption; reflexivity]. Qed.
Lemma compression_length : forall h m t b d, length (compression h m t b d) = 16%nat.
Proof. intros. unfold compression. rewrite map_length, seq_length. reflexivity. Qed.
Lemma compress_ok : forall h m t b d, length h = 8%nat -> words h -> t < 2 ^ 64 -> b < 2 ^ 32 -> d < 2 ^ 32 ->
  blake3_COMPRESS h (h ++ firstn 4 blake3_IV ++ [t mod 2 ^ 32; t / 2 ^ 32; b; d]) m = (firstn 8 (compression h m t b d), compression h m t b d) /\
  words (compression h m t b d).
Proof.
  intros h m t b d L W Ht Hb Hd.
  set (v0 := h ++ firstn 4 blake3_IV ++ [t mod 2 ^ 32; t / 2 ^ 32; b; d]).
  assert (length v0 = 16%nat) as L0 by (unfold v0; rewrite !app_length, L; reflexivity).
  assert (words v0) as W0.
  { unfold v0. apply Forall_app. split; [exact W|]. apply Forall_app. split; [repeat constructor|]. constructor; [apply add_lt|].
    constructor; [apply N.div_lt_upper_bound; [discriminate|exact Ht]|]. repeat constructor; assumption. }
  assert (rep 32 v0 (fun i => nth i v0 0)) as R0 by (split; [exact L0|intros i Hi; split; [reflexivity|apply nth_words3; exact W0]]).
  assert (holds m (fun i => nth i m 0)) as H0 by (intros i _; reflexivity).
  rewrite compress_rr.
  unfold compression. rewrite <- IV3. fold v0. pose proof (rr_ok 7 v0 _ m _ R0 H0) as R. cbv zeta.
  revert R. generalize (rr 7 v0 m). intros v R.
  rewrite (finish_ok h v L (proj1 R)).
  assert (forall i, (i < 16)%nat -> nth i v 0 = rounds 7 (fun i => nth i v0 0) (fun i => nth i m 0) i /\ nth i v 0 < 2 ^ 32) as E.
  { intros i Hi. destruct (proj2 R i Hi) as [-> B]. split; [reflexivity|exact B]. }
  clear R. revert E. generalize (rounds 7 (fun i => nth i v0 0) (fun i => nth i m 0)). intros U E.
  assert (map (fun i => if (i <? 8)%nat then N.lxor (nth i v 0) (nth (i + 8) v 0) else N.lxor (nth i v 0) (nth (i - 8) h 0)) (seq 0 16) =
          map (fun i => if (i <? 8)%nat then N.lxor (U i) (U (i + 8)%nat) else N.lxor (U i) (nth (i - 8) h 0)) (seq 0 16)) as ->.
  { apply map_ext_in. intros i Hi. apply in_seq in Hi. destruct (Nat.ltb_spec i 8); rewrite ?(proj1 (E i ltac:(lia))), ?(proj1 (E (i + 8)%nat ltac:(lia))); reflexivity. }
  split; [reflexivity|]. apply Forall_forall. intros x Hx. apply in_map_iff in Hx. destruct Hx as (i & <- & Hi). apply in_seq in Hi.
  destruct (Nat.ltb_spec i 8).
  - destruct (E i ltac:(lia)) as [E1 B1]. destruct (E (i + 8)%nat ltac:(lia)) as [E2 B2]. rewrite <- E1, <- E2. apply lxor_lt; assumption.
  - destruct (E i ltac:(lia)) as [E1 B1]. rewrite <- E1. apply lxor_lt; [exact B1|apply nth_words3; exact W].
Qed.

(* the words of a block *)
Lemma little_zeros : forall l n, little_endian (l ++ repeat 0 n) = little_endian l.
Proof. induction l as [|b l IH]; intro n; cbn [app little_endian]; [induction n as [|n IHn]; cbn [repeat little_endian]; [reflexivity|rewrite IHn; reflexivity]|rewrite IH; reflexivity]. Qed.
Lemma firstn_pad : forall n a (l : list N), exists k, firstn n (l ++ repeat 0 a) = firstn n l ++ repeat 0 k.
Proof.
  intros n a l. exists (Nat.min (n - length l) a). rewrite firstn_app. f_equal. revert a. generalize (n - length l)%nat. induction n0 as [|q IH]; intro a; [reflexivity|].
  destruct a; [reflexivity|]. cbn. f_equal. apply IH.
Qed.
Lemma skipn_pad : forall n a (l : list N), exists k, skipn n (l ++ repeat 0 a) = skipn n l ++ repeat 0 k.
Proof.
  intros n a l. exists (a - (n - length l))%nat. rewrite skipn_app. f_equal. revert a. generalize (n - length l)%nat. induction n0 as [|q IH]; intro a; [rewrite Nat.sub_0_r; reflexivity|].
  destruct a; [reflexivity|]. cbn. apply IH.
Qed.
Lemma block_words_short : forall l, block_words l = map (fun i => little_endian (firstn 4 (skipn (4 * i) l))) (seq 0 16).
Proof.
  intro l. unfold block_words. apply map_ext. intro i. destruct (skipn_pad (4 * i) (64 - length l) l) as [a ->]. destruct (firstn_pad 4 a (skipn (4 * i) l)) as [b ->]. apply little_zeros.
Qed.
Lemma block_words_first : forall l, block_words (firstn 64 l) = map (fun i => little_endian (firstn 4 (skipn (4 * i) l))) (seq 0 16).
Proof.
  intro l. rewrite block_words_short. apply map_ext_in. intros i Hi. apply in_seq in Hi. rewrite skipn_firstn_comm, firstn_firstn. f_equal. f_equal. lia.
Qed.
Lemma octets_app_l : forall a b, octets a -> octets b -> octets (a ++ b).
Proof. intros a b A B. apply Forall_app. split; assumption. Qed.
Lemma or_step : forall x c, x < 2 ^ 24 -> c < 256 -> or (shlw 32 x 8) c = x * 256 + c.
Proof.
  intros x c Hx Hc. unfold shlw. rewrite N.mod_small by (rewrite N.shiftl_mul_pow2; change (2 ^ 8) with 256; change (2 ^ 24) with 16777216 in Hx; change (2 ^ 32) with 4294967296; lia).
  apply (lor_add x c 8). exact Hc.
Qed.
Lemma or_fold3 : forall l x k, octets l -> x < 256 ^ k -> k + N.of_nat (length l) <= 4 ->
  fold_left (fun x c => or (shlw 32 x 8) c) l x = fold_left (fun a b => a * 256 + b) l x.
Proof.
  induction l as [|c l IH]; intros x k O Hx Hk; [reflexivity|]. cbn [fold_left length] in *. inversion O as [|? ? Hc O']; subst.
  rewrite or_step; [|apply N.lt_le_trans with (256 ^ k); [exact Hx|change (2 ^ 24) with (256 ^ 3); apply N.pow_le_mono_r; lia]|exact Hc].
  apply (IH _ (k + 1) O'); [|lia]. rewrite N.pow_add_r, N.pow_1_r. clear - Hx Hc. revert Hx Hc. generalize (256 ^ k). intros; nia.
Qed.
Lemma zeros_val : forall n x, fold_left (fun a b => a * 256 + b) (repeat 0 n) x = x * 256 ^ N.of_nat n.
Proof. induction n as [|n IH]; intro x; [cbn; lia|]. cbn [repeat fold_left]. rewrite IH. rewrite Nat2N.inj_succ, N.pow_succ_r'. lia. Qed.
Lemma partial_ok : forall l, octets l -> (1 <= length l < 4)%nat ->
  u32_rev (shlw 32 (fold_left (fun x c => or (shlw 32 x 8) c) l 0) (8 * N.of_nat (4 - length l))) = little_endian l.
Proof.
  intros l O L. rewrite <- (little_zeros l (4 - length l)), little.
  assert (bytes (l ++ repeat 0 (4 - length l))) as O4 by (apply Forall_app; split; [exact O|apply Forall_forall; intros x Hx; apply repeat_spec in Hx; subst; reflexivity]).
  assert (length (l ++ repeat 0 (4 - length l)) = 4%nat) as L4 by (rewrite app_length, repeat_length; lia).
  pose proof (be_val_lt _ O4) as B4. rewrite L4 in B4.
  assert (shlw 32 (fold_left (fun x c => or (shlw 32 x 8) c) l 0) (8 * N.of_nat (4 - length l)) = be_val (l ++ repeat 0 (4 - length l))) as ->.
  { rewrite (or_fold3 l 0 0 O eq_refl ltac:(lia)). change (fold_left (fun a b => a * 256 + b) l 0) with (be_val l).
    assert (be_val (l ++ repeat 0 (4 - length l)) = be_val l * 2 ^ (8 * N.of_nat (4 - length l))) as E.
    { unfold be_val. rewrite fold_left_app, zeros_val. rewrite <- pow256. reflexivity. }
    unfold shlw. rewrite N.shiftl_mul_pow2, <- E. apply N.mod_small. exact B4. }
  rewrite UtilProofs.u32_rev_val by exact B4. unfold le_bytes, le_val. rewrite <- L4 at 1. rewrite be_bytes_val by exact O4. reflexivity.
Qed.
Definition W (l : list N) (i : nat) : N := little_endian (firstn 4 (skipn (4 * i) l)).
Lemma W_short : forall l n, (length l <= 4)%nat -> map (W l) (seq 0 (S n)) = W l 0 :: repeat 0 n.
Proof.
  intros l n L. cbn [seq map]. f_equal. assert (forall k, (1 <= k)%nat -> map (W l) (seq k n) = repeat 0 n) as A; [|apply A; lia].
  induction n as [|n IH]; intros k Hk; [reflexivity|]. cbn [seq map repeat]. rewrite IH by lia. f_equal. unfold W. rewrite skipn_all2 by lia. reflexivity.
Qed.
Lemma W_next : forall l n, map (W l) (seq 0 (S n)) = W l 0 :: map (W (skipn 4 l)) (seq 0 n).
Proof. intros l n. cbn [seq map]. f_equal. rewrite <- seq_shift, map_map. apply map_ext. intro i. unfold W. rewrite skipn_add. do 3 f_equal. lia. Qed.
Lemma upd_mid : forall m mi x, (mi < length m)%nat -> upd m mi x = firstn mi m ++ x :: skipn (S mi) m.
Proof. induction m as [|a m IH]; intros [|mi] x L; cbn in *; try lia; [reflexivity|]. f_equal. apply IH. lia. Qed.
Lemma tail_zero : forall n k (m : list N), length m = (k + n)%nat -> (forall j, (k <= j)%nat -> nth j m 0 = 0) -> skipn k m = repeat 0 n.
Proof.
  intros n k m L Z. apply (nth_ext _ _ 0 0); [rewrite skipn_length, repeat_length; lia|]. intros j Hj. rewrite nth_repeat.
  rewrite <- (firstn_skipn k m) in Z. specialize (Z (k + j)%nat ltac:(lia)). rewrite app_nth2 in Z by (rewrite firstn_length; lia). rewrite firstn_length in Z.
  replace (k + j - Nat.min k (length m))%nat with j in Z by lia. exact Z.
Qed.
Lemma gather_ok : forall n m mi b l, (n + mi = 16)%nat -> length m = 16%nat -> (forall j, (mi <= j)%nat -> nth j m 0 = 0) -> octets l -> l <> [] ->
  exists p, gather n m mi b l = Done (firstn mi m ++ map (W l) (seq 0 n), b + N.of_nat (length (firstn (4 * n) l)), skipn (4 * n) l, p) /\
            (p = true -> skipn (4 * n) l = []).
Proof.
  induction n as [|n IH]; intros m mi b l E Lm Z O NE.
  - exists false. cbn. rewrite app_nil_r, N.add_0_r. rewrite firstn_all2 by lia. split; [reflexivity|discriminate].
  - cbn [gather]. assert (skipn (S mi) m = repeat 0 n) as ET by (apply tail_zero; [lia|intros; apply Z; lia]).
    destruct (Nat.leb_spec 4 (length l)) as [L4|L4].
    + assert (get_u32_le l = W l 0) as -> by (unfold W; rewrite Nat.mul_0_r, skipn_O, little; apply UtilProofs.get32_le; assumption).
      destruct (skipn 4 l) as [|c r] eqn:ES.
      * exists false. assert (length l = 4%nat) as Ll by (assert (length (skipn 4 l) = 0%nat) as X by (rewrite ES; reflexivity); rewrite skipn_length in X; lia).
        rewrite skipn_all2 by lia. rewrite (firstn_all2 (n := 4 * S n) l) by lia. rewrite Ll. split; [|discriminate].
        rewrite W_short by lia. rewrite upd_mid, ET by lia. reflexivity.
      * destruct (IH (upd m mi (W l 0)) (mi + 1)%nat (b + 4) (c :: r) ltac:(lia)) as (p & -> & HP).
        -- rewrite upd_length. exact Lm.
        -- intros j Hj. rewrite nth_upd by lia. destruct (Nat.eqb_spec mi j); [lia|]. apply Z. lia.
        -- rewrite <- ES. apply CipherLib.bytes_skipn. exact O.
        -- discriminate.
        -- exists p. rewrite <- ES in *. rewrite skipn_add in *. replace (4 * S n)%nat with (4 + 4 * n)%nat by lia. split; [|exact HP].
           assert (firstn (mi + 1) (upd m mi (W l 0)) ++ map (W (skipn 4 l)) (seq 0 n) = firstn mi m ++ map (W l) (seq 0 (S n))) as ->.
           { rewrite W_next. rewrite upd_mid by lia. rewrite firstn_app. rewrite firstn_length. replace (mi + 1 - Nat.min mi (length m))%nat with 1%nat by lia.
             rewrite firstn_firstn. replace (Nat.min (mi + 1) mi) with mi by lia. cbn [firstn]. rewrite <- app_assoc. reflexivity. }
           do 4 f_equal. rewrite !firstn_length, skipn_length. lia.
    + destruct (Nat.eqb_spec (length l) 0) as [L0|L0]; [destruct l; [contradiction|discriminate L0]|].
      exists true. rewrite Z by lia. rewrite partial_ok by (try assumption; lia). rewrite skipn_all2 by lia. rewrite (firstn_all2 (n := 4 * S n) l) by lia. split; [|reflexivity].
      rewrite W_short by lia. rewrite upd_mid, ET by lia. do 6 f_equal. unfold W. rewrite Nat.mul_0_r, skipn_O. rewrite firstn_all2 by lia. reflexivity.
Qed.
Lemma block_ok : forall l, octets l -> l <> [] ->
  exists p, gather 16 (repeat 0 16) 0 0 l = Done (block_words (firstn 64 l), N.of_nat (length (firstn 64 l)), skipn 64 l, p) /\ (p = true -> skipn 64 l = []).
Proof.
  intros l O NE. destruct (gather_ok 16 (repeat 0 16) 0 0 l eq_refl eq_refl) as (p & E & H); [intros j _; apply nth_repeat|exact O|exact NE|].
  exists p. split; [|exact H]. rewrite E. rewrite block_words_first. reflexivity.
Qed.

(* the output *)
Lemma v_bytes_ok : forall l, words l -> v_bytes l = concat (map bytes_of_word l).
Proof.
  intros l F. unfold v_bytes. f_equal. apply map_ext_in. intros x Hx. apply (proj1 (Forall_forall _ _) F) in Hx. unfold bytes_of_word. cbn [seq map].
  change 0xFF with (N.ones 8). rewrite !N.land_ones, !N.shiftr_div_pow2. change (2 ^ 8) with 256. change (2 ^ 16) with (256 ^ N.of_nat 2). change (2 ^ 24) with (256 ^ N.of_nat 3).
  change (256 ^ N.of_nat 0) with 1. change (256 ^ N.of_nat 1) with 256. rewrite N.div_1_r. do 3 f_equal. f_equal. symmetry. apply N.mod_small.
  apply N.div_lt_upper_bound; [discriminate|exact Hx].
Qed.
Lemma bytes4_length : forall l, length (concat (map bytes_of_word l)) = (4 * length l)%nat.
Proof. induction l as [|x l IH]; [reflexivity|]. cbn [map concat]. rewrite app_length, IH. unfold bytes_of_word. rewrite map_length, seq_length. cbn [length]. lia. Qed.

Lemma words_firstn : forall n l, words l -> words (firstn n l).
Proof. intros n l F. unfold words in *. rewrite <- (firstn_skipn n l) in F. apply Forall_app in F. apply F. Qed.
Lemma words_skipn : forall n l, words l -> words (skipn n l).
Proof. intros n l F. unfold words in *. rewrite <- (firstn_skipn n l) in F. apply Forall_app in F. apply F. Qed.
Section Sum.
Variables (h m : list N) (b d : N).
Local Notation R t := (compression h m t b d).
Opaque compression.
Definition B3 (t : N) : list N := concat (map bytes_of_word (R t)).
Definition stream (n : nat) : list N := concat (map (fun i => B3 (N.of_nat i)) (seq 0 n)).
Lemma stream_S : forall n, stream (S n) = stream n ++ B3 (N.of_nat n).
Proof. intro n. unfold stream. rewrite seq_S, map_app, concat_app. cbn [map concat]. rewrite app_nil_r. reflexivity. Qed.
Lemma B3_length : forall t, length (B3 t) = 64%nat.
Proof. intro t. unfold B3. rewrite bytes4_length. rewrite compression_length. reflexivity. Qed.
Lemma stream_length : forall n, length (stream n) = (64 * n)%nat.
Proof. induction n as [|n IH]; [reflexivity|]. rewrite stream_S, app_length, IH, B3_length. lia. Qed.
Lemma stream_prefix : forall n k, exists r, stream (n + k) = stream n ++ r.
Proof. induction k as [|k [r IH]]; [exists []; rewrite Nat.add_0_r, app_nil_r; reflexivity|]. rewrite Nat.add_succ_r, stream_S, IH, <- app_assoc. eexists. reflexivity. Qed.
Lemma stream_take : forall k n n', (k <= 64 * n)%nat -> (n <= n')%nat -> firstn k (stream n') = firstn k (stream n).
Proof.
  intros k n n' K L. destruct (stream_prefix n (n' - n)) as [r E]. replace (n + (n' - n))%nat with n' in E by lia. rewrite E, firstn_app, stream_length.
  replace (k - 64 * n)%nat with 0%nat by lia. cbn [firstn]. apply app_nil_r.
Qed.
Hypotheses (Lh : length h = 8%nat) (Wh : words h) (Hb : b < 2 ^ 32) (Hd : d < 2 ^ 32).
Lemma halves : forall t, t < 2 ^ 64 -> v_bytes (firstn 8 (R t)) = firstn 32 (B3 t) /\ v_bytes (firstn 8 (skipn 8 (R t))) = skipn 32 (B3 t).
Proof.
  intros t Ht. pose proof (proj2 (compress_ok h m t b d Lh Wh Ht Hb Hd)) as F.
  assert (length (R t) = 16%nat) as L by apply compression_length.
  rewrite (firstn_all2 (n := 8) (skipn 8 (R t))) by (rewrite skipn_length; lia).
  assert (B3 t = concat (map bytes_of_word (firstn 8 (R t))) ++ concat (map bytes_of_word (skipn 8 (R t)))) as E by (unfold B3; rewrite <- concat_app, <- map_app, firstn_skipn; reflexivity).
  assert (length (concat (map bytes_of_word (firstn 8 (R t)))) = 32%nat) as L32 by (rewrite bytes4_length, firstn_length; lia).
  rewrite E, firstn_exact, skipn_exact by exact L32. rewrite !v_bytes_ok; [split; reflexivity|apply words_skipn; exact F|apply words_firstn; exact F].
Qed.
Definition regs (t : N) : list N := h ++ firstn 4 blake3_IV ++ [t mod 2 ^ 32; t / 2 ^ 32; b; d].
Lemma set_t : forall t0 t, t < 2 ^ 64 -> upd (upd (regs t0) 12 (and t 0xFFFFFFFF)) 13 (shr t 32 mod 2 ^ 32) = regs t.
Proof.
  intros t0 t Ht. unfold regs. destruct (length8 h Lh) as (? & ? & ? & ? & ? & ? & ? & ? & ->). cbn [app firstn blake3_IV upd].
  change 0xFFFFFFFF with (N.ones 32). rewrite N.land_ones, N.shiftr_div_pow2. rewrite (N.mod_small (t / 2 ^ 32)); [reflexivity|].
  apply N.div_lt_upper_bound; [discriminate|exact Ht].
Qed.
Lemma sum_ok : forall fuel j wanted q, (64 * N.of_nat j < wanted) -> wanted <= 32 * q -> 32 * q < wanted + 32 -> wanted < 2 ^ 60 -> q < 2 * N.of_nat j + 2 * N.of_nat fuel + 1 ->
  sum_loop fuel wanted (32 * q) (h, regs 0, m) (R (N.of_nat j)) (N.of_nat j + 1) (stream j) = Done (firstn (N.to_nat (32 * q)) (stream (N.to_nat q))).
Proof.
  induction fuel as [|fuel IH]; intros j wanted q H1 H2 H3 H4 H5; [lia|]. cbn [sum_loop]. rewrite stream_length.
  destruct (halves (N.of_nat j)) as [E1 E2]; [lia|]. rewrite E1, E2.
  destruct (N.ltb_spec (32 * q) (N.of_nat (64 * j) + 32)) as [X|_]; [lia|].
  rewrite !app_length, stream_length. rewrite firstn_length, B3_length.
  assert (forall k, (k <= 64)%nat -> (64 * j + k)%nat = N.to_nat (32 * q) -> stream j ++ firstn k (B3 (N.of_nat j)) = firstn (N.to_nat (32 * q)) (stream (N.to_nat q))) as FIN.
  { intros k Hk E. rewrite <- E. rewrite (stream_take _ (S j)) by lia. rewrite stream_S, firstn_app, stream_length, (firstn_all2 (stream j)) by (rewrite stream_length; lia). do 2 f_equal. lia. }
  destruct (N.ltb_spec (N.of_nat (64 * j + Nat.min 32 64)) wanted) as [X1|X1].
  - destruct (N.ltb_spec (N.of_nat (64 * j + Nat.min 32 64)) (32 * q)) as [_|X]; [|lia]. cbn [andb].
    destruct (N.ltb_spec (32 * q) (N.of_nat (64 * j + Nat.min 32 64) + 32)) as [X|_]; [lia|].
    rewrite <- app_assoc, firstn_skipn, skipn_length, B3_length. replace (64 * j + Nat.min 32 64 + (64 - 32))%nat with (64 * j + 64)%nat by lia.
    destruct (N.ltb_spec wanted (N.of_nat (64 * j + 64))) as [X2|X2]; cbn [orb].
    + f_equal. rewrite <- (firstn_all2 (n := 64) (B3 (N.of_nat j))) by (rewrite B3_length; lia). apply FIN; lia.
    + destruct (N.leb_spec (32 * q) (N.of_nat (64 * j + 64))) as [X3|X3].
      * f_equal. rewrite <- (firstn_all2 (n := 64) (B3 (N.of_nat j))) by (rewrite B3_length; lia). apply FIN; lia.
      * rewrite set_t by lia. pose proof (proj1 (compress_ok h m (N.of_nat j + 1) b d Lh Wh ltac:(lia) Hb Hd)) as EC. fold (regs (N.of_nat j + 1)) in EC. rewrite EC.
        rewrite <- stream_S. unfold addw. rewrite N.mod_small by lia. replace (N.of_nat j + 1) with (N.of_nat (S j)) by lia. apply IH; lia.
  - cbn [andb]. f_equal. apply FIN; lia.
Qed.
End Sum.
