(* The SHACAL model computes the steps of SHA-1 and SHA-256. *)
From Verif Require Import Words EncSpec TaskModel ModeModel CipherBase CipherLib KeyProofs ShacalModel HashModel HashSpec HashProofs HashProofs2 HashTables HashProofs3 ShacalSpec.
From Coq Require Import PeanoNat.
Open Scope N_scope.

Lemma load_short : forall m n key, length key = (m * 4)%nat -> (m <= n)%nat -> load_be 4 m key ++ repeat 0 (n - m) = load_be 4 n key.
Proof.
  intros m n key L H. unfold load_be. replace n with (m + (n - m))%nat at 2 by lia. rewrite seq_app, map_app. f_equal.
  generalize (n - m)%nat as k. cbn [Nat.add]. assert (forall k j, (m <= j)%nat -> repeat 0 k = map (fun i => be_val (slice key (i * 4) 4)) (seq j k)) as G.
  { induction k as [|k IH]; intros j Hj; [reflexivity|]. cbn [seq map repeat]. rewrite <- (IH (S j)) by lia. f_equal.
    unfold slice. rewrite skipn_all2 by lia. reflexivity. }
  intro k. apply G. lia.
Qed.
Lemma key_words : forall m key, (1 <= m <= 16)%nat -> length key = (4 * m)%nat -> bytes key -> ld_user_key 4 16 64 key = be_words 4 (message_block key).
Proof.
  intros m key Hm L Hk. rewrite (ld_user_key_words 4 16 64 m 0 key); try lia; [|exact Hk|intros ->; cbn in L; lia]. cbn [Nat.eqb].
  rewrite load_short by lia. unfold message_block. rewrite (be_words_load 4 16); [|lia|rewrite app_length, repeat_length; lia].
  rewrite load_be_zeros_r; [reflexivity|lia|]. rewrite L, Nat.mul_comm. apply Nat.mod_mul. lia.
Qed.

Lemma key_half : forall m key, (m <= 15)%nat -> length key = (4 * m + 2)%nat -> bytes key -> ld_user_key 4 16 64 key = be_words 4 (message_block key).
Proof.
  intros m key Hm L Hk. rewrite (ld_user_key_words 4 16 64 m 2 key); try lia; [|exact Hk|intros ->; cbn in L; lia]. cbn [Nat.eqb].
  rewrite <- (firstn_skipn (m * 4) key) in *. set (a := firstn (m * 4) key) in *. set (b := skipn (m * 4) key) in *.
  assert (length a = (m * 4)%nat) as La by (unfold a; rewrite app_length in L; unfold a, b in L; rewrite firstn_length, skipn_length in L; rewrite firstn_length; lia).
  rewrite app_length in L. clearbody a b. clear key. destruct b as [|x [|y [|]]]; cbn [length] in L; try lia. clear L.
  rewrite skipn_app, skipn_all2, La, Nat.sub_diag by lia. cbn [app skipn].
  assert (x < 256 /\ y < 256) as [Hx Hy] by (apply Forall_app in Hk; destruct Hk as [_ Hk]; inversion Hk as [|? ? X Y]; inversion Y; split; assumption). clear Hk.
  unfold message_block. rewrite (be_words_load 4 16); [|lia|rewrite ?app_length, ?repeat_length, ?app_length, ?La; cbn [length]; lia].
  rewrite app_length, La. cbn [length]. replace (64 - (m * 4 + 2))%nat with (2 + (60 - m * 4))%nat by lia. rewrite repeat_app, app_assoc, <- (app_assoc a). cbn [repeat app].
  rewrite load_be_zeros_r; [|lia|rewrite app_length, La; cbn [length]; replace (m * 4 + 4)%nat with (S m * 4)%nat by lia; apply Nat.mod_mul; lia].
  rewrite <- (load_short (S m) 16) by (rewrite ?app_length, ?La; cbn [length]; lia).
  unfold load_be. rewrite seq_S, map_app, <- app_assoc. cbn [map Nat.add app]. f_equal.
  - apply map_ext_in. intros i Hi. apply in_seq in Hi. rewrite !slice_app_l by lia. reflexivity.
  - f_equal. rewrite slice_app_r by lia. rewrite La, Nat.sub_diag. unfold slice. cbn [skipn firstn].
    change (be_val [x; y]) with ((0 * 256 + x) * 256 + y). change (be_val [x; y; 0; 0]) with ((((0 * 256 + x) * 256 + y) * 256 + 0) * 256 + 0).
    change (2 ^ (8 * N.of_nat 2)) with 65536. rewrite N.mod_small; [lia|]. change (2 ^ (8 * N.of_nat 4)) with 4294967296. lia.
Qed.
(* every key of an even number of bytes *)
Lemma key_even : forall n key, (1 <= n <= 32)%nat -> length key = (2 * n)%nat -> bytes key -> ld_user_key 4 16 64 key = be_words 4 (message_block key).
Proof.
  intros n key Hn L Hk. destruct (Nat.Even_or_Odd n) as [[m E]|[m E]]; [apply (key_words m)|apply (key_half m)]; try exact Hk; lia.
Qed.

Lemma expand1 : forall n W, shacal1_expand n W = extend (fun W => ROTL 32 1 (back W 3 ^. back W 8 ^. back W 14 ^. back W 16)) n W.
Proof. induction n as [|n IH]; intro W; [reflexivity|]. cbn [shacal1_expand extend]. cbv zeta. rewrite IH. unfold back. rewrite <- rotl_ROTL. reflexivity. Qed.
Lemma F_same : forall t B C D, (t < 80)%nat -> shacal1_F t B C D = sha1_F t B C D.
Proof.
  intros t B C D H. unfold shacal1_F, sha1_F. destruct (Nat.leb_spec t 19); [reflexivity|].
  destruct ((20 <=? t) && (t <=? 39) || (60 <=? t) && (t <=? 79))%nat%bool eqn:E; [reflexivity|].
  destruct (Nat.leb_spec t 59); [reflexivity|]. exfalso. apply Bool.orb_false_iff in E. destruct E as [_ E]. apply Bool.andb_false_iff in E.
  destruct E as [E|E]; apply Nat.leb_gt in E; lia.
Qed.
Lemma K_same : forall t, (t < 80)%nat -> shacal1_K t = sha1_K t.
Proof. intros t H. unfold shacal1_K, sha1_K. replace (t <=? 79)%nat with true by (symmetry; apply Nat.leb_le; lia). reflexivity. Qed.
Lemma round1 : forall W q t, (t < 80)%nat -> shacal1_enc_round W (list5 q) t = list5 (SHA1_step W q t).
Proof.
  intros W q t H. rewrite <- sha1_round_eq by exact H. destruct q as [[[[a b] c] d] e]. unfold shacal1_enc_round, sha1_round, list5. cbn [nth].
  rewrite F_same, K_same by exact H. reflexivity.
Qed.
Lemma shacal1_is : forall m key block, (1 <= m <= 32)%nat -> length key = (2 * m)%nat -> bytes key -> length block = 20%nat ->
  bc_enc shacal1 key block = SHACAL1 key block.
Proof.
  intros m key block Hm L Hk Lb. cbn [bc_enc shacal1]. unfold blk_be, SHACAL1, shacal1_key_sched, SHA1_W. rewrite (key_even m key Hm L Hk), expand1.
  set (W := extend _ 64 _). clearbody W. rewrite (be_words_load 4 5) by (lia || exact Lb).
  set (l := load_be 4 5 block). assert (length l = 5%nat) as Ll by apply load_be_length. clearbody l.
  destruct (five l Ll) as (a & b & c & d & e & ->). change [a; b; c; d; e] with (list5 (a, b, c, d, e)).
  rewrite (fold_sim list5 (shacal1_enc_round W) (SHA1_step W)).
  2:{ intros q t Ht. apply in_seq in Ht. apply round1. lia. }
  unfold quint. cbn [list5]. destruct (fold_left (SHA1_step W) (seq 0 80) (a, b, c, d, e)) as [[[[a' b'] c'] d'] e']. reflexivity.
Qed.

Lemma sig2 : forall x, shacal2_BSIG0 x = Sigma0 SHA32 x /\ shacal2_BSIG1 x = Sigma1 SHA32 x /\ shacal2_SSIG0 x = sigma0 SHA32 x /\ shacal2_SSIG1 x = sigma1 SHA32 x.
Proof.
  intro x. destruct rel256 as (_ & _ & _ & _ & H0 & H1 & H2 & H3). specialize (H0 x). specialize (H1 x). specialize (H2 x). specialize (H3 x).
  rewrite <- H0, <- H1, <- H2, <- H3. repeat split.
Qed.
Lemma K2 : shacal2_K = K SHA32.
Proof. rewrite sha256_K_eq. reflexivity. Qed.
Lemma expand2 : forall n W, shacal2_expand n W = extend (fun W => sum (w SHA32) [sigma1 SHA32 (back W 2); back W 7; sigma0 SHA32 (back W 15); back W 16]) n W.
Proof.
  induction n as [|n IH]; intro W; [reflexivity|]. cbn [shacal2_expand extend]. cbv zeta. rewrite IH. unfold back.
  rewrite (proj1 (proj2 (proj2 (sig2 _)))), (proj2 (proj2 (proj2 (sig2 _)))). change add32 with (addw 32). rewrite sum4. reflexivity.
Qed.
Lemma round2 : forall W q t, shacal2_enc_round W (list8 q) t = list8 (SHA2_step SHA32 W q t).
Proof.
  intros W [[[[[[[a b] c] d] e] f] g] h] t. unfold shacal2_enc_round, list8, SHA2_step. cbv zeta.
  rewrite (proj1 (sig2 a)), (proj1 (proj2 (sig2 e))), K2. generalize (K SHA32) as K0. generalize (Sigma0 SHA32 a) as s0. generalize (Sigma1 SHA32 e) as s1. intros s1 s0 K0.
  change (w SHA32) with 32. change add32 with (addw 32). rewrite !(sum5 32 h), !sum2. unfold shacal2_CH, Ch, shacal2_MAJ, Maj, pick. rewrite notw_compl. reflexivity.
Qed.
Lemma shacal2_is : forall m key block, (1 <= m <= 32)%nat -> length key = (2 * m)%nat -> bytes key -> length block = 32%nat ->
  bc_enc shacal2 key block = SHACAL2 key block.
Proof.
  intros m key block Hm L Hk Lb. cbn [bc_enc shacal2]. unfold blk_be, SHACAL2, shacal2_key_sched, SHA2_W. rewrite (key_even m key Hm L Hk), expand2.
  change (rounds SHA32 - 16)%nat with 48%nat. set (W := extend _ 48 _). clearbody W. rewrite (be_words_load 4 8) by (lia || exact Lb).
  set (l := load_be 4 8 block). assert (length l = 8%nat) as Ll by apply load_be_length. clearbody l.
  destruct l as [|a [|b [|c [|d [|e [|f [|g [|h [|]]]]]]]]]; try discriminate Ll. clear Ll.
  change [a; b; c; d; e; f; g; h] with (list8 (a, b, c, d, e, f, g, h)).
  rewrite (fold_sim list8 (shacal2_enc_round W) (SHA2_step SHA32 W)) by (intros q t _; apply round2).
  cbn [list8]. destruct (fold_left (SHA2_step SHA32 W) (seq 0 64) (a, b, c, d, e, f, g, h)) as [[[[[[[a' b'] c'] d'] e'] f'] g'] h']. reflexivity.
Qed.
