From Verif Require Import Words EncSpec TaskModel ModeModel ModeSpec CipherBase CipherLib FeistelLib CamelliaModel.
Open Scope N_scope.

Definition h64 (d : N * N) : Prop := fst d < 2 ^ 32 /\ snd d < 2 ^ 32.
Definition h128 (s : (N * N) * (N * N)) : Prop := h64 (fst s) /\ h64 (snd s).
Definition swap4 (s : (N * N) * (N * N)) : (N * N) * (N * N) := let '(a, b) := s in (b, a).
Definition keys_ok (K : camellia_keys) : Prop := Forall h64 (cam_ke K) /\ Forall h64 (cam_kw K).

Lemma nth_h64 : forall l i, Forall h64 l -> h64 (nth i l (0, 0)).
Proof.
  intros l i H. revert i. induction H as [|d l Hd _ IH]; intros [|i]; cbn [nth]; try (split; reflexivity).
  - exact Hd.
  - apply IH.
Qed.
Lemma xor2_cancel : forall a b, camellia_xor2 (camellia_xor2 a b) b = a.
Proof. intros [a a'] [b b']. unfold camellia_xor2. cbn [fst snd]. rewrite !lxor_cancel_r. reflexivity. Qed.
Lemma xor2_ok : forall a b, h64 a -> h64 b -> h64 (camellia_xor2 a b).
Proof. intros [a a'] [b b'] [H1 H2] [H3 H4]. split; apply lxor_lt; assumption. Qed.
Lemma xor4_ok : forall a b, h128 a -> h128 b -> h128 (camellia_xor4 a b).
Proof. intros [a a'] [b b'] [H1 H2] [H3 H4]. split; apply xor2_ok; assumption. Qed.

Lemma s_bytes : bytes camellia_s1 /\ bytes camellia_s2 /\ bytes camellia_s3 /\ bytes camellia_s4.
Proof. repeat split; apply (words_forallb 8); vm_compute; reflexivity. Qed.
Lemma cat4_lt : forall a b c d, d < 256 -> or (or (or (shl32 a 24) (shl32 b 16)) (shl32 c 8)) d < 2 ^ 32.
Proof.
  intros a b c d H. repeat apply lor_lt; try (apply N.mod_upper_bound; discriminate).
  eapply N.lt_trans; [exact H|reflexivity].
Qed.
Lemma xor8 : forall a b, a < 256 -> b < 256 -> xor a b < 256.
Proof. intros a b. change 256 with (2 ^ 8). apply lxor_lt. Qed.
Lemma camellia_F_ok : forall d k, h64 (camellia_F d k).
Proof.
  intros d k. unfold camellia_F. cbv zeta. destruct s_bytes as (B1 & B2 & B3 & B4).
  assert (forall s x b, bytes s -> nthN s (camellia_u8 x b) < 256) as E.
  { intros s x b Hs. unfold nthN. apply (nth_words 8), Hs. }
  split; cbn [fst snd]; apply cat4_lt; repeat apply xor8; apply E; assumption.
Qed.

Definition rev_op (o : camellia_op) : camellia_op :=
  match o with CamRounds i j => CamRounds j i | CamFL i j => CamFL j i end.

Lemma two_inv : forall ka kb s, swap4 (camellia_two kb ka (swap4 (camellia_two ka kb s))) = s.
Proof. intros ka kb [D1 D2]. unfold camellia_two. cbn [swap4]. rewrite !xor2_cancel. reflexivity. Qed.
Lemma FL_1_FL : forall d k, camellia_FL_1 (camellia_FL d k) k = d.
Proof.
  intros [d0 d1] [k0 k1]. unfold camellia_FL, camellia_FL_1. cbn [fst snd]. rewrite !lxor_cancel_r. reflexivity.
Qed.
Lemma FL_FL_1 : forall d k, camellia_FL (camellia_FL_1 d k) k = d.
Proof.
  intros [d0 d1] [k0 k1]. unfold camellia_FL, camellia_FL_1. cbn [fst snd]. rewrite !lxor_cancel_r. reflexivity.
Qed.
Lemma step_inv : forall K o s, swap4 (camellia_step K (swap4 (camellia_step K s o)) (rev_op o)) = s.
Proof.
  intros K [i j|i j] s; cbn [rev_op camellia_step]; [apply two_inv|].
  destruct s as [D1 D2]. cbn [fst snd swap4]. rewrite FL_1_FL, FL_FL_1. reflexivity.
Qed.
Lemma two_ok : forall ka kb s, h128 s -> h128 (camellia_two ka kb s).
Proof.
  intros ka kb [D1 D2] [H1 H2]. unfold camellia_two. cbv zeta. split; cbn [fst snd]; apply xor2_ok; try assumption; apply camellia_F_ok.
Qed.
Lemma FL_ok : forall d k, h64 d -> h64 k -> h64 (camellia_FL d k) /\ h64 (camellia_FL_1 d k).
Proof.
  intros [d0 d1] [k0 k1] [H0 H1] [H2 H3]. unfold camellia_FL, camellia_FL_1, h64. cbn [fst snd] in *.
  repeat split; repeat (assumption || apply rotl_lt || apply lxor_lt || apply land_lt_l || apply lor_lt).
Qed.
Lemma step_ok : forall K o s, keys_ok K -> h128 s -> h128 (camellia_step K s o).
Proof.
  intros K [i j|i j] s [HK _] Hs; cbn [camellia_step]; [apply two_ok, Hs|]. destruct Hs.
  split; cbn [fst snd]; apply FL_ok; try assumption; apply nth_h64, HK.
Qed.

Lemma steps_inv : forall K ops s,
  swap4 (fold_left (camellia_step K) (rev (map rev_op ops)) (swap4 (fold_left (camellia_step K) ops s))) = s.
Proof.
  intros K ops. induction ops as [|o ops IH]; intro s; cbn [map rev fold_left].
  - destruct s. reflexivity.
  - rewrite fold_left_app. cbn [fold_left].
    specialize (IH (camellia_step K s o)).
    assert (forall t u, swap4 t = u -> t = swap4 u) as SW by (intros [? ?] ? <-; reflexivity).
    rewrite (SW _ _ IH). apply step_inv.
Qed.
Lemma steps_ok : forall K ops s, keys_ok K -> h128 s -> h128 (fold_left (camellia_step K) ops s).
Proof.
  intros K ops s HK Hs. revert s Hs. induction ops as [|o ops IH]; intros s Hs; cbn [fold_left]; [exact Hs|].
  apply IH, step_ok; assumption.
Qed.

Lemma words_ok : forall K p q ops u v s, keys_ok K -> h128 s -> h128 (camellia_words K p q ops u v s).
Proof.
  intros K p q ops u v s HK Hs. unfold camellia_words. cbv zeta.
  assert (forall i j, h128 (nth i (cam_kw K) (0, 0), nth j (cam_kw K) (0, 0))) as W.
  { intros i j. split; apply nth_h64, HK. }
  pose proof (xor4_ok _ _ (steps_ok K ops _ HK (xor4_ok s _ Hs (W p q))) (W u v)) as H.
  destruct (camellia_xor4 _ _) as [D1 D2] in H |- *. destruct H. split; assumption.
Qed.
Lemma words_inv : forall K p q ops u v s,
  camellia_words K v u (rev (map rev_op ops)) q p (camellia_words K p q ops u v s) = s.
Proof.
  intros K p q ops u v s. unfold camellia_words. cbv zeta.
  set (W := fun i => nth i (cam_kw K) (0, 0)).
  set (t := fold_left (camellia_step K) ops (camellia_xor4 s (nth p (cam_kw K) (0, 0), nth q (cam_kw K) (0, 0)))).
  pose proof (steps_inv K ops (camellia_xor4 s (nth p (cam_kw K) (0, 0), nth q (cam_kw K) (0, 0)))) as H. fold t in H.
  destruct t as [T1 T2]. cbn [swap4] in H. unfold camellia_xor4 in *. cbn [fst snd] in *. rewrite !xor2_cancel.
  destruct (fold_left (camellia_step K) (rev (map rev_op ops)) (T2, T1)) as [E1 E2]. cbn [swap4] in H.
  destruct s as [s1 s2]. cbn [fst snd] in *.
  assert (E2 = camellia_xor2 s1 (nth p (cam_kw K) (0, 0))) as -> by congruence.
  assert (E1 = camellia_xor2 s2 (nth q (cam_kw K) (0, 0))) as -> by congruence.
  rewrite !xor2_cancel. reflexivity.
Qed.

Lemma camellia_word_inverse : forall K p q ops ops' u v, keys_ok K -> ops' = rev (map rev_op ops) ->
  word_inverse 32 4 (camellia_on4 (camellia_words K p q ops u v)) (camellia_on4 (camellia_words K v u ops' q p)).
Proof.
  intros K p q ops ops' u v HK ->. unfold camellia_on4. apply word_inverse_on4.
  intros [[[a b] c] d] Hw.
  assert (h128 ((a, b), (c, d))) as Hs by (unfold w4 in Hw; cbn in Hw; unfold h128, h64; cbn; tauto).
  pose proof (words_inv K p q ops u v ((a, b), (c, d))) as I.
  pose proof (words_ok K p q ops u v _ HK Hs) as O1.
  pose proof (words_ok K v u (rev (map rev_op ops)) q p _ HK Hs) as O2.
  destruct (camellia_words K p q ops u v _) as [[a1 b1] [c1 d1]].
  rewrite I. destruct (camellia_words K v u _ q p _) as [[a2 b2] [c2 d2]].
  unfold h128, h64, w4 in *. cbn in *. tauto.
Qed.

Lemma roll1_ok : forall x, h128 (camellia_roll1 x).
Proof.
  intros [[x0 x1] [x2 x3]]. unfold camellia_roll1, h128, h64. cbn [fst snd].
  repeat split; apply lor_lt; try apply rotl_lt; apply shlw_lt.
Qed.
Lemma roll_ok : forall n x, h128 (camellia_roll (S n) x).
Proof. intros n x. unfold camellia_roll. apply roll1_ok. Qed.
Lemma both_ok : forall x, h128 x -> Forall h64 (camellia_both x).
Proof. intros x [H1 H2]. repeat constructor; apply H1 || apply H2. Qed.
Lemma KA_ok : forall KL KR, h128 KL -> h128 KR -> h128 (camellia_KA KL KR).
Proof. intros KL KR H1 H2. unfold camellia_KA. cbv zeta. apply two_ok, xor4_ok; [apply two_ok, xor4_ok|]; assumption. Qed.
Lemma load4 : forall w a b c d, words 32 w -> h128 ((nth a w 0, nth b w 0), (nth c w 0, nth d w 0)).
Proof. intros. repeat split; cbn [fst snd]; apply nth_words; assumption. Qed.

Lemma keyexp_128_ok : forall key, bytes key -> keys_ok (camellia_keyexp_128 key).
Proof.
  intros key Hk. unfold camellia_keyexp_128. cbv zeta.
  pose proof (proj1 (ld_user_key_ok 4 4 16 key Hk ltac:(lia))) as W.
  set (w := ld_user_key 4 4 16 key) in *. clearbody w.
  split; cbn [cam_ke cam_kw]; rewrite !Forall_app; split; apply both_ok; try apply roll_ok. apply load4, W.
Qed.
Lemma keys_192_256_ok : forall KL KR, h128 KL -> keys_ok (camellia_keys_192_256 KL KR).
Proof.
  intros KL KR HL. unfold camellia_keys_192_256. cbv zeta.
  split; cbn [cam_ke cam_kw]; rewrite !Forall_app; repeat split; apply both_ok; try apply roll_ok; assumption.
Qed.

Lemma camellia128_inverse : forall K, keys_ok K -> inverse_on 16 (camellia_block_encrypt_128 K) (camellia_block_decrypt_128 K).
Proof. intros K HK. apply (inverse_blk_be 4 4). apply camellia_word_inverse; [exact HK|reflexivity]. Qed.
Lemma camellia192_256_inverse : forall K, keys_ok K ->
  inverse_on 16 (camellia_block_encrypt_192_256 K) (camellia_block_decrypt_192_256 K).
Proof. intros K HK. apply (inverse_blk_be 4 4). apply camellia_word_inverse; [exact HK|reflexivity]. Qed.

Lemma camellia128_lawful : lawful camellia128.
Proof.
  unfold lawful. cbn [camellia128 bc_id bc_bs bc_enc bc_dec]. split; [reflexivity|]. split; [reflexivity|]. split; [lia|].
  intros key (_ & Hk & _). apply camellia128_inverse, keyexp_128_ok, Hk.
Qed.
Lemma camellia192_lawful : lawful camellia192.
Proof.
  unfold lawful. cbn [camellia192 bc_id bc_bs bc_enc bc_dec]. split; [reflexivity|]. split; [reflexivity|]. split; [lia|].
  intros key (_ & Hk & _). apply camellia192_256_inverse. unfold camellia_keyexp_192. cbv zeta. apply keys_192_256_ok, load4.
  apply (ld_user_key_ok 4 6 24 key Hk ltac:(lia)).
Qed.
Lemma camellia256_lawful : lawful camellia256.
Proof.
  unfold lawful. cbn [camellia256 bc_id bc_bs bc_enc bc_dec]. split; [reflexivity|]. split; [reflexivity|]. split; [lia|].
  intros key (_ & Hk & _). apply camellia192_256_inverse. unfold camellia_keyexp_256. cbv zeta. apply keys_192_256_ok, load4.
  apply (ld_user_key_ok 4 8 32 key Hk ltac:(lia)).
Qed.
