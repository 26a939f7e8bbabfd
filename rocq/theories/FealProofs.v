From Verif Require Import Words EncSpec TaskModel ModeModel ModeSpec CipherBase CipherLib FealModel.
Open Scope N_scope.

Lemma feal_byte_lt : forall w n, feal_byte w n < 2 ^ 8.
Proof. intros. unfold feal_byte. apply land_lt_r. reflexivity. Qed.
Lemma feal_sd_lt : forall T U d, feal_sd T U d < 2 ^ 8.
Proof. intros. unfold feal_sd. apply rotl_lt. change (2 ^ 8) with 256. apply N.mod_lt. discriminate. Qed.
Lemma feal_pack_lt : forall a b c d, d < 2 ^ 8 -> feal_pack a b c d < 2 ^ 32.
Proof. intros. unfold feal_pack. repeat apply lor_lt; try apply shlw_lt. apply (lt_mono _ 8); [assumption|lia]. Qed.
Lemma feal_f_lt : forall V W, feal_f V W < 2 ^ 32.
Proof. intros. unfold feal_f. apply feal_pack_lt, feal_sd_lt. Qed.

Lemma feal_expand_words : forall n D A B, words 16 (feal_expand n D A B).
Proof.
  induction n as [|n IH]; intros D A B; cbn [feal_expand]; [constructor|]. cbv zeta.
  constructor; [|constructor; [|apply IH]]; (apply lor_lt; [apply shlw_lt|]; apply (lt_mono _ 8); [apply feal_byte_lt|lia]).
Qed.
Lemma feal_expand_key_words : forall n key, words 16 (feal_expand_key n key).
Proof.
  intros. unfold feal_expand_key. cbv zeta. apply words_app. split; [apply feal_expand_words|apply words_repeat0].
Qed.
Lemma feal_key32_lt : forall K i, words 16 K -> feal_key32 K i < 2 ^ 32.
Proof.
  intros. unfold feal_key32. apply lor_lt; [apply shlw_lt|]. apply (lt_mono _ 16); [apply nth_words; assumption|lia].
Qed.

Lemma feal_round_inv : forall K s r, w2 32 s -> True ->
  feal_dec_round K (feal_enc_round K s r) r = s /\ w2 32 (feal_enc_round K s r).
Proof.
  intros K [L R] r (HL & HR) _. cbn [fst snd] in *. unfold feal_dec_round, feal_enc_round.
  rewrite lxor_cancel_r. split; [reflexivity|]. split; cbn [fst snd]; [assumption|].
  apply lxor_lt; [assumption|apply feal_f_lt].
Qed.
Lemma feal_dec_wf : forall K s r, w2 32 s -> True -> w2 32 (feal_dec_round K s r).
Proof.
  intros K [L R] r (HL & HR) _. cbn [fst snd] in *. split; cbn [fst snd feal_dec_round]; [|assumption].
  apply lxor_lt; [assumption|apply feal_f_lt].
Qed.

Lemma feal_words_inv : forall n K s, words 16 K -> w2 32 s ->
  feal_decrypt_words n K (feal_encrypt_words n K s) = s /\
  w2 32 (feal_encrypt_words n K s) /\ w2 32 (feal_decrypt_words n K s).
Proof.
  intros n K [L R] HK (HL & HR). cbn [fst snd] in *. unfold feal_decrypt_words, feal_encrypt_words. cbv zeta.
  pose proof (feal_key32_lt K n HK) as K0. pose proof (feal_key32_lt K (n + 2) HK) as K2.
  pose proof (feal_key32_lt K (n + 4) HK) as K4. pose proof (feal_key32_lt K (n + 6) HK) as K6.
  set (k0 := feal_key32 K n) in *. set (k2 := feal_key32 K (n + 2)) in *.
  set (k4 := feal_key32 K (n + 4)) in *. set (k6 := feal_key32 K (n + 6)) in *.
  assert (w2 32 (xor L k0, xor (xor R k2) (xor L k0))) as Hw by (split; cbn [fst snd]; wlt).
  destruct (fold_inverse _ _ (w2 32) (fun _ => True) _ _ (seq 1 n) _ (feal_round_inv K) (Forall_true _ _) Hw) as [H1 H2].
  destruct (fold_left (feal_enc_round K) (seq 1 n) _) as [l r]. destruct H2 as [Hl Hr]. cbn [fst snd] in *.
  rewrite !lxor_cancel_r, H1, !lxor_cancel_r. split; [reflexivity|].
  split; [split; cbn [fst snd]; wlt|].
  assert (w2 32 (fold_left (feal_dec_round K) (rev (seq 1 n)) (xor (xor R k6) (xor L k4), xor L k4))) as Hw2.
  { apply fold_wf with (okk := fun _ => True); [apply feal_dec_wf|apply Forall_true|]. split; cbn [fst snd]; wlt. }
  clear H1. destruct (fold_left (feal_dec_round K) _ _) as [l' r']. destruct Hw2 as [Hl' Hr']. cbn [fst snd] in *.
  split; cbn [fst snd]; wlt.
Qed.

Lemma feal_lawful : forall rounds, lawful (feal rounds).
Proof.
  intros rounds. unfold lawful. cbn [feal bc_id bc_bs bc_enc bc_dec].
  split; [reflexivity|]. split; [reflexivity|]. split; [lia|]. intros key (_ & _ & _ & Hc).
  cbn [feal bc_check] in Hc. destruct rounds as [r|]; [|discriminate].
  apply (inverse_blk_be 4 2). change (8 * N.of_nat 4) with 32. apply word_inverse_on2.
  intros s Hs. apply feal_words_inv; [apply feal_expand_key_words|exact Hs].
Qed.
