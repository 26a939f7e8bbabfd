From Verif Require Import Words TaskModel ModeModel ModeSpec CipherBase CipherLib FeistelLib TwofishModel.
Open Scope N_scope.

Lemma f_lt : forall sk r a b, fst (twofish_f sk r a b) < 2 ^ 32 /\ snd (twofish_f sk r a b) < 2 ^ 32.
Proof.
  intros sk r a b. unfold twofish_f. cbv zeta. destruct (twofish_pht _) as [f0 f1].
  cbn [fst snd]. split; apply addw_lt.
Qed.
Lemma one_le : 1 <= 32.
Proof. apply N.leb_le. reflexivity. Qed.
Lemma w4i : forall a b c d, a < 2 ^ 32 -> b < 2 ^ 32 -> c < 2 ^ 32 -> d < 2 ^ 32 -> w4 32 (a, b, c, d).
Proof. intros a b c d Ha Hb Hc Hd. exact (conj (conj Ha Hb) (conj Hc Hd)). Qed.

Lemma next_w4 : forall sk R r, w4 32 R -> w4 32 (twofish_round_next sk R r).
Proof.
  intros sk [[[a b] c] d] r [[Ha Hb] [Hc Hd]]. unfold twofish_round_next, twofish_round_f.
  pose proof (f_lt sk r a b) as H. destruct (twofish_f sk r a b) as [f0 f1]. cbn [fst snd] in H. destruct H.
  apply w4i; wlt.
Qed.
Lemma left_w4 : forall sk R r, w4 32 R -> w4 32 (twofish_left sk R r).
Proof.
  intros sk [[[a b] c] d] r [[Ha Hb] [Hc Hd]]. unfold twofish_left.
  pose proof (f_lt sk r c d) as H. destruct (twofish_f sk r c d) as [f0 f1]. cbn [fst snd] in H. destruct H.
  apply w4i; wlt.
Qed.
Lemma right_w4 : forall sk R r, w4 32 R -> w4 32 (twofish_right sk R r).
Proof.
  intros sk [[[a b] c] d] r [[Ha Hb] [Hc Hd]]. unfold twofish_right.
  pose proof (f_lt sk r a b) as H. destruct (twofish_f sk r a b) as [f0 f1]. cbn [fst snd] in H. destruct H.
  apply w4i; wlt.
Qed.

Definition swap4 (R : twofish_state) : twofish_state := let '(a, b, c, d) := R in (c, d, a, b).
Lemma left_next : forall sk R r, w4 32 R -> twofish_left sk (twofish_round_next sk R r) r = swap4 R.
Proof.
  intros sk [[[a b] c] d] r [[Ha Hb] [Hc Hd]]. unfold twofish_round_next, twofish_round_f, twofish_left, swap4.
  pose proof (f_lt sk r a b) as H. destruct (twofish_f sk r a b) as [f0 f1] eqn:E. cbn [fst snd] in H. destruct H as [H0 H1].
  rewrite E. rewrite rotl_rotr by (apply one_le || apply lxor_lt; assumption).
  rewrite lxor_cancel_r, (N.lxor_comm f0 c), lxor_cancel_r, rotr_rotl by (apply one_le || assumption). reflexivity.
Qed.
Lemma right_next : forall sk R r, w4 32 R -> twofish_right sk (swap4 (twofish_round_next sk R r)) r = R.
Proof.
  intros sk [[[a b] c] d] r [[Ha Hb] [Hc Hd]]. unfold twofish_round_next, twofish_round_f, twofish_right, swap4.
  pose proof (f_lt sk r a b) as H. destruct (twofish_f sk r a b) as [f0 f1] eqn:E. cbn [fst snd] in H. destruct H as [H0 H1].
  rewrite E. rewrite rotl_rotr by (apply one_le || apply lxor_lt; assumption).
  rewrite lxor_cancel_r, (N.lxor_comm f0 c), lxor_cancel_r, rotr_rotl by (apply one_le || assumption). reflexivity.
Qed.

Lemma rounds_inv : forall sk n R, w4 32 R ->
  fold_left (twofish_unround sk) (rev (seq 0 (2 * n))) (fold_left (twofish_round_next sk) (seq 0 (2 * n)) R) = R.
Proof.
  intros sk n. induction n as [|n IH]; intros R HR; [reflexivity|].
  replace (2 * S n)%nat with (2 * n + 2)%nat by lia.
  rewrite seq_app, rev_app_distr, !fold_left_app. cbn [seq rev app fold_left plus].
  set (R1 := fold_left (twofish_round_next sk) (seq 0 (2 * n)) R).
  assert (w4 32 R1) as H1.
  { apply (fold_wf _ _ (w4 32) (fun _ => True)); [intros; apply next_w4; assumption| |exact HR].
    apply Forall_forall. intros. exact I. }
  unfold twofish_unround at 2 3.
  assert (Nat.odd (S (2 * n)) = true) as -> by (rewrite Nat.odd_succ; apply Nat.even_spec; exists n; reflexivity).
  assert (Nat.odd (2 * n) = false) as -> by (rewrite <- Nat.negb_even; replace (Nat.even (2 * n)) with true; [reflexivity|symmetry; apply Nat.even_spec; exists n; reflexivity]).
  rewrite left_next by (apply next_w4, H1). rewrite right_next by exact H1.
  subst R1. apply IH, HR.
Qed.

Lemma done_next : forall sk R r, twofish_round_done sk R r = swap4 (twofish_round_next sk R r).
Proof.
  intros sk [[[a b] c] d] r. unfold twofish_round_done, twofish_round_next.
  destruct (twofish_round_f sk r (a, b, c, d)) as [f0 f1]. reflexivity.
Qed.
Lemma whiten_inv : forall K o R, twofish_whiten K o (twofish_whiten K o R) = R.
Proof. intros K o [[[a b] c] d]. unfold twofish_whiten. rewrite !lxor_cancel_r. reflexivity. Qed.
Lemma whiten_w4 : forall K o R, words 32 K -> w4 32 R -> w4 32 (twofish_whiten K o R).
Proof.
  intros K o [[[a b] c] d] HK [[Ha Hb] [Hc Hd]]. unfold twofish_whiten.
  apply w4i; apply lxor_lt; try assumption; apply nth_words, HK.
Qed.
Lemma dec_whiten : forall sk R, twofish_dec sk R =
  twofish_whiten (tf_K sk) 0 (fold_left (twofish_unround sk) (rev (seq 0 16)) (swap4 (twofish_whiten (tf_K sk) 4 R))).
Proof. intros sk [[[a b] c] d]. reflexivity. Qed.
Lemma swap_swap : forall R, swap4 (swap4 R) = R.
Proof. intros [[[a b] c] d]. reflexivity. Qed.
Lemma swap_w4 : forall R, w4 32 R -> w4 32 (swap4 R).
Proof. intros [[[a b] c] d] [[Ha Hb] [Hc Hd]]. apply w4i; assumption. Qed.

Lemma enc_view : forall sk R, twofish_enc sk R =
  twofish_whiten (tf_K sk) 4 (swap4 (fold_left (twofish_round_next sk) (seq 0 16) (twofish_whiten (tf_K sk) 0 R))).
Proof.
  intros sk R. unfold twofish_enc. cbv zeta. rewrite done_next.
  change (seq 0 16) with (seq 0 15 ++ [15%nat]). rewrite fold_left_app. cbn [fold_left]. reflexivity.
Qed.

Lemma twofish_words_inv : forall sk R, words 32 (tf_K sk) -> w4 32 R ->
  twofish_dec sk (twofish_enc sk R) = R /\ w4 32 (twofish_enc sk R) /\ w4 32 (twofish_dec sk R).
Proof.
  intros sk R HK HR. rewrite enc_view, !dec_whiten. split; [|split].
  - rewrite whiten_inv, swap_swap. rewrite (rounds_inv sk 8) by (apply whiten_w4; assumption). apply whiten_inv.
  - apply whiten_w4; [exact HK|]. apply swap_w4.
    apply (fold_wf _ _ (w4 32) (fun _ => True)); [intros; apply next_w4; assumption| |apply whiten_w4; assumption].
    apply Forall_forall. intros. exact I.
  - apply whiten_w4; [exact HK|].
    apply (fold_wf _ _ (w4 32) (fun _ => True)); [| |apply swap_w4, whiten_w4; assumption].
    + intros s k Hs _. unfold twofish_unround. destruct (Nat.odd k); [apply left_w4|apply right_w4]; exact Hs.
    + apply Forall_forall. intros. exact I.
Qed.

Lemma skeys_words : forall k key, words 32 (tf_K (twofish_eval_skeys k key)).
Proof.
  intros k key. unfold twofish_eval_skeys. cbn [tf_K]. apply Forall_concat, Forall_map, Forall_forall.
  intros s _. unfold twofish_h_iter, twofish_pht. cbv zeta.
  constructor; [apply addw_lt|]. constructor; [|constructor]. apply rotl_lt, land_lt_l, addw_lt.
Qed.

Lemma twofish_inverse : forall k key,
  inverse_on 16 (twofish_encrypt_block (twofish_eval_skeys k key)) (twofish_decrypt_block (twofish_eval_skeys k key)).
Proof.
  intros k key. apply (inverse_blk_le 4 4). apply word_inverse_on4. intros s Hs.
  apply twofish_words_inv; [apply skeys_words|exact Hs].
Qed.
Lemma twofish_lawful : forall id k, In id [TWOFISH128; TWOFISH192; TWOFISH256] -> lawful (twofish id k).
Proof.
  intros id k Hid. unfold lawful. cbn [twofish bc_id bc_bs bc_enc bc_dec bc_check].
  split; [destruct Hid as [<-|[<-|[<-|[]]]]; reflexivity|]. split; [destruct Hid as [<-|[<-|[<-|[]]]]; reflexivity|]. split; [lia|].
  intros key _. apply twofish_inverse.
Qed.
Lemma twofish128_lawful : lawful twofish128.
Proof. apply twofish_lawful. cbn. auto. Qed.
Lemma twofish192_lawful : lawful twofish192.
Proof. apply twofish_lawful. cbn. auto. Qed.
Lemma twofish256_lawful : lawful twofish256.
Proof. apply twofish_lawful. cbn. auto. Qed.
