From Verif Require Import Words EncSpec TaskModel ModeModel ModeSpec CipherBase CipherLib BlowfishModel.
Open Scope N_scope.

Lemma bf_F_lt : forall k x, blowfish_F k x < 2 ^ 32.
Proof. intros. unfold blowfish_F, addw. apply N.mod_upper_bound. discriminate. Qed.

Lemma bf_round_wf : forall k s i, words 32 (bf_P k) -> w2 32 s -> w2 32 (blowfish_round k s i).
Proof.
  intros k [a b] i HP [Ha Hb]. unfold blowfish_round. cbv zeta. split.
  - apply lxor_lt; [apply bf_F_lt|exact Hb].
  - apply lxor_lt; [exact Ha|apply nth_words, HP].
Qed.

(* the state of decryption that mirrors the state of encryption before round n *)
Definition bf_mirror (k : bf_keys) (n : nat) (s : N * N) : N * N :=
  let '(a, b) := s in (xor b (nth (n + 1) (bf_P k) 0), xor a (nth n (bf_P k) 0)).

Lemma bf_mirror_step : forall k n s,
  blowfish_round k (bf_mirror k (S n) (blowfish_round k s n)) (n + 2) = bf_mirror k n s.
Proof.
  intros k n [a b]. unfold bf_mirror, blowfish_round. cbv zeta.
  replace (S n + 1)%nat with (n + 2)%nat by lia. replace (n + 1)%nat with (S n) by lia.
  set (p := nth n (bf_P k) 0). set (q := nth (S n) (bf_P k) 0). set (r := nth (n + 2) (bf_P k) 0).
  rewrite lxor_cancel_r. f_equal. xor_ring.
Qed.
Lemma bf_mirror_rounds : forall k n s,
  fold_left (blowfish_round k) (rev (seq 2 n)) (bf_mirror k n (fold_left (blowfish_round k) (seq 0 n) s)) = bf_mirror k 0 s.
Proof.
  induction n as [|n IH]; intro s; [reflexivity|].
  rewrite !seq_S, rev_app_distr, (fold_left_app _ (seq 0 n)). cbn [rev app fold_left Nat.add].
  replace (S (S n)) with (n + 2)%nat by lia. rewrite bf_mirror_step. apply IH.
Qed.

Lemma bf_words_inv : forall k s, blowfish_decrypt_words k (blowfish_encrypt_words k s) = s.
Proof.
  intros k s. unfold blowfish_decrypt_words, blowfish_encrypt_words.
  pose proof (bf_mirror_rounds k 16 s) as H. destruct (fold_left _ (seq 0 16) s) as [a b].
  unfold bf_mirror in H at 1. cbn [Nat.add] in H. rewrite H. destruct s as [x y]. unfold bf_mirror.
  rewrite !lxor_cancel_r. reflexivity.
Qed.

Lemma bf_fold_wf : forall k l s, words 32 (bf_P k) -> w2 32 s -> w2 32 (fold_left (blowfish_round k) l s).
Proof.
  intros k l s HP Hs. apply fold_wf with (okk := fun _ => True); [intros; apply bf_round_wf; assumption|apply Forall_true|exact Hs].
Qed.
Lemma bf_enc_wf : forall k s, words 32 (bf_P k) -> w2 32 s -> w2 32 (blowfish_encrypt_words k s).
Proof.
  intros k s HP Hs. unfold blowfish_encrypt_words. pose proof (bf_fold_wf k (seq 0 16) s HP Hs) as H.
  destruct (fold_left _ _ s) as [a b]. destruct H. split; apply lxor_lt; try assumption; apply nth_words, HP.
Qed.
Lemma bf_dec_wf : forall k s, words 32 (bf_P k) -> w2 32 s -> w2 32 (blowfish_decrypt_words k s).
Proof.
  intros k s HP Hs. unfold blowfish_decrypt_words. pose proof (bf_fold_wf k (rev (seq 2 16)) s HP Hs) as H.
  destruct (fold_left _ _ s) as [a b]. destruct H. split; apply lxor_lt; try assumption; apply nth_words, HP.
Qed.

Lemma bf_inverse : forall k, words 32 (bf_P k) -> inverse_on 8 (blowfish_block_encrypt k) (blowfish_block_decrypt k).
Proof.
  intros k HP. change 8%nat with (4 * 2)%nat. apply inverse_blk_be. change (8 * N.of_nat 4) with 32.
  apply word_inverse_on2. intros s Hs. split; [apply bf_words_inv|]. split; [apply bf_enc_wf|apply bf_dec_wf]; assumption.
Qed.

(* ---- the key schedule keeps P a list of 32-bit words ---- *)
Lemma be_slice_lt : forall l i, bytes l -> be_val (slice l i 4) < 2 ^ 32.
Proof.
  intros l i Hl. change (2 ^ 32) with (256 ^ N.of_nat 4). eapply N.lt_le_trans.
  - apply be_val_lt. unfold slice. apply bytes_firstn, bytes_skipn, Hl.
  - apply N.pow_le_mono_r; [discriminate|]. unfold slice. rewrite firstn_length. lia.
Qed.
Lemma bf_put_words : forall k i x y, words 32 (bf_P k) -> x < 2 ^ 32 -> y < 2 ^ 32 -> words 32 (bf_P (blowfish_put k i x y)).
Proof.
  intros k i x y HP Hx Hy. unfold blowfish_put. cbv zeta.
  repeat match goal with |- context [if ?b then _ else _] => destruct b end; cbn [bf_P]; try exact HP.
  apply upd_words; [apply upd_words; assumption|assumption].
Qed.
Lemma store_be_bytes' : forall wb ws, bytes (store_be wb ws).
Proof.
  intros wb ws. unfold store_be. induction ws as [|a ws IH]; [constructor|]. cbn [map concat].
  apply Forall_app. split; [apply be_bytes_bytes|exact IH].
Qed.
Lemma bf_step_words : forall k pl i, words 32 (bf_P k) -> words 32 (bf_P (fst (blowfish_step (k, pl) i))).
Proof.
  intros k pl i HP. unfold blowfish_step. cbn [fst].
  apply bf_put_words; [exact HP| |]; apply be_slice_lt; unfold blowfish_block_encrypt, blk_be; apply store_be_bytes'.
Qed.
Lemma bf_steps_words : forall l k pl, words 32 (bf_P k) -> words 32 (bf_P (fst (fold_left blowfish_step l (k, pl)))).
Proof.
  induction l as [|i l IH]; intros k pl HP; [exact HP|]. cbn [fold_left].
  pose proof (bf_step_words k pl i HP) as H. destruct (blowfish_step (k, pl) i) as [k' pl']. apply IH, H.
Qed.
Lemma words_forallb : forall w l, forallb (fun x => x <? 2 ^ w) l = true -> words w l.
Proof.
  intros w l H. apply Forall_forall. intros x Hx. rewrite forallb_forall in H. apply N.ltb_lt, H, Hx.
Qed.
Lemma bf_parray_words : words 32 blowfish_parray.
Proof. apply words_forallb. vm_compute. reflexivity. Qed.

Lemma bf_whiten_words : forall n key P, bytes key -> blowfish_whiten n key = Done P -> words 32 P.
Proof.
  induction n as [|n IH]; intros key P Hk H.
  - cbn in H. assert (P = []) as -> by congruence. constructor.
  - cbn [blowfish_whiten] in H. destruct (blowfish_whiten n key) as [P0|] eqn:E; [|discriminate H]. cbn [obind] in H.
    unfold rd in H. destruct (nth_error (blowfish_key_words key) _) as [v|] eqn:E2; [|discriminate H]. cbn [obind] in H.
    assert (P = P0 ++ [xor (nth n blowfish_parray 0) v]) as -> by congruence.
    apply words_app. split; [eapply IH; eassumption|]. constructor; [|constructor].
    apply lxor_lt; [apply nth_words, bf_parray_words|].
    destruct (ld_user_key_ok 4 14 56 key Hk ltac:(lia)) as [W _]. unfold words in W. rewrite Forall_forall in W.
    apply W. eapply nth_error_In. exact E2.
Qed.

Lemma blowfish_lawful : lawful blowfish.
Proof.
  unfold lawful. cbn [blowfish bc_id bc_bs bc_enc bc_dec bc_check]. split; [reflexivity|]. split; [reflexivity|]. split; [lia|].
  intros key (_ & Hk & _ & Hc). cbn [blowfish bc_check] in Hc.
  apply bf_inverse. destruct (blowfish_puff_up key) as [k|] eqn:E; [|discriminate Hc].
  unfold blowfish_puff_up in E. destruct (blowfish_whiten 18 key) as [P|] eqn:EP; [|discriminate E]. cbn [obind] in E.
  match type of E with Done ?x = _ => assert (k = x) as -> by congruence end.
  apply bf_steps_words. cbn [blowfish_init bf_P]. eapply bf_whiten_words; eassumption.
Qed.

(* ---- which keys the schedule is defined for ---- *)
Lemma bf_w_size_pos : forall n, (0 < blowfish_w_size n)%nat.
Proof.
  intro n. unfold blowfish_w_size. destruct (Nat.ltb_spec n 5); [lia|]. apply Nat.div_str_pos. lia.
Qed.
Lemma bf_whiten_defined : forall n key, bytes key -> (length key <= 56)%nat -> exists P, blowfish_whiten n key = Done P.
Proof.
  intros n key Hk HL. induction n as [|n [P IH]]; [eexists; reflexivity|]. cbn [blowfish_whiten]. rewrite IH. cbn [obind].
  destruct (ld_user_key_ok 4 14 56 key Hk ltac:(lia)) as [_ L].
  assert (blowfish_w_size (length key) <= 14)%nat as HW.
  { unfold blowfish_w_size. destruct (Nat.ltb_spec (length key) 5); [lia|]. replace 14%nat with (Nat.div 59 4) by reflexivity; apply Nat.div_le_mono; lia. }
  pose proof (Nat.mod_upper_bound n (blowfish_w_size (length key)) ltac:(pose proof (bf_w_size_pos (length key)); lia)).
  unfold rd. rewrite Nat2N.id. destruct (nth_error _ _) eqn:E; [eexists; reflexivity|].
  apply nth_error_None in E. unfold blowfish_key_words in E. lia.
Qed.
Lemma blowfish_defined : forall key, bytes key -> (length key <= 56)%nat -> bc_check blowfish key = Done Success.
Proof.
  intros key Hk HL. cbn [blowfish bc_check]. unfold blowfish_puff_up.
  destruct (bf_whiten_defined 18 key Hk HL) as [P ->]. reflexivity.
Qed.
Lemma blowfish_ub : forall key, bytes key -> (56 < length key)%nat -> bc_check blowfish key = UB.
Proof.
  intros key Hk HL. cbn [blowfish bc_check]. unfold blowfish_puff_up.
  assert (forall n, (15 <= n)%nat -> blowfish_whiten n key = UB) as H.
  { intros n Hn. induction Hn as [|n Hn IH].
    - cbn [blowfish_whiten]. destruct (blowfish_whiten 14 key) as [P|] eqn:E.
      2:{ cbn [blowfish_whiten] in E. rewrite E. reflexivity. }
      cbn [blowfish_whiten] in E. rewrite E. cbn [obind].
      destruct (ld_user_key_ok 4 14 56 key Hk ltac:(lia)) as [_ L].
      assert (15 <= blowfish_w_size (length key))%nat as HW.
      { unfold blowfish_w_size. destruct (Nat.ltb_spec (length key) 5); [lia|]. replace 15%nat with (Nat.div 60 4) by reflexivity; apply Nat.div_le_mono; lia. }
      unfold rd. rewrite Nat2N.id, Nat.mod_small by lia.
      destruct (nth_error (blowfish_key_words key) 14) eqn:E2; [|reflexivity].
      assert (14 < length (blowfish_key_words key))%nat by (apply nth_error_Some; congruence).
      unfold blowfish_key_words in *. lia.
    - cbn [blowfish_whiten]. rewrite IH. reflexivity. }
  rewrite H by lia. reflexivity.
Qed.
