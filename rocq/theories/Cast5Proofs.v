From Verif Require Import Words EncSpec TaskModel ModeModel ModeSpec CipherBase CipherLib DesProofs FeistelLib Cast5Model.
Open Scope N_scope.

Lemma cast5_sbox4_words : words 32 cast5_sbox4.
Proof. apply words_forallb. vm_compute. reflexivity. Qed.
Lemma cast5_f_lt : forall D Km Kr r, cast5_f D Km Kr r < 2 ^ 32.
Proof.
  intros. unfold cast5_f. destruct (Nat.modulo r 3) as [|[|[|]]]; cbv zeta; try (apply N.mod_upper_bound; discriminate).
  apply lxor_lt; [apply N.mod_upper_bound; discriminate|]. apply nth_words, cast5_sbox4_words.
Qed.
Definition cast5_fn (k : cast5_keys) (r : nat) (x : N) : N :=
  cast5_f x (nth (r - 1) (c5_Km k) 0) (nth (r - 1) (c5_Kr k) 0) r.
Lemma cast5_words_fnet : forall k order s, cast5_words k order s = fnet (cast5_fn k) order s.
Proof. reflexivity. Qed.

Lemma cast5_word_inverse : forall k, word_inverse 32 2 (on2 (cast5_words k (seq 1 (c5_rounds k))))
                                                       (on2 (cast5_words k (rev (seq 1 (c5_rounds k))))).
Proof.
  intro k. apply word_inverse_on2. intros s Hs. split; [apply fnet_inv|].
  split; apply (fnet_wf (cast5_fn k)); try exact Hs; intros; apply cast5_f_lt.
Qed.
Lemma cast5_inverse : forall k, inverse_on 8 (cast5_block_encrypt k) (cast5_block_decrypt k).
Proof. intro k. apply (inverse_blk_be 4 2). apply cast5_word_inverse. Qed.
Lemma cast5_lawful : lawful cast5.
Proof.
  unfold lawful. cbn [cast5 bc_id bc_bs bc_enc bc_dec]. split; [reflexivity|]. split; [reflexivity|]. split; [lia|].
  intros key _. apply cast5_inverse.
Qed.
