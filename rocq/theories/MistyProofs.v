From Verif Require Import Words EncSpec TaskModel ModeModel ModeSpec CipherBase CipherLib MistyModel.
Open Scope N_scope.

Lemma misty1_S7_words : words 7 misty1_S7.
Proof. apply Forall_forall. intros x Hx. assert (forallb (fun x => x <? 2 ^ 7) misty1_S7 = true) as H by (vm_compute; reflexivity).
  rewrite forallb_forall in H. apply N.ltb_lt, H, Hx. Qed.
Lemma misty1_S9_words : words 9 misty1_S9.
Proof. apply Forall_forall. intros x Hx. assert (forallb (fun x => x <? 2 ^ 9) misty1_S9 = true) as H by (vm_compute; reflexivity).
  rewrite forallb_forall in H. apply N.ltb_lt, H, Hx. Qed.

Lemma misty1_FI_lt : forall i k, k < 2 ^ 16 -> misty1_FI i k < 2 ^ 16.
Proof.
  intros i k Hk. unfold misty1_FI. cbv zeta. apply lor_lt; [apply shlw_lt|]. apply lxor_lt.
  - apply (lt_mono _ 9); [|lia]. unfold nthN. apply nth_words, misty1_S9_words.
  - apply lxor_lt; [apply (lt_mono _ 7); [|lia]; apply land_lt_r; reflexivity|]. wlt.
Qed.

Lemma misty1_FO_lt : forall EK i k, words 16 EK -> misty1_FO EK i k < 2 ^ 32.
Proof.
  intros EK i k H. unfold misty1_FO. cbv zeta. apply lor_lt; [apply shlw_lt|].
  apply (lt_mono _ 16); [|lia]. 
  assert (forall j, nth j EK 0 < 2 ^ 16) as HN by (intro; apply nth_words, H).
  pose proof (lo_half_lt i).
  repeat first [apply lxor_lt | apply misty1_FI_lt | apply HN | assumption].
Qed.

Lemma misty1_FL_lt : forall EK i k, words 16 EK -> i < 2 ^ 32 -> misty1_FL EK i k < 2 ^ 32.
Proof.
  intros EK i k H Hi. unfold misty1_FL. cbv zeta. apply lor_lt; [apply shlw_lt|].
  pose proof (lo_half_lt i). pose proof (hi_half_lt i Hi).
  apply (lt_mono _ 16); [|lia]. wlt.
Qed.
Lemma misty1_FL_keys : forall EK k, words 16 EK -> misty1_FL_and EK k < 2 ^ 16 /\ misty1_FL_or EK k < 2 ^ 16.
Proof. intros EK k H. unfold misty1_FL_and, misty1_FL_or. destruct (Nat.even k); split; apply nth_words, H. Qed.
Lemma misty1_FL_1_lt : forall EK i k, words 16 EK -> i < 2 ^ 32 -> misty1_FL_1 EK i k < 2 ^ 32.
Proof.
  intros EK i k H Hi. unfold misty1_FL_1. cbv zeta. apply lor_lt; [apply shlw_lt|].
  pose proof (lo_half_lt i). pose proof (hi_half_lt i Hi). destruct (misty1_FL_keys EK k H).
  apply (lt_mono _ 16); [|lia]. wlt.
Qed.
Lemma misty1_FL_inv : forall EK i k, words 16 EK -> i < 2 ^ 32 -> misty1_FL_1 EK (misty1_FL EK i k) k = i.
Proof.
  intros EK i k H Hi. unfold misty1_FL_1, misty1_FL. cbv zeta.
  pose proof (lo_half_lt i) as Hl. pose proof (hi_half_lt i Hi) as Hh. destruct (misty1_FL_keys EK k H) as [Ka Ko].
  set (d1 := xor (and i 65535) (and (shr i 16) (misty1_FL_and EK k))).
  set (d0 := xor (shr i 16) (or d1 (misty1_FL_or EK k))).
  assert (d1 < 2 ^ 16) as H1 by (subst d1; wlt). assert (d0 < 2 ^ 16) as H0 by (subst d0; wlt).
  destruct (halves_join d0 d1 H0 H1) as [-> ->]. subst d0. rewrite lxor_cancel_r. subst d1. rewrite lxor_cancel_r.
  apply join_halves, Hi.
Qed.

Lemma misty1_round_inv : forall EK s j, words 16 EK -> w2 32 s -> True ->
  misty1_dec_round EK (misty1_enc_round EK s j) j = s /\ w2 32 (misty1_enc_round EK s j).
Proof.
  intros EK [D0 D1] j H (H0 & H1) _. cbn [fst snd] in *. unfold misty1_dec_round, misty1_enc_round. cbv zeta.
  rewrite !lxor_cancel_r, !misty1_FL_inv by assumption. split; [reflexivity|].
  split; cbn [fst snd]; (apply lxor_lt; [apply misty1_FL_lt; assumption|apply misty1_FO_lt, H]).
Qed.
Lemma misty1_dec_wf : forall EK s j, words 16 EK -> w2 32 s -> w2 32 (misty1_dec_round EK s j).
Proof.
  intros EK [D0 D1] j H (H0 & H1). cbn [fst snd] in *. unfold misty1_dec_round. cbv zeta.
  split; cbn [fst snd]; apply misty1_FL_1_lt; try assumption; (apply lxor_lt; [assumption|apply misty1_FO_lt, H]).
Qed.

Lemma misty1_words_inv : forall EK s, words 16 EK -> w2 32 s ->
  misty1_decrypt_words EK (misty1_encrypt_words EK s) = s /\
  w2 32 (misty1_encrypt_words EK s) /\ w2 32 (misty1_decrypt_words EK s).
Proof.
  intros EK s H Hs. unfold misty1_decrypt_words, misty1_encrypt_words.
  destruct (fold_inverse _ _ (w2 32) (fun _ => True) (misty1_enc_round EK) (misty1_dec_round EK) (seq 0 4) s
    (fun s j => misty1_round_inv EK s j H) (Forall_true _ _) Hs) as [H1 H2].
  destruct (fold_left (misty1_enc_round EK) (seq 0 4) s) as [D0 D1]. destruct H2 as [W0 W1]. cbn [fst snd] in *.
  rewrite !misty1_FL_inv by assumption. split; [exact H1|].
  split; [split; cbn [fst snd]; apply misty1_FL_lt; assumption|].
  destruct s as [a b]. destruct Hs as [Ha Hb]. cbn [fst snd] in *.
  apply fold_wf with (okk := fun _ => True); [intros; apply misty1_dec_wf; assumption|apply Forall_true|].
  split; cbn [fst snd]; apply misty1_FL_1_lt; assumption.
Qed.

Lemma misty1_sched_words : forall key, bytes key -> words 16 (misty1_sched key).
Proof.
  intros key Hk. unfold misty1_sched. cbv zeta.
  destruct (ld_user_key_ok 2 8 16 key Hk ltac:(lia)) as [H _]. change (8 * N.of_nat 2) with 16 in H.
  set (K := ld_user_key 2 8 16 key) in *.
  assert (words 16 (map (fun i => misty1_FI (nth i K 0) (nth ((i + 1) mod 8) K 0)) (seq 0 8))) as HE.
  { apply Forall_map, Forall_forall. intros i _. apply misty1_FI_lt, nth_words, H. }
  apply words_app. split; [exact H|]. apply words_app. split; [exact HE|]. apply words_app.
  split; apply Forall_map; revert HE; apply Forall_impl; intros x Hx; wlt.
Qed.

Lemma misty1_lawful : lawful misty1.
Proof.
  unfold lawful. cbn [misty1 bc_id bc_bs bc_enc bc_dec].
  split; [reflexivity|]. split; [reflexivity|]. split; [lia|]. intros key (_ & Hk & _).
  apply (inverse_blk_be 4 2). change (8 * N.of_nat 4) with 32. apply word_inverse_on2.
  intros s Hs. apply misty1_words_inv; [apply misty1_sched_words, Hk|exact Hs].
Qed.
