(* Property C107: SHACAL-1 and SHACAL-2 compute the published ciphers, the steps of SHA-1 and SHA-256, and whole tasks are the modes of SP 800-38A over them. *)
From Verif Require Import Words EncSpec TaskModel ModeModel ModeSpec CipherBase ModeProps ShacalModel ShacalProofs AesProofs3 HashProofs ShacalProofs2.
From Verif Require Import HashSpec ShacalSpec.
Open Scope N_scope.

(* keys of an even number of bytes, at most one message block *)
Definition even_key (key : list N) : Prop := exists m, (1 <= m <= 32)%nat /\ length key = (2 * m)%nat.
Lemma shacal_key : forall c key, c = shacal1 \/ c = shacal2 -> octets key -> even_key key -> acceptable_key c key.
Proof.
  intros c key Hc Hk (m & Hm & L). split; [intros ->; cbn in L; lia|]. split; [exact Hk|].
  destruct Hc as [-> | ->]; (split; [intros [X|X]; discriminate X|reflexivity]).
Qed.
Theorem C107_blocks_partial : forall key block, octets key -> even_key key -> octets block ->
  (length block = 20%nat -> bc_enc shacal1 key block = SHACAL1 key block /\ bc_dec shacal1 key (SHACAL1 key block) = block) /\
  (length block = 32%nat -> bc_enc shacal2 key block = SHACAL2 key block /\ bc_dec shacal2 key (SHACAL2 key block) = block).
Proof.
  intros key block Hk Hw Hb. pose proof Hw as (m & Hm & L). split; intro Lb.
  - split; [exact (shacal1_is m key block Hm L Hk Lb)|].
    exact (decrypts shacal1 key _ block shacal1_lawful (shacal_key _ key (or_introl eq_refl) Hk Hw) Hb Lb (shacal1_is m key block Hm L Hk Lb)).
  - split; [exact (shacal2_is m key block Hm L Hk Lb)|].
    exact (decrypts shacal2 key _ block shacal2_lawful (shacal_key _ key (or_intror eq_refl) Hk Hw) Hb Lb (shacal2_is m key block Hm L Hk Lb)).
Qed.
Print Assumptions C107_blocks_partial.

(* what a caller gets: the X9.23 padded text in the chosen mode over the published cipher E *)
Definition task_is (c : blockcipher) (bs : nat) (E : list N -> list N) (key : list N) : Prop :=
  forall pem rnd aad m iv text, m = ECB \/ m = CBC \/ m = OFB \/ m = CTR ->
  octets iv -> length iv = bs -> octets text -> text <> [] -> byte_source rnd ->
  exists padded P p v, x923_padded bs text padded /\ in_blocks bs padded P /\
    block_cipher c pem rnd aad (user_task (bc_id c) m Encrypt key iv text) = Done {| r_result := Success; r_out := Some p; r_iv := v |} /\
    p_out p = match m with
              | ECB => concat (spec_ecb E P)
              | CBC => iv ++ concat (spec_cbc E iv P)
              | OFB => iv ++ concat (spec_ofb E iv P)
              | _ => iv ++ concat (spec_ctr E iv P)
              end.
Theorem C107_tasks_partial : forall key, octets key -> even_key key -> task_is shacal1 20 (SHACAL1 key) key /\ task_is shacal2 32 (SHACAL2 key) key.
Proof.
  intros key Hk Hw. pose proof Hw as (n & Hn & L). split; intros pem rnd aad m iv text Hm Hi Li Ht Hne Hr.
  - apply (task_same shacal1 (SHACAL1 key) pem rnd aad m key iv text shacal1_lawful); try assumption; [cbn; lia|exact (shacal_key _ key (or_introl eq_refl) Hk Hw)|].
    intros x _ Hx. exact (shacal1_is n key x Hn L Hk Hx).
  - apply (task_same shacal2 (SHACAL2 key) pem rnd aad m key iv text shacal2_lawful); try assumption; [cbn; lia|exact (shacal_key _ key (or_intror eq_refl) Hk Hw)|].
    intros x _ Hx. exact (shacal2_is n key x Hn L Hk Hx).
Qed.
Print Assumptions C107_tasks_partial.

(* a key of five bytes is not filled up behind its last byte *)
Theorem C107_five_bytes_refuted : exists key block, octets key /\ length key = 5%nat /\ octets block /\ length block = 20%nat /\
  bc_enc shacal1 key block <> SHACAL1 key block.
Proof.
  exists [1; 2; 3; 4; 5], (repeat 0 20). split; [repeat (apply Forall_cons; [reflexivity|]); apply Forall_nil|]. split; [reflexivity|].
  split; [repeat (apply Forall_cons; [reflexivity|]); apply Forall_nil|]. split; [reflexivity|].
  intro H. apply (f_equal (fun l => nth 0 l 0)) in H. vm_compute in H. discriminate H.
Qed.
Example C107_example : octets (repeat 255 64) /\ even_key (repeat 255 64) /\ octets [104; 105] /\ [104; 105] <> [].
Proof.
  split; [repeat (apply Forall_cons; [reflexivity|]); apply Forall_nil|]. split; [exists 32%nat; split; [lia|reflexivity]|].
  split; [repeat (apply Forall_cons; [reflexivity|]); apply Forall_nil|discriminate].
Qed.
