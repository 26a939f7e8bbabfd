(* Property C105: Blowfish computes the published algorithm, and whole tasks are the modes of SP 800-38A over it. *)
From Verif Require Import Words EncSpec TaskModel ModeModel ModeSpec CipherBase CipherLib ModeProps BlowfishModel BlowfishProofs AesProofs3 BlowfishProofs2.
From Verif Require Import BlowfishSpec.
Open Scope N_scope.

(* missing: keys that end inside a word; the code repeats the key as whole words filled up with zeros, not as bytes *)
Theorem C105_blocks_partial : forall key block, octets key -> (0 < length key <= 56)%nat -> Nat.modulo (length key) 4 = 0%nat -> octets block -> length block = 8%nat ->
  bc_enc blowfish key block = Blowfish key block /\ bc_dec blowfish key (Blowfish key block) = block.
Proof.
  intros key block Hk HL Hm Hb Lb. destruct (blowfish_is key block Hk HL Hm) as [C E]. split; [exact E|].
  apply (decrypts blowfish key _ block blowfish_lawful); try assumption.
  split; [intros ->; cbn in HL; lia|]. split; [exact Hk|]. split; [intros [X|X]; discriminate X|exact C].
Qed.
Print Assumptions C105_blocks_partial.

(* what a caller gets: the X9.23 padded text in the chosen mode over the published cipher E *)
Definition task_is (c : blockcipher) (E : list N -> list N) (key : list N) : Prop :=
  forall pem rnd aad m iv text, m = ECB \/ m = CBC \/ m = OFB \/ m = CTR ->
  octets iv -> length iv = 8%nat -> octets text -> text <> [] -> byte_source rnd ->
  exists padded P p v, x923_padded 8 text padded /\ in_blocks 8 padded P /\
    block_cipher c pem rnd aad (user_task (bc_id c) m Encrypt key iv text) = Done {| r_result := Success; r_out := Some p; r_iv := v |} /\
    p_out p = match m with
              | ECB => concat (spec_ecb E P)
              | CBC => iv ++ concat (spec_cbc E iv P)
              | OFB => iv ++ concat (spec_ofb E iv P)
              | _ => iv ++ concat (spec_ctr E iv P)
              end.
Theorem C105_tasks_partial : forall key, octets key -> (0 < length key <= 56)%nat -> Nat.modulo (length key) 4 = 0%nat -> task_is blowfish (Blowfish key) key.
Proof.
  intros key Hk HL Hm pem rnd aad m iv text Hmo Hi Li Ht Hn Hr.
  apply (task_same blowfish (Blowfish key) pem rnd aad m key iv text blowfish_lawful); try assumption; [cbn; lia| |].
  - split; [intros ->; cbn in HL; lia|]. split; [exact Hk|]. split; [intros [X|X]; discriminate X|]. exact (proj1 (blowfish_is key [] Hk HL Hm)).
  - intros x _ _. exact (proj2 (blowfish_is key x Hk HL Hm)).
Qed.
Print Assumptions C105_tasks_partial.

Example C105_example : octets (repeat 3 20) /\ (0 < length (repeat 3 20) <= 56)%nat /\ Nat.modulo (length (repeat 3 20)) 4 = 0%nat /\ octets [104; 105] /\ [104; 105] <> [].
Proof.
  split; [repeat (apply Forall_cons; [reflexivity|]); apply Forall_nil|]. split; [cbn; lia|]. split; [reflexivity|].
  split; [repeat (apply Forall_cons; [reflexivity|]); apply Forall_nil|discriminate].
Qed.
