(* Property C106: NOEKEON computes the published algorithm in both key modes, and whole tasks are the modes of SP 800-38A over it. *)
From Verif Require Import Words EncSpec TaskModel ModeModel ModeSpec CipherBase ModeProps NoekeonModel NoekeonProofs AesProofs3 NoekeonProofs2.
From Verif Require Import NoekeonSpec.
Open Scope N_scope.

Lemma noekeon_key : forall c key, c = noekeon \/ c = noekeon_d -> octets key -> length key = 16%nat -> acceptable_key c key.
Proof.
  intros c key Hc Hk L. split; [intros ->; discriminate L|]. split; [exact Hk|]. split; [lia|]. destruct Hc as [-> | ->]; reflexivity.
Qed.
Theorem C106_blocks : forall key block, octets key -> length key = 16%nat -> octets block -> length block = 16%nat ->
  (bc_enc noekeon key block = Indirect key block /\ bc_dec noekeon key (Indirect key block) = block) /\
  (bc_enc noekeon_d key block = Direct key block /\ bc_dec noekeon_d key (Direct key block) = block).
Proof.
  intros key block Hk L Hb Lb. split.
  - split; [exact (indirect_is key block L Hk Hb)|]. exact (decrypts noekeon key _ block noekeon_lawful (noekeon_key _ key (or_introl eq_refl) Hk L) Hb Lb (indirect_is key block L Hk Hb)).
  - split; [exact (direct_is key block L Hk Hb)|]. exact (decrypts noekeon_d key _ block noekeon_d_lawful (noekeon_key _ key (or_intror eq_refl) Hk L) Hb Lb (direct_is key block L Hk Hb)).
Qed.
Print Assumptions C106_blocks.

(* what a caller gets: the X9.23 padded text in the chosen mode over the published cipher E *)
Definition task_is (c : blockcipher) (E : list N -> list N) (key : list N) : Prop :=
  forall pem rnd aad m iv text, m = ECB \/ m = CBC \/ m = OFB \/ m = CTR ->
  octets iv -> length iv = 16%nat -> octets text -> text <> [] -> byte_source rnd ->
  exists padded P p v, x923_padded 16 text padded /\ in_blocks 16 padded P /\
    block_cipher c pem rnd aad (user_task (bc_id c) m Encrypt key iv text) = Done {| r_result := Success; r_out := Some p; r_iv := v |} /\
    p_out p = match m with
              | ECB => concat (spec_ecb E P)
              | CBC => iv ++ concat (spec_cbc E iv P)
              | OFB => iv ++ concat (spec_ofb E iv P)
              | _ => iv ++ concat (spec_ctr E iv P)
              end.
Theorem C106_tasks : forall key, octets key -> length key = 16%nat -> task_is noekeon (Indirect key) key /\ task_is noekeon_d (Direct key) key.
Proof.
  intros key Hk L. split; intros pem rnd aad m iv text Hm Hi Li Ht Hn Hr.
  - apply (task_same noekeon (Indirect key) pem rnd aad m key iv text noekeon_lawful); try assumption; [cbn; lia|exact (noekeon_key _ key (or_introl eq_refl) Hk L)|].
    intros x Hx _. exact (indirect_is key x L Hk Hx).
  - apply (task_same noekeon_d (Direct key) pem rnd aad m key iv text noekeon_d_lawful); try assumption; [cbn; lia|exact (noekeon_key _ key (or_intror eq_refl) Hk L)|].
    intros x Hx _. exact (direct_is key x L Hk Hx).
Qed.
Print Assumptions C106_tasks.

(* published vectors *)
Example C106_published :
  Indirect (repeat 0 16) (repeat 0 16) = be_bytes 16 0xBA6933819299C71699A99F08F678178B /\ Direct (repeat 0 16) (repeat 0 16) = be_bytes 16 0xB1656851699E29FA24B70148503D2DFC.
Proof.
  assert (octets (repeat 0 16)) as Z by (repeat (apply Forall_cons; [reflexivity|]); apply Forall_nil).
  split; [rewrite <- indirect_is|rewrite <- direct_is]; try exact Z; try reflexivity; vm_compute; reflexivity.
Qed.
Example C106_example : octets (repeat 255 16) /\ length (repeat 255 16) = 16%nat /\ octets [104; 105] /\ [104; 105] <> [].
Proof.
  split; [repeat (apply Forall_cons; [reflexivity|]); apply Forall_nil|]. split; [reflexivity|].
  split; [repeat (apply Forall_cons; [reflexivity|]); apply Forall_nil|discriminate].
Qed.
