(* Property C103: the PRESENT ciphers compute the algorithm of the paper, and whole tasks are the modes of SP 800-38A over it. *)
From Verif Require Import Words EncSpec TaskModel ModeModel ModeSpec CipherBase ModeProps PresentModel PresentProofs AesProofs3 PresentProofs2.
From Verif Require Import PresentSpec.
Open Scope N_scope.

Theorem C103_blocks : forall key block, octets key -> octets block -> length block = 8%nat ->
  (length key = 10%nat -> bc_enc present80 key block = PRESENT80 key block /\ bc_dec present80 key (PRESENT80 key block) = block) /\
  (length key = 16%nat -> bc_enc present128 key block = PRESENT128 key block /\ bc_dec present128 key (PRESENT128 key block) = block).
Proof.
  intros key block Hk Hb Lb. split; intro L.
  - assert (bc_check present80 key = Done Success) as C by (etransitivity; [apply present_check|rewrite L; reflexivity]).
    split; [exact (present80_is key block L Hk Lb)|]. exact (decrypts present80 key _ block present80_lawful (@fips_key present80 key _ L C ltac:(intros [X|X]; discriminate X) Hk) Hb Lb (present80_is key block L Hk Lb)).
  - assert (bc_check present128 key = Done Success) as C by (etransitivity; [apply present_check|rewrite L; reflexivity]).
    split; [exact (present128_is key block L Hk Lb)|]. exact (decrypts present128 key _ block present128_lawful (@fips_key present128 key _ L C ltac:(intros [X|X]; discriminate X) Hk) Hb Lb (present128_is key block L Hk Lb)).
Qed.
Print Assumptions C103_blocks.

(* what a caller gets: the X9.23 padded text in the chosen mode over the published cipher E *)
Definition task_is (c : blockcipher) (E : list N -> list N) (key : list N) : Prop :=
  forall pem rnd aad m iv text, m = ECB \/ m = CBC \/ m = OFB \/ m = CTR ->
  octets iv -> length iv = 8%nat -> octets text -> text <> [] -> byte_source rnd ->
  exists padded P p v, x923_padded 8 text padded /\ in_blocks 8 padded P /\
    block_cipher c pem rnd aad (user_task (bc_id c) m Encrypt key iv text) = Done {| r_result := Success; r_out := Some p; r_iv := v |} /\
    p_out p = match m with
              | ECB => concat (spec_ecb E P)
              | CBC => iv ++ concat (spec_cbc E iv P)
              | OFB => iv ++ concat (spec_ofb E iv P)
              | _ => iv ++ concat (spec_ctr E iv P)
              end.
Theorem C103_tasks : forall key, octets key ->
  (length key = 10%nat -> task_is present80 (PRESENT80 key) key) /\ (length key = 16%nat -> task_is present128 (PRESENT128 key) key).
Proof.
  intros key Hk. split; intros L pem rnd aad m iv text Hm Hi Li Ht Hn Hr.
  - apply (task_same present80 (PRESENT80 key) pem rnd aad m key iv text present80_lawful); try assumption; [cbn; lia| |].
    + refine (@fips_key present80 key _ L _ ltac:(intros [X|X]; discriminate X) Hk). etransitivity; [apply present_check|rewrite L; reflexivity].
    + intros x _ Lx. exact (present80_is key x L Hk Lx).
  - apply (task_same present128 (PRESENT128 key) pem rnd aad m key iv text present128_lawful); try assumption; [cbn; lia| |].
    + refine (@fips_key present128 key _ L _ ltac:(intros [X|X]; discriminate X) Hk). etransitivity; [apply present_check|rewrite L; reflexivity].
    + intros x _ Lx. exact (present128_is key x L Hk Lx).
Qed.
Print Assumptions C103_tasks.

(* a vector of the paper's appendix, and a concrete task input *)
Example C103_published : PRESENT80 (repeat 0 10) (repeat 0 8) = be_bytes 8 0x5579C1387B228445.
Proof. rewrite <- present80_is; [vm_compute; reflexivity|reflexivity| |reflexivity]. repeat (apply Forall_cons; [reflexivity|]). apply Forall_nil. Qed.
Example C103_example : octets (repeat 255 16) /\ length (repeat 255 16) = 16%nat /\ length (repeat 255 10) = 10%nat /\ octets [104; 105] /\ [104; 105] <> [].
Proof.
  split; [repeat (apply Forall_cons; [reflexivity|]); apply Forall_nil|]. split; [reflexivity|]. split; [reflexivity|].
  split; [repeat (apply Forall_cons; [reflexivity|]); apply Forall_nil|discriminate].
Qed.
