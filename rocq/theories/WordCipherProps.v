(* Property C102: the TEA, XTEA and IDEA ciphers compute the published algorithms, and whole tasks are the modes of SP 800-38A over them. *)
From Verif Require Import Words EncSpec TaskModel ModeModel ModeSpec CipherBase ModeProps TeaModel TeaProofs IdeaModel IdeaProofs WordCipherProofs AesProofs3.
From Verif Require Import WordCipherSpec.
Open Scope N_scope.

Theorem C102_blocks : forall key block, octets key -> length key = 16%nat -> octets block -> length block = 8%nat ->
  (bc_enc tea key block = WordCipherSpec.TEA key block /\ bc_dec tea key (WordCipherSpec.TEA key block) = block) /\
  (forall rounds, (0 < rounds < 2 ^ 31)%Z ->
     bc_enc (xtea (Some rounds)) key block = WordCipherSpec.XTEA (Z.to_nat rounds) key block /\
     bc_dec (xtea (Some rounds)) key (WordCipherSpec.XTEA (Z.to_nat rounds) key block) = block) /\
  (bc_enc idea key block = WordCipherSpec.IDEA key block /\ bc_dec idea key (WordCipherSpec.IDEA key block) = block).
Proof.
  intros key block Hk L Hb Lb.
  assert (bc_check tea key = Done Success) as Ct by (unfold tea; cbn [bc_check]; rewrite L; reflexivity).
  split; [|split].
  - split; [apply tea_is|]. exact (decrypts tea key _ block tea_lawful (@fips_key tea key _ L Ct ltac:(intros [X|X]; discriminate X) Hk) Hb Lb (tea_is key block)).
  - intros r Hr.
    assert (bc_check (xtea (Some r)) key = Done Success) as Cx.
    { unfold xtea. cbn [bc_check]. rewrite L. cbn [Nat.eqb negb]. rewrite (proj2 (Z.leb_gt r 0)) by lia. reflexivity. }
    split; [apply xtea_is|]. exact (decrypts (xtea (Some r)) key _ block (xtea_lawful (Some r)) (@fips_key (xtea (Some r)) key _ L Cx ltac:(intros [X|X]; discriminate X) Hk) Hb Lb (xtea_is r key block)).
  - split; [exact (idea_is key block L Hk Lb Hb)|]. exact (decrypts idea key _ block idea_lawful (@fips_key idea key _ L eq_refl ltac:(intros [X|X]; discriminate X) Hk) Hb Lb (idea_is key block L Hk Lb Hb)).
Qed.
Print Assumptions C102_blocks.

(* what a caller gets: the X9.23 padded text in the chosen mode over the published cipher E *)
Definition task_is (c : blockcipher) (E : list N -> list N) (key : list N) : Prop :=
  forall pem rnd aad m iv text, m = ECB \/ m = CBC \/ m = OFB \/ m = CTR ->
  octets iv -> length iv = 8%nat -> octets text -> text <> [] -> byte_source rnd ->
  exists padded P p v, x923_padded 8 text padded /\ in_blocks 8 padded P /\
    block_cipher c pem rnd aad (user_task (bc_id c) m Encrypt key iv text) = Done {| r_result := Success; r_out := Some p; r_iv := v |} /\
    p_out p = match m with
              | ECB => concat (spec_ecb E P)
              | CBC => iv ++ concat (spec_cbc E iv P)
              | OFB => iv ++ concat (spec_ofb E iv P)
              | _ => iv ++ concat (spec_ctr E iv P)
              end.
Theorem C102_tasks : forall key, octets key -> length key = 16%nat ->
  task_is tea (WordCipherSpec.TEA key) key /\
  (forall rounds, (0 < rounds < 2 ^ 31)%Z -> task_is (xtea (Some rounds)) (WordCipherSpec.XTEA (Z.to_nat rounds) key) key) /\
  task_is idea (WordCipherSpec.IDEA key) key.
Proof.
  intros key Hk L. split; [|split].
  - intros pem rnd aad m iv text Hm Hi Li Ht Hn Hr.
    apply (task_same tea (WordCipherSpec.TEA key) pem rnd aad m key iv text tea_lawful); try assumption; [cbn; lia| |].
    + refine (@fips_key tea key _ L _ ltac:(intros [X|X]; discriminate X) Hk). unfold tea. cbn [bc_check]. rewrite L. reflexivity.
    + intros x _ _. apply tea_is.
  - intros r Hr pem rnd aad m iv text Hm Hi Li Ht Hn Hrnd.
    apply (task_same (xtea (Some r)) (WordCipherSpec.XTEA (Z.to_nat r) key) pem rnd aad m key iv text (xtea_lawful (Some r))); try assumption; [cbn; lia| |].
    + refine (@fips_key (xtea (Some r)) key _ L _ ltac:(intros [X|X]; discriminate X) Hk). unfold xtea. cbn [bc_check]. rewrite L. cbn [Nat.eqb negb]. rewrite (proj2 (Z.leb_gt r 0)) by lia. reflexivity.
    + intros x _ _. apply xtea_is.
  - intros pem rnd aad m iv text Hm Hi Li Ht Hn Hr.
    apply (task_same idea (WordCipherSpec.IDEA key) pem rnd aad m key iv text idea_lawful); try assumption; [cbn; lia| |].
    + exact (@fips_key idea key _ L eq_refl ltac:(intros [X|X]; discriminate X) Hk).
    + intros x Hx Lx. exact (idea_is key x L Hk Lx Hx).
Qed.
Print Assumptions C102_tasks.

(* the constant is the published one, the integer part of (sqrt 5 - 1) 2^31 *)
Theorem C102_delta : (delta + 2 ^ 31) ^ 2 <= 5 * (2 ^ 31) ^ 2 < (delta + 2 ^ 31 + 1) ^ 2.
Proof. vm_compute. split; [discriminate|reflexivity]. Qed.
Print Assumptions C102_delta.

(* published vectors *)
Example C102_published :
  WordCipherSpec.TEA (repeat 0 16) (repeat 0 8) = be_bytes 8 0x41EA3A0A94BAA940 /\
  WordCipherSpec.XTEA 32 (repeat 0 16) (repeat 0 8) = be_bytes 8 0xDEE9D4D8F7131ED9 /\
  WordCipherSpec.IDEA (be_bytes 16 0x00010002000300040005000600070008) (be_bytes 8 0x0000000100020003) = be_bytes 8 0x11FBED2B01986DE5.
Proof.
  split; [vm_compute; reflexivity|]. split; [vm_compute; reflexivity|].
  rewrite <- idea_is by (reflexivity || apply be_bytes_bytes). vm_compute. reflexivity.
Qed.
Example C102_example : octets (repeat 0 16) /\ length (repeat 0 16) = 16%nat /\ octets (repeat 0 8) /\ length (repeat 0 8) = 8%nat /\
  bc_dec idea (be_bytes 16 0x00010002000300040005000600070008) (be_bytes 8 0x11FBED2B01986DE5) = be_bytes 8 0x0000000100020003.
Proof.
  split; [repeat (apply Forall_cons; [reflexivity|]); apply Forall_nil|]. split; [reflexivity|].
  split; [repeat (apply Forall_cons; [reflexivity|]); apply Forall_nil|]. split; [reflexivity|]. vm_compute. reflexivity.
Qed.
