(* Property C101: the AES ciphers compute the cipher of FIPS 197, and whole tasks are the modes of SP 800-38A over it. *)
From Verif Require Import Words EncSpec TaskModel ModeModel ModeSpec CipherBase ModeProps AesModel AesProofs AesProofs2 AesProofs3.
From Verif Require Import AesSpec.
Open Scope N_scope.

(* the field inverse used by the specification is one *)
Theorem C101_field_inverse : forall x, 0 < x < 256 -> gmul x (ginv x) = 1.
Proof. exact ginv_inverse. Qed.
Print Assumptions C101_field_inverse.

Theorem C101_aes_is_fips197 : forall key block, octets key -> octets block -> length block = 16%nat ->
  (length key = 16%nat -> bc_enc aes128 key block = AesSpec.AES128 key block) /\
  (length key = 24%nat -> bc_enc aes192 key block = AesSpec.AES192 key block) /\
  (length key = 32%nat -> bc_enc aes256 key block = AesSpec.AES256 key block).
Proof.
  intros key block Hk Hb Hl. split; [|split]; intro L.
  - exact (aes128_is key block L Hk Hl Hb).
  - exact (aes192_is key block L Hk Hl Hb).
  - exact (aes256_is key block L Hk Hl Hb).
Qed.
Print Assumptions C101_aes_is_fips197.

(* decryption returns the block a FIPS 197 encryption came from *)
Theorem C101_aes_decrypts_fips197 : forall key block, octets key -> octets block -> length block = 16%nat ->
  (length key = 16%nat -> bc_dec aes128 key (AesSpec.AES128 key block) = block) /\
  (length key = 24%nat -> bc_dec aes192 key (AesSpec.AES192 key block) = block) /\
  (length key = 32%nat -> bc_dec aes256 key (AesSpec.AES256 key block) = block).
Proof.
  intros key block Hk Hb Hl. split; [|split]; intro L.
  - exact (decrypts aes128 key _ block aes128_lawful (@fips_key aes128 key _ L eq_refl ltac:(intros [X|X]; discriminate X) Hk) Hb Hl (aes128_is key block L Hk Hl Hb)).
  - exact (decrypts aes192 key _ block aes192_lawful (@fips_key aes192 key _ L eq_refl ltac:(intros [X|X]; discriminate X) Hk) Hb Hl (aes192_is key block L Hk Hl Hb)).
  - exact (decrypts aes256 key _ block aes256_lawful (@fips_key aes256 key _ L eq_refl ltac:(intros [X|X]; discriminate X) Hk) Hb Hl (aes256_is key block L Hk Hl Hb)).
Qed.
Print Assumptions C101_aes_decrypts_fips197.

(* what a caller gets: the X9.23 padded text in the chosen mode, under FIPS 197 AES with the caller's key *)
Definition task_is (c : blockcipher) (E : list N -> list N) (key : list N) : Prop :=
  forall pem rnd aad m iv text, m = ECB \/ m = CBC \/ m = OFB \/ m = CTR ->
  octets iv -> length iv = 16%nat -> octets text -> text <> [] -> byte_source rnd ->
  exists padded P p v, x923_padded 16 text padded /\ in_blocks 16 padded P /\
    block_cipher c pem rnd aad (user_task (bc_id c) m Encrypt key iv text) = Done {| r_result := Success; r_out := Some p; r_iv := v |} /\
    p_out p = match m with
              | ECB => concat (spec_ecb E P)
              | CBC => iv ++ concat (spec_cbc E iv P)
              | OFB => iv ++ concat (spec_ofb E iv P)
              | _ => iv ++ concat (spec_ctr E iv P)
              end.
Theorem C101_aes_tasks : forall key, octets key ->
  (length key = 16%nat -> task_is aes128 (AesSpec.AES128 key) key) /\
  (length key = 24%nat -> task_is aes192 (AesSpec.AES192 key) key) /\
  (length key = 32%nat -> task_is aes256 (AesSpec.AES256 key) key).
Proof.
  intros key Hk.
  split; [|split]; intros L pem rnd aad m iv text Hm Hi Li Ht Hn Hr.
  - apply (task_same aes128 (AesSpec.AES128 key) pem rnd aad m key iv text aes128_lawful); try assumption; [cbn; lia| |].
    + exact (@fips_key aes128 key _ L eq_refl ltac:(intros [X|X]; discriminate X) Hk).
    + intros x Hx Lx. exact (aes128_is key x L Hk Lx Hx).
  - apply (task_same aes192 (AesSpec.AES192 key) pem rnd aad m key iv text aes192_lawful); try assumption; [cbn; lia| |].
    + exact (@fips_key aes192 key _ L eq_refl ltac:(intros [X|X]; discriminate X) Hk).
    + intros x Hx Lx. exact (aes192_is key x L Hk Lx Hx).
  - apply (task_same aes256 (AesSpec.AES256 key) pem rnd aad m key iv text aes256_lawful); try assumption; [cbn; lia| |].
    + exact (@fips_key aes256 key _ L eq_refl ltac:(intros [X|X]; discriminate X) Hk).
    + intros x Hx Lx. exact (aes256_is key x L Hk Lx Hx).
Qed.
Print Assumptions C101_aes_tasks.

(* FIPS 197 appendix C: the specification itself, on the published vectors *)
Definition pt : list N := map (fun i => N.of_nat i * 17) (seq 0 16).
Definition ky (n : nat) : list N := map N.of_nat (seq 0 n).
Example C101_published :
  AesSpec.AES128 (ky 16) pt = be_bytes 16 0x69c4e0d86a7b0430d8cdb78070b4c55a /\
  AesSpec.AES192 (ky 24) pt = be_bytes 16 0xdda97ca4864cdfe06eaf70a0ec0d7191 /\
  AesSpec.AES256 (ky 32) pt = be_bytes 16 0x8ea2b7ca516745bfeafc49904b496089.
Proof. vm_compute. repeat split. Qed.
Example C101_example : octets (ky 16) /\ octets (ky 24) /\ octets (ky 32) /\ octets pt /\ length pt = 16%nat /\
  bc_dec aes256 (ky 32) (be_bytes 16 0x8ea2b7ca516745bfeafc49904b496089) = pt.
Proof.
  repeat (split; [repeat (apply Forall_cons; [reflexivity|]); apply Forall_nil || reflexivity|]).
  vm_compute. reflexivity.
Qed.
