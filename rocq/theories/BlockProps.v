(* Properties C16-C35: for every block cipher, decryption undoes encryption (and encryption undoes
   decryption) on every block, for every key the cipher accepts; hence every mode of operation returns
   the plaintext. Test vectors in BlockKat.v. *)
From Verif Require Import Words TaskModel ModeModel ModeSpec EncSpec CipherBase BlockSpec BlockLib ModeProps
  AesModel AesProofs BlowfishModel BlowfishProofs CamelliaModel CamelliaProofs Cast5Model Cast5Proofs DesModel DesProofs
  FealModel FealProofs GostModel GostProofs IdeaModel IdeaProofs MarsModel MarsProofs MistyModel MistyProofs
  NoekeonModel NoekeonProofs PresentModel PresentProofs RcModel RcProofs SaferModel SaferProofs SerpentModel SerpentProofs
  ShacalModel ShacalProofs TeaModel TeaProofs TwofishModel TwofishProofs BlockKat BlockPropsLib.
Open Scope N_scope.

(* ------------------------------------------------------------------ C16 AES *)
Theorem C16_aes_blocks : forall key, any_user_key key ->
  (bc_check aes128 key = Done Success /\
   inverse_permutations 16 (bc_enc aes128 key) (bc_dec aes128 key)) /\
  (bc_check aes192 key = Done Success /\
   inverse_permutations 16 (bc_enc aes192 key) (bc_dec aes192 key)) /\
  (bc_check aes256 key = Done Success /\
   inverse_permutations 16 (bc_enc aes256 key) (bc_dec aes256 key)).
Proof. intros key Hk. exact (conj (blocks_of_lawful aes128 key aes128_lawful (acc_any aes128 key Hk eq_refl ltac:(intros [X|X]; discriminate X))) (conj (blocks_of_lawful aes192 key aes192_lawful (acc_any aes192 key Hk eq_refl ltac:(intros [X|X]; discriminate X))) (blocks_of_lawful aes256 key aes256_lawful (acc_any aes256 key Hk eq_refl ltac:(intros [X|X]; discriminate X))))). Qed.
Print Assumptions C16_aes_blocks.
Theorem C16_aes_modes : every_mode_returns_the_plaintext aes128 /\ every_mode_returns_the_plaintext aes192 /\ every_mode_returns_the_plaintext aes256.
Proof. exact (conj (modes_of_lawful aes128 aes128_lawful) (conj (modes_of_lawful aes192 aes192_lawful) (modes_of_lawful aes256 aes256_lawful))). Qed.
Print Assumptions C16_aes_modes.
Theorem C16_aes_gcm : gcm_returns_the_plaintext aes128 /\ gcm_returns_the_plaintext aes192 /\ gcm_returns_the_plaintext aes256.
Proof. exact (conj (gcm_of_lawful aes128 aes128_lawful ltac:(split; [discriminate|reflexivity])) (conj (gcm_of_lawful aes192 aes192_lawful ltac:(split; [discriminate|reflexivity])) (gcm_of_lawful aes256 aes256_lawful ltac:(split; [discriminate|reflexivity])))). Qed.
Print Assumptions C16_aes_gcm.

(* ------------------------------------------------------------------ C17 DES, triple DES *)
(* Every key, the rejected weak keys included; a rejected key ends the task with the key error *)
Theorem C17_des_blocks : forall key, any_user_key key ->
  (bc_check des key = Done Success \/ bc_check des key = Done KeyError) /\
  inverse_permutations 8 (bc_enc des key) (bc_dec des key).
Proof. exact des_blocks. Qed.
Print Assumptions C17_des_blocks.
(* key, key2, key3 are the three DES keys; ede = false is the encrypt-encrypt-encrypt cipher *)
Theorem C17_triple_des_blocks : forall ede key key2 key3, any_user_key key -> any_user_key key2 -> any_user_key key3 ->
  (bc_check (triple_des ede key2 key3) key = Done Success \/ bc_check (triple_des ede key2 key3) key = Done KeyError) /\
  inverse_permutations 8 (bc_enc (triple_des ede key2 key3) key) (bc_dec (triple_des ede key2 key3) key).
Proof. exact triple_des_blocks. Qed.
Print Assumptions C17_triple_des_blocks.
(* triple DES is built from three DES passes: E-E-E or E-D-E *)
Theorem C17_triple_des_composition : forall key key2 key3 x,
  bc_enc (triple_des false key2 key3) key x = bc_enc des key3 (bc_enc des key2 (bc_enc des key x)) /\
  bc_enc (triple_des true key2 key3) key x = bc_enc des key3 (bc_dec des key2 (bc_enc des key x)).
Proof. intros. split; cbn [triple_des des bc_enc bc_dec]; reflexivity. Qed.
Theorem C17_des_modes : every_mode_returns_the_plaintext des.
Proof. exact (modes_of_lawful des des_lawful). Qed.
Theorem C17_triple_des_modes : forall ede key2 key3, every_mode_returns_the_plaintext (triple_des ede key2 key3).
Proof. intros. apply modes_of_lawful, triple_des_lawful. Qed.
Print Assumptions C17_triple_des_modes.
(* with the two last keys equal, E-D-E triple DES is single DES *)
Theorem C17_ede_degenerates : forall key k x, any_user_key key -> block 8 x ->
  bc_enc (triple_des true k k) key x = bc_enc des key x.
Proof. exact ede_degenerates. Qed.
Print Assumptions C17_ede_degenerates.
Example C17_case : any_user_key [1;2;3;4;5;6;7;8] /\ bc_check des [1;2;3;4;5;6;7;8] = Done Success /\
  block 8 [9;9;9;9;9;9;9;250].
Proof. repeat split; try discriminate; try (vm_compute; reflexivity); repeat constructor. Qed.

(* ------------------------------------------------------------------ C18 Blowfish *)
Theorem C18_blowfish_blocks : forall key, user_key 56 key ->
  (bc_check blowfish key = Done Success /\
   inverse_permutations 8 (bc_enc blowfish key) (bc_dec blowfish key)).
Proof. intros key Hk. exact (blocks_of_lawful blowfish key blowfish_lawful (acc_key blowfish key 56 Hk (fun H L => blowfish_defined key H L) ltac:(intros [X|X]; discriminate X))). Qed.
Print Assumptions C18_blowfish_blocks.
Theorem C18_blowfish_modes : every_mode_returns_the_plaintext blowfish.
Proof. exact (modes_of_lawful blowfish blowfish_lawful). Qed.
Print Assumptions C18_blowfish_modes.

(* ------------------------------------------------------------------ C19 TEA, XTEA *)
Theorem C19_tea_blocks : forall key, octets key -> length key = 16%nat ->
  bc_check tea key = Done Success /\ inverse_permutations 8 (bc_enc tea key) (bc_dec tea key).
Proof. exact tea_blocks. Qed.
Print Assumptions C19_tea_blocks.
Theorem C19_xtea_blocks : forall rounds key, octets key -> length key = 16%nat -> (1 <= rounds)%Z ->
  bc_check (xtea (Some rounds)) key = Done Success /\
  inverse_permutations 8 (bc_enc (xtea (Some rounds)) key) (bc_dec (xtea (Some rounds)) key).
Proof. exact xtea_blocks. Qed.
Print Assumptions C19_xtea_blocks.
Theorem C19_tea_modes : every_mode_returns_the_plaintext tea /\ forall rounds, every_mode_returns_the_plaintext (xtea rounds).
Proof. split; [apply modes_of_lawful, tea_lawful|intro; apply modes_of_lawful, xtea_lawful]. Qed.
Print Assumptions C19_tea_modes.

(* ------------------------------------------------------------------ C20 RC2 *)
(* t1: the effective key length in bits *)
Theorem C20_rc2_blocks : forall t1 key, user_key 128 key -> (1 <= t1 <= 1024)%Z ->
  bc_check (rc2 (Some t1)) key = Done Success /\
  inverse_permutations 8 (bc_enc (rc2 (Some t1)) key) (bc_dec (rc2 (Some t1)) key).
Proof. exact rc2_blocks. Qed.
Print Assumptions C20_rc2_blocks.
Theorem C20_rc2_modes : forall t1, every_mode_returns_the_plaintext (rc2 t1).
Proof. intro. apply modes_of_lawful, rc2_lawful. Qed.
Print Assumptions C20_rc2_modes.

(* ------------------------------------------------------------------ C21 RC5 *)
(* junk_e, junk_d: what the 800-word sub-key array holds before the key expansion when encrypting and when
   decrypting. The full statement quantifies over every accepted round count and key; it is proved for
   the keys that fit the sub-keys the rounds use, which every key does from 7 rounds on, and is false otherwise. *)
Theorem C21_rc5_blocks_partial : forall junk_e junk_d rounds key,
  length junk_e = 800%nat -> length junk_d = 800%nat ->
  user_key 64 key -> (1 <= rounds <= 398)%Z -> (Z.of_nat (length key) <= 4 * (2 * rounds + 2))%Z ->
  bc_check (rc5 junk_e junk_d (Some rounds)) key = Done Success /\
  inverse_permutations 8 (bc_enc (rc5 junk_e junk_d (Some rounds)) key) (bc_dec (rc5 junk_e junk_d (Some rounds)) key).
Proof. exact rc5_blocks. Qed.
Print Assumptions C21_rc5_blocks_partial.
(* 1 round and a 20-byte key: the key expansion reads sub-keys that were never written, so a block
   encrypted at a time when the stack held zeros does not decrypt when it holds something else *)
Theorem C21_rc5_uninitialised_subkeys_refuted : exists rounds key x,
  user_key 64 key /\ block 8 x /\
  (forall junk_e junk_d, bc_check (rc5 junk_e junk_d (Some rounds)) key = Done Success) /\
  exists junk_e junk_d, length junk_e = 800%nat /\ length junk_d = 800%nat /\
    bc_dec (rc5 junk_e junk_d (Some rounds)) key (bc_enc (rc5 junk_e junk_d (Some rounds)) key x) <> x.
Proof. exact rc5_uninitialised. Qed.
Print Assumptions C21_rc5_uninitialised_subkeys_refuted.
Theorem C21_rc5_modes : forall junk_e junk_d rounds, length junk_e = 800%nat -> length junk_d = 800%nat ->
  (7 <= rounds < 2 ^ 31)%Z -> every_mode_returns_the_plaintext (rc5 junk_e junk_d (Some rounds)).
Proof. intros. apply modes_of_lawful, rc5_lawful; assumption. Qed.
Print Assumptions C21_rc5_modes.

(* ------------------------------------------------------------------ C22 RC6 *)
Theorem C22_rc6_blocks : forall junk_e junk_d rounds key,
  length junk_e = 800%nat -> length junk_d = 800%nat -> (1 <= rounds <= 398)%Z ->
  (user_key 16 key ->
    bc_check (rc6_128 junk_e junk_d (Some rounds)) key = Done Success /\
    inverse_permutations 16 (bc_enc (rc6_128 junk_e junk_d (Some rounds)) key) (bc_dec (rc6_128 junk_e junk_d (Some rounds)) key)) /\
  (user_key 24 key ->
    bc_check (rc6_192 junk_e junk_d (Some rounds)) key = Done Success /\
    inverse_permutations 16 (bc_enc (rc6_192 junk_e junk_d (Some rounds)) key) (bc_dec (rc6_192 junk_e junk_d (Some rounds)) key)) /\
  (user_key 32 key ->
    bc_check (rc6_256 junk_e junk_d (Some rounds)) key = Done Success /\
    inverse_permutations 16 (bc_enc (rc6_256 junk_e junk_d (Some rounds)) key) (bc_dec (rc6_256 junk_e junk_d (Some rounds)) key)).
Proof. exact rc6_blocks. Qed.
Print Assumptions C22_rc6_blocks.
Theorem C22_rc6_modes : forall junk_e junk_d rounds, length junk_e = 800%nat -> length junk_d = 800%nat ->
  (- 2 ^ 31 <= rounds < 2 ^ 31)%Z ->
  Forall (fun c => every_mode_returns_the_plaintext c /\ gcm_returns_the_plaintext c)
    [rc6_128 junk_e junk_d (Some rounds); rc6_192 junk_e junk_d (Some rounds); rc6_256 junk_e junk_d (Some rounds)].
Proof. exact rc6_modes. Qed.
Print Assumptions C22_rc6_modes.

(* ------------------------------------------------------------------ C23 IDEA *)
Theorem C23_idea_blocks : forall key, any_user_key key ->
  (bc_check idea key = Done Success /\
   inverse_permutations 8 (bc_enc idea key) (bc_dec idea key)).
Proof. intros key Hk. exact (blocks_of_lawful idea key idea_lawful (acc_any idea key Hk eq_refl ltac:(intros [X|X]; discriminate X))). Qed.
Print Assumptions C23_idea_blocks.
Theorem C23_idea_modes : every_mode_returns_the_plaintext idea.
Proof. exact (modes_of_lawful idea idea_lawful). Qed.
Print Assumptions C23_idea_modes.

(* ------------------------------------------------------------------ C24 FEAL *)
Theorem C24_feal_blocks : forall rounds key, any_user_key key -> (1 <= rounds <= 792)%Z ->
  bc_check (feal (Some rounds)) key = Done Success /\
  inverse_permutations 8 (bc_enc (feal (Some rounds)) key) (bc_dec (feal (Some rounds)) key).
Proof. exact feal_blocks. Qed.
Print Assumptions C24_feal_blocks.
Theorem C24_feal_modes : forall rounds, every_mode_returns_the_plaintext (feal rounds).
Proof. intro. apply modes_of_lawful, feal_lawful. Qed.
Print Assumptions C24_feal_modes.

(* ------------------------------------------------------------------ C25 CAST5 *)
Theorem C25_cast5_blocks : forall key, any_user_key key ->
  (bc_check cast5 key = Done Success /\
   inverse_permutations 8 (bc_enc cast5 key) (bc_dec cast5 key)).
Proof. intros key Hk. exact (blocks_of_lawful cast5 key cast5_lawful (acc_any cast5 key Hk eq_refl ltac:(intros [X|X]; discriminate X))). Qed.
Print Assumptions C25_cast5_blocks.
Theorem C25_cast5_modes : every_mode_returns_the_plaintext cast5.
Proof. exact (modes_of_lawful cast5 cast5_lawful). Qed.
Print Assumptions C25_cast5_modes.

(* ------------------------------------------------------------------ C26 Camellia *)
Theorem C26_camellia_blocks : forall key, any_user_key key ->
  (bc_check camellia128 key = Done Success /\
   inverse_permutations 16 (bc_enc camellia128 key) (bc_dec camellia128 key)) /\
  (bc_check camellia192 key = Done Success /\
   inverse_permutations 16 (bc_enc camellia192 key) (bc_dec camellia192 key)) /\
  (bc_check camellia256 key = Done Success /\
   inverse_permutations 16 (bc_enc camellia256 key) (bc_dec camellia256 key)).
Proof. intros key Hk. exact (conj (blocks_of_lawful camellia128 key camellia128_lawful (acc_any camellia128 key Hk eq_refl ltac:(intros [X|X]; discriminate X))) (conj (blocks_of_lawful camellia192 key camellia192_lawful (acc_any camellia192 key Hk eq_refl ltac:(intros [X|X]; discriminate X))) (blocks_of_lawful camellia256 key camellia256_lawful (acc_any camellia256 key Hk eq_refl ltac:(intros [X|X]; discriminate X))))). Qed.
Print Assumptions C26_camellia_blocks.
Theorem C26_camellia_modes : every_mode_returns_the_plaintext camellia128 /\ every_mode_returns_the_plaintext camellia192 /\ every_mode_returns_the_plaintext camellia256.
Proof. exact (conj (modes_of_lawful camellia128 camellia128_lawful) (conj (modes_of_lawful camellia192 camellia192_lawful) (modes_of_lawful camellia256 camellia256_lawful))). Qed.
Print Assumptions C26_camellia_modes.
Theorem C26_camellia_gcm : gcm_returns_the_plaintext camellia128 /\ gcm_returns_the_plaintext camellia192 /\ gcm_returns_the_plaintext camellia256.
Proof. exact (conj (gcm_of_lawful camellia128 camellia128_lawful ltac:(split; [discriminate|reflexivity])) (conj (gcm_of_lawful camellia192 camellia192_lawful ltac:(split; [discriminate|reflexivity])) (gcm_of_lawful camellia256 camellia256_lawful ltac:(split; [discriminate|reflexivity])))). Qed.
Print Assumptions C26_camellia_gcm.

(* ------------------------------------------------------------------ C27 SAFER K-64 *)
Theorem C27_saferk64_blocks : forall rounds key, any_user_key key -> (1 <= rounds <= 13)%Z ->
  bc_check (saferk64 (Some rounds)) key = Done Success /\
  inverse_permutations 8 (bc_enc (saferk64 (Some rounds)) key) (bc_dec (saferk64 (Some rounds)) key).
Proof. exact saferk64_blocks. Qed.
Print Assumptions C27_saferk64_blocks.
Theorem C27_saferk64_modes : forall rounds, every_mode_returns_the_plaintext (saferk64 rounds).
Proof. intro. apply modes_of_lawful, saferk64_lawful. Qed.
Print Assumptions C27_saferk64_modes.

(* ------------------------------------------------------------------ C28 Serpent *)
Theorem C28_serpent_blocks : forall key, user_key 32 key ->
  (bc_check serpent key = Done Success /\
   inverse_permutations 16 (bc_enc serpent key) (bc_dec serpent key)).
Proof. intros key Hk. exact (blocks_of_lawful serpent key serpent_lawful (acc_key serpent key 32 Hk (fun H L => serpent_defined key L) ltac:(intros [X|X]; discriminate X))). Qed.
Print Assumptions C28_serpent_blocks.
Theorem C28_serpent_modes : every_mode_returns_the_plaintext serpent.
Proof. exact (modes_of_lawful serpent serpent_lawful). Qed.
Print Assumptions C28_serpent_modes.
Theorem C28_serpent_gcm : gcm_returns_the_plaintext serpent.
Proof. exact (gcm_of_lawful serpent serpent_lawful ltac:(split; [discriminate|reflexivity])). Qed.
Print Assumptions C28_serpent_gcm.

(* ------------------------------------------------------------------ C29 MISTY1 *)
Theorem C29_misty1_blocks : forall key, any_user_key key ->
  (bc_check misty1 key = Done Success /\
   inverse_permutations 8 (bc_enc misty1 key) (bc_dec misty1 key)).
Proof. intros key Hk. exact (blocks_of_lawful misty1 key misty1_lawful (acc_any misty1 key Hk eq_refl ltac:(intros [X|X]; discriminate X))). Qed.
Print Assumptions C29_misty1_blocks.
Theorem C29_misty1_modes : every_mode_returns_the_plaintext misty1.
Proof. exact (modes_of_lawful misty1 misty1_lawful). Qed.
Print Assumptions C29_misty1_modes.

(* ------------------------------------------------------------------ C30 MARS *)
Theorem C30_mars_blocks : forall key, user_key 32 key ->
  (bc_check mars128 key = Done Success /\
   inverse_permutations 16 (bc_enc mars128 key) (bc_dec mars128 key)) /\
  (bc_check mars192 key = Done Success /\
   inverse_permutations 16 (bc_enc mars192 key) (bc_dec mars192 key)) /\
  (bc_check mars256 key = Done Success /\
   inverse_permutations 16 (bc_enc mars256 key) (bc_dec mars256 key)).
Proof. intros key Hk. exact (conj (blocks_of_lawful mars128 key mars128_lawful (acc_key mars128 key 32 Hk (fun H L => mars_defined _ _ key L) ltac:(intros [X|X]; discriminate X))) (conj (blocks_of_lawful mars192 key mars192_lawful (acc_key mars192 key 32 Hk (fun H L => mars_defined _ _ key L) ltac:(intros [X|X]; discriminate X))) (blocks_of_lawful mars256 key mars256_lawful (acc_key mars256 key 32 Hk (fun H L => mars_defined _ _ key L) ltac:(intros [X|X]; discriminate X))))). Qed.
Print Assumptions C30_mars_blocks.
Theorem C30_mars_modes : every_mode_returns_the_plaintext mars128 /\ every_mode_returns_the_plaintext mars192 /\ every_mode_returns_the_plaintext mars256.
Proof. exact (conj (modes_of_lawful mars128 mars128_lawful) (conj (modes_of_lawful mars192 mars192_lawful) (modes_of_lawful mars256 mars256_lawful))). Qed.
Print Assumptions C30_mars_modes.
Theorem C30_mars_gcm : gcm_returns_the_plaintext mars128 /\ gcm_returns_the_plaintext mars192 /\ gcm_returns_the_plaintext mars256.
Proof. exact (conj (gcm_of_lawful mars128 mars128_lawful ltac:(split; [discriminate|reflexivity])) (conj (gcm_of_lawful mars192 mars192_lawful ltac:(split; [discriminate|reflexivity])) (gcm_of_lawful mars256 mars256_lawful ltac:(split; [discriminate|reflexivity])))). Qed.
Print Assumptions C30_mars_gcm.

(* ------------------------------------------------------------------ C31 PRESENT *)
Theorem C31_present_blocks : forall key, user_key 128 key ->
  (bc_check present80 key = Done Success /\
   inverse_permutations 8 (bc_enc present80 key) (bc_dec present80 key)) /\
  (bc_check present128 key = Done Success /\
   inverse_permutations 8 (bc_enc present128 key) (bc_dec present128 key)).
Proof. intros key Hk. exact (conj (blocks_of_lawful present80 key present80_lawful (acc_key present80 key 128 Hk (fun H L => present_defined _ key L) ltac:(intros [X|X]; discriminate X))) (blocks_of_lawful present128 key present128_lawful (acc_key present128 key 128 Hk (fun H L => present_defined _ key L) ltac:(intros [X|X]; discriminate X)))). Qed.
Print Assumptions C31_present_blocks.
Theorem C31_present_modes : every_mode_returns_the_plaintext present80 /\ every_mode_returns_the_plaintext present128.
Proof. exact (conj (modes_of_lawful present80 present80_lawful) (modes_of_lawful present128 present128_lawful)). Qed.
Print Assumptions C31_present_modes.

(* ------------------------------------------------------------------ C32 SHACAL *)
Theorem C32_shacal_blocks : forall key, any_user_key key ->
  (bc_check shacal1 key = Done Success /\ inverse_permutations 20 (bc_enc shacal1 key) (bc_dec shacal1 key)) /\
  (bc_check shacal2 key = Done Success /\ inverse_permutations 32 (bc_enc shacal2 key) (bc_dec shacal2 key)).
Proof.
  intros key Hk. split; [exact (blocks_of_lawful shacal1 key shacal1_lawful (acc_any shacal1 key Hk eq_refl ltac:(intros [X|X]; discriminate X)))|
    exact (blocks_of_lawful shacal2 key shacal2_lawful (acc_any shacal2 key Hk eq_refl ltac:(intros [X|X]; discriminate X)))].
Qed.
Print Assumptions C32_shacal_blocks.
Theorem C32_shacal_modes : every_mode_returns_the_plaintext shacal1 /\ every_mode_returns_the_plaintext shacal2.
Proof. exact (conj (modes_of_lawful _ shacal1_lawful) (modes_of_lawful _ shacal2_lawful)). Qed.
Print Assumptions C32_shacal_modes.

(* ------------------------------------------------------------------ C33 NOEKEON *)
Theorem C33_noekeon_blocks : forall key, user_key 16 key ->
  (bc_check noekeon key = Done Success /\
   inverse_permutations 16 (bc_enc noekeon key) (bc_dec noekeon key)) /\
  (bc_check noekeon_d key = Done Success /\
   inverse_permutations 16 (bc_enc noekeon_d key) (bc_dec noekeon_d key)).
Proof. intros key Hk. exact (conj (blocks_of_lawful noekeon key noekeon_lawful (acc_noekeon noekeon key Hk eq_refl)) (blocks_of_lawful noekeon_d key noekeon_d_lawful (acc_noekeon noekeon_d key Hk eq_refl))). Qed.
Print Assumptions C33_noekeon_blocks.
Theorem C33_noekeon_modes : every_mode_returns_the_plaintext noekeon /\ every_mode_returns_the_plaintext noekeon_d.
Proof. exact (conj (modes_of_lawful noekeon noekeon_lawful) (modes_of_lawful noekeon_d noekeon_d_lawful)). Qed.
Print Assumptions C33_noekeon_modes.
Theorem C33_noekeon_gcm : gcm_returns_the_plaintext noekeon /\ gcm_returns_the_plaintext noekeon_d.
Proof. exact (conj (gcm_of_lawful noekeon noekeon_lawful ltac:(split; [discriminate|reflexivity])) (gcm_of_lawful noekeon_d noekeon_d_lawful ltac:(split; [discriminate|reflexivity]))). Qed.
Print Assumptions C33_noekeon_gcm.

(* ------------------------------------------------------------------ C34 GOST 28147-89 *)
(* gost takes the eight s-boxes from the caller: any eight 16-byte strings *)
Theorem C34_gost_blocks : forall sboxes key, any_user_key key -> length sboxes = 8%nat -> Forall (block 16) sboxes ->
  (bc_check gost_ds key = Done Success /\ inverse_permutations 8 (bc_enc gost_ds key) (bc_dec gost_ds key)) /\
  (bc_check (gost (map Some sboxes)) key = Done Success /\
   inverse_permutations 8 (bc_enc (gost (map Some sboxes)) key) (bc_dec (gost (map Some sboxes)) key)).
Proof. exact gost_blocks. Qed.
Print Assumptions C34_gost_blocks.
Theorem C34_gost_modes : every_mode_returns_the_plaintext gost_ds /\
  forall sboxes, length sboxes = 8%nat -> Forall (block 16) sboxes -> every_mode_returns_the_plaintext (gost (map Some sboxes)).
Proof. exact gost_modes. Qed.
Print Assumptions C34_gost_modes.

(* ------------------------------------------------------------------ C35 Twofish *)
Theorem C35_twofish_blocks : forall key, any_user_key key ->
  (bc_check twofish128 key = Done Success /\
   inverse_permutations 16 (bc_enc twofish128 key) (bc_dec twofish128 key)) /\
  (bc_check twofish192 key = Done Success /\
   inverse_permutations 16 (bc_enc twofish192 key) (bc_dec twofish192 key)) /\
  (bc_check twofish256 key = Done Success /\
   inverse_permutations 16 (bc_enc twofish256 key) (bc_dec twofish256 key)).
Proof. intros key Hk. exact (conj (blocks_of_lawful twofish128 key twofish128_lawful (acc_any twofish128 key Hk eq_refl ltac:(intros [X|X]; discriminate X))) (conj (blocks_of_lawful twofish192 key twofish192_lawful (acc_any twofish192 key Hk eq_refl ltac:(intros [X|X]; discriminate X))) (blocks_of_lawful twofish256 key twofish256_lawful (acc_any twofish256 key Hk eq_refl ltac:(intros [X|X]; discriminate X))))). Qed.
Print Assumptions C35_twofish_blocks.
Theorem C35_twofish_modes : every_mode_returns_the_plaintext twofish128 /\ every_mode_returns_the_plaintext twofish192 /\ every_mode_returns_the_plaintext twofish256.
Proof. exact (conj (modes_of_lawful twofish128 twofish128_lawful) (conj (modes_of_lawful twofish192 twofish192_lawful) (modes_of_lawful twofish256 twofish256_lawful))). Qed.
Print Assumptions C35_twofish_modes.
Theorem C35_twofish_gcm : gcm_returns_the_plaintext twofish128 /\ gcm_returns_the_plaintext twofish192 /\ gcm_returns_the_plaintext twofish256.
Proof. exact (conj (gcm_of_lawful twofish128 twofish128_lawful ltac:(split; [discriminate|reflexivity])) (conj (gcm_of_lawful twofish192 twofish192_lawful ltac:(split; [discriminate|reflexivity])) (gcm_of_lawful twofish256 twofish256_lawful ltac:(split; [discriminate|reflexivity])))). Qed.
Print Assumptions C35_twofish_gcm.

(* the hypotheses are met: keys and blocks of the test vectors *)
Example block_keys_case : any_user_key [0x2b; 0x7e; 0x15] /\ user_key 16 [0x2b; 0x7e; 0x15] /\ user_key 128 (repeat 0xff 128) /\
  block 16 (repeat 0xa5 16) /\ Forall (block 16) (repeat (repeat 15 16) 8).
Proof.
  assert (forall n b, b < 256 -> octets (repeat b n)) as H.
  { intros n b Hb. unfold octets. apply Forall_forall. intros x Hx. apply repeat_spec in Hx. subst. exact Hb. }
  repeat split; try discriminate; try (repeat constructor; fail); try (apply H; reflexivity); try reflexivity; try (cbn; lia).
Qed.
