(* From lawful ciphers to the statements of BlockProps.v *)
From Verif Require Import Words TaskModel ModeModel ModeSpec EncSpec CipherBase CipherLib BlockSpec BlockLib ModeProps
  BlowfishModel BlowfishProofs DesModel DesProofs FealModel FealProofs GostModel GostProofs
  PresentModel PresentProofs RcModel RcProofs SaferModel SaferProofs TeaModel TeaProofs.
Open Scope N_scope.

(* ECB, CBC, OFB and CTR: decrypting what was encrypted gives the plaintext back *)
Definition every_mode_returns_the_plaintext (c : blockcipher) : Prop :=
  mode_round_trip c ECB /\ mode_round_trip c CBC /\ mode_round_trip c OFB /\ mode_round_trip c CTR.
(* GCM likewise, under the same AAD *)
Definition gcm_returns_the_plaintext (c : blockcipher) : Prop :=
  forall pem rnd rnd2 aad key iv iv2 text,
  acceptable_key c key -> octets iv -> length iv = 16%nat -> octets iv2 -> length iv2 = 16%nat ->
  octets aad -> octets text -> text <> [] -> byte_source rnd -> byte_source rnd2 ->
  N.of_nat (length text) + 256 < W64 ->
  exists p q iv' iv2',
    block_cipher c pem rnd aad (user_task (bc_id c) GCM Encrypt key iv text) =
      Done {| r_result := Success; r_out := Some p; r_iv := iv' |} /\
    block_cipher c pem rnd2 aad (user_task (bc_id c) GCM Decrypt key iv2 (p_out p)) =
      Done {| r_result := Success; r_out := Some q; r_iv := iv2' |} /\
    plaintext q = text /\ p_out_size q = N.of_nat (length text).

Lemma modes_of_lawful : forall c, lawful c -> every_mode_returns_the_plaintext c.
Proof.
  intros c H. split; [apply C08_ecb_round_trip, H|]. split; [apply C09_cbc_round_trip, H|].
  split; [apply C10_ofb_round_trip, H|apply C11_ctr_round_trip, H].
Qed.
Lemma gcm_of_lawful : forall c, lawful c -> supports_gcm c -> gcm_returns_the_plaintext c.
Proof.
  intros c H Hg pem rnd rnd2 aad key iv iv2 text H1 H2 H3 H4 H5 H6 H7 H8 H9 H10 H11.
  destruct (C12_gcm_round_trip c pem rnd rnd2 aad key iv iv2 text H Hg H1 H2 H3 H4 H5 H6 H7 H8 H9 H10 H11)
    as (p & q & i & i2 & A & _ & B & C & D).
  exists p, q, i, i2. auto.
Qed.
Lemma blocks_of_lawful : forall c key, lawful c -> acceptable_key c key ->
  bc_check c key = Done Success /\ inverse_permutations (bc_bs c) (bc_enc c key) (bc_dec c key).
Proof.
  intros c key (_ & _ & _ & H) Hk. split; [apply Hk|]. apply left_inverse_two_sided, H, Hk.
Qed.
Lemma acc_any : forall c key, any_user_key key -> bc_check c key = Done Success ->
  ~ (bc_id c = NOEKEON \/ bc_id c = NOEKEOND) -> acceptable_key c key.
Proof. intros c key [H1 H2] Hc Hn. split; [exact H1|]. split; [exact H2|]. split; [intro H; contradiction|exact Hc]. Qed.
Lemma acc_key : forall c key n, user_key n key -> (bytes key -> (length key <= n)%nat -> bc_check c key = Done Success) ->
  ~ (bc_id c = NOEKEON \/ bc_id c = NOEKEOND) -> acceptable_key c key.
Proof. intros c key n (H1 & H2 & H3) Hc Hn. apply acc_any; [split; assumption|apply Hc; assumption|exact Hn]. Qed.
Lemma acc_noekeon : forall c key, user_key 16 key -> bc_check c key = Done Success -> acceptable_key c key.
Proof. intros c key (H1 & H2 & H3) Hc. split; [exact H1|]. split; [exact H2|]. split; [intros _; exact H3|exact Hc]. Qed.
Lemma present_defined : forall lw key, (length key <= 128)%nat -> bc_check (present lw) key = Done Success.
Proof. intros lw key H. rewrite present_check. destruct (Nat.ltb_spec 128 (length key)); [lia|reflexivity]. Qed.

Lemma des_blocks : forall key, any_user_key key ->
  (bc_check des key = Done Success \/ bc_check des key = Done KeyError) /\
  inverse_permutations 8 (bc_enc des key) (bc_dec des key).
Proof.
  intros key _. split; [cbn [des bc_check]; destruct (des_key_ok key); auto|].
  apply left_inverse_two_sided, des_inverse.
Qed.
Lemma triple_des_blocks : forall ede key key2 key3, any_user_key key -> any_user_key key2 -> any_user_key key3 ->
  (bc_check (triple_des ede key2 key3) key = Done Success \/ bc_check (triple_des ede key2 key3) key = Done KeyError) /\
  inverse_permutations 8 (bc_enc (triple_des ede key2 key3) key) (bc_dec (triple_des ede key2 key3) key).
Proof.
  intros ede key key2 key3 _ _ _. split.
  - cbn [triple_des bc_check]. destruct (_ && _)%bool; auto.
  - apply left_inverse_two_sided. cbn [triple_des bc_enc bc_dec].
    destruct ede.
    + apply (inverse_on_comp 8 (fun x => des_block_decrypt (des_expand key2) (des_block_encrypt (des_expand key) x))
               (fun x => des_block_decrypt (des_expand key) (des_block_encrypt (des_expand key2) x))); [|apply des_inverse].
      apply inverse_on_comp; [apply des_inverse|apply des_inverse'].
    + apply (inverse_on_comp 8 (fun x => des_block_encrypt (des_expand key2) (des_block_encrypt (des_expand key) x))
               (fun x => des_block_decrypt (des_expand key) (des_block_decrypt (des_expand key2) x))); [|apply des_inverse].
      apply inverse_on_comp; apply des_inverse.
Qed.
Lemma ede_degenerates : forall key k x, any_user_key key -> block 8 x ->
  bc_enc (triple_des true k k) key x = bc_enc des key x.
Proof.
  intros key k x _ [Hx Hl]. cbn [triple_des des bc_enc].
  destruct (des_inverse (des_expand key) x Hx Hl) as (_ & [H1 H2] & _).
  apply (des_inverse' (des_expand k)); assumption.
Qed.
Lemma length16 : forall key : list N, length key = 16%nat -> key <> [].
Proof. intros [|] H; [discriminate H|discriminate]. Qed.
Lemma tea_blocks : forall key, octets key -> length key = 16%nat ->
  bc_check tea key = Done Success /\ inverse_permutations 8 (bc_enc tea key) (bc_dec tea key).
Proof.
  intros key Hk HL. apply (blocks_of_lawful tea key tea_lawful). apply acc_any; [split; [apply length16, HL|exact Hk]| |].
  - cbn [tea bc_check]. rewrite HL. reflexivity.
  - intros [H|H]; discriminate H.
Qed.
Lemma xtea_blocks : forall rounds key, octets key -> length key = 16%nat -> (1 <= rounds)%Z ->
  bc_check (xtea (Some rounds)) key = Done Success /\
  inverse_permutations 8 (bc_enc (xtea (Some rounds)) key) (bc_dec (xtea (Some rounds)) key).
Proof.
  intros rounds key Hk HL Hr. apply (blocks_of_lawful (xtea (Some rounds)) key (xtea_lawful _)).
  apply acc_any; [split; [apply length16, HL|exact Hk]| |].
  - cbn [xtea bc_check]. rewrite HL. cbn [Nat.eqb negb]. destruct (Z.leb_spec rounds 0); [lia|reflexivity].
  - intros [H|H]; discriminate H.
Qed.
Lemma rc2_blocks : forall t1 key, user_key 128 key -> (1 <= t1 <= 1024)%Z ->
  bc_check (rc2 (Some t1)) key = Done Success /\
  inverse_permutations 8 (bc_enc (rc2 (Some t1)) key) (bc_dec (rc2 (Some t1)) key).
Proof.
  intros t1 key Hk Ht. apply (blocks_of_lawful (rc2 (Some t1)) key (rc2_lawful _)).
  apply (acc_key _ _ 128 Hk); [|intros [H|H]; discriminate H].
  intros Hb HL. cbn [rc2 bc_check]. destruct (Nat.ltb_spec 128 (length key)); [lia|].
  destruct (Z.ltb_spec 1025 t1); [lia|]. destruct (Z.ltb_spec t1 1); [lia|]. cbn [orb].
  destruct (rc2_inflate_defined (Z.to_N t1) key) as [K ->]; [lia|]. reflexivity.
Qed.
Lemma rounds_ok : forall r, (1 <= r <= 398)%Z -> rc5_rounds_check (Some r) = Done Success.
Proof.
  intros r Hr. unfold rc5_rounds_check. cbv zeta.
  rewrite Z.mod_small by lia. unfold shlw, addw.
  destruct (N.ltb_spec (Z.to_N r) 1); [lia|].
  rewrite N.shiftl_mul_pow2. change (2 ^ 1) with 2.
  assert (((Z.to_N r + 2) mod 2 ^ 64 * 2) mod 2 ^ 64 = (Z.to_N r + 2) * 2) as ->.
  { rewrite (N.mod_small (Z.to_N r + 2)) by (change (2 ^ 64) with 18446744073709551616; lia).
    apply N.mod_small. change (2 ^ 64) with 18446744073709551616. lia. }
  change (N.of_nat rc5_k_nr) with 800. destruct (N.ltb_spec 800 ((Z.to_N r + 2) * 2)); [lia|].
  destruct (Z.ltb_spec r 0); [lia|]. reflexivity.
Qed.
Lemma rc5_blocks : forall junk_e junk_d rounds key,
  length junk_e = 800%nat -> length junk_d = 800%nat ->
  user_key 64 key -> (1 <= rounds <= 398)%Z -> (Z.of_nat (length key) <= 4 * (2 * rounds + 2))%Z ->
  bc_check (rc5 junk_e junk_d (Some rounds)) key = Done Success /\
  inverse_permutations 8 (bc_enc (rc5 junk_e junk_d (Some rounds)) key) (bc_dec (rc5 junk_e junk_d (Some rounds)) key).
Proof.
  intros je jd r key He Hd (K1 & K2 & K3) Hr HL. split.
  - cbn [rc5 bc_check]. destruct (Nat.ltb_spec 64 (length key)); [lia|]. apply rounds_ok, Hr.
  - apply left_inverse_two_sided. cbn [rc5 bc_enc bc_dec]. assert (rc5_k_nr = 800%nat) as E by reflexivity.
    apply rc5_inverse; try (rewrite E; assumption); rewrite ?E; lia.
Qed.
Lemma rc5_uninitialised : exists rounds key x,
  user_key 64 key /\ block 8 x /\
  (forall junk_e junk_d, bc_check (rc5 junk_e junk_d (Some rounds)) key = Done Success) /\
  exists junk_e junk_d, length junk_e = 800%nat /\ length junk_d = 800%nat /\
    bc_dec (rc5 junk_e junk_d (Some rounds)) key (bc_enc (rc5 junk_e junk_d (Some rounds)) key x) <> x.
Proof.
  exists 1%Z, (repeat 1 20), (repeat 2 8). split; [|split; [|split]].
  - split; [discriminate|]. split; [repeat constructor|cbn; lia].
  - split; [repeat constructor|reflexivity].
  - intros. vm_compute. reflexivity.
  - exists (repeat 0 800), (repeat 7 800). split; [reflexivity|]. split; [reflexivity|].
    intro H. assert (eqb_list (bc_dec (rc5 (repeat 0 800) (repeat 7 800) (Some 1%Z)) (repeat 1 20)
      (bc_enc (rc5 (repeat 0 800) (repeat 7 800) (Some 1%Z)) (repeat 1 20) (repeat 2 8))) (repeat 2 8) = true) as E.
    { rewrite H. vm_compute. reflexivity. }
    vm_compute in E. discriminate E.
Qed.
Lemma rc6_one : forall id ksize junk_e junk_d rounds key,
  id = RC6_128 /\ ksize = 16%nat \/ id = RC6_192 /\ ksize = 24%nat \/ id = RC6_256 /\ ksize = 32%nat ->
  length junk_e = 800%nat -> length junk_d = 800%nat -> (1 <= rounds <= 398)%Z -> user_key ksize key ->
  bc_check (rc6 id ksize junk_e junk_d (Some rounds)) key = Done Success /\
  inverse_permutations 16 (bc_enc (rc6 id ksize junk_e junk_d (Some rounds)) key)
    (bc_dec (rc6 id ksize junk_e junk_d (Some rounds)) key).
Proof.
  intros id ksize je jd r key Hid He Hd Hr Hk.
  assert (lawful (rc6 id ksize je jd (Some r))) as HL by (apply rc6_lawful; [exact Hid|exact He|exact Hd|lia]).
  apply (blocks_of_lawful _ key HL). apply (acc_key _ _ ksize Hk).
  - intros _ L. cbn [rc6 bc_check]. destruct (Nat.ltb_spec ksize (length key)); [lia|]. apply rounds_ok, Hr.
  - cbn [rc6 bc_id]. intros H. destruct Hid as [[-> _]|[[-> _]|[-> _]]]; destruct H as [H|H]; discriminate H.
Qed.
Lemma rc6_blocks : forall junk_e junk_d rounds key,
  length junk_e = 800%nat -> length junk_d = 800%nat -> (1 <= rounds <= 398)%Z ->
  (user_key 16 key ->
    bc_check (rc6_128 junk_e junk_d (Some rounds)) key = Done Success /\
    inverse_permutations 16 (bc_enc (rc6_128 junk_e junk_d (Some rounds)) key) (bc_dec (rc6_128 junk_e junk_d (Some rounds)) key)) /\
  (user_key 24 key ->
    bc_check (rc6_192 junk_e junk_d (Some rounds)) key = Done Success /\
    inverse_permutations 16 (bc_enc (rc6_192 junk_e junk_d (Some rounds)) key) (bc_dec (rc6_192 junk_e junk_d (Some rounds)) key)) /\
  (user_key 32 key ->
    bc_check (rc6_256 junk_e junk_d (Some rounds)) key = Done Success /\
    inverse_permutations 16 (bc_enc (rc6_256 junk_e junk_d (Some rounds)) key) (bc_dec (rc6_256 junk_e junk_d (Some rounds)) key)).
Proof.
  intros je jd r key He Hd Hr. split; [|split]; intro Hk; apply rc6_one; auto.
Qed.
Lemma rc6_modes : forall junk_e junk_d rounds, length junk_e = 800%nat -> length junk_d = 800%nat ->
  (- 2 ^ 31 <= rounds < 2 ^ 31)%Z ->
  Forall (fun c => every_mode_returns_the_plaintext c /\ gcm_returns_the_plaintext c)
    [rc6_128 junk_e junk_d (Some rounds); rc6_192 junk_e junk_d (Some rounds); rc6_256 junk_e junk_d (Some rounds)].
Proof.
  intros je jd r He Hd Hr.
  assert (forall id ksize, id = RC6_128 /\ ksize = 16%nat \/ id = RC6_192 /\ ksize = 24%nat \/ id = RC6_256 /\ ksize = 32%nat ->
    every_mode_returns_the_plaintext (rc6 id ksize je jd (Some r)) /\ gcm_returns_the_plaintext (rc6 id ksize je jd (Some r))) as H.
  { intros id ksize Hid.
    assert (lawful (rc6 id ksize je jd (Some r))) as HL by (apply rc6_lawful; [exact Hid|exact He|exact Hd|exact Hr]).
    split; [apply modes_of_lawful, HL|apply gcm_of_lawful; [exact HL|split; [discriminate|reflexivity]]]. }
  constructor; [apply H; auto|]. constructor; [apply H; auto|]. constructor; [apply H; auto|constructor].
Qed.
Lemma feal_blocks : forall rounds key, any_user_key key -> (1 <= rounds <= 792)%Z ->
  bc_check (feal (Some rounds)) key = Done Success /\
  inverse_permutations 8 (bc_enc (feal (Some rounds)) key) (bc_dec (feal (Some rounds)) key).
Proof.
  intros r key Hk Hr. apply (blocks_of_lawful (feal (Some r)) key (feal_lawful _)).
  apply acc_any; [exact Hk| |intros [H|H]; discriminate H].
  cbn [feal bc_check]. rewrite Z.mod_small by lia. cbv zeta. change (801 - 8) with 793.
  destruct (N.leb_spec 793 (Z.to_N r)); [lia|]. destruct (N.ltb_spec (Z.to_N r) 1); [lia|]. reflexivity.
Qed.
Lemma saferk64_blocks : forall rounds key, any_user_key key -> (1 <= rounds <= 13)%Z ->
  bc_check (saferk64 (Some rounds)) key = Done Success /\
  inverse_permutations 8 (bc_enc (saferk64 (Some rounds)) key) (bc_dec (saferk64 (Some rounds)) key).
Proof.
  intros r key Hk Hr. apply (blocks_of_lawful (saferk64 (Some r)) key (saferk64_lawful _)).
  apply acc_any; [exact Hk| |intros [H|H]; discriminate H].
  cbn [saferk64 bc_check]. rewrite Z.mod_small by lia. cbv zeta.
  destruct (N.ltb_spec (Z.to_N r) 1); [lia|].
  destruct (N.ltb_spec (N.of_nat saferk64_max_round) (Z.to_N r)); [unfold saferk64_max_round in *; lia|].
  destruct (saferk64_defined (Z.to_nat r) key ltac:(lia)) as [K ->]. reflexivity.
Qed.
Lemma sboxes_some : forall sboxes : list (list N), Forall (block 16) sboxes ->
  Forall (fun o => match o with Some l => bytes l | None => True end) (map Some sboxes).
Proof. intros l H. apply Forall_map. eapply Forall_impl; [|exact H]. intros a Ha. exact (proj1 Ha). Qed.
Lemma gost_blocks : forall sboxes key, any_user_key key -> length sboxes = 8%nat -> Forall (block 16) sboxes ->
  (bc_check gost_ds key = Done Success /\ inverse_permutations 8 (bc_enc gost_ds key) (bc_dec gost_ds key)) /\
  (bc_check (gost (map Some sboxes)) key = Done Success /\
   inverse_permutations 8 (bc_enc (gost (map Some sboxes)) key) (bc_dec (gost (map Some sboxes)) key)).
Proof.
  intros sb key Hk _ Hs. split.
  - apply (blocks_of_lawful gost_ds key gost_ds_lawful). apply acc_any; [exact Hk|reflexivity|intros [H|H]; discriminate H].
  - apply (blocks_of_lawful (gost (map Some sb)) key (gost_lawful _ (sboxes_some sb Hs))).
    apply acc_any; [exact Hk| |intros [H|H]; discriminate H].
    cbn [gost bc_check]. assert (existsb (fun o : option (list N) => match o with None => true | Some _ => false end) (map Some sb) = false) as ->; [|reflexivity].
    clear. induction sb as [|a sb IH]; [reflexivity|exact IH].
Qed.
Lemma gost_modes : every_mode_returns_the_plaintext gost_ds /\
  forall sboxes, length sboxes = 8%nat -> Forall (block 16) sboxes -> every_mode_returns_the_plaintext (gost (map Some sboxes)).
Proof.
  split; [apply modes_of_lawful, gost_ds_lawful|]. intros sb _ H. apply modes_of_lawful, gost_lawful, sboxes_some, H.
Qed.
