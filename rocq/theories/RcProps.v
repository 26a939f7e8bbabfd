(* Property C104: RC5 and RC6 compute the algorithms of their papers, and whole tasks are the modes of SP 800-38A over them. *)
From Verif Require Import Words EncSpec TaskModel ModeModel ModeSpec CipherBase CipherLib ModeProps RcModel RcProofs AesProofs3 RcProofs2.
From Verif Require Import RcSpec.
Open Scope N_scope.

(* missing: keys with an odd number of bytes and keys of more words than the expanded key has (wrong in the code, refuted below and in C21) *)
Theorem C104_rc5_blocks_partial : forall junk_e junk_d r key block, length junk_e = 800%nat -> length junk_d = 800%nat ->
  (1 <= r <= 398)%nat -> octets key -> (0 < length key <= 64)%nat -> Nat.modulo (length key) 2 = 0%nat -> (length key <= 4 * (2 * r + 2))%nat ->
  octets block -> length block = 8%nat ->
  bc_enc (rc5 junk_e junk_d (Some (Z.of_nat r))) key block = RC5 r key block /\
  bc_dec (rc5 junk_e junk_d (Some (Z.of_nat r))) key (RC5 r key block) = block.
Proof.
  intros je jd r key block Je Jd Hr Hk Hl Hm Hc Hb Lb. cbn [bc_enc bc_dec rc5]. rewrite Nat2Z.id.
  assert (rc5_encrypt r (rc5_ksched r je key) block = RC5 r key block) as E by (apply rc5_is; try assumption; [destruct key; [cbn in Hl; lia|discriminate]|lia]).
  split; [exact E|]. rewrite <- E. exact (proj1 (rc5_inverse je jd r key ltac:(lia) ltac:(unfold rc5_k_nr; lia) Je Jd Hc block Hb Lb)).
Qed.
Print Assumptions C104_rc5_blocks_partial.

(* missing: RC6-256 with one round (wrong in the code, refuted below) *)
Theorem C104_rc6_blocks_partial : forall junk_e junk_d r key block, length junk_e = 800%nat -> length junk_d = 800%nat ->
  (1 <= r <= 398)%nat -> (length key <= 4 * (2 * r + 4))%nat -> octets key -> octets block -> length block = 16%nat ->
  (length key = 16%nat -> bc_enc (rc6_128 junk_e junk_d (Some (Z.of_nat r))) key block = RC6 r key block /\ bc_dec (rc6_128 junk_e junk_d (Some (Z.of_nat r))) key (RC6 r key block) = block) /\
  (length key = 24%nat -> bc_enc (rc6_192 junk_e junk_d (Some (Z.of_nat r))) key block = RC6 r key block /\ bc_dec (rc6_192 junk_e junk_d (Some (Z.of_nat r))) key (RC6 r key block) = block) /\
  (length key = 32%nat -> bc_enc (rc6_256 junk_e junk_d (Some (Z.of_nat r))) key block = RC6 r key block /\ bc_dec (rc6_256 junk_e junk_d (Some (Z.of_nat r))) key (RC6 r key block) = block).
Proof.
  intros je jd r key block Je Jd Hr Hc Hk Hb Lb.
  assert (forall id ks, id = RC6_128 /\ ks = 16%nat \/ id = RC6_192 /\ ks = 24%nat \/ id = RC6_256 /\ ks = 32%nat -> length key = ks ->
    bc_enc (rc6 id ks je jd (Some (Z.of_nat r))) key block = RC6 r key block /\ bc_dec (rc6 id ks je jd (Some (Z.of_nat r))) key (RC6 r key block) = block) as G.
  { intros id ks Hid L. assert (bc_enc (rc6 id ks je jd (Some (Z.of_nat r))) key block = RC6 r key block) as E.
    { cbn [bc_enc rc6]. rewrite Nat2Z.id. apply rc6_is; try assumption; [tauto|lia]. }
    split; [exact E|]. rewrite <- E. cbn [bc_enc bc_dec rc6]. rewrite Nat2Z.id.
    rewrite <- (rc6_decrypt_ext r (rc6_ksched ks r je key) (rc6_ksched ks r jd key)).
    - exact (proj1 (rc6_block_inverse r (rc6_ksched ks r je key) block Hb Lb)).
    - apply rc6_ksched_same; [unfold rc5_k_nr; lia|exact Je|exact Jd]. }
  split; [|split]; intro L; apply G; tauto.
Qed.
Print Assumptions C104_rc6_blocks_partial.

(* what a caller gets: the X9.23 padded text in the chosen mode over the published cipher E *)
Definition task_is (c : blockcipher) (E : list N -> list N) (key : list N) : Prop :=
  forall pem rnd aad m iv text, m = ECB \/ m = CBC \/ m = OFB \/ m = CTR ->
  octets iv -> length iv = bc_bs c -> octets text -> text <> [] -> byte_source rnd ->
  exists padded P p v, x923_padded (bc_bs c) text padded /\ in_blocks (bc_bs c) padded P /\
    block_cipher c pem rnd aad (user_task (bc_id c) m Encrypt key iv text) = Done {| r_result := Success; r_out := Some p; r_iv := v |} /\
    p_out p = match m with
              | ECB => concat (spec_ecb E P)
              | CBC => iv ++ concat (spec_cbc E iv P)
              | OFB => iv ++ concat (spec_ofb E iv P)
              | _ => iv ++ concat (spec_ctr E iv P)
              end.
Lemma rounds_ok : forall r, (1 <= r <= 398)%nat -> rc5_rounds_check (Some (Z.of_nat r)) = Done Success.
Proof.
  intros r Hr. unfold rc5_rounds_check. cbv zeta. rewrite Z.mod_small by lia.
  replace (Z.to_N (Z.of_nat r)) with (N.of_nat r) by lia. rewrite (proj2 (N.ltb_ge _ 1)) by lia.
  unfold shlw, addw. rewrite N.shiftl_mul_pow2. change (2 ^ 1) with 2. rewrite (N.mod_small (N.of_nat r + 2)) by lia. rewrite N.mod_small by lia.
  rewrite (proj2 (N.ltb_ge _ _)) by (change (N.of_nat rc5_k_nr) with 800; lia). rewrite (proj2 (Z.ltb_ge _ 0)) by lia. reflexivity.
Qed.
Theorem C104_tasks_partial : forall junk_e junk_d r key, length junk_e = 800%nat -> length junk_d = 800%nat -> octets key -> (r <= 398)%nat ->
  ((7 <= r)%nat -> (0 < length key <= 64)%nat -> Nat.modulo (length key) 2 = 0%nat -> task_is (rc5 junk_e junk_d (Some (Z.of_nat r))) (RC5 r key) key) /\
  ((1 <= r)%nat -> length key = 16%nat -> task_is (rc6_128 junk_e junk_d (Some (Z.of_nat r))) (RC6 r key) key) /\
  ((1 <= r)%nat -> length key = 24%nat -> task_is (rc6_192 junk_e junk_d (Some (Z.of_nat r))) (RC6 r key) key) /\
  ((2 <= r)%nat -> length key = 32%nat -> task_is (rc6_256 junk_e junk_d (Some (Z.of_nat r))) (RC6 r key) key).
Proof.
  intros je jd r key Je Jd Hk Hr. split.
  - intros H7 Hl Hm pem rnd aad m iv text Hmo Hi Li Ht Hn Hrnd.
    apply (task_same (rc5 je jd (Some (Z.of_nat r))) (RC5 r key) pem rnd aad m key iv text); try assumption; [apply rc5_lawful; assumption || lia|cbn; lia| |].
    + split; [intros ->; cbn in Hl; lia|]. split; [exact Hk|]. split; [intros [X|X]; discriminate X|]. cbn [bc_check rc5]. destruct (Nat.ltb_spec 64 (length key)); [lia|]. apply rounds_ok. lia.
    + intros x Hx Lx. apply C104_rc5_blocks_partial; assumption || lia.
  - assert (forall id ks, id = RC6_128 /\ ks = 16%nat \/ id = RC6_192 /\ ks = 24%nat \/ id = RC6_256 /\ ks = 32%nat -> (1 <= r)%nat -> (ks <= 4 * (2 * r + 4))%nat -> length key = ks ->
      task_is (rc6 id ks je jd (Some (Z.of_nat r))) (RC6 r key) key) as G.
    { intros id ks Hid H1 Hks L pem rnd aad m iv text Hmo Hi Li Ht Hn Hrnd.
      apply (task_same (rc6 id ks je jd (Some (Z.of_nat r))) (RC6 r key) pem rnd aad m key iv text); try assumption; [apply rc6_lawful; assumption || lia|cbn; lia| |].
      - split; [intros ->; cbn in L; lia|]. split; [exact Hk|]. split; [cbn [bc_id rc6]; intros [X|X]; destruct Hid as [[-> _]|[[-> _]|[-> _]]]; discriminate X|].
        cbn [bc_check rc6]. destruct (Nat.ltb_spec ks (length key)); [lia|]. apply rounds_ok. lia.
      - intros x Hx Lx. cbn [bc_enc rc6]. rewrite Nat2Z.id. apply rc6_is; try assumption; [tauto|lia]. }
    split; [|split]; intros; apply G; tauto || lia.
Qed.
Print Assumptions C104_tasks_partial.

(* the code fills up a last word of one or three bytes wrongly *)
Theorem C104_rc5_odd_keys_refuted : forall n, n = 5%nat \/ n = 7%nat -> exists r key block, (1 <= r <= 398)%nat /\ octets key /\ length key = n /\ octets block /\ length block = 8%nat /\
  bc_enc (rc5 (repeat 0 800) (repeat 0 800) (Some (Z.of_nat r))) key block <> RC5 r key block.
Proof.
  intros n [-> | ->]; [exists 1%nat, [1; 2; 3; 4; 5], (repeat 0 8)|exists 1%nat, [1; 2; 3; 4; 5; 6; 7], (repeat 0 8)].
  all: split; [lia|]; split; [repeat (apply Forall_cons; [reflexivity|]); apply Forall_nil|]; split; [reflexivity|].
  all: split; [repeat (apply Forall_cons; [reflexivity|]); apply Forall_nil|]; split; [reflexivity|]; vm_compute; discriminate.
Qed.
Print Assumptions C104_rc5_odd_keys_refuted.
(* RC6-256 with one round mixes 18 times where the paper mixes 24 times *)
Theorem C104_rc6_one_round_refuted : exists key block, octets key /\ length key = 32%nat /\ octets block /\ length block = 16%nat /\
  bc_enc (rc6_256 (repeat 0 800) (repeat 0 800) (Some 1%Z)) key block <> RC6 1 key block.
Proof.
  exists (repeat 0 32), (repeat 0 16). split; [repeat (apply Forall_cons; [reflexivity|]); apply Forall_nil|]. split; [reflexivity|].
  split; [repeat (apply Forall_cons; [reflexivity|]); apply Forall_nil|]. split; [reflexivity|]. vm_compute. discriminate.
Qed.
Print Assumptions C104_rc6_one_round_refuted.

(* published vectors *)
Example C104_published : RC5 12 (repeat 0 16) (repeat 0 8) = be_bytes 8 0x21A5DBEE154B8F6D /\ RC6 20 (repeat 0 16) (repeat 0 16) = be_bytes 16 0x8FC3A53656B1F778C129DF4E9848A41E.
Proof. split; vm_compute; reflexivity. Qed.
Example C104_example : octets (repeat 7 24) /\ (0 < length (repeat 7 24) <= 64)%nat /\ Nat.modulo (length (repeat 7 24)) 2 = 0%nat /\ (length (repeat 7 24) <= 4 * (2 * 12 + 2))%nat /\
  length (repeat 0 800) = 800%nat /\ octets (repeat 1 8) /\ length (repeat 1 8) = 8%nat.
Proof.
  split; [repeat (apply Forall_cons; [reflexivity|]); apply Forall_nil|]. split; [cbn; lia|]. split; [reflexivity|]. split; [cbn; lia|]. split; [apply repeat_length|].
  split; [repeat (apply Forall_cons; [reflexivity|]); apply Forall_nil|reflexivity].
Qed.
