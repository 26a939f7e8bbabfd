(* Properties C07-C15, C80, C89-C92: padding, modes of operation, GCM, task checks. Statements about
   every block cipher of the library are made for every [lawful] one; the CipherXxx files prove that
   the concrete ciphers are lawful. *)
From Verif Require Import Words TaskModel ModeModel ModeSpec EncSpec ModeProofs ModeProofs2 ModeProofs3
  ModeProofs4 GfProofs.
Open Scope N_scope.

(* random bytes *)
Definition byte_source (rnd : nat -> N) : Prop := forall i, rnd i < 256.

(* a small lawful cipher for the examples: xor with the first key byte, then reverse the block *)
Definition toy : blockcipher :=
  {| bc_id := AES128; bc_bs := 16; bc_check := fun _ => Done Success;
     bc_enc := fun k x => map (fun b => N.lxor b (nth 0 k 0)) (rev x);
     bc_dec := fun k x => rev (map (fun b => N.lxor b (nth 0 k 0)) x);
     bc_gcm := GcmStandard |}.
Definition toy_key : list N := [0x3c; 1; 2].
Definition toy_iv : list N := [0;1;2;3;4;5;6;7;8;9;10;11;255;255;255;255].
Definition toy_text : list N := [104;101;108;108;111;32;119;111;114;108;100;33;32;104;105;32;116;104;101;114;101].
Definition toy_rnd (i : nat) : N := N.of_nat i mod 256.
Definition no_pem (_ : pk_param) (_ : list N) : bool := false.

Lemma toy_lawful : lawful toy.
Proof.
  split; [reflexivity|]. split; [reflexivity|]. split; [cbn; lia|].
  intros key [Hn [Hk _]] x Hx Hl. cbn [bc_bs bc_enc bc_dec toy] in *.
  assert (nth 0 key 0 < 256) as H0.
  { destruct key as [|k key]; [congruence|]. inversion Hk; subst. assumption. }
  assert (forall l, octets l -> octets (map (fun b => N.lxor b (nth 0 key 0)) l)) as Hm.
  { intros l H. unfold octets in *. rewrite Forall_forall in *. intros y Hy. apply in_map_iff in Hy.
    destruct Hy as [z [<- Hz]]. apply (lxor_lt _ _ 8); [apply H; exact Hz|exact H0]. }
  split; [|split; [split|split]].
  - rewrite map_map. erewrite map_ext; [rewrite map_id; apply rev_involutive|].
    intro a. apply lxor_cancel_r.
  - apply Hm. unfold octets in *. apply Forall_rev. exact Hx.
  - rewrite map_length, rev_length. exact Hl.
  - unfold octets. apply Forall_rev. apply Hm. exact Hx.
  - rewrite rev_length, map_length. exact Hl.
Qed.
Lemma toy_facts : acceptable_key toy toy_key /\ octets toy_iv /\ length toy_iv = 16%nat /\
  octets toy_text /\ toy_text <> [] /\ byte_source toy_rnd.
Proof.
  repeat split; try discriminate.
  - unfold octets; repeat constructor.
  - intros [H|H]; discriminate.
  - unfold octets; repeat constructor.
  - unfold octets; repeat constructor.
  - intro i. unfold toy_rnd. apply N.mod_lt. discriminate.
Qed.

(* ------------------------------------------------------------------ C07 *)
Theorem C07_x923_padding : forall bs randomize rnd text, (0 < bs < 256)%nat -> text <> [] ->
  exists padded, x923_pad bs randomize rnd text = Some padded /\ x923_padded bs text padded /\
    (length padded <= length text + bs)%nat.
Proof.
  intros bs rz rnd text Hb Hn. destruct (x923_pad_padded bs rz rnd text Hb Hn) as [p [H1 [H2 _]]].
  exists p. split; [exact H1|]. split; [exact H2|]. apply (padded_len _ _ _ H2).
Qed.
Print Assumptions C07_x923_padding.

Theorem C07_x923_strip : forall bs text padded ctr, (0 < bs < 256)%nat -> x923_padded bs text padded ->
  N.of_nat (length padded) < W64 ->
  exists p, drop_pad padded ctr = Done p /\ plaintext p = text /\ p_out_size p = N.of_nat (length text).
Proof.
  intros bs text padded ctr Hb Hx Hw. destruct (drop_pad_padded bs text padded ctr Hb Hx Hw) as [o [H1 [H2 H3]]].
  eexists. split; [exact H1|]. unfold plaintext. cbn [p_out p_out_size]. rewrite Nat2N.id. auto.
Qed.
Print Assumptions C07_x923_strip.

Example C07_example :
  x923_pad 8 false toy_rnd [1;2;3] = Some [1;2;3;0;0;0;0;5] /\
  x923_pad 8 false toy_rnd [1;2;3;4;5;6;7;8] = Some [1;2;3;4;5;6;7;8;0;0;0;0;0;0;0;8].
Proof. split; reflexivity. Qed.

(* -------------------------------------------------- C08 - C11 round trips *)
(* iv: 16 (block size) bytes; unused by ECB. iv2 is whatever the decrypting task's iv buffer holds. *)
Definition unauthenticated (m : cmode) : Prop := m = ECB \/ m = CBC \/ m = OFB \/ m = CTR.

Definition mode_round_trip (c : blockcipher) (m : cmode) : Prop :=
  forall pem rnd rnd2 aad aad2 key iv iv2 text,
    acceptable_key c key -> octets iv -> octets iv2 ->
    (m <> ECB -> length iv = bc_bs c /\ length iv2 = bc_bs c) ->
    octets text -> text <> [] -> byte_source rnd -> N.of_nat (length text) + 256 < W64 ->
    exists p q iv' iv2',
      block_cipher c pem rnd aad (user_task (bc_id c) m Encrypt key iv text) =
        Done {| r_result := Success; r_out := Some p; r_iv := iv' |} /\
      p_out_size p = N.of_nat (length (p_out p)) /\
      block_cipher c pem rnd2 aad2 (user_task (bc_id c) m Decrypt key iv2 (p_out p)) =
        Done {| r_result := Success; r_out := Some q; r_iv := iv2' |} /\
      plaintext q = text /\ p_out_size q = N.of_nat (length text).

Lemma mode_round_trip_all : forall c m, lawful c -> unauthenticated m -> mode_round_trip c m.
Proof.
  intros c m Hc Hm pem rnd rnd2 aad aad2 key iv iv2 text Hk Hi Hi2 Hl Ho Hn Hr Hw.
  assert (m = ECB \/ length iv = bc_bs c) as H1.
  { destruct Hm as [->|[->|[->| ->]]]; [left; reflexivity|right; apply Hl; discriminate..]. }
  assert (m = ECB \/ length iv2 = bc_bs c) as H2.
  { destruct Hm as [->|[->|[->| ->]]]; [left; reflexivity|right; apply Hl; discriminate..]. }
  apply round_trip_task; auto.
  - destruct Hm as [->|[->|[->| ->]]]; discriminate.
  - destruct Hm as [->|[->|[->| ->]]]; discriminate.
  - split; assumption.
  - split; assumption.
Qed.

Theorem C08_ecb_round_trip : forall c, lawful c -> mode_round_trip c ECB.
Proof. intros c H. apply mode_round_trip_all; [exact H|left; reflexivity]. Qed.
Print Assumptions C08_ecb_round_trip.
Theorem C09_cbc_round_trip : forall c, lawful c -> mode_round_trip c CBC.
Proof. intros c H. apply mode_round_trip_all; [exact H|right; left; reflexivity]. Qed.
Print Assumptions C09_cbc_round_trip.
Theorem C10_ofb_round_trip : forall c, lawful c -> mode_round_trip c OFB.
Proof. intros c H. apply mode_round_trip_all; [exact H|right; right; left; reflexivity]. Qed.
Print Assumptions C10_ofb_round_trip.
Theorem C11_ctr_round_trip : forall c, lawful c -> mode_round_trip c CTR.
Proof. intros c H. apply mode_round_trip_all; [exact H|right; right; right; reflexivity]. Qed.
Print Assumptions C11_ctr_round_trip.

(* The encryption outputs are the standard modes applied to the padded text. *)
Theorem C08_ecb_is_sp800_38a : forall c pem rnd aad key iv text, lawful c -> acceptable_key c key ->
  octets iv -> octets text -> text <> [] -> byte_source rnd ->
  exists padded P p v, x923_padded (bc_bs c) text padded /\ in_blocks (bc_bs c) padded P /\
    block_cipher c pem rnd aad (user_task (bc_id c) ECB Encrypt key iv text) =
      Done {| r_result := Success; r_out := Some p; r_iv := v |} /\
    p_out p = concat (spec_ecb (bc_enc c key) P).
Proof.
  intros c pem rnd aad key iv text Hc Hk Hi Ho Hn Hr.
  destruct (encrypt_task c pem rnd aad ECB key iv text Hc Hk ltac:(discriminate) ltac:(discriminate)
     (conj Hi (or_introl eq_refl)) Ho Hn Hr) as [padded [P [p [H1 [_ [H2 [H3 [H4 _]]]]]]]].
  exists padded, P, p. eauto.
Qed.
Print Assumptions C08_ecb_is_sp800_38a.

Theorem C09_cbc_is_sp800_38a : forall c pem rnd aad key iv text, lawful c -> acceptable_key c key ->
  octets iv -> length iv = bc_bs c -> octets text -> text <> [] -> byte_source rnd ->
  exists padded P p v, x923_padded (bc_bs c) text padded /\ in_blocks (bc_bs c) padded P /\
    block_cipher c pem rnd aad (user_task (bc_id c) CBC Encrypt key iv text) =
      Done {| r_result := Success; r_out := Some p; r_iv := v |} /\
    p_out p = iv ++ concat (spec_cbc (bc_enc c key) iv P).
Proof.
  intros c pem rnd aad key iv text Hc Hk Hi Hl Ho Hn Hr.
  destruct (encrypt_task c pem rnd aad CBC key iv text Hc Hk ltac:(discriminate) ltac:(discriminate)
     (conj Hi (or_intror Hl)) Ho Hn Hr) as [padded [P [p [H1 [_ [H2 [H3 [H4 _]]]]]]]].
  exists padded, P, p. eauto.
Qed.
Print Assumptions C09_cbc_is_sp800_38a.

Theorem C10_ofb_is_sp800_38a : forall c pem rnd aad key iv text, lawful c -> acceptable_key c key ->
  octets iv -> length iv = bc_bs c -> octets text -> text <> [] -> byte_source rnd ->
  exists padded P p v, x923_padded (bc_bs c) text padded /\ in_blocks (bc_bs c) padded P /\
    block_cipher c pem rnd aad (user_task (bc_id c) OFB Encrypt key iv text) =
      Done {| r_result := Success; r_out := Some p; r_iv := v |} /\
    p_out p = iv ++ concat (spec_ofb (bc_enc c key) iv P).
Proof.
  intros c pem rnd aad key iv text Hc Hk Hi Hl Ho Hn Hr.
  destruct (encrypt_task c pem rnd aad OFB key iv text Hc Hk ltac:(discriminate) ltac:(discriminate)
     (conj Hi (or_intror Hl)) Ho Hn Hr) as [padded [P [p [H1 [_ [H2 [H3 [H4 _]]]]]]]].
  exists padded, P, p. eauto.
Qed.
Print Assumptions C10_ofb_is_sp800_38a.

(* CTR; the value written back through ctr is the counter of the next block, modulo 2^32 *)
Theorem C11_ctr_is_sp800_38a : forall c pem rnd aad key iv text, lawful c -> acceptable_key c key ->
  octets iv -> length iv = bc_bs c -> octets text -> text <> [] -> byte_source rnd ->
  exists padded P p v, x923_padded (bc_bs c) text padded /\ in_blocks (bc_bs c) padded P /\
    block_cipher c pem rnd aad (user_task (bc_id c) CTR Encrypt key iv text) =
      Done {| r_result := Success; r_out := Some p; r_iv := v |} /\
    p_out p = iv ++ concat (spec_ctr (bc_enc c key) iv P) /\
    p_ctr p = Some ((be_val (skipn (length iv - 4) iv) + N.of_nat (length P)) mod 2 ^ 32).
Proof.
  intros c pem rnd aad key iv text Hc Hk Hi Hl Ho Hn Hr.
  destruct (encrypt_task c pem rnd aad CTR key iv text Hc Hk ltac:(discriminate) ltac:(discriminate)
     (conj Hi (or_intror Hl)) Ho Hn Hr) as [padded [P [p [H1 [_ [H2 [H3 [H4 [_ H5]]]]]]]]].
  exists padded, P, p. eauto 10.
Qed.
Print Assumptions C11_ctr_is_sp800_38a.

(* a two-block text whose counter wraps *)
Example C11_example :
  lawful toy /\ acceptable_key toy toy_key /\ octets toy_iv /\ length toy_iv = 16%nat /\
  exists p v, block_cipher toy no_pem toy_rnd [] (user_task AES128 CTR Encrypt toy_key toy_iv toy_text) =
    Done {| r_result := Success; r_out := Some p; r_iv := v |} /\ p_ctr p = Some 1.
Proof.
  split; [exact toy_lawful|]. repeat split; try apply toy_facts; try discriminate.
  eexists. eexists. split; [vm_compute; reflexivity|reflexivity].
Qed.

(* ------------------------------------------------------------------ C12 *)
(* ciphers with a GCM mode have 16-byte blocks *)
Definition supports_gcm (c : blockcipher) : Prop := bc_gcm c <> GcmNoSupport /\ bc_bs c = 16%nat.

Theorem C12_gcm_round_trip : forall c pem rnd rnd2 aad key iv iv2 text, lawful c -> supports_gcm c ->
  acceptable_key c key -> octets iv -> length iv = 16%nat -> octets iv2 -> length iv2 = 16%nat ->
  octets aad -> octets text -> text <> [] -> byte_source rnd -> byte_source rnd2 ->
  N.of_nat (length text) + 256 < W64 ->
  exists p q iv' iv2',
    block_cipher c pem rnd aad (user_task (bc_id c) GCM Encrypt key iv text) =
      Done {| r_result := Success; r_out := Some p; r_iv := iv' |} /\
    p_out_size p = N.of_nat (length (p_out p)) /\
    block_cipher c pem rnd2 aad (user_task (bc_id c) GCM Decrypt key iv2 (p_out p)) =
      Done {| r_result := Success; r_out := Some q; r_iv := iv2' |} /\
    plaintext q = text /\ p_out_size q = N.of_nat (length text).
Proof. intros c pem rnd rnd2 aad key iv iv2 text Hc [Hg Hb]. intros. apply gcm_round_trip; auto. Qed.
Print Assumptions C12_gcm_round_trip.

(* Nothing is released unless the received tag is the tag recomputed from key, AAD, IV and
   ciphertext; otherwise the task ends with the GMAC error. AAD and ciphertext below 2 MiB, where the
   recomputed tag is that of SP 800-38D (GHASH_H(A, C) xor F(GHASH_H({}, IV))). F is the block
   encryption for every cipher but RC6, which uses its block decryption. *)
Definition tag_function (c : blockcipher) (key : list N) : list N -> list N :=
  match bc_gcm c with GcmCustom => bc_dec c key | _ => bc_enc c key end.

Theorem C12_gcm_detection : forall c pem rnd aad key iv2 tag iv ct, lawful c -> supports_gcm c ->
  acceptable_key c key -> octets iv -> length iv = 16%nat -> octets iv2 -> length iv2 = 16%nat ->
  length tag = 16%nat -> octets aad -> octets ct ->
  N.of_nat (length aad) < 2 ^ 21 -> N.of_nat (length ct) < 2 ^ 21 -> byte_source rnd ->
  tag <> gcm_tag_spec (tag_function c key) aad iv ct ->
  block_cipher c pem rnd aad (user_task (bc_id c) GCM Decrypt key iv2 (tag ++ iv ++ ct)) =
    Done {| r_result := GMACError; r_out := None; r_iv := iv2 |}.
Proof.
  intros c pem rnd aad key iv2 tag iv ct Hc [Hg Hb] Hk Hi Hl Hi2 Hl2 Ht Ha Hct Hal Hcl Hr Hne.
  rewrite gcm_decrypt_task by assumption. rewrite code_tag_spec by assumption.
  destruct (eqb_list _ tag) eqn:E; [|reflexivity].
  apply eqb_list_eq in E. exfalso. apply Hne. symmetry. exact E.
Qed.
Print Assumptions C12_gcm_detection.

(* and the tag produced by encryption is that tag *)
Theorem C12_gcm_tag_is_sp800_38d : forall c pem rnd aad key iv text, lawful c -> supports_gcm c ->
  acceptable_key c key -> octets iv -> length iv = 16%nat -> octets aad ->
  octets text -> text <> [] -> byte_source rnd ->
  N.of_nat (length aad) < 2 ^ 21 -> N.of_nat (length text) + 16 < 2 ^ 21 ->
  exists padded P p v, x923_padded 16 text padded /\ in_blocks 16 padded P /\
    block_cipher c pem rnd aad (user_task (bc_id c) GCM Encrypt key iv text) =
      Done {| r_result := Success; r_out := Some p; r_iv := v |} /\
    let ct := concat (spec_ctr (bc_enc c key) iv P) in
    p_out p = gcm_tag_spec (tag_function c key) aad iv ct ++ iv ++ ct.
Proof.
  intros c pem rnd aad key iv text Hc [Hg Hb] Hk Hi Hl Ha Ho Hn Hr Hal Htl.
  destruct (gcm_encrypt_task c pem rnd aad key iv text Hc Hk Hb Hg Hi Hl Ho Hn Hr)
    as [padded [P [p [Hx [Hop [HP [Hrun [Hout _]]]]]]]].
  exists padded, P, p. eexists. split; [exact Hx|]. split; [exact HP|]. split; [exact Hrun|].
  cbv zeta. rewrite Hout. f_equal.
  pose proof Hc as [_ [_ [Hbb Hlaw]]]. specialize (Hlaw key Hk). rewrite Hb in Hlaw.
  assert (Forall (block_ok 16) P) as HPok by (eapply blocks_ok_of; eauto).
  destruct (spec_ctr_len 16 _ _ iv P ltac:(lia) Hlaw Hi Hl HPok) as [HL HO].
  apply code_tag_spec; auto.
  destruct HP as [HPc HPf]. rewrite HL.
  assert (length padded = 16 * length P)%nat as E by (rewrite <- HPc; apply concat_length_blocks; exact HPf).
  pose proof (padded_len _ _ _ Hx). lia.
Qed.
Print Assumptions C12_gcm_tag_is_sp800_38d.

Example C12_example : lawful toy /\ supports_gcm toy /\
  (exists p v, block_cipher toy no_pem toy_rnd [1;2;3] (user_task AES128 GCM Encrypt toy_key toy_iv toy_text) =
     Done {| r_result := Success; r_out := Some p; r_iv := v |} /\ length (p_out p) = 64%nat) /\
  repeat 7 16 <> gcm_tag_spec (tag_function toy toy_key) [1;2;3] toy_iv (repeat 9 16).
Proof.
  split; [exact toy_lawful|]. split; [split; [discriminate|reflexivity]|]. split.
  - eexists. eexists. split; [vm_compute; reflexivity|reflexivity].
  - vm_compute. discriminate.
Qed.

(* ------------------------------------------------------------------ C13 *)
(* Full statement (false): a decryption succeeds only for the (AAD, ciphertext) pair that was
   encrypted. The 24-bit masks of the length block let 2 MiB move from the AAD to the ciphertext:
   the tag of an encryption with AAD A ++ X also authenticates ciphertext X ++ ct with AAD A. *)
Theorem C13_gcm_length_confusion_refuted :
  forall c pem rnd rnd2 key iv iv2 A X text k, lawful c -> supports_gcm c -> acceptable_key c key ->
  octets iv -> length iv = 16%nat -> octets iv2 -> length iv2 = 16%nat -> octets text -> text <> [] ->
  byte_source rnd -> byte_source rnd2 -> octets A -> octets X ->
  length A = (16 * k)%nat -> N.of_nat (length X) = 2 ^ 21 ->
  N.of_nat (length A) + 2 ^ 21 < 2 ^ 29 -> N.of_nat (length text) + 16 + 2 ^ 21 < 2 ^ 29 ->
  exists tag ct p q v1 v2,
    p_out p = tag ++ iv ++ ct /\ length tag = 16%nat /\
    block_cipher c pem rnd (A ++ X) (user_task (bc_id c) GCM Encrypt key iv text) =
      Done {| r_result := Success; r_out := Some p; r_iv := v1 |} /\
    block_cipher c pem rnd2 A (user_task (bc_id c) GCM Decrypt key iv2 (tag ++ iv ++ X ++ ct)) =
      Done {| r_result := Success; r_out := Some q; r_iv := v2 |}.
Proof. intros c pem rnd rnd2 key iv iv2 A X text k Hc [Hg Hb]. intros. eapply gcm_forgery; eauto. Qed.
Print Assumptions C13_gcm_length_confusion_refuted.

Example C13_example : exists A X k, octets A /\ octets X /\ length A = (16 * k)%nat /\
  N.of_nat (length X) = 2 ^ 21 /\ N.of_nat (length A) + 2 ^ 21 < 2 ^ 29.
Proof.
  exists (repeat 5 16), (repeat 6 (N.to_nat (2 ^ 21))), 1%nat.
  split; [unfold octets; cbn; repeat constructor|].
  split; [apply Forall_forall; intros x Hx; apply repeat_spec in Hx; subst; reflexivity|].
  split; [reflexivity|]. split; [rewrite repeat_length, N2Nat.id; reflexivity|reflexivity].
Qed.

(* What does hold: for lengths below 2 MiB the length block is injective *)
Theorem C13_gcm_length_block_injective_partial : forall a c a' c',
  a < 2 ^ 21 -> c < 2 ^ 21 -> a' < 2 ^ 21 -> c' < 2 ^ 21 ->
  len_block a c = len_block a' c' -> a = a' /\ c = c'.
Proof.
  intros a c a' c' Ha Hc Ha' Hc' H. apply (f_equal qv) in H. rewrite !len_block_val in H by assumption.
  change (2 ^ 64) with 18446744073709551616 in H. change (2 ^ 21) with 2097152 in *. lia.
Qed.
Print Assumptions C13_gcm_length_block_injective_partial.

(* ------------------------------------------------------------------ C14 *)
Definition words_ok (q : quad) : Prop :=
  let '(a, b, c, d) := q in a < 2 ^ 32 /\ b < 2 ^ 32 /\ c < 2 ^ 32 /\ d < 2 ^ 32.
Definition block_value (q : quad) : N :=
  let '(a, b, c, d) := q in a * 2 ^ 96 + b * 2 ^ 64 + c * 2 ^ 32 + d.

(* the product is the polynomial product modulo x^128 + x^7 + x^2 + x + 1 *)
Theorem C14_gf_mul_is_field_product : forall x y, words_ok x -> words_ok y ->
  words_ok (gf_mul x y) /\
  gf_congr (clmul (poly_of_block (block_value x)) (poly_of_block (block_value y)))
           (poly_of_block (block_value (gf_mul x y))).
Proof.
  intros x y Hx Hy.
  assert (forall q, block_value q = qv q) as Hv.
  { intros [[[a b] c] d]. unfold block_value, qv.
    replace (2 ^ 96) with (2 ^ 32 * 2 ^ 32 * 2 ^ 32) by reflexivity.
    replace (2 ^ 64) with (2 ^ 32 * 2 ^ 32) by reflexivity. lia. }
  destruct (gf_mul_nist x y Hx Hy) as [H1 H2]. split; [exact H1|].
  rewrite !Hv, H2. apply nist_mult_poly; apply qv_lt; assumption.
Qed.
Print Assumptions C14_gf_mul_is_field_product.

(* ... and the algorithm of SP 800-38D *)
Theorem C14_gf_mul_is_sp800_38d : forall x y, words_ok x -> words_ok y ->
  block_value (gf_mul x y) = nist_mult (block_value x) (block_value y).
Proof.
  intros x y Hx Hy.
  assert (forall q, block_value q = qv q) as Hv.
  { intros [[[a b] c] d]. unfold block_value, qv.
    replace (2 ^ 96) with (2 ^ 32 * 2 ^ 32 * 2 ^ 32) by reflexivity.
    replace (2 ^ 64) with (2 ^ 32 * 2 ^ 32) by reflexivity. lia. }
  rewrite !Hv. apply gf_mul_nist; assumption.
Qed.
Print Assumptions C14_gf_mul_is_sp800_38d.

(* test case 2 of the GCM paper: H = E(0) and the product of the ciphertext block with H *)
Example C14_example :
  let h := (0x66e94bd4, 0xef8a2c3b, 0x884cfa59, 0xca342b2e) in
  let c := (0x0388dace, 0x60b6a392, 0xf328c2b9, 0x71b2fe78) in
  words_ok h /\ words_ok c /\ gf_mul c h = (0x5e2ec746, 0x91706288, 0x2c85b068, 0x5353deb7).
Proof. repeat split. Qed.

(* ------------------------------------------------------------------ C15 *)
(* The block function used, written as a table: encryption for Encrypt in every mode and for any
   action in OFB, CTR, GCM; decryption otherwise. *)
Theorem C15_block_function_selected : forall (E D : list N -> list N) a m,
  ((a = Encrypt \/ m = OFB \/ m = CTR \/ m = GCM) -> select E D a m = E) /\
  (a <> Encrypt -> m <> OFB -> m <> CTR -> m <> GCM -> select E D a m = D).
Proof. intros E D a m. split; destruct a, m; cbn; intros; try reflexivity; try congruence; intuition congruence. Qed.
Print Assumptions C15_block_function_selected.

(* a task that fails its check yields that result, no output, and leaves the iv alone *)
Theorem C15_rejected_task_has_no_output : forall c pem rnd aad t r, task_check pem t = r -> r <> Success ->
  exists v, block_cipher c pem rnd aad t = Done {| r_result := r; r_out := None; r_iv := v |} /\
            (forall iv, t_iv t = Some iv -> v = iv).
Proof.
  intros c pem rnd aad t r Hr Hn. exists (iv_bytes t). split.
  - unfold block_cipher. rewrite Hr. destruct r; congruence.
  - intros iv H. unfold iv_bytes. rewrite H. reflexivity.
Qed.
Print Assumptions C15_rejected_task_has_no_output.

(* a cipher without GCM mode reports NoSupport and no output in both directions *)
Theorem C15_gcm_not_supported : forall c pem rnd aad key iv inp, lawful c -> bc_gcm c = GcmNoSupport ->
  acceptable_key c key -> octets iv -> length iv = bc_bs c -> octets inp -> inp <> [] -> byte_source rnd ->
  (exists v, block_cipher c pem rnd aad (user_task (bc_id c) GCM Encrypt key iv inp) =
     Done {| r_result := NoSupport; r_out := None; r_iv := v |}) /\
  ((16 <= length inp)%nat -> exists v, block_cipher c pem rnd aad (user_task (bc_id c) GCM Decrypt key iv inp) =
     Done {| r_result := NoSupport; r_out := None; r_iv := v |}).
Proof.
  intros c pem rnd aad key iv inp Hc Hg Hk Hi Hl Ho Hn Hr.
  assert (iv_ok c GCM iv) as Hiv by (split; [exact Hi|right; exact Hl]).
  split.
  - pose proof Hc as [_ [_ [Hb Hlaw]]]. specialize (Hlaw key Hk).
    destruct (meta_encrypt (bc_bs c) (bc_enc c key) (bc_dec c key) Hb Hlaw rnd Hr GCM iv inp ltac:(discriminate)
      Hi ltac:(right; exact Hl) Ho Hn) as [pad [P [ctr [_ [_ [_ [Hrun _]]]]]]].
    eexists. unfold block_cipher. rewrite check_ok by (auto; discriminate).
    cbn [t_mode t_action t_iv t_in user_task iv_bytes in_bytes key_bytes t_key].
    rewrite (proj2 (proj2 (proj2 Hk))). cbn [t_mode t_action t_iv t_in user_task iv_bytes in_bytes].
    rewrite Hrun. cbn [obind]. rewrite Hg. reflexivity.
  - intro H16. eexists. unfold block_cipher. rewrite check_ok by (auto; discriminate).
    cbn [t_mode t_action t_iv t_in user_task iv_bytes in_bytes key_bytes t_key].
    rewrite (proj2 (proj2 (proj2 Hk))). cbn [t_mode t_action t_iv t_in user_task iv_bytes in_bytes].
    rewrite Hg. destruct (Nat.ltb_spec (length inp) 16) as [H|H]; [lia|reflexivity].
Qed.
Print Assumptions C15_gcm_not_supported.

(* ------------------------------------------------------------------ C80 *)
Theorem C80_block_task_check : forall pem t, is_block_cipher (t_cipher t) = true ->
  task_check pem t = Success <-> valid_block_task t.
Proof. exact block_check_iff. Qed.
Print Assumptions C80_block_task_check.

(* RABBIT is left out, see the next theorem *)
Theorem C80_stream_task_check_partial : forall pem t,
  t_cipher t = ARC4 \/ t_cipher t = SEAL \/ t_cipher t = SALSA20 \/ t_cipher t = CHACHA20 ->
  task_check pem t = Success <-> valid_stream_task t.
Proof. exact stream_check_iff. Qed.
Print Assumptions C80_stream_task_check_partial.

(* a RABBIT task without iv buffer but with an iv size passes the check *)
Theorem C80_rabbit_null_iv_accepted_refuted : forall pem, exists t,
  t_cipher t = RABBIT /\ t_iv t = None /\ t_iv_size t = 8 /\ task_check pem t = Success /\
  ~ valid_stream_task t.
Proof.
  intro pem. exists {| t_cipher := RABBIT; t_mode := ECB; t_action := Encrypt; t_key := Some (repeat 1 16);
    t_key_size := 16; t_iv := None; t_iv_size := 8; t_in := Some [1]; t_in_size := 1; t_arg := [] |}.
  repeat split; try reflexivity. intros [_ [_ [H _]]]. cbn in H.
  destruct (H (or_introl eq_refl)) as [[_ H1]|[[? H1] _]]; discriminate.
Qed.
Print Assumptions C80_rabbit_null_iv_accepted_refuted.

Example C80_example : valid_block_task (user_task AES128 CBC Encrypt toy_key toy_iv toy_text) /\
  ~ valid_block_task (user_task AES128 CBC Encrypt toy_key [1;2] toy_text).
Proof.
  split.
  - unfold valid_block_task, user_task; cbn. repeat split; eauto; try discriminate; try (intros [H|H]; discriminate).
  - intros [_ [_ [_ [H _]]]]. destruct (H ltac:(discriminate)) as [_ H1]. discriminate H1.
Qed.

(* ------------------------------------------------------------------ C89 *)
(* Full statement (false): every encryption made with a task context uses an IV of its own. Every
   IV mode zeroes the iv buffer but leaves it in the task, and the setup draws a random IV only when
   there is no buffer; so the second and all later encryptions use the all-zero IV. *)
Definition task_after (t : task) (v : list N) (inp : list N) : task :=
  {| t_cipher := t_cipher t; t_mode := t_mode t; t_action := t_action t; t_key := t_key t;
     t_key_size := t_key_size t; t_iv := Some v; t_iv_size := t_iv_size t;
     t_in := Some inp; t_in_size := N.of_nat (length inp); t_arg := t_arg t |}.

Theorem C89_iv_reused_after_first_encryption_refuted :
  forall c pem rnd1 rnd2 rnd3 newiv aad key iv x1 x2 x3, lawful c -> acceptable_key c key ->
  octets iv -> length iv = bc_bs c ->
  octets x1 -> x1 <> [] -> octets x2 -> x2 <> [] -> octets x3 -> x3 <> [] ->
  byte_source rnd1 -> byte_source rnd2 -> byte_source rnd3 ->
  let t1 := user_task (bc_id c) CTR Encrypt key iv x1 in
  exists p1 p2 p3 v1 v2 v3 P2 P3,
    block_cipher c pem rnd1 aad t1 = Done {| r_result := Success; r_out := Some p1; r_iv := v1 |} /\
    let t2 := cipher_setup c newiv key CTR None (task_after t1 v1 x2) in
    block_cipher c pem rnd2 aad t2 = Done {| r_result := Success; r_out := Some p2; r_iv := v2 |} /\
    let t3 := cipher_setup c newiv key CTR None (task_after t2 v2 x3) in
    block_cipher c pem rnd3 aad t3 = Done {| r_result := Success; r_out := Some p3; r_iv := v3 |} /\
    p_out p2 = repeat 0 (bc_bs c) ++ concat (spec_ctr (bc_enc c key) (repeat 0 (bc_bs c)) P2) /\
    p_out p3 = repeat 0 (bc_bs c) ++ concat (spec_ctr (bc_enc c key) (repeat 0 (bc_bs c)) P3).
Proof.
  intros c pem rnd1 rnd2 rnd3 newiv aad key iv x1 x2 x3 Hc Hk Hi Hl Ho1 Hn1 Ho2 Hn2 Ho3 Hn3 Hr1 Hr2 Hr3 t1.
  destruct (encrypt_task c pem rnd1 aad CTR key iv x1 Hc Hk ltac:(discriminate) ltac:(discriminate)
     (conj Hi (or_intror Hl)) Ho1 Hn1 Hr1) as [q1 [P1 [p1 [_ [_ [_ [R1 _]]]]]]].
  assert (iv_ok c CTR (repeat 0 (bc_bs c))) as Hz.
  { split; [apply zeros_octets|right; apply repeat_length]. }
  destruct (encrypt_task c pem rnd2 aad CTR key (repeat 0 (bc_bs c)) x2 Hc Hk ltac:(discriminate)
     ltac:(discriminate) Hz Ho2 Hn2 Hr2) as [q2 [P2 [p2 [_ [_ [_ [R2 [O2 _]]]]]]]].
  destruct (encrypt_task c pem rnd3 aad CTR key (repeat 0 (bc_bs c)) x3 Hc Hk ltac:(discriminate)
     ltac:(discriminate) Hz Ho3 Hn3 Hr3) as [q3 [P3 [p3 [_ [_ [_ [R3 [O3 _]]]]]]]].
  exists p1, p2, p3. eexists. eexists. eexists. exists P2, P3.
  split; [exact R1|]. cbv zeta.
  assert (forall x, cipher_setup c newiv key CTR None (task_after t1 (repeat 0 (bc_bs c)) x) =
    user_task (bc_id c) CTR Encrypt key (repeat 0 (bc_bs c)) x) as E.
  { intro x. unfold cipher_setup, task_after, t1, user_task. cbn. rewrite repeat_length, Hl. reflexivity. }
  rewrite E. split; [exact R2|]. split; [|split; [exact O2|exact O3]].
  etransitivity; [|exact R3]. f_equal. 
Qed.
Print Assumptions C89_iv_reused_after_first_encryption_refuted.

(* ------------------------------------------------------------------ C90 *)
(* Full statement (false): decrypting any byte string ends with a result code and an out_size that
   fits the output buffer. For every cipher and key there is a one-block ciphertext for which the
   task succeeds and reports an out_size beyond the buffer, ... *)
Theorem C90_decrypt_out_size_beyond_buffer_refuted : forall c pem rnd aad key, lawful c ->
  acceptable_key c key ->
  exists inp p v, octets inp /\ length inp = bc_bs c /\
    block_cipher c pem rnd aad (user_task (bc_id c) ECB Decrypt key [] inp) =
      Done {| r_result := Success; r_out := Some p; r_iv := v |} /\
    N.of_nat (length (p_out p)) < p_out_size p.
Proof. exact ecb_bad_pad. Qed.
Print Assumptions C90_decrypt_out_size_beyond_buffer_refuted.

(* ... and every ciphertext whose length is not a multiple of the block size is written past the end
   of the output buffer. *)
Theorem C90_decrypt_ragged_input_overflow_refuted : forall c pem rnd aad key inp, lawful c ->
  acceptable_key c key -> inp <> [] -> (length inp mod bc_bs c <> 0)%nat ->
  block_cipher c pem rnd aad (user_task (bc_id c) ECB Decrypt key [] inp) = UB.
Proof. exact ecb_ragged_ub. Qed.
Print Assumptions C90_decrypt_ragged_input_overflow_refuted.

Example C90_example : [1;2;3] <> [] /\ (length [1;2;3] mod bc_bs toy <> 0)%nat.
Proof. split; discriminate. Qed.
