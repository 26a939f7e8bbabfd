(* C91: the bytes of a user key that count. C92: weak DES keys. C93: key expansion stays inside its arrays. *)
From Verif Require Import Words TaskModel ModeModel EncSpec CipherBase CipherLib BlockSpec DesModel AesModel CamelliaModel
  Cast5Model IdeaModel FealModel GostModel ShacalModel SaferModel BlowfishModel NoekeonModel RcModel RcProofs SaferProofs
  BlowfishProofs SerpentModel SerpentProofs MarsModel MarsProofs PresentModel PresentProofs TwofishModel KeyProofs.
Open Scope N_scope.

(* ------------------------------------------------------------------ C91 *)
(* The full statement: two different keys of the same length never give the same cipher. Proved at the level
   of the key words: wb bytes per word, nr words, keys of m words and r bytes with r at most half a word.
   False for longer rests, and for bytes beyond the key size. *)
Theorem C91_key_bytes_count_partial : forall wb nr calls m r k1 k2,
  (1 <= wb)%nat -> octets k1 -> octets k2 -> k1 <> [] -> k2 <> [] ->
  length k1 = (m * wb + r)%nat -> length k2 = (m * wb + r)%nat -> (2 * r <= wb)%nat ->
  (m * wb + r <= calls)%nat -> (m * wb + r <= wb * nr)%nat ->
  ld_user_key wb nr calls k1 = ld_user_key wb nr calls k2 -> k1 = k2.
Proof. exact ld_user_key_injective. Qed.
Print Assumptions C91_key_bytes_count_partial.
(* a key of whole words is loaded as its big-endian words *)
Theorem C91_whole_words : forall wb nr calls m key, (1 <= wb)%nat -> octets key -> key <> [] ->
  length key = (m * wb)%nat -> (length key <= calls)%nat -> (length key <= wb * nr)%nat ->
  ld_user_key wb nr calls key = map (fun i => be_val (firstn wb (skipn (i * wb) key))) (seq 0 m) ++ repeat 0 (nr - m).
Proof.
  intros wb nr calls m key H1 H2 H3 H4 H5 H6.
  pose proof (ld_user_key_words wb nr calls m 0 key H1 H2 H3 ltac:(lia) ltac:(lia) H5 H6) as E. exact E.
Qed.
Print Assumptions C91_whole_words.
(* Keys of 4m + 3 bytes: two of the last three bytes do not count, for every cipher that loads its key as
   32-bit words (paired with its number of words) and every m; such a key has 16 bits less than its length says *)
Theorem C91_lost_key_bytes_refuted : forall pre m a b a' b' c x,
  octets pre -> length pre = (m * 4)%nat -> a < 256 -> b < 256 -> a' < 256 -> b' < 256 -> c < 256 ->
  Forall (fun cn : blockcipher * nat => (m < snd cn)%nat ->
      bc_enc (fst cn) (pre ++ [a; b; c]) x = bc_enc (fst cn) (pre ++ [a'; b'; c]) x)
  [(des, 2%nat); (saferk64 (Some 6%Z), 2%nat); (feal (Some 8%Z), 2%nat);
   (aes128, 4%nat); (camellia128, 4%nat); (cast5, 4%nat); (idea, 4%nat); (noekeon_d, 4%nat);
   (aes192, 6%nat); (camellia192, 6%nat); (aes256, 8%nat); (camellia256, 8%nat); (gost_ds, 8%nat);
   (shacal1, 16%nat); (shacal2, 16%nat)].
Proof. exact lost_key_bytes. Qed.
Print Assumptions C91_lost_key_bytes_refuted.
(* e.g. AES-128 under these two accepted 15-byte keys is the same function *)
Example C91_case : forall x,
  bc_enc aes128 [1; 2; 3; 4; 5; 6; 7; 8; 9; 10; 11; 12; 0xde; 0xad; 15] x =
  bc_enc aes128 [1; 2; 3; 4; 5; 6; 7; 8; 9; 10; 11; 12; 0xbe; 0xef; 15] x.
Proof.
  intro x. pose proof (C91_lost_key_bytes_refuted [1; 2; 3; 4; 5; 6; 7; 8; 9; 10; 11; 12] 3 0xde 0xad 0xbe 0xef 15 x
    ltac:(repeat constructor) eq_refl eq_refl eq_refl eq_refl eq_refl eq_refl) as H.
  rewrite Forall_forall in H. apply (H (aes128, 4%nat)); [|cbn; lia]. cbn. auto 6.
Qed.

(* ------------------------------------------------------------------ C92 *)
(* The full statement: a DES task whose key is weak (encrypting twice gives the plaintext back) or semi-weak
   (one key undoes the other) ends with the key error. Proved for the four weak keys with odd parity. *)
Definition weak_key (key : list N) : Prop := forall x, block 8 x -> bc_enc des key (bc_enc des key x) = x.
Definition dual_keys (k1 k2 : list N) : Prop := forall x, block 8 x -> bc_enc des k2 (bc_enc des k1 x) = x.
Theorem C92_weak_keys_rejected_partial :
  Forall (fun key => weak_key key /\ bc_check des key = Done KeyError)
    [[0x01;0x01;0x01;0x01;0x01;0x01;0x01;0x01]; [0xFE;0xFE;0xFE;0xFE;0xFE;0xFE;0xFE;0xFE];
     [0xE0;0xE0;0xE0;0xE0;0xF1;0xF1;0xF1;0xF1]; [0x1F;0x1F;0x1F;0x1F;0x0E;0x0E;0x0E;0x0E]].
Proof.
  repeat (apply Forall_cons || apply Forall_nil); (split; [|vm_compute; reflexivity]);
    (intro x; apply des_dual; vm_compute; reflexivity).
Qed.
Print Assumptions C92_weak_keys_rejected_partial.
(* the same four keys without the parity bits are as weak and are accepted *)
Theorem C92_weak_keys_accepted_refuted :
  Forall (fun key => weak_key key /\ bc_check des key = Done Success)
    [[0;0;0;0;0;0;0;0]; [0xFF;0xFF;0xFF;0xFF;0xFF;0xFF;0xFF;0xFF];
     [0xE1;0xE1;0xE1;0xE1;0xF0;0xF0;0xF0;0xF0]; [0x1E;0x1E;0x1E;0x1E;0x0F;0x0F;0x0F;0x0F]].
Proof.
  repeat (apply Forall_cons || apply Forall_nil); (split; [|vm_compute; reflexivity]);
    (intro x; apply des_dual; vm_compute; reflexivity).
Qed.
Print Assumptions C92_weak_keys_accepted_refuted.
(* a semi-weak key of the standard list, with odd parity, is accepted: the table has a misspelt entry *)
Theorem C92_semi_weak_key_accepted_refuted :
  dual_keys [0x1F;0xE0;0x1F;0xE0;0x0E;0xF1;0x0E;0xF1] [0xE0;0x1F;0xE0;0x1F;0xF1;0x0E;0xF1;0x0E] /\
  bc_check des [0xE0;0x1F;0xE0;0x1F;0xF1;0x0E;0xF1;0x0E] = Done Success.
Proof. split; [intro x; apply des_dual; vm_compute; reflexivity|vm_compute; reflexivity]. Qed.
Print Assumptions C92_semi_weak_key_accepted_refuted.
(* and the misspelt key, which is not weak, is refused *)
Theorem C92_good_key_refused_refuted :
  bc_check des [0xE0;0xF1;0xE0;0xF1;0xF1;0x0E;0xF1;0x0E] = Done KeyError /\
  ~ weak_key [0xE0;0xF1;0xE0;0xF1;0xF1;0x0E;0xF1;0x0E].
Proof.
  split; [vm_compute; reflexivity|]. intro H. specialize (H (repeat 0 8) ltac:(split; [repeat constructor|reflexivity])).
  revert H. apply not_eqb_list. vm_compute. reflexivity.
Qed.
Print Assumptions C92_good_key_refused_refuted.

(* ------------------------------------------------------------------ C93 *)
(* The full statement: no key and parameter the library accepts makes a key expansion leave its arrays. The
   positive part, cipher by cipher, is the first half of the block theorems of C16-C35 (bc_check = Done Success).
   It is false for: *)
Theorem C93_key_expansion_overflow_refuted : forall key, any_user_key key ->
  ((56 < length key)%nat -> bc_check blowfish key = UB) /\
  ((32 < length key)%nat -> bc_check serpent key = UB) /\
  ((32 < length key)%nat -> bc_check mars128 key = UB /\ bc_check mars192 key = UB /\ bc_check mars256 key = UB) /\
  ((128 < length key)%nat -> bc_check present80 key = UB /\ bc_check present128 key = UB).
Proof.
  intros key [_ Hk]. split; [apply blowfish_ub, Hk|]. split; [apply serpent_ub|].
  split; intro H; repeat split; solve [apply mars_ub, H | apply present_ub, H].
Qed.
Print Assumptions C93_key_expansion_overflow_refuted.
Theorem C93_rounds_overflow_refuted :
  (forall rounds key, any_user_key key -> (14 <= rounds <= 800)%Z -> bc_check (saferk64 (Some rounds)) key = UB) /\
  (forall key, user_key 128 key -> bc_check (rc2 (Some 1025%Z)) key = UB) /\
  (forall junk_e junk_d key rounds, rounds = (-1)%Z \/ rounds = (-2)%Z ->
    (user_key 64 key -> bc_check (rc5 junk_e junk_d (Some rounds)) key = UB) /\
    (user_key 16 key -> bc_check (rc6_128 junk_e junk_d (Some rounds)) key = UB)).
Proof. exact (conj safer_rounds_ub (conj rc2_ub rc_negative_ub)). Qed.
Print Assumptions C93_rounds_overflow_refuted.
Example C93_case : any_user_key (repeat 7 57) /\ bc_check blowfish (repeat 7 57) = UB /\ bc_check blowfish (repeat 7 56) = Done Success.
Proof.
  split; [split; [discriminate|repeat constructor]|].
  split; [apply blowfish_ub; [repeat constructor|cbn; lia]|apply blowfish_defined; [repeat constructor|cbn; lia]].
Qed.
