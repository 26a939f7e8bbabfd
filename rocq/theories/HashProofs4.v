(* Lemmas behind HashProps.v. *)
From Verif Require Import Words EncSpec TaskModel CipherBase CipherLib StreamModel HashModel HashSpec HashProofs HashProofs2 HashProofs3.
From Coq Require Import PeanoNat.
Open Scope N_scope.

Definition hashes64 : list (hash_params * (list N -> list N)) :=
  [(md4, MD4); (md5, MD5); (ripemd128, RIPEMD128); (ripemd160, RIPEMD160); (sha1, SHA1); (sha224, SHA224); (sha256, SHA256)].
Definition hashes128 : list (hash_params * (list N -> list N)) := [(sha384, SHA384); (sha512, SHA512)].
Definition hash_of (h : hash_params) (hex : bool) (m : list N) : outcome hash_run := hash_processor h hex (Some m) (N.of_nat (length m)).
Definition returns (out : list N) : outcome hash_run := Done (mkHashRun Success (Some out) (N.of_nat (length out))).
Definition message (m : list N) : Prop := octets m /\ N.of_nat (length m) < 2 ^ 61.

(* a hash in terms of the pieces of its standard *)
Definition made_of (h : hash_params) (bs : nat) (field : N -> list N) (block : list N -> list N -> list N) (init : list N) (out : list N -> list N) : Prop :=
  forall hex m, octets m -> N.of_nat (length m) < 2 ^ 61 ->
  hash_processor h hex (Some m) (N.of_nat (length m)) = Done (ok (shown hex (out (iterate bs block init (code_padded bs (bs - 8) 0x80 field m))))).
Ltac pick_hash :=
  match goal with
  | H : In _ _ |- _ => cbn [In hashes64 hashes128 app] in H; repeat (destruct H as [H|H]; [injection H as <- <-|]); [..|destruct H]
  end.
Lemma std64 : forall h field block init out, made_of h 64 field block init out -> forall m, message m -> m = [] \/ (length m mod 64 <> 0)%nat ->
  let H m := out (iterate 64 block init (padded 64 8 0x80 field m)) in
  hash_of h false m = returns (H m) /\ hash_of h true m = returns (rfc_base16 (H m)).
Proof.
  intros h field block init out A m [Hm Hl] R H. unfold hash_of. split; rewrite A by assumption; change (64 - 8)%nat with 56%nat; rewrite pad64 by exact R; reflexivity.
Qed.
Definition p224 (s : list N) : list N := be_string 4 (firstn 7 s).
Definition p384 (s : list N) : list N := be_string 8 (firstn 6 s).
Lemma m_md4 : made_of md4 64 (le_bytes 8) MD4_block MD_init (le_string 4). Proof. exact md4_digest. Qed.
Lemma m_md5 : made_of md5 64 (le_bytes 8) MD5_block MD_init (le_string 4). Proof. exact md5_digest. Qed.
Lemma m_rmd128 : made_of ripemd128 64 (le_bytes 8) RMD128_block MD_init (le_string 4). Proof. exact rmd128_digest. Qed.
Lemma m_rmd160 : made_of ripemd160 64 (le_bytes 8) RMD160_block SHA1_init (le_string 4). Proof. exact rmd160_digest. Qed.
Lemma m_sha1 : made_of sha1 64 (be_bytes 8) SHA1_block SHA1_init (be_string 4). Proof. exact sha1_digest. Qed.
Lemma m_sha224 : made_of sha224 64 (be_bytes 8) (SHA2_block SHA32 4) SHA224_init p224. Proof. exact sha224_digest. Qed.
Lemma m_sha256 : made_of sha256 64 (be_bytes 8) (SHA2_block SHA32 4) SHA256_init (be_string 4). Proof. exact sha256_digest. Qed.
Lemma m_sha384 : made_of sha384 128 (be_bytes 8) (SHA2_block SHA64 8) SHA384_init p384. Proof. exact sha384_digest. Qed.
Lemma m_sha512 : made_of sha512 128 (be_bytes 8) (SHA2_block SHA64 8) SHA512_init (be_string 8). Proof. exact sha512_digest. Qed.
Lemma digest_64 : forall h H, In (h, H) hashes64 -> forall m, message m -> m = [] \/ (length m mod 64 <> 0)%nat ->
  hash_of h false m = returns (H m) /\ hash_of h true m = returns (rfc_base16 (H m)).
Proof.
  intros h H Hin m Hm R. pick_hash.
  - exact (std64 _ _ _ _ _ m_md4 m Hm R).
  - exact (std64 _ _ _ _ _ m_md5 m Hm R).
  - exact (std64 _ _ _ _ _ m_rmd128 m Hm R).
  - exact (std64 _ _ _ _ _ m_rmd160 m Hm R).
  - exact (std64 _ _ _ _ _ m_sha1 m Hm R).
  - exact (std64 _ _ _ _ _ m_sha224 m Hm R).
  - exact (std64 _ _ _ _ _ m_sha256 m Hm R).
Qed.
Lemma std128 : forall h block init out, made_of h 128 (be_bytes 8) block init out -> forall m, message m -> m = [] \/ (length m mod 128 <> 0)%nat ->
  (length m mod 128 < 112 \/ 120 <= length m mod 128)%nat ->
  let H m := out (iterate 128 block init (pad_be 128 16 m)) in
  hash_of h false m = returns (H m) /\ hash_of h true m = returns (rfc_base16 (H m)).
Proof.
  intros h block init out A m [Hm Hl] R O H. unfold hash_of. split; rewrite A by assumption; change (128 - 8)%nat with 120%nat; rewrite pad128 by assumption; reflexivity.
Qed.
Lemma digest_128 : forall h H, In (h, H) hashes128 -> forall m, message m -> m = [] \/ (length m mod 128 <> 0)%nat ->
  (length m mod 128 < 112 \/ 120 <= length m mod 128)%nat ->
  hash_of h false m = returns (H m) /\ hash_of h true m = returns (rfc_base16 (H m)).
Proof.
  intros h H Hin m Hm R O. pick_hash.
  - exact (std128 _ _ _ _ m_sha384 m Hm R O).
  - exact (std128 _ _ _ _ m_sha512 m Hm R O).
Qed.

(* whole blocks *)
Lemma whole : forall h bs field block init out m, made_of h bs field block init out -> message m -> m <> [] -> (length m mod bs = 0)%nat ->
  hash_of h false m = returns (out (iterate bs block init m)).
Proof. intros h bs field block init out m A [Hm Hl] N M. unfold hash_of. rewrite A by assumption. rewrite no_pad by assumption. reflexivity. Qed.
Lemma whole_blocks_unpadded : forall m, message m -> m <> [] ->
  ((length m mod 64 = 0)%nat ->
   hash_of md4 false m = returns (le_string 4 (iterate 64 MD4_block MD_init m)) /\
   hash_of md5 false m = returns (le_string 4 (iterate 64 MD5_block MD_init m)) /\
   hash_of ripemd128 false m = returns (le_string 4 (iterate 64 RMD128_block MD_init m)) /\
   hash_of ripemd160 false m = returns (le_string 4 (iterate 64 RMD160_block SHA1_init m)) /\
   hash_of sha1 false m = returns (be_string 4 (iterate 64 SHA1_block SHA1_init m)) /\
   hash_of sha224 false m = returns (be_string 4 (firstn 7 (iterate 64 (SHA2_block SHA32 4) SHA224_init m))) /\
   hash_of sha256 false m = returns (be_string 4 (iterate 64 (SHA2_block SHA32 4) SHA256_init m))) /\
  ((length m mod 128 = 0)%nat ->
   hash_of sha384 false m = returns (be_string 8 (firstn 6 (iterate 128 (SHA2_block SHA64 8) SHA384_init m))) /\
   hash_of sha512 false m = returns (be_string 8 (iterate 128 (SHA2_block SHA64 8) SHA512_init m))).
Proof.
  intros m Hm N. split; intro M.
  - split; [exact (whole _ _ _ _ _ _ m m_md4 Hm N M)|]. split; [exact (whole _ _ _ _ _ _ m m_md5 Hm N M)|]. split; [exact (whole _ _ _ _ _ _ m m_rmd128 Hm N M)|].
    split; [exact (whole _ _ _ _ _ _ m m_rmd160 Hm N M)|]. split; [exact (whole _ _ _ _ _ _ m m_sha1 Hm N M)|].
    split; [exact (whole _ _ _ _ _ _ m m_sha224 Hm N M)|exact (whole _ _ _ _ _ _ m m_sha256 Hm N M)].
  - split; [exact (whole _ _ _ _ _ _ m m_sha384 Hm N M)|exact (whole _ _ _ _ _ _ m m_sha512 Hm N M)].
Qed.
Lemma sha512_short_length : forall m, message m -> (112 <= length m mod 128 < 120)%nat ->
  let p := m ++ [0x80] ++ repeat 0 (119 - length m mod 128) ++ be_bytes 8 (8 * N.of_nat (length m)) in
  (length p mod 128 = 0)%nat /\
  hash_of sha384 false m = returns (be_string 8 (firstn 6 (iterate 128 (SHA2_block SHA64 8) SHA384_init p))) /\
  hash_of sha512 false m = returns (be_string 8 (iterate 128 (SHA2_block SHA64 8) SHA512_init p)).
Proof.
  intros m [Hm Hl] R p.
  assert (code_padded 128 120 0x80 (be_bytes 8) m = p) as E.
  { unfold code_padded. replace (Nat.eqb (length m mod 128) 0) with false by (symmetry; apply Nat.eqb_neq; lia).
    rewrite Bool.andb_false_r. unfold p, code_zeros. replace (Nat.ltb (length m mod 128) 120) with true by (symmetry; apply Nat.ltb_lt; lia). reflexivity. }
  split.
  - rewrite <- E. apply code_padded_blocks; [lia|lia|apply be_bytes_length].
  - rewrite <- E. unfold hash_of. rewrite sha384_digest, sha512_digest by assumption. split; reflexivity.
Qed.

(* collisions *)
Lemma padded_blocks : forall m field, (forall t, length (field t) = 8%nat) -> m = [] \/ (length m mod 64 <> 0)%nat -> (length (padded 64 8 0x80 field m) mod 64 = 0)%nat.
Proof. intros m field L R. rewrite <- pad64 by exact R. apply code_padded_blocks; [lia|lia|apply L]. Qed.
Lemma padded_longer : forall m field, (forall t, length (field t) = 8%nat) -> (9 <= length (padded 64 8 0x80 field m) - length m <= 9 + 63)%nat.
Proof.
  intros m field L. unfold padded. rewrite !app_length, repeat_length, L. cbn [length]. unfold zeros_needed.
  pose proof (Nat.mod_upper_bound (64 - (length m + 1 + 8) mod 64) 64 ltac:(lia)). lia.
Qed.
Lemma padded_octets : forall m field, octets m -> (forall t, octets (field t)) -> octets (padded 64 8 0x80 field m).
Proof.
  intros m field Hm Hf. unfold padded, octets. apply Forall_app. split; [exact Hm|]. apply Forall_app. split; [repeat constructor|].
  apply Forall_app. split; [|apply Hf]. apply Forall_forall. intros x H. apply repeat_spec in H. subst. reflexivity.
Qed.
Lemma collide : forall h field block init out m, made_of h 64 field block init out -> (forall t, length (field t) = 8%nat /\ octets (field t)) ->
  octets m -> N.of_nat (length m) + 128 < 2 ^ 61 -> m = [] \/ (length m mod 64 <> 0)%nat ->
  hash_of h false (padded 64 8 0x80 field m) = hash_of h false m.
Proof.
  intros h field block init out m A F Hm Hl R. pose proof (padded_longer m field (fun t => proj1 (F t))) as Lp.
  assert (message (padded 64 8 0x80 field m)) as Hp. { split; [apply padded_octets; [assumption|apply F]|]. lia. }
  rewrite (whole h 64 field block init out _ A Hp); [|intro E; rewrite E in Lp; cbn [length] in Lp; lia|apply padded_blocks; [apply F|assumption]].
  unfold hash_of. rewrite A by (try assumption; lia). change (64 - 8)%nat with 56%nat. rewrite pad64 by exact R. reflexivity.
Qed.
Lemma longer_differs : forall m field, (forall t, length (field t) = 8%nat) -> padded 64 8 0x80 field m <> m.
Proof. intros m field L E. pose proof (padded_longer m field L) as P. rewrite E in P. lia. Qed.
Lemma le8 : forall t, length (le_bytes 8 t) = 8%nat /\ octets (le_bytes 8 t).
Proof. intro t. split; [apply le_bytes_length|apply (proj2 (octets_bytes _)), le_bytes_bytes]. Qed.
Lemma be8 : forall t, length (be_bytes 8 t) = 8%nat /\ octets (be_bytes 8 t).
Proof. intro t. split; [apply be_bytes_length|apply (proj2 (octets_bytes _)), be_bytes_bytes]. Qed.
Lemma collisions : forall m, octets m -> N.of_nat (length m) + 128 < 2 ^ 61 -> m = [] \/ (length m mod 64 <> 0)%nat ->
  (forall h H, In (h, H) [(md4, MD4); (md5, MD5); (ripemd128, RIPEMD128); (ripemd160, RIPEMD160)] ->
    hash_of h false (pad_le 64 8 m) = hash_of h false m) /\
  (forall h H, In (h, H) [(sha1, SHA1); (sha224, SHA224); (sha256, SHA256)] ->
    hash_of h false (pad_be 64 8 m) = hash_of h false m) /\
  pad_le 64 8 m <> m /\ pad_be 64 8 m <> m.
Proof.
  intros m Hm Hl R. split; [|split; [|split]].
  - intros h H Hin. pick_hash.
    + exact (collide _ _ _ _ _ m m_md4 le8 Hm Hl R).
    + exact (collide _ _ _ _ _ m m_md5 le8 Hm Hl R).
    + exact (collide _ _ _ _ _ m m_rmd128 le8 Hm Hl R).
    + exact (collide _ _ _ _ _ m m_rmd160 le8 Hm Hl R).
  - intros h H Hin. pick_hash.
    + exact (collide _ _ _ _ _ m m_sha1 be8 Hm Hl R).
    + exact (collide _ _ _ _ _ m m_sha224 be8 Hm Hl R).
    + exact (collide _ _ _ _ _ m m_sha256 be8 Hm Hl R).
  - apply longer_differs. apply le8.
  - apply longer_differs. apply be8.
Qed.

(* wrong digests: the standard digest of m is what the code computes for the padded m, so two runs of the code can be compared *)
Definition out_of (o : outcome hash_run) : list N := match o with Done r => match hr_out r with Some x => x | None => [] end | UB => [] end.
Definition differ (h : hash_params) (m p : list N) : bool := negb (eqb_list (out_of (hash_of h false m)) (out_of (hash_of h false p))).
Lemma msg_zeros : forall n, N.of_nat n < 2 ^ 61 -> message (repeat 0 n).
Proof.
  intros n H. split; [|rewrite repeat_length; exact H]. apply Forall_forall. intros x Hx. apply repeat_spec in Hx. subst. reflexivity.
Qed.
Definition whole_message (bs : nat) (p : list N) : bool := (forallb (fun x => x <? 256) p && (N.of_nat (length p) <? 2 ^ 61) && negb (Nat.eqb (length p) 0) && Nat.eqb (length p mod bs) 0)%bool.
Lemma whole_message_spec : forall bs p, whole_message bs p = true -> message p /\ p <> [] /\ (length p mod bs = 0)%nat.
Proof.
  intros bs p H. unfold whole_message in H. apply Bool.andb_true_iff in H. destruct H as [H M]. apply Bool.andb_true_iff in H. destruct H as [H N].
  apply Bool.andb_true_iff in H. destruct H as [O L]. split; [split|split].
  - unfold octets. rewrite Forall_forall. rewrite forallb_forall in O. intros x Hx. apply N.ltb_lt, O, Hx.
  - apply N.ltb_lt, L.
  - intro E. subst p. discriminate.
  - apply Nat.eqb_eq, M.
Qed.
Lemma wrong : forall h bs field block init out H pad m, made_of h bs field block init out -> (forall m, H m = out (iterate bs block init (pad m))) ->
  whole_message bs (pad m) = true -> differ h m (pad m) = true ->
  hash_of h false m <> returns (H m).
Proof.
  intros h bs field block init out H pad m A EH W D. rewrite EH.
  revert W D. generalize (pad m). intros p W D. destruct (whole_message_spec _ _ W) as (Wm & Wn & Wb).
  rewrite <- (whole h bs field block init out p A Wm Wn Wb). intro E. unfold differ in D. rewrite E in D.
  assert (forall l, eqb_list l l = true) as X by (intro l; apply eqb_list_eq; reflexivity). rewrite X in D. discriminate.
Qed.
Definition z64 := repeat 0 64.
Definition z112 := repeat 0 112.
Lemma w_le : whole_message 64 (pad_le 64 8 z64) = true. Proof. vm_compute. reflexivity. Qed.
Lemma w_be : whole_message 64 (pad_be 64 8 z64) = true. Proof. vm_compute. reflexivity. Qed.
Lemma w_112 : whole_message 128 (pad_be 128 16 z112) = true. Proof. vm_compute. reflexivity. Qed.
Lemma d_md4 : differ md4 z64 (pad_le 64 8 z64) = true. Proof. vm_compute. reflexivity. Qed.
Lemma d_md5 : differ md5 z64 (pad_le 64 8 z64) = true. Proof. vm_compute. reflexivity. Qed.
Lemma d_rmd128 : differ ripemd128 z64 (pad_le 64 8 z64) = true. Proof. vm_compute. reflexivity. Qed.
Lemma d_rmd160 : differ ripemd160 z64 (pad_le 64 8 z64) = true. Proof. vm_compute. reflexivity. Qed.
Lemma d_sha1 : differ sha1 z64 (pad_be 64 8 z64) = true. Proof. vm_compute. reflexivity. Qed.
Lemma d_sha224 : differ sha224 z64 (pad_be 64 8 z64) = true. Proof. vm_compute. reflexivity. Qed.
Lemma d_sha256 : differ sha256 z64 (pad_be 64 8 z64) = true. Proof. vm_compute. reflexivity. Qed.
Lemma d_sha384' : differ sha384 z112 (pad_be 128 16 z112) = true. Proof. vm_compute. reflexivity. Qed.
Lemma d_sha512' : differ sha512 z112 (pad_be 128 16 z112) = true. Proof. vm_compute. reflexivity. Qed.
Lemma digest_refuted : forall h H, In (h, H) (hashes64 ++ hashes128) -> exists m, message m /\ hash_of h false m <> returns (H m).
Proof.
  intros h H Hin. pick_hash.
  - exists z64. split; [apply msg_zeros; reflexivity|exact (wrong _ _ _ _ _ _ MD4 _ _ m_md4 (fun m => eq_refl) w_le d_md4)].
  - exists z64. split; [apply msg_zeros; reflexivity|exact (wrong _ _ _ _ _ _ MD5 _ _ m_md5 (fun m => eq_refl) w_le d_md5)].
  - exists z64. split; [apply msg_zeros; reflexivity|exact (wrong _ _ _ _ _ _ RIPEMD128 _ _ m_rmd128 (fun m => eq_refl) w_le d_rmd128)].
  - exists z64. split; [apply msg_zeros; reflexivity|exact (wrong _ _ _ _ _ _ RIPEMD160 _ _ m_rmd160 (fun m => eq_refl) w_le d_rmd160)].
  - exists z64. split; [apply msg_zeros; reflexivity|exact (wrong _ _ _ _ _ _ SHA1 _ _ m_sha1 (fun m => eq_refl) w_be d_sha1)].
  - exists z64. split; [apply msg_zeros; reflexivity|exact (wrong _ _ _ _ _ _ SHA224 _ _ m_sha224 (fun m => eq_refl) w_be d_sha224)].
  - exists z64. split; [apply msg_zeros; reflexivity|exact (wrong _ _ _ _ _ _ SHA256 _ _ m_sha256 (fun m => eq_refl) w_be d_sha256)].
  - exists z112. split; [apply msg_zeros; reflexivity|exact (wrong _ _ _ _ _ _ SHA384 _ _ m_sha384 (fun m => eq_refl) w_112 d_sha384')].
  - exists z112. split; [apply msg_zeros; reflexivity|exact (wrong _ _ _ _ _ _ SHA512 _ _ m_sha512 (fun m => eq_refl) w_112 d_sha512')].
Qed.
Lemma sha512_refuted : forall h H, In (h, H) hashes128 -> let m := repeat 0 112 in message m /\ hash_of h false m <> returns (H m).
Proof.
  intros h H Hin m. split; [apply msg_zeros; reflexivity|]. pick_hash.
  - exact (wrong _ _ _ _ _ _ SHA384 _ _ m_sha384 (fun m => eq_refl) w_112 d_sha384').
  - exact (wrong _ _ _ _ _ _ SHA512 _ _ m_sha512 (fun m => eq_refl) w_112 d_sha512').
Qed.

(* ---- the hash frame never leaves its buffers *)
Lemma do_block_total : forall h curr total c, hc_p2 c = false -> exists c', do_block h 2 curr total c = Done c' /\ hc_p2 c' = false.
Proof.
  intros h curr total c E. cbn [do_block]. unfold apply_pad. rewrite E. rewrite Bool.orb_false_r.
  destruct (Nat.ltb curr (hp_nr h * hp_wb h)) eqn:E1.
  - destruct (Nat.ltb curr (hp_off h)) eqn:E2.
    + eexists. split; [reflexivity|reflexivity].
    + cbn [orb]. eexists. split; reflexivity.
  - eexists. split; reflexivity.
Qed.
Lemma flush_total : forall h total b c, hc_p2 c = false -> exists c', flush h total b c = Done c' /\ hc_p2 c' = false.
Proof. intros h total b c E. unfold flush. apply do_block_total. exact E. Qed.
Lemma bytes_total : forall h total m b c, hc_p2 c = false -> exists b' c', fold_left (hash_byte h total) m (Done (b, c)) = Done (b', c') /\ hc_p2 c' = false.
Proof.
  intros h total m. induction m as [|x m IH]; intros b c E; cbn [fold_left]; [exists b, c; split; [reflexivity|exact E]|].
  unfold hash_byte at 2. cbn [obind]. destruct (Nat.ltb (length b) (hp_nr h * hp_wb h)); [apply IH, E|].
  destruct (flush_total h total b c E) as (c' & F & E'). rewrite F. cbn [obind]. apply IH, E'.
Qed.
Lemma hash_total : forall h hex m, exists r, hash_of h hex m = Done r.
Proof.
  intros h hex m. unfold hash_of, hash_processor. cbv zeta.
  assert (exists l, StreamModel.buf (Some m) (shr (shlw 64 (N.of_nat (length m)) 3) 3) = Done l) as [l El].
  { unfold StreamModel.buf. destruct (_ <? _) eqn:E; [|eexists; reflexivity]. exfalso.
    apply N.ltb_lt in E. unfold shlw in E. rewrite N.shiftr_div_pow2, N.shiftl_mul_pow2 in E. change (2 ^ 3) with 8 in E.
    pose proof (N.mod_le (N.of_nat (length m) * 8) (2 ^ 64) ltac:(discriminate)).
    pose proof (N.div_le_mono _ _ 8 ltac:(discriminate) H) as D. rewrite N.div_mul in D by discriminate. lia. }
  rewrite El. cbn [obind]. unfold process_message.
  destruct (bytes_total h (shlw 64 (N.of_nat (length m)) 3) l [] (mkCtx (repeat 0 (hp_nr h)) (hp_init h) false) eq_refl) as (b & c & F & E).
  rewrite F. cbn [obind]. destruct (flush_total h (shlw 64 (N.of_nat (length m)) 3) b c E) as (c' & F' & _). rewrite F'. cbn [obind]. eexists. reflexivity.
Qed.
(* ---- incremental hashing *)
Fixpoint pending (acc : list N) (cs : list hash_call) : list N :=
  match cs with
  | [] => acc
  | Update (Some c) :: cs => pending (acc ++ c) cs
  | Update None :: cs => pending acc cs
  | Finalize _ :: cs => pending [] cs
  end.
Fixpoint no_two_empty (one_empty nonempty : bool) (cs : list hash_call) : Prop :=
  match cs with
  | [] => True
  | Finalize _ :: cs => no_two_empty false false cs
  | Update None :: cs => no_two_empty one_empty nonempty cs
  | Update (Some []) :: cs => (one_empty = true -> nonempty = true) /\ no_two_empty true nonempty cs
  | Update (Some _) :: cs => no_two_empty one_empty true cs
  end.
(* the task holds the bytes acc *)
Definition holds (one_empty nonempty : bool) (acc : list N) (t : hash_task) : Prop :=
  (ht_in t = InNull /\ acc = [] \/ ht_in t = InLive acc /\ (acc = [] -> one_empty = true)) /\ (nonempty = true -> acc <> []).
Lemma session_app : forall lib h cs ds t, hash_session lib h t (cs ++ ds) = obind (hash_session lib h t cs) (fun t => hash_session lib h t ds).
Proof.
  intros lib h cs ds. induction cs as [|c cs IH]; intro t; cbn [app hash_session]; [reflexivity|].
  destruct (hash_step lib h t c) as [t2|]; cbn [obind]; [apply IH|reflexivity].
Qed.
Lemma session_holds : forall lib h cs oe ne acc t, holds oe ne acc t -> realloc0_frees lib = false \/ no_two_empty oe ne cs ->
  exists oe' ne' t', hash_session lib h t cs = Done t' /\ holds oe' ne' (pending acc cs) t'.
Proof.
  intros lib h cs. induction cs as [|c cs IH]; intros oe ne acc t Ht S; cbn [hash_session pending]; [exists oe, ne, t; split; [reflexivity|exact Ht]|].
  destruct c as [[ch|]|hex]; cbn [hash_step].
  - unfold hash_update. destruct Ht as [[[E Ea]|[E Ea]] Hne]; rewrite E.
    + subst acc. cbn [app]. destruct (Nat.eqb (length ch) 0 && malloc0_null lib)%bool eqn:B.
      * apply Bool.andb_true_iff in B. destruct B as [B _]. apply Nat.eqb_eq in B. destruct ch; [|discriminate]. cbn [obind].
        apply (IH true ne); [|destruct S as [S|S]; [left; exact S|right; apply S]]. split; [left; split; reflexivity|exact Hne].
      * cbn [obind]. destruct ch as [|x ch].
        -- apply (IH true ne); [|destruct S as [S|S]; [left; exact S|right; apply S]]. split; [right; split; reflexivity|exact Hne].
        -- apply (IH oe true); [|destruct S as [S|S]; [left; exact S|right; exact S]]. split; [right; split; [reflexivity|discriminate]|discriminate].
    + destruct (Nat.eqb (length acc + length ch) 0 && realloc0_frees lib)%bool eqn:B.
      * exfalso. apply Bool.andb_true_iff in B. destruct B as [B R]. apply Nat.eqb_eq in B. destruct ch; [|cbn [length] in B; lia]. destruct acc; [|discriminate].
        destruct S as [S|S]; [congruence|]. cbn [no_two_empty] in S. apply Hne; [|reflexivity]. apply S. apply Ea. reflexivity.
      * cbn [obind]. destruct ch as [|x ch].
        -- rewrite app_nil_r. apply (IH true ne); [|destruct S as [S|S]; [left; exact S|right; apply S]]. split; [right; split; reflexivity|exact Hne].
        -- apply (IH oe true); [|destruct S as [S|S]; [left; exact S|right; exact S]].
           split; [right; split; [reflexivity|intro X; destruct acc; discriminate]|intros _ X; destruct acc; discriminate].
  - cbn [hash_update obind]. apply (IH oe ne); [exact Ht|]. destruct S as [S|S]; [left; exact S|right; exact S].
  - unfold hash_finalize. cbv zeta.
    assert (S' : realloc0_frees lib = false \/ no_two_empty false false cs) by (destruct S as [S|S]; [left; exact S|right; exact S]).
    assert (forall r : hash_run, holds false false [] (mkHT InNull (hr_result r) (hr_out r) (hr_out_size r))) as X.
    { intro r. split; [left; split; reflexivity|discriminate]. }
    destruct Ht as [[[E Ea]|[E Ea]] Hne]; rewrite E.
    + destruct (hash_total h hex []) as [r Er]. unfold hash_of in Er. rewrite Er. cbn [obind]. exact (IH _ _ _ _ (X r) S').
    + destruct (hash_total h hex acc) as [r Er]. unfold hash_of in Er. rewrite Er. cbn [obind]. exact (IH _ _ _ _ (X r) S').
Qed.
Lemma incremental : forall lib h cs, realloc0_frees lib = false \/ no_two_empty false false cs ->
  (exists t, hash_session lib h hash_init cs = Done t) /\
  forall hex r, hash_of h hex (pending [] cs) = Done r ->
  hash_session lib h hash_init (cs ++ [Finalize hex]) = Done (mkHT InNull (hr_result r) (hr_out r) (hr_out_size r)).
Proof.
  intros lib h cs S. destruct (session_holds lib h cs false false [] hash_init) as (oe & ne & t & E & [Ht _]).
  - split; [left; split; reflexivity|discriminate].
  - exact S.
  - split; [exists t; exact E|]. intros hex r R. rewrite session_app, E. cbn [obind hash_session hash_step]. unfold hash_finalize. cbv zeta. unfold hash_of in R.
    destruct Ht as [[Et Ea]|[Et _]]; rewrite Et; [rewrite Ea in R|]; rewrite R; reflexivity.
Qed.
