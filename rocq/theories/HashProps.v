(* C39-C41: MD4, MD5, RIPEMD-128/160, SHA-1, SHA-2 against the standards of HashSpec.v, and incremental hashing. *)
From Verif Require Import Words EncSpec TaskModel CipherBase CipherLib StreamModel HashModel HashSpec HashProofs HashProofs3 HashProofs4.
From Coq Require Import PeanoNat.
Open Scope N_scope.

(* the implementations and the standards they name: block size 64, block size 128 *)
Definition hashes64 : list (hash_params * (list N -> list N)) :=
  [(md4, MD4); (md5, MD5); (ripemd128, RIPEMD128); (ripemd160, RIPEMD160); (sha1, SHA1); (sha224, SHA224); (sha256, SHA256)].
Definition hashes128 : list (hash_params * (list N -> list N)) := [(sha384, SHA384); (sha512, SHA512)].
(* hashing m in one call; hex asks for hexadecimal output *)
Definition hash_of (h : hash_params) (hex : bool) (m : list N) : outcome hash_run := hash_processor h hex (Some m) (N.of_nat (length m)).
(* success with this output *)
Definition returns (out : list N) : outcome hash_run := Done (mkHashRun Success (Some out) (N.of_nat (length out))).
Definition message (m : list N) : Prop := octets m /\ N.of_nat (length m) < 2 ^ 61.

(* ------------------------------------------------------------------ C40 *)
(* The standard digest, raw or in hexadecimal, for every message that is empty or does not end at a block boundary. What is
   missing for "every message" is refuted below. *)
Theorem C40_digest_64_partial : forall h H, In (h, H) hashes64 -> forall m, message m -> m = [] \/ (length m mod 64 <> 0)%nat ->
  hash_of h false m = returns (H m) /\ hash_of h true m = returns (rfc_base16 (H m)).
Proof. exact digest_64. Qed.
Print Assumptions C40_digest_64_partial.
Example C40_64_meets : message (range 70) /\ (length (range 70) mod 64 <> 0)%nat.
Proof. split; [split; [repeat constructor|reflexivity]|discriminate]. Qed.
(* SHA-384 and SHA-512 *)
Theorem C40_digest_128_partial : forall h H, In (h, H) hashes128 -> forall m, message m -> m = [] \/ (length m mod 128 <> 0)%nat ->
  (length m mod 128 < 112 \/ 120 <= length m mod 128)%nat ->
  hash_of h false m = returns (H m) /\ hash_of h true m = returns (rfc_base16 (H m)).
Proof. exact digest_128. Qed.
Print Assumptions C40_digest_128_partial.
(* no input, no digest *)
Theorem C40_null_input : forall h hex n, hash_processor h hex None n = Done (mkHashRun InvalidParams None 0).
Proof. reflexivity. Qed.
Print Assumptions C40_null_input.
(* each of them returns something else than the standard digest for some message: 64 (112) zero bytes *)
Theorem C40_digest_refuted : forall h H, In (h, H) (hashes64 ++ hashes128) -> exists m, message m /\ hash_of h false m <> returns (H m).
Proof. exact digest_refuted. Qed.
Print Assumptions C40_digest_refuted.
(* SHA-384 and SHA-512 also for lengths that are no multiple of the block size: 112 zero bytes *)
Theorem C40_sha384_sha512_refuted : forall h H, In (h, H) hashes128 ->
  let m := repeat 0 112 in message m /\ hash_of h false m <> returns (H m).
Proof. exact sha512_refuted. Qed.
Print Assumptions C40_sha384_sha512_refuted.

(* ------------------------------------------------------------------ C39 *)
(* what is hashed when the message ends at a block boundary: the message without any padding *)
Theorem C39_whole_blocks_unpadded_refuted : forall m, message m -> m <> [] ->
  ((length m mod 64 = 0)%nat ->
   hash_of md4 false m = returns (le_string 4 (iterate 64 MD4_block MD_init m)) /\
   hash_of md5 false m = returns (le_string 4 (iterate 64 MD5_block MD_init m)) /\
   hash_of ripemd128 false m = returns (le_string 4 (iterate 64 RMD128_block MD_init m)) /\
   hash_of ripemd160 false m = returns (le_string 4 (iterate 64 RMD160_block SHA1_init m)) /\
   hash_of sha1 false m = returns (be_string 4 (iterate 64 SHA1_block SHA1_init m)) /\
   hash_of sha224 false m = returns (be_string 4 (firstn 7 (iterate 64 (SHA2_block SHA32 4) SHA224_init m))) /\
   hash_of sha256 false m = returns (be_string 4 (iterate 64 (SHA2_block SHA32 4) SHA256_init m))) /\
  ((length m mod 128 = 0)%nat ->
   hash_of sha384 false m = returns (be_string 8 (firstn 6 (iterate 128 (SHA2_block SHA64 8) SHA384_init m))) /\
   hash_of sha512 false m = returns (be_string 8 (iterate 128 (SHA2_block SHA64 8) SHA512_init m))).
Proof. exact whole_blocks_unpadded. Qed.
Print Assumptions C39_whole_blocks_unpadded_refuted.
(* ... so collisions can be written down: a message and its own padding *)
Theorem C39_collisions_refuted : forall m, octets m -> N.of_nat (length m) + 128 < 2 ^ 61 -> m = [] \/ (length m mod 64 <> 0)%nat ->
  (forall h H, In (h, H) [(md4, MD4); (md5, MD5); (ripemd128, RIPEMD128); (ripemd160, RIPEMD160)] ->
    hash_of h false (pad_le 64 8 m) = hash_of h false m) /\
  (forall h H, In (h, H) [(sha1, SHA1); (sha224, SHA224); (sha256, SHA256)] ->
    hash_of h false (pad_be 64 8 m) = hash_of h false m) /\
  pad_le 64 8 m <> m /\ pad_be 64 8 m <> m.
Proof. exact collisions. Qed.
Print Assumptions C39_collisions_refuted.
(* SHA-384 and SHA-512 leave only eight bytes for the length when 112 to 119 bytes are in the last block *)
Theorem C39_sha512_short_length_refuted : forall m, message m -> (112 <= length m mod 128 < 120)%nat ->
  let p := m ++ [0x80] ++ repeat 0 (119 - length m mod 128) ++ be_bytes 8 (8 * N.of_nat (length m)) in
  (length p mod 128 = 0)%nat /\
  hash_of sha384 false m = returns (be_string 8 (firstn 6 (iterate 128 (SHA2_block SHA64 8) SHA384_init p))) /\
  hash_of sha512 false m = returns (be_string 8 (iterate 128 (SHA2_block SHA64 8) SHA512_init p)).
Proof. exact sha512_short_length. Qed.
Print Assumptions C39_sha512_short_length_refuted.

(* ------------------------------------------------------------------ C41 *)
(* the bytes given since the last finalize; a call with a null pointer adds nothing *)
Fixpoint pending (acc : list N) (cs : list hash_call) : list N :=
  match cs with
  | [] => acc
  | Update (Some c) :: cs => pending (acc ++ c) cs
  | Update None :: cs => pending acc cs
  | Finalize _ :: cs => pending [] cs
  end.
(* no message starts with two empty chunks *)
Fixpoint no_two_empty (one_empty nonempty : bool) (cs : list hash_call) : Prop :=
  match cs with
  | [] => True
  | Finalize _ :: cs => no_two_empty false false cs
  | Update None :: cs => no_two_empty one_empty nonempty cs
  | Update (Some []) :: cs => (one_empty = true -> nonempty = true) /\ no_two_empty true nonempty cs
  | Update (Some _) :: cs => no_two_empty one_empty true cs
  end.
(* After any such history of updates and finalizes on one task, finalize returns what one call of the hash returns for the
   concatenation of the chunks given since the last finalize, and leaves the task ready for the next message. Missing for
   "any sequence": see below. *)
Theorem C41_incremental_is_one_shot_partial : forall lib h cs, realloc0_frees lib = false \/ no_two_empty false false cs ->
  (exists t, hash_session lib h hash_init cs = Done t) /\
  forall hex r, hash_of h hex (pending [] cs) = Done r ->
  hash_session lib h hash_init (cs ++ [Finalize hex]) = Done (mkHT InNull (hr_result r) (hr_out r) (hr_out_size r)).
Proof.
  intros lib h cs H. apply incremental. destruct H as [H|H]; [left; exact H|right].
  revert H. generalize false at 1 3. generalize false. induction cs as [|c cs IH]; [reflexivity|]. intros b1 b2 H.
  destruct c as [[[|x l]|]|x]; cbn [no_two_empty HashProofs4.no_two_empty] in *; try (apply IH, H). split; [apply H|apply IH, H].
Qed.
Print Assumptions C41_incremental_is_one_shot_partial.
(* the one-shot call always returns *)
Theorem C41_one_shot_returns : forall h hex m, exists r, hash_of h hex m = Done r.
Proof. exact hash_total. Qed.
Print Assumptions C41_one_shot_returns.
Example C41_meets : no_two_empty false false [Update (Some [1; 2]); Update (Some []); Update None; Update (Some []); Update (Some [3]); Finalize true; Update (Some []); Update (Some [4])]
  /\ pending [] [Update (Some [1; 2]); Update (Some []); Update None; Update (Some []); Update (Some [3]); Finalize true; Update (Some []); Update (Some [4])] = [4].
Proof. cbn. intuition discriminate. Qed.
(* two empty chunks at the beginning: with a realloc that releases its argument for size 0 (glibc) the buffer is used after it was released *)
Theorem C41_two_empty_chunks_refuted : forall h hex c, let glibc := mkLib false true in
  hash_session glibc h hash_init [Update (Some []); Update (Some []); Finalize hex] = UB /\
  hash_session glibc h hash_init [Update (Some []); Update (Some []); Update (Some c)] = UB.
Proof. intros. split; reflexivity. Qed.
Print Assumptions C41_two_empty_chunks_refuted.
