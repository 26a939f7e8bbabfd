(* C87: Tiger and Whirlpool against TigerSpec.v and WhirlSpec.v. *)
From Verif Require Import Words EncSpec TaskModel CipherBase CipherLib StreamModel HashModel HashSpec HashProofs HashProofs3 HashProofs4 HashSim HashProps.
From Verif Require Import TigerModel TigerSpec TigerProofs WhirlModel WhirlSpec WhirlProofs.
From Coq Require Import PeanoNat.
Open Scope N_scope.

(* The standard Tiger digest, raw or in hexadecimal, for every message that is empty or does not end at a block boundary and whose last
   partial block does not have 48 to 55 bytes. What is missing for "every message" is refuted below. *)
Theorem C87_tiger_partial : forall m, message m -> m = [] \/ (length m mod 64 <> 0)%nat -> ~ (48 <= length m mod 64 < 56)%nat ->
  hash_of tiger false m = returns (TIGER m) /\ hash_of tiger true m = returns (rfc_base16 (TIGER m)).
Proof.
  intros m [Hm Hl] R Hn. unfold hash_of. rewrite !tiger_digest by assumption. rewrite tiger_pad by exact R. split; reflexivity.
Qed.
Print Assumptions C87_tiger_partial.
Example C87_tiger_meets : message (range 70) /\ (length (range 70) mod 64 <> 0)%nat /\ ~ (48 <= length (range 70) mod 64 < 56)%nat.
Proof. split; [split; [repeat constructor|reflexivity]|]. split; [discriminate|]. intros [H _]. apply Nat.leb_le in H. discriminate H. Qed.
(* the digests published with the algorithm: the empty message and "abc" *)
Example C87_tiger_vectors :
  TIGER [] = be_bytes 24 0x3293AC630C13F0245F92BBB1766E16167A4E58492DDE73F3 /\
  TIGER [97; 98; 99] = be_bytes 24 0x2AAB1484E8C158F2BFB8C5FF41B57A525129131C957B5F93.
Proof. split; vm_compute; reflexivity. Qed.
(* messages of whole blocks are hashed without any padding *)
Theorem C87_tiger_whole_blocks_unpadded_refuted : forall m, message m -> m <> [] -> (length m mod 64 = 0)%nat ->
  hash_of tiger false m = returns (le_string 8 (iterate 64 (Tiger_block Tiger_boxes) [0x0123456789ABCDEF; 0xFEDCBA9876543210; 0xF096A5B4C3B2E187] m)).
Proof.
  intros m [Hm Hl] Hn M. unfold hash_of. rewrite tiger_digest by (try assumption; rewrite M; intros [H _]; apply Nat.leb_le in H; discriminate H).
  rewrite no_pad by assumption. reflexivity.
Qed.
Print Assumptions C87_tiger_whole_blocks_unpadded_refuted.
(* ... so collisions can be written down: a message and its own padding *)
Theorem C87_tiger_collisions_refuted : forall m, octets m -> N.of_nat (length m) + 128 < 2 ^ 61 -> m = [] \/ (length m mod 64 <> 0)%nat -> ~ (48 <= length m mod 64 < 56)%nat ->
  let p := padded 64 8 0x01 (le_bytes 8) m in p <> m /\ hash_of tiger false p = hash_of tiger false m.
Proof. exact tiger_collision. Qed.
Print Assumptions C87_tiger_collisions_refuted.
(* 48 to 55 bytes in the last block: the bytes before the length are reversed too, and the digest is not the standard one *)
Theorem C87_tiger_48_refuted : let m := repeat 0 48 in message m /\ hash_of tiger false m <> returns (TIGER m).
Proof. split; [split; [repeat constructor|reflexivity]|]. intro H. vm_compute in H. discriminate H. Qed.
Print Assumptions C87_tiger_48_refuted.

(* The standard Whirlpool digest for every message that is empty or does not end at a block boundary *)
Theorem C87_whirlpool_partial : forall m, message m -> m = [] \/ (length m mod 64 <> 0)%nat ->
  hash_of whirlpool false m = returns (WHIRLPOOL m) /\ hash_of whirlpool true m = returns (rfc_base16 (WHIRLPOOL m)).
Proof.
  intros m [Hm Hl] R. unfold hash_of. rewrite !whirlpool_digest by assumption. rewrite whirlpool_pad by assumption. split; reflexivity.
Qed.
Print Assumptions C87_whirlpool_partial.
Lemma same_digest : forall o a b, o = returns a -> o = returns b -> a = b.
Proof. intros o a b -> H. injection H as H _. exact H. Qed.
(* the digest of the empty message in the ISO test vectors *)
Example C87_whirlpool_vector : let d := be_bytes 64
  0x19FA61D75522A4669B44E39C1D2E1726C530232130D407F89AFEE0964997F7A73E83BE698B288FEBCF88E3E03C4F0757EA8964E59B63D93708B138CC42A66EB3 in
  hash_of whirlpool false [] = returns d /\ WHIRLPOOL [] = d.
Proof.
  intro d. assert (hash_of whirlpool false [] = returns d) as E by (vm_compute; reflexivity). split; [exact E|].
  destruct (C87_whirlpool_partial [] ltac:(split; [constructor|reflexivity]) (or_introl eq_refl)) as [F _].
  exact (same_digest _ _ _ F E).
Qed.
Theorem C87_whirlpool_whole_blocks_unpadded_refuted : forall m, message m -> m <> [] -> (length m mod 64 = 0)%nat ->
  hash_of whirlpool false m = returns (iterate 64 W_block (repeat 0 64) m).
Proof. intros m [Hm Hl] Hn M. unfold hash_of. rewrite whirlpool_digest by assumption. rewrite no_pad by assumption. reflexivity. Qed.
Print Assumptions C87_whirlpool_whole_blocks_unpadded_refuted.
Theorem C87_whirlpool_collisions_refuted : forall m, octets m -> N.of_nat (length m) + 128 < 2 ^ 61 -> m = [] \/ (length m mod 64 <> 0)%nat ->
  let p := pad_be 64 32 m in p <> m /\ hash_of whirlpool false p = hash_of whirlpool false m.
Proof. exact whirlpool_collision. Qed.
Print Assumptions C87_whirlpool_collisions_refuted.
