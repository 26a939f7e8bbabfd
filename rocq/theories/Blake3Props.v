(* C86: BLAKE3 against its specification (Blake3Spec.v). *)
From Verif Require Import Words EncSpec TaskModel CipherBase CipherLib StreamModel HashModel Blake3Model BlakeSpec Blake3Spec BlakeProofs2 Blake3Proofs4.
From Coq Require Import List PeanoNat Lia.
Open Scope N_scope.

(* Full statement: every message. Missing: the empty message (blake3_empty_refuted) and those of 2^60 bytes and more. *)
Theorem blake3_is_standard_partial : forall hex k kn m, good_key k kn -> octets m -> m <> [] -> N.of_nat (length m) < 2 ^ 60 ->
  let z := BLAKE3 32 k m in
  blake3_processor hex k kn (Some m) (N.of_nat (length m)) = returns (if hex then rfc_base16 z else z).
Proof. exact blake3_ok. Qed.
Print Assumptions blake3_is_standard_partial.

(* The same for a hash of any size, given in out_size. *)
Theorem blake3N_is_standard_partial : forall hex nn k kn m, (0 < nn)%nat -> N.of_nat nn < 2 ^ 60 -> good_key k kn -> octets m -> m <> [] -> N.of_nat (length m) < 2 ^ 60 ->
  let z := BLAKE3 nn k m in
  blake3N_processor hex (N.of_nat nn) k kn (Some m) (N.of_nat (length m)) = returns (if hex then rfc_base16 z else z).
Proof. exact blake3N_ok. Qed.
Print Assumptions blake3N_is_standard_partial.

(* No message, a key that has not 32 bytes, a hash of no bytes: refused. *)
Theorem blake3_refuses : forall hex nn k kn m n,
  blake3_processor hex k kn None n = Done (mkHashRun InvalidParams None 0) /\
  blake3N_processor hex nn k kn None n = Done (mkHashRun InvalidParams None nn) /\
  ((k = None /\ kn <> 0) \/ (k <> None /\ kn <> 32) ->
     blake3_processor hex k kn (Some m) n = Done (mkHashRun KeyError None 0) /\ blake3N_processor hex nn k kn (Some m) n = Done (mkHashRun KeyError None nn)) /\
  (good_key k kn -> blake3N_processor hex 0 k kn (Some m) n = Done (mkHashRun ProcessError None 0)).
Proof. exact refuse3. Qed.
Print Assumptions blake3_refuses.

(* The empty message, which the standard hashes like any other, is undefined behaviour (a 32-bit word shifted by 32). *)
Theorem blake3_empty_refuted : forall hex k kn, good_key k kn -> blake3_processor hex k kn (Some []) 0 = UB.
Proof. exact empty_ub. Qed.
Print Assumptions blake3_empty_refuted.

(* Key derivation. Full statement: every context and key. Missing: contexts of more than one chunk (blake3_context_collision_refuted)
   and empty ones. The buffer returned is the key asked for and then zeros up to a multiple of 32 bytes. *)
Theorem blake3_derive_key_partial : forall size c m, 0 < size < 2 ^ 60 -> octets c -> c <> [] -> (length c <= 1024)%nat -> octets m -> m <> [] -> N.of_nat (length m) < 2 ^ 60 ->
  exists z, blake3_kdf (Some c) (N.of_nat (length c)) (Some m) (N.of_nat (length m)) size = Done (Some (BLAKE3_derive_key (N.to_nat size) c m ++ repeat 0 z)) /\
    (z < 32)%nat /\ ((N.to_nat size + z) mod 32 = 0)%nat.
Proof.
  intros size c m Hs Oc NEc Lc Om NEm HM. exists (N.to_nat (Blake3Model.sum_size size) - N.to_nat size)%nat. split; [apply kdf_ok; assumption|].
  destruct (Blake3Proofs3.sum_size_ok size) as (q & S1 & S2 & S3 & S4). rewrite S1. split; [lia|].
  replace (N.to_nat size + (N.to_nat (32 * q) - N.to_nat size))%nat with (N.to_nat q * 32)%nat by lia. apply Nat.mod_mul. discriminate.
Qed.
Print Assumptions blake3_derive_key_partial.

(* Contexts of three chunks, five chunks and so on: whatever the chunks before the last one hold, the derived key is the same. *)
Theorem blake3_context_collision_refuted : forall size q a b c m, size < 2 ^ 60 -> 0 < q -> N.of_nat (length a) = 2048 * q -> length b = length a -> octets a -> octets b -> octets c -> (1 <= length c <= 1024)%nat -> N.of_nat (length a + length c) < 2 ^ 60 ->
  blake3_kdf (Some (a ++ c)) (N.of_nat (length (a ++ c))) (Some m) (N.of_nat (length m)) size = blake3_kdf (Some (b ++ c)) (N.of_nat (length (b ++ c))) (Some m) (N.of_nat (length m)) size.
Proof. exact kdf_collision. Qed.
Print Assumptions blake3_context_collision_refuted.

(* BLAKE3("abc") *)
Example blake3_abc : good_key None 0 /\
  blake3_processor false None 0 (Some [97; 98; 99]) 3 = returns
  [0x64; 0x37; 0xb3; 0xac; 0x38; 0x46; 0x51; 0x33; 0xff; 0xb6; 0x3b; 0x75; 0x27; 0x3a; 0x8d; 0xb5; 0x48; 0xc5; 0x58; 0x46; 0x5d; 0x79; 0xdb; 0x03; 0xfd; 0x35; 0x9c; 0x6c; 0xd5; 0xbd; 0x9d; 0x85].
Proof. split; [left; split; reflexivity|]. vm_compute. reflexivity. Qed.
(* a keyed hash of 5 bytes, two chunks, and a derived key: the hypotheses are met *)
Example blake3_instances : good_key (Some (repeat 7 32)) 32 /\ octets (repeat 65 1500) /\ repeat 65 1500 <> [] /\
  (exists q, 0 < q /\ N.of_nat (length (repeat 1 2048)) = 2048 * q) /\ repeat 1 2048 ++ [5] <> repeat 2 2048 ++ [5].
Proof.
  split; [right; exists (repeat 7 32); split; [reflexivity|]; split; [reflexivity|]; split; [reflexivity|]; repeat constructor|].
  split; [apply Forall_forall; intros x H; apply repeat_spec in H; subst; reflexivity|]. split; [discriminate|]. split; [exists 1; split; reflexivity|discriminate].
Qed.
