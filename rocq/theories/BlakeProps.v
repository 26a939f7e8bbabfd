(* C86: the BLAKE2 hashes against RFC 7693 (BlakeSpec.v). *)
From Verif Require Import Words EncSpec TaskModel CipherBase CipherLib StreamModel HashModel UtilModel Blake2Model BlakeSpec BlakeProofs BlakeProofs2.
From Verif Require UtilProofs.
From Coq Require Import List PeanoNat Lia.
Open Scope N_scope.

(* Full statement: every message of up to 2^60 bytes. Missing: BLAKE2s of 2^32 - 64 bytes and more, where the code drops the high word
   of the byte counter of the last block. *)
Theorem blake2_is_standard_partial : forall p V max, family p V max -> forall hex k key m, points_to k key -> octets key -> (length key <= max)%nat -> message p m ->
  let z := BLAKE2 V max key m in
  blake2_processor p hex k (N.of_nat (length key)) (Some m) (N.of_nat (length m)) = returns (if hex then rfc_base16 z else z).
Proof. exact fixed_ok. Qed.
Print Assumptions blake2_is_standard_partial.

(* The same for a hash of any size the standard allows, given in out_size. *)
Theorem blake2N_is_standard_partial : forall p V max, family p V max -> forall hex nn k key m, (1 <= nn <= max)%nat -> points_to k key -> octets key -> (length key <= max)%nat -> message p m ->
  let z := BLAKE2 V nn key m in
  blake2N_processor p hex (N.of_nat nn) k (N.of_nat (length key)) (Some m) (N.of_nat (length m)) = returns (if hex then rfc_base16 z else z).
Proof. exact sized_ok. Qed.
Print Assumptions blake2N_is_standard_partial.

(* What the standard does not allow is refused, before key and message are looked at: no message, a key too long, a size out of range. *)
Theorem blake2_refuses : forall p V max, family p V max -> forall hex nn k kn m n,
  blake2_processor p hex k kn None n = Done (mkHashRun InvalidParams None 0) /\
  blake2N_processor p hex nn k kn None n = Done (mkHashRun InvalidParams None nn) /\
  (N.of_nat max < kn -> blake2_processor p hex k kn (Some m) n = Done (mkHashRun KeyError None 0) /\ blake2N_processor p hex nn k kn (Some m) n = Done (mkHashRun KeyError None nn)) /\
  (kn <= N.of_nat max -> nn = 0 \/ N.of_nat max < nn -> blake2N_processor p hex nn k kn (Some m) n = Done (mkHashRun ProcessError None nn)).
Proof. exact refuse_ok. Qed.
Print Assumptions blake2_refuses.

(* RFC 7693, appendix B: BLAKE2s-256("abc"), and a keyed hash of 4 bytes *)
Example blake2s_abc : family blake2s BLAKE2s 32 /\ message blake2s [97; 98; 99] /\
  blake2_processor blake2s false None 0 (Some [97; 98; 99]) 3 = returns
  [0x50; 0x8C; 0x5E; 0x8C; 0x32; 0x7C; 0x14; 0xE2; 0xE1; 0xA7; 0x2B; 0xA3; 0x4E; 0xEB; 0x45; 0x2F; 0x37; 0x45; 0x8B; 0x20; 0x9E; 0xD6; 0x3A; 0x29; 0x4D; 0x99; 0x9B; 0x4C; 0x86; 0x67; 0x59; 0x82].
Proof.
  split; [right; repeat split|]. split; [split; [repeat constructor|split; [reflexivity|intros _; reflexivity]]|]. vm_compute. reflexivity.
Qed.
