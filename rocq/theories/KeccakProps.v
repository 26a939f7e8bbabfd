(* C85: the KECCAK and SHA-3 hashes against FIPS 202 (KeccakSpec.v). *)
From Verif Require Import Words EncSpec TaskModel CipherBase CipherLib StreamModel HashModel KeccakModel KeccakSpec KeccakProofs KeccakProofs2.
From Coq Require Import List PeanoNat Lia.
Open Scope N_scope.

(* the implementations and the functions from bit strings to bit strings that they name *)
Definition hashes : list (keccak_params * (list bool -> list bool)) :=
  [(sha3_224, SHA3 224); (sha3_256, SHA3 256); (sha3_384, SHA3 384); (sha3_512, SHA3 512);
   (keccak224, KECCAK 224); (keccak256, KECCAK 256); (keccak384, KECCAK 384); (keccak512, KECCAK 512)].
(* success with this output *)
Definition returns (out : list N) : outcome hash_run := Done (mkHashRun Success (Some out) (N.of_nat (length out))).

(* Every message of whole bytes, of any length, raw and hexadecimal output: the bits of the output are those of the standard. *)
Theorem keccak_is_standard : forall k H, In (k, H) hashes -> forall hex m, octets m ->
  exists z, octets z /\ bits_of z = H (bits_of m) /\
  keccak_processor k hex (Some m) (N.of_nat (length m)) = returns (if hex then rfc_base16 z else z).
Proof.
  assert (forall k rw zb t, kp_r k = (64 * rw)%nat -> kp_c k = (16 * zb)%nat -> kp_pad k = t -> (0 < rw <= 25)%nat -> (0 < zb <= 8 * rw)%nat -> (zb mod 8 = 0 \/ zb mod 8 = 4)%nat -> forall hex m, octets m -> exists z, octets z /\ bits_of z = sponge (64 * rw) (bits_of m ++ suffix t) (8 * zb) /\ keccak_processor k hex (Some m) (N.of_nat (length m)) = returns (if hex then rfc_base16 z else z)) as G.
  { intros k rw zb t Er Ec Et Hr Hz Hm hex m Hb. destruct (processor_ok k hex m rw zb Er Ec Hr Hz Hm (proj1 (octets_bytes m) Hb)) as (z & B & Z & _ & P). exists z. rewrite <- Et. split; [apply octets_bytes; exact Z|]. split; [exact B|exact P]. }
  intros k H I hex m Hm. unfold hashes in I. cbn [In] in I.
  destruct I as [I|[I|[I|[I|[I|[I|[I|[I|[]]]]]]]]]; injection I as <- <-.
  - apply (G sha3_224 18%nat 28%nat PadSHA3); try reflexivity; try exact Hm; cbn; lia.
  - apply (G sha3_256 17%nat 32%nat PadSHA3); try reflexivity; try exact Hm; cbn; lia.
  - apply (G sha3_384 13%nat 48%nat PadSHA3); try reflexivity; try exact Hm; cbn; lia.
  - apply (G sha3_512 9%nat 64%nat PadSHA3); try reflexivity; try exact Hm; cbn; lia.
  - destruct (G keccak224 18%nat 28%nat PadKECCAK eq_refl eq_refl eq_refl ltac:(lia) ltac:(lia) ltac:(cbn; lia) hex m Hm) as (z & Z & B & P). exists z. cbn [suffix] in B. rewrite app_nil_r in B. split; [exact Z|]. split; [exact B|exact P].
  - destruct (G keccak256 17%nat 32%nat PadKECCAK eq_refl eq_refl eq_refl ltac:(lia) ltac:(lia) ltac:(cbn; lia) hex m Hm) as (z & Z & B & P). exists z. cbn [suffix] in B. rewrite app_nil_r in B. split; [exact Z|]. split; [exact B|exact P].
  - destruct (G keccak384 13%nat 48%nat PadKECCAK eq_refl eq_refl eq_refl ltac:(lia) ltac:(lia) ltac:(cbn; lia) hex m Hm) as (z & Z & B & P). exists z. cbn [suffix] in B. rewrite app_nil_r in B. split; [exact Z|]. split; [exact B|exact P].
  - destruct (G keccak512 9%nat 64%nat PadKECCAK eq_refl eq_refl eq_refl ltac:(lia) ltac:(lia) ltac:(cbn; lia) hex m Hm) as (z & Z & B & P). exists z. cbn [suffix] in B. rewrite app_nil_r in B. split; [exact Z|]. split; [exact B|exact P].
Qed.
Print Assumptions keccak_is_standard.

(* The output is determined by its bits, so the z above is the only one. *)
Theorem keccak_output_unique : forall y z, octets y -> octets z -> bits_of y = bits_of z -> y = z.
Proof. exact bits_inj. Qed.
Print Assumptions keccak_output_unique.

(* A missing message is refused. *)
Theorem keccak_null : forall k hex n, keccak_processor k hex None n = Done (mkHashRun InvalidParams None 0).
Proof. reflexivity. Qed.
Print Assumptions keccak_null.

(* SHA3-256("abc") *)
Example sha3_abc : keccak_processor sha3_256 false (Some [97; 98; 99]) 3 = returns
  [0x3a; 0x98; 0x5d; 0xa7; 0x4f; 0xe2; 0x25; 0xb2; 0x04; 0x5c; 0x17; 0x2d; 0x6b; 0xd3; 0x90; 0xbd; 0x85; 0x5f; 0x08; 0x6e; 0x3e; 0x9d; 0x52; 0x5b; 0x46; 0xbf; 0xe2; 0x45; 0x11; 0x43; 0x15; 0x32].
Proof. vm_compute. reflexivity. Qed.
