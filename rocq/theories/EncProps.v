(* Properties C01-C05 and C88: the textual encodings. *)
From Coq Require Import String.
From Verif Require Import Words EncModel EncSpec EncProofs EncProofs64 EncProofsUU.
Open Scope list_scope.
Open Scope N_scope.

Definition text1 : list N := codes "foobarbaz".
Definition enc_of (o : option (list N)) : list N := match o with Some c => c | None => [] end.

(* ------------------------------------------------------------------ C01 *)
Theorem C01_base16_is_rfc4648 : forall l, octets l -> l <> [] ->
  base16_encode l = Some (rfc_base16 l) /\ length (rfc_base16 l) = (2 * length l)%nat.
Proof.
  intros l Hl Hn. pose proof (base16_encode_spec l Hl Hn) as E.
  exact (conj E (base16_encode_length l _ E)).
Qed.
Print Assumptions C01_base16_is_rfc4648.

Theorem C01_base16_roundtrip : forall l c, octets l -> base16_encode l = Some c ->
  base16_decode c = Some l.
Proof. exact base16_roundtrip. Qed.
Print Assumptions C01_base16_roundtrip.

Example C01_example : octets text1 /\ text1 <> [] /\
  base16_encode text1 = Some (codes "666F6F62617262617A").
Proof. repeat split; try (vm_compute; reflexivity); try discriminate.
  unfold octets; vm_compute; repeat constructor. Qed.

(* ------------------------------------------------------------------ C02 *)
Theorem C02_base32_is_rfc4648 : forall l, octets l -> l <> [] ->
  base32_encode l = Some (rfc_base32 l).
Proof. exact base32_encode_spec. Qed.
Print Assumptions C02_base32_is_rfc4648.

(* The bytes stored by the decoder, and hence out_size, are those of the original buffer
   (buffers below 2^56 bytes so that the size_t computations do not wrap). *)
Theorem C02_base32_roundtrip : forall l c, octets l -> N.of_nat (length l) < 2 ^ 56 ->
  base32_encode l = Some c ->
  exists alloc, base32_decode c = Some (Done (alloc, l)).
Proof. intros l c H1 H2 H3. eexists. exact (base32_roundtrip l c H1 H2 H3). Qed.
Print Assumptions C02_base32_roundtrip.

Example C02_example : octets text1 /\ N.of_nat (length text1) < 2 ^ 56 /\
  base32_encode text1 = Some (codes "MZXW6YTBOJRGC6Q=").
Proof. repeat split; try (vm_compute; reflexivity).
  unfold octets; vm_compute; repeat constructor. Qed.

(* ------------------------------------------------------------------ C03 *)
(* Full statement (false): every store of the Base32 decoder is inside the buffer it allocates. *)
Definition base32_decode_in_bounds (c : list N) : Prop :=
  forall alloc w, base32_decode c = Some (Done (alloc, w)) -> N.of_nat (length w) <= alloc.

(* It fails for every non-empty text whose length is a multiple of five: the decoder stores
   exactly one byte past its allocation. *)
Theorem C03_base32_heap_overflow_refuted : forall l c, octets l -> N.of_nat (length l) < 2 ^ 56 ->
  base32_encode l = Some c -> (length l mod 5 = 0)%nat ->
  exists alloc w, base32_decode c = Some (Done (alloc, w)) /\
                  N.of_nat (length w) = alloc + 1 /\ ~ base32_decode_in_bounds c.
Proof.
  intros l c H1 H2 H3 H5. pose proof (base32_roundtrip l c H1 H2 H3) as E.
  assert (N.of_nat (length l) = 5 * N.of_nat ((length l + 4) / 5) - 1 + 1) as El.
  { assert (0 < length l)%nat by (destruct l; [discriminate H3|cbn; lia]).
    pose proof (Nat.div_mod (length l) 5 ltac:(lia)).
    pose proof (Nat.div_mod (length l + 4) 5 ltac:(lia)).
    pose proof (Nat.mod_upper_bound (length l + 4) 5 ltac:(lia)). lia. }
  exists (5 * N.of_nat ((length l + 4) / 5) - 1), l. repeat split; [exact E|exact El|].
  intro Hb. specialize (Hb _ _ E). lia.
Qed.
Print Assumptions C03_base32_heap_overflow_refuted.

Example C03_witness :
  base32_decode (codes "MFRGGZDF") = Some (Done (4, codes "abcde")).
Proof. vm_compute. reflexivity. Qed.

Theorem C03_base32_in_bounds_partial : forall l c, octets l -> N.of_nat (length l) < 2 ^ 56 ->
  base32_encode l = Some c -> (length l mod 5 <> 0)%nat -> base32_decode_in_bounds c.
Proof.
  intros l c H1 H2 H3 H5 alloc w Hd. rewrite (base32_roundtrip l c H1 H2 H3) in Hd.
  assert (alloc = 5 * N.of_nat ((length l + 4) / 5) - 1) as -> by congruence.
  assert (w = l) as -> by congruence.
  pose proof (Nat.div_mod (length l) 5 ltac:(lia)).
  pose proof (Nat.div_mod (length l + 4) 5 ltac:(lia)).
  pose proof (Nat.mod_upper_bound (length l + 4) 5 ltac:(lia)).
  pose proof (Nat.mod_upper_bound (length l) 5 ltac:(lia)). lia.
Qed.
Print Assumptions C03_base32_in_bounds_partial.

(* ------------------------------------------------------------------ C04 *)
Theorem C04_base64_is_rfc4648 : forall l, octets l -> l <> [] ->
  base64_encode l = Some (rfc_base64 l).
Proof. exact base64_encode_spec. Qed.
Print Assumptions C04_base64_is_rfc4648.

(* the encoding exactly fills the allocated output *)
Theorem C04_base64_encode_in_bounds : forall l c, base64_encode l = Some c ->
  N.of_nat (length c) = base64_encode_alloc (N.of_nat (length l)).
Proof.
  intros l c H. unfold base64_encode in H. destruct l as [|a l]; [discriminate|].
  assert (c = base64_encode_loop (a :: l)) as -> by congruence.
  apply base64_alloc_ok. congruence.
Qed.
Print Assumptions C04_base64_encode_in_bounds.

Theorem C04_base64_roundtrip : forall l c, octets l -> N.of_nat (length l) < 2 ^ 60 ->
  base64_encode l = Some c ->
  base64_decode c = Some (Done (N.of_nat (length l), l)).
Proof. exact base64_roundtrip. Qed.
Print Assumptions C04_base64_roundtrip.

Example C04_example : octets (codes "foobar!") /\ N.of_nat (length (codes "foobar!")) < 2 ^ 60 /\
  base64_encode (codes "foobar!") = Some (codes "Zm9vYmFyIQ==").
Proof. repeat split; try (vm_compute; reflexivity).
  unfold octets; vm_compute; repeat constructor. Qed.

(* ------------------------------------------------------------------ C05 *)
Theorem C05_uuencode_roundtrip : forall l c, octets l -> N.of_nat (length l) < 2 ^ 48 ->
  N.of_nat (length c) < 2 ^ 56 -> uu_encode l = Some c ->
  exists alloc, uu_decode c = Some (Done (alloc, l)) /\ N.of_nat (length l) <= alloc.
Proof. exact uu_roundtrip. Qed.
Print Assumptions C05_uuencode_roundtrip.

Theorem C05_uuencode_charset : forall l c, uu_encode l = Some c ->
  Forall (fun x => 32 <= x <= 96 \/ x = 10) c.
Proof. exact uu_encode_charset. Qed.
Print Assumptions C05_uuencode_charset.

Example C05_example : exists c, uu_encode (range 100) = Some c /\ octets (range 100) /\
  N.of_nat (length (range 100)) < 2 ^ 48 /\ N.of_nat (length c) < 2 ^ 56.
Proof. eexists. split; [vm_compute; reflexivity|]. repeat split; try (vm_compute; reflexivity).
  unfold octets; vm_compute; repeat constructor. Qed.

(* ------------------------------------------------------------------ C88 *)
(* Full statement (false): decoding an arbitrary buffer has no undefined behaviour. *)
Theorem C88_base32_decode_any_input_refuted :
  exists c, octets c /\ base32_decode c = Some UB.
Proof. exists (repeat 255 8). split; [repeat constructor|vm_compute; reflexivity]. Qed.
Print Assumptions C88_base32_decode_any_input_refuted.

Theorem C88_base64_decode_any_input_refuted :
  exists c, octets c /\ (length c mod 4 = 0)%nat /\ base64_decode c = Some UB.
Proof. exists [65; 65; 65; 255]. split; [repeat constructor|split; vm_compute; reflexivity]. Qed.
Print Assumptions C88_base64_decode_any_input_refuted.

Theorem C88_base64_decode_short_input_refuted :
  exists c, octets c /\ Forall (fun x => In x (codes "ABCDEFGHIJKLMNOPQRSTUVWXYZ")) c /\
            base64_decode c = Some UB.
Proof. exists (codes "AAAAAA"). repeat split; try (vm_compute; reflexivity).
  - unfold octets; vm_compute; repeat constructor.
  - vm_compute. repeat (apply Forall_cons; [left; reflexivity|]). apply Forall_nil. Qed.
Print Assumptions C88_base64_decode_short_input_refuted.

(* a UU text whose length character promises more data than the buffer holds is read past its end *)
Theorem C88_uudecode_any_input_refuted : exists c, octets c /\ uu_decode c = Some UB.
Proof. exists [77; 33; 34]. split; [repeat constructor|vm_compute; reflexivity]. Qed.
Print Assumptions C88_uudecode_any_input_refuted.
