(* C06: Huffman coding. *)
From Verif Require Import Words EncSpec CipherBase CipherLib StreamModel HuffModel HuffProofs5.
From Coq Require Import List.
Open Scope N_scope.

(* two different bytes occur *)
Definition two_values (data : list N) : Prop := exists x y, In x data /\ In y data /\ x <> y.

(* Every buffer with two different byte values, none of them '0' (48) or '1' (49), comes back. *)
Theorem huffman_round_trip_partial : forall data, octets data -> N.of_nat (length data) + 1 < 2 ^ 64 -> two_values data -> ~ In 48 data -> ~ In 49 data ->
  exists z, huffman_deflate (Some data) (N.of_nat (length data)) = Done (Some z) /\ huffman_inflate (Some z) (N.of_nat (length z)) = Done data.
Proof.
  intros data O L T N0 N1. apply octets_bytes in O. apply round_trip; try assumption. apply (two_present (HuffProofs3.present data) data (present_nodup data) (fun b => present_in data b O)). exact T.
Qed.
Print Assumptions huffman_round_trip_partial.

(* Deflating is defined for every buffer (codes, bit buffer and output fit); it gives nothing exactly when fewer than two values occur. *)
Theorem huffman_deflate_total : forall data, octets data -> N.of_nat (length data) < 2 ^ 64 ->
  exists o, huffman_deflate (Some data) (N.of_nat (length data)) = Done o /\ (o = None <-> ~ two_values data).
Proof. intros data O L. apply octets_bytes in O. exact (deflate_total data O L). Qed.
Print Assumptions huffman_deflate_total.

(* No input whatsoever inflates to a buffer that contains '0' or '1', so none of those buffers comes back although deflating succeeds. *)
Theorem huffman_digits_refuted : forall data, In 48 data \/ In 49 data -> forall z n, huffman_inflate z n <> Done data.
Proof. intros data H z n E. destruct (inflate_no_digits z n data E). destruct H; contradiction. Qed.
Print Assumptions huffman_digits_refuted.
(* "01": the data deflate, and inflating the result follows a NULL pointer *)
Theorem huffman_digits_crash_refuted : exists z, huffman_deflate (Some [48; 49]) 2 = Done (Some z) /\ huffman_inflate (Some z) (N.of_nat (length z)) = UB.
Proof. exists [48; 48; 49; 49; 0; 0; 2; 0; 0; 0; 0; 0; 0; 0; 64]. split; vm_compute; reflexivity. Qed.
Print Assumptions huffman_digits_crash_refuted.
(* Inflating bytes that do not come from deflate reads outside the buffer: a tree without end mark, an end mark without size. *)
Theorem huffman_inflate_refuted : huffman_inflate (Some [97]) 1 = UB /\ huffman_inflate (Some [48; 97; 0; 0; 1]) 5 = UB.
Proof. split; vm_compute; reflexivity. Qed.
Print Assumptions huffman_inflate_refuted.

(* "abac" with a zero byte meets the hypotheses. *)
Example round_trip_applies : octets [97; 98; 0; 97; 99] /\ N.of_nat (length [97; 98; 0; 97; 99]) + 1 < 2 ^ 64 /\ two_values [97; 98; 0; 97; 99] /\ ~ In 48 [97; 98; 0; 97; 99] /\ ~ In 49 [97; 98; 0; 97; 99].
Proof.
  split; [apply octets_bytes; repeat constructor|]. split; [reflexivity|]. split; [exists 97, 98; repeat split; [left; reflexivity|right; left; reflexivity|discriminate]|].
  split; intros [H|[H|[H|[H|[H|[]]]]]]; discriminate.
Qed.
