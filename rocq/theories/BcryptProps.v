(* C100: bcrypt. *)
From Coq Require Import String PeanoNat.
From Verif Require Import Words EncSpec BcryptModel BcryptSpec BcryptProofs3.
From Verif Require BcryptProofs2.
Notation length := List.length (only parsing).
Open Scope string_scope.
Open Scope list_scope.
Open Scope N_scope.

(* A call with a salt of 16 bytes yields exactly the text of the standard if the cost is between 4 and 31 and the password has at most 72 bytes, and NULL otherwise *)
Theorem C100_bcrypt_is_standard : forall cost salt pw, octets salt -> length salt = 16%nat -> octets pw ->
  bcrypt cost (Some salt) 16 (Some pw) (N.of_nat (length pw)) true =
  Done (if ((4 <=? cost) && (cost <=? 31))%Z && (N.of_nat (length pw) <=? 72) then Some (BCRYPT (Z.to_N cost) salt pw) else None).
Proof. exact BcryptProofs2.bcrypt_spec. Qed.
Print Assumptions C100_bcrypt_is_standard.

Theorem C100_bcrypt_rejects : forall cost salt salt_size pw size want,
  (cost < 4)%Z \/ (31 < cost)%Z \/ salt_size <> 16 \/ pw = None \/ 72 < size \/ want = false ->
  bcrypt cost salt salt_size pw size want = Done None.
Proof.
  intros cost salt salt_size pw size want H. with_strategy transparent [bcrypt] unfold bcrypt.
  destruct (Z.ltb_spec cost 4); [reflexivity|]. destruct (Z.ltb_spec 31 cost); [reflexivity|]. destruct (N.eqb_spec salt_size 16); [|reflexivity].
  destruct pw; [|reflexivity]. destruct (N.ltb_spec 72 size); [reflexivity|]. destruct want; [|reflexivity].
  exfalso. destruct H as [H|[H|[H|[H|[H|H]]]]]; try lia; try contradiction; discriminate.
Qed.
Print Assumptions C100_bcrypt_rejects.

(* The text always has 60 characters *)
Theorem C100_bcrypt_length : forall cost salt pw h, octets salt -> length salt = 16%nat -> octets pw ->
  bcrypt cost (Some salt) 16 (Some pw) (N.of_nat (length pw)) true = Done (Some h) -> length h = 60%nat.
Proof.
  intros cost salt pw h Hs Ls Hp H. rewrite BcryptProofs2.bcrypt_spec in H by assumption. destruct (_ && _)%bool; [|discriminate H].
  assert (h = BCRYPT (Z.to_N cost) salt pw) as -> by congruence. apply BCRYPT_length; assumption.
Qed.
Print Assumptions C100_bcrypt_length.

(* Verification says yes exactly for the texts that the standard gives for this password, some salt and some cost *)
Theorem C100_verify_exact : forall pw h, octets pw ->
  (bcrypt_verify (Some pw) (N.of_nat (length pw)) (Some h) = Done true <->
   (length pw <= 72)%nat /\ exists cost salt, 4 <= cost <= 31 /\ octets salt /\ length salt = 16%nat /\ h = BCRYPT cost salt pw).
Proof.
  intros pw h Hp. split; [apply verify_sound, Hp|]. intros (Lp & cost & salt & Hc & Hs & Ls & ->). apply verify_own; assumption.
Qed.
Print Assumptions C100_verify_exact.
(* what was hashed verifies *)
Theorem C100_hash_then_verify : forall cost salt pw h, octets salt -> length salt = 16%nat -> octets pw ->
  bcrypt cost (Some salt) 16 (Some pw) (N.of_nat (length pw)) true = Done (Some h) ->
  bcrypt_verify (Some pw) (N.of_nat (length pw)) (Some h) = Done true.
Proof.
  intros cost salt pw h Hs Ls Hp H. rewrite BcryptProofs2.bcrypt_spec in H by assumption.
  destruct (Z.leb_spec 4 cost); [|discriminate H]. destruct (Z.leb_spec cost 31); [|discriminate H]. destruct (N.leb_spec (N.of_nat (length pw)) 72); [|discriminate H].
  cbn [andb] in H. assert (h = BCRYPT (Z.to_N cost) salt pw) as -> by congruence. apply verify_own; try assumption; lia.
Qed.
Print Assumptions C100_hash_then_verify.
(* the hypotheses are met, and both theorems apply *)
Example C100_example : exists h, bcrypt 5 (Some (repeat 7 16)) 16 (Some (codes "secret")) 6 true = Done (Some h) /\
  length h = 60%nat /\ bcrypt_verify (Some (codes "secret")) 6 (Some h) = Done true.
Proof.
  pose proof (C100_bcrypt_is_standard 5 (repeat 7 16) (codes "secret") ltac:(repeat constructor) eq_refl ltac:(repeat constructor)) as H.
  change (N.of_nat (length (codes "secret"))) with 6 in H. change (((4 <=? 5) && (5 <=? 31))%Z && (6 <=? 72)) with true in H. cbv iota in H.
  eexists. split; [exact H|]. split.
  - apply BCRYPT_length; [repeat constructor|reflexivity|repeat constructor].
  - apply (C100_hash_then_verify 5 (repeat 7 16) (codes "secret") _ ltac:(repeat constructor) eq_refl ltac:(repeat constructor) H).
Qed.

(* For which strings verification is defined: every string of at most 22, or of at least 31, bytes below 255 whose character 28 is not a pad *)
Theorem C100_verify_defined_partial : forall pw h, (length h <= 22 \/ 31 <= length h)%nat -> Forall (fun c => c < 255) h -> nth 28 h 0 <> 61 ->
  exists b, bcrypt_verify (Some pw) (N.of_nat (length pw)) (Some h) = Done b.
Proof. exact verify_defined. Qed.
Print Assumptions C100_verify_defined_partial.
Example C100_defined_example : let h := codes "$2a$04$zVHmKQtGGQob.b/Nc7l9NOW2pAwmViS9PCMB6D5D0ehLM6L7H3OGC" in
  (31 <= length h)%nat /\ Forall (fun c => c < 255) h /\ nth 28 h 0 <> 61.
Proof. cbv zeta. split; [apply Nat.leb_le; reflexivity|]. split; [repeat constructor|discriminate]. Qed.
(* Elsewhere memory is read or written out of bounds: hashes cut off after the prefix, of any size from 23 to 28; one of 30; a byte 255 among the
   characters of the salt; seventeen pads *)
Theorem C100_verify_defined_refuted :
  (forall pw n rest, (23 <= 7 + length rest < 29)%nat -> bcrypt_verify (Some pw) n (Some (codes "$2a$04$" ++ rest)) = UB) /\
  (forall pw n, bcrypt_verify (Some pw) n (Some (codes "$2a$04$zVHmKQtGGQob.b/Nc7l9NOW")) = UB) /\
  (forall pw n rest, bcrypt_verify (Some pw) n (Some (codes "$2a$04$" ++ [255] ++ codes "VHmKQtGGQob.b/Nc7l9NO" ++ rest)) = UB) /\
  (forall pw n, bcrypt_verify (Some pw) n (Some (codes "$2a$04$abcde=================abcdefghijklmnopqrstuvwxyzABCDE")) = UB).
Proof.
  split; [|split; [|split]].
  - intros pw n rest H. set (h := codes "$2a$04$" ++ rest).
    assert (bc_decode h = UB) as E.
    { with_strategy transparent [bc_decode] unfold bc_decode. unfold h. rewrite app_length. change (length (codes "$2a$04$")) with 7%nat. destruct (Nat.ltb_spec (7 + length rest) 29); [reflexivity|lia]. }
    unfold bcrypt_verify. rewrite E. change (length h) with (7 + length rest)%nat. destruct (Nat.leb_spec (7 + length rest) 22); [lia|]. reflexivity.
  - intros pw n. with_strategy transparent [bc_decode] reflexivity.
  - intros pw n rest. with_strategy transparent [bc_decode] reflexivity.
  - intros pw n. with_strategy transparent [bc_decode] reflexivity.
Qed.
Print Assumptions C100_verify_defined_refuted.

(* Different passwords do not always get different hashes: a password, a zero byte and the password again count as the password *)
Theorem C100_distinct_passwords_refuted : forall cost salt pw, octets salt -> length salt = 16%nat -> octets pw -> (2 * length pw + 1 <= 72)%nat ->
  let pw' := pw ++ [0] ++ pw in
  pw' <> pw /\
  bcrypt cost (Some salt) 16 (Some pw') (N.of_nat (length pw')) true = bcrypt cost (Some salt) 16 (Some pw) (N.of_nat (length pw)) true.
Proof.
  intros cost salt pw Hs Ls Hp Lp. cbv zeta. split.
  - intro E. apply (f_equal (@List.length N)) in E. rewrite !app_length in E. cbn [List.length] in E. lia.
  - assert (octets (pw ++ [0] ++ pw)) as Hp' by (unfold octets in *; rewrite !Forall_app; repeat split; try assumption; repeat constructor).
    rewrite !BcryptProofs2.bcrypt_spec by assumption. rewrite repeated_password. rewrite !app_length. cbn [List.length].
    destruct (N.leb_spec (N.of_nat (length pw + (1 + length pw))) 72); [|lia]. destruct (N.leb_spec (N.of_nat (length pw)) 72); [reflexivity|lia].
Qed.
Print Assumptions C100_distinct_passwords_refuted.
(* Without zero bytes, every byte of the password counts: the 72 bytes of key that the standard takes from the password determine it *)
Theorem C100_every_password_byte_counts : forall p1 p2, ~ In 0 p1 -> ~ In 0 p2 -> (length p1 <= 72)%nat -> (length p2 <= 72)%nat ->
  (forall i, (i < 72)%nat -> cyclic_byte (p1 ++ [0]) i = cyclic_byte (p2 ++ [0]) i) -> p1 = p2.
Proof. exact key_bytes_differ. Qed.
Print Assumptions C100_every_password_byte_counts.
Example C100_bytes_example : ~ In 0 (codes "secret") /\ (length (codes "secret") <= 72)%nat.
Proof. split; [cbn; intuition discriminate|cbn; lia]. Qed.
