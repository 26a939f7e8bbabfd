(* C77 bounded random numbers, C81 release of memory, C82 byte order helpers, C83 powers of two, C84 djb2. *)
From Verif Require Import Words EncSpec CipherBase MpModel MpSpec UtilModel UtilProofs.
From Coq Require Import String.
Notation length := List.length (only parsing).
Open Scope N_scope.

(* ------------------------------------------------------------------------------------ C77 *)
(* the i-th raw value: k bytes of the random stream, the most significant first *)
Definition raw_value (k : nat) (raw : nat -> N) (i : nat) : N := be_val (map raw (seq (i * k) k)).
Definition random_bytes (raw : nat -> N) : Prop := forall i, raw i < 256.
(* Among the 256^k raw values, those answered with v are v, v + n, v + 2n, ...: exactly (256^k - 1) / n of them, whatever v is. *)
Definition answered_with (k : nat) (n v r : N) : Prop := exists j, j < (256 ^ N.of_nat k - 1) / n /\ r = v + n * j.

Theorem C77_unbiased : forall fuel k n raw v used, n <> 0 -> random_bytes raw ->
  rand_mod fuel k n raw = Done (Some (v, used)) <->
  exists i, (i < fuel)%nat /\ v < n /\ answered_with k n v (raw_value k raw i) /\ used = ((i + 1) * k)%nat /\
    forall j w, (j < i)%nat -> w < n -> ~ answered_with k n w (raw_value k raw j).
Proof.
  intros fuel k n raw v used Hn Hr. unfold rand_mod. rewrite (proj2 (N.eqb_neq n 0) Hn).
  assert (forall i, drawn k raw (0 + i * k) = raw_value k raw i) as E by (intro i; apply drawn_val; exact Hr).
  assert (256 ^ N.of_nat k - 1 = 2 ^ (8 * N.of_nat k) - 1) as M by (rewrite N.pow_mul_r; reflexivity).
  unfold answered_with. rewrite M. set (X := 2 ^ (8 * N.of_nat k) - 1).
  split.
  - intro H. injection H as H. apply loop_first in H. destruct H as (i & A & B & C & D & G). exists i. fold X in B, C. rewrite E in C, D.
    split; [exact A|]. assert (v < n) as Hv by (subst v; apply N.mod_lt; exact Hn). split; [exact Hv|]. split; [apply accept_iff; auto|]. split; [rewrite G; lia|].
    intros j w Hj Hw Ha. apply (accept_iff X n _ w Hn Hw) in Ha. specialize (B j Hj). rewrite E in B. destruct Ha as [Ha _]. apply (N.lt_irrefl (raw_value k raw j)). eapply N.lt_le_trans; eassumption.
  - intros (i & A & Hv & Ha & G & B). f_equal. apply (accept_iff X n _ v Hn Hv) in Ha. destruct Ha as [C D]. apply loop_first. exists i. fold X. rewrite E.
    split; [exact A|]. split; [|split; [exact C|split; [symmetry; exact D|rewrite G; lia]]].
    intros j Hj. rewrite E. destruct (N.le_gt_cases (X - X mod n) (raw_value k raw j)) as [L|L]; [exact L|exfalso].
    apply (B j (raw_value k raw j mod n) Hj); [apply N.mod_lt; exact Hn|]. apply accept_iff; [exact Hn|apply N.mod_lt; exact Hn|auto].
Qed.
(* A bound above the width of the raw values (1000 for the 8 bit function, say) makes the loop run for ever, 0 divides by zero. *)
Theorem C77_large_bound_never_returns_refuted : forall fuel k n raw, 256 ^ N.of_nat k <= n -> rand_mod fuel k n raw = Done None.
Proof.
  intros fuel k n raw H. assert (n <> 0) as Hn by (intros ->; apply N.le_0_r in H; revert H; apply N.pow_nonzero; discriminate).
  unfold rand_mod. rewrite (proj2 (N.eqb_neq n 0) Hn), loop_stuck; [reflexivity|].
  rewrite N.pow_mul_r. change (2 ^ 8) with 256. apply N.lt_le_trans with (256 ^ N.of_nat k); [|exact H]. apply N.sub_lt; [|reflexivity].
  assert (256 ^ N.of_nat k <> 0) as X by (apply N.pow_nonzero; discriminate). revert X. generalize (256 ^ N.of_nat k). intros; lia.
Qed.
Theorem C77_zero_bound_refuted : forall fuel k raw, rand_mod fuel k 0 raw = UB.
Proof. reflexivity. Qed.
(* 255 is drawn and refused, 100 is drawn and answered with 100 mod 7 *)
Example C77_case : rand_mod 5 1 7 (fun i => match i with O => 255 | _ => 100 end) = Done (Some (2, 2%nat)).
Proof. reflexivity. Qed.

(* ------------------------------------------------------------------------------------ C82 *)
Theorem C82_big_endian : forall d rest, octets (d ++ rest) ->
  ((length d = 2)%nat -> get_u16_be (d ++ rest) = be_val d) /\
  ((length d = 4)%nat -> get_u32_be (d ++ rest) = be_val d) /\
  ((length d = 8)%nat -> get_u64_be (d ++ rest) = be_val d) /\
  ((length d = 4)%nat -> get_u32_le (d ++ rest) = le_val d) /\
  ((length d = 8)%nat -> get_u64_le (d ++ rest) = le_val d).
Proof.
  intros d rest O. assert (forall n, (length d = n)%nat -> firstn n (d ++ rest) = d /\ (n <= length (d ++ rest))%nat) as A.
  { intros n L. split; [apply CipherLib.firstn_exact; exact L|]. rewrite app_length. lia. }
  repeat split; intro L; destruct (A _ L) as [B C]; rewrite <- B at 2.
  - apply get16; assumption.
  - apply get32; assumption.
  - apply get64; assumption.
  - apply get32_le; assumption.
  - apply get64_le; assumption.
Qed.
(* storing writes the first bytes of the buffer only, and reading gives the word back *)
Theorem C82_store_load : forall d v, octets d ->
  (v < 2 ^ 16 -> (2 <= length d)%nat -> exists b, cpy_u16_be d v = Some (b ++ skipn 2 d) /\ length b = 2%nat /\ be_val b = v /\ get_u16_be (b ++ skipn 2 d) = v) /\
  (v < 2 ^ 32 -> (4 <= length d)%nat -> exists b, cpy_u32_be d v = Some (b ++ skipn 4 d) /\ length b = 4%nat /\ be_val b = v /\ get_u32_be (b ++ skipn 4 d) = v) /\
  (v < 2 ^ 64 -> (8 <= length d)%nat -> exists b, cpy_u64_be d v = Some (b ++ skipn 8 d) /\ length b = 8%nat /\ be_val b = v /\ get_u64_be (b ++ skipn 8 d) = v) /\
  (v < 2 ^ 32 -> (4 <= length d)%nat -> exists b, cpy_u32_le d v = Some (b ++ skipn 4 d) /\ length b = 4%nat /\ le_val b = v /\ get_u32_le (b ++ skipn 4 d) = v).
Proof.
  intros d v O. assert (forall k n, octets (be_bytes k v ++ skipn n d)) as OB.
  { intros k n. apply Forall_app. split; [apply be_bytes_bytes|]. apply CipherLib.bytes_skipn. exact O. }
  repeat split; intros Hv L.
  - exists (be_bytes 2 v). rewrite put16 by exact L. assert (be_val (be_bytes 2 v) = v) as E by (apply be_val_bytes; exact Hv).
    split; [reflexivity|]. split; [apply be_bytes_length|]. split; [exact E|]. rewrite (proj1 (C82_big_endian _ _ (OB _ _))) by apply be_bytes_length. exact E.
  - exists (be_bytes 4 v). rewrite put32 by exact L. assert (be_val (be_bytes 4 v) = v) as E by (apply be_val_bytes; exact Hv).
    split; [reflexivity|]. split; [apply be_bytes_length|]. split; [exact E|]. rewrite (proj1 (proj2 (C82_big_endian _ _ (OB _ _)))) by apply be_bytes_length. exact E.
  - exists (be_bytes 8 v). rewrite put64 by exact L. assert (be_val (be_bytes 8 v) = v) as E by (apply be_val_bytes; exact Hv).
    split; [reflexivity|]. split; [apply be_bytes_length|]. split; [exact E|]. rewrite (proj1 (proj2 (proj2 (C82_big_endian _ _ (OB _ _))))) by apply be_bytes_length. exact E.
  - exists (le_bytes 4 v). rewrite put32_le by assumption. assert (le_val (le_bytes 4 v) = v) as E by (unfold le_val, le_bytes; rewrite rev_involutive; apply be_val_bytes; exact Hv).
    split; [reflexivity|]. split; [apply CipherLib.le_bytes_length|]. split; [exact E|].
    assert (octets (le_bytes 4 v ++ skipn 4 d)) as OL by (apply Forall_app; split; [apply CipherLib.le_bytes_bytes|apply CipherLib.bytes_skipn; exact O]).
    rewrite (proj1 (proj2 (proj2 (proj2 (C82_big_endian _ _ OL))))) by apply CipherLib.le_bytes_length. exact E.
Qed.
(* a buffer that is too small is neither read nor written *)
Theorem C82_small_buffers : forall d v,
  ((length d < 2)%nat -> get_u16_be d = 0 /\ cpy_u16_be d v = None) /\
  ((length d < 4)%nat -> get_u32_be d = 0 /\ get_u32_le d = 0 /\ cpy_u32_be d v = None /\ cpy_u32_le d v = None) /\
  ((length d < 8)%nat -> get_u64_be d = 0 /\ get_u64_le d = 0 /\ cpy_u64_be d v = None).
Proof.
  intros d v. unfold get_u16_be, cpy_u16_be, get_u32_le, cpy_u32_le, get_u32_be, cpy_u32_be, get_u64_le, get_u64_be, cpy_u64_be.
  repeat split; intros; rewrite (proj2 (Nat.ltb_lt _ _)) by assumption; reflexivity.
Qed.
(* two upper case digits for each byte, which read as a number give the big endian value of the buffer *)
Theorem C82_hexadecimal : forall l, l <> [] -> octets l ->
  exists h, u8_ptr_to_hex l = Some h /\ length h = (2 * length l)%nat /\ hex_number h = be_val l.
Proof.
  intros l H O. destruct (hex_bytes l O) as [A B]. destruct l; [congruence|]. eexists. split; [reflexivity|]. split; [exact B|exact A].
Qed.
Example C82_case : get_u32_be [0xDE; 0xAD; 0xBE; 0xEF; 1] = 0xDEADBEEF /\ get_u64_le [1; 2; 3; 4; 5; 6; 7; 8] = 0x0807060504030201 /\
  cpy_u16_be [9; 9; 9] 0xABCD = Some [0xAB; 0xCD; 9] /\ u8_ptr_to_hex [0xDE; 0x0A] = Some (codes "DE0A"%string).
Proof. repeat split; reflexivity. Qed.

(* ------------------------------------------------------------------------------------ C84 *)
Theorem C84_djb2 : forall l, djb2 (Some l) = (fold_left (fun h b => 33 * h + b) l 5381) mod 2 ^ 64.
Proof. intro l. apply djb2_fold. reflexivity. Qed.
Theorem C84_null : djb2 None = 5381.
Proof. reflexivity. Qed.
Example C84_case : djb2 (Some (codes "kryptos"%string)) = 229472637818209.
Proof. reflexivity. Qed.

(* ------------------------------------------------------------------------------------ C83 *)
(* every int, negative ones included, stays in the table *)
Theorem C83_in_table : forall e : Z, exists v, pw2 e = Some v.
Proof. exact pw2_total. Qed.
Theorem C83_power : forall e : Z, (0 <= e <= 30)%Z -> pw2 e = Some (2 ^ e)%Z.
Proof. exact pw2_small. Qed.
Theorem C83_not_a_number : forall e : Z, (31 <= e <= 254)%Z -> pw2 e = Some (- 2 ^ 31)%Z.
Proof. exact pw2_large. Qed.
(* 255 wraps to 0 and -1 does, too *)
Theorem C83_wraps_refuted : pw2 255 = Some 1%Z /\ pw2 (-1) = Some 1%Z.
Proof. split; reflexivity. Qed.

(* ------------------------------------------------------------------------------------ C81 *)
Theorem C81_freeseg_wipes : forall m, freeseg m (length m) = Done (repeat 0 (length m)).
Proof. exact free_all. Qed.
(* a multiprecision value of n digits has 8n bytes; only the first n are cleared *)
Theorem C81_mp_value_partly_wiped_partial : forall v,
  exists kept, del_mp_value v = Done (repeat 0 (length (data v)) ++ kept) /\ kept = skipn (length (data v)) (mp_memory v) /\ length kept = (7 * length (data v))%nat.
Proof.
  intro v. eexists. split; [apply del_mp|]. split; [reflexivity|]. rewrite skipn_length, mp_memory_length. lia.
Qed.
(* a secret exponent of three digits is released with its two upper digits and five bytes of the lowest one in place *)
Theorem C81_mp_value_not_wiped_refuted : exists v m, well_formed v /\ del_mp_value v = Done m /\ m <> repeat 0 (length (mp_memory v)) /\
  skipn 8 m = skipn 8 (mp_memory v) /\ length m = 24%nat.
Proof.
  exists (mkMp false [0x1122334455667788; 0x99AABBCCDDEEFF00; 0x0123456789ABCDEF]). eexists.
  split; [split; [discriminate|repeat constructor]|]. split; [vm_compute; reflexivity|]. split; [vm_compute; discriminate|]. split; vm_compute; reflexivity.
Qed.

Print Assumptions C77_unbiased.
Print Assumptions C77_large_bound_never_returns_refuted.
Print Assumptions C77_zero_bound_refuted.
Print Assumptions C82_big_endian.
Print Assumptions C82_store_load.
Print Assumptions C82_small_buffers.
Print Assumptions C82_hexadecimal.
Print Assumptions C84_djb2.
Print Assumptions C84_null.
Print Assumptions C83_in_table.
Print Assumptions C83_power.
Print Assumptions C83_not_a_number.
Print Assumptions C83_wraps_refuted.
Print Assumptions C81_freeseg_wipes.
Print Assumptions C81_mp_value_partly_wiped_partial.
Print Assumptions C81_mp_value_not_wiped_refuted.
