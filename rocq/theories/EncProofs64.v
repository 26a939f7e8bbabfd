(* Base64: equality with RFC 4648 and round trip. *)
From Coq Require Import String.
From Verif Require Import Words EncTables EncModel EncSpec EncProofs.
Open Scope string_scope.
Open Scope list_scope.
Open Scope N_scope.
Ltac Zify.zify_post_hook ::= Z.div_mod_to_equations.

Definition B64 := codes "ABCDEFGHIJKLMNOPQRSTUVWXYZabcdefghijklmnopqrstuvwxyz0123456789+/".

Definition vals64 (x : N) : list N :=
  [x / 2 ^ 18 mod 64; x / 2 ^ 12 mod 64; x / 2 ^ 6 mod 64; x mod 64].

Lemma base64_block_chars_vals : forall x,
  base64_block_chars x = map (nthN base64_state) (vals64 x).
Proof.
  intro x. unfold base64_block_chars, vals64. cbn [map].
  rewrite (mask_shift x 6 18), (mask_shift x 6 12), (mask_shift x 6 6), (land_low x 6) by reflexivity.
  reflexivity.
Qed.

Lemma base64_spec_cons : forall a b c r,
  rfc_base64 (a :: b :: c :: r) =
  map (fun g => nthN B64 (bits_val g))
    [slice a 8 2; slice a 2 0 ++ slice b 8 4; slice b 4 0 ++ slice c 8 6; slice c 6 0]
  ++ rfc_base64 r.
Proof.
  intros. unfold rfc_base64, rfc4648. fold B64. cbn [flat_map].
  replace (byte_bits a ++ byte_bits b ++ byte_bits c ++ flat_map byte_bits r)
  with (slice a 8 2 ++ (slice a 2 0 ++ slice b 8 4) ++ (slice b 4 0 ++ slice c 8 6) ++ slice c 6 0
        ++ flat_map byte_bits r) by reflexivity.
  rewrite !groups_app by (cbn; lia).
  cbn [map app]. do 4 (apply f_equal2; [reflexivity|]). apply f_equal2; [reflexivity|]. f_equal.
  cbn [List.length]. set (n := List.length _).
  change (S (S (S (S n)))) with (4 + n)%nat.
  apply quantum_shift. lia.
Qed.

Lemma base64_encode_loop_spec : forall l, octets l -> base64_encode_loop l = rfc_base64 l.
Proof.
  induction l as [ | a | a b | a b c r IH ] using list3_ind; intro H; bytes_inv.
  - reflexivity.
  - cbn [base64_encode_loop]. rewrite base64_block_chars_vals.
    unfold rfc_base64, rfc4648. cbn [flat_map]. rewrite app_nil_r.
    replace (byte_bits a) with (concat [slice a 8 2] ++ slice a 2 0) by reflexivity.
    rewrite groups_tail by (repeat constructor; cbn; lia).
    unfold put_pad, vals64. cbn [map List.length app firstn Nat.sub repeat Nat.modulo Nat.divmod fst snd].
    fold B64. change base64_state with B64. bev. rewrite N.shiftl_mul_pow2. slv.
    repeat (apply f_equal2; [f_equal; lia|]). reflexivity.
  - cbn [base64_encode_loop]. rewrite base64_block_chars_vals.
    unfold rfc_base64, rfc4648. cbn [flat_map]. rewrite app_nil_r.
    replace (byte_bits a ++ byte_bits b) with
      (concat [slice a 8 2; slice a 2 0 ++ slice b 8 4] ++ slice b 4 0) by reflexivity.
    rewrite groups_tail by (repeat constructor; cbn; lia).
    unfold put_pad, vals64. cbn [map List.length app firstn Nat.sub repeat Nat.modulo Nat.divmod fst snd].
    fold B64. change base64_state with B64. bev. rewrite N.shiftl_mul_pow2. slv.
    repeat (apply f_equal2; [f_equal; lia|]). reflexivity.
  - rewrite base64_spec_cons. cbn [base64_encode_loop]. rewrite IH by assumption. f_equal.
    rewrite base64_block_chars_vals. change base64_state with B64.
    rewrite <- (map_map bits_val (nthN B64)). f_equal.
    bev. unfold vals64. cbn [map]. slv.
    repeat (apply f_equal2; [lia|]). reflexivity.
Qed.

Lemma base64_encode_spec : forall l, octets l -> l <> [] -> base64_encode l = Some (rfc_base64 l).
Proof.
  intros l Hl Hn. unfold base64_encode. destruct l as [|b0 l0]; [congruence|].
  rewrite base64_encode_loop_spec by assumption. reflexivity.
Qed.

Lemma base64_encode_loop_length : forall l,
  List.length (base64_encode_loop l) = (4 * ((List.length l + 2) / 3))%nat.
Proof.
  induction l as [ | a | a b | a b c r IH ] using list3_ind; try reflexivity.
  cbn [base64_encode_loop]. rewrite app_length, IH. cbn [List.length base64_block_chars].
  replace (S (S (S (List.length r))) + 2)%nat with (List.length r + 2 + 1 * 3)%nat by lia.
  rewrite Nat.div_add by lia. lia.
Qed.

Lemma base64_alloc_ok : forall l, l <> [] ->
  N.of_nat (List.length (base64_encode_loop l)) = base64_encode_alloc (N.of_nat (List.length l)).
Proof.
  intros l Hl. rewrite base64_encode_loop_length. unfold base64_encode_alloc.
  assert (0 < List.length l)%nat by (destruct l; cbn; [congruence|lia]).
  pose proof (Nat.div_mod (List.length l + 2) 3). lia.
Qed.

Definition b64_ok (v : N) : bool :=
  let c := nthN base64_state v in
  negb (c =? 61) && (eq_to_nul c =? c) &&
  match rd base64_state_1 c with Done x => x =? v | UB => false end.

Lemma b64_char : forall v, v < 64 ->
  (nthN base64_state v =? 61) = false /\
  rd base64_state_1 (eq_to_nul (nthN base64_state v)) = Done v.
Proof.
  intros v Hv. pose proof (sweep 64 b64_ok) as H. specialize (H eq_refl v Hv).
  unfold b64_ok in H. apply andb_true_iff in H. destruct H as [H H2].
  apply andb_true_iff in H. destruct H as [H H1].
  apply negb_true_iff in H. split; [assumption|].
  apply N.eqb_eq in H1. rewrite H1. destruct (rd _ _); [|discriminate].
  apply N.eqb_eq in H2. congruence.
Qed.

Lemma b64_eq : rd base64_state_1 (eq_to_nul 61) = Done 255.
Proof. reflexivity. Qed.

Lemma count_pad_app : forall x y v, base64_count_pad x = Done v -> base64_count_pad (x ++ y) = Done v.
Proof.
  induction x as [|c x IH]; intros y v H; [discriminate|].
  cbn [base64_count_pad app] in *. destruct (c =? 61); [|assumption].
  destruct (base64_count_pad x) as [n|] eqn:E; [|discriminate].
  cbn [obind] in *. rewrite (IH y n eq_refl). assumption.
Qed.

Definition pad64 (n : nat) : N := match (n mod 3)%nat with 0%nat => 0 | 1%nat => 2 | _ => 1 end.

Lemma count_pad_encode : forall l, l <> [] ->
  base64_count_pad (rev (base64_encode_loop l)) = Done (pad64 (List.length l)).
Proof.
  induction l as [ | a | a b | a b c r IH ] using list3_ind; intro Hn.
  - congruence.
  - cbn [base64_encode_loop]. rewrite base64_block_chars_vals. unfold put_pad, vals64.
    cbn [map List.length firstn Nat.sub app repeat rev base64_count_pad].
    rewrite !N.eqb_refl.
    match goal with |- context[nthN base64_state (?x mod 64) =? 61] => destruct (b64_char (x mod 64)) as [-> _]; [lia|] end.
    reflexivity.
  - cbn [base64_encode_loop]. rewrite base64_block_chars_vals. unfold put_pad, vals64.
    cbn [map List.length firstn Nat.sub app repeat rev base64_count_pad].
    rewrite !N.eqb_refl.
    match goal with |- context[nthN base64_state (?x mod 64) =? 61] => destruct (b64_char (x mod 64)) as [-> _]; [lia|] end.
    reflexivity.
  - cbn [base64_encode_loop]. rewrite rev_app_distr.
    destruct r as [|x r].
    + rewrite base64_block_chars_vals. unfold vals64. cbn [base64_encode_loop rev app map base64_count_pad].
      match goal with |- context[nthN base64_state (?x mod 64) =? 61] => destruct (b64_char (x mod 64)) as [-> _]; [lia|] end.
      reflexivity.
    + rewrite (count_pad_app _ _ (pad64 (List.length (x :: r)))) by (apply IH; congruence).
      unfold pad64. cbn [List.length].
      replace (S (S (S (S (List.length r)))))%nat with (S (List.length r) + 1 * 3)%nat by lia.
      rewrite Nat.mod_add by lia. reflexivity.
Qed.

Lemma decode_step : forall left c0 c1 c2 c3 v0 v1 v2 v3 r,
  rd base64_state_1 (eq_to_nul c0) = Done v0 -> rd base64_state_1 (eq_to_nul c1) = Done v1 ->
  rd base64_state_1 (eq_to_nul c2) = Done v2 -> rd base64_state_1 (eq_to_nul c3) = Done v3 ->
  (left =? 0) = false ->
  base64_decode_loop left (c0 :: c1 :: c2 :: c3 :: r) =
  let block := N.lor (N.lor (N.lor (N.shiftl v0 18) (N.shiftl v1 12)) (N.shiftl v2 6)) v3 in
  let b0 := N.land (N.shiftr (N.land block 0x00FF0000) 16) 0xFF in
  let b1 := N.land (N.shiftr (N.land block 0x0000FF00) 8) 0xFF in
  let b2 := N.land block 0x000000FF in
  if left =? 1 then Done [b0]
  else if left =? 2 then Done [b0; b1]
  else obind (base64_decode_loop (left - 3) r) (fun w => Done (b0 :: b1 :: b2 :: w)).
Proof.
  intros left c0 c1 c2 c3 v0 v1 v2 v3 r E0 E1 E2 E3 El. cbn [base64_decode_loop].
  rewrite El, E0, E1, E2, E3. cbn [obind]. reflexivity.
Qed.

Lemma block_bytes : forall block,
  N.land (N.shiftr (N.land block 0x00FF0000) 16) 0xFF = block / 65536 mod 256 /\
  N.land (N.shiftr (N.land block 0x0000FF00) 8) 0xFF = block / 256 mod 256 /\
  N.land block 0x000000FF = block mod 256.
Proof.
  intro block. rewrite (mask_shift block 8 16), (mask_shift block 8 8) by reflexivity.
  rewrite !(fun x => land_low x 8 0xFF eq_refl). nb. repeat split; lia.
Qed.

Lemma shiftl_add : forall x j k, N.shiftl x (j + k) = N.shiftl (N.shiftl x j) k.
Proof. intros. rewrite N.shiftl_shiftl. reflexivity. Qed.

Lemma lor_block : forall v0 v1 v2 v3, v1 < 64 -> v2 < 64 -> v3 < 64 ->
  N.lor (N.lor (N.lor (N.shiftl v0 18) (N.shiftl v1 12)) (N.shiftl v2 6)) v3 =
  v0 * 262144 + v1 * 4096 + v2 * 64 + v3.
Proof.
  intros. change 18 with (6 + 12). rewrite shiftl_add.
  rewrite <- N.shiftl_lor. rewrite (lor_add v0 v1 6) by (nb; lia).
  change 12 with (6 + 6). rewrite shiftl_add.
  rewrite <- N.shiftl_lor. rewrite (lor_add _ v2 6) by (nb; lia).
  rewrite lor_add by (nb; lia). nb. ring.
Qed.

(* top byte(s) are not affected by what '=' decodes to *)
Lemma lor_testbit_hi : forall x y k, y < 2 ^ k -> N.lor x y / 2 ^ k = x / 2 ^ k.
Proof.
  intros x y k Hy. rewrite <- !N.shiftr_div_pow2, N.shiftr_lor.
  rewrite (N.shiftr_div_pow2 y), N.div_small, N.lor_0_r by assumption. reflexivity.
Qed.

Lemma base64_decode_loop_ok : forall l, octets l ->
  base64_decode_loop (N.of_nat (List.length l)) (base64_encode_loop l) = Done l.
Proof.
  induction l as [ | a | a b | a b c r IH ] using list3_ind; intro H; bytes_inv.
  - reflexivity.
  - cbn [base64_encode_loop]. rewrite base64_block_chars_vals. unfold put_pad, vals64.
    bev. rewrite N.shiftl_mul_pow2. nb.
    cbn [map List.length firstn Nat.sub app repeat]. nb.
    erewrite decode_step; [|apply b64_char; lia|apply b64_char; lia|apply b64_eq|apply b64_eq|reflexivity].
    cbv zeta.
    match goal with |- context[N.land (N.shiftr (N.land ?b 0x00FF0000) 16) 0xFF] =>
      destruct (block_bytes b) as (-> & -> & ->) end.
    cbv iota. change (1 =? 1) with true. cbv iota. f_equal. f_equal.
    change 65536 with (2 ^ 16).
    rewrite lor_testbit_hi by (nb; lia).
    rewrite lor_testbit_hi by (vm_compute; reflexivity).
    change 18 with (6 + 12). rewrite shiftl_add. rewrite <- N.shiftl_lor. rewrite lor_add by (nb; lia).
    rewrite N.shiftl_mul_pow2. nb. lia.
  - cbn [base64_encode_loop]. rewrite base64_block_chars_vals. unfold put_pad, vals64.
    bev. rewrite N.shiftl_mul_pow2. nb.
    cbn [map List.length firstn Nat.sub app repeat]. nb.
    erewrite decode_step; [|apply b64_char; lia|apply b64_char; lia|apply b64_char; lia|apply b64_eq|reflexivity].
    cbv zeta.
    match goal with |- context[N.land (N.shiftr (N.land ?b 0x00FF0000) 16) 0xFF] =>
      destruct (block_bytes b) as (-> & -> & ->) end.
    change (2 =? 1) with false. change (2 =? 2) with true. cbv iota. f_equal.
    match goal with |- context[N.lor ?X 255] => set (B := X) end.
    assert (N.lor B 255 / 256 = B / 256) as E256.
    { change 256 with (2 ^ 8). apply lor_testbit_hi. nb. lia. }
    change 65536 with (256 * 256). rewrite <- N.div_div by lia. rewrite !E256.
    assert (B = a * 65536 + b * 256) as ->.
    { subst B. pose proof (lor_block ((a * 256 + (b * 1 + 0)) * 256 / 262144 mod 64)
        ((a * 256 + (b * 1 + 0)) * 256 / 4096 mod 64) ((a * 256 + (b * 1 + 0)) * 256 / 64 mod 64) 0) as E.
      rewrite N.lor_0_r in E. rewrite E by lia. lia. }
    repeat (apply f_equal2; [lia|]). reflexivity.
  - replace (N.of_nat (List.length (a :: b :: c :: r))) with (N.of_nat (List.length r) + 3)
      by (cbn [List.length]; lia).
    cbn [base64_encode_loop]. rewrite base64_block_chars_vals. unfold vals64.
    bev. nb.
    cbn [map app].
    erewrite decode_step; [|apply b64_char; lia|apply b64_char; lia|apply b64_char; lia|apply b64_char; lia|lia].
    cbv zeta.
    match goal with |- context[N.land (N.shiftr (N.land ?b 0x00FF0000) 16) 0xFF] =>
      destruct (block_bytes b) as (-> & -> & ->) end.
    assert (N.of_nat (List.length r) + 3 =? 1 = false) as -> by lia.
    assert (N.of_nat (List.length r) + 3 =? 2 = false) as -> by lia.
    replace (N.of_nat (List.length r) + 3 - 3) with (N.of_nat (List.length r)) by lia.
    rewrite IH by assumption. cbn [obind]. f_equal.
    rewrite lor_block by lia.
    set (B := _ * 262144 + _ + _ + _).
    assert (B = a * 65536 + b * 256 + c) as -> by (subst B; lia).
    repeat (apply f_equal2; [lia|]). reflexivity.
Qed.

Lemma base64_roundtrip : forall l c, octets l -> N.of_nat (List.length l) < 2 ^ 60 ->
  base64_encode l = Some c ->
  base64_decode c = Some (Done (N.of_nat (List.length l), l)).
Proof.
  intros l c Hl Hb Hc. unfold base64_encode in Hc. destruct l as [|a l]; [discriminate|].
  assert (base64_encode_loop (a :: l) = c) as Hc' by congruence. clear Hc.
  pose proof (base64_encode_loop_length (a :: l)) as Hlen. rewrite Hc' in Hlen.
  pose proof (count_pad_encode (a :: l)) as Hp. rewrite Hc' in Hp.
  set (L := a :: l) in *. assert (L <> []) as HL by (subst L; congruence).
  assert (0 < List.length L)%nat by (subst L; cbn; lia).
  unfold base64_decode. destruct c as [|c0 c].
  { change (List.length (@nil N)) with 0%nat in Hlen. lia. }
  rewrite Hp by assumption. cbn [obind].
  assert (((N.of_nat (List.length (c0 :: c)) * 6 / 8) + W64 - pad64 (List.length L)) mod W64
          = N.of_nat (List.length L)) as ->.
  { rewrite Hlen. unfold W64, pad64.
    change (2 ^ 60) with 1152921504606846976 in *.
    destruct (List.length L mod 3)%nat as [|[|]] eqn:E; lia. }
  rewrite <- Hc', base64_decode_loop_ok by assumption. reflexivity.
Qed.
