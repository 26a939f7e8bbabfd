(* bcrypt: the text and its verification. *)
From Coq Require Import String PeanoNat.
From Verif Require Import Words EncTables EncModel EncSpec EncProofs EncProofs64 BcryptModel BcryptSpec.
From Verif Require CipherBase CipherLib StreamModel BcryptProofs.
Notation length := List.length (only parsing).
Notation concat := List.concat (only parsing).
Open Scope string_scope.
Open Scope list_scope.
Open Scope N_scope.
Ltac Zify.zify_post_hook ::= Z.div_mod_to_equations.

Definition BC64 := codes "./ABCDEFGHIJKLMNOPQRSTUVWXYZabcdefghijklmnopqrstuvwxyz0123456789".

Lemma bc_block_chars_vals : forall x, bc_block_chars x = map (nthN bc_state) (vals64 x).
Proof.
  intro x. unfold bc_block_chars, vals64. cbn [map].
  rewrite (mask_shift x 6 18), (mask_shift x 6 12), (mask_shift x 6 6), (land_low x 6) by reflexivity. reflexivity.
Qed.
Lemma bcrypt64_cons : forall a b c r,
  bcrypt64 (a :: b :: c :: r) =
  map (fun g => nthN BC64 (bits_val g)) [slice a 8 2; slice a 2 0 ++ slice b 8 4; slice b 4 0 ++ slice c 8 6; slice c 6 0] ++ bcrypt64 r.
Proof.
  intros. unfold bcrypt64, rfc4648. fold BC64. cbn [flat_map].
  replace (byte_bits a ++ byte_bits b ++ byte_bits c ++ flat_map byte_bits r)
  with (slice a 8 2 ++ (slice a 2 0 ++ slice b 8 4) ++ (slice b 4 0 ++ slice c 8 6) ++ slice c 6 0 ++ flat_map byte_bits r) by reflexivity.
  rewrite !groups_app by (cbn; lia).
  cbn [map app]. do 4 (apply f_equal2; [reflexivity|]). apply f_equal2; [reflexivity|]. f_equal.
  cbn [List.length]. set (n := List.length _). change (S (S (S (S n)))) with (4 + n)%nat. apply quantum_shift. lia.
Qed.
Lemma bc_encode_spec : forall l, octets l -> bc_encode l = bcrypt64 l.
Proof.
  induction l as [ | a | a b | a b c r IH ] using list3_ind; intro H; bytes_inv.
  - reflexivity.
  - cbn [bc_encode]. rewrite bc_block_chars_vals. unfold bcrypt64, rfc4648. cbn [flat_map]. rewrite app_nil_r.
    replace (byte_bits a) with (List.concat [slice a 8 2] ++ slice a 2 0) by reflexivity.
    rewrite groups_tail by (repeat constructor; cbn; lia).
    unfold put_pad, vals64. cbn [map List.length app firstn Nat.sub repeat Nat.modulo Nat.divmod fst snd].
    fold BC64. change bc_state with BC64. bev. rewrite N.shiftl_mul_pow2. slv. repeat (apply f_equal2; [f_equal; lia|]). reflexivity.
  - cbn [bc_encode]. rewrite bc_block_chars_vals. unfold bcrypt64, rfc4648. cbn [flat_map]. rewrite app_nil_r.
    replace (byte_bits a ++ byte_bits b) with (List.concat [slice a 8 2; slice a 2 0 ++ slice b 8 4] ++ slice b 4 0) by reflexivity.
    rewrite groups_tail by (repeat constructor; cbn; lia).
    unfold put_pad, vals64. cbn [map List.length app firstn Nat.sub repeat Nat.modulo Nat.divmod fst snd].
    fold BC64. change bc_state with BC64. bev. rewrite N.shiftl_mul_pow2. slv. repeat (apply f_equal2; [f_equal; lia|]). reflexivity.
  - rewrite bcrypt64_cons. cbn [bc_encode]. rewrite IH by assumption. f_equal.
    rewrite bc_block_chars_vals. change bc_state with BC64. rewrite <- (map_map bits_val (nthN BC64)). f_equal.
    bev. unfold vals64. cbn [map]. slv. repeat (apply f_equal2; [lia|]). reflexivity.
Qed.
Lemma bc_encode_length : forall l, length (bc_encode l) = (4 * ((length l + 2) / 3))%nat.
Proof.
  induction l as [ | a | a b | a b c r IH ] using list3_ind; try reflexivity.
  cbn [bc_encode]. rewrite app_length, IH. cbn [List.length bc_block_chars].
  replace (S (S (S (length r))) + 2)%nat with (length r + 2 + 1 * 3)%nat by lia. rewrite Nat.div_add by lia. lia.
Qed.

Definition bc_ok (v : N) : bool :=
  let c := nthN bc_state v in
  negb (c =? 61) && (eq_to_nul c =? c) && match rd bc_state_1 c with Done x => x =? v | UB => false end.
Lemma bc_char : forall v, v < 64 -> (nthN bc_state v =? 61) = false /\ rd bc_state_1 (eq_to_nul (nthN bc_state v)) = Done v.
Proof.
  intros v Hv. pose proof (sweep 64 bc_ok) as H. specialize (H eq_refl v Hv).
  unfold bc_ok in H. apply andb_true_iff in H. destruct H as [H H2]. apply andb_true_iff in H. destruct H as [H H1].
  apply negb_true_iff in H. split; [assumption|]. apply N.eqb_eq in H1. rewrite H1. destruct (rd _ _); [|discriminate].
  apply N.eqb_eq in H2. congruence.
Qed.
Lemma bc_decode_step : forall left c0 c1 c2 c3 v0 v1 v2 v3 r,
  rd bc_state_1 (eq_to_nul c0) = Done v0 -> rd bc_state_1 (eq_to_nul c1) = Done v1 ->
  rd bc_state_1 (eq_to_nul c2) = Done v2 -> rd bc_state_1 (eq_to_nul c3) = Done v3 -> (left =? 0) = false ->
  bc_decode_loop left (c0 :: c1 :: c2 :: c3 :: r) =
  let block := N.lor (N.lor (N.lor (N.shiftl v0 18) (N.shiftl v1 12)) (N.shiftl v2 6)) v3 in
  let b0 := N.land (N.shiftr (N.land block 0x00FF0000) 16) 0xFF in
  let b1 := N.land (N.shiftr (N.land block 0x0000FF00) 8) 0xFF in
  let b2 := N.land block 0x000000FF in
  if left =? 1 then Done [b0] else if left =? 2 then Done [b0; b1]
  else obind (bc_decode_loop (left - 3) r) (fun w => Done (b0 :: b1 :: b2 :: w)).
Proof.
  intros left c0 c1 c2 c3 v0 v1 v2 v3 r E0 E1 E2 E3 El. cbn [bc_decode_loop]. rewrite El, E0, E1, E2, E3. cbn [obind]. reflexivity.
Qed.
Lemma bc_decode_loop_ok : forall l, octets l -> (length l mod 3 = 1)%nat -> forall x y r, x < 64 -> y < 64 ->
  bc_decode_loop (N.of_nat (length l)) (firstn (length (bc_encode l) - 2) (bc_encode l) ++ nthN bc_state x :: nthN bc_state y :: r) = Done l.
Proof.
  induction l as [ | a | a b | a b c t IH ] using list3_ind; intros H HL x y r Hx Hy; bytes_inv; try discriminate HL.
  - cbn [bc_encode]. rewrite bc_block_chars_vals. unfold put_pad, vals64. bev. rewrite N.shiftl_mul_pow2. nb.
    cbn [map List.length firstn Nat.sub app repeat]. nb.
    erewrite bc_decode_step; [|apply bc_char; lia|apply bc_char; lia|apply bc_char; exact Hx|apply bc_char; exact Hy|reflexivity].
    cbv zeta.
    match goal with |- context[N.land (N.shiftr (N.land ?b 0x00FF0000) 16) 0xFF] => destruct (block_bytes b) as (-> & -> & ->) end.
    change (1 =? 1) with true. cbv iota. f_equal. f_equal. rewrite lor_block by lia. lia.
  - assert (length t mod 3 = 1)%nat as HL'. { cbn [List.length] in HL. replace (S (S (S (length t)))) with (length t + 1 * 3)%nat in HL by lia. rewrite Nat.mod_add in HL by lia. exact HL. }
    assert (2 <= length (bc_encode t))%nat as Lt. { rewrite bc_encode_length. destruct t as [|t0 t]; [discriminate HL'|]. cbn [List.length]. pose proof (Nat.div_le_mono 3 (S (length t) + 2) 3 ltac:(lia) ltac:(lia)). change (3 / 3)%nat with 1%nat in *. lia. }
    replace (N.of_nat (length (a :: b :: c :: t))) with (N.of_nat (length t) + 3) by (cbn [List.length]; lia).
    cbn [bc_encode]. rewrite app_length. change (length (bc_block_chars (gather8 [a; b; c]))) with 4%nat.
    replace (4 + length (bc_encode t) - 2)%nat with (4 + (length (bc_encode t) - 2))%nat by lia.
    rewrite bc_block_chars_vals. unfold vals64. bev. nb. cbn [map app firstn Nat.add].
    erewrite bc_decode_step; [|apply bc_char; lia|apply bc_char; lia|apply bc_char; lia|apply bc_char; lia|lia].
    cbv zeta.
    match goal with |- context[N.land (N.shiftr (N.land ?b 0x00FF0000) 16) 0xFF] => destruct (block_bytes b) as (-> & -> & ->) end.
    assert (N.of_nat (length t) + 3 =? 1 = false) as -> by lia. assert (N.of_nat (length t) + 3 =? 2 = false) as -> by lia.
    replace (N.of_nat (length t) + 3 - 3) with (N.of_nat (length t)) by lia.
    rewrite IH by assumption. cbn [obind]. f_equal. rewrite lor_block by lia.
    set (B := _ * 262144 + _ + _ + _). assert (B = a * 65536 + b * 256 + c) as -> by (subst B; lia).
    repeat (apply f_equal2; [lia|]). reflexivity.
Qed.
Lemma bc_decode_bytes : forall left l w, bc_decode_loop left l = Done w -> octets w /\ N.of_nat (length w) <= left.
Proof.
  assert (forall x, N.land x 0xFF < 256) as B by (intro x; change 0xFF with (N.ones 8); rewrite N.land_ones; apply N.mod_lt; discriminate).
  fix IH 2. intros left l w H. destruct l as [|c0 [|c1 [|c2 [|c3 r]]]]; cbn [bc_decode_loop] in H;
    (destruct (N.eqb_spec left 0) as [E0|E0]; [assert (w = []) as -> by congruence; split; [constructor|cbn; lia]|]); try discriminate H.
  repeat match type of H with obind ?o _ = _ => destruct o; [cbn [obind] in H|discriminate H] end.
  set (bl := N.lor _ _) in H. clearbody bl. cbv zeta in H.
  destruct (N.eqb_spec left 1) as [E1|E1]; [assert (w = [N.land (N.shiftr (N.land bl 0x00FF0000) 16) 0xFF]) as -> by congruence; split; [repeat constructor; apply B|cbn; lia]|].
  destruct (N.eqb_spec left 2) as [E2|E2];
    [assert (w = [N.land (N.shiftr (N.land bl 0x00FF0000) 16) 0xFF; N.land (N.shiftr (N.land bl 0x0000FF00) 8) 0xFF]) as -> by congruence; split; [repeat constructor; apply B|cbn; lia]|].
  specialize (IH (left - 3) r). destruct (bc_decode_loop (left - 3) r) as [v|]; [|discriminate H]. cbn [obind] in H. destruct (IH v eq_refl) as [IH1 IH2].
  match type of H with Done ?x = _ => assert (w = x) as -> by congruence end. split; [repeat constructor; try apply B; exact IH1|cbn [List.length]; lia].
Qed.

(* ---------------------------------------------------------------- the hash *)
Lemma raw_length : forall cost salt key, length (bcrypt_raw cost salt key) = 24%nat /\ octets (bcrypt_raw cost salt key).
Proof.
  intros. unfold bcrypt_raw. cbv zeta. generalize (bf_encrypt (EksBlowfishSetup cost salt key)). generalize 64%nat. intros n f. unfold magic. cbv zeta. cbn [map List.concat].
  destruct (Nat.iter n f _) as [a b]. destruct (Nat.iter n f _) as [c d]. destruct (Nat.iter n f _) as [e g]. split.
  - rewrite !app_length, !be_bytes_length. reflexivity.
  - apply CipherLib.octets_bytes. unfold bytes. rewrite !Forall_app. repeat split; try apply be_bytes_bytes. constructor.
Qed.
Lemma octets_key : forall pw, octets pw -> bytes (pw ++ [0]) /\ pw ++ [0] <> [].
Proof.
  intros pw H. split; [|destruct pw; discriminate]. unfold bytes. rewrite Forall_app. split; [exact H|]. repeat constructor.
Qed.
Opaque bc_setup EksBlowfishSetup bc_ctext bcrypt_raw.
Lemma octets_first : forall n l, octets l -> octets (firstn n l).
Proof. intros n l H. apply CipherLib.octets_bytes. apply CipherLib.bytes_firstn. apply CipherLib.octets_bytes. exact H. Qed.
Lemma buf_all' : forall l, StreamModel.buf (Some l) (N.of_nat (length l)) = Done l.
Proof. intro l. unfold StreamModel.buf. rewrite N.ltb_irrefl, Nat2N.id, firstn_all. reflexivity. Qed.
Lemma text_eq : forall cost salt pw, octets salt -> length salt = 16%nat -> octets pw ->
  let s64 := bc_encode salt in
  let c64 := bc_encode (firstn 23 (bc_ctext (bc_setup cost salt (pw ++ [0])))) in
  bc_prefix cost ++ firstn (length s64 - 2) s64 ++ firstn (length c64 - 1) c64 = BCRYPT cost salt pw.
Proof.
  intros cost salt pw Hs Ls Hp. cbv zeta. destruct (octets_key pw Hp) as [Hk Nk].
  rewrite BcryptProofs.ctext_raw by (try assumption; apply CipherLib.octets_bytes; exact Hs).
  destruct (raw_length cost salt (pw ++ [0])) as [L O]. unfold BCRYPT. generalize dependent (bcrypt_raw cost salt (pw ++ [0])). intros raw L O.
  rewrite !bc_encode_length. rewrite firstn_length, L, Ls. change (4 * ((16 + 2) / 3) - 2)%nat with 22%nat. change (4 * ((Nat.min 23 24 + 2) / 3) - 1)%nat with 31%nat.
  rewrite !bc_encode_spec by (try apply octets_first; assumption). reflexivity.
Qed.
Opaque BCRYPT.
Lemma bcrypt_spec : forall cost salt pw, octets salt -> length salt = 16%nat -> octets pw ->
  bcrypt cost (Some salt) 16 (Some pw) (N.of_nat (length pw)) true =
  Done (if ((4 <=? cost) && (cost <=? 31))%Z && (N.of_nat (length pw) <=? 72) then Some (BCRYPT (Z.to_N cost) salt pw) else None).
Proof.
  intros cost salt pw Hs Ls Hp. unfold bcrypt.
  change (negb (16 =? 16)) with false. change (negb true) with false. rewrite !orb_false_r.
  rewrite !Z.ltb_antisym, N.ltb_antisym. rewrite <- !negb_andb.
  destruct ((4 <=? cost) && (cost <=? 31))%Z; [|reflexivity]. destruct (N.of_nat (length pw) <=? 72); [|reflexivity].
  cbn [andb negb]. rewrite buf_all'. cbn [obind]. replace 16 with (N.of_nat (length salt)) by (rewrite Ls; reflexivity). rewrite buf_all'. cbn [obind]. cbv zeta.
  pose proof (text_eq (Z.to_N cost) salt pw Hs Ls Hp) as T. cbv zeta in T. rewrite T. reflexivity.
Qed.
