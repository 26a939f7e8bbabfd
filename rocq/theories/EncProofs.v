(* Proofs about the encoders: equality with RFC 4648, round trips, buffer bounds. *)
From Coq Require Import String.
From Verif Require Import Words EncTables EncModel EncSpec.
Open Scope string_scope.
Open Scope list_scope.
Open Scope N_scope.
Ltac Zify.zify_post_hook ::= Z.div_mod_to_equations.

(* ------------------------------------------------------------ bit groups *)

Lemma bits_val_app1 : forall xs b, bits_val (xs ++ [b]) = 2 * bits_val xs + (if b then 1 else 0).
Proof. intros. unfold bits_val. rewrite fold_left_app. reflexivity. Qed.

Lemma bits_val_app : forall ys xs,
  bits_val (xs ++ ys) = bits_val xs * 2 ^ N.of_nat (length ys) + bits_val ys.
Proof.
  induction ys as [|y ys IH] using rev_ind; intro xs.
  - rewrite app_nil_r. change (bits_val []) with 0. cbn [length]. lia.
  - rewrite app_assoc, !bits_val_app1, IH, app_length. cbn [length].
    replace (N.of_nat (length ys + 1)) with (N.succ (N.of_nat (length ys))) by lia.
    rewrite N.pow_succ_r'. lia.
Qed.

(* slice of a byte's bits: bits hi-1 .. lo *)
Definition slice (b : N) (hi lo : nat) : list bool :=
  firstn (hi - lo) (skipn (8 - hi) (byte_bits b)).

Definition slice_ok (hi lo : nat) : bool :=
  forallb (fun b => bits_val (slice b hi lo) =?
                    (b / 2 ^ N.of_nat lo) mod 2 ^ N.of_nat (hi - lo)) all_bytes.

Definition slices : list (nat * nat) :=
  (flat_map (fun hi => map (fun lo => (hi, lo)) (seq 0 hi)) (seq 1 8)).

Lemma slices_ok : forallb (fun '(hi, lo) => slice_ok hi lo) slices = true.
Proof. vm_compute. reflexivity. Qed.

Lemma slice_val : forall b hi lo, b < 256 -> (lo < hi <= 8)%nat ->
  bits_val (slice b hi lo) = (b / 2 ^ N.of_nat lo) mod 2 ^ N.of_nat (hi - lo).
Proof.
  intros b hi lo Hb Hl.
  assert (In (hi, lo) slices) as Hin.
  { unfold slices. apply in_flat_map. exists hi. split; [apply in_seq; lia|].
    apply in_map_iff. exists lo. split; [reflexivity|apply in_seq; lia]. }
  pose proof slices_ok as H. rewrite forallb_forall in H. specialize (H _ Hin).
  cbn beta iota in H. unfold slice_ok in H.
  apply N.eqb_eq. exact (sweep_bytes _ H b Hb).
Qed.

Lemma gather8_snoc : forall l b, b < 256 -> gather8 (l ++ [b]) = gather8 l * 256 + b.
Proof.
  intros l b Hb. unfold gather8. rewrite fold_left_app. cbn [fold_left].
  change 256 with (2 ^ 8) in *. rewrite lor_add by assumption. reflexivity.
Qed.

Lemma gather8_be : forall l, bytes l -> gather8 l = be_val l.
Proof.
  induction l as [|b l IH] using rev_ind; intro H; [reflexivity|].
  apply Forall_app in H. destruct H as [Hl Hb]. inversion Hb; subst.
  rewrite gather8_snoc, be_val_app, IH; auto.
Qed.

Ltac ground_nat k := lazymatch k with
  | O => idtac | S ?k' => ground_nat k'
  | (?a - ?b)%nat => ground_nat a; ground_nat b | (?a + ?b)%nat => ground_nat a; ground_nat b
  | List.length ?l => ground_list l end
with ground_list l := lazymatch l with nil => idtac | _ :: ?r => ground_list r end.
Ltac nb := repeat (match goal with |- context[N.of_nat ?k] =>
    ground_nat k; let v := eval vm_compute in (N.of_nat k) in change (N.of_nat k) with v end);
  change (2 ^ 0) with 1 in *; change (2 ^ 1) with 2 in *; change (2 ^ 2) with 4 in *;
  change (2 ^ 3) with 8 in *; change (2 ^ 4) with 16 in *; change (2 ^ 5) with 32 in *;
  change (2 ^ 6) with 64 in *; change (2 ^ 7) with 128 in *; change (2 ^ 8) with 256 in *;
  change (2 ^ 10) with 1024 in *; change (2 ^ 12) with 4096 in *; change (2 ^ 15) with 32768 in *;
  change (2 ^ 16) with 65536 in *; change (2 ^ 18) with 262144 in *; change (2 ^ 20) with 1048576 in *;
  change (2 ^ 24) with 16777216 in *; change (2 ^ 25) with 33554432 in *;
  change (2 ^ 30) with 1073741824 in *; change (2 ^ 32) with 4294967296 in *;
  change (2 ^ 35) with 34359738368 in *.

(* ---------------------------------------------------------------- Base16 *)

Lemma groups_fuel_more : forall w f1 f2 bs, (0 < w)%nat ->
  (length bs <= f1)%nat -> (length bs <= f2)%nat -> groups_fuel f1 w bs = groups_fuel f2 w bs.
Proof.
  intros w. induction f1 as [|f1 IH]; intros [|f2] bs Hw H1 H2.
  - reflexivity.
  - destruct bs; cbn in *; [reflexivity|lia].
  - destruct bs; cbn in *; [reflexivity|lia].
  - destruct bs as [|b bs]; [reflexivity|]. cbn [groups_fuel]. f_equal.
    apply IH; auto; rewrite skipn_length; cbn [length] in *; lia.
Qed.

Lemma groups_app : forall w g bs, (0 < w)%nat -> length g = w ->
  groups w (g ++ bs) = g :: groups w bs.
Proof.
  intros w g bs Hw Hg. unfold groups.
  destruct g as [|x g]; [cbn in Hg; lia|].
  rewrite app_length. rewrite Hg. destruct w as [|w]; [lia|].
  cbn [Nat.add groups_fuel].
  change ((x :: g) ++ bs) with (x :: (g ++ bs)) at 1. cbv iota.
  rewrite firstn_app, Hg, Nat.sub_diag, firstn_O, app_nil_r.
  rewrite firstn_all2 by lia. rewrite Hg, Nat.sub_diag. cbn [repeat]. rewrite app_nil_r.
  f_equal. rewrite skipn_app, Hg, Nat.sub_diag, skipn_O. rewrite skipn_all2 by lia.
  cbn [app]. apply groups_fuel_more; lia.
Qed.

Lemma groups_last : forall w g, (0 < w)%nat -> (0 < length g <= w)%nat ->
  groups w g = [g ++ repeat false (w - length g)].
Proof.
  intros w g Hw Hg. unfold groups. destruct g as [|x g]; [cbn in Hg; lia|].
  cbn [length groups_fuel]. rewrite firstn_all2 by (cbn in *; lia).
  f_equal. rewrite skipn_all2 by (cbn in *; lia). destruct (length g); reflexivity.
Qed.

Lemma byte_bits_slices : forall b, byte_bits b = slice b 8 0.
Proof. reflexivity. Qed.

Lemma base16_state_rfc : base16_state = codes "0123456789ABCDEF".
Proof. reflexivity. Qed.
Lemma base32_state_rfc : base32_state = codes "ABCDEFGHIJKLMNOPQRSTUVWXYZ234567".
Proof. reflexivity. Qed.
Lemma base64_state_rfc : base64_state =
  codes "ABCDEFGHIJKLMNOPQRSTUVWXYZabcdefghijklmnopqrstuvwxyz0123456789+/".
Proof. reflexivity. Qed.

Lemma bits_nil : bits_val [] = 0. Proof. reflexivity. Qed.

Lemma bits_val_repeat0 : forall n xs,
  bits_val (xs ++ repeat false n) = bits_val xs * 2 ^ N.of_nat n.
Proof.
  intros n xs. rewrite bits_val_app, repeat_length.
  replace (bits_val (repeat false n)) with 0; [lia|].
  induction n as [|n IH]; [reflexivity|].
  replace (S n) with (n + 1)%nat by lia. rewrite repeat_app. cbn [repeat].
  rewrite bits_val_app1, <- IH. reflexivity.
Qed.

Lemma base16_one : forall b, b < 256 ->
  [nthN base16_state (N.shiftr b 4); nthN base16_state (N.land b 15)] =
  map (fun g => nthN (codes "0123456789ABCDEF") (bits_val g)) [slice b 8 4; slice b 4 0].
Proof.
  intros b Hb. cbn [map]. rewrite !slice_val by lia. rewrite <- base16_state_rfc.
  rewrite shiftr_div, (land_low b 4 15) by reflexivity.
  nb.
  repeat (apply f_equal2; [f_equal; lia|]). reflexivity.
Qed.

Lemma rep0 : forall k, (0 < k)%nat -> ((k - 0 mod k) mod k = 0)%nat.
Proof. intros. rewrite Nat.mod_0_l, Nat.sub_0_r, Nat.mod_same; lia. Qed.

Lemma base16_spec_cons : forall b l,
  rfc_base16 (b :: l) = map (fun g => nthN (codes "0123456789ABCDEF") (bits_val g))
                            [slice b 8 4; slice b 4 0] ++ rfc_base16 l.
Proof.
  intros b l. unfold rfc_base16, rfc4648. cbn [flat_map].
  replace (byte_bits b ++ flat_map byte_bits l)
     with (slice b 8 4 ++ slice b 4 0 ++ flat_map byte_bits l) by reflexivity.
  rewrite !groups_app by (cbn; lia).
  cbn [map]. cbn [app]. do 2 f_equal. f_equal. f_equal. f_equal.
  cbn [length]. set (n := length _).
  replace (S (S n)) with (n + 1 * 2)%nat by lia.
  rewrite Nat.mod_add by lia. reflexivity.
Qed.

Lemma base16_encode_spec : forall l, octets l -> l <> [] -> base16_encode l = Some (rfc_base16 l).
Proof.
  intros l Hl Hn. unfold base16_encode. destruct l as [|b0 l0]; [congruence|].
  f_equal. clear Hn. revert Hl. generalize (b0 :: l0). clear b0 l0.
  induction l as [|b l IH]; intro H; [reflexivity|].
  inversion H; subst. rewrite base16_spec_cons, <- base16_one by assumption.
  cbn [flat_map]. rewrite IH by assumption. reflexivity.
Qed.

Definition hex_ok (v : N) : bool := base16_digit (nthN base16_state v) =? v.
Lemma base16_digit_ok : forall v, v < 16 -> base16_digit (nthN base16_state v) = v.
Proof.
  intros v Hv. apply N.eqb_eq. apply (sweep 16 hex_ok); [vm_compute; reflexivity|exact Hv].
Qed.

Lemma base16_roundtrip : forall l c, octets l -> base16_encode l = Some c ->
  base16_decode c = Some l.
Proof.
  intros l c Hl Hc. unfold base16_encode in Hc. destruct l as [|b0 l0]; [discriminate|].
  injection Hc as Hc. cbn [flat_map app] in Hc.
  destruct c as [|c0 c]; [discriminate|]. unfold base16_decode. f_equal.
  rewrite <- Hc. clear Hc c0 c. 
  change (base16_decode_loop (flat_map (fun b => [nthN base16_state (N.shiftr b 4);
     nthN base16_state (N.land b 15)]) (b0 :: l0)) = b0 :: l0).
  revert Hl. generalize (b0 :: l0). clear b0 l0.
  induction l as [|b l IH]; intro H; [reflexivity|].
  inversion H; subst. cbn [flat_map app base16_decode_loop]. rewrite IH by assumption. f_equal.
  rewrite shiftr_div, (land_low b 4 15) by reflexivity. nb.
  rewrite !base16_digit_ok by lia.
  rewrite lor_add by (nb; lia). nb. lia.
Qed.

Lemma base16_encode_length : forall l c, base16_encode l = Some c -> length c = (2 * length l)%nat.
Proof.
  intros l c Hc. unfold base16_encode in Hc. destruct l as [|b0 l0]; [discriminate|].
  injection Hc as <-.
  change (List.length (flat_map (fun b => [nthN base16_state (N.shiftr b 4);
     nthN base16_state (N.land b 15)]) (b0 :: l0)) = (2 * List.length (b0 :: l0))%nat).
  generalize (b0 :: l0). clear.
  induction l as [|b l IH]; [reflexivity|]. cbn [flat_map app length]. lia.
Qed.

(* ---------------------------------------------------------------- Base32 *)

Lemma list5_ind : forall (P : list N -> Prop),
  P [] -> (forall a, P [a]) -> (forall a b, P [a; b]) -> (forall a b c, P [a; b; c]) ->
  (forall a b c d, P [a; b; c; d]) ->
  (forall a b c d e r, P r -> P (a :: b :: c :: d :: e :: r)) -> forall l, P l.
Proof.
  intros P H0 H1 H2 H3 H4 H5.
  fix IH 1. intros [|a [|b [|c [|d [|e r]]]]];
  [exact H0|apply H1|apply H2|apply H3|apply H4|apply H5; apply IH].
Qed.

Lemma list3_ind : forall (P : list N -> Prop),
  P [] -> (forall a, P [a]) -> (forall a b, P [a; b]) ->
  (forall a b c r, P r -> P (a :: b :: c :: r)) -> forall l, P l.
Proof.
  intros P H0 H1 H2 H3.
  fix IH 1. intros [|a [|b [|c r]]];
  [exact H0|apply H1|apply H2|apply H3; apply IH].
Qed.

Definition vals32 (x : N) : list N :=
  [x / 2 ^ 35 mod 32; x / 2 ^ 30 mod 32; x / 2 ^ 25 mod 32; x / 2 ^ 20 mod 32;
   x / 2 ^ 15 mod 32; x / 2 ^ 10 mod 32; x / 2 ^ 5 mod 32; x mod 32].

Lemma base32_block_chars_vals : forall x,
  base32_block_chars x = map (nthN base32_state) (vals32 x).
Proof.
  intro x. unfold base32_block_chars, vals32. cbn [map].
  rewrite (mask_shift x 5 35), (mask_shift x 5 30), (mask_shift x 5 25), (mask_shift x 5 20),
          (mask_shift x 5 15), (mask_shift x 5 10), (mask_shift x 5 5), (land_low x 5) by reflexivity.
  reflexivity.
Qed.

Lemma be_val_cons : forall a l, be_val (a :: l) = a * 256 ^ N.of_nat (length l) + be_val l.
Proof.
  intros a l. induction l as [|b l IH] using rev_ind.
  - unfold be_val. cbn. lia.
  - rewrite app_comm_cons, !be_val_app, IH, app_length. cbn [length].
    replace (N.of_nat (length l + 1)) with (N.succ (N.of_nat (length l))) by lia.
    rewrite N.pow_succ_r'. lia.
Qed.

Ltac bytes_inv :=
  repeat match goal with
         | H : Forall _ (_ :: _) |- _ => inversion H; subst; clear H
         | H : octets (_ :: _) |- _ => inversion H; subst; clear H
         | H : bytes (_ :: _) |- _ => inversion H; subst; clear H
         end; unfold byte in *.

Ltac bev :=
  rewrite ?gather8_be by (unfold bytes, byte; repeat constructor; assumption);
  rewrite ?be_val_cons; cbn [length]; change (be_val []) with 0;
  change (256 ^ N.of_nat 4) with 4294967296; change (256 ^ N.of_nat 3) with 16777216;
  change (256 ^ N.of_nat 2) with 65536; change (256 ^ N.of_nat 1) with 256;
  change (256 ^ N.of_nat 0) with 1.

Ltac slv := rewrite ?bits_val_repeat0, ?bits_val_app, ?slice_val by (try assumption; lia);
  cbn [length firstn skipn slice byte_bits map app repeat Nat.sub]; 
  nb.

Definition B32 := codes "ABCDEFGHIJKLMNOPQRSTUVWXYZ234567".

Lemma quantum_shift : forall n q, (0 < q)%nat -> ((q - (q + n) mod q) mod q = (q - n mod q) mod q)%nat.
Proof.
  intros n q Hq. replace (q + n)%nat with (n + 1 * q)%nat by lia.
  rewrite Nat.mod_add by lia. reflexivity.
Qed.

Lemma base32_spec_cons : forall a b c d e r,
  rfc_base32 (a :: b :: c :: d :: e :: r) =
  map (fun g => nthN B32 (bits_val g))
    [slice a 8 3; slice a 3 0 ++ slice b 8 6; slice b 6 1; slice b 1 0 ++ slice c 8 4;
     slice c 4 0 ++ slice d 8 7; slice d 7 2; slice d 2 0 ++ slice e 8 5; slice e 5 0]
  ++ rfc_base32 r.
Proof.
  intros. unfold rfc_base32, rfc4648. fold B32. cbn [flat_map].
  replace (byte_bits a ++ byte_bits b ++ byte_bits c ++ byte_bits d ++ byte_bits e
           ++ flat_map byte_bits r)
  with (slice a 8 3 ++ (slice a 3 0 ++ slice b 8 6) ++ slice b 6 1 ++ (slice b 1 0 ++ slice c 8 4)
        ++ (slice c 4 0 ++ slice d 8 7) ++ slice d 7 2 ++ (slice d 2 0 ++ slice e 8 5) ++ slice e 5 0
        ++ flat_map byte_bits r) by reflexivity.
  rewrite !groups_app by (cbn; lia).
  cbn [map app]. do 8 (apply f_equal2; [reflexivity|]). apply f_equal2; [reflexivity|]. f_equal.
  cbn [length]. set (n := length _).
  change (S (S (S (S (S (S (S (S n)))))))) with (8 + n)%nat.
  apply quantum_shift. lia.
Qed.

Lemma base32_full : forall a b c d e, a < 256 -> b < 256 -> c < 256 -> d < 256 -> e < 256 ->
  vals32 (gather8 [a; b; c; d; e]) =
  map bits_val
    [slice a 8 3; slice a 3 0 ++ slice b 8 6; slice b 6 1; slice b 1 0 ++ slice c 8 4;
     slice c 4 0 ++ slice d 8 7; slice d 7 2; slice d 2 0 ++ slice e 8 5; slice e 5 0].
Proof.
  intros. bev. unfold vals32. cbn [map]. slv.
  repeat (apply f_equal2; [lia|]). reflexivity.
Qed.

Lemma groups_tail : forall w gs g, (0 < w)%nat -> Forall (fun x => length x = w) gs ->
  (0 < length g <= w)%nat ->
  groups w (concat gs ++ g) = gs ++ [g ++ repeat false (w - length g)].
Proof.
  intros w gs g Hw Hgs Hg. induction gs as [|x gs IH].
  - cbn [concat app]. apply groups_last; auto.
  - inversion Hgs; subst. cbn [concat app]. rewrite <- app_assoc.
    rewrite groups_app by auto. rewrite IH by auto. reflexivity.
Qed.

Lemma base32_encode_loop_spec : forall l, octets l -> base32_encode_loop l = rfc_base32 l.
Proof.
  induction l as [ | a | a b | a b c | a b c d | a b c d e r IH ] using list5_ind; intro H;
    bytes_inv.
  - reflexivity.
  - cbn [base32_encode_loop]. rewrite base32_block_chars_vals.
    unfold rfc_base32, rfc4648. cbn [flat_map]. rewrite app_nil_r.
    replace (byte_bits a) with (concat [slice a 8 3] ++ slice a 3 0) by reflexivity.
    rewrite groups_tail by (repeat constructor; cbn; lia).
    unfold put_pad, vals32. cbn [map length app firstn Nat.sub repeat Nat.modulo Nat.divmod fst snd].
    fold B32. change base32_state with B32. bev. rewrite N.shiftl_mul_pow2. slv.
    repeat (apply f_equal2; [f_equal; lia|]). reflexivity.
  - cbn [base32_encode_loop]. rewrite base32_block_chars_vals.
    unfold rfc_base32, rfc4648. cbn [flat_map]. rewrite app_nil_r.
    replace (byte_bits a ++ byte_bits b) with
      (concat [slice a 8 3; slice a 3 0 ++ slice b 8 6; slice b 6 1] ++ slice b 1 0) by reflexivity.
    rewrite groups_tail by (repeat constructor; cbn; lia).
    unfold put_pad, vals32. cbn [map length app firstn Nat.sub repeat Nat.modulo Nat.divmod fst snd].
    fold B32. change base32_state with B32. bev. rewrite N.shiftl_mul_pow2. slv.
    repeat (apply f_equal2; [f_equal; lia|]). reflexivity.
  - cbn [base32_encode_loop]. rewrite base32_block_chars_vals.
    unfold rfc_base32, rfc4648. cbn [flat_map]. rewrite app_nil_r.
    replace (byte_bits a ++ byte_bits b ++ byte_bits c) with
      (concat [slice a 8 3; slice a 3 0 ++ slice b 8 6; slice b 6 1; slice b 1 0 ++ slice c 8 4]
       ++ slice c 4 0) by reflexivity.
    rewrite groups_tail by (repeat constructor; cbn; lia).
    unfold put_pad, vals32. cbn [map length app firstn Nat.sub repeat Nat.modulo Nat.divmod fst snd].
    fold B32. change base32_state with B32. bev. rewrite N.shiftl_mul_pow2. slv.
    repeat (apply f_equal2; [f_equal; lia|]). reflexivity.
  - cbn [base32_encode_loop]. rewrite base32_block_chars_vals.
    unfold rfc_base32, rfc4648. cbn [flat_map]. rewrite app_nil_r.
    replace (byte_bits a ++ byte_bits b ++ byte_bits c ++ byte_bits d) with
      (concat [slice a 8 3; slice a 3 0 ++ slice b 8 6; slice b 6 1; slice b 1 0 ++ slice c 8 4;
               slice c 4 0 ++ slice d 8 7; slice d 7 2]
       ++ slice d 2 0) by reflexivity.
    rewrite groups_tail by (repeat constructor; cbn; lia).
    unfold put_pad, vals32. cbn [map length app firstn Nat.sub repeat Nat.modulo Nat.divmod fst snd].
    fold B32. change base32_state with B32. bev. rewrite N.shiftl_mul_pow2. slv.
    repeat (apply f_equal2; [f_equal; lia|]). reflexivity.
  - rewrite base32_spec_cons. cbn [base32_encode_loop]. rewrite IH by assumption. f_equal.
    rewrite base32_block_chars_vals, base32_full by assumption. rewrite map_map. reflexivity.
Qed.

Lemma base32_encode_spec : forall l, octets l -> l <> [] -> base32_encode l = Some (rfc_base32 l).
Proof.
  intros l Hl Hn. unfold base32_encode. destruct l as [|b0 l0]; [congruence|].
  rewrite base32_encode_loop_spec by assumption. reflexivity.
Qed.

Definition b32_ok (v : N) : bool :=
  let c := nthN base32_state v in
  negb (c =? 61) && (eq_to_nul c =? c) &&
  match rd base32_state_1 c with Done x => x =? v | UB => false end.

Lemma b32_char : forall v, v < 32 ->
  (nthN base32_state v =? 61) = false /\
  rd base32_state_1 (eq_to_nul (nthN base32_state v)) = Done v.
Proof.
  intros v Hv. pose proof (sweep 32 b32_ok) as H. specialize (H eq_refl v Hv).
  unfold b32_ok in H. apply andb_true_iff in H. destruct H as [H H2].
  apply andb_true_iff in H. destruct H as [H H1].
  apply negb_true_iff in H. split; [assumption|].
  apply N.eqb_eq in H1. rewrite H1. destruct (rd _ _); [|discriminate].
  apply N.eqb_eq in H2. congruence.
Qed.

Lemma b32_eq : rd base32_state_1 (eq_to_nul 61) = Done 0.
Proof. reflexivity. Qed.

(* one character of the gather loop *)
Definition next_pad (pad : N) (r : list N) : N :=
  match r with d :: _ => if d =? 61 then pad + 1 else pad | [] => pad end.

Lemma gather_char : forall n block pad v r, v < 32 ->
  base32_gather (S n) block pad (nthN base32_state v :: r) =
  base32_gather n ((block * 32) mod W64 + v) (next_pad pad r) r.
Proof.
  intros n block pad v r Hv. cbn [base32_gather].
  destruct (b32_char v Hv) as [_ ->]. cbn [obind].
  unfold next_pad. f_equal.
  rewrite N.shiftl_mul_pow2. change (2 ^ 5) with 32.
  assert ((block * 32) mod W64 = N.shiftl ((block mod 576460752303423488)) 5) as E.
  { rewrite N.shiftl_mul_pow2. unfold W64. nb.
    change 18446744073709551616 with (576460752303423488 * 32).
    rewrite N.mul_mod_distr_r by lia. reflexivity. }
  rewrite E at 1. rewrite lor_add by (nb; assumption).
  rewrite E, N.shiftl_mul_pow2. reflexivity.
Qed.

Lemma gather_eq : forall n block pad r,
  base32_gather (S n) block pad (61 :: r) =
  base32_gather n ((block * 32) mod W64 + 0) (next_pad pad r) r.
Proof.
  intros n block pad r. cbn [base32_gather]. rewrite b32_eq. cbn [obind].
  unfold next_pad. f_equal. rewrite N.lor_0_r, N.shiftl_mul_pow2, N.add_0_r. reflexivity.
Qed.

Lemma next_pad_char : forall pad v r, v < 32 -> next_pad pad (nthN base32_state v :: r) = pad.
Proof. intros. unfold next_pad. destruct (b32_char v) as [-> _]; auto. Qed.

Lemma next_pad_eq : forall pad r, next_pad pad (61 :: r) = pad + 1.
Proof. reflexivity. Qed.

Definition no_eq_head (r : list N) : Prop := match r with d :: _ => (d =? 61) = false | [] => True end.

Lemma next_pad_no : forall pad r, no_eq_head r -> next_pad pad r = pad.
Proof. intros pad [|d r] H; cbn in *; [reflexivity|rewrite H; reflexivity]. Qed.

Lemma base32_loop_no_eq_head : forall l, no_eq_head (base32_encode_loop l).
Proof.
  intros [|a [|b [|c [|d [|e r]]]]]; cbn [base32_encode_loop]; [exact I|..];
    rewrite base32_block_chars_vals; cbn; apply b32_char; nb; lia.
Qed.

(* value of the gathered block modulo 2^40 *)
Lemma emit_val : forall block a b c d e, a < 256 -> b < 256 -> c < 256 -> d < 256 -> e < 256 ->
  block mod 1099511627776 = a * 4294967296 + b * 16777216 + c * 65536 + d * 256 + e ->
  [N.land (N.shiftr block 32) 0xFF; N.land (N.shiftr block 24) 0xFF;
   N.land (N.shiftr block 16) 0xFF; N.land (N.shiftr block 8) 0xFF; N.land block 0xFF]
  = [a; b; c; d; e].
Proof.
  intros. rewrite !shiftr_div, !(fun x => land_low x 8 0xFF eq_refl). nb.
  repeat (apply f_equal2; [lia|]). reflexivity.
Qed.

Fixpoint acc32 (block : N) (vs : list N) : N :=
  match vs with [] => block | v :: r => acc32 ((block * 32) mod W64 + v) r end.

Lemma acc32_mod : forall vs block,
  Forall (fun v => v < 32) vs ->
  forall k, 2 ^ 64 mod 2 ^ k = 0 -> k <> 0 -> k <= 64 ->
  acc32 block vs mod 2 ^ k =
  (fold_left (fun x v => x * 32 + v) vs block) mod 2 ^ k.
Proof.
  induction vs as [|v vs IH]; intros block Hv k Hk Hk0 Hk1; [reflexivity|].
  inversion Hv; subst. cbn [acc32 fold_left].
  rewrite IH by assumption.
  clear IH.
  assert (forall ws x y, x mod 2 ^ k = y mod 2 ^ k ->
    fold_left (fun x v => x * 32 + v) ws x mod 2 ^ k =
    fold_left (fun x v => x * 32 + v) ws y mod 2 ^ k) as Hcong.
  { induction ws as [|w ws IHw]; intros x y Hxy; [assumption|].
    cbn [fold_left]. apply IHw.
    pose proof (pow2_pos k).
    rewrite (N.add_mod (x * 32)), (N.add_mod (y * 32)) by lia.
    rewrite (N.mul_mod x), (N.mul_mod y) by lia. rewrite Hxy. reflexivity. }
  apply Hcong. pose proof (pow2_pos k).
  rewrite N.add_mod by lia. rewrite (N.add_mod (block * 32)) by lia. f_equal. f_equal.
  change W64 with (2 ^ 64).
  replace (2 ^ 64) with (2 ^ k * 2 ^ (64 - k)).
  2:{ rewrite <- N.pow_add_r. f_equal. lia. }
  rewrite N.mod_mul_r by (try apply N.pow_nonzero; lia).
  rewrite (N.mul_comm (2 ^ k)), N.add_mod, N.mod_mul, N.mod_mod by lia.
  rewrite N.add_0_r, N.mod_mod by lia. reflexivity.
Qed.

Lemma gather_full : forall block x r, no_eq_head r ->
  base32_gather 8 block 0 (map (nthN base32_state) (vals32 x) ++ r) =
  Done (acc32 block (vals32 x), 0, r).
Proof.
  intros block x r Hr. unfold vals32. nb. cbn [map app].
  repeat (rewrite gather_char by lia; rewrite ?next_pad_char by lia).
  rewrite next_pad_no by assumption. cbn [base32_gather]. reflexivity.
Qed.

Lemma vals32_fold : forall x block, x < 2 ^ 40 ->
  fold_left (fun x v => x * 32 + v) (vals32 x) block = block * 2 ^ 40 + x.
Proof.
  intros x block Hx. unfold vals32. cbn [fold_left].
  change (2 ^ 35) with (32 * (32 * (32 * (32 * (32 * (32 * 32)))))).
  change (2 ^ 30) with (32 * (32 * (32 * (32 * (32 * 32))))).
  change (2 ^ 25) with (32 * (32 * (32 * (32 * 32)))).
  change (2 ^ 20) with (32 * (32 * (32 * 32))).
  change (2 ^ 15) with (32 * (32 * 32)). change (2 ^ 10) with (32 * 32). change (2 ^ 5) with 32.
  change (2 ^ 40) with 1099511627776 in *.
  rewrite <- !N.div_div by lia.
  assert (x / 32 < 34359738368) as B1 by (apply N.div_lt_upper_bound; [lia|exact Hx]).
  set (q1 := x / 32) in *. pose proof (N.div_mod x 32) as E1. fold q1 in E1.
  assert (q1 / 32 < 1073741824) as B2 by (apply N.div_lt_upper_bound; [lia|exact B1]).
  set (q2 := q1 / 32) in *. pose proof (N.div_mod q1 32) as E2. fold q2 in E2.
  assert (q2 / 32 < 33554432) as B3 by (apply N.div_lt_upper_bound; [lia|exact B2]).
  set (q3 := q2 / 32) in *. pose proof (N.div_mod q2 32) as E3. fold q3 in E3.
  assert (q3 / 32 < 1048576) as B4 by (apply N.div_lt_upper_bound; [lia|exact B3]).
  set (q4 := q3 / 32) in *. pose proof (N.div_mod q3 32) as E4. fold q4 in E4.
  assert (q4 / 32 < 32768) as B5 by (apply N.div_lt_upper_bound; [lia|exact B4]).
  set (q5 := q4 / 32) in *. pose proof (N.div_mod q4 32) as E5. fold q5 in E5.
  assert (q5 / 32 < 1024) as B6 by (apply N.div_lt_upper_bound; [lia|exact B5]).
  set (q6 := q5 / 32) in *. pose proof (N.div_mod q5 32) as E6. fold q6 in E6.
  assert (q6 / 32 < 32) as B7 by (apply N.div_lt_upper_bound; [lia|exact B6]).
  set (q7 := q6 / 32) in *. pose proof (N.div_mod q6 32) as E7. fold q7 in E7.
  rewrite (N.mod_small q7) by assumption.
  generalize dependent (x mod 32). generalize dependent (q1 mod 32). generalize dependent (q2 mod 32).
  generalize dependent (q3 mod 32). generalize dependent (q4 mod 32). generalize dependent (q5 mod 32).
  generalize dependent (q6 mod 32).
  clearbody q7 q6 q5 q4 q3 q2 q1. intros.
  rewrite E1, E2, E3, E4, E5, E6, E7 by lia. ring.
Qed.

Lemma acc32_block : forall block a b c d e, a < 256 -> b < 256 -> c < 256 -> d < 256 -> e < 256 ->
  acc32 block (vals32 (a * 4294967296 + b * 16777216 + c * 65536 + d * 256 + e)) mod 1099511627776 =
  a * 4294967296 + b * 16777216 + c * 65536 + d * 256 + e.
Proof.
  intros. change 1099511627776 with (2 ^ 40).
  rewrite acc32_mod; [| |reflexivity|lia|lia].
  2:{ unfold vals32; nb; repeat constructor; lia. }
  rewrite vals32_fold by (change (2 ^ 40) with 1099511627776; lia).
  rewrite N.add_comm, N.mod_add by (apply N.pow_nonzero; lia).
  apply N.mod_small. change (2 ^ 40) with 1099511627776; lia.
Qed.

Ltac pad_case vs :=
  let x := fresh "x" in let Hx := fresh "Hx" in
  intros block x Hx; unfold put_pad; rewrite base32_block_chars_vals, map_length;
  let E := fresh "E" in
  assert (vals32 x = vs x) as E by
    (unfold vals32; nb; repeat (apply f_equal2; [first [reflexivity|lia]|]); reflexivity);
  rewrite E; cbv beta;
  cbn [map length firstn app repeat Nat.sub]; nb;
  repeat (rewrite gather_char by lia; rewrite ?next_pad_char by lia);
  rewrite !gather_eq; rewrite !next_pad_eq; cbn [next_pad base32_gather];
  cbn [acc32]; reflexivity.

Lemma gather_pad6 : forall block x, x mod 1073741824 = 0 ->
  base32_gather 8 block 0 (put_pad 6 (base32_block_chars x)) =
  Done (acc32 block (vals32 x), 6, []).
Proof. pad_case (fun x : N => [x / 2 ^ 35 mod 32; x / 2 ^ 30 mod 32; 0; 0; 0; 0; 0; 0]). Qed.
Lemma gather_pad4 : forall block x, x mod 1048576 = 0 ->
  base32_gather 8 block 0 (put_pad 4 (base32_block_chars x)) =
  Done (acc32 block (vals32 x), 4, []).
Proof. pad_case (fun x : N => [x / 2 ^ 35 mod 32; x / 2 ^ 30 mod 32; x / 2 ^ 25 mod 32; x / 2 ^ 20 mod 32; 0; 0; 0; 0]). Qed.
Lemma gather_pad3 : forall block x, x mod 32768 = 0 ->
  base32_gather 8 block 0 (put_pad 3 (base32_block_chars x)) =
  Done (acc32 block (vals32 x), 3, []).
Proof. pad_case (fun x : N => [x / 2 ^ 35 mod 32; x / 2 ^ 30 mod 32; x / 2 ^ 25 mod 32; x / 2 ^ 20 mod 32; x / 2 ^ 15 mod 32; 0; 0; 0]). Qed.
Lemma gather_pad1 : forall block x, x mod 32 = 0 ->
  base32_gather 8 block 0 (put_pad 1 (base32_block_chars x)) =
  Done (acc32 block (vals32 x), 1, []).
Proof. pad_case (fun x : N => [x / 2 ^ 35 mod 32; x / 2 ^ 30 mod 32; x / 2 ^ 25 mod 32; x / 2 ^ 20 mod 32; x / 2 ^ 15 mod 32; x / 2 ^ 10 mod 32; x / 2 ^ 5 mod 32; 0]). Qed.

Lemma put_pad_length : forall k l, (k <= length l)%nat -> length (put_pad k l) = length l.
Proof. intros. unfold put_pad. rewrite app_length, firstn_length, repeat_length. lia. Qed.

Lemma base32_loop_cons : forall f alloc written block pad l,
  l <> [] -> (N.of_nat (length written) =? alloc) = false ->
  base32_decode_loop (S f) alloc written block pad l =
  obind (base32_gather 8 block pad l) (fun '(block', pad', r) =>
     base32_decode_loop f alloc (written ++ base32_emit block' pad') block' pad' r).
Proof. intros f alloc written block pad [|c l] Hl Ha; [congruence|]. cbn [base32_decode_loop]. rewrite Ha. reflexivity. Qed.

Lemma base32_loop_nil : forall f alloc written block pad,
  base32_decode_loop f alloc written block pad [] = Done written.
Proof. destruct f; reflexivity. Qed.

Lemma base32_decode_loop_ok : forall l, octets l ->
  forall fuel alloc written block,
  (length (base32_encode_loop l) <= fuel)%nat ->
  (forall k, (5 * k < length l)%nat -> N.of_nat (length written + 5 * k) <> alloc) ->
  base32_decode_loop fuel alloc written block 0 (base32_encode_loop l) = Done (written ++ l).
Proof.
  assert (forall fuel alloc written block l x pad out a b c d e,
    a < 256 -> b < 256 -> c < 256 -> d < 256 -> e < 256 ->
    l <> [] -> (0 < fuel)%nat -> N.of_nat (length written + 0) <> alloc ->
    base32_gather 8 block 0 l = Done (acc32 block (vals32 x), pad, []) ->
    x = a * 4294967296 + b * 16777216 + c * 65536 + d * 256 + e ->
    (forall blk, base32_emit blk pad = out [N.land (N.shiftr blk 32) 0xFF; N.land (N.shiftr blk 24) 0xFF;
       N.land (N.shiftr blk 16) 0xFF; N.land (N.shiftr blk 8) 0xFF; N.land blk 0xFF]) ->
    base32_decode_loop fuel alloc written block 0 l = Done (written ++ out [a; b; c; d; e])) as Hpad.
  { intros fuel alloc written block l x pad out a b c d e ? ? ? ? ? Hl Hf Hw Hg Hx Hout.
    destruct fuel as [|fuel]; [lia|].
    rewrite base32_loop_cons by (auto; lia). rewrite Hg. cbn [obind].
    rewrite base32_loop_nil, Hout.
    rewrite emit_val with (a := a) (b := b) (c := c) (d := d) (e := e); try assumption.
    - reflexivity.
    - subst x. apply acc32_block; assumption. }
  induction l as [ | a | a b | a b c | a b c d | a b c d e r IH ] using list5_ind;
    intros H fuel alloc written block Hf Ha; bytes_inv.
  - cbn [base32_encode_loop]. rewrite base32_loop_nil, app_nil_r. reflexivity.
  - cbn [base32_encode_loop] in *. revert Hf. bev. rewrite N.shiftl_mul_pow2. intro Hf.
    rewrite Hpad with (x := (a * 1 + 0) * 2 ^ 32) (pad := 6) (out := firstn 1) (a := a) (b := 0) (c := 0) (d := 0) (e := 0);
      try assumption; try reflexivity; try (intro Hnil; discriminate Hnil).
    all: first [ apply gather_pad6; nb; lia | apply (Ha 0%nat); cbn; lia
               | unfold put_pad in Hf; rewrite app_length, repeat_length in Hf; lia | nb; lia ].
  - cbn [base32_encode_loop] in *. revert Hf. bev. rewrite N.shiftl_mul_pow2. intro Hf.
    rewrite Hpad with (x := (a * 256 + (b * 1 + 0)) * 2 ^ 24) (pad := 4) (out := firstn 2) (a := a) (b := b) (c := 0) (d := 0) (e := 0);
      try assumption; try reflexivity; try (intro Hnil; discriminate Hnil).
    all: first [ apply gather_pad4; nb; lia | apply (Ha 0%nat); cbn; lia
               | unfold put_pad in Hf; rewrite app_length, repeat_length in Hf; lia | nb; lia ].
  - cbn [base32_encode_loop] in *. revert Hf. bev. rewrite N.shiftl_mul_pow2. intro Hf.
    rewrite Hpad with (x := (a * 65536 + (b * 256 + (c * 1 + 0))) * 2 ^ 16) (pad := 3) (out := firstn 3) (a := a) (b := b) (c := c) (d := 0) (e := 0);
      try assumption; try reflexivity; try (intro Hnil; discriminate Hnil).
    all: first [ apply gather_pad3; nb; lia | apply (Ha 0%nat); cbn; lia
               | unfold put_pad in Hf; rewrite app_length, repeat_length in Hf; lia | nb; lia ].
  - cbn [base32_encode_loop] in *. revert Hf. bev. rewrite N.shiftl_mul_pow2. intro Hf.
    rewrite Hpad with (x := (a * 16777216 + (b * 65536 + (c * 256 + (d * 1 + 0)))) * 2 ^ 8) (pad := 1) (out := firstn 4) (a := a) (b := b) (c := c) (d := d) (e := 0);
      try assumption; try reflexivity; try (intro Hnil; discriminate Hnil).
    all: first [ apply gather_pad1; nb; lia | apply (Ha 0%nat); cbn; lia
               | unfold put_pad in Hf; rewrite app_length, repeat_length in Hf; lia | nb; lia ].
  - cbn [base32_encode_loop] in *. rewrite app_length in Hf.
    destruct fuel as [|fuel]; [cbn in Hf; lia|].
    rewrite base32_loop_cons.
    2:{ cbn; congruence. }
    2:{ specialize (Ha 0%nat). cbn [length] in Ha. lia. }
    rewrite base32_block_chars_vals, gather_full by apply base32_loop_no_eq_head. cbn [obind].
    revert Hf. bev. intro Hf.
    replace (a * 4294967296 + (b * 16777216 + (c * 65536 + (d * 256 + (e * 1 + 0)))))
      with (a * 4294967296 + b * 16777216 + c * 65536 + d * 256 + e) by lia.
    unfold base32_emit at 1. cbv zeta.
    rewrite emit_val with (a := a) (b := b) (c := c) (d := d) (e := e);
      try assumption; [|apply acc32_block; assumption].
    rewrite IH; try assumption.
    + rewrite <- app_assoc. reflexivity.
    + cbn in Hf; lia.
    + intros k Hk. rewrite app_length. cbn [length].
      specialize (Ha (S k)). cbn [length] in Ha.
      intro Heq. apply Ha; [lia|]. rewrite <- Heq. f_equal. lia.
Qed.

Lemma base32_encode_loop_length : forall l,
  length (base32_encode_loop l) = (8 * ((length l + 4) / 5))%nat.
Proof.
  induction l as [ | a | a b | a b c | a b c d | a b c d e r IH ] using list5_ind; try reflexivity.
  cbn [base32_encode_loop]. rewrite app_length, IH. cbn [length base32_block_chars].
  replace (S (S (S (S (S (length r))))) + 4)%nat with (length r + 4 + 1 * 5)%nat by lia.
  rewrite Nat.div_add by lia. lia.
Qed.

Definition b32_alloc (n : N) : N := N.shiftr (((n + W64 - 4) mod W64 * 5) mod W64) 3 + 2.

Lemma b32_alloc_val : forall m, 1 <= m -> m < 2 ^ 56 -> b32_alloc (8 * m) = 5 * m - 1.
Proof.
  intros m Hm Hu. unfold b32_alloc. rewrite shiftr_div. unfold W64.
  change (2 ^ 56) with 72057594037927936 in Hu. nb.
  replace ((8 * m + 18446744073709551616 - 4) mod 18446744073709551616) with (8 * m - 4) by lia.
  rewrite (N.mod_small ((8 * m - 4) * 5)) by lia. lia.
Qed.

Lemma base32_decode_alloc : forall l c, base32_encode l = Some c -> N.of_nat (length l) < 2 ^ 56 ->
  b32_alloc (N.of_nat (length c)) = 5 * N.of_nat ((length l + 4) / 5) - 1.
Proof.
  intros l c Hc Hl. unfold base32_encode in Hc. destruct l as [|a l]; [discriminate|].
  assert (c = base32_encode_loop (a :: l)) as -> by congruence. rewrite base32_encode_loop_length.
  rewrite Nat2N.inj_mul. change (N.of_nat 8) with 8.
  assert (0 < (length (a :: l) + 4) / 5)%nat.
  { apply Nat.div_str_pos. cbn [length]. lia. }
  apply b32_alloc_val; [lia|].
  pose proof (Nat.div_mod (length (a :: l) + 4) 5). 
  change (2 ^ 56) with 72057594037927936 in *. lia.
Qed.

Lemma base32_roundtrip : forall l c, octets l -> N.of_nat (length l) < 2 ^ 56 ->
  base32_encode l = Some c ->
  base32_decode c = Some (Done (5 * N.of_nat ((length l + 4) / 5) - 1, l)).
Proof.
  intros l c Hl Hn Hc. pose proof (base32_decode_alloc l c Hc Hn) as Ha.
  unfold base32_encode in Hc. destruct l as [|a l]; [discriminate|].
  assert (base32_encode_loop (a :: l) = c) as Hc' by congruence. clear Hc. rename Hc' into Hc.
  set (L := a :: l) in *.
  assert (length c = 8 * ((length L + 4) / 5))%nat as Hlen by (rewrite <- Hc; apply base32_encode_loop_length).
  assert (0 < (length L + 4) / 5)%nat as Hpos.
  { apply Nat.div_str_pos. subst L. cbn [length]. lia. }
  unfold base32_decode. destruct c as [|c0 c]; [change (List.length (@nil N)) with 0%nat in Hlen; lia|].
  fold (b32_alloc (N.of_nat (length (c0 :: c)))). rewrite Ha.
  rewrite <- Hc. rewrite base32_decode_loop_ok; [reflexivity|assumption|lia|].
  intros k Hk. cbn [length Nat.add].
  pose proof (Nat.div_mod (length L + 4) 5). lia.
Qed.
