(* BLAKE2: blocks, counters and output against RFC 7693. *)
From Verif Require Import Words EncSpec TaskModel CipherBase CipherLib StreamModel HashModel UtilModel Blake2Model BlakeSpec RcProofs BlakeProofs.
From Verif Require KeccakProofs2  MacProofs SipProofs StreamProofs UtilProofs HashProofs HashProofs3.
From Coq Require Import List PeanoNat Lia.
Open Scope N_scope.

Section Blake2.
Variables (p : blake2_params) (V : variant).
Hypothesis AG : agree p V.
Let w := b_w p.
Let wb := b_wb p.
Let bb := b_bb p.
Lemma bb_eq : bb = (16 * wb)%nat.
Proof. unfold bb, wb. rewrite (ag_bb p V AG), (ag_wb p V AG). reflexivity. Qed.
Lemma w_eq : 2 ^ w = 256 ^ N.of_nat wb.
Proof. rewrite pow256. reflexivity. Qed.
Lemma next_ok : forall l, octets l -> (wb <= length l)%nat -> next_m p l = (le_val (firstn wb l), skipn wb l).
Proof.
  intros l O L. pose proof (ag_pos p V AG). fold wb in H. unfold next_m. destruct l as [|b l]; [cbn in L; lia|]. fold wb.
  destruct (Nat.leb_spec wb (length (b :: l))); [|lia]. rewrite (ag_get p V AG) by assumption. reflexivity.
Qed.
Lemma load_fold : forall n s acc l, octets l -> (wb * n <= length l)%nat ->
  fold_left (fun '(m, l) (_ : nat) => let '(x, l') := next_m p l in (m ++ [x], l')) (seq s n) (acc, l) =
  (acc ++ map (fun i => le_val (firstn wb (skipn (wb * i) l))) (seq 0 n), skipn (wb * n) l).
Proof.
  induction n as [|n IH]; intros s acc l O L; cbn [seq fold_left].
  - rewrite Nat.mul_0_r, skipn_O, app_nil_r. reflexivity.
  - rewrite next_ok by (try assumption; lia). rewrite IH; [|apply SipProofs.octets_skipn; exact O|rewrite skipn_length; lia].
    f_equal.
    + cbn [map]. rewrite <- seq_shift, map_map, <- app_assoc. rewrite Nat.mul_0_r, skipn_O. f_equal. cbn [app]. f_equal. apply map_ext. intro i. rewrite skipn_add. do 2 f_equal. f_equal. lia.
    + rewrite skipn_add. f_equal. lia.
Qed.
Lemma load_ok : forall d, octets d -> (bb <= length d)%nat ->
  load_m p d = (map (word_at V (firstn bb d)) (seq 0 16), skipn bb d).
Proof.
  intros d O L. unfold load_m. rewrite load_fold by (try assumption; rewrite bb_eq in L; lia). cbn [app]. f_equal.
  - apply map_ext_in. intros i Hi. apply in_seq in Hi. unfold word_at. rewrite little. rewrite <- (ag_wb p V AG). fold wb. f_equal.
    rewrite skipn_firstn_comm, firstn_firstn. rewrite Nat.min_l by (rewrite bb_eq; nia). reflexivity.
  - f_equal. rewrite bb_eq. lia.
Qed.
Lemma words_ok : forall block i, (i < 16)%nat -> nth i (map (word_at V block) (seq 0 16)) 0 = word_at V block i.
Proof. intros. apply nth_map_seq. assumption. Qed.

Definition loop_step : list N * list N * N * N * list N -> nat -> list N * list N * N * N * list N := fun '(h, m, t0, t1, l) _ =>
      let h := blake2_F p h m t0 t1 false in
      let t0 := addw (b_w p) t0 (N.of_nat (b_bb p)) in
      let t1 := if t0 <? N.of_nat (b_bb p) then addw (b_w p) t1 1 else t1 in
      let '(m, l) := load_m p l in (h, m, t0, t1, l).
Lemma counter_ok : forall T, 0 < N.of_nat bb < 2 ^ w -> T + N.of_nat bb < 2 ^ (2 * w) ->
  addw w (T mod 2 ^ w) (N.of_nat bb) = (T + N.of_nat bb) mod 2 ^ w /\
  (if (T + N.of_nat bb) mod 2 ^ w <? N.of_nat bb then addw w (T / 2 ^ w) 1 else T / 2 ^ w) = (T + N.of_nat bb) / 2 ^ w.
Proof.
  intros T Hb HT. split; [unfold addw; apply N.add_mod_idemp_l; apply N.pow_nonzero; discriminate|].
  replace (2 ^ (2 * w)) with (2 ^ w * 2 ^ w) in HT by (rewrite <- N.pow_add_r; f_equal; lia). unfold addw.
  revert Hb HT. generalize (N.of_nat bb) (2 ^ w). intros B M Hb HT.
  assert (T = M * (T / M) + T mod M) as E by (apply N.div_mod; lia). assert (T mod M < M) as Lt by (apply N.mod_lt; lia).
  revert E Lt. generalize (T / M) (T mod M). intros q r E Lt. subst T.
  destruct (N.lt_ge_cases (r + B) M) as [L|L].
  - replace ((M * q + r + B) mod M) with (r + B) by (apply N.mod_unique with q; lia). replace ((M * q + r + B) / M) with q by (apply N.div_unique with (r + B); lia).
    destruct (N.ltb_spec (r + B) B); [|reflexivity]. lia.
  - replace ((M * q + r + B) mod M) with (r + B - M) by (apply N.mod_unique with (q + 1); lia). replace ((M * q + r + B) / M) with (q + 1) by (apply N.div_unique with (r + B - M); lia).
    destruct (N.ltb_spec (r + B - M) B); [|lia]. apply N.mod_small. nia.
Qed.
Definition block (d : list N) (i : nat) : list N := firstn bb (skipn (bb * i) d).
Lemma loop_ok : forall d k h0 H0, octets d -> rep8 w h0 H0 -> 0 < N.of_nat bb < 2 ^ w -> N.of_nat (length d) < 2 ^ (2 * w) -> (bb * (k + 1) <= length d)%nat ->
  exists h, rep8 w h (fold_left (fun h i => compress V h (block d i) (N.of_nat ((i + 1) * bb)) false) (seq 0 k) H0) /\
  fold_left loop_step (seq 0 k) (h0, map (word_at V (block d 0)) (seq 0 16), N.of_nat bb, 0, skipn bb d) =
  (h, map (word_at V (block d k)) (seq 0 16), N.of_nat ((k + 1) * bb) mod 2 ^ w, N.of_nat ((k + 1) * bb) / 2 ^ w, skipn (bb * (k + 1)) d).
Proof.
  intros d k h0 H0 O R0 Hb HT. induction k as [|k IH]; intros L.
  - exists h0. split; [exact R0|]. cbn [seq fold_left]. rewrite Nat.mul_1_l, Nat.mul_1_r. rewrite N.mod_small, (N.div_small (N.of_nat bb)) by lia. reflexivity.
  - destruct (IH ltac:(nia)) as (h & R & E). rewrite seq_S, !fold_left_app, E. cbn [fold_left Nat.add]. unfold loop_step.
    fold w. fold bb. assert (N.of_nat ((k + 1) * bb) + N.of_nat bb = N.of_nat ((S k + 1) * bb)) as ES by lia.
    destruct (counter_ok (N.of_nat ((k + 1) * bb)) Hb) as [C1 C2]; [rewrite ES; nia|]. rewrite ES in C1, C2. rewrite C1, C2.
    rewrite load_ok; [|apply SipProofs.octets_skipn; exact O|rewrite skipn_length; nia].
    eexists. split; [|f_equal; [f_equal; f_equal; f_equal|]].
    + apply (F_ok p V AG); [exact R|apply words_ok|]. apply N.div_lt_upper_bound; [apply N.pow_nonzero; discriminate|]. rewrite <- N.pow_add_r. replace (b_w p + b_w p) with (2 * w) by (unfold w; lia). nia.
    + unfold block. replace (S k) with (k + 1)%nat by lia. reflexivity.
    + rewrite skipn_add. f_equal. lia.
Qed.

(* the buffer of the code is the padded data of the standard *)
Lemma zeros_app : forall n m, repeat 0 n ++ repeat 0 m = repeat 0 (n + m).
Proof. intros. rewrite repeat_app. reflexivity. Qed.
Lemma skipn_zeros : forall n m, skipn n (repeat 0 m) = repeat 0 (m - n).
Proof. induction n as [|n IH]; intros [|m]; try reflexivity. cbn [repeat skipn Nat.sub]. apply IH. Qed.
Lemma firstn_zeros : forall n m, (n <= m)%nat -> firstn n (repeat 0 m) = repeat 0 n.
Proof. induction n as [|n IH]; intros [|m] H; try reflexivity; [lia|]. cbn [repeat firstn]. rewrite IH by lia. reflexivity. Qed.
Definition buffer (key input : list N) : outcome (list N) :=
  let keyed := 0 <? N.of_nat (length key) in
  let dd := ((if keyed then b_bb p else 0) + length input)%nat in
  let dd := if Nat.eqb dd 0 then 1%nat else dd in
  let dd := (dd + (b_bb p - dd mod b_bb p) mod b_bb p)%nat in
  let head := repeat 0 dd in
  if keyed then obind (copy_in head 0 key) (fun d => copy_in d (b_bb p) input) else copy_in head 0 input.
Lemma buffer_ok : forall key input, (length key < bb)%nat -> buffer key input = Done (data V key input) /\
  length (data V key input) = (let dd := ((if N.ltb 0 (N.of_nat (length key)) then b_bb p else 0) + length input)%nat in
  let dd := if Nat.eqb dd 0 then 1%nat else dd in (dd + (b_bb p - dd mod b_bb p) mod b_bb p)%nat).
Proof.
  intros key input K. unfold buffer, data, fill. rewrite <- (ag_bb p V AG). fold bb. cbv zeta.
  assert (1 < bb)%nat as B1 by (pose proof (ag_pos p V AG); fold wb in H; rewrite bb_eq; lia).
  destruct key as [|k0 key].
  - change (0 <? N.of_nat (@length N [])) with false. cbv iota. rewrite Nat.add_0_l. destruct input as [|x input].
    + cbn [length Nat.eqb]. unfold copy_in. rewrite Nat.mod_1_l by lia. rewrite (Nat.mod_small (bb - 1)) by lia. replace (1 + (bb - 1))%nat with bb by lia.
      destruct (Nat.ltb_spec (length (repeat 0 bb)) (0 + @length N [])) as [L|L]; [rewrite repeat_length in L; cbn in L; lia|]. split; [reflexivity|apply repeat_length].
    + set (l := x :: input) in *. assert (Nat.eqb (length l) 0 = false) as -> by reflexivity. clearbody l. clear x input.
      unfold copy_in. rewrite repeat_length. destruct (Nat.ltb_spec (length l + (bb - length l mod bb) mod bb) (0 + length l)) as [L|_]; [lia|].
      rewrite firstn_O, skipn_zeros. cbn [app]. split; [|rewrite app_length, repeat_length; reflexivity]. do 3 f_equal. lia.
  - set (l := k0 :: key) in *. assert (0 < length l)%nat as Lp by (cbn; lia). clearbody l. clear k0 key.
    assert ((0 <? N.of_nat (length l)) = true) as -> by (apply N.ltb_lt; lia). cbv iota. destruct (Nat.eqb_spec (bb + length input) 0) as [Z|_]; [lia|].
    assert (((bb + length input) mod bb = length input mod bb)%nat) as -> by (rewrite Nat.add_comm; rewrite <- (Nat.mul_1_l bb) at 1; apply Nat.mod_add; lia).
    set (z := ((bb - length input mod bb) mod bb)%nat).
    unfold copy_in at 1. rewrite repeat_length. destruct (Nat.ltb_spec (bb + length input + z) (0 + length l)) as [L|_]; [lia|]. cbn [obind]. rewrite firstn_O, skipn_zeros. cbn [app].
    unfold copy_in. rewrite app_length, repeat_length. destruct (Nat.ltb_spec (length l + (bb + length input + z - (0 + length l))) (bb + length input)) as [L|_]; [lia|].
    rewrite firstn_app, skipn_app. rewrite firstn_all2, skipn_all2 by lia. rewrite firstn_zeros by lia. rewrite skipn_zeros. rewrite (Nat.mod_small (length l)) by lia. rewrite (Nat.mod_small (bb - length l)) by lia. cbn [app].
    split; [|rewrite !app_length, !repeat_length; lia]. do 4 f_equal. lia.
Qed.
Lemma round_mod : forall n, (0 < n)%nat -> (0 < bb)%nat -> exists q, (0 < q)%nat /\ (n + (bb - n mod bb) mod bb = bb * q)%nat.
Proof.
  intros n Hn Hb. destruct (Nat.eq_dec (n mod bb) 0) as [Z|Z].
  - rewrite Z, Nat.sub_0_r, Nat.mod_same by lia. exists (n / bb)%nat. pose proof (Nat.div_mod n bb ltac:(lia)). rewrite Z in H. split; [nia|lia].
  - pose proof (Nat.mod_upper_bound n bb ltac:(lia)). rewrite (Nat.mod_small (bb - n mod bb)) by lia. exists (n / bb + 1)%nat. pose proof (Nat.div_mod n bb ltac:(lia)) as E. revert E H Z. generalize (n / bb)%nat (n mod bb)%nat. intros a b E H Z. split; [clear; lia|]. clear - E H Z. nia.
Qed.
Lemma data_whole : forall key input, (length key < bb)%nat -> exists q, (0 < q)%nat /\ length (data V key input) = (bb * q)%nat.
Proof.
  intros key input K. destruct (buffer_ok key input K) as [_ ->]. cbv zeta. fold bb. apply round_mod; [|lia].
  match goal with |- context [Nat.eqb ?x 0] => destruct (Nat.eqb_spec x 0) end; lia.
Qed.
Lemma data_octets : forall key input, octets key -> octets input -> octets (data V key input).
Proof.
  intros key input Ok Oi. unfold data, fill. destruct key; [destruct input|]; repeat apply MacProofs.octets_app; try assumption; apply MacProofs.octets_zeros.
Qed.

Lemma data_nonempty : forall key input, (length key < bb)%nat -> (bb <= length (data V key input))%nat.
Proof. intros key input K. destruct (data_whole key input K) as (q & Q & ->). nia. Qed.
Lemma init_ok : forall kk nn, (kk <= 255)%nat -> (nn <= 255)%nat -> 25 <= w ->
  rep8 w (blake2_init p (N.of_nat kk) (N.of_nat nn)) (assign (fun i => nth i (V_IV V) 0) 0 (N.lxor (N.lxor (N.lxor (nth 0 (V_IV V) 0) 0x01010000) (N.of_nat kk * 2 ^ 8)) (N.of_nat nn))).
Proof.
  intros kk nn Hk Hn Hw. destruct (ag_IV p V AG) as (EI & LI & BI). fold w in BI. unfold blake2_init. fold w. rewrite <- EI.
  assert (2 ^ 25 <= 2 ^ w) as PW by (apply N.pow_le_mono_r; [discriminate|exact Hw]).
  assert (shlw 64 (N.of_nat kk) 8 = N.of_nat kk * 2 ^ 8) as ->.
  { unfold shlw. rewrite N.shiftl_mul_pow2. apply N.mod_small. change (2 ^ 8) with 256. change (2 ^ 64) with 18446744073709551616. lia. }
  assert (N.of_nat kk * 2 ^ 8 < 2 ^ 25) as B1 by (change (2 ^ 8) with 256; change (2 ^ 25) with 33554432; lia).
  assert (N.of_nat nn < 2 ^ 25) as B2 by (change (2 ^ 25) with 33554432; lia).
  assert (xor (xor 0x01010000 (N.of_nat kk * 2 ^ 8)) (N.of_nat nn) < 2 ^ w) as B3.
  { eapply N.lt_le_trans; [|exact PW]. repeat apply lxor_lt; try assumption. reflexivity. }
  rewrite (N.mod_small _ _ B3). split; [rewrite upd_length; exact LI|]. intros i Hi. rewrite nth_upd by lia. unfold assign. rewrite (Nat.eqb_sym i 0). destruct (Nat.eqb 0 i).
  - split; [rewrite !N.lxor_assoc; reflexivity|]. rewrite !N.lxor_assoc. apply lxor_lt; [apply BI|]. rewrite <- !N.lxor_assoc. exact B3.
  - split; [reflexivity|apply BI].
Qed.
Lemma output_ok : forall h H nn, rep8 w h H -> (nn <= 8 * wb)%nat ->
  firstn nn (concat (map (fun x => be_bytes wb (b_rev p x)) h)) = map (fun j => H (j / word_bytes V)%nat / 256 ^ N.of_nat (j mod word_bytes V) mod 256) (seq 0 nn).
Proof.
  intros h H nn [L R] Hn. rewrite <- (ag_wb p V AG). fold wb. assert (0 < wb)%nat as W by apply (ag_pos p V AG).
  assert (forall x, In x h -> length (be_bytes wb (b_rev p x)) = wb) as LL by (intros; apply be_bytes_length).
  apply HashProofs.list_ext.
  - rewrite firstn_length, (StreamProofs.concat_map_length _ wb h LL), L, map_length, seq_length. lia.
  - intros i Hi. rewrite firstn_length in Hi. rewrite nth_firstn by lia. rewrite (StreamProofs.nth_concat_map _ wb 0 h i W LL) by (rewrite L; lia).
    rewrite nth_map_seq by lia. assert (i / wb < 8)%nat as Q by (apply Nat.div_lt_upper_bound; lia). destruct (R _ Q) as [E B]. rewrite E.
    rewrite (ag_rev p V AG) by exact B. fold wb. rewrite <- UtilProofs.le_bytes_nth. rewrite nth_map_seq by (apply Nat.mod_upper_bound; lia). rewrite pow256. reflexivity.
Qed.
Lemma hash_ok : forall nn key input, octets key -> octets input -> (length key < bb)%nat -> (length key <= 255)%nat -> (nn <= 8 * wb)%nat -> (nn <= 255)%nat ->
  25 <= w -> N.of_nat bb < 2 ^ w -> N.of_nat (length input) < 2 ^ 60 -> 64 <= 2 * w -> N.of_nat (length input) + N.of_nat bb < 2 ^ 61 ->
  N.of_nat (length input) + (if Nat.eqb (length key) 0 then 0 else N.of_nat bb) < 2 ^ w ->
  blake2_hash p (N.of_nat nn) key input = Done (BLAKE2 V nn key input).
Proof.
  intros nn key input Ok Oi K K2 Hn Hn2 Hw Hb HL Hw2 HL2 HT. unfold blake2_hash. cbv zeta.
  destruct (buffer_ok key input K) as [B LB]. unfold buffer in B. cbv zeta in B, LB. rewrite B. rewrite <- LB. cbn [obind]. clear B.
  pose proof (data_octets key input Ok Oi) as Od. destruct (data_whole key input K) as (q & Q & LD).
  assert (N.of_nat (length (data V key input)) < 2 ^ (2 * w)) as LT.
  { apply N.lt_le_trans with (2 ^ 64); [|apply N.pow_le_mono_r; [discriminate|exact Hw2]]. rewrite LB.
    match goal with |- N.of_nat (?n + (?b - ?n mod ?b) mod ?b) < _ => pose proof (Nat.mod_upper_bound (b - n mod b) b ltac:(fold bb; lia)) as M; set (z := ((b - n mod b) mod b)%nat) in * end. clearbody z. fold bb in M |- *.
    change (2 ^ 64) with (8 * 2 ^ 61). change (2 ^ 61) with 2305843009213693952 in *. destruct (N.ltb 0 (N.of_nat (length key))); match goal with |- context [Nat.eqb ?x 0] => destruct (Nat.eqb_spec x 0) end; lia. }
  rewrite load_ok by (try assumption; apply data_nonempty; exact K).
  unfold BLAKE2. cbv zeta. rewrite <- (ag_bb p V AG). fold bb. clear LB. set (d := data V key input) in *. clearbody d. rewrite LD. rewrite (Nat.mul_comm bb q), Nat.div_mul by lia.
  assert (firstn bb d = block d 0) as -> by (unfold block; rewrite Nat.mul_0_r, skipn_O; reflexivity).
  destruct (loop_ok d (q - 1) _ _ Od (init_ok (length key) nn K2 Hn2 Hw) ltac:(lia) LT ltac:(rewrite LD; nia)) as (h & R & E).
  change (fun '(h, m, t0, t1, l) (_ : nat) => let h0 := blake2_F p h m t0 t1 false in
      let t2 := addw (b_w p) t0 (N.of_nat (b_bb p)) in
      let t3 := if t2 <? N.of_nat (b_bb p) then addw (b_w p) t1 1 else t1 in
      let '(m0, l0) := load_m p l in (h0, m0, t2, t3, l0)) with loop_step.
  match goal with |- context [fold_left ?f (seq 0 (q - 1)) (?a, ?b, ?c, ?e, ?l)] => change (fold_left f (seq 0 (q - 1)) (a, b, c, e, l)) with (fold_left loop_step (seq 0 (q - 1)) (a, b, c, e, l)) end.
  fold bb. rewrite E. rewrite Nat2N.id. f_equal.
  assert (forall t, t < 2 ^ w -> t / 2 ^ w = 0) as D0 by (intros; apply N.div_small; assumption).
  set (t := (if Nat.eqb (length key) 0 then length input else length input + bb)%nat).
  assert ((if 0 <? N.of_nat (length key) then N.of_nat (length input) + N.of_nat bb else N.of_nat (length input)) = N.of_nat t) as ->.
  { unfold t. destruct (Nat.eqb_spec (length key) 0) as [Z|Z]; destruct (N.ltb_spec 0 (N.of_nat (length key))) as [Y|Y]; lia. }
  assert (N.of_nat t < 2 ^ w) as Tb by (unfold t; destruct (Nat.eqb (length key) 0); lia).
  pose proof (F_ok p V AG h _ _ (block d (q - 1)) (N.of_nat t) true R (words_ok _)) as FF. fold w in FF. rewrite (D0 _ Tb) in FF.
  apply output_ok; [apply FF; lia|exact Hn].
Qed.
End Blake2.
Lemma agree_b : agree blake2b BLAKE2b.
Proof.
  constructor; try reflexivity; try (cbn; lia).
  - split; [intro i; do 5 (destruct i as [|i]; [vm_compute; discriminate|]); cbn; destruct i; vm_compute; discriminate|repeat split].
  - split; [vm_compute; reflexivity|]. split; [reflexivity|]. intro i. do 9 (destruct i as [|i]; [vm_compute; reflexivity|]). cbn; destruct i; vm_compute; reflexivity.
  - intros d O L. apply UtilProofs.get64_le; assumption.
  - intros x Hx. cbn [blake2b b_wb b_rev]. rewrite (UtilProofs.u64_rev_val x Hx). unfold le_bytes at 2. rewrite <- (rev_involutive (be_bytes 8 x)). fold (le_bytes 8 x).
    replace 8%nat with (length (le_bytes 8 x)) at 1 by apply le_bytes_length. rewrite be_bytes_val by apply le_bytes_bytes. unfold le_bytes. rewrite rev_involutive. reflexivity.
Qed.
Lemma agree_s : agree blake2s BLAKE2s.
Proof.
  constructor; try reflexivity; try (cbn; lia).
  - split; [intro i; do 5 (destruct i as [|i]; [vm_compute; discriminate|]); cbn; destruct i; vm_compute; discriminate|repeat split].
  - split; [vm_compute; reflexivity|]. split; [reflexivity|]. intro i. do 9 (destruct i as [|i]; [vm_compute; reflexivity|]). cbn; destruct i; vm_compute; reflexivity.
  - intros d O L. apply UtilProofs.get32_le; assumption.
  - intros x Hx. cbn [blake2s b_wb b_rev]. rewrite (UtilProofs.u32_rev_val x Hx). unfold le_bytes at 2. rewrite <- (rev_involutive (be_bytes 4 x)). fold (le_bytes 4 x).
    replace 4%nat with (length (le_bytes 4 x)) at 1 by apply le_bytes_length. rewrite be_bytes_val by apply le_bytes_bytes. unfold le_bytes. rewrite rev_involutive. reflexivity.
Qed.

(* the pointer and the size of a buffer that holds these bytes; no bytes may also be given as NULL *)
Definition points_to (b : option (list N)) (l : list N) : Prop := b = Some l \/ (b = None /\ l = []).
(* success with this output *)
Definition returns (out : list N) : outcome hash_run := Done (mkHashRun Success (Some out) (N.of_nat (length out))).


(* the two families: the implementation, the standard, the bytes of the longest hash and key *)
Definition family (p : blake2_params) (V : variant) (max : nat) : Prop := (p = blake2b /\ V = BLAKE2b /\ max = 64%nat) \/ (p = blake2s /\ V = BLAKE2s /\ max = 32%nat).
(* messages; BLAKE2s below 4 GiB *)
Definition message (p : blake2_params) (m : list N) : Prop := octets m /\ N.of_nat (length m) < 2 ^ 60 /\ (p = blake2s -> N.of_nat (length m) + 64 < 2 ^ 32).

Lemma hex_hash : forall nn z, length z = (8 * nn)%nat -> bytes z -> blake2_hex z = rfc_base16 z.
Proof. intros nn z L B. unfold blake2_hex. rewrite L, Nat.mul_comm, Nat.div_mul by discriminate. apply KeccakProofs2.split8; [lia|exact B]. Qed.
Lemma hex_any : forall z, bytes z -> z <> [] -> u8_ptr_to_hex z = Some (rfc_base16 z).
Proof.
  intros z B N. unfold u8_ptr_to_hex. destruct z as [|a z]; [contradiction|]. f_equal. revert B. generalize (a :: z). clear. induction l as [|b l IH]; intro B; [reflexivity|].
  inversion B as [|x y Hb Hl]; subst. unfold byte in Hb. change (b :: l) with ([b] ++ l). rewrite HashProofs3.base16_app, <- (IH Hl), (HashProofs3.hex_byte b Hb). cbn [app map concat]. change 15 with (N.ones 4). rewrite N.land_ones, N.shiftr_div_pow2. change (2 ^ 4) with 16.
  assert (forall n, n < 16 -> hex_lt n = nibble2ascii n) as D.
  { intros n Hn. rewrite (UtilProofs.hex_digit n Hn). unfold nibble2ascii. destruct (N.ltb_spec n 10); destruct (N.leb_spec n 9); lia. }
  rewrite !D; [reflexivity|apply N.mod_lt; discriminate|apply N.div_lt_upper_bound; [discriminate|exact Hb]].
Qed.
Lemma BLAKE2_bytes : forall V nn k m, bytes (BLAKE2 V nn k m) /\ length (BLAKE2 V nn k m) = nn.
Proof.
  intros. unfold BLAKE2. cbv zeta. split; [|rewrite map_length, seq_length; reflexivity]. apply Forall_forall. intros x Hx. apply in_map_iff in Hx. destruct Hx as (j & <- & _). apply N.mod_lt. discriminate.
Qed.
Lemma buf_all : forall l, buf (Some l) (N.of_nat (length l)) = Done l.
Proof. intro l. unfold buf. rewrite N.ltb_irrefl, Nat2N.id, firstn_all. reflexivity. Qed.

Lemma points_buf : forall k l, points_to k l -> buf k (N.of_nat (length l)) = Done l.
Proof. intros k l [->|[-> ->]]; [apply buf_all|reflexivity]. Qed.
Lemma run_ok : forall p V max, family p V max -> forall nn key m, (nn <= max)%nat -> octets key -> (length key <= max)%nat -> message p m ->
  b_max p = N.of_nat max /\ blake2_hash p (N.of_nat nn) key m = Done (BLAKE2 V nn key m).
Proof.
  intros p V max F nn key m Hn Ok Hk (Om & Lm & Sm). destruct F as [(-> & -> & ->)|(-> & -> & ->)].
  - split; [reflexivity|]. change (2 ^ 60) with 1152921504606846976 in Lm. apply (hash_ok blake2b BLAKE2b agree_b); try assumption; cbn [blake2b b_bb b_wb]; unfold b_w; cbn [blake2b b_wb]; change (8 * N.of_nat 8) with 64;
      change (2 ^ 61) with 2305843009213693952; change (2 ^ 64) with 18446744073709551616; try lia. destruct (Nat.eqb (length key) 0); lia.
  - specialize (Sm eq_refl). change (2 ^ 60) with 1152921504606846976 in Lm. change (2 ^ 32) with 4294967296 in Sm. split; [reflexivity|]. apply (hash_ok blake2s BLAKE2s agree_s); try assumption; cbn [blake2s b_bb b_wb]; unfold b_w; cbn [blake2s b_wb]; change (8 * N.of_nat 4) with 32;
      change (2 ^ 61) with 2305843009213693952; change (2 ^ 32) with 4294967296; try lia. destruct (Nat.eqb (length key) 0); lia.
Qed.
Lemma fixed_ok : forall p V max, family p V max -> forall hex k key m, points_to k key -> octets key -> (length key <= max)%nat -> message p m ->
  let z := BLAKE2 V max key m in
  blake2_processor p hex k (N.of_nat (length key)) (Some m) (N.of_nat (length m)) = returns (if hex then rfc_base16 z else z).
Proof.
  intros p V max F hex k key m Pk Ok Hk Hm z. destruct (run_ok p V max F max key m (Nat.le_refl _) Ok Hk Hm) as [M H]. unfold blake2_processor. rewrite M.
  assert ((N.of_nat max <? N.of_nat (length key)) = false) as -> by (apply N.ltb_ge; lia). rewrite (points_buf k key Pk), buf_all. cbn [obind]. rewrite H. cbn [obind]. fold z.
  destruct (BLAKE2_bytes V max key m) as [B L]. fold z in B, L. destruct hex; [|reflexivity]. rewrite (hex_hash (max / 8) z); [reflexivity| |exact B]. rewrite L. destruct F as [(_ & _ & ->)|(_ & _ & ->)]; reflexivity.
Qed.
Lemma sized_ok : forall p V max, family p V max -> forall hex nn k key m, (1 <= nn <= max)%nat -> points_to k key -> octets key -> (length key <= max)%nat -> message p m ->
  let z := BLAKE2 V nn key m in
  blake2N_processor p hex (N.of_nat nn) k (N.of_nat (length key)) (Some m) (N.of_nat (length m)) = returns (if hex then rfc_base16 z else z).
Proof.
  intros p V max F hex nn k key m Hn Pk Ok Hk Hm z. destruct (run_ok p V max F nn key m ltac:(lia) Ok Hk Hm) as [M H]. unfold blake2N_processor. rewrite M.
  assert ((N.of_nat max <? N.of_nat (length key)) = false) as -> by (apply N.ltb_ge; lia). assert ((N.of_nat max <? N.of_nat nn) = false) as -> by (apply N.ltb_ge; lia). assert ((N.of_nat nn =? 0) = false) as -> by (apply N.eqb_neq; lia).
  cbn [orb]. rewrite (points_buf k key Pk), buf_all. cbn [obind]. rewrite H. cbn [obind]. fold z.
  destruct (BLAKE2_bytes V nn key m) as [B L]. fold z in B, L. destruct hex; [|unfold returns; rewrite L; reflexivity]. rewrite hex_any; [reflexivity|exact B|]. intro Z. rewrite Z in L. cbn in L. lia.
Qed.
Lemma refuse_ok : forall p V max, family p V max -> forall hex nn k kn m n,
  blake2_processor p hex k kn None n = Done (mkHashRun InvalidParams None 0) /\
  blake2N_processor p hex nn k kn None n = Done (mkHashRun InvalidParams None nn) /\
  (N.of_nat max < kn -> blake2_processor p hex k kn (Some m) n = Done (mkHashRun KeyError None 0) /\ blake2N_processor p hex nn k kn (Some m) n = Done (mkHashRun KeyError None nn)) /\
  (kn <= N.of_nat max -> nn = 0 \/ N.of_nat max < nn -> blake2N_processor p hex nn k kn (Some m) n = Done (mkHashRun ProcessError None nn)).
Proof.
  intros p V max F hex nn k kn m n. assert (b_max p = N.of_nat max) as M by (destruct F as [(-> & _ & ->)|(-> & _ & ->)]; reflexivity). unfold blake2_processor, blake2N_processor. rewrite M.
  repeat split; try (apply N.ltb_lt in H; rewrite H; reflexivity). intros H1 H2. apply N.ltb_ge in H1. rewrite H1. destruct H2 as [->|H2]; [reflexivity|]. apply N.ltb_lt in H2. rewrite H2, orb_true_r. reflexivity.
Qed.
