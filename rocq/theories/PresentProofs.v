From Verif Require Import Words EncSpec TaskModel ModeModel ModeSpec CipherBase CipherLib PresentModel.
Open Scope N_scope.

(* ------------------------------------------------------- bits or-ed together *)
Lemma or_fold_testbit : forall (f : N -> N) l v n,
  N.testbit (fold_left (fun v i => or v (f i)) l v) n = (N.testbit v n || existsb (fun i => N.testbit (f i) n) l)%bool.
Proof.
  intros f l. induction l as [|i l IH]; intros v n; cbn [fold_left existsb].
  - rewrite Bool.orb_false_r. reflexivity.
  - rewrite IH, N.lor_spec, Bool.orb_assoc. reflexivity.
Qed.

Lemma existsb_one : forall (l : list N) (f : N -> bool) k, In k l ->
  (forall i, In i l -> i <> k -> f i = false) -> existsb f l = f k.
Proof.
  intros l f k Hk H. destruct (f k) eqn:E.
  - apply existsb_exists. exists k. auto.
  - destruct (existsb f l) eqn:E2; [|reflexivity]. apply existsb_exists in E2. destruct E2 as (i & Hi & Hf).
    destruct (N.eq_dec i k) as [->|Hne]; [congruence|]. rewrite H in Hf by assumption. discriminate.
Qed.
Lemma existsb_none : forall (l : list N) (f : N -> bool),
  (forall i, In i l -> f i = false) -> existsb f l = false.
Proof.
  intros l f H. destruct (existsb f l) eqn:E; [|reflexivity]. apply existsb_exists in E.
  destruct E as (i & Hi & Hf). rewrite H in Hf by assumption. discriminate.
Qed.

Lemma shlw_testbit : forall w x s n, N.testbit (shlw w x s) n = ((n <? w) && (s <=? n) && N.testbit x (n - s))%bool.
Proof.
  intros. unfold shlw. destruct (N.ltb_spec n w) as [H|H].
  - rewrite N.mod_pow2_bits_low by assumption. cbn [andb].
    destruct (N.leb_spec s n); [apply N.shiftl_spec_high'; assumption|apply N.shiftl_spec_low; assumption].
  - apply N.mod_pow2_bits_high. assumption.
Qed.

Lemma one_bit : forall s i p n, i < 64 -> n < 64 ->
  N.testbit (shlw 64 (shr (and s (shlw 64 1 i)) i) p) n = ((n =? p) && N.testbit s i)%bool.
Proof.
  intros s i p n Hi Hn. rewrite shlw_testbit. rewrite (proj2 (N.ltb_lt n 64) Hn). cbn [andb].
  destruct (N.leb_spec p n) as [H|H].
  - rewrite N.shiftr_spec', N.land_spec, shlw_testbit.
    destruct (N.eqb_spec n p) as [->|Hne].
    + rewrite N.sub_diag, N.add_0_l, N.sub_diag, (proj2 (N.ltb_lt i 64) Hi), N.leb_refl.
      cbn. rewrite !Bool.andb_true_r. reflexivity.
    + replace (N.testbit 1 (n - p + i - i)) with false.
      { rewrite !Bool.andb_false_r. reflexivity. }
      symmetry. replace (n - p + i - i) with (N.succ (n - p - 1)) by lia.
      destruct (n - p - 1); reflexivity.
  - destruct (N.eqb_spec n p) as [->|]; [lia|]. reflexivity.
Qed.

Lemma fold_or_lt : forall (f : N -> N) w l v, v < 2 ^ w -> (forall i, f i < 2 ^ w) ->
  fold_left (fun v i => or v (f i)) l v < 2 ^ w.
Proof.
  intros f w l. induction l as [|i l IH]; intros v Hv Hf; cbn [fold_left]; [exact Hv|].
  apply IH; [apply lor_lt; auto|exact Hf].
Qed.

Lemma p_layer_lt : forall s, present_p_layer s < 2 ^ 64.
Proof. intros. apply fold_or_lt; [reflexivity|]. intros. apply shlw_lt. Qed.
Lemma p_layer_1_lt : forall s, present_p_layer_1 s < 2 ^ 64.
Proof. intros. apply fold_or_lt; [reflexivity|]. intros. apply shlw_lt. Qed.
Lemma sbox_layer_lt : forall t s, present_sbox_layer t s < 2 ^ 64.
Proof. intros. apply fold_or_lt; [reflexivity|]. intros. apply shlw_lt. Qed.

Lemma bits_lt_inj : forall x y w, x < 2 ^ w -> y < 2 ^ w ->
  (forall n, n < w -> N.testbit x n = N.testbit y n) -> x = y.
Proof.
  intros x y w Hx Hy H. apply N.bits_inj. intro n. destruct (N.lt_ge_cases n w) as [Hn|Hn]; [apply H, Hn|].
  rewrite !(testbit_above _ w) by assumption. reflexivity.
Qed.

Lemma range_lt : forall n k, In k (range n) -> k < N.of_nat n.
Proof. intros n k H. unfold range in H. apply in_map_iff in H. destruct H as (i & <- & Hi). apply in_seq in Hi. lia. Qed.

Lemma P_sweep : forallb (fun i => (nthN present_P i <? 64) &&
   forallb (fun k => negb (nthN present_P i =? nthN present_P k) || (i =? k)) (range 64))%bool (range 64) = true.
Proof. vm_compute. reflexivity. Qed.
Lemma P_lt : forall i, i < 64 -> nthN present_P i < 64.
Proof.
  intros i Hi. pose proof (sweep 64 _ P_sweep i Hi) as H. cbv beta in H. apply Bool.andb_true_iff in H.
  apply N.ltb_lt, H.
Qed.
Lemma P_inj : forall i k, i < 64 -> k < 64 -> nthN present_P i = nthN present_P k -> i = k.
Proof.
  intros i k Hi Hk E. pose proof (sweep 64 _ P_sweep i Hi) as H. cbv beta in H. apply Bool.andb_true_iff in H.
  destruct H as [_ H]. pose proof (sweep 64 _ H k Hk) as H2. cbv beta in H2. rewrite E, N.eqb_refl in H2.
  apply N.eqb_eq, H2.
Qed.

Lemma p_layer_bit : forall s i, i < 64 -> N.testbit (present_p_layer s) (nthN present_P i) = N.testbit s i.
Proof.
  intros s i Hi. unfold present_p_layer. rewrite or_fold_testbit, N.bits_0. cbn [orb].
  rewrite (existsb_one (range 64) _ i).
  - rewrite one_bit, N.eqb_refl by (try apply P_lt; assumption). reflexivity.
  - apply in_range. exact Hi.
  - intros k Hk Hne. apply (range_lt 64) in Hk. rewrite one_bit by (try apply P_lt; assumption).
    destruct (N.eqb_spec (nthN present_P i) (nthN present_P k)) as [E|E]; [|reflexivity].
    exfalso. apply Hne. symmetry. apply P_inj; assumption.
Qed.
Lemma p_layer_1_bit : forall s n, n < 64 -> N.testbit (present_p_layer_1 s) n = N.testbit s (nthN present_P n).
Proof.
  intros s n Hn. unfold present_p_layer_1. rewrite or_fold_testbit, N.bits_0. cbn [orb].
  rewrite (existsb_one (range 64) _ n).
  - rewrite one_bit, N.eqb_refl by (try apply P_lt; assumption). reflexivity.
  - apply in_range. exact Hn.
  - intros k Hk Hne. apply (range_lt 64) in Hk. rewrite one_bit by (try apply P_lt; assumption).
    destruct (N.eqb_spec n k); [congruence|reflexivity].
Qed.
Lemma p_layer_inv : forall s, s < 2 ^ 64 -> present_p_layer_1 (present_p_layer s) = s.
Proof.
  intros s Hs. apply (bits_lt_inj _ _ 64); [apply p_layer_1_lt|exact Hs|]. intros n Hn.
  rewrite p_layer_1_bit, p_layer_bit by assumption. reflexivity.
Qed.

(* nibbles *)
Definition nib (s i : N) : N := and (shr s (4 * i)) 15.
Lemma nib_lt : forall s i, nib s i < 16.
Proof. intros. apply (land_lt_r _ _ 4). reflexivity. Qed.
Lemma nib_bit : forall s i j, j < 4 -> N.testbit (nib s i) j = N.testbit s (4 * i + j).
Proof.
  intros s i j Hj. unfold nib. rewrite N.land_spec, N.shiftr_spec', (N.add_comm j).
  change 15 with (N.ones 4). rewrite N.ones_spec_low by assumption. apply Bool.andb_true_r.
Qed.
Lemma sbox_layer_bit : forall t s n, n < 64 -> (forall x, x < 16 -> nthN t x < 16) ->
  N.testbit (present_sbox_layer t s) n = N.testbit (nthN t (nib s (n / 4))) (n mod 4).
Proof.
  intros t s n Hn Ht. unfold present_sbox_layer. rewrite or_fold_testbit, N.bits_0. cbn [orb].
  pose proof (N.div_mod n 4 ltac:(discriminate)) as Hd. pose proof (N.mod_lt n 4 ltac:(discriminate)) as Hm.
  rewrite (existsb_one (range 16) _ (n / 4)).
  - fold (nib s (n / 4)). rewrite shlw_testbit, (proj2 (N.ltb_lt n 64) Hn). cbn [andb].
    destruct (N.leb_spec (4 * (n / 4)) n); [|lia]. cbn [andb]. f_equal. lia.
  - apply in_range. apply N.div_lt_upper_bound; [discriminate|lia].
  - intros k Hk Hne. fold (nib s k). rewrite shlw_testbit, (proj2 (N.ltb_lt n 64) Hn). cbn [andb].
    destruct (N.leb_spec (4 * k) n); [|reflexivity]. cbn [andb].
    apply (testbit_above _ 4); [apply Ht, nib_lt|].
    assert (k < n / 4) by (apply N.le_neq; split; [apply N.div_le_lower_bound; lia|exact Hne]). lia.
Qed.
Lemma sbox_layer_nib : forall t s i, i < 16 -> (forall x, x < 16 -> nthN t x < 16) ->
  nib (present_sbox_layer t s) i = nthN t (nib s i).
Proof.
  intros t s i Hi Ht. apply (bits_lt_inj _ _ 4); [apply nib_lt|apply Ht, nib_lt|].
  intros j Hj. rewrite nib_bit by assumption. rewrite sbox_layer_bit by (assumption || lia).
  f_equal; [f_equal; f_equal|]; symmetry.
  - apply (N.div_unique (4 * i + j) 4 i j); [assumption|reflexivity].
  - apply (N.mod_unique (4 * i + j) 4 i j); [assumption|reflexivity].
Qed.
Lemma S_sweep : forallb (fun x => (nthN present_S_1 (nthN present_S x) =? x) && (nthN present_S x <? 16) &&
  (nthN present_S_1 x <? 16))%bool (range 16) = true.
Proof. vm_compute. reflexivity. Qed.
Lemma S_ok : forall x, x < 16 -> nthN present_S_1 (nthN present_S x) = x /\ nthN present_S x < 16 /\ nthN present_S_1 x < 16.
Proof.
  intros x Hx. pose proof (sweep 16 _ S_sweep x Hx) as H. cbv beta in H.
  rewrite !Bool.andb_true_iff, N.eqb_eq, !N.ltb_lt in H. tauto.
Qed.
Lemma sbox_layer_inv : forall s, s < 2 ^ 64 ->
  present_sbox_layer present_S_1 (present_sbox_layer present_S s) = s.
Proof.
  intros s Hs. apply (bits_lt_inj _ _ 64); [apply sbox_layer_lt|exact Hs|]. intros n Hn.
  assert (n / 4 < 16) as Hq by (apply N.div_lt_upper_bound; [discriminate|lia]).
  rewrite sbox_layer_bit, sbox_layer_nib by (try assumption; intros; apply S_ok; assumption).
  rewrite (proj1 (S_ok _ (nib_lt _ _))), nib_bit by (apply N.mod_lt; discriminate).
  f_equal. symmetry. apply N.div_mod. discriminate.
Qed.

(* ------------------------------------------------------------- the cipher *)
Lemma present_words_inv : forall K s, words 64 K -> s < 2 ^ 64 ->
  present_decrypt_word K (present_encrypt_word K s) = s /\
  present_encrypt_word K s < 2 ^ 64 /\ present_decrypt_word K s < 2 ^ 64.
Proof.
  intros K s HK Hs. unfold present_decrypt_word, present_encrypt_word. rewrite lxor_cancel_r.
  pose proof (fun i => nth_words 64 K i HK) as Hn.
  destruct (fold_inverse _ _ (fun s => s < 2 ^ 64) (fun _ => True) (present_round K) (present_round_1 K) (seq 0 31) s)
    as [H1 H2].
  - intros x i Hx _. unfold present_round, present_round_1.
    assert (xor x (nth i K 0) < 2 ^ 64) by (apply lxor_lt; [exact Hx|apply Hn]).
    rewrite p_layer_inv by apply sbox_layer_lt. rewrite sbox_layer_inv by assumption.
    rewrite lxor_cancel_r. split; [reflexivity|apply p_layer_lt].
  - apply Forall_true.
  - exact Hs.
  - split; [exact H1|]. split; [apply lxor_lt; [exact H2|apply Hn]|].
    apply fold_wf with (okk := fun _ => True); [|apply Forall_true|apply lxor_lt; [exact Hs|apply Hn]].
    intros x i Hx _. unfold present_round_1. apply lxor_lt; [apply sbox_layer_lt|apply Hn].
Qed.

Lemma iter_inv : forall (A : Type) (P : A -> Prop) (f : A -> A) x n, (forall a, P a -> P (f a)) -> P x -> P (Nat.iter n f x).
Proof. intros A P f x n Hf Hx. induction n as [|n IH]; [exact Hx|]. apply Hf, IH. Qed.
Arguments iter_inv {A}.

Lemma present_sks_words : forall lw n r h l, lw = 16 \/ lw = 64 -> r + N.of_nat n <= 32 -> h < 2 ^ 64 -> l < 2 ^ lw ->
  words 64 (present_sks lw n r (h, l)).
Proof.
  intros lw n. induction n as [|n IH]; intros r h l Hw Hr Hh Hl; [constructor|].
  cbn [present_sks].
  assert (let '(h, l) := Nat.iter 61 (present_rotl1 lw) (h, l) in h < 2 ^ 64 /\ l < 2 ^ lw) as Hi.
  { apply (iter_inv (fun '(h, l) => h < 2 ^ 64 /\ l < 2 ^ lw)); [|auto]. intros [a b] [Ha Hb]. unfold present_rotl1. split.
    - apply lor_lt; [apply shlw_lt|]. apply shiftr_lt. destruct Hw as [-> | ->]; [|assumption]. apply (lt_mono _ 16); [assumption|lia].
    - apply lor_lt; [apply shlw_lt|]. rewrite shiftr_div. change (2 ^ 64) with (2 ^ 63 * 2) in Ha.
      pose proof (N.div_lt_upper_bound a (2 ^ 63) 2 ltac:(discriminate) Ha).
      destruct Hw as [-> | ->]; [apply (lt_mono _ 1)|apply (lt_mono _ 1)]; try assumption; lia. }
  destruct (Nat.iter 61 (present_rotl1 lw) (h, l)) as [h1 l1]. destruct Hi as [Hh1 Hl1]. clear h l Hh Hl.
  unfold present_ksched_ii.
  assert (forall h2, fst (present_ksched_iii lw r (h2, l1)) < 2 ^ 64 /\ snd (present_ksched_iii lw r (h2, l1)) < 2 ^ lw) as Hk.
  { intro h2. assert (r < 2 ^ 64) by lia. unfold present_ksched_iii. destruct Hw as [-> | ->].
    - assert (l1 < 2 ^ 64) by (apply (lt_mono _ 16); [assumption|lia]). change (16 =? 16) with true. cbv iota zeta. cbn [fst snd].
      split; (apply lor_lt; [apply land_lt_r; reflexivity|wlt]).
    - change (64 =? 16) with false. cbv iota zeta. cbn [fst snd].
      split; (apply lor_lt; [apply land_lt_r; reflexivity|wlt]). }
  match goal with |- context [present_ksched_iii lw r (?x, l1)] => specialize (Hk x); destruct (present_ksched_iii lw r (x, l1)) as [h3 l3] end.
  destruct Hk as [H3 H4]. cbn [fst snd] in *. constructor; [assumption|]. apply IH; try assumption. lia.
Qed.

Lemma be_val_slice_lt : forall l i n, bytes l -> be_val (slice l i n) < 2 ^ (8 * N.of_nat n).
Proof.
  intros l i n Hl. rewrite <- pow256. eapply N.lt_le_trans; [apply be_val_lt|].
  - unfold slice. apply bytes_firstn, bytes_skipn, Hl.
  - apply N.pow_le_mono_r; [discriminate|]. unfold slice. rewrite firstn_length. lia.
Qed.

Lemma present_key_words : forall lw key K, lw = 16 \/ lw = 64 -> bytes key -> present_key_sched lw key = Done K ->
  words 64 K.
Proof.
  intros lw key K Hw Hk H. unfold present_key_sched in H. destruct (Nat.ltb _ _); [discriminate|].
  cbv zeta in H. assert (bytes (key ++ repeat 0 (128 - length key))) as Hb.
  { apply Forall_app. split; [exact Hk|]. apply Forall_forall. intros x Hx. apply repeat_spec in Hx. subst. reflexivity. }
  set (buf := key ++ repeat 0 (128 - length key)) in *.
  assert (be_val (slice buf 0 8) < 2 ^ 64) as Hh by (apply (be_val_slice_lt buf 0 8 Hb)).
  match type of H with Done (?h :: present_sks lw 31 1 (?h, ?l)) = _ =>
    assert (K = h :: present_sks lw 31 1 (h, l)) as -> by congruence; assert (l < 2 ^ lw) as Hl end.
  { destruct Hw as [-> | ->]; [apply (be_val_slice_lt buf 8 2 Hb)|apply (be_val_slice_lt buf 8 8 Hb)]. }
  constructor; [exact Hh|]. apply present_sks_words; try assumption. lia.
Qed.

Lemma word_inverse_on1 : forall w f g, (forall x, x < 2 ^ w -> g (f x) = x /\ f x < 2 ^ w /\ g x < 2 ^ w) ->
  word_inverse w 1 (on1 f) (on1 g).
Proof.
  intros w f g H ws Hl Hw. unfold words in *. destruct ws as [|a [|? ?]]; try discriminate Hl. inversion Hw; subst.
  destruct (H a) as (A & B & C); [assumption|]. cbn [on1 map]. rewrite A. split; [reflexivity|].
  split; (split; [reflexivity|constructor; [assumption|constructor]]).
Qed.

Lemma present_lawful : forall lw, lw = 16 \/ lw = 64 -> lawful (present lw).
Proof.
  intros lw Hw. unfold lawful. cbn [present bc_id bc_bs bc_enc bc_dec].
  split; [reflexivity|]. split; [reflexivity|]. split; [lia|]. intros key (_ & Hk & _ & Hc).
  cbn [present bc_check] in Hc. destruct (present_key_sched lw key) as [K|] eqn:E; [|discriminate].
  pose proof (present_key_words lw key K Hw Hk E) as HK.
  apply (inverse_blk_be 8 1). change (8 * N.of_nat 8) with 64. apply word_inverse_on1.
  intros x Hx. apply present_words_inv; assumption.
Qed.
Lemma present80_lawful : lawful present80.
Proof. apply present_lawful. auto. Qed.
Lemma present128_lawful : lawful present128.
Proof. apply present_lawful. auto. Qed.
Lemma present_check : forall lw key, bc_check (present lw) key = if Nat.ltb 128 (length key) then UB else Done Success.
Proof. intros. cbn [present bc_check]. unfold present_key_sched. destruct (Nat.ltb _ _); reflexivity. Qed.
