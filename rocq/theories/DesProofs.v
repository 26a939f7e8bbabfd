From Verif Require Import Words EncSpec TaskModel ModeModel ModeSpec CipherBase CipherLib DesModel.
Open Scope N_scope.

(* ---- bits of 32-bit words ---- *)
Fixpoint bits2 (n : nat) (w : N) : list N :=
  match n with
  | O => []
  | S m => bits2 m (w / 2) ++ [w mod 2]
  end.
Definition val2 (bs : list N) : N := fold_left (fun v b => 2 * v + b) bs 0.

Lemma bits2_length : forall n w, length (bits2 n w) = n.
Proof. induction n; intro w; cbn [bits2]; [reflexivity|]. rewrite app_length, IHn. cbn. lia. Qed.
Lemma bits2_words : forall n w, words 1 (bits2 n w).
Proof.
  induction n; intro w; cbn [bits2]; [constructor|]. apply words_app. split; [apply IHn|].
  constructor; [|constructor]. change (2 ^ 1) with 2. apply N.mod_upper_bound. discriminate.
Qed.
Lemma val2_snoc : forall l b, val2 (l ++ [b]) = 2 * val2 l + b.
Proof. intros. unfold val2. rewrite fold_left_app. reflexivity. Qed.
Lemma val2_bits2 : forall n w, w < 2 ^ N.of_nat n -> val2 (bits2 n w) = w.
Proof.
  induction n; intros w Hw.
  - cbn in *. lia.
  - cbn [bits2]. rewrite val2_snoc, IHn.
    + pose proof (N.div_mod w 2). lia.
    + rewrite Nat2N.inj_succ, N.pow_succ_r' in Hw. apply N.div_lt_upper_bound; lia.
Qed.
Lemma bits2_val2 : forall l, words 1 l -> bits2 (length l) (val2 l) = l.
Proof.
  intro l. induction l as [|b l IH] using rev_ind; intro Hw; [reflexivity|].
  apply words_app in Hw. destruct Hw as [Hl Hb]. inversion Hb; subst. change (2 ^ 1) with 2 in *.
  rewrite app_length, Nat.add_comm. cbn [length Nat.add bits2]. rewrite val2_snoc.
  replace (2 * val2 l + b) with (b + val2 l * 2) by lia.
  rewrite N.div_add, N.mod_add, N.div_small, N.mod_small, N.add_0_l, IH by (auto; lia). reflexivity.
Qed.
Lemma val2_lt : forall l, words 1 l -> val2 l < 2 ^ N.of_nat (length l).
Proof.
  intro l. induction l as [|b l IH] using rev_ind; intro Hw; [reflexivity|].
  apply words_app in Hw. destruct Hw as [Hl Hb]. inversion Hb; subst. change (2 ^ 1) with 2 in *.
  rewrite val2_snoc, app_length, Nat.add_comm. cbn [length Nat.add]. rewrite Nat2N.inj_succ, N.pow_succ_r'.
  specialize (IH Hl). lia.
Qed.

Lemma des_val_lt : forall l, words 1 l -> (length l <= 32)%nat -> des_val l = val2 l.
Proof.
  intro l. induction l as [|b l IH] using rev_ind; intros Hw HL; [reflexivity|].
  apply words_app in Hw. destruct Hw as [Hl Hb]. inversion Hb; subst. change (2 ^ 1) with 2 in *.
  rewrite app_length in HL. cbn [length] in HL.
  unfold des_val in *. rewrite fold_left_app, IH by (auto; lia). cbn [fold_left]. rewrite val2_snoc.
  pose proof (val2_lt l Hl) as V.
  assert (val2 l < 2 ^ 31).
  { eapply N.lt_le_trans; [exact V|]. apply N.pow_le_mono_r; lia. }
  unfold shlw. rewrite N.mod_small.
  - rewrite lor_add by (change (2 ^ 1) with 2; assumption). change (2 ^ 1) with 2. lia.
  - rewrite N.shiftl_mul_pow2. change (2 ^ 1) with 2. change (2 ^ 32) with (2 ^ 31 * 2). lia.
Qed.

Lemma getbit_div : forall w i, w < 2 ^ 32 -> i < 32 -> des_getbit w i = w / 2 ^ (31 - i) mod 2.
Proof.
  intros w i Hw Hi. unfold des_getbit, shlw.
  rewrite N.shiftl_mul_pow2, N.shiftr_div_pow2.
  replace (2 ^ 32) with (2 ^ (32 - i) * 2 ^ i) by (rewrite <- N.pow_add_r; f_equal; lia).
  rewrite N.mul_mod_distr_r by (apply N.pow_nonzero; discriminate).
  replace (2 ^ 31) with (2 ^ (31 - i) * 2 ^ i) at 1 by (rewrite <- N.pow_add_r; f_equal; lia).
  rewrite N.div_mul_cancel_r by (apply N.pow_nonzero; discriminate).
  replace (2 ^ (32 - i)) with (2 ^ (31 - i) * 2) by (replace (32 - i) with (N.succ (31 - i)) by lia; rewrite N.pow_succ_r'; lia).
  rewrite N.mod_mul_r by (try apply N.pow_nonzero; discriminate).
  rewrite N.mul_comm, N.div_add by (apply N.pow_nonzero; discriminate).
  rewrite N.div_small by (apply N.mod_upper_bound, N.pow_nonzero; discriminate). apply N.add_0_l.
Qed.


Lemma bits2_map : forall n w, bits2 n w = map (fun i => w / 2 ^ (N.of_nat n - 1 - i) mod 2) (range n).
Proof.
  induction n; intro w; [reflexivity|]. cbn [bits2]. rewrite IHn. unfold range. rewrite seq_S, !map_app. cbn [Nat.add map].
  f_equal.
  - apply map_ext_in. intros i Hi. apply in_map_iff in Hi. destruct Hi as (j & <- & Hj). apply in_seq in Hj.
    rewrite N.div_div by (try apply N.pow_nonzero; discriminate). rewrite <- N.pow_succ_r'. do 3 f_equal. lia.
  - do 2 f_equal. replace (N.of_nat (S n) - 1 - N.of_nat n) with 0 by lia. rewrite N.div_1_r. reflexivity.
Qed.
Lemma des_bits_bits2 : forall w, w < 2 ^ 32 -> des_bits 0 32 w = bits2 32 w.
Proof.
  intros w Hw. unfold des_bits. rewrite bits2_map. apply map_ext_in.
  intros i Hi. apply in_map_iff in Hi. destruct Hi as (j & <- & Hj). apply in_seq in Hj. rewrite N.add_0_l.
  rewrite getbit_div by (try assumption; lia). do 3 f_equal.
Qed.

Lemma des_val_words : forall l, words 1 l -> length l = 32%nat -> des_val l < 2 ^ 32.
Proof. intros l Hw HL. rewrite des_val_lt by (auto; lia). pose proof (val2_lt l Hw) as H. rewrite HL in H. exact H. Qed.

Lemma des_bits_val : forall l, words 1 l -> length l = 32%nat -> des_bits 0 32 (des_val l) = l.
Proof.
  intros l Hw HL. rewrite des_bits_bits2 by (apply des_val_words; assumption).
  rewrite des_val_lt by (auto; lia). rewrite <- HL. apply bits2_val2, Hw.
Qed.
Lemma des_val_bits : forall w, w < 2 ^ 32 -> des_val (des_bits 0 32 w) = w.
Proof.
  intros w Hw. rewrite des_bits_bits2 by assumption. rewrite des_val_lt; [|apply bits2_words|rewrite bits2_length; lia].
  apply val2_bits2, Hw.
Qed.
Lemma des_bits_ok : forall w, w < 2 ^ 32 -> length (des_bits 0 32 w) = 32%nat /\ words 1 (des_bits 0 32 w).
Proof. intros w Hw. rewrite des_bits_bits2 by assumption. split; [apply bits2_length|apply bits2_words]. Qed.

Lemma perm_length : forall p s, length (perm p s) = length p.
Proof. intros. apply map_length. Qed.
Lemma slice_all2 : forall l : list N, length l = 64%nat -> slice l 0 32 ++ slice l 32 32 = l.
Proof.
  intros l H. unfold slice. rewrite skipn_O. rewrite (firstn_all2 (n:=32) (skipn 32 l)) by (rewrite skipn_length; lia).
  apply firstn_skipn.
Qed.
Lemma slice_app_lo : forall a b : list N, length a = 32%nat -> slice (a ++ b) 0 32 = a.
Proof. intros a b H. unfold slice. rewrite skipn_O. rewrite <- H. rewrite firstn_app, firstn_all, Nat.sub_diag. cbn. apply app_nil_r. Qed.
Lemma slice_app_hi : forall a b : list N, length a = 32%nat -> length b = 32%nat -> slice (a ++ b) 32 32 = b.
Proof. intros a b H H'. unfold slice. rewrite <- H. rewrite skipn_app, skipn_all, Nat.sub_diag. cbn. rewrite H. apply firstn_all2. lia. Qed.
Lemma words_slice : forall w l a n, words w l -> words w (slice l a n).
Proof.
  intros w l a n H. unfold slice, words in *. apply Forall_forall. intros x Hx. rewrite Forall_forall in H. apply H.
  rewrite <- (firstn_skipn a l). apply in_or_app. right. rewrite <- (firstn_skipn n (skipn a l)). apply in_or_app. left. exact Hx.
Qed.

Lemma perm64_inv : forall p q, word_inverse 1 64 (perm p) (perm q) -> length p = 64%nat -> forall s, w2 32 s ->
  des_perm64 q (des_perm64 p s) = s /\ w2 32 (des_perm64 p s).
Proof.
  intros p q H Hp [a b] [Ha Hb]. unfold des_perm64.
  destruct (des_bits_ok a Ha) as [LA WA]. destruct (des_bits_ok b Hb) as [LB WB].
  destruct (H (des_bits 0 32 a ++ des_bits 0 32 b)) as (HI & (HL & HW) & _); [rewrite app_length; lia|apply words_app; split; assumption|].
  set (t := perm p _) in *.
  assert (length (slice t 0 32) = 32%nat) as L0 by (apply slice_length; lia).
  assert (length (slice t 32 32) = 32%nat) as L1 by (apply slice_length; lia).
  pose proof (words_slice 1 t 0 32 HW) as W0. pose proof (words_slice 1 t 32 32 HW) as W1.
  split; [|split; apply des_val_words; assumption].
  rewrite !des_bits_val by assumption. rewrite slice_all2 by exact HL. rewrite HI.
  rewrite slice_app_lo, slice_app_hi, !des_val_bits by assumption. reflexivity.
Qed.

Lemma ip_inv : word_inverse 1 64 (perm des_IP) (perm des_IP_1).
Proof. apply word_inverse_perm; reflexivity. Qed.
Lemma ip_1_inv : word_inverse 1 64 (perm des_IP_1) (perm des_IP).
Proof. apply word_inverse_perm; reflexivity. Qed.

(* ---- the s-boxes ---- *)
Lemma shr31_lt : forall x, x < 2 ^ 32 -> shr x 31 < 2.
Proof. intros x H. rewrite N.shiftr_div_pow2. apply N.div_lt_upper_bound; [discriminate|exact H]. Qed.
Lemma getbit_lt : forall w i, w < 2 ^ 32 -> des_getbit w i < 2.
Proof.
  intros w i Hw. unfold des_getbit. apply shr31_lt, N.mod_upper_bound. discriminate.
Qed.
Lemma des_bits_words : forall off n w, w < 2 ^ 32 -> words 1 (des_bits off n w).
Proof.
  intros. unfold des_bits. apply Forall_map, Forall_forall. intros. apply getbit_lt. assumption.
Qed.
Lemma perm_words1 : forall p s, words 1 s -> words 1 (perm p s).
Proof. intros p s H. unfold perm. apply Forall_map, Forall_forall. intros i _. apply nth_words, H. Qed.

Lemma des_f_lt : forall R KL KR, des_f R KL KR < 2 ^ 32.
Proof.
  intros R KL KR. unfold des_f. cbv zeta.
  match goal with |- des_val (perm des_P (des_bits 0 32 ?x)) < _ => set (y := x) end.
  apply des_val_words; [|rewrite perm_length; reflexivity]. apply perm_words1.
  unfold des_bits. apply Forall_map, Forall_forall. intros i _.
  unfold des_getbit. apply shr31_lt, N.mod_upper_bound. discriminate.
Qed.

Definition swap2 (s : N * N) : N * N := let '(a, b) := s in (b, a).
Lemma des_round_wf : forall K s i, w2 32 s -> w2 32 (des_round K s i).
Proof.
  intros K [L R] i [HL HR]. unfold des_round. destruct (nth i K (0, 0)) as [KL KR]. split; [exact HR|].
  apply lxor_lt; [exact HL|apply des_f_lt].
Qed.
Lemma des_round_inv : forall K s i, swap2 (des_round K (swap2 (des_round K s i)) i) = s.
Proof.
  intros K [L R] i. unfold des_round. destruct (nth i K (0, 0)) as [KL KR]. cbn [swap2]. rewrite lxor_cancel_r. reflexivity.
Qed.
Lemma swap_fold : forall (f : N * N -> nat -> N * N) l s,
  swap2 (fold_left f l (swap2 s)) = fold_left (fun s r => swap2 (f (swap2 s) r)) l s.
Proof.
  induction l as [|r l IH]; intros [a b]; cbn [fold_left]; [reflexivity|].
  rewrite <- IH. f_equal. destruct (f (swap2 (a, b)) r). reflexivity.
Qed.

Lemma des_words_wf : forall K l s, w2 32 s -> w2 32 (des_words l K s).
Proof.
  intros K l s Hs. unfold des_words.
  assert (w2 32 (fold_left (des_round K) l (des_perm64 des_IP s))) as H.
  { apply fold_wf with (okk := fun _ => True); [intros; apply des_round_wf; assumption|apply Forall_true|].
    apply (perm64_inv _ _ ip_inv eq_refl), Hs. }
  destruct (fold_left _ l _) as [L R]. apply (perm64_inv _ _ ip_1_inv eq_refl). destruct H. split; assumption.
Qed.
Lemma des_words_inv : forall K l s, w2 32 s -> des_words (rev l) K (des_words l K s) = s.
Proof.
  intros K l s Hs.
  assert (forall l s, des_words l K s = des_perm64 des_IP_1 (swap2 (fold_left (des_round K) l (des_perm64 des_IP s)))) as E.
  { intros l0 s0. unfold des_words. destruct (fold_left _ l0 _). reflexivity. }
  rewrite !E. set (u := des_perm64 des_IP s).
  assert (w2 32 u) as Hu by (apply (perm64_inv _ _ ip_inv eq_refl), Hs).
  assert (w2 32 (fold_left (des_round K) l u)) as Hf.
  { apply fold_wf with (okk := fun _ => True); [intros; apply des_round_wf; assumption|apply Forall_true|assumption]. }
  destruct (perm64_inv _ _ ip_1_inv eq_refl (swap2 (fold_left (des_round K) l u))) as [-> _].
  { destruct (fold_left (des_round K) l u), Hf. split; assumption. }
  rewrite swap_fold.
  destruct (fold_inverse _ _ (w2 32) (fun _ => True) (des_round K) (fun s r => swap2 (des_round K (swap2 s) r)) l u) as [H1 _].
  - intros t k Ht _. split; [apply des_round_inv|apply des_round_wf; assumption].
  - apply Forall_true.
  - exact Hu.
  - rewrite H1. unfold u. apply (perm64_inv _ _ ip_inv eq_refl), Hs.
Qed.

Lemma des_block_inverse : forall K l, inverse_on 8 (blk_be 4 2 (on2 (des_words l K))) (blk_be 4 2 (on2 (des_words (rev l) K))).
Proof.
  intros K l. change 8%nat with (4 * 2)%nat. apply inverse_blk_be. change (8 * N.of_nat 4) with 32.
  apply word_inverse_on2. intros s Hs. split; [apply des_words_inv, Hs|]. split; apply des_words_wf, Hs.
Qed.
Lemma des_inverse : forall K, inverse_on 8 (des_block_encrypt K) (des_block_decrypt K).
Proof. intro K. apply des_block_inverse. Qed.
Lemma des_inverse' : forall K, inverse_on 8 (des_block_decrypt K) (des_block_encrypt K).
Proof.
  intro K. pose proof (des_block_inverse K (rev (seq 0 16))) as H. rewrite rev_involutive in H. exact H.
Qed.

Lemma des_lawful : lawful des.
Proof.
  unfold lawful. cbn [des bc_id bc_bs bc_enc bc_dec]. split; [reflexivity|]. split; [reflexivity|]. split; [lia|].
  intros key _. apply des_inverse.
Qed.

Lemma inverse_on_comp : forall n f g f' g', inverse_on n f g -> inverse_on n f' g' ->
  inverse_on n (fun x => f' (f x)) (fun x => g (g' x)).
Proof.
  intros n f g f' g' H H' x Hl Hw. destruct (H x Hl Hw) as (A & (B & C) & _).
  destruct (H' (f x) B C) as (A' & (B' & C') & _). destruct (H' x Hl Hw) as (_ & _ & (B2 & C2)).
  destruct (H (g' x) B2 C2) as (_ & _ & (D & E)). rewrite A', A. auto 6.
Qed.

Lemma triple_des_lawful : forall ede key2 key3, lawful (triple_des ede key2 key3).
Proof.
  intros ede key2 key3. unfold lawful. cbn [triple_des bc_id bc_bs bc_enc bc_dec].
  split; [destruct ede; reflexivity|]. split; [destruct ede; reflexivity|]. split; [lia|].
  intros key _.
  assert (inverse_on 8 ((if ede then des_block_decrypt else des_block_encrypt) (des_expand key2))
                       ((if ede then des_block_encrypt else des_block_decrypt) (des_expand key2))) as H2
    by (destruct ede; [apply des_inverse'|apply des_inverse]).
  exact (inverse_on_comp 8 _ _ _ _ (inverse_on_comp 8 _ _ _ _ (des_inverse (des_expand key)) H2) (des_inverse (des_expand key3))).
Qed.

(* ---- weak keys ---- *)
(* when the list of sub-keys reads the same in both directions, encryption undoes itself *)
Lemma palindrome_involution : forall K, rev K = K -> length K = 16%nat -> forall x, length x = 8%nat -> bytes x ->
  des_block_encrypt K (des_block_encrypt K x) = x.
Proof.
  intros K HK HL x Hx Hb.
  assert (forall l s, fold_left (des_round K) l s = fold_left (fun s k => let '(L, R) := s in (R, xor L (des_f R (fst k) (snd k)))) (map (fun i => nth i K (0, 0)) l) s) as E.
  { induction l as [|i l IH]; intros [L R]; cbn [fold_left map]; [reflexivity|]. rewrite <- IH. unfold des_round at 2.
    destruct (nth i K (0, 0)). reflexivity. }
  assert (map (fun i => nth i K (0, 0)) (seq 0 16) = K) as EK.
  { rewrite <- HL. clear. induction K as [|a K IH]; [reflexivity|]. cbn [length seq map nth]. f_equal.
    rewrite <- seq_shift, map_map. exact IH. }
  assert (forall s, des_words (seq 0 16) K s = des_words (rev (seq 0 16)) K s) as EW.
  { intro s. unfold des_words. rewrite !E, map_rev, EK, HK. reflexivity. }
  assert (forall y, des_block_encrypt K y = des_block_decrypt K y) as EB.
  { intro y. unfold des_block_encrypt, des_block_decrypt, blk_be. f_equal. unfold on2.
    destruct (load_be 4 2 y) as [|? [|? [|? ?]]]; try reflexivity. rewrite EW. reflexivity. }
  rewrite (EB (des_block_encrypt K x)). apply (des_inverse K x Hb Hx).
Qed.
