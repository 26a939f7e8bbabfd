From Verif Require Import Words EncSpec TaskModel ModeModel ModeSpec CipherBase CipherLib RcModel.
Ltac Zify.zify_post_hook ::= Z.div_mod_to_equations.
Open Scope N_scope.

(* --------------------------------------------------------------------- RC2 *)

Lemma rc2_mixup_inv : forall r r1 r2 r3 k s, r < 2 ^ 16 -> s <= 16 ->
  rc2_rmixup (rc2_mixup r r1 r2 r3 k s) r1 r2 r3 k s = r.
Proof.
  intros. unfold rc2_rmixup, rc2_mixup. rewrite rotr_rotl by wlt.
  set (a := and r3 r2). set (b := and (notw 16 r3) r1).
  rewrite (addw_swap 16 r k a), (addw_swap 16 _ k b), (subw_addw 16 _ k) by wlt.
  rewrite (addw_swap 16 r a b), !subw_addw by wlt. reflexivity.
Qed.
Lemma rc2_mixup_lt : forall r r1 r2 r3 k s, rc2_mixup r r1 r2 r3 k s < 2 ^ 16.
Proof. intros. unfold rc2_mixup. wlt. Qed.
Lemma rc2_rmixup_lt : forall r r1 r2 r3 k s, rc2_rmixup r r1 r2 r3 k s < 2 ^ 16.
Proof. intros. unfold rc2_rmixup. wlt. Qed.

Lemma rc2_mixing_inv : forall K s j, w4 16 s -> True ->
  rc2_rmixinground K (rc2_mixinground K s j) j = s /\ w4 16 (rc2_mixinground K s j).
Proof.
  intros K [[[a b] c] d] j ((Ha & Hb) & (Hc & Hd)) _. unfold rc2_rmixinground, rc2_mixinground.
  rewrite !rc2_mixup_inv by (auto; lia). unfold w4. auto using rc2_mixup_lt.
Qed.
Lemma rc2_mashing_inv : forall K s, w4 16 s ->
  rc2_rmashinground K (rc2_mashinground K s) = s /\ w4 16 (rc2_mashinground K s).
Proof.
  intros K [[[a b] c] d] ((Ha & Hb) & (Hc & Hd)). unfold rc2_rmashinground, rc2_mashinground.
  rewrite !subw_addw by auto. unfold w4. repeat split; wlt.
Qed.
Lemma rc2_rmixing_wf : forall K s j, w4 16 s -> True -> w4 16 (rc2_rmixinground K s j).
Proof. intros K [[[a b] c] d] j _ _. unfold rc2_rmixinground, w4. auto using rc2_rmixup_lt. Qed.
Lemma rc2_rmashing_wf : forall K s, w4 16 (rc2_rmashinground K s).
Proof. intros K [[[a b] c] d]. unfold rc2_rmashinground, w4. repeat split; wlt. Qed.

Lemma rc2_words_inv : forall K s, w4 16 s ->
  rc2_decrypt_words K (rc2_encrypt_words K s) = s /\ w4 16 (rc2_encrypt_words K s) /\ w4 16 (rc2_decrypt_words K s).
Proof.
  intros K s Hs. unfold rc2_decrypt_words, rc2_encrypt_words.
  set (l1 := map _ (seq 0 5)). set (l2 := map _ (seq 5 6)). set (l3 := map _ (seq 11 5)).
  pose proof (fun l s => fold_inverse _ _ (w4 16) (fun _ => True) _ _ l s (rc2_mixing_inv K) (Forall_true _ l)) as F.
  destruct (F l1 s Hs) as [A1 B1]. destruct (rc2_mashing_inv K _ B1) as [A2 B2].
  destruct (F l2 _ B2) as [A3 B3]. destruct (rc2_mashing_inv K _ B3) as [A4 B4].
  destruct (F l3 _ B4) as [A5 B5].
  split; [rewrite A5, A4, A3, A2, A1; reflexivity|]. split; [exact B5|].
  apply fold_wf with (okk := fun _ => True); [apply rc2_rmixing_wf|apply Forall_true|apply rc2_rmashing_wf].
Qed.

Lemma rc2_lawful : forall t1, lawful (rc2 t1).
Proof.
  intros t1. unfold lawful. cbn [rc2 bc_id bc_bs bc_enc bc_dec].
  split; [reflexivity|]. split; [reflexivity|]. split; [lia|]. intros key _.
  apply (inverse_blk_le 2 4). change (8 * N.of_nat 2) with 16. apply word_inverse_on4. intros s Hs. apply rc2_words_inv, Hs.
Qed.

Lemma rc2_inflate_defined : forall t1 key, 1 <= t1 <= 1024 -> exists K, rc2_inflate_key t1 key = Done K.
Proof.
  intros t1 key H. unfold rc2_inflate_key. cbv zeta.
  destruct (N.ltb_spec 128 ((t1 + 7) / 8)); [lia|]. eexists; reflexivity.
Qed.
Lemma rc2_inflate_ub : forall key, rc2_inflate_key 1025 key = UB.
Proof. intros. reflexivity. Qed.

(* --------------------------------------------------------------------- RC5 *)

Lemma mod32_le : forall x, x mod 32 <= 32.
Proof. intro x. pose proof (N.mod_lt x 32). lia. Qed.

Lemma rc5_round_inv : forall K s r, w2 32 s -> True ->
  rc5_dec_round K (rc5_enc_round K s r) r = s /\ w2 32 (rc5_enc_round K s r).
Proof.
  intros K [A B] r (Ha & Hb) _. cbn [fst snd] in *. unfold rc5_dec_round, rc5_enc_round. cbv zeta.
  winv.
  unfold w2. cbn [fst snd]. repeat split; wlt.
Qed.
Lemma rc5_dec_wf : forall K s r, w2 32 s -> True -> w2 32 (rc5_dec_round K s r).
Proof.
  intros K [A B] r (Ha & Hb) _. cbn [fst snd] in *. unfold rc5_dec_round, w2. cbv zeta. cbn [fst snd].
  repeat split; wlt.
Qed.

Lemma rc5_block_inverse : forall n K, inverse_on 8 (rc5_encrypt n K) (rc5_decrypt n K).
Proof.
  intros n K. apply (inverse_blk_le 4 2). change (8 * N.of_nat 4) with 32. apply word_inverse_on2. intros [A B] (Ha & Hb).
  cbn [fst snd] in *. cbv beta iota.
  assert (w2 32 (add32 A (nth 0 K 0), add32 B (nth 1 K 0))) as Hw by (split; apply addw_lt).
  destruct (fold_inverse _ _ (w2 32) (fun _ => True) _ _ (seq 1 n) _ (rc5_round_inv K) (Forall_true _ _) Hw) as [H1 H2].
  rewrite H1. rewrite !subw_addw by auto. split; [reflexivity|]. split; [exact H2|].
  destruct (fold_left (rc5_dec_round K) (rev (seq 1 n)) (A, B)) as [x y]. split; apply subw_lt.
Qed.

Lemma rc5_rounds_pos : forall r, (- 2 ^ 31 <= r < 2 ^ 31)%Z -> rc5_rounds_check (Some r) = Done Success ->
  (1 <= r)%Z /\ (Z.to_nat r <= 398)%nat.
Proof.
  intros r Hr H. unfold rc5_rounds_check in H. cbv zeta in H.
  destruct (Z.ltb_spec r 0) as [Hn|Hn].
  { destruct (_ <? 1); [discriminate|]. destruct (_ <? _); discriminate. }
  rewrite Z.mod_small in H by lia.
  destruct (N.ltb_spec (Z.to_N r) 1); [discriminate|].
  destruct (N.ltb_spec (N.of_nat rc5_k_nr) (shlw 64 (addw 64 (Z.to_N r) 2) 1)) as [|H1]; [discriminate|].
  unfold shlw, addw in H1. rewrite N.shiftl_mul_pow2 in H1.
  change (N.of_nat rc5_k_nr) with 800 in H1. change (2 ^ 1) with 2 in H1.
  rewrite (N.mod_small (Z.to_N r + 2)) in H1 by lia.
  rewrite N.mod_small in H1 by lia. lia.
Qed.

Definition rc5_Kt (s : list N * list N * N * N * nat * nat) : list N := let '(K, _, _, _, _, _) := s in K.

(* the part of the initial array that is read is the initialised one *)
Lemma nth_upd : forall l i j v, (i < length l)%nat ->
  nth j (upd l i v) 0 = if Nat.eqb i j then v else nth j l 0.
Proof.
  induction l as [|a l IH]; intros [|i] [|j] v H; cbn in *; try lia; auto.
  rewrite IH by lia. reflexivity.
Qed.

Lemma firstn_upd_ge : forall l i v n, (n <= i)%nat -> firstn n (upd l i v) = firstn n l.
Proof.
  induction l as [|a l IH]; intros [|i] v [|n] H; cbn; auto; try lia.
  rewrite IH by lia. reflexivity.
Qed.
Lemma firstn_upd : forall l i v n, firstn n (upd l i v) = upd (firstn n l) i v.
Proof.
  induction l as [|a l IH]; intros [|i] v [|n]; cbn; auto. rewrite IH. reflexivity.
Qed.
Lemma nth_firstn : forall (l : list N) n i, (i < n)%nat -> nth i (firstn n l) 0 = nth i l 0.
Proof.
  induction l as [|a l IH]; intros [|n] [|i] H; cbn; auto; try lia. apply IH. lia.
Qed.

Lemma init_K_firstn : forall m K K', (m <= length K)%nat -> (m <= length K')%nat -> (0 < m)%nat ->
  nth 0 K 0 = nth 0 K' 0 ->
  let f := fold_left (fun K i => upd K i (add32 (nth (i - 1) K 0) rc5_qw)) (seq 1 (m - 1)) in
  length (f K) = length K /\ firstn m (f K) = firstn m (f K').
Proof.
  intros m K K' HK HK' Hm H0. cbv zeta.
  assert (forall k A, length (fold_left (fun K i => upd K i (add32 (nth (i - 1) K 0) rc5_qw)) (seq 1 k) A) = length A) as HL.
  { induction k as [|k IH]; intro A; [reflexivity|]. rewrite seq_S, fold_left_app. cbn [fold_left].
    rewrite upd_length. apply IH. }
  split; [apply HL|].
  destruct m as [|n]; [lia|]. replace (S n - 1)%nat with n by lia. clear Hm. induction n as [|n IH].
  - cbn [seq fold_left]. destruct K as [|x K], K' as [|y K']; cbn in *; try lia. congruence.
  - rewrite !seq_S, !fold_left_app. cbn [fold_left].
    specialize (IH ltac:(lia) ltac:(lia)).
    set (FK := fold_left _ (seq 1 n) K) in *. set (FK' := fold_left _ (seq 1 n) K') in *.
    assert (length FK = length K) as L1 by apply HL. assert (length FK' = length K') as L2 by apply HL.
    replace (1 + n - 1)%nat with n by lia.
    assert (nth n FK 0 = nth n FK' 0) as E.
    { rewrite <- (nth_firstn FK (S n)), <- (nth_firstn FK' (S n)) by lia. rewrite IH. reflexivity. }
    rewrite E. replace (1 + n)%nat with (S n) by lia.
    apply nth_ext with (d := 0) (d' := 0).
    + rewrite !firstn_length, !upd_length. lia.
    + intros i Hi. rewrite firstn_length, upd_length in Hi. rewrite !nth_firstn by lia.
      rewrite !nth_upd by lia. destruct (S n =? i)%nat eqn:Ei; [reflexivity|].
      apply Nat.eqb_neq in Ei.
      rewrite <- (nth_firstn FK (S n)), <- (nth_firstn FK' (S n)) by lia. rewrite IH. reflexivity.
Qed.

Lemma rc5_init_K_ok : forall t junk junk', (0 < t <= rc5_k_nr)%nat -> length junk = rc5_k_nr -> length junk' = rc5_k_nr ->
  length (rc5_init_K t junk) = rc5_k_nr /\ firstn t (rc5_init_K t junk) = firstn t (rc5_init_K t junk').
Proof.
  intros t junk junk' Ht H H'. unfold rc5_init_K.
  pose proof (init_K_firstn t (upd junk 0 rc5_pw) (upd junk' 0 rc5_pw)) as P. cbv zeta in P.
  rewrite !upd_length, H, H' in P.
  apply P; try lia. destruct junk as [|? ?], junk' as [|? ?]; try discriminate; reflexivity.
Qed.

(* the mixing loop reads and writes K only below t *)
Definition rc5_sim (t : nat) (s s' : list N * list N * N * N * nat * nat) : Prop :=
  let '(K, L, A, B, i, j) := s in let '(K', L', A', B', i', j') := s' in
  firstn t K = firstn t K' /\ (L, A, B, i, j) = (L', A', B', i', j') /\ (i < t)%nat.

Lemma rc5_mix_sim : forall t c s s', (0 < t)%nat -> rc5_sim t s s' -> rc5_sim t (rc5_mix t c s) (rc5_mix t c s').
Proof.
  intros t c [[[[[K L] A] B] i] j] [[[[[K' L'] A'] B'] i'] j'] Ht (H1 & H2 & H3).
  injection H2 as <- <- <- <- <-. unfold rc5_mix.
  assert (nth i K 0 = nth i K' 0) as E.
  { rewrite <- (nth_firstn K t), <- (nth_firstn K' t) by lia. rewrite H1. reflexivity. }
  rewrite E. unfold rc5_sim. repeat split.
  - rewrite !firstn_upd, H1. reflexivity.
  - apply Nat.mod_upper_bound. lia.
Qed.

Lemma rc5_iter_sim : forall n t c s s', (0 < t)%nat -> rc5_sim t s s' ->
  rc5_sim t (Nat.iter n (rc5_mix t c) s) (Nat.iter n (rc5_mix t c) s').
Proof.
  intros n t c s s' Ht H. induction n as [|n IH]; [exact H|]. apply rc5_mix_sim; auto.
Qed.

Lemma rc5_sched_same : forall t c junk junk' L,
  (0 < t <= rc5_k_nr)%nat -> length junk = rc5_k_nr -> length junk' = rc5_k_nr ->
  firstn t (rc5_Kt (Nat.iter (3 * t) (rc5_mix t c) (rc5_init_K t junk, L, 0, 0, 0%nat, 0%nat))) =
  firstn t (rc5_Kt (Nat.iter (3 * t) (rc5_mix t c) (rc5_init_K t junk', L, 0, 0, 0%nat, 0%nat))).
Proof.
  intros t c junk junk' L Ht H H'.
  assert (rc5_sim t (rc5_init_K t junk, L, 0, 0, 0%nat, 0%nat) (rc5_init_K t junk', L, 0, 0, 0%nat, 0%nat)) as S0.
  { unfold rc5_sim. split; [apply rc5_init_K_ok; auto|]. split; [reflexivity|lia]. }
  pose proof (rc5_iter_sim (3 * t) t c _ _ (proj1 Ht) S0) as S1.
  destruct (Nat.iter (3 * t) (rc5_mix t c) (rc5_init_K t junk, L, 0, 0, 0%nat, 0%nat)) as [[[[[K1 L1] A1] B1] i1] j1].
  destruct (Nat.iter (3 * t) (rc5_mix t c) (rc5_init_K t junk', L, 0, 0, 0%nat, 0%nat)) as [[[[[K2 L2] A2] B2] i2] j2].
  cbn [rc5_Kt]. apply S1.
Qed.

Lemma rc5_ksched_same : forall rounds junk junk' key,
  (2 * rounds + 2 <= rc5_k_nr)%nat -> length junk = rc5_k_nr -> length junk' = rc5_k_nr ->
  (length key <= 4 * (2 * rounds + 2))%nat ->
  firstn (2 * rounds + 2) (rc5_ksched rounds junk key) = firstn (2 * rounds + 2) (rc5_ksched rounds junk' key).
Proof.
  intros rounds junk junk' key Hr H H' Hk. unfold rc5_ksched. cbv zeta.
  destruct (Nat.ltb_spec (2 * rounds + 2) ((length key + 3) / 4)) as [Hc|Hc].
  { exfalso. pose proof (Nat.div_lt_upper_bound (length key + 3) 4 (2 * rounds + 3)). lia. }
  pose proof (rc5_sched_same (2 * rounds + 2) ((length key + 3) / 4) junk junk'
    (map rev32 (firstn ((length key + 3) / 4) (ld_user_key 4 rc5_k_nr 64 key)) ++
     skipn ((length key + 3) / 4) (ld_user_key 4 rc5_k_nr 64 key)) ltac:(lia) H H') as P.
  unfold rc5_Kt in P. exact P.
Qed.

(* the block functions use the first 2 * rounds + 2 sub-keys only *)
Lemma fold_left_ext_in : forall (S A : Type) (f g : S -> A -> S) l s,
  (forall s a, In a l -> f s a = g s a) -> fold_left f l s = fold_left g l s.
Proof.
  intros S A f g l. induction l as [|a l IH]; intros s H; [reflexivity|]. cbn.
  rewrite (H s a) by (left; reflexivity). apply IH. intros. apply H. right; auto.
Qed.

Lemma rc5_decrypt_ext : forall n K K', firstn (2 * n + 2) K = firstn (2 * n + 2) K' ->
  forall x, rc5_decrypt n K x = rc5_decrypt n K' x.
Proof.
  intros n K K' H x. unfold rc5_decrypt, blk_le. f_equal.
  assert (forall i, (i < 2 * n + 2)%nat -> nth i K 0 = nth i K' 0) as E.
  { intros i Hi. rewrite <- (nth_firstn K (2 * n + 2)), <- (nth_firstn K' (2 * n + 2)), H by lia. reflexivity. }
  unfold on2. destruct (load_le 4 2 x) as [|a [|b [|? ?]]]; auto.
  rewrite (fold_left_ext_in _ _ (rc5_dec_round K) (rc5_dec_round K')).
  - rewrite !E by lia. reflexivity.
  - intros [A B] r Hr. apply in_rev, in_seq in Hr. unfold rc5_dec_round. rewrite !E by lia. reflexivity.
Qed.

Lemma rc5_inverse : forall junk_e junk_d rounds key,
  (1 <= rounds)%nat -> (2 * rounds + 2 <= rc5_k_nr)%nat ->
  length junk_e = rc5_k_nr -> length junk_d = rc5_k_nr -> (length key <= 4 * (2 * rounds + 2))%nat ->
  inverse_on 8 (rc5_encrypt rounds (rc5_ksched rounds junk_e key))
               (rc5_decrypt rounds (rc5_ksched rounds junk_d key)).
Proof.
  intros junk_e junk_d rounds key H1 H2 He Hd Hk x Hx Hl.
  destruct (rc5_block_inverse rounds (rc5_ksched rounds junk_e key) x Hx Hl) as (A & B & C).
  pose proof (rc5_decrypt_ext rounds (rc5_ksched rounds junk_e key) (rc5_ksched rounds junk_d key)
                (rc5_ksched_same rounds junk_e junk_d key H2 He Hd Hk)) as X.
  rewrite <- !X. auto.
Qed.

Lemma rc5_lawful : forall junk_e junk_d rounds, length junk_e = rc5_k_nr -> length junk_d = rc5_k_nr ->
  (7 <= rounds < 2 ^ 31)%Z -> lawful (rc5 junk_e junk_d (Some rounds)).
Proof.
  intros junk_e junk_d rounds He Hd Hr. unfold lawful. cbn [rc5 bc_id bc_bs bc_enc bc_dec].
  split; [reflexivity|]. split; [reflexivity|]. split; [lia|]. intros key (_ & _ & _ & Hc).
  cbn [rc5 bc_check] in Hc. destruct (Nat.ltb_spec 64 (length key)); [discriminate|].
  apply rc5_rounds_pos in Hc; [|lia]. destruct Hc. apply rc5_inverse; auto; unfold rc5_k_nr; lia.
Qed.

(* --------------------------------------------------------------------- RC6 *)

Lemma rc6_f_lt : forall B, rc6_f B < 2 ^ 32.
Proof. intros. unfold rc6_f. wlt. Qed.
Global Hint Resolve rc6_f_lt : wlt.

Lemma rc6_round_inv : forall K s r, w4 32 s -> True ->
  rc6_dec_round K (rc6_enc_round K s r) r = s /\ w4 32 (rc6_enc_round K s r).
Proof.
  intros K [[[A B] C] D] r ((Ha & Hb) & (Hc & Hd)) _. unfold rc6_dec_round, rc6_enc_round. cbv zeta.
  rewrite !subw_addw, !rotr_rotl, !lxor_cancel_r by wlt.
  unfold w4. repeat split; wlt.
Qed.
Lemma rc6_dec_wf : forall K s r, w4 32 s -> True -> w4 32 (rc6_dec_round K s r).
Proof.
  intros K [[[A B] C] D] r ((Ha & Hb) & (Hc & Hd)) _. unfold rc6_dec_round, w4. cbv zeta. repeat split; wlt.
Qed.

Lemma rc6_block_inverse : forall n K, inverse_on 16 (rc6_encrypt n K) (rc6_decrypt n K).
Proof.
  intros n K. apply (inverse_blk_le 4 4). change (8 * N.of_nat 4) with 32. apply word_inverse_on4. intros [[[A B] C] D] ((Ha & Hb) & (Hc & Hd)).
  cbv beta iota zeta.
  assert (w4 32 (A, add32 B (nth 0 K 0), C, add32 D (nth 1 K 0))) as Hw by (unfold w4; repeat split; wlt).
  destruct (fold_inverse _ _ (w4 32) (fun _ => True) _ _ (seq 1 n) _ (rc6_round_inv K) (Forall_true _ _) Hw) as [H1 H2].
  destruct (fold_left (rc6_enc_round K) (seq 1 n) _) as [[[a b] c] d]. destruct H2 as ((E1 & E2) & (E3 & E4)).
  rewrite !subw_addw, H1, !subw_addw by auto. split; [reflexivity|]. split; [unfold w4; repeat split; wlt|].
  assert (w4 32 (fold_left (rc6_dec_round K) (rev (seq 1 n))
      (sub32 A (nth (2 * n + 2) K 0), B, sub32 C (nth (2 * n + 3) K 0), D))) as Hw2.
  { apply fold_wf with (okk := fun _ => True); [apply rc6_dec_wf|apply Forall_true|]. unfold w4; repeat split; wlt. }
  clear H1. destruct (fold_left (rc6_dec_round K) _ _) as [[[a' b'] c'] d']. destruct Hw2 as ((F1 & F2) & (F3 & F4)).
  unfold w4. repeat split; wlt.
Qed.

Lemma rc6_ksched_same : forall ksize rounds junk junk' key,
  (2 * rounds + 4 <= rc5_k_nr)%nat -> length junk = rc5_k_nr -> length junk' = rc5_k_nr ->
  firstn (2 * rounds + 4) (rc6_ksched ksize rounds junk key) = firstn (2 * rounds + 4) (rc6_ksched ksize rounds junk' key).
Proof.
  intros ksize rounds junk junk' key Hr H H'. unfold rc6_ksched. cbv zeta.
  match goal with |- context [Nat.iter _ _ (_, ?L, 0, 0, 0%nat, 0%nat)] =>
    pose proof (rc5_sched_same (2 * rounds + 4) (ksize / 4) junk junk' L ltac:(lia) H H') as P end.
  unfold rc5_Kt in P. exact P.
Qed.

Lemma rc6_decrypt_ext : forall n K K', firstn (2 * n + 4) K = firstn (2 * n + 4) K' ->
  forall x, rc6_decrypt n K x = rc6_decrypt n K' x.
Proof.
  intros n K K' H x. unfold rc6_decrypt, blk_le. f_equal.
  assert (forall i, (i < 2 * n + 4)%nat -> nth i K 0 = nth i K' 0) as E.
  { intros i Hi. rewrite <- (nth_firstn K (2 * n + 4)), <- (nth_firstn K' (2 * n + 4)), H by lia. reflexivity. }
  unfold on4. destruct (load_le 4 4 x) as [|a [|b [|c [|d [|? ?]]]]]; auto. cbv zeta.
  rewrite (E (2 * n + 2)%nat), (E (2 * n + 3)%nat) by lia.
  rewrite (fold_left_ext_in _ _ (rc6_dec_round K) (rc6_dec_round K')).
  - rewrite !E by lia. reflexivity.
  - intros [[[A B] C] D] r Hr. apply in_rev, in_seq in Hr. unfold rc6_dec_round. rewrite !E by lia. reflexivity.
Qed.

Lemma rc6_lawful : forall id ksize junk_e junk_d rounds,
  id = RC6_128 /\ ksize = 16%nat \/ id = RC6_192 /\ ksize = 24%nat \/ id = RC6_256 /\ ksize = 32%nat ->
  length junk_e = rc5_k_nr -> length junk_d = rc5_k_nr ->
  (- 2 ^ 31 <= rounds < 2 ^ 31)%Z -> lawful (rc6 id ksize junk_e junk_d (Some rounds)).
Proof.
  intros id ksize junk_e junk_d rounds Hid He Hd Hr. unfold lawful. cbn [rc6 bc_id bc_bs bc_enc bc_dec].
  assert (is_block_cipher id = true /\ iv_len id = N.of_nat 16) as [Hi1 Hi2]
    by (destruct Hid as [[-> ->]|[[-> ->]|[-> ->]]]; split; reflexivity).
  split; [exact Hi1|]. split; [exact Hi2|]. split; [lia|]. intros key (_ & _ & _ & Hc).
  cbn [rc6 bc_check] in Hc. destruct (Nat.ltb_spec ksize (length key)); [discriminate|].
  apply rc5_rounds_pos in Hc; [|lia]. destruct Hc as [_ Hc]. intros x Hx Hl.
  destruct (rc6_block_inverse (Z.to_nat rounds) (rc6_ksched ksize (Z.to_nat rounds) junk_e key) x Hx Hl) as (A & B & C).
  pose proof (rc6_decrypt_ext (Z.to_nat rounds) _ _
                (rc6_ksched_same ksize (Z.to_nat rounds) junk_e junk_d key ltac:(unfold rc5_k_nr; lia) He Hd)) as X.
  rewrite <- !X. auto.
Qed.
