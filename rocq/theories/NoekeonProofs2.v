From Verif Require Import Words EncSpec TaskModel ModeModel ModeSpec CipherBase CipherLib KeyProofs NoekeonModel NoekeonProofs.
From Verif Require StreamProofs BlowfishProofs.
From Verif Require Import NoekeonSpec.
Open Scope N_scope.

Lemma rol_is : forall x n, x < 2 ^ 32 -> n <= 32 -> rotl32 x n = rol x n.
Proof. intros x n. exact (StreamProofs.rotl_arith 32 x n). Qed.
Lemma bit_at : forall b j n, N.testbit (N.shiftl (N.b2n b) j) n = b && (j =? n).
Proof.
  intros b j n. destruct (N.lt_ge_cases n j) as [H|H].
  - rewrite N.shiftl_spec_low by exact H. rewrite (proj2 (N.eqb_neq j n)) by lia. rewrite andb_false_r. reflexivity.
  - rewrite N.shiftl_spec_high' by exact H. destruct (N.eqb_spec j n) as [-> |Hn].
    + rewrite N.sub_diag. destruct b; reflexivity.
    + replace (n - j) with (N.succ (n - j - 1)) by lia. destruct b; cbn [N.b2n andb]; [|apply N.bits_0]. change 1 with (2 * 0 + 1). rewrite N.testbit_odd_succ by lia. apply N.bits_0.
Qed.
Lemma from_bits_gen : forall f l n, N.testbit (fold_right (fun j v => N.lor (N.shiftl (N.b2n (f j)) j) v) 0 l) n = existsb (fun j => f j && (j =? n)) l.
Proof. intros f l n. induction l as [|j l IH]; [apply N.bits_0|]. cbn [fold_right existsb]. rewrite N.lor_spec, bit_at, IH. reflexivity. Qed.
Lemma from_bits_is : forall f x, x < 2 ^ 32 -> (forall n, n < 32 -> f n = N.testbit x n) -> from_bits f = x.
Proof.
  intros f x Hx H. apply N.bits_inj. intro n. unfold from_bits. rewrite from_bits_gen. destruct (N.lt_ge_cases n 32) as [Hn|Hn].
  - rewrite <- (H n Hn). destruct (f n) eqn:E.
    + apply existsb_exists. exists n. split; [apply in_range; exact Hn|]. rewrite E, N.eqb_refl. reflexivity.
    + destruct (existsb _ _) eqn:X; [|reflexivity]. apply existsb_exists in X. destruct X as (j & _ & Hj). apply andb_prop in Hj. destruct Hj as [H1 H2]. apply N.eqb_eq in H2. subst. congruence.
  - rewrite (testbit_above x 32 n Hx Hn). destruct (existsb _ _) eqn:X; [|reflexivity]. apply existsb_exists in X. destruct X as (j & Hj & H2). apply andb_prop in H2. destruct H2 as [_ H2]. apply N.eqb_eq in H2. subst.
    apply StreamProofs.range_in_lt in Hj. change (N.of_nat 32) with 32 in Hj. lia.
Qed.
Lemma gamma_is : forall s, w4 32 s -> noekeon_gamma s = Gamma s.
Proof.
  intros s Hs. pose proof (noekeon_gamma_wf s Hs) as Hg. destruct s as [[[a0 a1] a2] a3]. unfold Gamma.
  assert (forall n, n < 32 -> (n <? 32) = true) as T by (intros n Hn; apply N.ltb_lt, Hn).
  unfold noekeon_gamma in *. cbv zeta in *. destruct Hg as ((G0 & G1) & (G2 & G3)). cbn [fst snd] in *.
  symmetry. apply f_equal2; [apply f_equal2; [apply f_equal2|]|].
  all: apply from_bits_is; [assumption|]; intros n Hn; unfold column;
    repeat (rewrite ?N.lxor_spec, ?N.land_spec, ?N.lor_spec, ?notw_testbit, ?(T n Hn)).
  all: destruct (N.testbit a0 n), (N.testbit a1 n), (N.testbit a2 n), (N.testbit a3 n); reflexivity.
Qed.
Lemma spread_is : forall x, x < 2 ^ 32 -> noekeon_t x = spread x.
Proof. intros x Hx. unfold noekeon_t, spread. rewrite !rol_is by (exact Hx || discriminate). reflexivity. Qed.
Lemma theta_is : forall k s, w4 32 k -> w4 32 s -> noekeon_theta k s = Theta k s.
Proof.
  intros [[[k0 k1] k2] k3] [[[a0 a1] a2] a3] ((K0 & K1) & (K2 & K3)) ((A0 & A1) & (A2 & A3)). cbn [fst snd] in *. unfold noekeon_theta, Theta. cbv zeta.
  rewrite (spread_is (N.lxor a0 a2)) by (apply lxor_lt; assumption).
  assert (spread (N.lxor a0 a2) < 2 ^ 32) as He by (rewrite <- spread_is by (apply lxor_lt; assumption); apply noekeon_t_lt, lxor_lt; assumption).
  set (e := spread (N.lxor a0 a2)) in *. clearbody e. rewrite spread_is by (apply lxor_lt; apply lxor_lt; try assumption; apply lxor_lt; assumption). reflexivity.
Qed.
Lemma pi_is : forall s, w4 32 s -> noekeon_pi1 s = Pi1 s /\ noekeon_pi2 s = Pi2 s.
Proof.
  intros [[[a0 a1] a2] a3] ((A0 & A1) & (A2 & A3)). cbn [fst snd] in *. unfold noekeon_pi1, noekeon_pi2, Pi1, Pi2. rewrite !rol_is by (assumption || discriminate). split; reflexivity.
Qed.
Lemma constants : forall r, (r <= 16)%nat -> nth r noekeon_RC 0 = constant r.
Proof. intros r Hr. do 17 (destruct r as [|r]; [reflexivity|]). lia. Qed.
Lemma add_is : forall r s, (r <= 16)%nat -> noekeon_rc (nth r noekeon_RC 0) s = add_constant r s.
Proof. intros r [[[a0 a1] a2] a3] Hr. unfold noekeon_rc, add_constant. rewrite constants by exact Hr. reflexivity. Qed.
Lemma round_is : forall k s r, w4 32 k -> w4 32 s -> (r <= 16)%nat -> noekeon_round k s (nth r noekeon_RC 0) 0 = Round k s r.
Proof.
  intros k s r Hk Hs Hr. unfold noekeon_round, Round. rewrite noekeon_rc_0. pose proof (noekeon_rc_wf r s Hs) as H1. pose proof (noekeon_theta_wf k _ Hk H1) as H2.
  pose proof (proj1 (noekeon_pi_wf _ H2)) as H3. pose proof (noekeon_gamma_wf _ H3) as H4.
  rewrite (proj2 (pi_is _ H4)), (gamma_is _ H3), (proj1 (pi_is _ H2)), (theta_is k _ Hk H1), add_is by exact Hr. reflexivity.
Qed.
Lemma rounds_is : forall k l s, w4 32 k -> w4 32 s -> (forall r, In r l -> (r <= 16)%nat) ->
  fold_left (fun s r => noekeon_round k s (nth r noekeon_RC 0) 0) l s = fold_left (Round k) l s /\ w4 32 (fold_left (Round k) l s).
Proof.
  intros k l. induction l as [|r l IH]; intros s Hk Hs Hl; [split; [reflexivity|exact Hs]|]. cbn [fold_left].
  rewrite (round_is k s r Hk Hs (Hl r (or_introl eq_refl))). apply IH; [exact Hk| |intros; apply Hl; right; assumption].
  rewrite <- (round_is k s r Hk Hs (Hl r (or_introl eq_refl))). exact (proj1 (noekeon_round_wf k s r r Hk Hs)).
Qed.
Lemma encrypt_is : forall k s, w4 32 k -> w4 32 s -> noekeon_encrypt_words k s = Noekeon k s /\ w4 32 (Noekeon k s).
Proof.
  intros k s Hk Hs. unfold noekeon_encrypt_words, Noekeon. cbv zeta.
  destruct (rounds_is k (seq 0 16) s Hk Hs) as [E W]; [intros r Hr; apply in_seq in Hr; lia|]. rewrite E. set (t := fold_left (Round k) (seq 0 16) s) in *. clearbody t.
  pose proof (noekeon_rc_wf 16 t W) as W1. pose proof (noekeon_theta_wf k _ Hk W1) as W2. rewrite theta_is in * by assumption. rewrite add_is in * by lia. split; [reflexivity|exact W2].
Qed.
Lemma words_wf : forall b, bytes b -> w4 32 (words_of b).
Proof.
  intros b Hb. assert (forall i, be_val (firstn 4 (skipn i b)) < 2 ^ 32) as H by (intro i; apply (BlowfishProofs.be_slice_lt b i Hb)).
  unfold words_of, w4. cbn [fst snd]. repeat split; try apply H. exact (H 0%nat).
Qed.
Lemma block_is : forall k b, w4 32 k -> bytes b -> blk_be 4 4 (on4 (noekeon_encrypt_words k)) b = bytes_of (Noekeon k (words_of b)).
Proof.
  intros k b Hk Hb. unfold blk_be, load_be. cbn [seq map].
  change (slice b (0 * 4) 4) with (firstn 4 b). change (slice b (1 * 4) 4) with (firstn 4 (skipn 4 b)). change (slice b (2 * 4) 4) with (firstn 4 (skipn 8 b)). change (slice b (3 * 4) 4) with (firstn 4 (skipn 12 b)).
  unfold on4. fold (words_of b). rewrite (proj1 (encrypt_is k (words_of b) Hk (words_wf b Hb))). destruct (Noekeon k (words_of b)) as [[[a0 a1] a2] a3].
  unfold store_be, bytes_of. cbn [map concat]. rewrite app_nil_r. reflexivity.
Qed.
Lemma words_bytes : forall s, w4 32 s -> words4 (load_be 4 4 (bytes_of s)) = s.
Proof.
  intros [[[a0 a1] a2] a3] ((A0 & A1) & (A2 & A3)). cbn [fst snd] in *. unfold bytes_of, words4, load_be. cbn [seq map nth].
  assert (forall a, exists p q r t, be_bytes 4 a = [p; q; r; t]) as B by (intro a; do 4 eexists; reflexivity).
  pose proof (be_val_bytes 4 a0 A0) as E0. pose proof (be_val_bytes 4 a1 A1) as E1. pose proof (be_val_bytes 4 a2 A2) as E2. pose proof (be_val_bytes 4 a3 A3) as E3.
  destruct (B a0) as (? & ? & ? & ? & F0), (B a1) as (? & ? & ? & ? & F1), (B a2) as (? & ? & ? & ? & F2), (B a3) as (? & ? & ? & ? & F3).
  rewrite F0 in *. rewrite F1 in *. rewrite F2 in *. rewrite F3 in *. unfold slice. cbn [Nat.mul Nat.add skipn firstn app]. rewrite E0, E1, E2, E3. reflexivity.
Qed.
Lemma zero_wf : w4 32 (0, 0, 0, 0).
Proof. repeat split; reflexivity. Qed.
Lemma indirect_is : forall key block, length key = 16%nat -> bytes key -> bytes block -> bc_enc noekeon key block = Indirect key block.
Proof.
  intros key block L Hk Hb. cbn [bc_enc noekeon]. unfold noekeon_indirect_key, Indirect. rewrite L. cbn [Nat.sub repeat]. rewrite app_nil_r.
  rewrite (block_is _ key zero_wf Hk). pose proof (proj2 (encrypt_is _ _ zero_wf (words_wf key Hk))) as W. rewrite (words_bytes _ W). apply block_is; assumption.
Qed.
Lemma direct_is : forall key block, length key = 16%nat -> bytes key -> bytes block -> bc_enc noekeon_d key block = Direct key block.
Proof.
  intros key block L Hk Hb. cbn [bc_enc noekeon_d]. unfold noekeon_direct_key, Direct.
  rewrite (ld_user_key_words 4 4 16 4 0 key) by (assumption || lia || (intros ->; discriminate L)). cbn [Nat.eqb Nat.sub repeat]. rewrite app_nil_r.
  change (words4 (load_be 4 4 key)) with (words_of key). apply block_is; [apply words_wf, Hk|exact Hb].
Qed.
