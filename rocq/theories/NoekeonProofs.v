From Coq Require Import Bool Ring.
From Verif Require Import Words EncSpec TaskModel ModeModel ModeSpec CipherBase CipherLib NoekeonModel.
Open Scope N_scope.

Lemma noekeon_t_lt : forall t, t < 2 ^ 32 -> noekeon_t t < 2 ^ 32.
Proof. intros. unfold noekeon_t. wlt. Qed.
#[local] Hint Resolve noekeon_t_lt lxor_lt : noek.
Lemma noekeon_t_lxor : forall x y, x < 2 ^ 32 -> y < 2 ^ 32 ->
  noekeon_t (xor x y) = xor (noekeon_t x) (noekeon_t y).
Proof.
  intros x y Hx Hy. unfold noekeon_t. rewrite !rotl_lxor by (assumption || lia). xor_ring.
Qed.

Lemma noekeon_theta_inv : forall k a, w4 32 k -> w4 32 a ->
  noekeon_theta (noekeon_theta (0, 0, 0, 0) k) (noekeon_theta k a) = a.
Proof.
  intros [[[k0 k1] k2] k3] [[[a0 a1] a2] a3] ((K0 & K1) & (K2 & K3)) ((A0 & A1) & (A2 & A3)).
  unfold noekeon_theta. cbv zeta. rewrite !N.lxor_0_r.
  rewrite !noekeon_t_lxor by auto 20 with noek.
  f_equal; [f_equal; [f_equal|]|]; xor_ring.
Qed.
Lemma noekeon_theta_wf : forall k a, w4 32 k -> w4 32 a -> w4 32 (noekeon_theta k a).
Proof.
  intros [[[k0 k1] k2] k3] [[[a0 a1] a2] a3] ((K0 & K1) & (K2 & K3)) ((A0 & A1) & (A2 & A3)).
  unfold noekeon_theta, w4. cbv zeta. repeat split; auto 20 with noek.
Qed.

Lemma notw_testbit : forall x i, N.testbit (notw 32 x) i = xorb (i <? 32) (N.testbit x i).
Proof.
  intros. unfold notw. rewrite N.lxor_spec. f_equal.
  destruct (N.ltb_spec i 32); [apply N.ones_spec_low|apply N.ones_spec_high]; assumption.
Qed.

Lemma noekeon_gamma_inv : forall a, w4 32 a -> noekeon_gamma (noekeon_gamma a) = a.
Proof.
  intros [[[a0 a1] a2] a3] ((A0 & A1) & (A2 & A3)). unfold noekeon_gamma. cbv zeta.
  f_equal; [f_equal; [f_equal|]|]; apply N.bits_inj; intro i;
    repeat rewrite ?N.lxor_spec, ?notw_testbit, ?N.land_spec, ?N.lor_spec;
    (destruct (N.ltb_spec i 32);
     [|rewrite (testbit_above a0 32), (testbit_above a1 32), (testbit_above a2 32), (testbit_above a3 32) by assumption; reflexivity]);
    destruct (N.testbit a0 i), (N.testbit a1 i), (N.testbit a2 i), (N.testbit a3 i); reflexivity.
Qed.
Lemma noekeon_gamma_wf : forall a, w4 32 a -> w4 32 (noekeon_gamma a).
Proof.
  intros [[[a0 a1] a2] a3] ((A0 & A1) & (A2 & A3)). unfold noekeon_gamma, w4. cbv zeta. repeat split; wlt.
Qed.
Lemma noekeon_pi_inv : forall a, w4 32 a -> noekeon_pi1 (noekeon_pi2 a) = a /\ noekeon_pi2 (noekeon_pi1 a) = a.
Proof.
  intros [[[a0 a1] a2] a3] ((A0 & A1) & (A2 & A3)). unfold noekeon_pi1, noekeon_pi2.
  assert (rotl32 (rotl32 a1 31) 1 = a1) as -> by (apply (rotl_rotl_compl 32 a1 31); [assumption|lia]).
  assert (rotl32 (rotl32 a2 27) 5 = a2) as -> by (apply (rotl_rotl_compl 32 a2 27); [assumption|lia]).
  assert (rotl32 (rotl32 a3 30) 2 = a3) as -> by (apply (rotl_rotl_compl 32 a3 30); [assumption|lia]).
  assert (rotl32 (rotl32 a1 1) 31 = a1) as -> by (apply (rotl_rotl_compl 32 a1 1); [assumption|lia]).
  assert (rotl32 (rotl32 a2 5) 27 = a2) as -> by (apply (rotl_rotl_compl 32 a2 5); [assumption|lia]).
  assert (rotl32 (rotl32 a3 2) 30 = a3) as -> by (apply (rotl_rotl_compl 32 a3 2); [assumption|lia]).
  auto.
Qed.
Lemma noekeon_pi_wf : forall a, w4 32 a -> w4 32 (noekeon_pi1 a) /\ w4 32 (noekeon_pi2 a).
Proof.
  intros [[[a0 a1] a2] a3] ((A0 & A1) & (A2 & A3)). unfold noekeon_pi1, noekeon_pi2, w4. repeat split; wlt.
Qed.
Lemma noekeon_rc_inv : forall c a, noekeon_rc c (noekeon_rc c a) = a.
Proof. intros c [[[a0 a1] a2] a3]. unfold noekeon_rc. rewrite lxor_cancel_r. reflexivity. Qed.
Lemma noekeon_rc_0 : forall a, noekeon_rc 0 a = a.
Proof. intros [[[a0 a1] a2] a3]. unfold noekeon_rc. rewrite N.lxor_0_r. reflexivity. Qed.
Lemma noekeon_rc_wf : forall r a, w4 32 a -> w4 32 (noekeon_rc (nth r noekeon_RC 0) a).
Proof.
  intros r [[[a0 a1] a2] a3] ((A0 & A1) & (A2 & A3)). unfold noekeon_rc, w4. repeat split; try assumption.
  apply lxor_lt; [assumption|]. apply nth_words. apply Forall_forall. intros x Hx.
  assert (forallb (fun x => x <? 2 ^ 32) noekeon_RC = true) as H by reflexivity.
  rewrite forallb_forall in H. apply N.ltb_lt, H, Hx.
Qed.

(* Pi2 after Gamma after Pi1 is an involution *)
Definition noekeon_nl (a : N * N * N * N) := noekeon_pi2 (noekeon_gamma (noekeon_pi1 a)).
Lemma noekeon_nl_inv : forall a, w4 32 a -> noekeon_nl (noekeon_nl a) = a.
Proof.
  intros a Ha. unfold noekeon_nl. pose proof (noekeon_pi_wf a Ha) as [H1 _]. pose proof (noekeon_gamma_wf _ H1) as H2.
  destruct (noekeon_pi_inv _ H2) as [-> _]. rewrite noekeon_gamma_inv by assumption. apply noekeon_pi_inv, Ha.
Qed.
Lemma noekeon_nl_wf : forall a, w4 32 a -> w4 32 (noekeon_nl a).
Proof. intros a Ha. apply noekeon_pi_wf, noekeon_gamma_wf, noekeon_pi_wf, Ha. Qed.

Lemma interleave : forall (A : Type) (wf : A -> Prop) (R R' g : nat -> A -> A) n s,
  (forall j s, wf s -> R' (S j) (g (S j) (R j s)) = g j s) -> (forall j s, wf s -> wf (R j s)) -> wf s ->
  fold_left (fun s r => R' r s) (rev (seq 1 n)) (g n (fold_left (fun s r => R r s) (seq 0 n) s)) = g O s.
Proof.
  intros A wf R R' g n s H Hw Hs. induction n as [|n IH]; [reflexivity|].
  rewrite (seq_S n 0), (seq_S n 1), rev_app_distr. cbn [rev app fold_left Nat.add]. rewrite fold_left_app. cbn [fold_left].
  rewrite H; [exact IH|]. apply fold_wf with (okk := fun _ => True); [intros; apply Hw; assumption|apply Forall_true|exact Hs].
Qed.

Lemma noekeon_round_wf : forall k s r1 r2, w4 32 k -> w4 32 s ->
  w4 32 (noekeon_round k s (nth r1 noekeon_RC 0) 0) /\ w4 32 (noekeon_round k s 0 (nth r2 noekeon_RC 0)).
Proof.
  intros k s r1 r2 Hk Hs. unfold noekeon_round. fold (noekeon_nl (noekeon_rc 0 (noekeon_theta k (noekeon_rc (nth r1 noekeon_RC 0) s)))).
  fold (noekeon_nl (noekeon_rc (nth r2 noekeon_RC 0) (noekeon_theta k (noekeon_rc 0 s)))). rewrite !noekeon_rc_0. split.
  - apply noekeon_nl_wf, noekeon_theta_wf; [exact Hk|]. apply noekeon_rc_wf, Hs.
  - apply noekeon_nl_wf, noekeon_rc_wf, noekeon_theta_wf; assumption.
Qed.

Lemma noekeon_words_inv : forall k s, w4 32 k -> w4 32 s ->
  noekeon_decrypt_words (noekeon_theta (0, 0, 0, 0) k) (noekeon_encrypt_words k s) = s /\
  w4 32 (noekeon_encrypt_words k s) /\ w4 32 (noekeon_decrypt_words (noekeon_theta (0, 0, 0, 0) k) s).
Proof.
  intros k s Hk Hs. assert (w4 32 (0, 0, 0, 0)) as Z by (repeat split).
  pose proof (noekeon_theta_wf _ _ Z Hk) as Hk'. set (k' := noekeon_theta (0, 0, 0, 0) k) in *.
  unfold noekeon_decrypt_words, noekeon_encrypt_words. cbv zeta. split; [|split].
  - pose proof (interleave _ (w4 32) (fun r s => noekeon_round k s (nth r noekeon_RC 0) 0)
      (fun r s => noekeon_round k' s 0 (nth r noekeon_RC 0))
      (fun r s => noekeon_theta k (noekeon_rc (nth r noekeon_RC 0) s)) 16 s) as H. cbv beta in H.
    rewrite H; [| |intros; apply noekeon_round_wf; assumption|exact Hs].
    + subst k'. rewrite noekeon_theta_inv by (try apply noekeon_rc_wf; assumption). apply noekeon_rc_inv.
    + clear H. intros j t Ht. unfold noekeon_round at 1. rewrite noekeon_rc_0. subst k'.
      rewrite noekeon_theta_inv; [|exact Hk|apply noekeon_rc_wf, noekeon_round_wf; assumption].
      rewrite noekeon_rc_inv. unfold noekeon_round. rewrite noekeon_rc_0.
      pose proof (noekeon_theta_wf k _ Hk (noekeon_rc_wf j t Ht)) as W.
      exact (noekeon_nl_inv _ W).
  - apply noekeon_theta_wf; [exact Hk|]. apply noekeon_rc_wf.
    apply fold_wf with (okk := fun _ => True); [intros; apply noekeon_round_wf; assumption|apply Forall_true|exact Hs].
  - apply noekeon_rc_wf, noekeon_theta_wf; [exact Hk'|].
    apply fold_wf with (okk := fun _ => True); [intros; apply noekeon_round_wf; assumption|apply Forall_true|exact Hs].
Qed.

Lemma noekeon_d_lawful : lawful noekeon_d.
Proof.
  unfold lawful. cbn [noekeon_d bc_id bc_bs bc_enc bc_dec].
  split; [reflexivity|]. split; [reflexivity|]. split; [lia|]. intros key (_ & Hk & _).
  apply (inverse_blk_be 4 4). change (8 * N.of_nat 4) with 32. apply word_inverse_on4.
  intros s Hs. apply noekeon_words_inv; [|exact Hs].
  destruct (ld_user_key_ok 4 4 16 key Hk ltac:(lia)) as [H _]. change (8 * N.of_nat 4) with 32 in H.
  unfold noekeon_direct_key, words4, w4. repeat split; apply nth_words, H.
Qed.

Lemma noekeon_lawful : lawful noekeon.
Proof.
  unfold lawful. cbn [noekeon bc_id bc_bs bc_enc bc_dec].
  split; [reflexivity|]. split; [reflexivity|]. split; [lia|]. intros key (_ & Hk & _).
  apply (inverse_blk_be 4 4). change (8 * N.of_nat 4) with 32. apply word_inverse_on4.
  intros s Hs. apply noekeon_words_inv; [|exact Hs].
  unfold noekeon_indirect_key, words4.
  set (x := blk_be _ _ _ _). assert (words 32 (load_be 4 4 x)) as H.
  { apply (load_be_words 4). apply store_be_bytes. }
  unfold w4. repeat split; apply nth_words, H.
Qed.
