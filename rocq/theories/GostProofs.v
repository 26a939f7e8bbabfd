From Verif Require Import Words EncSpec TaskModel ModeModel ModeSpec CipherBase CipherLib GostModel.
Open Scope N_scope.

Lemma nthN_bytes : forall l i, bytes l -> nthN l i < 2 ^ 8.
Proof. intros. unfold nthN. apply nth_words. exact H. Qed.

Lemma gost_sub_lt : forall sb b, Forall bytes sb -> gost_sub sb b < 2 ^ 32.
Proof.
  intros sb b H. unfold gost_sub. repeat apply lor_lt; try apply shlw_lt.
  apply (lt_mono _ 8); [|lia]. unfold gost_s. apply nthN_bytes.
  destruct sb as [|s1 sb]; cbn [Nat.sub nth]; [constructor|]. inversion H; assumption.
Qed.

Lemma gost_round_wf : forall sb K s r, Forall bytes sb -> w2 32 s -> w2 32 (gost_round sb K s r).
Proof.
  intros sb K [L R] r Hs (HL & HR). cbn [fst snd] in *. split; cbn [fst snd gost_round]; [assumption|].
  pose proof (gost_sub_lt sb (add32 R (nthN K (nth r gost_rounds_k_lt 0))) Hs). wlt.
Qed.

Definition swap2 (s : N * N) : N * N := let '(a, b) := s in (b, a).

(* the round conjugated with the exchange of the halves undoes the round *)
Lemma gost_round_inv : forall sb K s r, Forall bytes sb -> w2 32 s ->
  swap2 (gost_round sb K (swap2 (gost_round sb K s r)) r) = s.
Proof.
  intros sb K [L R] r Hs _. unfold gost_round, swap2. rewrite lxor_cancel_l. reflexivity.
Qed.

Lemma swap_fold : forall (f : N * N -> nat -> N * N) l s,
  swap2 (fold_left f l (swap2 s)) = fold_left (fun s r => swap2 (f (swap2 s) r)) l s.
Proof.
  induction l as [|r l IH]; intros [a b]; cbn [fold_left]; [reflexivity|].
  rewrite <- IH. f_equal. destruct (f (swap2 (a, b)) r). reflexivity.
Qed.

Lemma gost_words_inv : forall sb K s, Forall bytes sb -> w2 32 s ->
  gost_words (rev (seq 0 32)) sb K (gost_words (seq 0 32) sb K s) = s /\
  w2 32 (gost_words (seq 0 32) sb K s) /\ w2 32 (gost_words (rev (seq 0 32)) sb K s).
Proof.
  intros sb K s Hb Hs. generalize (seq 0 32). intro l.
  assert (forall l s, w2 32 s -> w2 32 (gost_words l sb K s)) as W.
  { clear s Hs l. intros l [x y] (Hx & Hy). unfold gost_words.
    apply fold_wf with (okk := fun _ => True); [intros; apply gost_round_wf; assumption|apply Forall_true|]. split; assumption. }
  split; [|auto].
  assert (forall l s, gost_words l sb K s = fold_left (gost_round sb K) l (swap2 s)) as E
    by (intros l0 [x y]; reflexivity).
  rewrite !E. assert (forall t, swap2 (swap2 t) = t) as SS by (intros [? ?]; reflexivity).
  assert (w2 32 (swap2 s)) as Hw by (destruct s, Hs; split; assumption).
  rewrite <- (SS (fold_left _ (rev l) _)), swap_fold.
  destruct (fold_inverse _ _ (w2 32) (fun _ => True) (gost_round sb K) (fun s r => swap2 (gost_round sb K (swap2 s) r)) l (swap2 s)) as [H1 _].
  - intros t k Ht _. split; [apply gost_round_inv; assumption|apply gost_round_wf; assumption].
  - apply Forall_true.
  - exact Hw.
  - rewrite H1. apply SS.
Qed.

Lemma gost_ds_sboxes_bytes : Forall bytes gost_ds_sboxes.
Proof.
  assert (forallb (forallb byteb) gost_ds_sboxes = true) as H by (vm_compute; reflexivity).
  rewrite forallb_forall in H. apply Forall_forall. intros l Hl. specialize (H l Hl). rewrite forallb_forall in H.
  apply Forall_forall. intros b Hb. specialize (H b Hb). apply N.ltb_lt, H.
Qed.

Lemma gost_ds_lawful : lawful gost_ds.
Proof.
  unfold lawful. cbn [gost_ds bc_id bc_bs bc_enc bc_dec].
  split; [reflexivity|]. split; [reflexivity|]. split; [lia|]. intros key _.
  apply (inverse_blk_be 4 2). change (8 * N.of_nat 4) with 32. apply word_inverse_on2.
  intros s Hs. apply gost_words_inv; [apply gost_ds_sboxes_bytes|exact Hs].
Qed.

Lemma gost_lawful : forall args, Forall (fun o => match o with Some l => bytes l | None => True end) args ->
  lawful (gost args).
Proof.
  intros args Ha. unfold lawful. cbn [gost bc_id bc_bs bc_enc bc_dec].
  split; [reflexivity|]. split; [reflexivity|]. split; [lia|]. intros key _.
  apply (inverse_blk_be 4 2). change (8 * N.of_nat 4) with 32. apply word_inverse_on2.
  intros s Hs. apply gost_words_inv; [|exact Hs].
  apply Forall_map. revert Ha. apply Forall_impl. intros [l|]; [auto|constructor].
Qed.
