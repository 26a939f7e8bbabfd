From Verif Require Import Words EncSpec CipherBase CipherLib DesProofs.
Open Scope N_scope.

(* A Feistel network whose round r maps (L, R) to (R, L xor f r R), run over a list of round numbers and
   followed by the exchange of the two halves, is undone by the same network run over the reversed list. *)
Section Feistel.
  Variable f : nat -> N -> N.
  Hypothesis Hf : forall r x, f r x < 2 ^ 32.
  Definition fround (s : N * N) (r : nat) : N * N := let '(L, R) := s in (R, N.lxor L (f r R)).
  Definition fnet (order : list nat) (s : N * N) : N * N := let '(L, R) := fold_left fround order s in (R, L).

  Lemma fround_wf : forall s r, w2 32 s -> w2 32 (fround s r).
  Proof. intros [L R] r [HL HR]. split; [exact HR|]. apply lxor_lt; [exact HL|apply Hf]. Qed.
  Lemma fnet_swap : forall order s, fnet order s = swap2 (fold_left fround order s).
  Proof. intros. unfold fnet. destruct (fold_left fround order s). reflexivity. Qed.
  Lemma fnet_wf : forall order s, w2 32 s -> w2 32 (fnet order s).
  Proof.
    intros order s Hs. rewrite fnet_swap.
    assert (w2 32 (fold_left fround order s)) as H.
    { apply fold_wf with (okk := fun _ => True); [intros; apply fround_wf; assumption|apply Forall_true|assumption]. }
    destruct (fold_left fround order s), H. split; assumption.
  Qed.
  Lemma fnet_inv : forall order s, fnet (rev order) (fnet order s) = s.
  Proof.
    intros order s. rewrite !fnet_swap, swap_fold. revert s.
    induction order as [|r l IH]; intro s; cbn [rev fold_left]; [reflexivity|].
    rewrite fold_left_app, IH. cbn [fold_left]. destruct s as [L R]. cbn [fround swap2].
    rewrite lxor_cancel_r. reflexivity.
  Qed.
  Lemma fnet_inv' : forall order s, fnet order (fnet (rev order) s) = s.
  Proof. intros order s. rewrite <- (rev_involutive order) at 1. apply fnet_inv. Qed.
End Feistel.

Lemma words_forallb : forall w l, forallb (fun x => x <? 2 ^ w) l = true -> words w l.
Proof.
  intros w l H. apply Forall_forall. intros x Hx. rewrite forallb_forall in H. apply N.ltb_lt, H, Hx.
Qed.
