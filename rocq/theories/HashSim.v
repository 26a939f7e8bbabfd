(* Simulation between two iterations over the blocks of one padded message, and the padded message itself. *)
From Verif Require Import Words EncSpec TaskModel CipherBase CipherLib StreamModel HashModel HashSpec HashProofs HashProofs2 HashProofs3.
From Coq Require Import PeanoNat ZArith Lia.
Open Scope N_scope.

Lemma iterate_sim : forall bs (R : list N -> list N -> Prop) c1 c2 s1 s2 p, (0 < bs)%nat -> (length p mod bs = 0)%nat -> bytes p -> R s1 s2 ->
  (forall s t b, R s t -> length b = bs -> bytes b -> R (c1 s b) (c2 t b)) -> R (iterate bs c1 s1 p) (iterate bs c2 s2 p).
Proof.
  intros bs R c1 c2 s1 s2 p Hb M Hp H0 H. unfold iterate.
  assert (forall b, In b (chunks bs p) -> length b = bs /\ bytes b) as F.
  { intros b Hin. split; [eapply chunks_length; eassumption|]. destruct (blocks_of bs p Hb) as (bl & la & E & Hbl & _ & Hla).
    rewrite M in Hla. destruct la; [|discriminate]. rewrite app_nil_r in E. rewrite E in Hin. rewrite <- (app_nil_r (concat bl)) in Hin.
    rewrite chunks_concat in Hin by (try assumption; cbn [length]; lia).
    cbn in Hin. rewrite ?app_nil_r in Hin.
    apply Forall_forall. intros x Hx. unfold bytes in Hp. rewrite Forall_forall in Hp. apply Hp. rewrite E. apply in_concat. exists b. auto. }
  revert s1 s2 H0. induction (chunks bs p) as [|b l IH]; intros s1 s2 H0; [exact H0|].
  cbn [fold_left]. apply IH; [intros; apply F; right; assumption|]. apply H; [exact H0|apply F; left; reflexivity|apply F; left; reflexivity].
Qed.
Lemma code_padded_bytes : forall bs off tok field m, bytes m -> tok < 256 -> (forall t, bytes (field t)) -> bytes (code_padded bs off tok field m).
Proof.
  intros bs off tok field m Hm Ht Hf. unfold code_padded. destruct (negb _ && _)%bool; [exact Hm|].
  apply Forall_app. split; [exact Hm|]. apply Forall_app. split; [constructor; [exact Ht|constructor]|]. apply Forall_app. split; [|apply Hf].
  apply Forall_forall. intros x Hx. apply repeat_spec in Hx. subst. reflexivity.
Qed.
(* a message padded to whole blocks is hashed as it is *)
Lemma padded_mod : forall bs lb tok field m, (0 < bs)%nat -> (lb < bs)%nat -> (forall t, length (field t) = lb) -> (length (padded bs lb tok field m) mod bs = 0)%nat.
Proof.
  intros bs lb tok field m Hb Hl L. unfold padded. rewrite !app_length, repeat_length, L. cbn [length]. unfold zeros_needed.
  pose proof (Nat.mod_upper_bound (length m + 1 + lb) bs ltac:(lia)) as U. pose proof (Nat.div_mod (length m + 1 + lb) bs ltac:(lia)) as D.
  set (q := ((length m + 1 + lb) / bs)%nat) in *. set (r := ((length m + 1 + lb) mod bs)%nat) in *. destruct (Nat.eq_dec r 0) as [E|E].
  - rewrite E. rewrite Nat.sub_0_r, Nat.mod_same by lia. replace (length m + (1 + (0 + lb)))%nat with (q * bs)%nat by nia. apply Nat.mod_mul. lia.
  - rewrite (Nat.mod_small (bs - r)) by lia. replace (length m + (1 + (bs - r + lb)))%nat with ((q + 1) * bs)%nat by nia. apply Nat.mod_mul. lia.
Qed.
Lemma padded_len : forall bs lb tok field m, (0 < bs)%nat -> (forall t, length (field t) = lb) -> (length m < length (padded bs lb tok field m) <= length m + lb + bs)%nat.
Proof.
  intros bs lb tok field m Hb L. unfold padded. rewrite !app_length, repeat_length, L. cbn [length]. unfold zeros_needed.
  pose proof (Nat.mod_upper_bound (bs - (length m + 1 + lb) mod bs) bs ltac:(lia)). lia.
Qed.
Lemma padded_bytes : forall bs lb tok field m, bytes m -> tok < 256 -> (forall t, bytes (field t)) -> bytes (padded bs lb tok field m).
Proof.
  intros bs lb tok field m Hm Ht Hf. unfold padded. apply Forall_app. split; [exact Hm|]. apply Forall_app. split; [constructor; [exact Ht|constructor]|]. apply Forall_app. split; [|apply Hf].
  apply Forall_forall. intros x Hx. apply repeat_spec in Hx. subst. reflexivity.
Qed.
