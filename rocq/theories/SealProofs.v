From Verif Require Import Words EncSpec TaskModel CipherBase CipherLib RcProofs StreamModel StreamSpec StreamProofs RabbitProofs.
Open Scope N_scope.

(* ---- SEAL: the output is the input with a key stream that does not depend on it *)
Lemma seal_step_length : forall v T box ns st i, length (snd (seal_step v T box ns st i)) = (length (snd st) + 4)%nat.
Proof.
  intros v T box [[[n1 n2] n3] n4] st i. unfold seal_step. generalize (seal_mix T (fst st)) as s. intros [[[A B] C] D].
  cbn [snd]. rewrite app_length. reflexivity.
Qed.
Lemma seal_steps_length : forall v T box init, length (seal_steps v T box init) = 256%nat.
Proof.
  intros v T box init. unfold seal_steps.
  assert (forall js st, length (snd (fold_left (seal_step v T box (snd init)) js st)) = (length (snd st) + 4 * length js)%nat) as H.
  { induction js as [|j js IH]; intro st; [cbn [fold_left length]; lia|]. cbn [fold_left]. rewrite IH, seal_step_length. cbn [length]. lia. }
  rewrite H, seq_length. reflexivity.
Qed.
Lemma seal_keystream_length : forall v key n w, length (seal_keystream v key n w) = N.to_nat w.
Proof.
  intros. unfold seal_keystream. cbv zeta. rewrite firstn_length.
  rewrite (concat_map_length _ 256%nat) by (intros; apply seal_steps_length). rewrite seq_length.
  apply Nat.min_l. set (q := (w + 255) / 256). assert (w <= 256 * q) by (unfold q; lia). lia.
Qed.
Lemma store4_length : forall l, length (store_be 4 l) = (4 * length l)%nat.
Proof. intro l. unfold store_be. apply concat_map_length. intros. apply be_bytes_length. Qed.
Lemma seal_loop_xor : forall (ks : N -> list N) w, 0 < w -> (forall n, length (ks n) = N.to_nat w) ->
  forall fuel n inp, word n -> (length inp <= fuel)%nat ->
  xored_with (fun i => nth (i mod (4 * N.to_nat w)) (store_be 4 (ks ((n + N.of_nat (i / (4 * N.to_nat w))) mod 2 ^ 32))) 0) inp
    (seal_loop fuel ks w n inp).
Proof.
  intros ks w Hw HL. induction fuel as [|f IH]; intros n inp Hn Hf.
  - destruct inp; [|cbn in Hf; lia]. apply xored_nil.
  - destruct inp as [|b0 inp0]; [apply xored_nil|]. cbn [seal_loop]. set (inp := b0 :: inp0) in *.
    assert (0 < length inp)%nat as Hpos by (unfold inp; cbn; lia). clearbody inp.
    set (b := (4 * N.to_nat w)%nat) in *. assert (0 < b)%nat as Hb by lia.
    apply xored_block; [exact Hb| | |].
    + rewrite store4_length, HL. apply le_n.
    + intros i Hi. rewrite (Nat.mod_small i b), (Nat.div_small i b) by exact Hi. change (N.of_nat 0) with 0.
      rewrite (N.add_0_r n), (N.mod_small n) by exact Hn. reflexivity.
    + eapply xored_ext; [|apply (IH (add32 n 1) (skipn b inp))]; [|apply N.mod_lt; discriminate|rewrite skipn_length; lia].
      intros i _. cbv beta. replace (b + i)%nat with (i + 1 * b)%nat by lia.
      rewrite (Nat.mod_add i 1 b), (Nat.div_add i 1 b) by lia. unfold addw. rewrite (N.add_mod_idemp_l (n + 1)) by discriminate.
      replace (n + N.of_nat (i / b + 1)) with (n + 1 + N.of_nat (i / b)) by lia. reflexivity.
Qed.
