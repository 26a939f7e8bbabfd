From Verif Require Import Words EncSpec TaskModel ModeModel ModeSpec CipherBase CipherLib TeaModel.
Open Scope N_scope.

Definition w2s (s : N * N * N) : Prop :=
  let '(a, b, c) := s in a < 2 ^ 32 /\ b < 2 ^ 32 /\ c < 2 ^ 32.

Lemma tea_round_inv : forall k s, w2s s ->
  tea_dec_round k (tea_enc_round k s) = s /\ w2s (tea_enc_round k s).
Proof.
  intros k [[y z] sum] (Hy & Hz & Hs). unfold tea_dec_round, tea_enc_round.
  rewrite (subw_addw 32 z), (subw_addw 32 y), subw_addw by auto.
  unfold w2s. repeat split; wlt.
Qed.

Lemma xtea_round_inv : forall k s, w2s s ->
  xtea_dec_round k (xtea_enc_round k s) = s /\ w2s (xtea_enc_round k s).
Proof.
  intros k [[y z] sum] (Hy & Hz & Hs). unfold xtea_dec_round, xtea_enc_round. cbv zeta.
  rewrite (subw_addw 32 z), (subw_addw 32 sum) by auto. rewrite (subw_addw 32 y) by auto.
  unfold w2s. repeat split; wlt.
Qed.

Lemma tea_dec_wf : forall k s, w2s s -> w2s (tea_dec_round k s).
Proof. intros k [[y z] sum] _. unfold tea_dec_round, w2s. repeat split; wlt. Qed.
Lemma xtea_dec_wf : forall k s, w2s s -> w2s (xtea_dec_round k s).
Proof. intros k [[y z] sum] _. unfold xtea_dec_round, w2s. cbv zeta. repeat split; wlt. Qed.

Lemma iter_wf : forall (S : Type) (wf : S -> Prop) (e : S -> S) n s,
  (forall s, wf s -> wf (e s)) -> wf s -> wf (Nat.iter n e s).
Proof. intros S wf e n s H Hs. induction n as [|n IH]; [exact Hs|]. apply H, IH. Qed.

Lemma addw_mul_step : forall w d n, addw w (mulw w d n) d = mulw w d (n + 1).
Proof.
  intros. unfold addw, mulw. pose proof (pow2_pos w).
  rewrite N.add_mod_idemp_l by lia. f_equal. lia.
Qed.

Lemma tea_sum : forall k n s, snd s = 0 ->
  snd (Nat.iter n (tea_enc_round k) s) = mulw 32 tea_delta (N.of_nat n).
Proof.
  intros k n s H. induction n as [|n IH]; [exact H|].
  cbn [Nat.iter nat_rect]. change (nat_rect _ s _ n) with (Nat.iter n (tea_enc_round k) s).
  destruct (Nat.iter n (tea_enc_round k) s) as [[a b] c]. cbn [snd] in *. subst c.
  cbn [tea_enc_round snd]. rewrite addw_mul_step. f_equal. lia.
Qed.
Lemma xtea_sum : forall k n s, snd s = 0 ->
  snd (Nat.iter n (xtea_enc_round k) s) = mulw 32 tea_delta (N.of_nat n).
Proof.
  intros k n s H. induction n as [|n IH]; [exact H|].
  cbn [Nat.iter nat_rect]. change (nat_rect _ s _ n) with (Nat.iter n (xtea_enc_round k) s).
  destruct (Nat.iter n (xtea_enc_round k) s) as [[a b] c]. cbn [snd] in *. subst c.
  cbn [xtea_enc_round snd]. rewrite addw_mul_step. f_equal. lia.
Qed.

Lemma pair_of_iter : forall (e d : N * N * N -> N * N * N) n sum0 sumn s,
  (forall s, w2s s -> d (e s) = s /\ w2s (e s)) -> (forall s, w2s s -> w2s (d s)) ->
  sum0 < 2 ^ 32 -> sumn < 2 ^ 32 ->
  (forall y z, snd (Nat.iter n e (y, z, sum0)) = sumn) ->
  w2 32 s ->
  let f := fun '(y, z) => let '(y, z, _) := Nat.iter n e (y, z, sum0) in (y, z) in
  let g := fun '(y, z) => let '(y, z, _) := Nat.iter n d (y, z, sumn) in (y, z) in
  g (f s) = s /\ w2 32 (f s) /\ w2 32 (g s).
Proof.
  intros e d n sum0 sumn [y z] He Hd H0 Hn Hsum [Hy Hz] f g. cbn [fst snd] in *. subst f g. cbv beta iota.
  assert (w2s (y, z, sum0)) as Hw by (unfold w2s; auto).
  destruct (iter_inverse _ w2s e d n _ He Hw) as [H1 H2].
  specialize (Hsum y z).
  destruct (Nat.iter n e (y, z, sum0)) as [[a b] c]. cbn [snd] in Hsum. subst c.
  rewrite H1. destruct H2 as (Ha & Hb & _).
  assert (w2s (Nat.iter n d (y, z, sumn))) as H3.
  { apply iter_wf; [exact Hd|]. unfold w2s; auto. }
  destruct (Nat.iter n d (y, z, sumn)) as [[a' b'] c']. destruct H3 as (Ha' & Hb' & _).
  unfold w2. auto.
Qed.

Lemma tea_lawful : lawful tea.
Proof.
  unfold lawful. cbn [tea bc_id bc_bs bc_enc bc_dec].
  split; [reflexivity|]. split; [reflexivity|]. split; [lia|]. intros key _.
  apply (inverse_blk_be 4 2). apply word_inverse_on2. intros s Hs.
  apply (pair_of_iter (tea_enc_round (tea_key key)) (tea_dec_round (tea_key key)) 32 0 (shl32 tea_delta 5)).
  - apply tea_round_inv.
  - apply tea_dec_wf.
  - reflexivity.
  - apply shlw_lt.
  - intros y z. rewrite tea_sum by reflexivity. reflexivity.
  - exact Hs.
Qed.

Lemma xtea_lawful : forall rounds, lawful (xtea rounds).
Proof.
  intros rounds. unfold lawful. cbn [xtea bc_id bc_bs bc_enc bc_dec].
  split; [reflexivity|]. split; [reflexivity|]. split; [lia|]. intros key (_ & _ & _ & Hc).
  cbn [xtea bc_check] in Hc. destruct (negb (length key =? 16)%nat); [discriminate|].
  destruct rounds as [r|]; [|discriminate].
  apply (inverse_blk_be 4 2). apply word_inverse_on2. intros s Hs.
  apply (pair_of_iter (xtea_enc_round (tea_key key)) (xtea_dec_round (tea_key key)) (Z.to_nat r) 0
           (mul32 tea_delta (Z.to_N r))).
  - apply xtea_round_inv.
  - apply xtea_dec_wf.
  - reflexivity.
  - apply mulw_lt.
  - intros y z. rewrite xtea_sum by reflexivity. f_equal. lia.
  - exact Hs.
Qed.
