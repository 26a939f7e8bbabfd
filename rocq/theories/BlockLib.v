(* A function on n-byte blocks with a left inverse has it as a two-sided inverse. *)
From Coq Require FinFun.
From Verif Require Import Words EncSpec ModeModel ModeSpec BlockSpec.
Open Scope N_scope.

Fixpoint all_blocks (n : nat) : list (list N) :=
  match n with
  | O => [[]]
  | S n => flat_map (fun b => map (cons b) (all_blocks n)) (range 256)
  end.

Lemma range_lt' : forall n x, In x (range n) -> x < N.of_nat n.
Proof.
  intros n x H. unfold range in H. apply in_map_iff in H. destruct H as [i [<- Hi]]. apply in_seq in Hi. lia.
Qed.
Lemma all_blocks_in : forall n x, block n x -> In x (all_blocks n).
Proof.
  induction n as [|n IH]; intros x [Hx Hl]; destruct x as [|a x]; try discriminate Hl; [left; reflexivity|].
  cbn [all_blocks]. apply in_flat_map. inversion Hx; subst. exists a. split; [apply in_range; assumption|].
  apply in_map, IH. split; [assumption|]. cbn in Hl. congruence.
Qed.
Lemma all_blocks_block : forall n x, In x (all_blocks n) -> block n x.
Proof.
  induction n as [|n IH]; intros x H.
  - destruct H as [<-|[]]. split; [constructor|reflexivity].
  - cbn [all_blocks] in H. apply in_flat_map in H. destruct H as [b [Hb H]]. apply in_map_iff in H.
    destruct H as [y [<- Hy]]. destruct (IH y Hy) as [H1 H2]. split; [|cbn [length]; congruence].
    constructor; [exact (range_lt' 256 b Hb)|exact H1].
Qed.
Lemma range_nodup : forall n, NoDup (range n).
Proof.
  intro n. unfold range. apply FinFun.Injective_map_NoDup; [intros a b H; apply Nat2N.inj, H|apply seq_NoDup].
Qed.
Lemma all_blocks_nodup : forall n, NoDup (all_blocks n).
Proof.
  induction n as [|n IH]; [repeat constructor; intros []|]. cbn [all_blocks].
  generalize (range_nodup 256). generalize (range 256) as bs. intros bs Hb.
  induction Hb as [|b bs Hnb Hb IHb]; [constructor|]. cbn [flat_map].
  assert (NoDup (map (cons b) (all_blocks n))) as H1.
  { apply FinFun.Injective_map_NoDup; [intros u v H; congruence|exact IH]. }
  revert H1. generalize (map_length (cons b) (all_blocks n)) as _L.
  intros _ H1.
  assert (forall x, In x (map (cons b) (all_blocks n)) -> ~ In x (flat_map (fun b => map (cons b) (all_blocks n)) bs)) as H2.
  { intros x Hx Hy. apply in_map_iff in Hx. destruct Hx as [u [<- _]]. apply in_flat_map in Hy.
    destruct Hy as [b' [Hb' Hy]]. apply in_map_iff in Hy. destruct Hy as [v [E _]]. congruence. }
  revert H1 H2. generalize (map (cons b) (all_blocks n)) as l. intros l H1 H2.
  induction H1 as [|x l Hx Hl IHl]; [exact IHb|]. cbn [app]. constructor.
  - intro H. apply in_app_or in H. destruct H as [H|H]; [contradiction|].
    apply (H2 x); [left; reflexivity|exact H].
  - apply IHl. intros y Hy. apply H2. right. exact Hy.
Qed.

Lemma left_inverse_two_sided : forall n E D, inverse_on n E D -> inverse_permutations n E D.
Proof.
  intros n E D H x [Hx Hl]. destruct (H x Hx Hl) as (H1 & H2 & H3).
  split; [exact H2|]. split; [exact H3|]. split; [exact H1|].
  assert (In x (map E (all_blocks n))) as Hin.
  { refine (NoDup_length_incl (l := map E (all_blocks n)) (l' := all_blocks n) _ _ _ x _).
    - assert (forall y, In y (all_blocks n) -> D (E y) = y) as HD.
      { intros y Hy. apply all_blocks_block in Hy. apply H; apply Hy. }
      pose proof (all_blocks_nodup n) as HN. revert HD HN. generalize (all_blocks n) as l. intros l HD HN.
      induction HN as [|y l Hy HN IH]; [constructor|]. cbn [map]. constructor.
      + intro Hi. apply in_map_iff in Hi. destruct Hi as [z [Hz Hi]].
        assert (z = y) as -> by (rewrite <- (HD y (or_introl eq_refl)), <- (HD z (or_intror Hi)), Hz; reflexivity).
        contradiction.
      + apply IH. intros z Hz. apply HD. right. exact Hz.
    - rewrite map_length. reflexivity.
    - intros y Hy. apply in_map_iff in Hy. destruct Hy as [z [<- Hz]]. apply all_blocks_block in Hz.
      apply all_blocks_in. apply H; apply Hz.
    - apply all_blocks_in. split; assumption. }
  apply in_map_iff in Hin. destruct Hin as [z [<- Hz]]. apply all_blocks_block in Hz.
  destruct Hz as [Z1 Z2]. destruct (H z Z1 Z2) as (Hzz & _). rewrite Hzz. reflexivity.
Qed.
