(* Huffman coding: the tree built from the table of frequencies. *)
From Verif Require Import Words CipherBase StreamModel HuffModel HuffProofs.
From Coq Require Import List Arith Lia PeanoNat Bool Permutation Sorted.
Open Scope N_scope.

Definition tree_of (e : freq_ctx) : htree := match fc_sub e with Tree l Nil _ => l | t => t end.
Definition total (tbl : list freq_ctx) : N := fold_right (fun e a => fc_freq e + a) 0 tbl.
Lemma total_perm : forall a b, Permutation a b -> total a = total b.
Proof. intros a b H. induction H; cbn; try lia. unfold total in IHPermutation. rewrite IHPermutation. reflexivity. Qed.
Lemma total_app : forall a b, total (a ++ b) = total a + total b.
Proof. induction a as [|x a IH]; intro b; [reflexivity|]. cbn [app total fold_right]. fold (total (a ++ b)). fold (total a). rewrite IH. lia. Qed.
Lemma total_zero : forall Z, Forall (fun e => fc_freq e = 0) Z -> total Z = 0.
Proof. intros Z H. induction H as [|e Z He _ IH]; [reflexivity|]. cbn. rewrite He. exact IH. Qed.

Section Build.
Variable w : N -> N.
Definition shape (e : freq_ctx) : Prop :=
  (exists b x, fc_sub e = Tree (Tree Nil Nil b) Nil x) \/ (exists l r x, fc_sub e = Tree l r x /\ full l /\ full r).
Definition good (e : freq_ctx) : Prop :=
  shape e /\ fc_freq e = weight w (tree_of e) /\ fair w (tree_of e) /\ 0 < fc_freq e.
Lemma shape_full : forall e, shape e -> full (tree_of e).
Proof.
  intros e [(b & x & E)|(l & r & x & E & Hl & Hr)]; unfold tree_of; rewrite E; [constructor|]. destruct r; [inversion Hr|]. constructor; assumption.
Qed.
Definition sub_leaves (A : list freq_ctx) : list N := concat (map (fun e => leaves (tree_of e)) A).
(* a join: the new tree has the two old ones as children *)
Lemma join_ok : forall a b, shape a -> shape b -> exists a' b' t x y c,
  join a b = Done (a', b', t) /\ t = Tree x y c /\ ((x = tree_of a /\ y = tree_of b) \/ (x = tree_of b /\ y = tree_of a)) /\
  exists e, ((a' = e /\ fc_freq b' = 0) \/ (b' = e /\ fc_freq a' = 0)) /\ fc_freq e = fc_freq a + fc_freq b /\ fc_sub e = t.
Proof.
  intros a b Ha Hb. unfold join, tree_of. destruct Ha as [(b1 & x1 & E1)|(l1 & r1 & x1 & E1 & Hl1 & Hr1)]; destruct Hb as [(b2 & x2 & E2)|(l2 & r2 & x2 & E2 & Hl2 & Hr2)]; rewrite E1, E2.
  - do 6 eexists. split; [reflexivity|]. split; [reflexivity|]. split; [left; split; reflexivity|]. eexists. split; [left; split; reflexivity|]. split; reflexivity.
  - destruct r2; [inversion Hr2|]. do 6 eexists. split; [reflexivity|]. split; [reflexivity|]. split; [left; split; reflexivity|]. eexists. split; [left; split; reflexivity|]. split; reflexivity.
  - destruct r1; [inversion Hr1|]. do 6 eexists. split; [reflexivity|]. split; [reflexivity|]. split; [right; split; reflexivity|]. eexists. split; [right; split; reflexivity|]. split; [cbn; apply N.add_comm|reflexivity].
  - destruct r1; [inversion Hr1|]. destruct r2; [inversion Hr2|]. do 6 eexists. split; [reflexivity|]. split; [reflexivity|]. split; [left; split; reflexivity|]. eexists. split; [left; split; reflexivity|]. split; reflexivity.
Qed.
Definition inv (L : list N) (T : N) (n : nat) (st : list freq_ctx * htree) : Prop :=
  exists Z A, fst st = Z ++ A /\ length (fst st) = 256%nat /\ Forall (fun e => fc_freq e = 0) Z /\ Forall good A /\ StronglySorted le_freq A /\
  (n <= length Z)%nat /\ (forall e e', In e A -> In e' A -> kids w (tree_of e) (fc_freq e')) /\ Permutation (sub_leaves A) L /\ total (fst st) = T /\
  ((snd st = Nil /\ length A = length L) \/ (exists e, In e A /\ fc_sub e = snd st /\ tree_of e = snd st /\ full (snd st) /\ (2 <= length (leaves (snd st)))%nat)).
Lemma leaves_nonempty : forall t, full t -> (1 <= length (leaves t))%nat.
Proof. induction 1 as [b|l r b Hl IHl Hr IHr]; [reflexivity|]. rewrite leaves_node by exact Hl. rewrite app_length. lia. Qed.
Lemma sub_leaves_perm : forall A B, Permutation A B -> Permutation (sub_leaves A) (sub_leaves B).
Proof. intros A B H. unfold sub_leaves. rewrite <- !flat_map_concat_map. apply Permutation_flat_map. exact H. Qed.
Lemma step_ok : forall L T n st, (n < 255)%nat -> inv L T n st -> exists st', mk_step (Done st) n = Done st' /\ inv L T (S n) st'.
Proof.
  intros L T n [tbl h] Hn (Z & A & E & Len & HZ & HA & SA & Hz & K & P & Tot & H). cbn [fst snd] in *. unfold mk_step. cbn [obind].
  destruct (Nat.eq_dec n (length Z)) as [En|Nn].
  - assert (skipn n tbl = A) as ->. { rewrite E, En. rewrite skipn_app, skipn_all, Nat.sub_diag. reflexivity. } assert (firstn n tbl = Z) as ->. { rewrite E, En. rewrite firstn_app, firstn_all, Nat.sub_diag. cbn. apply app_nil_r. }
    assert (2 <= length A)%nat as LA. { rewrite E, app_length in Len. lia. } destruct A as [|a [|b r]]; [cbn in LA; lia|cbn in LA; lia|].
    pose proof (Forall_inv HA) as Ga. pose proof (Forall_inv (Forall_inv_tail HA)) as Gb. pose proof (Forall_inv_tail (Forall_inv_tail HA)) as Gr. destruct Ga as (Sa & Wa & Fa & Pa). destruct Gb as (Sb & Wb & Fb & Pb).
    assert ((0 <? fc_freq a) && (0 <? fc_freq b) = true)%bool as -> by (apply andb_true_intro; split; apply N.ltb_lt; assumption).
    destruct (join_ok a b Sa Sb) as (a' & b' & t & x & y & c & J & Et & XY & e & AB & Fe & Se). rewrite J. cbn [obind]. eexists. split; [reflexivity|].
    pose proof (shape_full a Sa) as Fua. pose proof (shape_full b Sb) as Fub.
    assert (full x /\ full y) as [Fux Fuy] by (destruct XY as [[-> ->]|[-> ->]]; split; assumption).
    assert (full t) as Fut by (rewrite Et; constructor; assumption).
    assert (tree_of e = t) as Te. { unfold tree_of. rewrite Se, Et. destruct y; [inversion Fuy|reflexivity]. }
    assert (Permutation (leaves t) (leaves (tree_of a) ++ leaves (tree_of b))) as PL. { rewrite Et, leaves_node by exact Fux. destruct XY as [[-> ->]|[-> ->]]; [reflexivity|apply Permutation_app_comm]. }
    assert (weight w t = fc_freq a + fc_freq b) as Wt. { rewrite Et, weight_node by exact Fux. rewrite Wa, Wb. destruct XY as [[-> ->]|[-> ->]]; [reflexivity|apply N.add_comm]. }
    inversion SA as [|? ? SA1 LEa]; subst a0 l. inversion SA1 as [|? ? SA2 LEb]; subst a0 l. pose proof (Forall_inv LEa) as LEab. unfold le_freq in LEab.
    assert (kids w (tree_of a) (fc_freq b)) as Kab by (apply K; [left; reflexivity|right; left; reflexivity]). assert (kids w (tree_of b) (fc_freq a)) as Kba by (apply K; [right; left; reflexivity|left; reflexivity]).
    assert (fair w t) as Ft. { rewrite Et. apply fair_node; [exact Fux|]. rewrite Wb in Kab. rewrite Wa in Kba. destruct XY as [[-> ->]|[-> ->]]; auto. }
    assert (good e) as Ge. { split; [|rewrite Te, Fe, Wt; split; [reflexivity|split; [exact Ft|lia]]]. right. exists x, y, c. rewrite Se, Et. auto. }
    set (T1 := Z ++ a' :: b' :: r). pose proof (sort_perm T1) as SP. pose proof (sort_sorted T1) as SS. destruct (sorted_split _ SS) as (Z' & EZ & HZ').
    assert (Permutation (filter used (sort_nodes T1)) (e :: r)) as PA.
    { etransitivity; [apply filter_perm; symmetry; exact SP|]. unfold T1. rewrite filter_app, (filter_zero Z HZ). cbn [app filter].
      assert (filter used r = r) as Fr. { clear - Gr. induction Gr as [|g r Hg _ IH]; [reflexivity|]. cbn [filter]. unfold used at 1. assert (0 <? fc_freq g = true) as -> by (apply N.ltb_lt; apply Hg). f_equal. exact IH. }
      assert (used e = true) as Ue by (apply N.ltb_lt; rewrite Fe; lia). destruct AB as [[-> Zb]|[-> Za]].
      - rewrite Ue. unfold used at 1. rewrite Zb. cbn. rewrite Fr. reflexivity.
      - rewrite Ue. unfold used at 1. rewrite Za. cbn. rewrite Fr. reflexivity. }
    set (A' := filter used (sort_nodes T1)) in *.
    assert (Permutation (e :: r) A') as PA' by (symmetry; exact PA). assert (forall g, In g A' -> g = e \/ In g r) as InA. { intros g Hg. apply (Permutation_in _ PA) in Hg. destruct Hg as [<-|Hg]; auto. }
    exists Z', A'. cbn [fst snd]. repeat split.
    + exact EZ.
    + rewrite <- (Permutation_length SP). unfold T1. rewrite app_length. cbn [length]. rewrite E, app_length in Len. cbn [length] in Len. exact Len.
    + exact HZ'.
    + apply Forall_forall. intros g Hg. destruct (InA g Hg) as [->|Hr]; [exact Ge|]. exact (proj1 (Forall_forall _ _) Gr g Hr).
    + apply sorted_filter. exact SS.
    + pose proof (f_equal (@length freq_ctx) EZ) as LZ. rewrite app_length, (Permutation_length PA), <- (Permutation_length SP) in LZ. unfold T1 in LZ. rewrite app_length in LZ. cbn [length] in LZ. lia.
    + intros g g' Hg Hg'. assert (fc_freq b <= fc_freq g') as B. { destruct (InA g' Hg') as [->|Hr]; [rewrite Fe; lia|]. exact (proj1 (Forall_forall _ _) LEb g' Hr). }
      destruct (InA g Hg) as [->|Hr].
      * rewrite Te, Et. apply kids_node; [exact Fux|]. destruct XY as [[-> ->]|[-> ->]]; rewrite <- Wa, <- Wb; lia.
      * assert (kids w (tree_of g) (fc_freq b)) as Kg by (apply K; [right; right; exact Hr|right; left; reflexivity]). clear - Kg B. unfold kids in *. destruct (tree_of g) as [|[|? ? ?] ? ?]; try exact I. destruct Kg; split; lia.
    + etransitivity; [apply sub_leaves_perm; exact PA|]. etransitivity; [|exact P]. unfold sub_leaves. cbn [map concat]. rewrite Te, app_assoc. apply Permutation_app_tail. exact PL.
    + rewrite <- (total_perm _ _ SP). unfold T1. rewrite <- Tot, E, !total_app. cbn [total fold_right]. fold (total r). destruct AB as [[-> Zb]|[-> Za]]; rewrite ?Zb, ?Za, Fe; lia.
    + right. exists e. split; [apply (Permutation_in _ PA'); left; reflexivity|]. split; [exact Se|]. split; [exact Te|]. split; [exact Fut|]. rewrite (Permutation_length PL), app_length. pose proof (leaves_nonempty _ Fua). pose proof (leaves_nonempty _ Fub). lia.
  - destruct (skipn n tbl) as [|a [|b r]] eqn:Sk.
    + pose proof (f_equal (@length freq_ctx) Sk) as X. rewrite skipn_length, Len in X. cbn [length] in X. lia.
    + pose proof (f_equal (@length freq_ctx) Sk) as X. rewrite skipn_length, Len in X. cbn [length] in X. lia.
    + assert (fc_freq a = 0) as Za. { assert (In a Z) as I. { pose proof (f_equal (fun l => nth 0 l a) Sk) as X. cbn [nth] in X. rewrite E in X. rewrite skipn_app in X. destruct (skipn n Z) as [|z zs] eqn:SZ; [pose proof (f_equal (@length freq_ctx) SZ) as Y; rewrite skipn_length in Y; cbn [length] in Y; lia|]. cbn in X. subst z. rewrite <- (firstn_skipn n Z), SZ. apply in_or_app. right. left. reflexivity. } exact (proj1 (Forall_forall _ _) HZ a I). }
      rewrite Za. cbn [N.ltb N.compare andb]. eexists. split; [reflexivity|]. exists Z, A. cbn [fst snd]. repeat (split; [assumption|]). split; [lia|]. repeat (split; [assumption|]). exact H.
Qed.
Lemma loop_ok : forall L T k n st, (n + k <= 255)%nat -> inv L T n st -> exists st', fold_left mk_step (seq n k) (Done st) = Done st' /\ inv L T (n + k) st'.
Proof.
  intros L T k. induction k as [|k IH]; intros n st H I; [exists st; rewrite Nat.add_0_r; split; [reflexivity|exact I]|]. cbn [seq fold_left]. destruct (step_ok L T n st ltac:(lia) I) as (st' & -> & I'). destruct (IH (S n) st' ltac:(lia) I') as (st2 & E2 & I2). exists st2. split; [exact E2|]. replace (n + S k)%nat with (S n + k)%nat by lia. exact I2.
Qed.
Lemma final : forall L T st, inv L T 255 st ->
  ((length L <= 1)%nat /\ snd st = Nil) \/ ((2 <= length L)%nat /\ full (snd st) /\ fair w (snd st) /\ Permutation (leaves (snd st)) L /\ weight w (snd st) = T).
Proof.
  intros L T [tbl h] (Z & A & E & Len & HZ & HA & SA & Hz & K & P & Tot & H). cbn [fst snd] in *. assert (length A <= 1)%nat as LA by (rewrite E, app_length in Len; lia).
  destruct H as [[-> HL]|(e & I & Se & Te & Fu & L2)]; [left; split; [lia|reflexivity]|]. right. destruct A as [|e' [|]]; [destruct I| |cbn in LA; lia]. destruct I as [->|[]]. pose proof (Forall_inv HA) as (_ & We & Fe & _). unfold sub_leaves in P. cbn [map concat] in P. rewrite app_nil_r, Te in P. rewrite Te in We, Fe. split; [rewrite <- (Permutation_length P); exact L2|]. split; [exact Fu|]. split; [exact Fe|]. split; [exact P|]. rewrite <- We, <- Tot, E, total_app, (total_zero Z HZ). cbn. lia.
Qed.
End Build.
