(* Huffman coding: sorting, tree building and depth. *)
From Verif Require Import Words CipherBase StreamModel HuffModel.
From Coq Require Import List Arith Lia PeanoNat Bool Permutation Sorted.
Open Scope N_scope.

(* ---- sorting *)
Definition le_freq (a b : freq_ctx) : Prop := fc_freq a <= fc_freq b.
Definition below (x : freq_ctx) (l : list freq_ctx) : nat := length (filter (fun y => fc_freq y <? fc_freq x) l).
Fixpoint inversions (l : list freq_ctx) : nat := match l with [] => O | x :: r => (below x r + inversions r)%nat end.
Lemma swap_eq : forall a b r, swap_first (a :: b :: r) = if fc_freq b <? fc_freq a then Some (b :: a :: r) else option_map (cons a) (swap_first (b :: r)).
Proof. reflexivity. Qed.
Lemma swap_perm : forall l l', swap_first l = Some l' -> Permutation l l'.
Proof.
  induction l as [|a l IH]; intros l' H; [discriminate|]. destruct l as [|b r]; [discriminate|]. rewrite swap_eq in H. destruct (fc_freq b <? fc_freq a).
  - injection H as <-. apply perm_swap.
  - destruct (swap_first (b :: r)) as [l2|]; [|discriminate]. injection H as <-. apply perm_skip. apply IH. reflexivity.
Qed.
Lemma below_perm : forall x l l', Permutation l l' -> below x l = below x l'.
Proof. intros x l l' H. unfold below. induction H; cbn [filter]; try destruct (fc_freq x0 <? fc_freq x); try destruct (fc_freq y <? fc_freq x); cbn [length]; congruence. Qed.
Lemma swap_inversions : forall l l', swap_first l = Some l' -> inversions l = S (inversions l').
Proof.
  induction l as [|a l IH]; intros l' H; [discriminate|]. destruct l as [|b r]; [discriminate|]. rewrite swap_eq in H. destruct (fc_freq b <? fc_freq a) eqn:C.
  - injection H as <-. cbn [inversions]. unfold below. cbn [filter]. rewrite C. assert (fc_freq a <? fc_freq b = false) as -> by (apply N.ltb_lt in C; apply N.ltb_ge; lia). cbn [length]. lia.
  - destruct (swap_first (b :: r)) as [l2|] eqn:E; [|discriminate]. injection H as <-. change (below a (b :: r) + inversions (b :: r) = S (below a l2 + inversions l2))%nat. rewrite (IH l2 eq_refl), (below_perm a _ _ (swap_perm _ _ E)). lia.
Qed.
Lemma swap_none : forall l, swap_first l = None -> StronglySorted le_freq l.
Proof.
  intros l H. apply Sorted_StronglySorted; [intros x y z; unfold le_freq; lia|]. induction l as [|a l IH]; [constructor|]. destruct l as [|b r]; [repeat constructor|]. rewrite swap_eq in H. destruct (fc_freq b <? fc_freq a) eqn:C; [discriminate|]. destruct (swap_first (b :: r)) as [l2|] eqn:E; [discriminate|]. constructor; [apply IH; reflexivity|]. constructor. apply N.ltb_ge in C. exact C.
Qed.
Lemma inversions_bound : forall l, (inversions l <= length l * length l)%nat.
Proof. induction l as [|a l IH]; [reflexivity|]. cbn [inversions length]. assert (below a l <= length l)%nat. { unfold below. clear. induction l as [|b l IH]; [reflexivity|]. cbn [filter length]. destruct (fc_freq b <? fc_freq a); cbn [length]; lia. } nia. Qed.
Lemma loop_perm : forall f l, Permutation l (sort_loop f l).
Proof. induction f as [|f IH]; intro l; [reflexivity|]. cbn [sort_loop]. destruct (swap_first l) as [l'|] eqn:E; [|reflexivity]. rewrite (swap_perm _ _ E). apply IH. Qed.
Lemma loop_sorted : forall f l, (inversions l <= f)%nat -> StronglySorted le_freq (sort_loop f l).
Proof.
  induction f as [|f IH]; intros l H; cbn [sort_loop].
  - apply swap_none. destruct (swap_first l) as [l'|] eqn:E; [|reflexivity]. apply swap_inversions in E. lia.
  - destruct (swap_first l) as [l'|] eqn:E; [|apply swap_none; exact E]. apply IH. apply swap_inversions in E. lia.
Qed.
Lemma sort_perm : forall l, Permutation l (sort_nodes l).
Proof. intro l. apply loop_perm. Qed.
Lemma sort_sorted : forall l, StronglySorted le_freq (sort_nodes l).
Proof. intro l. apply loop_sorted, inversions_bound. Qed.

(* ---- a sorted table: the empty entries, then the used ones *)
Definition used (e : freq_ctx) : bool := 0 <? fc_freq e.
Lemma sorted_split : forall l, StronglySorted le_freq l -> exists Z, l = Z ++ filter used l /\ Forall (fun e => fc_freq e = 0) Z.
Proof.
  induction l as [|a l IH]; intro H; [exists []; split; constructor|]. inversion H as [|? ? H1 H2]; subst. cbn [filter]. unfold used at 1. destruct (N.ltb_spec 0 (fc_freq a)) as [C|C].
  - exists []. split; [|constructor]. cbn [app]. f_equal. clear - C H2. induction H2 as [|b l Hb _ IH]; [reflexivity|]. cbn [filter]. unfold used at 1. unfold le_freq in Hb. assert (0 <? fc_freq b = true) as -> by (apply N.ltb_lt; lia). f_equal. exact IH.
  - destruct (IH H1) as (Z & E & F). exists (a :: Z). split; [cbn [app]; f_equal; exact E|]. constructor; [lia|exact F].
Qed.
Lemma filter_perm : forall (f : freq_ctx -> bool) l l', Permutation l l' -> Permutation (filter f l) (filter f l').
Proof. intros f l l' H. induction H; cbn [filter]; try destruct (f x); try destruct (f y); try constructor; try assumption; try reflexivity. etransitivity; eassumption. Qed.
Lemma filter_zero : forall Z, Forall (fun e => fc_freq e = 0) Z -> filter used Z = [].
Proof. intros Z H. induction H as [|e Z He _ IH]; [reflexivity|]. cbn [filter]. unfold used at 1. rewrite He. exact IH. Qed.
Lemma sorted_filter : forall f l, StronglySorted le_freq l -> StronglySorted le_freq (filter f l).
Proof.
  intros f l H. induction H as [|a l H IH F]; [constructor|]. cbn [filter]. destruct (f a); [|exact IH]. constructor; [exact IH|]. apply Forall_forall. intros x Hx. apply filter_In in Hx. exact (proj1 (Forall_forall _ _) F x (proj1 Hx)).
Qed.

(* ---- trees *)
Inductive full : htree -> Prop :=
| full_leaf : forall b, full (Tree Nil Nil b)
| full_node : forall l r b, full l -> full r -> full (Tree l r b).
Fixpoint leaves (t : htree) : list N :=
  match t with
  | Nil => []
  | Tree Nil Nil b => [b]
  | Tree l r _ => leaves l ++ leaves r
  end.
Fixpoint height (t : htree) : nat := match t with Nil => O | Tree Nil Nil _ => O | Tree l r _ => S (Nat.max (height l) (height r)) end.
Lemma full_not_nil : forall t, full t -> t <> Nil.
Proof. intros t H E. subst t. inversion H. Qed.
Lemma leaves_node : forall l r b, full l -> leaves (Tree l r b) = leaves l ++ leaves r.
Proof. intros l r b H. destruct l; [inversion H|reflexivity]. Qed.
Lemma height_node : forall l r b, full l -> height (Tree l r b) = S (Nat.max (height l) (height r)).
Proof. intros l r b H. destruct l; [inversion H|reflexivity]. Qed.

Section Weight.
Variable w : N -> N.
Definition weight (t : htree) : N := fold_right (fun b a => w b + a) 0 (leaves t).
Lemma fold_app : forall a b, fold_right (fun b a => w b + a) 0 (a ++ b) = fold_right (fun b a => w b + a) 0 a + fold_right (fun b a => w b + a) 0 b.
Proof. induction a as [|x a IH]; intro b; [reflexivity|]. cbn [app fold_right]. rewrite IH. lia. Qed.
Lemma weight_node : forall l r b, full l -> weight (Tree l r b) = weight l + weight r.
Proof. intros l r b H. unfold weight. rewrite leaves_node by exact H. apply fold_app. Qed.
(* weights of the children of a tree are at most x *)
Definition kids (t : htree) (x : N) : Prop := match t with Tree (Tree _ _ _ as l) r _ => weight l <= x /\ weight r <= x | _ => True end.
(* every node was made from two trees none of which weighs less than a child of the other; all leaves have a positive weight *)
Fixpoint fair (t : htree) : Prop :=
  match t with
  | Nil => True
  | Tree Nil Nil b => 0 < w b
  | Tree l r _ => fair l /\ fair r /\ kids l (weight r) /\ kids r (weight l)
  end.
Fixpoint fib (n : nat) : N := match n with O => 0 | S m => match m with O => 1 | S k => fib m + fib k end end.
Lemma fib_SS : forall n, fib (S (S n)) = fib (S n) + fib n.
Proof. reflexivity. Qed.
Lemma fair_node : forall l r b, full l -> fair (Tree l r b) <-> (fair l /\ fair r /\ kids l (weight r) /\ kids r (weight l)).
Proof. intros l r b H. destruct l; [inversion H|reflexivity]. Qed.
Lemma kids_node : forall l r b x, full l -> kids (Tree l r b) x <-> (weight l <= x /\ weight r <= x).
Proof. intros l r b x H. destruct l; [inversion H|reflexivity]. Qed.
Lemma fair_height : forall t, full t -> fair t -> fib (S (height t)) <= weight t /\ (forall x, kids t x -> fib (height t) <= x \/ height t = O).
Proof.
  induction 1 as [b|l r b Hl IHl Hr IHr]; intro F.
  - cbn in *. split; [lia|]. right. reflexivity.
  - apply (fair_node l r b Hl) in F. destruct F as (Fl & Fr & Kl & Kr). destruct (IHl Fl) as [Wl Xl]. destruct (IHr Fr) as [Wr Xr]. specialize (Xl _ Kl). specialize (Xr _ Kr). rewrite height_node by exact Hl. rewrite weight_node by exact Hl. split.
    + rewrite fib_SS. destruct (Nat.max_spec (height l) (height r)) as [[C ->]|[C ->]].
      * destruct Xr as [Xr|Xr]; [lia|]. rewrite Xr in *. cbn in *. lia.
      * destruct Xl as [Xl|Xl]; [lia|]. rewrite Xl in *. cbn in *. lia.
    + intros x K. apply (kids_node l r b x Hl) in K. left. destruct (Nat.max_spec (height l) (height r)) as [[C ->]|[C ->]]; lia.
Qed.
Lemma fib_mono : forall n m, (n <= m)%nat -> fib n <= fib m.
Proof.
  assert (forall n, fib n <= fib (S n)) as A. { intros [|n]; [cbn; lia|]. rewrite fib_SS. lia. }
  intros n m H. induction H; [lia|]. specialize (A m). lia.
Qed.
End Weight.
