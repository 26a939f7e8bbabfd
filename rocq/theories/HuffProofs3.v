(* Huffman coding: the table of frequencies and the codes. *)
From Verif Require Import Words EncSpec CipherBase CipherLib StreamModel HuffModel HuffProofs HuffProofs2.
From Coq Require Import List Arith Lia PeanoNat Bool Permutation Sorted.
Open Scope N_scope.

Definition occ (data : list N) (b : N) : N := N.of_nat (count_occ N.eq_dec data b).
Definition cell (data : list N) (i : nat) : freq_ctx := mkFreq (occ data (N.of_nat i)) (if 0 <? occ data (N.of_nat i) then N.of_nat i else 0) Nil.
Lemma count_map : forall (f : nat -> freq_ctx) k s i b, count_byte (map f (seq s k)) i b = map (fun j => if Nat.eqb j (s + i) then mkFreq (fc_freq (f j) + 1) (if fc_byte (f j) =? 0 then b else fc_byte (f j)) (fc_sub (f j)) else f j) (seq s k).
Proof.
  intros f k. induction k as [|k IH]; intros s i b; [destruct i; reflexivity|]. cbn [seq map]. destruct i as [|i]; cbn [count_byte].
  - rewrite Nat.add_0_r, Nat.eqb_refl. f_equal. apply map_ext_in. intros j Hj. apply in_seq in Hj. assert (Nat.eqb j s = false) as -> by (apply Nat.eqb_neq; lia). reflexivity.
  - assert (Nat.eqb s (s + S i) = false) as -> by (apply Nat.eqb_neq; lia). f_equal. rewrite IH. apply map_ext. intro j. replace (S s + i)%nat with (s + S i)%nat by lia. reflexivity.
Qed.
Lemma occ_snoc : forall d b c, occ (d ++ [b]) c = occ d c + (if N.eqb b c then 1 else 0).
Proof. intros d b c. unfold occ. rewrite count_occ_app. cbn [count_occ]. destruct (N.eq_dec b c) as [->|H]; [rewrite N.eqb_refl|rewrite (proj2 (N.eqb_neq b c) H)]; lia. Qed.
Lemma raw_table_ok : forall data, bytes data -> raw_table data = map (cell data) (seq 0 256).
Proof.
  intro data. induction data as [|b d IH] using rev_ind; intro H; [reflexivity|]. apply Forall_app in H. destruct H as [Hd Hb]. unfold raw_table in *. rewrite fold_left_app. cbn [fold_left]. rewrite IH by exact Hd. rewrite count_map. apply map_ext_in. intros j Hj. apply in_seq in Hj. cbn [Nat.add].
  unfold cell. rewrite !occ_snoc. destruct (Nat.eqb_spec j (N.to_nat b)) as [->|Hn].
  - rewrite N2Nat.id, N.eqb_refl. cbn [fc_freq fc_byte fc_sub]. f_equal. assert (0 <? occ d b + 1 = true) as -> by (apply N.ltb_lt; lia). destruct (0 <? occ d b); cbn [N.eqb]; [|reflexivity]. destruct (N.eqb_spec b 0) as [->|]; reflexivity.
  - assert (N.eqb b (N.of_nat j) = false) as -> by (apply N.eqb_neq; lia). rewrite N.add_0_r. reflexivity.
Qed.
Lemma raw_total : forall data, bytes data -> total (raw_table data) = N.of_nat (length data).
Proof.
  intros data. unfold raw_table. assert (forall tbl, length tbl = 256%nat -> bytes data -> total (fold_left (fun tbl b => count_byte tbl (N.to_nat b) b) data tbl) = total tbl + N.of_nat (length data)) as G.
  { assert (forall tbl i b, (i < length tbl)%nat -> total (count_byte tbl i b) = total tbl + 1 /\ length (count_byte tbl i b) = length tbl) as C. { induction tbl as [|e tbl IH]; intros i b H; [cbn in H; lia|]. destruct i as [|i]; cbn [count_byte]; [split; [cbn; lia|reflexivity]|]. cbn [length] in H. destruct (IH i b ltac:(lia)) as [A B]. split; [|cbn [length]; congruence]. cbn [total fold_right]. fold (total (count_byte tbl i b)). fold (total tbl). lia. }
    induction data as [|b d IH]; intros tbl L H; [symmetry; apply N.add_0_r|]. inversion H; subst. cbn [fold_left length]. destruct (C tbl (N.to_nat b) b) as [A B]; [unfold byte in *; lia|]. rewrite IH; [rewrite A; lia|congruence|assumption]. }
  intro H. rewrite G; [|reflexivity|exact H]. generalize 256%nat. intro k. assert (total (repeat (mkFreq 0 0 Nil) k) = 0) as ->; [|lia]. induction k as [|k IH]; [reflexivity|]. cbn. exact IH.
Qed.
Definition present (data : list N) : list N := filter (fun b => 0 <? occ data b) (map N.of_nat (seq 0 256)).
Lemma filter_map : forall (A B : Type) (f : A -> B) (p : B -> bool) l, filter p (map f l) = map f (filter (fun x => p (f x)) l).
Proof. intros A B f p l. induction l as [|x l IH]; [reflexivity|]. cbn [map filter]. destruct (p (f x)); cbn [map]; congruence. Qed.
Lemma plant_freq : forall e, fc_freq (plant e) = fc_freq e.
Proof. intro e. unfold plant. destruct (0 <? fc_freq e); reflexivity. Qed.
Definition sprout (w : N -> N) (b : N) : freq_ctx := mkFreq (w b) b (Tree (Tree Nil Nil b) Nil 0).
Lemma planted : forall data all, filter used (map plant (map (cell data) all)) = map (sprout (occ data)) (filter (fun b => 0 <? occ data b) (map N.of_nat all)).
Proof.
  intros data all. induction all as [|i all IH]; [reflexivity|]. cbn [map filter]. unfold used at 1. rewrite plant_freq. cbn [cell fc_freq]. destruct (0 <? occ data (N.of_nat i)) eqn:E; [|exact IH]. cbn [map]. rewrite IH. f_equal. unfold plant, cell. cbn [fc_freq fc_byte]. rewrite E. reflexivity.
Qed.
Lemma sprout_leaves : forall w l, sub_leaves (map (sprout w) l) = l.
Proof. intros w l. induction l as [|x l IH]; [reflexivity|]. change (x :: sub_leaves (map (sprout w) l) = x :: l). f_equal. exact IH. Qed.
Lemma present_eq : forall data, present data = filter (fun b => 0 <? occ data b) (map N.of_nat (seq 0 256)).
Proof. reflexivity. Qed.
Lemma present_occ : forall data b, In b (present data) -> 0 < occ data b.
Proof. intros data b H. rewrite present_eq in H. revert H. generalize (map N.of_nat (seq 0 256)). intros l H. apply filter_In in H. apply N.ltb_lt. apply H. Qed.
Lemma start_inv : forall data S0, bytes data -> Permutation (raw_table data) S0 -> StronglySorted le_freq S0 -> inv (occ data) (present data) (N.of_nat (length data)) 0 (map plant S0, Nil).
Proof.
  intros data S0 Hb SP SS. set (w := occ data). pose proof plant_freq as PF. assert (forall b, In b (present data) -> 0 < w b) as HL by apply present_occ.
  assert (StronglySorted le_freq (map plant S0)) as SM. { clear - SS PF. induction SS as [|a l H IH F]; [constructor|]. cbn [map]. constructor; [exact IH|]. apply Forall_forall. intros x Hx. apply in_map_iff in Hx. destruct Hx as (y & <- & Hy). unfold le_freq. rewrite !PF. exact (proj1 (Forall_forall _ _) F y Hy). }
  destruct (sorted_split _ SM) as (Z & EZ & HZ). exists Z, (filter used (map plant S0)). cbn [fst snd].
    assert (Permutation (filter used (map plant S0)) (map (sprout w) (present data))) as PA.
    { etransitivity; [apply filter_perm, Permutation_map; symmetry; exact SP|]. rewrite (raw_table_ok data Hb). rewrite present_eq. rewrite planted. apply Permutation_refl. }
    generalize dependent (present data). intros L HL PA.
    set (A := filter used (map plant S0)) in *.
    assert (forall e, In e A -> exists b, e = sprout w b /\ 0 < w b) as InA. { intros e He. apply (Permutation_in _ PA) in He. apply in_map_iff in He. destruct He as (b & <- & Hin). exists b. split; [reflexivity|]. apply HL. exact Hin. }
    repeat split.
    - exact EZ.
    - rewrite map_length, <- (Permutation_length SP), raw_table_ok by exact Hb. rewrite map_length, seq_length. reflexivity.
    - exact HZ.
    - apply Forall_forall. intros e He. destruct (InA e He) as (b & -> & Hw). split; [left; exists b, 0; reflexivity|]. cbn [fc_freq tree_of fc_sub]. split; [cbn; lia|]. split; [exact Hw|exact Hw].
    - apply sorted_filter. exact SM.
    - lia.
    - intros e e' He _. destruct (InA e He) as (b & -> & _). exact I.
    - etransitivity; [apply sub_leaves_perm; exact PA|]. rewrite sprout_leaves. reflexivity.
    - rewrite <- (raw_total data Hb), (total_perm _ _ SP). clear - PF. induction S0 as [|e l IH]; [reflexivity|]. cbn [map total fold_right]. rewrite PF. f_equal. exact IH.
    - left. split; [reflexivity|]. rewrite (Permutation_length PA), map_length. reflexivity.
Qed.
Lemma mk_tree_ok : forall w L T tbl, inv w L T 0 (map plant tbl, Nil) -> exists t, mk_tree tbl = Done t /\
  (((length L <= 1)%nat /\ t = Nil) \/ ((2 <= length L)%nat /\ full t /\ fair w t /\ Permutation (leaves t) L /\ weight w t = T)).
Proof.
  intros w L T tbl I. unfold mk_tree. set (k := 255%nat). assert (k <= 255)%nat as Hk by apply le_n. assert (k = 255)%nat as Ek by reflexivity. clearbody k. destruct (loop_ok w L T k 0 _ Hk I) as ([tbl' t] & E & I2). rewrite E. exists t. split; [reflexivity|]. cbn [Nat.add] in I2. rewrite Ek in I2. destruct (final w _ _ _ I2) as [[F1 F2]|F]; [left; auto|right; exact F].
Qed.
Lemma tree_built : forall data, bytes data -> exists t, mk_tree (sort_nodes (raw_table data)) = Done t /\
  (((length (present data) <= 1)%nat /\ t = Nil) \/
   ((2 <= length (present data))%nat /\ full t /\ fair (occ data) t /\ Permutation (leaves t) (present data) /\ weight (occ data) t = N.of_nat (length data))).
Proof. intros data Hb. apply mk_tree_ok. apply start_inv; [exact Hb|apply sort_perm|apply sort_sorted]. Qed.
Lemma fib_pair : forall n, fst (Nat.iter n (fun p => (fst p + snd p, fst p)) (1, 0)) = fib (S n).
Proof.
  assert (forall n, Nat.iter n (fun p => (fst p + snd p, fst p)) (1, 0) = (fib (S n), fib n)) as G. { induction n as [|n IH]; [reflexivity|]. cbn [Nat.iter nat_rect]. unfold Nat.iter in IH. rewrite IH. cbn [fst snd]. rewrite fib_SS. reflexivity. }
  intro n. rewrite G. reflexivity.
Qed.
Lemma tree_height : forall data t, full t -> fair (occ data) t -> weight (occ data) t = N.of_nat (length data) -> N.of_nat (length data) < 2 ^ 64 -> (height t <= 92)%nat.
Proof.
  intros data t Fu Fa W H. destruct (fair_height _ t Fu Fa) as [F _]. rewrite W in F. destruct (le_lt_dec (height t) 92) as [|C]; [assumption|]. exfalso. assert (fib (S 93) <= fib (S (height t))) as M by (apply fib_mono; lia). assert (2 ^ 64 <= fib (S 93)) as Q by (rewrite <- fib_pair; vm_compute; discriminate). clear - F M Q H. lia.
Qed.
