(* Huffman coding: codes, the dumped tree and the bits. *)
From Verif Require Import Words EncSpec CipherBase CipherLib StreamModel HuffModel HuffProofs HuffProofs2.
From Coq Require Import List Arith Lia PeanoNat Bool Permutation.
Open Scope N_scope.

(* ---- the way from the root to a leaf *)
Fixpoint route (t : htree) (p : list bool) (b : N) {struct p} : Prop :=
  match p with
  | [] => t = Tree Nil Nil b
  | c :: p => match t with Nil => False | Tree l r _ => route (if c then r else l) p b end
  end.
Definition chars (p : list bool) : list N := map (fun c : bool => if c then 49 else 48) p.
Lemma chars_app : forall a b, chars (a ++ b) = chars a ++ chars b.
Proof. intros. apply map_app. Qed.
Lemma chars_length : forall a, length (chars a) = length a.
Proof. intros. apply map_length. Qed.
Lemma route_leaf : forall p t b, route t p b -> In b (leaves t).
Proof.
  induction p as [|c p IH]; intros t b H; [cbn [route] in H; subst t; left; reflexivity|]. cbn [route] in H. destruct t as [|l r x]; [destruct H|]. destruct c.
  - apply IH in H. destruct l as [|a1 a2 a3]; [destruct r as [|b1 b2 b3]; [destruct H|exact H]|]. cbn [leaves]. apply in_or_app. right. exact H.
  - apply IH in H. destruct l as [|a1 a2 a3]; [destruct H|]. change (In b (leaves (Tree a1 a2 a3) ++ leaves r)). apply in_or_app. left. exact H.
Qed.
Lemma route_length : forall p t b, full t -> route t p b -> (length p <= height t)%nat.
Proof.
  induction p as [|c p IH]; intros t b F H; [apply Nat.le_0_l|]. cbn [route] in H. destruct F as [y|l r x Fl Fr].
  - destruct c; destruct p; cbn [route] in H; discriminate || destruct H.
  - rewrite height_node by exact Fl. cbn [length]. destruct c; apply IH in H; try assumption; lia.
Qed.
Lemma set_code_length : forall codes i c, length (set_code codes i c) = length codes.
Proof. induction codes as [|x r IH]; intros [|i] c; cbn [set_code length]; auto. Qed.
Lemma set_code_nth : forall codes i j c, (i < length codes)%nat -> nth j (set_code codes i c) [] = if Nat.eqb j i then c else nth j codes [].
Proof. induction codes as [|x r IH]; intros [|i] [|j] c H; cbn [length] in H; try lia; cbn [set_code nth Nat.eqb]; try reflexivity. apply IH. lia. Qed.
Lemma scan_ok : forall t codes path, full t -> NoDup (leaves t) -> Forall (fun b => b < 256) (leaves t) -> length codes = 256%nat -> (length path + height t <= 255)%nat ->
  exists codes', scan_codes codes path t = Done codes' /\ length codes' = 256%nat /\
  (forall b, In b (leaves t) -> exists p, code_of codes' b = path ++ chars p /\ route t p b) /\ (forall b, ~ In b (leaves t) -> b < 256 -> code_of codes' b = code_of codes b).
Proof.
  intros t codes path F. revert codes path. induction F as [b|l r x Fl IHl Fr IHr]; intros codes path ND LT LC LH.
  - cbn [scan_codes]. cbn [height] in LH. assert ((255 <? length path)%nat = false) as -> by (apply Nat.ltb_ge; lia). eexists. split; [reflexivity|]. split; [rewrite set_code_length; exact LC|]. pose proof (Forall_inv LT) as Hb. cbv beta in Hb. split.
    + intros b' [<-|[]]. exists []. split; [|reflexivity]. unfold code_of. rewrite set_code_nth by lia. rewrite Nat.eqb_refl. symmetry. apply app_nil_r.
    + intros b' N B. unfold code_of. rewrite set_code_nth by lia. assert (Nat.eqb (N.to_nat b') (N.to_nat b) = false) as ->; [|reflexivity]. apply Nat.eqb_neq. intro E. apply N. left. lia.
  - rewrite height_node in LH by exact Fl. rewrite leaves_node in ND, LT by exact Fl. apply Forall_app in LT. destruct LT as [LTl LTr].
    assert (NoDup (leaves l) /\ NoDup (leaves r) /\ (forall b, In b (leaves l) -> ~ In b (leaves r))) as (NDl & NDr & Dis). { clear - ND. induction (leaves l) as [|a k IH]; [repeat split; [constructor|exact ND|intros b []]|]. cbn [app] in ND. inversion ND as [|? ? Ni ND']; subst. destruct (IH ND') as (A & B & C). split; [constructor; [intro H; apply Ni, in_or_app; left; exact H|exact A]|]. split; [exact B|]. intros b [<-|H]; [intro H; apply Ni, in_or_app; right; exact H|apply C; exact H]. }
    destruct (IHl codes (path ++ [48]) NDl LTl LC) as (c1 & E1 & L1 & A1 & B1); [rewrite app_length; cbn [length]; lia|].
    destruct (IHr c1 (path ++ [49]) NDr LTr L1) as (c2 & E2 & L2 & A2 & B2); [rewrite app_length; cbn [length]; lia|].
    exists c2. split; [|split; [exact L2|split]].
    + destruct l as [|l1 l2 lb]; [inversion Fl|]. destruct r as [|r1 r2 rb]; [inversion Fr|]. change (scan_codes codes path (Tree (Tree l1 l2 lb) (Tree r1 r2 rb) x)) with (if (255 <? length path)%nat then Done codes else if (255 <=? length path)%nat then UB else obind (scan_codes codes (path ++ [48]) (Tree l1 l2 lb)) (fun codes => scan_codes codes (path ++ [49]) (Tree r1 r2 rb))).
      assert ((255 <? length path)%nat = false) as -> by (apply Nat.ltb_ge; lia). assert ((255 <=? length path)%nat = false) as -> by (apply Nat.leb_gt; lia). rewrite E1. exact E2.
    + intros b Hb. rewrite leaves_node in Hb by exact Fl. apply in_app_or in Hb. destruct Hb as [Hb|Hb].
      * destruct (A1 b Hb) as (p & Ep & Rp). exists (false :: p). split; [|exact Rp]. rewrite B2; [|apply Dis; exact Hb|exact (proj1 (Forall_forall _ _) LTl b Hb)]. rewrite Ep, <- app_assoc. reflexivity.
      * destruct (A2 b Hb) as (p & Ep & Rp). exists (true :: p). split; [|exact Rp]. rewrite Ep, <- app_assoc. reflexivity.
    + intros b Hn Hb. rewrite leaves_node in Hn by exact Fl. rewrite B2, B1; [reflexivity| |exact Hb| |exact Hb]; intro H; apply Hn, in_or_app; auto.
Qed.

(* ---- the tree read back *)
Fixpoint insert (t : htree) (p : list bool) (b : N) : htree :=
  match p with
  | [] => Tree (left_of t) (right_of t) b
  | false :: p => Tree (insert (left_of t) p b) (right_of t) (byte_of t)
  | true :: p => Tree (left_of t) (insert (right_of t) p b) (byte_of t)
  end.
Lemma add_node_ok : forall p t b rest, b <> 48 -> b <> 49 -> (b = 0 -> exists y k, rest = y :: k /\ y <> 0) -> add_node t (chars p ++ b :: rest) = Done (insert t p b, rest).
Proof.
  induction p as [|c p IH]; intros t b rest H48 H49 H0.
  - cbn [chars map app add_node insert]. assert (two_zeros (b :: rest) = Done false) as ->. { cbn [two_zeros]. destruct (N.eqb_spec b 0) as [E|]; [|reflexivity]. destruct (H0 E) as (y & k & -> & Hy). assert (y =? 0 = false) as -> by (apply N.eqb_neq; exact Hy). reflexivity. }
    cbn [obind]. assert (b =? 48 = false) as -> by (apply N.eqb_neq; exact H48). assert (b =? 49 = false) as -> by (apply N.eqb_neq; exact H49). reflexivity.
  - destruct c; cbn [chars map app add_node insert]; fold (chars p).
    + change (two_zeros (49 :: chars p ++ b :: rest)) with (Done false). change (49 =? 48) with false. change (49 =? 49) with true. cbn [obind]. cbv iota. rewrite IH by assumption. reflexivity.
    + change (two_zeros (48 :: chars p ++ b :: rest)) with (Done false). change (48 =? 48) with true. cbn [obind]. cbv iota. rewrite IH by assumption. reflexivity.
Qed.
(* the part of a tree with the leaves in S *)
Fixpoint prune (S : N -> bool) (t : htree) : htree :=
  match t with
  | Nil => Nil
  | Tree Nil Nil b => if S b then Tree Nil Nil b else Nil
  | Tree l r _ => match prune S l, prune S r with Nil, Nil => Nil | l', r' => Tree l' r' 0 end
  end.
Lemma prune_node : forall S l r x, full l -> prune S (Tree l r x) = match prune S l, prune S r with Nil, Nil => Nil | l', r' => Tree l' r' 0 end.
Proof. intros S l r x F. destruct l; [inversion F|reflexivity]. Qed.
Lemma prune_left : forall S l r x, full l -> left_of (prune S (Tree l r x)) = prune S l.
Proof. intros S l r x F. rewrite prune_node by exact F. destruct (prune S l), (prune S r); reflexivity. Qed.
Lemma prune_right : forall S l r x, full l -> right_of (prune S (Tree l r x)) = prune S r.
Proof. intros S l r x F. rewrite prune_node by exact F. destruct (prune S l), (prune S r); reflexivity. Qed.
Lemma prune_byte : forall S l r x, full l -> byte_of (prune S (Tree l r x)) = 0.
Proof. intros S l r x F. rewrite prune_node by exact F. destruct (prune S l), (prune S r); reflexivity. Qed.
Lemma prune_ext : forall S S' t, full t -> (forall b, In b (leaves t) -> S b = S' b) -> prune S t = prune S' t.
Proof.
  intros S S' t F. induction F as [b|l r x Fl IHl Fr IHr]; intro H.
  - cbn [prune]. rewrite (H b) by (left; reflexivity). reflexivity.
  - rewrite leaves_node in H by exact Fl. rewrite !prune_node by exact Fl. rewrite IHl, IHr; [reflexivity| |]; intros b Hb; apply H, in_or_app; auto.
Qed.
Lemma prune_some : forall S t b, full t -> In b (leaves t) -> S b = true -> prune S t <> Nil.
Proof.
  intros S t b F. induction F as [c|l r x Fl IHl Fr IHr]; intros H HS.
  - destruct H as [->|[]]. cbn [prune]. rewrite HS. discriminate.
  - rewrite leaves_node in H by exact Fl. rewrite prune_node by exact Fl. apply in_app_or in H. destruct H as [H|H]; [specialize (IHl H HS)|specialize (IHr H HS)]; destruct (prune S l); try congruence; try discriminate; destruct (prune S r); try congruence; discriminate.
Qed.
Definition plus (S : N -> bool) (b c : N) : bool := (S c || (c =? b))%bool.
Lemma insert_ok : forall t p b S, full t -> NoDup (leaves t) -> route t p b -> insert (prune S t) p b = prune (plus S b) t.
Proof.
  intros t p b S F. revert p. induction F as [c|l r x Fl IHl Fr IHr]; intros p ND R.
  - destruct p as [|d p]; [|destruct d, p; cbn [route] in R; discriminate || destruct R]. cbn [route] in R. injection R as ->. cbn [prune insert]. unfold plus. rewrite N.eqb_refl, orb_true_r. destruct (S b); reflexivity.
  - assert (NoDup (leaves l) /\ NoDup (leaves r) /\ (forall b, In b (leaves l) -> ~ In b (leaves r))) as (NDl & NDr & Dis). { rewrite leaves_node in ND by exact Fl. clear - ND. induction (leaves l) as [|a k IH]; [repeat split; [constructor|exact ND|intros b []]|]. cbn [app] in ND. inversion ND as [|? ? Ni ND']; subst. destruct (IH ND') as (A & B & C). split; [constructor; [intro H; apply Ni, in_or_app; left; exact H|exact A]|]. split; [exact B|]. intros b [<-|H]; [intro H; apply Ni, in_or_app; right; exact H|apply C; exact H]. }
    destruct p as [|d p]; [cbn [route] in R; injection R as -> -> _; inversion Fl|]. cbn [route] in R. pose proof (route_leaf _ _ _ R) as I.
    assert (plus S b b = true) as Pb by (unfold plus; rewrite N.eqb_refl; apply orb_true_r).
    assert (forall u, full u -> ~ In b (leaves u) -> prune S u = prune (plus S b) u) as Other. { intros u Fu Nu. apply prune_ext; [exact Fu|]. intros c Hc. unfold plus. assert (c =? b = false) as -> by (apply N.eqb_neq; intro E; subst c; contradiction). symmetry. apply orb_false_r. }
    destruct d; cbn [insert]; rewrite prune_left, prune_right, prune_byte by exact Fl.
    + rewrite IHr by assumption. rewrite prune_node by exact Fl. rewrite (Other l Fl) by (intro H; apply (Dis b); assumption). pose proof (prune_some _ r b Fr I Pb) as NN. destruct (prune (plus S b) r); [congruence|]. destruct (prune (plus S b) l); reflexivity.
    + rewrite IHl by assumption. rewrite prune_node by exact Fl. rewrite (Other r Fr) by (apply Dis; assumption). pose proof (prune_some _ l b Fl I Pb) as NN. destruct (prune (plus S b) l); [congruence|]. reflexivity.
Qed.
Lemma prune_all : forall S t, full t -> (forall b, In b (leaves t) -> S b = true) -> full (prune S t) /\ (forall p b, route t p b -> route (prune S t) p b).
Proof.
  intros S t F. induction F as [c|l r x Fl IHl Fr IHr]; intro H.
  - cbn [prune]. rewrite (H c) by (left; reflexivity). split; [constructor|auto].
  - rewrite leaves_node in H by exact Fl. destruct IHl as [F1 R1]; [intros b Hb; apply H, in_or_app; auto|]. destruct IHr as [F2 R2]; [intros b Hb; apply H, in_or_app; auto|].
    assert (prune S (Tree l r x) = Tree (prune S l) (prune S r) 0) as E. { rewrite prune_node by exact Fl. pose proof (full_not_nil _ F1). destruct (prune S l); [congruence|reflexivity]. } rewrite E. split; [constructor; assumption|]. intros [|c p] b R; cbn [route] in R; [injection R as -> -> _; inversion Fl|]. cbn [route]. destruct c; auto.
Qed.

(* ---- reading the bits *)
Lemma walk_route : forall root p tp b rest k, full tp -> route tp p b -> p <> [] -> walk_bits root tp (p ++ rest) (S k) = obind (walk_bits root root rest k) (fun o => Done (b :: o)).
Proof.
  intros root p. induction p as [|c p IH]; intros tp b rest k F R NE; [congruence|]. destruct F as [y|l r x Fl Fr]; [cbn [route] in R; destruct c, p; cbn in R; discriminate || destruct R|]. cbn [route] in R. cbn [app walk_bits].
  assert (full (if c then r else l)) as Fc by (destruct c; assumption). set (u := if c then r else l) in *. clearbody u. destruct p as [|d p].
  - cbn [route] in R. rewrite R. reflexivity.
  - assert (exists u1 u2 ub, u = Tree u1 u2 ub /\ full u1 /\ full u2) as (u1 & u2 & ub & -> & F1 & F2). { destruct Fc as [y|u1 u2 ub F1 F2]; [cbn [route] in R; destruct d, p; cbn in R; discriminate || destruct R|]. exists u1, u2, ub. auto. }
    specialize (IH (Tree u1 u2 ub) b rest k Fc R ltac:(discriminate)). destruct u1; [inversion F1|]. exact IH.
Qed.
Lemma walk_data : forall root (path : N -> list bool) data junk, full root -> (forall b, In b data -> route root (path b) b /\ path b <> []) ->
  walk_bits root root (concat (map path data) ++ junk) (length data) = Done data.
Proof.
  intros root path data junk F. induction data as [|b d IH]; intro H; [destruct junk; reflexivity|]. cbn [map concat length]. rewrite <- app_assoc. destruct (H b ltac:(left; reflexivity)) as [R NE]. rewrite (walk_route root (path b) root b) by assumption. rewrite IH; [reflexivity|]. intros c Hc. apply H. right. exact Hc.
Qed.

(* ---- packing *)
Lemma pack_length : forall n b, length (pack n b) = n.
Proof. induction n as [|n IH]; intro b; [reflexivity|]. cbn [pack length]. rewrite IH. reflexivity. Qed.
Definition pack8 (b : list N) : N := fold_left (fun acc i => N.lor acc (N.shiftl (code_bit (nth i b 48)) (N.of_nat (7 - i)))) (seq 0 8) 0.
Lemma pack8_bits : forall c0 c1 c2 c3 c4 c5 c6 c7 rest, bits_msb (pack8 (chars [c0; c1; c2; c3; c4; c5; c6; c7] ++ rest)) = [c0; c1; c2; c3; c4; c5; c6; c7].
Proof. intros. destruct c0, c1, c2, c3, c4, c5, c6, c7; reflexivity. Qed.
Lemma pack8_pad : forall b k, pack8 (b ++ repeat 48 k) = pack8 b.
Proof.
  intros b k. unfold pack8. assert (forall i, nth i (b ++ repeat 48 k) 48 = nth i b 48) as E. { intro i. destruct (le_lt_dec (length b) i) as [H|H]; [|apply app_nth1; exact H]. rewrite app_nth2 by exact H. rewrite (nth_overflow b) by exact H. generalize (i - length b)%nat. induction k as [|k IH]; intros [|j]; try reflexivity. apply IH. } cbn [seq fold_left]. rewrite !E. reflexivity.
Qed.
Lemma pack_zero : forall n, pack n [] = repeat 0 n.
Proof. induction n as [|n IH]; [reflexivity|]. cbn [pack repeat skipn]. rewrite IH. reflexivity. Qed.
Lemma pack_bits : forall n q, exists junk, concat (map bits_msb (pack n (chars q))) = firstn (8 * n) q ++ junk /\ (length (firstn (8 * n) q ++ junk) = 8 * n)%nat.
Proof.
  induction n as [|n IH]; intro q; [exists []; split; reflexivity|]. cbn [pack map concat]. fold (pack8 (chars q)). destruct (IH (skipn 8 q)) as (junk & E & L). assert (skipn 8 (chars q) = chars (skipn 8 q)) as -> by apply skipn_map.
  destruct q as [|c0 [|c1 [|c2 [|c3 [|c4 [|c5 [|c6 [|c7 q]]]]]]]].
  9:{ change (c0 :: c1 :: c2 :: c3 :: c4 :: c5 :: c6 :: c7 :: q) with ([c0; c1; c2; c3; c4; c5; c6; c7] ++ q). rewrite chars_app, pack8_bits. cbn [skipn] in *. exists junk. replace (8 * S n)%nat with (8 + 8 * n)%nat by lia. cbn [app Nat.add firstn skipn]. rewrite E. split; [reflexivity|]. cbn [length]. rewrite L. reflexivity. }
  all: cbn [skipn] in E, L; replace (8 * S n)%nat with (8 + 8 * n)%nat by lia; cbn [skipn]; rewrite E; rewrite firstn_nil in *; cbn [app] in *; change (firstn (8 + 8 * n)) with (@firstn bool (8 + 8 * n)); cbn [Nat.add firstn].
  - exists (repeat false 8 ++ junk). split; [reflexivity|]. rewrite <- L. reflexivity.
  - exists (repeat false 7 ++ junk). rewrite <- (pack8_pad _ 7). change (chars [c0] ++ repeat 48 7) with (chars [c0; false; false; false; false; false; false; false] ++ []). rewrite pack8_bits. split; [reflexivity|]. rewrite <- L. reflexivity.
  - exists (repeat false 6 ++ junk). rewrite <- (pack8_pad _ 6). change (chars [c0; c1] ++ repeat 48 6) with (chars [c0; c1; false; false; false; false; false; false] ++ []). rewrite pack8_bits. split; [reflexivity|]. rewrite <- L. reflexivity.
  - exists (repeat false 5 ++ junk). rewrite <- (pack8_pad _ 5). change (chars [c0; c1; c2] ++ repeat 48 5) with (chars [c0; c1; c2; false; false; false; false; false] ++ []). rewrite pack8_bits. split; [reflexivity|]. rewrite <- L. reflexivity.
  - exists (repeat false 4 ++ junk). rewrite <- (pack8_pad _ 4). change (chars [c0; c1; c2; c3] ++ repeat 48 4) with (chars [c0; c1; c2; c3; false; false; false; false] ++ []). rewrite pack8_bits. split; [reflexivity|]. rewrite <- L. reflexivity.
  - exists (repeat false 3 ++ junk). rewrite <- (pack8_pad _ 3). change (chars [c0; c1; c2; c3; c4] ++ repeat 48 3) with (chars [c0; c1; c2; c3; c4; false; false; false] ++ []). rewrite pack8_bits. split; [reflexivity|]. rewrite <- L. reflexivity.
  - exists (repeat false 2 ++ junk). rewrite <- (pack8_pad _ 2). change (chars [c0; c1; c2; c3; c4; c5] ++ repeat 48 2) with (chars [c0; c1; c2; c3; c4; c5; false; false] ++ []). rewrite pack8_bits. split; [reflexivity|]. rewrite <- L. reflexivity.
  - exists (repeat false 1 ++ junk). rewrite <- (pack8_pad _ 1). change (chars [c0; c1; c2; c3; c4; c5; c6] ++ repeat 48 1) with (chars [c0; c1; c2; c3; c4; c5; c6; false] ++ []). rewrite pack8_bits. split; [reflexivity|]. rewrite <- L. reflexivity.
Qed.
Lemma pack_exact : forall n q, (length q = 8 * n)%nat -> concat (map bits_msb (pack n (chars q))) = q.
Proof.
  intros n q H. destruct (pack_bits n q) as (junk & -> & L). rewrite app_length, firstn_length, H, Nat.min_id in L. assert (junk = []) as -> by (destruct junk; [reflexivity|cbn [length] in L; lia]). rewrite app_nil_r, <- H. apply firstn_all.
Qed.
Lemma pack_covers : forall n q, (length q <= 8 * n)%nat -> exists junk, concat (map bits_msb (pack n (chars q))) = q ++ junk.
Proof. intros n q H. destruct (pack_bits n q) as (junk & -> & _). exists junk. rewrite firstn_all2 by exact H. reflexivity. Qed.
