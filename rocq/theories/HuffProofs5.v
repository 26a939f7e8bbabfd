(* Huffman coding: deflating and inflating. *)
From Verif Require Import Words EncSpec CipherBase CipherLib StreamModel HuffModel HuffProofs HuffProofs2 HuffProofs3 HuffProofs4.
From Coq Require Import List Arith Lia PeanoNat Bool Permutation.
Open Scope N_scope.

Lemma bits_msb_length : forall l, length (concat (map bits_msb l)) = (8 * length l)%nat.
Proof. induction l as [|x l IH]; [reflexivity|]. cbn [map concat]. rewrite app_length, IH. cbn [length]. change (length (bits_msb x)) with 8%nat. lia. Qed.
Lemma chars_firstn : forall n q, firstn n (chars q) = chars (firstn n q).
Proof. intros. apply firstn_map. Qed.
Lemma chars_skipn : forall n q, skipn n (chars q) = chars (skipn n q).
Proof. intros. apply skipn_map. Qed.
Lemma squash_ok : forall codes path k inp q, (length inp <= k)%nat -> (forall x, In x inp -> code_of codes x = chars (path x) /\ (length (path x) <= 254)%nat) -> (length q < 1024)%nat ->
  exists out q', squash codes inp (chars q) = Done (out, chars q') /\ concat (map bits_msb out) ++ q' = q ++ concat (map path inp) /\ (length q' < 1024)%nat.
Proof.
  intros codes path k. induction k as [|k IH]; intros inp q Lk H Lq.
  - destruct inp; [|cbn in Lk; lia]. exists [], q. split; [reflexivity|]. cbn [map concat app]. rewrite app_nil_r. auto.
  - destruct inp as [|x rest]; [exists [], q; split; [reflexivity|]; cbn [map concat app]; rewrite app_nil_r; auto|]. cbn [length] in Lk. destruct (H x ltac:(left; reflexivity)) as [Ex Lx].
    cbn [squash]. rewrite Ex, !chars_length. destruct (Nat.leb_spec 1024 (length q + length (path x))) as [C|C].
    + assert ((255 <=? length (path x))%nat = false) as -> by (apply Nat.leb_gt; lia). set (room := (1024 - length q)%nat). rewrite chars_firstn, chars_skipn, <- chars_app. set (q1 := q ++ firstn room (path x)). assert (length q1 = 8 * 128)%nat as L1. { unfold q1. rewrite app_length, firstn_length. unfold room. lia. }
      set (out := pack 128 (chars q1)). assert (concat (map bits_msb out) = q1) as EO by (apply pack_exact; exact L1). clearbody out. assert (length (skipn room (path x)) <= 254)%nat as L2 by (rewrite skipn_length; lia). destruct rest as [|y rest].
      * exists out, (skipn room (path x)). split; [reflexivity|]. split; [|lia]. rewrite EO. unfold q1. cbn [map concat]. rewrite app_nil_r, <- app_assoc, firstn_skipn. reflexivity.
      * destruct (H y ltac:(right; left; reflexivity)) as [Ey Ly]. rewrite Ey, !chars_length. assert ((1024 <? length (skipn room (path x)) + length (path y))%nat = false) as -> by (apply Nat.ltb_ge; lia). rewrite <- chars_app.
        destruct (IH rest (skipn room (path x) ++ path y)) as (out' & q' & E & B & L'); [cbn [length] in Lk; lia|intros z Hz; apply H; right; right; exact Hz|rewrite app_length; lia|]. rewrite E. cbn [obind]. exists (out ++ out'), q'. split; [reflexivity|]. split; [|exact L']. rewrite map_app, concat_app, <- app_assoc, B, EO. unfold q1. cbn [map concat]. rewrite <- !app_assoc. f_equal. rewrite (app_assoc (firstn room (path x))), firstn_skipn. reflexivity.
    + rewrite <- chars_app. destruct (IH rest (q ++ path x)) as (out' & q' & E & B & L'); [lia|intros z Hz; apply H; right; exact Hz|rewrite app_length; lia|]. exists out', q'. split; [exact E|]. split; [|exact L']. rewrite B. cbn [map concat]. rewrite app_assoc. reflexivity.
Qed.

Definition entry (codes : list (list N)) (c : N) : list N := match code_of codes c with [] => [] | p => p ++ [c] end.
Lemma dump_eq : forall codes, dump_tree codes = concat (map (entry codes) (map N.of_nat (seq 0 256))) ++ [0; 0].
Proof. intro codes. unfold dump_tree. rewrite map_map. reflexivity. Qed.
Lemma entry_code : forall codes c p, code_of codes c = chars p -> p <> [] -> entry codes c = chars p ++ [c].
Proof. intros codes c p E N. unfold entry. rewrite E. destruct p as [|d p]; [congruence|]. destruct d; reflexivity. Qed.
Lemma head_char : forall p rest, p <> [] -> exists y k, chars p ++ rest = y :: k /\ y <> 0.
Proof. intros [|c p] rest H; [congruence|]. destruct c; do 2 eexists; (split; [reflexivity|discriminate]). Qed.
Lemma two_char : forall p rest, p <> [] -> two_zeros (chars p ++ rest) = Done false.
Proof. intros [|c p] rest H; [congruence|]. destruct c; reflexivity. Qed.
Lemma rebuild_one : forall t path S fuel c rest, full t -> NoDup (leaves t) -> route t (path c) c -> path c <> [] -> c <> 48 -> c <> 49 -> (c = 0 -> exists y k, rest = y :: k /\ y <> 0) ->
  rebuild (Datatypes.S fuel) (prune S t) ((chars (path c) ++ [c]) ++ rest) = rebuild fuel (prune (plus S c) t) rest.
Proof.
  intros t path S fuel c rest F ND R NE H48 H49 H0. rewrite <- app_assoc. cbn [app]. cbn [rebuild]. destruct (head_char (path c) (c :: rest) NE) as (y & k & E & _). destruct (chars (path c) ++ c :: rest) as [|y' k'] eqn:E'; [discriminate|]. rewrite <- E'. rewrite two_char by exact NE. cbn [obind]. rewrite add_node_ok by assumption. cbn [obind]. rewrite insert_ok by assumption. reflexivity.
Qed.
Section Dump.
Variables (t : htree) (codes : list (list N)) (path : N -> list bool).
Hypothesis F : full t.
Hypothesis ND : NoDup (leaves t).
Hypothesis yes : forall b, In b (leaves t) -> code_of codes b = chars (path b) /\ route t (path b) b /\ path b <> [] /\ b <> 48 /\ b <> 49.
Hypothesis no : forall b, ~ In b (leaves t) -> b < 256 -> code_of codes b = [].
Lemma rebuild_list : forall cs S fuel rest, (forall c, In c cs -> c < 256 /\ c <> 0) -> (length (concat (map (entry codes) cs)) < fuel)%nat ->
  exists S', rebuild fuel (prune S t) (concat (map (entry codes) cs) ++ [0; 0] ++ rest) = Done (prune S' t, rest) /\ (forall b, S b = true -> S' b = true) /\ (forall b, In b cs -> In b (leaves t) -> S' b = true).
Proof.
  induction cs as [|c cs IH]; intros S fuel rest H L.
  - exists S. destruct fuel; [cbn in L; lia|]. split; [reflexivity|]. split; [auto|intros b []].
  - destruct (H c ltac:(left; reflexivity)) as [Hc H0]. cbn [map concat] in *. destruct (in_dec N.eq_dec c (leaves t)) as [I|I].
    + destruct (yes c I) as (E & R & NE & N48 & N49). rewrite (entry_code codes c (path c) E NE) in *. rewrite <- app_assoc. destruct fuel as [|fuel]; [lia|]. rewrite rebuild_one by (assumption || (intro; contradiction)). rewrite !app_length in L. cbn [length] in L. destruct (IH (plus S c) fuel rest) as (S' & E' & A & B); [intros d Hd; apply H; right; exact Hd|lia|]. exists S'. split; [exact E'|]. split; [intros b Hb; apply A; unfold plus; rewrite Hb; reflexivity|]. intros b [->|Hb] Ib; [apply A; unfold plus; rewrite N.eqb_refl; apply orb_true_r|apply B; assumption].
    + unfold entry at 1. unfold entry at 1 in L. rewrite (no c I Hc) in *. cbn [app] in *. destruct (IH S fuel rest) as (S' & E' & A & B); [intros d Hd; apply H; right; exact Hd|exact L|]. exists S'. split; [exact E'|]. split; [exact A|]. intros b [->|Hb] Ib; [contradiction|apply B; assumption].
Qed.
Lemma dump_head : forall cs rest, (exists c, In c cs /\ In c (leaves t)) -> (forall c, In c cs -> c < 256) -> exists y k, concat (map (entry codes) cs) ++ rest = y :: k /\ y <> 0.
Proof.
  induction cs as [|c cs IH]; intros rest (d & I & J) H; [destruct I|]. cbn [map concat]. rewrite <- app_assoc. destruct (in_dec N.eq_dec c (leaves t)) as [K|K].
  - destruct (yes c K) as (E & R & NE & _). rewrite (entry_code codes c (path c) E NE), <- app_assoc. apply head_char. exact NE.
  - unfold entry at 1. rewrite (no c K) by (apply H; left; reflexivity). cbn [app]. apply IH; [|intros e He; apply H; right; exact He]. destruct I as [->|I]; [contradiction|]. exists d. auto.
Qed.
Lemma rebuild_dump : forall fuel rest, Forall (fun b => b < 256) (leaves t) -> (exists b, In b (leaves t) /\ b <> 0) -> (length (dump_tree codes) <= fuel)%nat ->
  exists S, rebuild fuel Nil (dump_tree codes ++ rest) = Done (prune S t, rest) /\ (forall b, In b (leaves t) -> S b = true).
Proof.
  intros fuel rest LT (b0 & I0 & N0) L. rewrite dump_eq in *. change (map N.of_nat (seq 0 256)) with (0 :: map N.of_nat (seq 1 255)) in *. cbn [map concat] in *.
  assert (forall b, In b (leaves t) -> b <> 0 -> In b (map N.of_nat (seq 1 255))) as Cov. { intros b Hb Nb. apply in_map_iff. exists (N.to_nat b). split; [apply N2Nat.id|]. apply in_seq. pose proof (proj1 (Forall_forall _ _) LT b Hb) as Lb. cbv beta in Lb. lia. }
  assert (forall c, In c (map N.of_nat (seq 1 255)) -> c < 256 /\ c <> 0) as Rng. { intros c Hc. apply in_map_iff in Hc. destruct Hc as (i & <- & Hi). apply in_seq in Hi. lia. }
  set (cs := map N.of_nat (seq 1 255)) in *. clearbody cs.
  assert (forall u, full u -> prune (fun _ => false) u = Nil) as PN. { clear. intros u Fu. induction Fu as [b|l r x Fl IHl Fr IHr]; [reflexivity|]. rewrite prune_node by exact Fl. rewrite IHl, IHr. reflexivity. }
  rewrite <- (PN t F). rewrite <- !app_assoc. rewrite !app_length in L. cbn [length] in L. destruct (in_dec N.eq_dec 0 (leaves t)) as [Z|Z].
  - destruct (yes 0 Z) as (E & R & NE & N48 & N49). rewrite (entry_code codes 0 (path 0) E NE) in *. destruct fuel as [|fuel]; [lia|]. rewrite app_length in L. cbn [length] in L.
    rewrite rebuild_one; try assumption. 2:{ intros _. apply dump_head; [exists b0; split; [apply Cov; assumption|exact I0]|intros c Hc; apply Rng; exact Hc]. }
    destruct (rebuild_list cs (plus (fun _ => false) 0) fuel rest Rng ltac:(lia)) as (S' & E' & A & B). exists S'. split; [exact E'|]. intros b Hb. destruct (N.eq_dec b 0) as [->|Nb]; [apply A; reflexivity|]. apply B; [apply Cov; assumption|exact Hb].
  - unfold entry at 1. unfold entry at 1 in L. rewrite (no 0 Z) in * by reflexivity. cbn [app length] in *. destruct (rebuild_list cs (fun _ => false) fuel rest Rng ltac:(lia)) as (S' & E' & A & B). exists S'. split; [exact E'|]. intros b Hb. apply B; [apply Cov; [exact Hb|intro; subst b; contradiction]|exact Hb].
Qed.
End Dump.

(* ---- the room for the output *)
Definition sumN (l : list N) : N := fold_left N.add l 0.
Lemma sum_acc : forall l a, fold_left N.add l a = a + sumN l.
Proof. unfold sumN. induction l as [|x l IH]; intro a; [cbn; lia|]. cbn [fold_left]. rewrite IH, (IH (0 + x)). lia. Qed.
Lemma sum_cons : forall x l, sumN (x :: l) = x + sumN l.
Proof. intros. unfold sumN at 1. cbn [fold_left]. rewrite sum_acc. lia. Qed.
Lemma sum_add : forall (f g : nat -> N) l, sumN (map (fun i => f i + g i) l) = sumN (map f l) + sumN (map g l).
Proof. intros f g l. induction l as [|x l IH]; [reflexivity|]. cbn [map]. rewrite !sum_cons, IH. lia. Qed.
Lemma sum_zero : forall (f : nat -> N) l, (forall i, In i l -> f i = 0) -> sumN (map f l) = 0.
Proof. intros f l. induction l as [|x l IH]; intro H; [reflexivity|]. cbn [map]. rewrite sum_cons, IH, (H x); [reflexivity|left; reflexivity|intros i Hi; apply H; right; exact Hi]. Qed.
Lemma sum_single : forall (g : nat -> N) b k s, (s <= b < s + k)%nat -> sumN (map (fun i => if Nat.eqb b i then g i else 0) (seq s k)) = g b.
Proof.
  intros g b k. induction k as [|k IH]; intros s H; [lia|]. cbn [seq map]. rewrite sum_cons. destruct (Nat.eqb_spec b s) as [->|N].
  - rewrite sum_zero; [lia|]. intros i Hi. apply in_seq in Hi. assert (Nat.eqb s i = false) as -> by (apply Nat.eqb_neq; lia). reflexivity.
  - rewrite IH by lia. lia.
Qed.
Lemma sum_occ : forall (g : nat -> N) data, bytes data -> sumN (map (fun i => occ data (N.of_nat i) * g i) (seq 0 256)) = sumN (map (fun x => g (N.to_nat x)) data).
Proof.
  intros g data. induction data as [|b d IH] using rev_ind; intro H; [apply sum_zero; intros; reflexivity|]. apply Forall_app in H. destruct H as [Hd Hb]. rewrite (map_ext_in _ (fun i => occ d (N.of_nat i) * g i + (if Nat.eqb (N.to_nat b) i then g i else 0))).
  - rewrite sum_add, IH by exact Hd. pose proof (Forall_inv Hb) as B. unfold byte in B. rewrite sum_single by (clear - B; lia). rewrite map_app. unfold sumN at 2. rewrite fold_left_app. cbn [map fold_left]. reflexivity.
  - intros i Hi. rewrite occ_snoc. destruct (Nat.eqb_spec (N.to_nat b) i) as [<-|N].
    + rewrite N2Nat.id, N.eqb_refl. lia.
    + assert (N.eqb b (N.of_nat i) = false) as -> by (apply N.eqb_neq; lia). lia.
Qed.
Lemma sum_le : forall (f : nat -> list N) l, N.of_nat (length (concat (map f l))) = sumN (map (fun i => N.of_nat (length (f i))) l).
Proof. intros f l. induction l as [|x l IH]; [reflexivity|]. cbn [map concat]. rewrite app_length, sum_cons, Nat2N.inj_add, IH. reflexivity. Qed.
Lemma list_is_nth : forall (l : list (list N)) n, length l = n -> l = map (fun i => nth i l []) (seq 0 n).
Proof.
  intros l n H. apply (nth_ext _ _ [] []); [rewrite map_length, seq_length; exact H|]. intros i Hi. rewrite (nth_indep (map _ _) [] (nth 0 l [])) by (rewrite map_length, seq_length; lia). rewrite (map_nth (fun i => nth i l [])), seq_nth by lia. reflexivity.
Qed.
Lemma combine_map : forall (A B : Type) (f : nat -> A) (g : nat -> B) l, combine (map f l) (map g l) = map (fun i => (f i, g i)) l.
Proof. intros A B f g l. induction l as [|x l IH]; [reflexivity|]. cbn [map combine]. rewrite IH. reflexivity. Qed.
Lemma out_size_ok : forall data codes, bytes data -> length codes = 256%nat ->
  deflated_out_size (raw_table data) codes = 8 * ((10 + sumN (map (fun x => N.of_nat (length (code_of codes x))) data) + 7) / 8) + (N.of_nat (length (dump_tree codes)) - 2) /\ (2 <= length (dump_tree codes))%nat.
Proof.
  intros data codes Hb L. split.
  - unfold deflated_out_size. fold (sumN (map (fun p => fc_freq (fst p) * N.of_nat (length (snd p))) (combine (raw_table data) codes))). fold (sumN (map (fun c : list N => match c with [] => 0 | _ => 1 + N.of_nat (length c) end) codes)).
    rewrite (raw_table_ok data Hb). pose proof (list_is_nth codes 256 L) as EC. f_equal.
    + do 4 f_equal. rewrite EC at 1. rewrite combine_map, map_map. cbn [fst snd cell fc_freq]. apply (sum_occ (fun i => N.of_nat (length (nth i codes []))) data Hb).
    + rewrite dump_eq, app_length, map_map, Nat2N.inj_add. change (N.of_nat (length [0; 0])) with 2. rewrite N.add_sub, sum_le. rewrite EC at 1. rewrite map_map. f_equal. apply map_ext. intro i. unfold entry, code_of. rewrite Nat2N.id. destruct (nth i codes []) as [|x k]; [reflexivity|]. rewrite app_length, Nat2N.inj_add. cbn [length]. lia.
  - rewrite dump_eq, app_length. cbn [length]. lia.
Qed.
Lemma present_in : forall data b, bytes data -> (In b (present data) <-> In b data).
Proof.
  intros data b Hb. rewrite present_eq. assert (In b data -> In b (map N.of_nat (seq 0 256))) as A. { intro I. apply in_map_iff. exists (N.to_nat b). split; [apply N2Nat.id|]. apply in_seq. pose proof (proj1 (Forall_forall _ _) Hb b I) as B. unfold byte in B. lia. } revert A. generalize (map N.of_nat (seq 0 256)). intros l A. split.
  - intro H. apply filter_In in H. destruct H as [_ H]. apply N.ltb_lt in H. unfold occ in H. apply (count_occ_In N.eq_dec). lia.
  - intro H. apply filter_In. split; [apply A; exact H|]. apply N.ltb_lt. apply (count_occ_In N.eq_dec) in H. unfold occ. lia.
Qed.
Lemma present_nodup : forall data, NoDup (present data).
Proof.
  intro data. rewrite present_eq. apply NoDup_filter. assert (forall l : list nat, NoDup l -> NoDup (map N.of_nat l)) as G. { intros l H. induction H as [|x l Nx _ IH]; [constructor|]. cbn [map]. constructor; [|exact IH]. intro I. apply in_map_iff in I. destruct I as (y & E & I). apply Nat2N.inj in E. subst y. contradiction. } apply G, seq_NoDup.
Qed.
(* what deflating gives, for every input *)
Lemma deflate_ok : forall data, bytes data -> N.of_nat (length data) < 2 ^ 64 -> data <> [] ->
  let d := huffman_deflate (Some data) (N.of_nat (length data)) in
  ((length (present data) <= 1)%nat /\ d = Done None) \/
  ((2 <= length (present data))%nat /\ exists t codes path out junk,
    d = Done (Some (dump_tree codes ++ le_bytes 8 (N.of_nat (length data)) ++ out)) /\
    full t /\ Permutation (leaves t) (present data) /\ concat (map bits_msb out) = concat (map path data) ++ junk /\
    (forall b, In b (leaves t) -> code_of codes b = chars (path b) /\ route t (path b) b /\ path b <> []) /\ (forall b, ~ In b (leaves t) -> b < 256 -> code_of codes b = [])).
Proof.
  intros data Hb HL NE. cbv zeta. unfold huffman_deflate. assert (N.of_nat (length data) =? 0 = false) as -> by (apply N.eqb_neq; destruct data; [congruence|discriminate]). unfold buf. rewrite N.ltb_irrefl, Nat2N.id, firstn_all. cbn [obind].
  destruct (tree_built data Hb) as (t & -> & [[A ->]|(A & Fu & Fa & P & W)]); cbn [obind]; [left; auto|right]. split; [exact A|].
  pose proof (tree_height data t Fu Fa W HL) as Ht. assert (NoDup (leaves t)) as ND by (apply (Permutation_NoDup (Permutation_sym P)), present_nodup).
  assert (forall b, In b (leaves t) <-> In b data) as InD. { intro b. rewrite <- (present_in data b Hb). split; apply Permutation_in; [exact P|symmetry; exact P]. }
  assert (Forall (fun b => b < 256) (leaves t)) as LT. { apply Forall_forall. intros b I. apply InD in I. exact (proj1 (Forall_forall _ _) Hb b I). }
  destruct (scan_ok t (repeat [] 256) [] Fu ND LT (repeat_length _ _)) as (codes & E & LC & Yes & No); [cbn [length]; lia|].
  assert (exists path, forall b, In b (leaves t) -> code_of codes b = chars (path b) /\ route t (path b) b) as (path & Hp).
  { exists (fun b => map (fun c => c =? 49) (code_of codes b)). intros b I. destruct (Yes b I) as (p & Ep & R). cbn [app] in Ep. assert (map (fun c => c =? 49) (code_of codes b) = p) as ->; [|split; [exact Ep|exact R]]. rewrite Ep. unfold chars. rewrite map_map. rewrite <- (map_id p) at 2. apply map_ext. intros []; reflexivity. }
  assert (forall b, In b (leaves t) -> path b <> []) as NEp. { intros b I Ep. destruct (Hp b I) as [_ R]. rewrite Ep in R. cbn [route] in R. rewrite (Permutation_length (Permutation_sym P)), R in A. cbn in A. lia. }
  assert (forall b, ~ In b (leaves t) -> b < 256 -> code_of codes b = []) as No'. { intros b I B. rewrite (No b I B). unfold code_of. generalize (N.to_nat b) 256%nat. intros i k. revert i. induction k as [|k IH]; intros [|i]; try reflexivity. apply IH. }
  destruct (squash_ok codes path (length data) data [] (le_n _)) as (out & q' & SE & SB & SL); [|cbn [length]; lia|].
  { intros x I. apply InD in I. destruct (Hp x I) as [E1 R1]. split; [exact E1|]. pose proof (route_length _ _ _ Fu R1). lia. }
  cbn [app] in SB. unfold get_codes. destruct t as [|t1 t2 tb]; [inversion Fu|]. set (t := Tree t1 t2 tb) in *. rewrite E. cbn [obind]. change (@nil N) with (chars []) at 1. rewrite SE. cbn [obind].
  set (last := match chars q' with [] => [] | _ => pack (length (chars q') / 8 + 1) (chars q') end).
  assert (exists junk, concat (map bits_msb last) = q' ++ junk /\ (length last <= length q' / 8 + 1)%nat) as (junk & EJ & LL).
  { unfold last. rewrite chars_length. destruct q' as [|c q']; [exists []; split; [reflexivity|apply Nat.le_0_l]|]. destruct (pack_covers (length (c :: q') / 8 + 1) (c :: q')) as (junk & EJ). { pose proof (Nat.div_mod (length (c :: q')) 8 ltac:(discriminate)). pose proof (Nat.mod_upper_bound (length (c :: q')) 8 ltac:(discriminate)). lia. }
    exists junk. split; [exact EJ|]. exact (Nat.eq_le_incl _ _ (pack_length (length (c :: q') / 8 + 1) (chars (c :: q')))). }
  clearbody last.
  destruct (out_size_ok data codes Hb LC) as [OS D2]. rewrite OS.
  assert (sumN (map (fun x => N.of_nat (length (code_of codes x))) data) = N.of_nat (8 * length out + length q')) as SZ.
  { apply (f_equal (@length bool)) in SB. rewrite app_length, bits_msb_length in SB. rewrite SB. clear - InD Hp. assert (forall x, In x data -> length (code_of codes x) = length (path x)) as G. { intros x I. apply InD in I. destruct (Hp x I) as [-> _]. apply chars_length. } clear InD Hp. induction data as [|x d IH]; [reflexivity|]. cbn [map concat]. rewrite sum_cons, app_length, Nat2N.inj_add, (G x), IH; [reflexivity| |left; reflexivity]. intros y I. apply G. right. exact I. }
  assert (1 <= 8 * length out + length q')%nat as B1. { apply (f_equal (@length bool)) in SB. rewrite app_length, bits_msb_length in SB. rewrite SB. destruct data as [|x d]; [congruence|]. cbn [map concat]. rewrite app_length. pose proof (NEp x ltac:(apply InD; left; reflexivity)) as NEx. destruct (path x); [congruence|]. cbn [length]. lia. }
  rewrite SZ. assert (N.of_nat (length (dump_tree codes ++ le_bytes 8 (N.of_nat (length data)) ++ out ++ last)) <= 8 * ((10 + N.of_nat (8 * length out + length q') + 7) / 8) + (N.of_nat (length (dump_tree codes)) - 2)) as Fit.
  { rewrite !app_length, le_bytes_length. clear - LL B1 D2. revert LL B1 D2. generalize (length out) (length last) (length q') (length (dump_tree codes)). intros a b c d LL B1 D2. pose proof (N.div_mod (10 + N.of_nat (8 * a + c) + 7) 8 ltac:(discriminate)) as Q. pose proof (N.mod_lt (10 + N.of_nat (8 * a + c) + 7) 8 ltac:(discriminate)) as Q2. set (X := (10 + N.of_nat (8 * a + c) + 7) / 8) in *. set (Y := (10 + N.of_nat (8 * a + c) + 7) mod 8) in *. clearbody X Y. pose proof (Nat.div_mod c 8 ltac:(discriminate)) as R. pose proof (Nat.mod_upper_bound c 8 ltac:(discriminate)) as R2. set (u := (c / 8)%nat) in *. set (v := (c mod 8)%nat) in *. clearbody u v. lia. }
  apply N.ltb_ge in Fit. rewrite Fit. exists t, codes, path, (out ++ last), junk. split; [reflexivity|]. split; [exact Fu|]. split; [exact P|]. split; [rewrite map_app, concat_app, EJ, <- SB, app_assoc; reflexivity|]. split; [|exact No']. intros b I. destruct (Hp b I). auto.
Qed.
Lemma same_nonempty : forall l data : list N, (forall b, In b l <-> In b data) -> (2 <= length l)%nat -> data <> [].
Proof. intros l data H L C. subst data. destruct l as [|x l]; [exact (Nat.nle_succ_0 _ L)|]. apply (proj1 (H x)). left. reflexivity. Qed.
Lemma round_trip : forall data, bytes data -> N.of_nat (length data) + 1 < 2 ^ 64 -> (2 <= length (present data))%nat -> ~ In 48 data -> ~ In 49 data ->
  exists z, huffman_deflate (Some data) (N.of_nat (length data)) = Done (Some z) /\ huffman_inflate (Some z) (N.of_nat (length z)) = Done data.
Proof.
  intros data Hb HL H2 N48 N49. pose proof (same_nonempty (present data) data (fun b => present_in data b Hb) H2) as NE. destruct (deflate_ok data Hb ltac:(lia) NE) as [[A _]|(_ & t & codes & path & out & junk & E & Fu & P & EB & Yes & No)]; [lia|]. eexists. split; [exact E|]. set (rest := le_bytes 8 (N.of_nat (length data)) ++ out). set (z := dump_tree codes ++ rest).
  unfold huffman_inflate, buf. rewrite N.ltb_irrefl, Nat2N.id, firstn_all. cbn [obind].
  assert (forall b, In b (leaves t) <-> In b data) as InD. { intro b. rewrite <- (present_in data b Hb). split; apply Permutation_in; [exact P|symmetry; exact P]. }
  assert (NoDup (leaves t)) as ND by (apply (Permutation_NoDup (Permutation_sym P)), present_nodup).
  destruct (rebuild_dump t codes path Fu ND) with (fuel := S (length z)) (rest := rest) as (S' & ER & AllS).
  - intros b I. destruct (Yes b I) as (E1 & E2 & E3). repeat (split; [assumption|]). apply InD in I. split; intro; subst b; contradiction.
  - exact No.
  - apply Forall_forall. intros b I. apply InD in I. exact (proj1 (Forall_forall _ _) Hb b I).
  - rewrite (Permutation_length (Permutation_sym P)) in H2. destruct (leaves t) as [|x [|y l]]; [cbn in H2; lia|cbn in H2; lia|]. destruct (N.eq_dec x 0) as [->|]; [|exists x; split; [left; reflexivity|assumption]]. exists y. split; [right; left; reflexivity|]. intro; subst y. inversion ND as [|? ? Nx _]; subst. apply Nx. left. reflexivity.
  - unfold z. rewrite app_length. lia.
  - fold z in ER. rewrite ER. cbn [obind]. unfold rest. rewrite firstn_exact, skipn_exact by apply le_bytes_length. assert ((length (le_bytes 8 (N.of_nat (length data)) ++ out) <? 8)%nat = false) as -> by (apply Nat.ltb_ge; rewrite app_length, le_bytes_length; lia). rewrite le_val_bytes by (change (256 ^ N.of_nat 8) with (2 ^ 64); lia).
    assert (N.of_nat (length data) =? 2 ^ 64 - 1 = false) as -> by (apply N.eqb_neq; lia). rewrite Nat2N.id, EB. destruct (prune_all S' t Fu AllS) as [Fp Rp]. rewrite walk_data; [|exact Fp|intros b I; apply InD in I; destruct (Yes b I) as (_ & R & NP); split; [apply Rp; exact R|exact NP]]. cbn [obind]. rewrite Nat.sub_diag. cbn [repeat]. rewrite app_nil_r. reflexivity.
Qed.
Lemma two_present : forall (l data : list N), NoDup l -> (forall b, In b l <-> In b data) -> ((2 <= length l)%nat <-> exists x y, In x data /\ In y data /\ x <> y).
Proof.
  intros l data ND H. split.
  - destruct l as [|x [|y l]]; cbn [length]; try lia. intros _. exists x, y. split; [apply H; left; reflexivity|]. split; [apply H; right; left; reflexivity|]. inversion ND as [|? ? Nx _]; subst. intro; subst y. apply Nx. left. reflexivity.
  - intros (x & y & Ix & Iy & Nxy). apply H in Ix. apply H in Iy. destruct l as [|a [|b l]]; [destruct Ix| |cbn [length]; lia]. destruct Ix as [->|[]]. destruct Iy as [->|[]]. congruence.
Qed.
Lemma deflate_total : forall data, bytes data -> N.of_nat (length data) < 2 ^ 64 ->
  exists o, huffman_deflate (Some data) (N.of_nat (length data)) = Done o /\ (o = None <-> ~ (exists x y, In x data /\ In y data /\ x <> y)).
Proof.
  intros data Hb HL. pose proof (two_present (present data) data (present_nodup data) (fun b => present_in data b Hb)) as T. destruct data as [|x d]; [exists None; split; [reflexivity|]; split; [intros _ (x & y & [] & _)|reflexivity]|]. destruct (deflate_ok (x :: d) Hb HL ltac:(discriminate)) as [[A E]|(A & t & codes & path & out & junk & E & _)]; rewrite E.
  - exists None. split; [reflexivity|]. split; [|reflexivity]. intros _ C. apply T in C. clear - A C. revert A C. generalize (length (present (x :: d))). intros. lia.
  - eexists. split; [reflexivity|]. split; [discriminate|]. intro C. exfalso. apply C. apply T. exact A.
Qed.
(* ---- no tree that is read back holds the bytes 48 and 49 *)
Fixpoint no_digits (t : htree) : Prop := match t with Nil => True | Tree l r b => no_digits l /\ no_digits r /\ b <> 48 /\ b <> 49 end.
Lemma parts_no_digits : forall t, no_digits t -> no_digits (left_of t) /\ no_digits (right_of t) /\ byte_of t <> 48 /\ byte_of t <> 49.
Proof. intros [|l r b] H; [cbn; repeat split; discriminate|exact H]. Qed.
Lemma add_no_digits : forall l t t' k, no_digits t -> add_node t l = Done (t', k) -> no_digits t'.
Proof.
  induction l as [|x l IH]; intros t t' k H E; [discriminate|]. cbn [add_node] in E. destruct (two_zeros (x :: l)) as [stop|]; [|discriminate]. cbn [obind] in E. destruct stop; [injection E as <- _; exact H|]. destruct (parts_no_digits t H) as (Hl & Hr & B1 & B2). destruct (N.eqb_spec x 48) as [->|N1].
  - destruct (add_node (left_of t) l) as [[u k']|] eqn:A; [|discriminate]. cbn [obind] in E. injection E as <- _. cbn [no_digits]. split; [apply (IH _ _ _ Hl A)|auto].
  - destruct (N.eqb_spec x 49) as [->|N2].
    + destruct (add_node (right_of t) l) as [[u k']|] eqn:A; [|discriminate]. cbn [obind] in E. injection E as <- _. cbn [no_digits]. split; [exact Hl|]. split; [apply (IH _ _ _ Hr A)|auto].
    + injection E as <- _. cbn [no_digits]. auto.
Qed.
Lemma rebuild_no_digits : forall f t l t' k, no_digits t -> rebuild f t l = Done (t', k) -> no_digits t'.
Proof.
  induction f as [|f IH]; intros t l t' k H E; [discriminate|]. cbn [rebuild] in E. destruct l as [|x l]; [discriminate|]. destruct (two_zeros (x :: l)) as [stop|]; [|discriminate]. cbn [obind] in E. destruct stop; [injection E as <- _; exact H|]. destruct (add_node t (x :: l)) as [[u m]|] eqn:A; [|discriminate]. cbn [obind] in E. apply (IH u m t' k); [apply (add_no_digits _ _ _ _ H A)|exact E].
Qed.
Lemma walk_no_digits : forall bits root tp k o, no_digits root -> no_digits tp -> walk_bits root tp bits k = Done o -> ~ In 48 o /\ ~ In 49 o.
Proof.
  induction bits as [|c bits IH]; intros root tp k o Hr Ht E.
  - destruct k; injection E as <-; split; intros [].
  - destruct k as [|k]; [injection E as <-; split; intros []|]. cbn [walk_bits] in E. destruct tp as [|l r x]; [discriminate|]. destruct Ht as (Hl & Hr' & _).
    assert (no_digits (if c then r else l)) as Hc by (destruct c; assumption). set (u := if c then r else l) in *. clearbody u. destruct u as [|ul ur ub]; [discriminate|].
    destruct ul as [|a1 a2 a3]; [destruct ur as [|b1 b2 b3]|]; [|apply (IH _ _ _ _ Hr Hc E)|apply (IH _ _ _ _ Hr Hc E)].
    destruct (walk_bits root root bits k) as [o'|] eqn:W; [|discriminate]. injection E as <-. destruct (IH _ _ _ _ Hr Hr W) as [A B]. destruct Hc as (_ & _ & D1 & D2). split; intros [I|I]; congruence || auto.
Qed.
Lemma inflate_no_digits : forall inp n out, huffman_inflate inp n = Done out -> ~ In 48 out /\ ~ In 49 out.
Proof.
  intros inp n out. unfold huffman_inflate. destruct (buf inp n) as [l|]; [|discriminate]. cbn [obind]. destruct (rebuild (S (length l)) Nil l) as [[t k]|] eqn:R; [|discriminate]. cbn [obind]. destruct (length k <? 8)%nat; [discriminate|]. destruct (_ =? _); [discriminate|]. destruct (walk_bits t t _ _) as [o|] eqn:W; [|discriminate]. cbn [obind]. intro E. injection E as <-. pose proof (rebuild_no_digits _ Nil _ _ _ I R) as Ht. destruct (walk_no_digits _ _ _ _ _ Ht Ht W) as [A B].
  split; intro J; apply in_app_or in J; destruct J as [J|J]; try contradiction; apply repeat_spec in J; discriminate.
Qed.
