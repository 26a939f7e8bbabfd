From Verif Require Import Words EncSpec TaskModel ModeModel ModeSpec CipherBase CipherLib DesProofs RcProofs NoekeonProofs SerpentModel.
Open Scope N_scope.

(* ---- register renaming ---- *)
Definition view (s : list N) (a : list nat) : list N := map (fun i => nth i s 0) a.
Definition five (s : list N) : Prop := length s = 5%nat /\ words 32 s.
Definition good (a : list nat) : bool :=
  Nat.eqb (length a) 5 && forallb (fun i => Nat.ltb i 5) a && forallb (fun j => forallb (fun i =>
    Nat.eqb i j || negb (Nat.eqb (nth i a 0%nat) (nth j a 0%nat))) (seq 0 5)) (seq 0 5).
Definition ins_regs (i : sins) : list nat :=
  match i with
  | SMov d x | SXor d x | SAnd d x | SOr d x | SShl d x _ => [d; x]
  | SNot d | SRl d _ | SRr d _ | SKey d _ => [d]
  end.
Definition prog_ok (p : list sins) : bool := forallb (fun i => forallb (fun r => Nat.ltb r 5) (ins_regs i)) p.

Lemma good_spec : forall a, good a = true ->
  length a = 5%nat /\ (forall i, (i < 5)%nat -> (nth i a 0 < 5)%nat) /\
  (forall i j, (i < 5)%nat -> (j < 5)%nat -> nth i a 0%nat = nth j a 0%nat -> i = j).
Proof.
  intros a H. unfold good in H. apply andb_true_iff in H. destruct H as [H H3].
  apply andb_true_iff in H. destruct H as [H1 H2]. apply Nat.eqb_eq in H1. split; [exact H1|]. split.
  - intros i Hi. rewrite forallb_forall in H2. apply Nat.ltb_lt, H2, nth_In. lia.
  - intros i j Hi Hj E. rewrite forallb_forall in H3. specialize (H3 j (proj2 (in_seq 5 0 j) ltac:(lia))).
    rewrite forallb_forall in H3. specialize (H3 i (proj2 (in_seq 5 0 i) ltac:(lia))).
    apply orb_true_iff in H3. destruct H3 as [H3|H3]; [apply Nat.eqb_eq, H3|].
    apply negb_true_iff, Nat.eqb_neq in H3. contradiction.
Qed.
Lemma nth_view : forall s a d, length a = 5%nat -> (d < 5)%nat -> nth d (view s a) 0 = nth (nth d a 0%nat) s 0.
Proof.
  intros s a d Ha Hd. unfold view. rewrite (nth_indep _ _ (nth 0%nat s 0)) by (rewrite map_length; lia).
  rewrite (map_nth (fun i => nth i s 0)). reflexivity.
Qed.
Lemma view_upd : forall s a d v, good a = true -> length s = 5%nat -> (d < 5)%nat ->
  view (upd s (nth d a 0%nat) v) a = upd (view s a) d v.
Proof.
  intros s a d v Ha Hs Hd. destruct (good_spec a Ha) as (La & Ba & Ia).
  apply (nth_ext _ _ 0 0).
  - rewrite upd_length. unfold view. rewrite !map_length. reflexivity.
  - intros i Hi. unfold view in Hi. rewrite map_length, La in Hi.
    rewrite nth_view by assumption. pose proof (Ba d Hd). rewrite nth_upd by lia.
    rewrite nth_upd by (unfold view; rewrite map_length; lia). rewrite nth_view by assumption.
    destruct (Nat.eqb_spec d i) as [->|N]; [rewrite Nat.eqb_refl; reflexivity|].
    destruct (Nat.eqb_spec (nth d a 0%nat) (nth i a 0%nat)) as [E|_]; [|reflexivity].
    exfalso. apply N, Ia; assumption.
Qed.
Lemma ins_length : forall k s i, length (serpent_ins k s i) = length s.
Proof. intros k s []; apply upd_length. Qed.
Lemma ins_view : forall k s a i, good a = true -> length s = 5%nat ->
  forallb (fun r => Nat.ltb r 5) (ins_regs i) = true ->
  view (serpent_ins k s (serpent_rename a i)) a = serpent_ins k (view s a) i.
Proof.
  intros k s a i Ha Hs Hi. pose proof (proj1 (good_spec a Ha)) as La.
  destruct i; cbn [ins_regs forallb] in Hi; rewrite ?andb_true_r, ?andb_true_iff, ?Nat.ltb_lt in Hi;
    cbn [serpent_rename serpent_ins]; rewrite view_upd, ?nth_view by tauto; reflexivity.
Qed.
Lemma run_view : forall k p s a, good a = true -> length s = 5%nat -> prog_ok p = true ->
  view (serpent_run k (map (serpent_rename a) p) s) a = serpent_run k p (view s a).
Proof.
  intros k p. unfold serpent_run. induction p as [|i p IH]; intros s a Ha Hs Hp; cbn [map fold_left]; [reflexivity|].
  cbn [prog_ok forallb] in Hp. apply andb_true_iff in Hp. destruct Hp as [Hi Hp].
  rewrite IH by (auto; rewrite ins_length; exact Hs). rewrite ins_view by assumption. reflexivity.
Qed.
Lemma run_length : forall k p s, length (serpent_run k p s) = length s.
Proof.
  intros k p. unfold serpent_run. induction p as [|i p IH]; intro s; cbn [fold_left]; [reflexivity|].
  rewrite IH. apply ins_length.
Qed.
Lemma ins_words : forall k s i, words 32 k -> words 32 s -> words 32 (serpent_ins k s i).
Proof.
  intros k s i Hk Hs. pose proof (nth_words 32 s) as Hn.
  assert (forall n, nth n s 0 < 2 ^ 32) as B by (intro; apply nth_words, Hs).
  destruct i; cbn [serpent_ins]; apply upd_words; auto.
  - apply lxor_lt; auto.
  - apply land_lt_l; auto.
  - apply lor_lt; auto.
  - apply notw_lt; auto.
  - apply rotl_lt; auto.
  - apply rotr_lt; auto.
  - apply shlw_lt.
  - apply lxor_lt; auto. apply nth_words, Hk.
Qed.
Lemma run_words : forall k p s, words 32 k -> words 32 s -> words 32 (serpent_run k p s).
Proof.
  intros k p. unfold serpent_run. induction p as [|i p IH]; intros s Hk Hs; cbn [fold_left]; [exact Hs|].
  apply IH; [exact Hk|]. apply ins_words; assumption.
Qed.

(* ---- the sequence of calls as steps on the values a macro sees ---- *)
Fixpoint index (x : nat) (a : list nat) : nat :=
  match a with [] => 0%nat | y :: r => if Nat.eqb y x then 0%nat else S (index x r) end.
Definition rel (a b : list nat) : list nat := map (fun x => index x a) b.
Lemma index_nth : forall a x, In x a -> nth (index x a) a 0%nat = x /\ (index x a < length a)%nat.
Proof.
  induction a as [|y a IH]; intros x Hx; [destruct Hx|]. cbn [index].
  destruct (Nat.eqb_spec y x) as [->|N]; [cbn; split; [reflexivity|lia]|].
  destruct Hx as [->|Hx]; [contradiction|]. cbn [nth length]. destruct (IH x Hx). split; [assumption|lia].
Qed.
Lemma good_In : forall a x, good a = true -> (x < 5)%nat -> In x a.
Proof.
  intros a x Ha Hx. destruct (good_spec a Ha) as (La & Ba & Ia).
  assert (NoDup a) as ND by (apply (NoDup_nth a 0%nat); intros i j Hi Hj; apply Ia; lia).
  apply (NoDup_length_incl ND (l' := seq 0 5)).
  - rewrite seq_length, La. lia.
  - intros y Hy. destruct (In_nth a y 0%nat Hy) as (i & Hi & <-). apply in_seq. specialize (Ba i). lia.
  - apply in_seq. lia.
Qed.
Lemma view_rel : forall s a b, good a = true -> good b = true -> view s b = view (view s a) (rel a b).
Proof.
  intros s a b Ha Hb. destruct (good_spec a Ha) as (La & _). destruct (good_spec b Hb) as (Lb & Bb & _).
  unfold rel. unfold view at 2. rewrite map_map. unfold view at 1. apply map_ext_in. intros x Hx.
  destruct (In_nth b x 0%nat Hx) as (i & Hi & Ei). assert (x < 5)%nat as Hx5 by (rewrite <- Ei; apply Bb; lia).
  destruct (index_nth a x (good_In a x Ha Hx5)) as [E L]. rewrite nth_view by lia. rewrite E. reflexivity.
Qed.

Definition drop4 (p : list sins) : Prop := forall k a b c d e,
  serpent_run k p [a; b; c; d; e] = serpent_run k p [a; b; c; d; 0].
Ltac srun := cbn [nth fold_left serpent_ins upd map app serpent_sboxes serpent_sboxes_1].
Lemma lk_drop4 : drop4 serpent_lk. Proof. intros k a b c d e. unfold serpent_run, serpent_lk. srun. reflexivity. Qed.
Lemma lk_1_drop4 : drop4 serpent_lk_1. Proof. intros k a b c d e. unfold serpent_run, serpent_lk_1. srun. reflexivity. Qed.
Ltac sunf := unfold serpent_run;
  (unfold serpent_sbox0 || unfold serpent_sbox1 || unfold serpent_sbox2 || unfold serpent_sbox3 || unfold serpent_sbox4 ||
   unfold serpent_sbox5 || unfold serpent_sbox6 || unfold serpent_sbox7 ||
   unfold serpent_sbox0_1 || unfold serpent_sbox1_1 || unfold serpent_sbox2_1 || unfold serpent_sbox3_1 || unfold serpent_sbox4_1 ||
   unfold serpent_sbox5_1 || unfold serpent_sbox6_1 || unfold serpent_sbox7_1).
Lemma sbox_drop4 : forall i, (i < 8)%nat -> drop4 (nth i serpent_sboxes []) /\ drop4 (nth i serpent_sboxes_1 []).
Proof. intros i Hi. do 8 (destruct i as [|i]; [split; intros k a b c d e; cbn [nth serpent_sboxes serpent_sboxes_1]; sunf; srun; reflexivity|]). lia. Qed.

(* a call with its arguments forgotten, and the positions, in the argument list of the call before it, of
   its first four arguments *)
Inductive ncall := NS (i : nat) | NS_1 (i : nat) | NL (r : nat) | NL_1 (r : nat).
Definition ncall_of (c : scall) : ncall :=
  match c with SBox i _ => NS i | SBox_1 i _ => NS_1 i | SLk _ r => NL r | SLk_1 _ r => NL_1 r end.
Definition nprog (c : ncall) : list sins :=
  match c with
  | NS i => nth i serpent_sboxes [] | NS_1 i => nth i serpent_sboxes_1 []
  | NL _ => serpent_lk | NL_1 _ => serpent_lk_1
  end.
Definition nkeys (K : list N) (c : ncall) : list N :=
  match c with NS _ | NS_1 _ => [] | NL r | NL_1 r => slice K (4 * r) 4 end.
Fixpoint norm (a : list nat) (calls : list scall) : list (ncall * list nat) :=
  match calls with
  | [] => []
  | c :: r => (ncall_of c, firstn 4 (rel a (serpent_args c))) :: norm (serpent_args c) r
  end.
Definition nstep (K : list N) (v : list N) (cr : ncall * list nat) : list N :=
  serpent_run (nkeys K (fst cr)) (nprog (fst cr)) (view v (snd cr) ++ [0]).
Definition call_ok (c : scall) : bool :=
  good (serpent_args c) && match c with SBox i _ | SBox_1 i _ => Nat.ltb i 8 | _ => true end.
Definition last_args (a : list nat) (calls : list scall) : list nat := fold_left (fun _ c => serpent_args c) calls a.

Lemma call_prog_ok : forall c, call_ok c = true -> prog_ok (serpent_prog c) = true /\ drop4 (serpent_prog c).
Proof.
  intros c Hc. unfold call_ok in Hc. apply andb_true_iff in Hc. destruct Hc as [_ Hc].
  destruct c as [i a|i a|a r|a r]; cbn [serpent_prog].
  - apply Nat.ltb_lt in Hc. split; [|apply sbox_drop4, Hc].
    do 8 (destruct i as [|i]; [reflexivity|]). lia.
  - apply Nat.ltb_lt in Hc. split; [|apply sbox_drop4, Hc].
    do 8 (destruct i as [|i]; [reflexivity|]). lia.
  - split; [reflexivity|apply lk_drop4].
  - split; [reflexivity|apply lk_1_drop4].
Qed.
Lemma calls_view : forall K calls s a, forallb call_ok calls = true -> good a = true -> length s = 5%nat ->
  view (fold_left (serpent_call K) calls s) (last_args a calls) = fold_left (nstep K) (norm a calls) (view s a).
Proof.
  intros K calls. induction calls as [|c calls IH]; intros s a Hc Ha Hs; [reflexivity|].
  cbn [forallb] in Hc. apply andb_true_iff in Hc. destruct Hc as [Hc0 Hc].
  assert (good (serpent_args c) = true) as Hg by (unfold call_ok in Hc0; apply andb_true_iff in Hc0; apply Hc0).
  destruct (call_prog_ok c Hc0) as [Hp Hd].
  cbn [fold_left norm last_args]. fold (last_args (serpent_args c) calls).
  rewrite IH; [|exact Hc|exact Hg|unfold serpent_call; rewrite run_length; exact Hs].
  f_equal. unfold serpent_call. rewrite run_view by assumption. rewrite (view_rel s a (serpent_args c)) by assumption.
  unfold nstep. cbn [fst snd].
  assert (nkeys K (ncall_of c) = serpent_rkeys K c) as -> by (destruct c; reflexivity).
  assert (nprog (ncall_of c) = serpent_prog c) as -> by (destruct c; reflexivity).
  pose proof (proj1 (good_spec _ Hg)) as Lc.
  assert (length (rel a (serpent_args c)) = 5%nat) as LR by (unfold rel; rewrite map_length; exact Lc).
  destruct (rel a (serpent_args c)) as [|r0 [|r1 [|r2 [|r3 [|r4 [|? ?]]]]]]; try discriminate LR.
  cbn [view firstn map app]. apply Hd.
Qed.

(* ---- the s-boxes, bit by bit ---- *)
Fixpoint updb (l : list bool) (i : nat) (v : bool) : list bool :=
  match l, i with [], _ => [] | _ :: r, O => v :: r | a :: r, S j => a :: updb r j v end.
Definition bins (s : list bool) (i : sins) : list bool :=
  let R n := nth n s false in
  match i with
  | SMov d x => updb s d (R x)
  | SXor d x => updb s d (xorb (R d) (R x))
  | SAnd d x => updb s d (R d && R x)
  | SOr d x => updb s d (R d || R x)
  | SNot d => updb s d (negb (R d))
  | _ => s
  end.
Definition bitwise (i : sins) : bool :=
  match i with SMov _ _ | SXor _ _ | SAnd _ _ | SOr _ _ | SNot _ => true | _ => false end.
Definition bitsof (i : N) (s : list N) : list bool := map (fun x => N.testbit x i) s.
Lemma bits_upd : forall i s d v, bitsof i (upd s d v) = updb (bitsof i s) d (N.testbit v i).
Proof. intros i s. induction s as [|a s IH]; intros [|d] v; cbn; try reflexivity. f_equal. apply IH. Qed.
Lemma bits_nth : forall i s n, nth n (bitsof i s) false = N.testbit (nth n s 0) i.
Proof. intros. unfold bitsof. rewrite <- (map_nth (fun x => N.testbit x i)). rewrite N.bits_0. reflexivity. Qed.
Lemma bins_bits : forall k s i x, i < 32 -> bitwise x = true -> bitsof i (serpent_ins k s x) = bins (bitsof i s) x.
Proof.
  intros k s i x Hi Hx. destruct x; try discriminate Hx; cbn [serpent_ins bins]; rewrite bits_upd, !bits_nth; f_equal.
  - apply N.lxor_spec.
  - apply N.land_spec.
  - apply N.lor_spec.
  - rewrite notw_testbit. assert (i <? 32 = true) as -> by (apply N.ltb_lt, Hi). destruct (N.testbit _ _); reflexivity.
Qed.
Lemma brun_bits : forall k p s i, i < 32 -> forallb bitwise p = true ->
  bitsof i (serpent_run k p s) = fold_left bins p (bitsof i s).
Proof.
  intros k p. unfold serpent_run. induction p as [|x p IH]; intros s i Hi Hp; cbn [fold_left]; [reflexivity|].
  cbn [forallb] in Hp. apply andb_true_iff in Hp. destruct Hp as [Hx Hp].
  rewrite IH by assumption. rewrite bins_bits by assumption. reflexivity.
Qed.
Definition bview (s : list bool) (a : list nat) : list bool := map (fun i => nth i s false) a.
Lemma bits_view : forall i s a, bitsof i (view s a) = bview (bitsof i s) a.
Proof. intros. unfold bitsof, view, bview. rewrite map_map. apply map_ext. intro n. symmetry. apply bits_nth. Qed.

(* position of the four outputs of each s-box among its arguments *)
Definition outs (i : nat) : list nat :=
  nth i [[2;1;3;0]; [4;2;3;0]; [4;1;0;3]; [3;4;1;0]; [1;2;3;4]; [4;0;1;3]; [2;4;1;3]; [4;2;3;0]]%nat [].
Definition outs_1 (i : nat) : list nat :=
  nth i [[2;4;1;0]; [4;1;2;3]; [1;4;3;2]; [2;0;4;3]; [0;2;4;3]; [1;4;0;2]; [2;4;3;0]; [1;3;0;4]]%nat [].
Definition S_ (i : nat) (v : list N) : list N := view (serpent_run [] (nth i serpent_sboxes []) (v ++ [0])) (outs i).
Definition S_1 (i : nat) (v : list N) : list N := view (serpent_run [] (nth i serpent_sboxes_1 []) (v ++ [0])) (outs_1 i).
Definition bS (i : nat) (v : list bool) : list bool := bview (fold_left bins (nth i serpent_sboxes []) (v ++ [false])) (outs i).
Definition bS_1 (i : nat) (v : list bool) : list bool := bview (fold_left bins (nth i serpent_sboxes_1 []) (v ++ [false])) (outs_1 i).
Lemma bS_inv : forall i p q r s, (i < 8)%nat -> bS_1 i (bS i [p; q; r; s]) = [p; q; r; s].
Proof. intros i p q r s Hi. do 8 (destruct i as [|i]; [destruct p, q, r, s; vm_compute; reflexivity|]). lia. Qed.
Lemma sbox_bitwise : forall i, (i < 8)%nat -> forallb bitwise (nth i serpent_sboxes []) = true /\ forallb bitwise (nth i serpent_sboxes_1 []) = true.
Proof. intros i Hi. do 8 (destruct i as [|i]; [split; reflexivity|]). lia. Qed.
Lemma bits_S : forall n i v, n < 32 -> (i < 8)%nat -> bitsof n (S_ i v) = bS i (bitsof n v) /\ bitsof n (S_1 i v) = bS_1 i (bitsof n v).
Proof.
  intros n i v Hn Hi. destruct (sbox_bitwise i Hi) as [B1 B2]. unfold S_, S_1, bS, bS_1. rewrite !bits_view.
  rewrite !brun_bits by assumption. 
  assert (bitsof n (v ++ [0]) = bitsof n v ++ [false]) as -> by (unfold bitsof; rewrite map_app; cbn [map]; rewrite N.bits_0; reflexivity).
  split; reflexivity.
Qed.
Definition w4l (v : list N) : Prop := length v = 4%nat /\ words 32 v.
Lemma view_ok : forall s a, words 32 s -> length a = 4%nat -> w4l (view s a).
Proof.
  intros s a Hs Ha. split; [unfold view; rewrite map_length; exact Ha|].
  unfold view. apply Forall_map, Forall_forall. intros. apply nth_words, Hs.
Qed.
Lemma S_ok : forall i v, (i < 8)%nat -> w4l v -> w4l (S_ i v) /\ w4l (S_1 i v).
Proof.
  intros i v Hi [L W]. split; apply view_ok.
  - apply run_words; [constructor|]. apply words_app. split; [exact W|]. repeat constructor.
  - do 8 (destruct i as [|i]; [reflexivity|]). lia.
  - apply run_words; [constructor|]. apply words_app. split; [exact W|]. repeat constructor.
  - do 8 (destruct i as [|i]; [reflexivity|]). lia.
Qed.
Lemma bits_ext : forall a b, w4l a -> w4l b -> (forall n, n < 32 -> bitsof n a = bitsof n b) -> a = b.
Proof.
  intros a b [La Wa] [Lb Wb] H. apply (nth_ext _ _ 0 0); [congruence|]. intros i _. apply N.bits_inj. intro n.
  destruct (N.lt_ge_cases n 32) as [Hn|Hn].
  - rewrite <- !bits_nth. rewrite (H n Hn). reflexivity.
  - rewrite !(testbit_above _ 32) by (try assumption; apply nth_words; assumption). reflexivity.
Qed.
Lemma S_inv : forall i v, (i < 8)%nat -> w4l v -> S_1 i (S_ i v) = v.
Proof.
  intros i v Hi Hv. destruct (S_ok i v Hi Hv) as [O1 _]. destruct (S_ok i _ Hi O1) as [_ O2].
  apply bits_ext; [exact O2|exact Hv|]. intros n Hn.
  rewrite (proj2 (bits_S n i (S_ i v) Hn Hi)), (proj1 (bits_S n i v Hn Hi)).
  destruct Hv as [Lv _]. destruct v as [|a [|b [|c [|d [|? ?]]]]]; try discriminate Lv. apply bS_inv, Hi.
Qed.

(* ---- the linear transformation ---- *)
Definition L_ (k : list N) (v : list N) : list N := view (serpent_run k serpent_lk (v ++ [0])) [0;1;2;3]%nat.
Definition L_1 (k : list N) (v : list N) : list N := view (serpent_run k serpent_lk_1 (v ++ [0])) [0;1;2;3]%nat.
Lemma L_ok : forall k v, words 32 k -> w4l v -> w4l (L_ k v) /\ w4l (L_1 k v).
Proof.
  intros k v Hk [L W]. assert (words 32 (v ++ [0])) by (apply words_app; split; [exact W|repeat constructor]).
  split; apply view_ok; try reflexivity; apply run_words; assumption.
Qed.
Lemma L_eq : forall k a b c d, let K i := nth i k 0 in
  let x0 := rotl32 a 13 in let x2 := rotl32 c 3 in
  let x1 := rotl32 (xor (xor b x0) x2) 1 in
  let x3 := rotl32 (xor (xor d x2) (shl32 x0 3)) 7 in
  let y0 := rotl32 (xor (xor x0 x1) x3) 5 in
  let y2 := rotl32 (xor (xor x2 x3) (shl32 x1 7)) 22 in
  L_ k [a; b; c; d] = [xor y0 (K 0%nat); xor x1 (K 1%nat); xor y2 (K 2%nat); xor x3 (K 3%nat)].
Proof. intros. unfold L_, view, serpent_run, serpent_lk. srun. reflexivity. Qed.
Lemma L_1_eq : forall k a b c d, let K i := nth i k 0 in
  let y0 := rotr32 (xor a (K 0%nat)) 5 in let y2 := rotr32 (xor c (K 2%nat)) 22 in
  let x1 := xor b (K 1%nat) in let x3 := xor d (K 3%nat) in
  let x2 := xor (xor y2 x3) (shl32 x1 7) in
  let x0 := xor (xor y0 x3) x1 in
  L_1 k [a; b; c; d] = [rotr32 x0 13; xor (xor (rotr32 x1 1) x0) x2; rotr32 x2 3; xor (xor (rotr32 x3 7) (shl32 x0 3)) x2].
Proof. intros. unfold L_1, view, serpent_run, serpent_lk_1. srun. reflexivity. Qed.
Lemma xor_swap_cancel : forall a b c, xor (xor (xor (xor a b) c) b) c = a.
Proof.
  intros. apply N.bits_inj. intro i. rewrite !N.lxor_spec.
  destruct (N.testbit a i), (N.testbit b i), (N.testbit c i); reflexivity.
Qed.
Lemma L_inv : forall k v, words 32 k -> w4l v -> L_1 k (L_ k v) = v.
Proof.
  intros k v Hk [Lv Wv]. destruct v as [|a [|b [|c [|d [|? ?]]]]]; try discriminate Lv.
  unfold words in Wv. rewrite !Forall_cons_iff in Wv. destruct Wv as (Ha & Hb & Hc & Hd & _).
  rewrite L_eq. rewrite L_1_eq. cbv zeta. rewrite !lxor_cancel_r.
  set (x0 := rotl32 a 13). set (x2 := rotl32 c 3).
  assert (x0 < 2 ^ 32) as H0 by (apply rotl_lt, Ha). assert (x2 < 2 ^ 32) as H2 by (apply rotl_lt, Hc).
  assert (xor (xor b x0) x2 < 2 ^ 32) as H1' by (repeat apply lxor_lt; assumption).
  set (x1 := rotl32 (xor (xor b x0) x2) 1).
  assert (xor (xor d x2) (shl32 x0 3) < 2 ^ 32) as H3' by (repeat apply lxor_lt; auto using shlw_lt).
  set (x3 := rotl32 (xor (xor d x2) (shl32 x0 3)) 7).
  assert (x1 < 2 ^ 32) as H1 by (apply rotl_lt, H1'). assert (x3 < 2 ^ 32) as H3 by (apply rotl_lt, H3').
  assert (rotr32 (rotl32 (xor (xor x0 x1) x3) 5) 5 = xor (xor x0 x1) x3) as ->
    by (apply rotr_rotl; [repeat apply lxor_lt; assumption|discriminate]).
  assert (rotr32 (rotl32 (xor (xor x2 x3) (shl32 x1 7)) 22) 22 = xor (xor x2 x3) (shl32 x1 7)) as ->
    by (apply rotr_rotl; [repeat apply lxor_lt; auto using shlw_lt|discriminate]).
  rewrite xor_swap_cancel. rewrite !lxor_cancel_r.
  assert (rotr32 x1 1 = xor (xor b x0) x2) as -> by (apply rotr_rotl; [assumption|discriminate]).
  assert (rotr32 x3 7 = xor (xor d x2) (shl32 x0 3)) as -> by (apply rotr_rotl; [assumption|discriminate]).
  rewrite xor_swap_cancel. rewrite !lxor_cancel_r.
  unfold x0, x2. rewrite !rotr_rotl by (assumption || discriminate). reflexivity.
Qed.

(* ---- the whole cipher ---- *)
Definition first : list nat := [0;1;2;3]%nat.
Definition pair_enc (i : nat) : list (ncall * list nat) := [(NL (S i), outs (Nat.modulo i 8)); (NS (Nat.modulo (S i) 8), first)].
Definition pair_dec (i : nat) : list (ncall * list nat) := [(NL_1 (S i), outs_1 (Nat.modulo (S i) 8)); (NS_1 (Nat.modulo i 8), first)].
Definition regs : list nat := [0;1;2;3;4]%nat.

Lemma enc_norm : norm regs serpent_enc_calls = (NS 0, first) :: flat_map pair_enc (seq 0 31).
Proof. vm_compute. reflexivity. Qed.
Lemma dec_norm : norm regs serpent_dec_calls = (NS_1 7, first) :: flat_map pair_dec (rev (seq 0 31)).
Proof. vm_compute. reflexivity. Qed.
Lemma calls_ok : forallb call_ok serpent_enc_calls = true /\ forallb call_ok serpent_dec_calls = true /\
  last_args regs serpent_enc_calls = [3;4;1;2;0]%nat /\ last_args regs serpent_dec_calls = [4;1;2;0;3]%nat.
Proof. repeat split; vm_compute; reflexivity. Qed.

Lemma view_first : forall s, (4 <= length s)%nat -> view s first = firstn 4 s.
Proof. intros s H. destruct s as [|a [|b [|c [|d s]]]]; cbn in H; try lia. reflexivity. Qed.
Lemma mod8 : forall i, (Nat.modulo i 8 < 8)%nat.
Proof. intro. apply Nat.mod_upper_bound. discriminate. Qed.
Definition f_enc (K : list N) (u : list N) (i : nat) : list N := S_ (Nat.modulo (S i) 8) (L_ (slice K (4 * S i) 4) u).
Definition f_dec (K : list N) (u : list N) (i : nat) : list N := L_1 (slice K (4 * S i) 4) (S_1 (Nat.modulo (S i) 8) u).
Lemma enc_fold : forall K n v,
  view (fold_left (nstep K) (flat_map pair_enc (seq 0 n)) (serpent_run [] (nth 0 serpent_sboxes []) (v ++ [0]))) (outs (Nat.modulo n 8)) =
  fold_left (f_enc K) (seq 0 n) (S_ 0 v).
Proof.
  intros K n v. induction n as [|n IH]; [reflexivity|].
  rewrite seq_S, flat_map_app, !fold_left_app. cbn [flat_map app Nat.add pair_enc fold_left].
  unfold f_enc at 1. rewrite <- IH. unfold S_, L_.
  unfold nstep at 1. cbn [fst snd nkeys nprog]. f_equal.
Qed.
Lemma nstep_L_1 : forall K v r a, nstep K v (NL_1 r, a) = serpent_run (slice K (4 * r) 4) serpent_lk_1 (view v a ++ [0]).
Proof. reflexivity. Qed.
Lemma nstep_S_1 : forall K v i a, nstep K v (NS_1 i, a) = serpent_run [] (nth i serpent_sboxes_1 []) (view v a ++ [0]).
Proof. reflexivity. Qed.
Lemma fold_nil : forall (A B : Type) (f : A -> B -> A) x, fold_left f [] x = x.
Proof. reflexivity. Qed.
Lemma fold_2 : forall (A B : Type) (f : A -> B -> A) x a b l, fold_left f ([a; b] ++ l) x = fold_left f l (f (f x a) b).
Proof. reflexivity. Qed.
Lemma dec_fold : forall K n v,
  view (fold_left (nstep K) (flat_map pair_dec (rev (seq 0 n))) (serpent_run [] (nth (Nat.modulo n 8) serpent_sboxes_1 []) (v ++ [0]))) (outs_1 0) =
  S_1 0 (fold_left (f_dec K) (rev (seq 0 n)) v).
Proof.
  intros K n. induction n as [|n IH]; intro v.
  - change (flat_map pair_dec (rev (seq 0 0))) with (@nil (ncall * list nat)). change (rev (seq 0 0)) with (@nil nat).
    change (Nat.modulo 0 8) with 0%nat. rewrite !fold_nil. unfold S_1. reflexivity.
  - assert (rev (seq 0 (S n)) = n :: rev (seq 0 n)) as -> by (rewrite seq_S, rev_app_distr; reflexivity).
    assert (flat_map pair_dec (n :: rev (seq 0 n)) = pair_dec n ++ flat_map pair_dec (rev (seq 0 n))) as -> by reflexivity.
    unfold pair_dec at 1. rewrite fold_2, nstep_L_1, nstep_S_1. cbn [fold_left]. rewrite <- IH.
    unfold f_dec at 1. unfold L_1, S_1, first. reflexivity.
Qed.
Lemma core_inv : forall K v, words 32 K -> w4l v ->
  S_1 0 (fold_left (f_dec K) (rev (seq 0 31)) (fold_left (f_enc K) (seq 0 31) (S_ 0 v))) = v /\
  w4l (fold_left (f_enc K) (seq 0 31) (S_ 0 v)) /\ w4l (S_1 0 (fold_left (f_dec K) (rev (seq 0 31)) v)).
Proof.
  intros K v HK Hv.
  assert (forall i, words 32 (slice K (4 * S i) 4)) as HS by (intro; apply words_slice, HK).
  pose proof (S_ok 0 v ltac:(lia) Hv) as [O1 _].
  destruct (fold_inverse (list N) nat w4l (fun _ => True) (f_enc K) (f_dec K) (seq 0 31) (S_ 0 v)) as [H1 H2].
  { intros s i Hs _. unfold f_enc, f_dec. pose proof (proj1 (L_ok _ s (HS i) Hs)) as O2.
    split; [|exact (proj1 (S_ok _ _ (mod8 _) O2))]. rewrite S_inv by (apply mod8 || exact O2). apply L_inv; auto. }
  { apply Forall_true. }
  { exact O1. }
  split; [rewrite H1; apply S_inv; [lia|exact Hv]|]. split; [exact H2|].
  refine (proj2 (S_ok 0 _ _ _)); [lia|].
  apply fold_wf with (okk := fun _ => True); [|apply Forall_true|exact Hv].
  intros s i Hs _. unfold f_dec. refine (proj2 (L_ok _ _ (HS i) _)). exact (proj2 (S_ok _ _ (mod8 _) Hs)).
Qed.

Definition keyx (K : list N) (o : nat) (v : list N) : list N :=
  match v with [a; b; c; d] => [xor a (nth o K 0); xor b (nth (o + 1) K 0); xor c (nth (o + 2) K 0); xor d (nth (o + 3) K 0)] | _ => v end.
Definition l4 (s : N * N * N * N) : list N := let '(a, b, c, d) := s in [a; b; c; d].
Definition t4 (v : list N) : N * N * N * N := (nth 0 v 0, nth 1 v 0, nth 2 v 0, nth 3 v 0).
Lemma fold_1 : forall (A B : Type) (f : A -> B -> A) x a l, fold_left f (a :: l) x = fold_left f l (f x a).
Proof. reflexivity. Qed.
Lemma nstep_S : forall K v i a, nstep K v (NS i, a) = serpent_run [] (nth i serpent_sboxes []) (view v a ++ [0]).
Proof. reflexivity. Qed.
Lemma view_regs : forall a b c d e, view (view [a; b; c; d; e] regs) first = [a; b; c; d].
Proof. reflexivity. Qed.
Lemma enc_out : forall K u, (xor (serpent_R u 0) (nth 128 K 0), xor (serpent_R u 1) (nth 129 K 0), xor (serpent_R u 2) (nth 130 K 0), xor (serpent_R u 3) (nth 131 K 0)) =
  t4 (keyx K 128 (view (view u [3;4;1;2;0]%nat) (outs 7))).
Proof. reflexivity. Qed.
Lemma dec_out : forall K u, (xor (serpent_R u 2) (nth 0 K 0), xor (serpent_R u 3) (nth 1 K 0), xor (serpent_R u 1) (nth 2 K 0), xor (serpent_R u 4) (nth 3 K 0)) =
  t4 (keyx K 0 (view (view u [4;1;2;0;3]%nat) (outs_1 0))).
Proof. reflexivity. Qed.
Lemma keyx0 : forall K a b c d, [xor a (nth 0 K 0); xor b (nth 1 K 0); xor c (nth 2 K 0); xor d (nth 3 K 0)] = keyx K 0 [a; b; c; d].
Proof. reflexivity. Qed.
Lemma keyx128 : forall K a b c d, [xor a (nth 128 K 0); xor b (nth 129 K 0); xor c (nth 130 K 0); xor d (nth 131 K 0)] = keyx K 128 [a; b; c; d].
Proof. reflexivity. Qed.
Lemma enc_words : forall K s, serpent_encrypt_words K s =
  t4 (keyx K 128 (fold_left (f_enc K) (seq 0 31) (S_ 0 (keyx K 0 (l4 s))))).
Proof.
  intros K [[[a b] c] d]. unfold serpent_encrypt_words. cbv zeta. rewrite enc_out.
  destruct calls_ok as (C1 & _ & C3 & _).
  rewrite <- C3, calls_view, enc_norm, fold_1, nstep_S, view_regs by (assumption || reflexivity).
  rewrite keyx0. cbn [l4]. rewrite <- enc_fold. reflexivity.
Qed.
Lemma dec_words : forall K s, serpent_decrypt_words K s =
  t4 (keyx K 0 (S_1 0 (fold_left (f_dec K) (rev (seq 0 31)) (keyx K 128 (l4 s))))).
Proof.
  intros K [[[a b] c] d]. unfold serpent_decrypt_words. cbv zeta. rewrite dec_out.
  destruct calls_ok as (_ & C1 & _ & C3).
  rewrite <- C3, calls_view, dec_norm, fold_1, nstep_S_1, view_regs by (assumption || reflexivity).
  rewrite keyx128. cbn [l4]. rewrite <- dec_fold. reflexivity.
Qed.
Lemma keyx_cancel : forall K o v, length v = 4%nat -> keyx K o (keyx K o v) = v.
Proof. intros K o v L. destruct v as [|a [|b [|c [|d [|? ?]]]]]; try discriminate L. cbn [keyx]. rewrite !lxor_cancel_r. reflexivity. Qed.
Lemma keyx_ok : forall K o v, words 32 K -> w4l v -> w4l (keyx K o v).
Proof.
  intros K o v HK [L W]. destruct v as [|a [|b [|c [|d [|? ?]]]]]; try discriminate L. cbn [keyx].
  unfold words in W. rewrite !Forall_cons_iff in W. destruct W as (Ha & Hb & Hc & Hd & _).
  split; [reflexivity|]. repeat constructor; apply lxor_lt; try assumption; apply nth_words, HK.
Qed.
Lemma l4_t4 : forall v, length v = 4%nat -> l4 (t4 v) = v.
Proof. intros v L. destruct v as [|a [|b [|c [|d [|? ?]]]]]; try discriminate L. reflexivity. Qed.
Lemma t4_l4 : forall s, t4 (l4 s) = s.
Proof. intros [[[a b] c] d]. reflexivity. Qed.
Lemma t4_ok : forall v, w4l v -> w4 32 (t4 v).
Proof.
  intros v [L W]. destruct v as [|a [|b [|c [|d [|? ?]]]]]; try discriminate L.
  unfold words in W. rewrite !Forall_cons_iff in W. unfold t4, w4. cbn [nth]. tauto.
Qed.
Lemma l4_ok : forall s, w4 32 s -> w4l (l4 s).
Proof. intros [[[a b] c] d] ((Ha & Hb) & (Hc & Hd)). split; [reflexivity|]. repeat constructor; assumption. Qed.

Lemma serpent_words_inv : forall K s, words 32 K -> w4 32 s ->
  serpent_decrypt_words K (serpent_encrypt_words K s) = s /\
  w4 32 (serpent_encrypt_words K s) /\ w4 32 (serpent_decrypt_words K s).
Proof.
  intros K s HK Hs. pose proof (l4_ok s Hs) as Hl.
  pose proof (keyx_ok K 0 _ HK Hl) as H0. pose proof (keyx_ok K 128 _ HK Hl) as H8.
  destruct (core_inv K _ HK H0) as (I & O & _). destruct (core_inv K _ HK H8) as (_ & _ & O').
  rewrite enc_words, !dec_words.
  set (c := fold_left (f_enc K) (seq 0 31) (S_ 0 (keyx K 0 (l4 s)))) in *.
  rewrite l4_t4 by (exact (proj1 (keyx_ok K 128 c HK O))). rewrite keyx_cancel by apply O. rewrite I.
  rewrite keyx_cancel by apply Hl. rewrite t4_l4. split; [reflexivity|].
  split; apply t4_ok, keyx_ok; assumption.
Qed.
Lemma serpent_inverse : forall K, words 32 K -> inverse_on 16 (serpent_block_encrypt K) (serpent_block_decrypt K).
Proof.
  intros K HK. apply (inverse_blk_le 4 4). apply word_inverse_on4. intros s Hs. apply serpent_words_inv; assumption.
Qed.

(* ---- the key schedule ---- *)
Lemma tw_words : forall w, words 32 w -> words 32 (serpent_tw w).
Proof.
  intros w Hw. unfold serpent_tw. apply words_rev.
  assert (forall l, Forall (fun i => i < 132)%nat l -> forall s, words 32 s -> words 32 (fold_left serpent_tw_step l s)) as H.
  { intros l Hl. induction Hl as [|i l Hi Hl IH]; intros s Hs; [exact Hs|]. cbn [fold_left]. apply IH.
    unfold serpent_tw_step. constructor; [|exact Hs]. apply rotl_lt.
    repeat apply lxor_lt; try (apply nth_words, Hs); try reflexivity.
    apply N.lt_le_trans with 132; [lia|discriminate]. }
  apply H; [|apply words_rev, Hw]. apply Forall_forall. intros i Hi. apply in_seq in Hi. lia.
Qed.
Lemma kop_words : forall tw st o, words 32 tw -> words 32 (fst st) /\ words 32 (snd st) ->
  words 32 (fst (serpent_kop tw st o)) /\ words 32 (snd (serpent_kop tw st o)).
Proof.
  intros tw [s K] o Ht [Hs HK]. cbn [fst snd] in *. destruct o as [c|a r|a r]; cbn [serpent_kop fst snd].
  - split; [|exact HK]. unfold serpent_call. apply run_words; [|exact Hs].
    destruct c; cbn [serpent_rkeys]; try constructor; apply words_slice; constructor.
  - split; [exact Hs|]. apply fold_wf with (okk := fun _ => True); [|apply Forall_true|exact HK].
    intros x i Hx _. apply upd_words; [exact Hx|]. apply nth_words, Hs.
  - split; [|exact HK]. apply fold_wf with (okk := fun _ => True); [|apply Forall_true|exact Hs].
    intros x i Hx _. apply upd_words; [exact Hx|]. apply nth_words, Ht.
Qed.
Lemma expand_words : forall w, words 32 w -> words 32 (serpent_expand w).
Proof.
  intros w Hw. unfold serpent_expand. cbv zeta. pose proof (tw_words w Hw) as Ht. set (tw := serpent_tw w) in *. clearbody tw.
  assert (forall l st, words 32 (fst st) /\ words 32 (snd st) -> words 32 (snd (fold_left (serpent_kop tw) l st))) as H.
  { intro l. induction l as [|o l IH]; intros st Hst; cbn [fold_left]; [apply Hst|]. apply IH, kop_words; assumption. }
  apply H. cbn [fst snd]. split; [|apply words_repeat0].
  repeat (apply Forall_cons; [apply nth_words, Ht|]). constructor.
Qed.

Lemma pad_key_bytes : forall key p, bytes key -> serpent_pad_key key = Done p -> bytes p /\ length p = 32%nat.
Proof.
  intros key p Hk H. unfold serpent_pad_key in H.
  destruct (Nat.ltb_spec 32 (length key)) as [|L1]; [discriminate H|].
  destruct (Nat.ltb_spec (length key) 32) as [L2|L2].
  - assert (p = key ++ [1] ++ repeat 0 (31 - length key)) as -> by congruence.
    split; [|rewrite !app_length, repeat_length; cbn [length]; lia].
    apply Forall_app. split; [exact Hk|]. apply Forall_app. split; [repeat constructor|]. apply (words_repeat0 8).
  - assert (p = key) as -> by congruence. split; [exact Hk|lia].
Qed.
Lemma serpent_lawful : lawful serpent.
Proof.
  unfold lawful. cbn [serpent bc_id bc_bs bc_enc bc_dec bc_check]. split; [reflexivity|]. split; [reflexivity|]. split; [lia|].
  intros key (_ & Hk & _). cbv zeta.
  apply serpent_inverse. unfold serpent_key_schedule.
  destruct (serpent_pad_key key) as [p|] eqn:E; cbn [obind]; [|apply words_repeat0].
  apply expand_words. destruct (pad_key_bytes key p Hk E) as [Hp HL].
  apply (load_le_words 4), Hp.
Qed.
(* keys of more than 32 bytes overflow the 32-byte array padded_ukey *)
Lemma serpent_ub : forall key, (32 < length key)%nat -> bc_check serpent key = UB.
Proof.
  intros key H. cbn [serpent bc_check]. unfold serpent_key_schedule, serpent_pad_key.
  destruct (Nat.ltb_spec 32 (length key)); [reflexivity|lia].
Qed.
Lemma serpent_defined : forall key, (length key <= 32)%nat -> bc_check serpent key = Done Success.
Proof.
  intros key H. cbn [serpent bc_check]. unfold serpent_key_schedule, serpent_pad_key.
  destruct (Nat.ltb_spec 32 (length key)); [lia|]. destruct (Nat.ltb (length key) 32); reflexivity.
Qed.
