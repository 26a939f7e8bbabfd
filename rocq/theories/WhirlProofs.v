(* Whirlpool: the code against WhirlSpec.v. *)
From Verif Require Import Words EncSpec TaskModel CipherBase CipherLib RcProofs StreamModel StreamProofs HashModel HashSpec HashProofs HashProofs2 HashProofs3 HashSim WhirlModel WhirlSpec.
From Verif Require UtilModel UtilProofs.
From Coq Require Import PeanoNat ZArith Lia.
Open Scope N_scope.

Lemma nth_map_seq : forall (f : nat -> N) n i, (i < n)%nat -> nth i (map f (seq 0 n)) 0 = f i.
Proof. intros f n i Hi. rewrite nth_indep with (d' := f 0%nat) by (rewrite map_length, seq_length; exact Hi). rewrite map_nth. rewrite seq_nth by exact Hi. reflexivity. Qed.
Lemma nth_skip : forall k (l : list N) i, nth i (skipn k l) 0 = nth (k + i) l 0.
Proof. induction k as [|k IH]; intros l i; [reflexivity|]. destruct l as [|x l]; [destruct i; reflexivity|]. apply IH. Qed.

(* ---- a row of a matrix as a word *)
Definition row (f : nat -> N) : N := be_val (map f (seq 0 8)).
Definition small (f : nat -> N) : Prop := forall j, (j < 8)%nat -> f j < 256.
Lemma row_ext : forall f g, (forall j, (j < 8)%nat -> f j = g j) -> row f = row g.
Proof. intros f g H. unfold row. f_equal. apply map_ext_in. intros j Hj. apply H. apply in_seq in Hj. lia. Qed.
Lemma step_xor : forall a b x y, x < 256 -> y < 256 -> N.lxor (a * 256 + x) (b * 256 + y) = N.lxor a b * 256 + N.lxor x y.
Proof.
  intros a b x y Hx Hy. change 256 with (2 ^ 8) in *. rewrite <- !lor_add by (try apply lxor_lt; assumption).
  apply N.bits_inj. intro i. rewrite N.lxor_spec, !N.lor_spec, N.lxor_spec. destruct (N.lt_ge_cases i 8) as [L|L].
  - rewrite !N.shiftl_spec_low by exact L. reflexivity.
  - rewrite !N.shiftl_spec_high' by exact L. rewrite N.lxor_spec.
    rewrite (testbit_above x 8), (testbit_above y 8) by assumption. rewrite !Bool.orb_false_r. reflexivity.
Qed.
Lemma row_xor : forall f g, small f -> small g -> N.lxor (row f) (row g) = row (fun j => N.lxor (f j) (g j)).
Proof.
  intros f g Hf Hg. unfold row, be_val. cbn [seq map fold_left]. rewrite !step_xor by (first [apply Hf | apply Hg]; lia). reflexivity.
Qed.
Lemma small_xor : forall f g, small f -> small g -> small (fun j => N.lxor (f j) (g j)).
Proof. intros f g Hf Hg j Hj. change 256 with (2 ^ 8). apply lxor_lt; [apply Hf|apply Hg]; exact Hj. Qed.
Lemma row_bytes : forall f, small f -> bytes (map f (seq 0 8)).
Proof. intros f H. apply Forall_forall. intros x Hx. apply in_map_iff in Hx as (j & <- & Hj). apply in_seq in Hj. apply H. lia. Qed.
Lemma row_byte : forall f t, small f -> (t < 8)%nat -> and (shr (row f) (8 * N.of_nat (7 - t))) 0xFF = f t.
Proof.
  intros f t H Ht. change 0xFF with (N.ones 8). rewrite N.land_ones, N.shiftr_div_pow2.
  pose proof (be_bytes_val (map f (seq 0 8)) (row_bytes f H)) as E. rewrite map_length, seq_length in E. fold (row f) in E.
  rewrite UtilProofs.be_bytes_nth in E. apply (f_equal (fun l => nth (7 - t) (rev l) 0)) in E. rewrite rev_involutive in E.
  rewrite nth_map_seq in E by lia. change (2 ^ 8) with 256. rewrite E. rewrite rev_nth by (rewrite map_length, seq_length; lia).
  rewrite map_length, seq_length. replace (8 - S (7 - t))%nat with t by lia. apply nth_map_seq. exact Ht.
Qed.

(* ---- matrices *)
Definition is_matrix (M : list N) : Prop := length M = 64%nat /\ bytes M.
Definition rel (K M : list N) : Prop := K = map (fun i => row (entry M i)) (seq 0 8) /\ is_matrix M.
Lemma entry_lt : forall M i j, is_matrix M -> (i < 8)%nat -> (j < 8)%nat -> entry M i j < 256.
Proof. intros M i j [L B] Hi Hj. unfold entry. unfold bytes in B. rewrite Forall_forall in B. apply B, nth_In. lia. Qed.
Lemma entry_small : forall M i, is_matrix M -> (i < 8)%nat -> small (entry M i).
Proof. intros M i H Hi j Hj. apply entry_lt; assumption. Qed.
Lemma entry_matrix : forall f i j, (i < 8)%nat -> (j < 8)%nat -> entry (matrix f) i j = f i j.
Proof.
  intros f i j Hi Hj. unfold entry, matrix. rewrite (nth_map_seq (fun n => f (n / 8)%nat (n mod 8)%nat)) by lia.
  replace (8 * i + j)%nat with (j + i * 8)%nat by lia. rewrite Nat.div_add, Nat.mod_add by lia. rewrite Nat.div_small, Nat.mod_small by exact Hj. reflexivity.
Qed.
Lemma matrix_is : forall f, (forall i j, (i < 8)%nat -> (j < 8)%nat -> f i j < 256) -> is_matrix (matrix f).
Proof.
  intros f H. split; [unfold matrix; rewrite map_length, seq_length; reflexivity|]. apply Forall_forall. intros x Hx. apply in_map_iff in Hx as (n & <- & Hn).
  apply in_seq in Hn. apply H; [apply Nat.div_lt_upper_bound; lia|apply Nat.mod_upper_bound; lia].
Qed.
Lemma nth_rel : forall K M i, rel K M -> (i < 8)%nat -> nth i K 0 = row (entry M i).
Proof. intros K M i [-> _] Hi. apply (nth_map_seq (fun i => row (entry M i))). exact Hi. Qed.
Lemma rel_make : forall (g : nat -> N) f, (forall i, (i < 8)%nat -> g i = row (f i)) -> (forall i j, (i < 8)%nat -> (j < 8)%nat -> f i j < 256) ->
  rel (map g (seq 0 8)) (matrix f).
Proof.
  intros g f Hg Hf. split; [|apply matrix_is, Hf]. apply map_ext_in. intros i Hi. apply in_seq in Hi. rewrite Hg by lia.
  apply row_ext. intros j Hj. rewrite entry_matrix by lia. reflexivity.
Qed.
Lemma row_slice : forall M i, length M = 64%nat -> (i < 8)%nat -> row (entry M i) = be_val (slice M (i * 8) 8).
Proof.
  intros M i L Hi. unfold row. f_equal. apply list_ext; [rewrite map_length, seq_length; unfold slice; rewrite firstn_length, skipn_length; lia|].
  intros j Hj. rewrite map_length, seq_length in Hj. rewrite nth_map_seq by exact Hj. unfold entry, slice. rewrite nth_firstn by exact Hj. rewrite nth_skip. f_equal. lia.
Qed.
Lemma rel_load : forall M, is_matrix M -> rel (load_be 8 8 M) M.
Proof.
  intros M H. split; [|exact H]. unfold load_be. apply map_ext_in. intros i Hi. apply in_seq in Hi. symmetry. apply row_slice; [apply H|lia].
Qed.
Lemma rel_store : forall K M, rel K M -> store_be 8 K = M.
Proof.
  intros K M [-> H]. transitivity (store_be 8 (load_be 8 8 M)); [f_equal; symmetry; apply rel_load, H|]. apply store_load_be; apply H.
Qed.

(* ---- the boxes *)
Definition tables : list (list N) := [whirlpool_C0; whirlpool_C1; whirlpool_C2; whirlpool_C3; whirlpool_C4; whirlpool_C5; whirlpool_C6; whirlpool_C7].
Lemma sbox_lt : forall x, x < 256 -> S_box x < 256.
Proof. intros x Hx. apply N.ltb_lt. revert x Hx. apply (sweep_bytes (fun x => S_box x <? 256)). vm_compute. reflexivity. Qed.
Lemma times_x_lt : forall x, x < 256 -> times_x x < 256.
Proof. intros x Hx. apply N.ltb_lt. revert x Hx. apply (sweep_bytes (fun x => times_x x <? 256)). vm_compute. reflexivity. Qed.
Lemma gf_mul_lt : forall a b, a < 256 -> gf_mul a b < 256.
Proof.
  intros a b Ha. unfold gf_mul. assert (forall i, Nat.iter i times_x a < 256) as I by (induction i as [|i IH]; [exact Ha|apply times_x_lt, IH]).
  induction (seq 0 8) as [|i l IH]; [reflexivity|]. cbn [map fold_right]. change 256 with (2 ^ 8). apply lxor_lt; [|exact IH].
  destruct (N.testbit b (N.of_nat i)); [apply I|reflexivity].
Qed.
Definition table_ok (t : nat) (x : N) : bool := let s := S_box x in N.eqb (nthN (nth t tables []) x) (row (fun j => gf_mul s (circulant t j))).
Lemma tables_ok : forallb (fun t => forallb (table_ok t) all_bytes) (seq 0 8) = true.
Proof. vm_compute. reflexivity. Qed.
Lemma table_eq : forall t x, (t < 8)%nat -> x < 256 -> nthN (nth t tables []) x = row (fun j => gf_mul (S_box x) (circulant t j)).
Proof.
  intros t x Ht Hx. pose proof (proj1 (forallb_forall _ _) tables_ok t ltac:(apply in_seq; lia)) as H. cbv beta in H.
  apply N.eqb_eq. exact (sweep_bytes (table_ok t) H x Hx).
Qed.
Lemma rc_ok : forallb (fun r => N.eqb (nth r whirlpool_RC 0) (row (fun j => S_box (N.of_nat (8 * r + j))))) (seq 0 10) = true.
Proof. vm_compute. reflexivity. Qed.
Opaque whirlpool_C0 whirlpool_C1 whirlpool_C2 whirlpool_C3 whirlpool_C4 whirlpool_C5 whirlpool_C6 whirlpool_C7 whirlpool_RC S_box gf_mul circulant row.

(* ---- the layers *)
Definition layers (M : list N) : list N := MixRows (ShiftColumns (SubBytes M)).
Lemma C_rel : forall K M k t, rel K M -> (k < 8)%nat -> (t < 8)%nat ->
  whirlpool_C (nth t tables []) k (8 * N.of_nat (7 - t)) K = row (fun j => gf_mul (S_box (entry M k t)) (circulant t j)).
Proof.
  intros K M k t R Hk Ht. unfold whirlpool_C. rewrite (nth_rel K M k R Hk). destruct R as [_ I].
  rewrite row_byte by (try exact Ht; apply entry_small; assumption). apply table_eq; [exact Ht|apply entry_lt; assumption].
Qed.
Lemma shift_entry : forall M i k, (i < 8)%nat -> (k < 8)%nat -> entry (ShiftColumns (SubBytes M)) i k = S_box (entry M ((i + 8 - k) mod 8) k).
Proof.
  intros M i k Hi Hk. unfold ShiftColumns. rewrite entry_matrix by assumption. unfold SubBytes. rewrite entry_matrix; [reflexivity| |exact Hk]. apply Nat.mod_upper_bound. lia.
Qed.
Lemma L_rel : forall K M, rel K M -> rel (whirlpool_L K) (layers M).
Proof.
  intros K M R. pose proof (proj2 R) as I.
  assert (forall i k j, (i < 8)%nat -> (k < 8)%nat -> (j < 8)%nat -> gf_mul (S_box (entry M ((i + 8 - k) mod 8) k)) (circulant k j) < 256) as B.
  { intros i k j Hi Hk Hj. apply gf_mul_lt, sbox_lt, entry_lt; [exact I|apply Nat.mod_upper_bound; lia|exact Hk]. }
  assert (forall i k, (i < 8)%nat -> (k < 8)%nat -> whirlpool_C (nth k tables []) ((i + 8 - k) mod 8) (8 * N.of_nat (7 - k)) K =
            row (fun j => gf_mul (S_box (entry M ((i + 8 - k) mod 8) k)) (circulant k j))) as T.
  { intros i k Hi Hk. apply C_rel; [exact R|apply Nat.mod_upper_bound; lia|exact Hk]. }
  unfold whirlpool_L, layers, MixRows. apply rel_make.
  - intros i Hi. pose proof (T i) as Ti.
    rewrite <- (Nat.mod_small i 8 Hi) at 1. replace (i mod 8)%nat with ((i + 8 - 0) mod 8)%nat by (replace (i + 8 - 0)%nat with (i + 1 * 8)%nat by lia; rewrite Nat.mod_add by lia; reflexivity).
    replace (i + 7)%nat with (i + 8 - 1)%nat by lia. replace (i + 6)%nat with (i + 8 - 2)%nat by lia. replace (i + 5)%nat with (i + 8 - 3)%nat by lia.
    replace (i + 4)%nat with (i + 8 - 4)%nat by lia. replace (i + 3)%nat with (i + 8 - 5)%nat by lia. replace (i + 2)%nat with (i + 8 - 6)%nat by lia. replace (i + 1)%nat with (i + 8 - 7)%nat by lia.
    pose proof (Ti 0%nat Hi ltac:(lia)) as T0. pose proof (Ti 1%nat Hi ltac:(lia)) as T1. pose proof (Ti 2%nat Hi ltac:(lia)) as T2. pose proof (Ti 3%nat Hi ltac:(lia)) as T3.
    pose proof (Ti 4%nat Hi ltac:(lia)) as T4. pose proof (Ti 5%nat Hi ltac:(lia)) as T5. pose proof (Ti 6%nat Hi ltac:(lia)) as T6. pose proof (Ti 7%nat Hi ltac:(lia)) as T7.
    cbn [nth tables] in T0, T1, T2, T3, T4, T5, T6, T7.
    change (8 * N.of_nat (7 - 0)) with 56 in T0. change (8 * N.of_nat (7 - 1)) with 48 in T1. change (8 * N.of_nat (7 - 2)) with 40 in T2. change (8 * N.of_nat (7 - 3)) with 32 in T3.
    change (8 * N.of_nat (7 - 4)) with 24 in T4. change (8 * N.of_nat (7 - 5)) with 16 in T5. change (8 * N.of_nat (7 - 6)) with 8 in T6. change (8 * N.of_nat (7 - 7)) with 0 in T7.
    rewrite T0, T1, T2, T3, T4, T5, T6, T7. clear T0 T1 T2 T3 T4 T5 T6 T7 Ti.
    rewrite !row_xor by (repeat apply small_xor; intros j Hj; apply B; (assumption || lia)).
    apply row_ext. intros j Hj. cbn [seq map fold_right]. rewrite !shift_entry by lia. rewrite N.lxor_0_r, !N.lxor_assoc. reflexivity.
  - intros i j Hi Hj. assert (forall l, (forall k, In k l -> (k < 8)%nat) -> fold_right N.lxor 0 (map (fun k => gf_mul (entry (ShiftColumns (SubBytes M)) i k) (circulant k j)) l) < 256) as X.
    { induction l as [|k l IH]; intro Hl; [reflexivity|]. cbn [map fold_right]. change 256 with (2 ^ 8). apply lxor_lt; [|apply IH; intros; apply Hl; right; assumption].
      rewrite shift_entry by (try exact Hi; apply Hl; left; reflexivity). apply B; [exact Hi|apply Hl; left; reflexivity|exact Hj]. }
    apply X. intros k Hk. apply in_seq in Hk. lia.
Qed.
Lemma xor_rel : forall A B M M', rel A M -> rel B M' -> rel (map (fun i => xor (nth i A 0) (nth i B 0)) (seq 0 8)) (AddKey M' M).
Proof.
  intros A B M M' RA RB. pose proof (proj2 RA) as IA. pose proof (proj2 RB) as IB. unfold AddKey. apply rel_make.
  - intros i Hi. rewrite (nth_rel A M i RA Hi), (nth_rel B M' i RB Hi). apply row_xor; apply entry_small; assumption.
  - intros i j Hi Hj. change 256 with (2 ^ 8). apply lxor_lt; apply entry_lt; assumption.
Qed.
Lemma rc_rel : forall r, (r < 10)%nat -> rel (nth r whirlpool_RC 0 :: repeat 0 7) (W_const (S r)).
Proof.
  intros r Hr. pose proof (proj1 (forallb_forall _ _) rc_ok r ltac:(apply in_seq; lia)) as E. apply N.eqb_eq in E. rewrite E.
  change (row (fun j => S_box (N.of_nat (8 * r + j))) :: repeat 0 7) with (map (fun i => if Nat.eqb i 0 then row (fun j => S_box (N.of_nat (8 * r + j))) else 0) (seq 0 8)).
  unfold W_const. apply rel_make.
  - intros i Hi. replace (S r - 1)%nat with r by lia. destruct (Nat.eqb i 0); [reflexivity|]. Transparent row. reflexivity. Opaque row.
  - intros i j Hi Hj. destruct (Nat.eqb i 0); [|reflexivity]. apply sbox_lt. lia.
Qed.
Lemma upd0_xor : forall L c, length L = 8%nat -> upd L 0 (xor (nth 0 L 0) c) = map (fun i => xor (nth i L 0) (nth i (c :: repeat 0 7) 0)) (seq 0 8).
Proof.
  intros L c H. destruct L as [|x0 [|x1 [|x2 [|x3 [|x4 [|x5 [|x6 [|x7 [|]]]]]]]]]; try discriminate H. cbn [upd nth seq map repeat]. rewrite !N.lxor_0_r. reflexivity.
Qed.
Lemma round_rel : forall r K T k s, (r < 10)%nat -> rel K k -> rel T s ->
  rel (fst (whirlpool_round r (K, T))) (W_round (W_const (S r)) k) /\ rel (snd (whirlpool_round r (K, T))) (W_round (W_round (W_const (S r)) k) s).
Proof.
  intros r K T k s Hr RK RT. unfold whirlpool_round. cbn [fst snd]. set (K' := upd _ _ _).
  assert (rel K' (W_round (W_const (S r)) k)) as R'.
  { unfold K'. rewrite upd0_xor by (unfold whirlpool_L; rewrite map_length, seq_length; reflexivity). unfold W_round. apply xor_rel; [apply L_rel, RK|apply rc_rel, Hr]. }
  split; [exact R'|]. unfold W_round at 1. apply xor_rel; [apply L_rel, RT|exact R'].
Qed.
Lemma rounds_rel : forall n K T k s, (n <= 10)%nat -> rel K k -> rel T s ->
  rel (fst (fold_left (fun KS r => whirlpool_round r KS) (seq 0 n) (K, T))) (W_key k n) /\
  rel (snd (fold_left (fun KS r => whirlpool_round r KS) (seq 0 n) (K, T))) (fold_left (fun s r => W_round (W_key k r) s) (seq 1 n) s).
Proof.
  intros n K T k s Hn RK RT. induction n as [|n IH]; [split; assumption|]. rewrite !seq_S, !fold_left_app. cbn [fold_left].
  destruct (IH ltac:(lia)) as [A B]. destruct (fold_left (fun KS r => whirlpool_round r KS) (seq 0 n) (K, T)) as [K1 T1]. cbn [fst snd] in A, B.
  change (0 + n)%nat with n. change (1 + n)%nat with (S n). cbn [W_key]. apply round_rel; [lia|exact A|exact B].
Qed.
Lemma comp_rel : forall K B h m, rel K h -> rel B m -> rel (whirlpool_comp K B) (W_block h m).
Proof.
  intros K B h m RK RB. unfold whirlpool_comp, W_block, W.
  pose proof (xor_rel B K m h RB RK) as R0. destruct (rounds_rel 10 K _ h _ ltac:(lia) RK R0) as [_ R].
  destruct (fold_left (fun KS r => whirlpool_round r KS) (seq 0 10) _) as [K1 T1]. cbn [snd] in R.
  pose proof (xor_rel _ _ _ _ (xor_rel _ _ _ _ R RK) RB) as F.
  replace (map (fun i => xor (nth i K 0) (xor (nth i T1 0) (nth i B 0))) (seq 0 8))
    with (map (fun i => xor (nth i (map (fun i => xor (nth i T1 0) (nth i K 0)) (seq 0 8)) 0) (nth i B 0)) (seq 0 8)); [exact F|].
  apply map_ext_in. intros i Hi. apply in_seq in Hi. rewrite (nth_map_seq (fun i => xor (nth i T1 0) (nth i K 0))) by lia.
  rewrite (N.lxor_comm (nth i T1 0)), N.lxor_assoc. reflexivity.
Qed.

(* ---- the hash *)
Lemma zero_rel : rel (repeat 0 8) (repeat 0 64).
Proof. Transparent row. split; [reflexivity|]. split; [reflexivity|]. apply Forall_forall. intros x Hx. apply repeat_spec in Hx. subst. reflexivity. Opaque row. Qed.
Lemma whirlpool_digest : forall hex m, octets m -> N.of_nat (length m) < 2 ^ 61 ->
  hash_processor whirlpool hex (Some m) (N.of_nat (length m)) =
  Done (ok (shown hex (iterate 64 W_block (repeat 0 64) (code_padded 64 32 0x80 (be_bytes 8) m)))).
Proof.
  intros hex m Hm Hl. pose proof (proj1 (octets_bytes m) Hm) as Hb. destruct (bits_size m Hl) as [_ B].
  assert (forall B, bytes B -> length B = 64%nat -> load_be 8 8 B = be_words 8 B) as O by (intros X _ L; symmetry; apply (be_words_load 8 8); [lia|exact L]).
  pose proof (process_spec whirlpool (be_words 8) (be_bytes 8) (fun _ => True) (or_intror eq_refl) ltac:(cbn; lia) ltac:(cbn; lia) ltac:(reflexivity)
    O (fun X t H1 H2 H3 _ => O (X ++ be_bytes 8 t) ltac:(apply Forall_app; split; [exact H1|apply be_bytes_bytes]) ltac:(rewrite app_length, be_bytes_length, H2; reflexivity))
    (fun t _ => be_bytes_length 8 t) m Hb B (fun _ _ _ _ => I) I) as P.
  change (hp_nr whirlpool * hp_wb whirlpool)%nat with 64%nat in P. change (hp_off whirlpool) with 32%nat in P. change (hp_tok whirlpool) with 0x80 in P.
  rewrite (processor_spec whirlpool hex m _ Hl P). change (hp_wb whirlpool) with 8%nat. change (hp_out whirlpool) with same.
  change (hp_init whirlpool) with (repeat 0 8) in *. change (hp_comp whirlpool) with whirlpool_comp in *. clear P.
  set (p := code_padded 64 32 0x80 (be_bytes 8) m).
  assert (rel (iterate 64 (fun st b => whirlpool_comp st (be_words 8 b)) (repeat 0 8) p) (iterate 64 W_block (repeat 0 64) p)) as R.
  { apply (iterate_sim 64 rel).
    - lia.
    - apply code_padded_blocks; [lia|lia|apply be_bytes_length].
    - apply code_padded_bytes; [exact Hb|reflexivity|intro; apply be_bytes_bytes].
    - apply zero_rel.
    - intros s t b Rs Lb Bb. apply comp_rel; [exact Rs|]. rewrite <- O by assumption. apply rel_load. split; assumption. }
  unfold same. rewrite words_to_hex, (rel_store _ _ R). destruct hex; reflexivity.
Qed.
Lemma whirlpool_pad : forall m, m = [] \/ (length m mod 64 <> 0)%nat -> N.of_nat (length m) < 2 ^ 61 ->
  code_padded 64 32 0x80 (be_bytes 8) m = pad_be 64 32 m.
Proof.
  intros m H Hl. destruct (bits_size m Hl) as [_ B]. unfold pad_be.
  rewrite (code_padded_standard 64 32 32 0x80 (be_bytes 8) (fun t => repeat 0 24 ++ be_bytes 8 t)); [|lia|lia|reflexivity|exact H|change (64 - 32)%nat with 32%nat; reflexivity].
  unfold padded. f_equal. f_equal. f_equal. change (be_bytes 32 ?t) with (be_bytes (24 + 8) t). rewrite be_bytes_app. f_equal.
  rewrite N.div_small by exact B. reflexivity.
Qed.
Lemma whirlpool_collision : forall m, octets m -> N.of_nat (length m) + 128 < 2 ^ 61 -> m = [] \/ (length m mod 64 <> 0)%nat ->
  let p := pad_be 64 32 m in p <> m /\
  hash_processor whirlpool false (Some p) (N.of_nat (length p)) = hash_processor whirlpool false (Some m) (N.of_nat (length m)).
Proof.
  intros m Hm Hl R p. pose proof (padded_len 64 32 0x80 (be_bytes 32) m ltac:(lia) (be_bytes_length 32)) as Lp. fold (pad_be 64 32) in Lp. fold p in Lp.
  pose proof (padded_mod 64 32 0x80 (be_bytes 32) m ltac:(lia) ltac:(lia) (be_bytes_length 32)) as Mp. fold (pad_be 64 32) in Mp. fold p in Mp.
  split; [intro E; rewrite E in Lp; lia|].
  rewrite (whirlpool_digest false p); [|apply octets_bytes; unfold p, pad_be; apply padded_bytes; [apply octets_bytes, Hm|reflexivity|apply be_bytes_bytes]|lia].
  rewrite (whirlpool_digest false m Hm ltac:(lia)). rewrite no_pad; [|intro E; rewrite E in Lp; cbn [length] in Lp; lia|exact Mp].
  rewrite whirlpool_pad by (try exact R; lia). reflexivity.
Qed.
