From Verif Require Import Words EncSpec TaskModel ModeModel ModeSpec CipherBase CipherLib KeyProofs RcModel RcProofs StreamProofs.
From Verif Require Import RcSpec.
Ltac Zify.zify_post_hook ::= Z.div_mod_to_equations.
Open Scope N_scope.

Lemma rol_is : forall x n, x < 2 ^ 32 -> rotl32 x (n mod 32) = rol x n.
Proof. intros x n Hx. apply (rotl_arith 32 x (n mod 32) Hx). pose proof (N.mod_lt n 32 ltac:(discriminate)). lia. Qed.
Lemma rol_small : forall x n, x < 2 ^ 32 -> n < 32 -> rotl32 x n = rol x n.
Proof. intros x n Hx Hn. rewrite <- (N.mod_small n 32 Hn) at 1. apply rol_is, Hx. Qed.
Lemma rol_lt : forall x n, x < 2 ^ 32 -> rol x n < 2 ^ 32.
Proof. intros x n Hx. rewrite <- rol_is by exact Hx. apply rotl_lt. exact Hx. Qed.
Lemma sum_lt : forall x y, sum x y < 2 ^ 32.
Proof. intros. apply N.mod_lt. discriminate. Qed.
Lemma mod32 : forall x, (x mod 2 ^ 32) mod 32 = x mod 32.
Proof. intro x. change (2 ^ 32) with (32 * 2 ^ 27). rewrite N.mod_mul_r by discriminate. rewrite (N.mul_comm 32 (_ mod _)), N.mod_add by discriminate. apply N.mod_mod. discriminate. Qed.
Lemma rol_mod : forall x n, rol x (n mod 2 ^ 32) = rol x n.
Proof. intros. unfold rol. rewrite mod32. reflexivity. Qed.
Lemma sum_mod : forall x y, add32 x (y mod 2 ^ 32) = sum x y.
Proof. intros. unfold addw, sum. rewrite N.add_mod_idemp_r by discriminate. reflexivity. Qed.

Definition sim (t c k : nat) (s : list N * list N * N * N * nat * nat) (z : (nat -> N) * (nat -> N) * N * N) : Prop :=
  let '(K, L, A, B, i, j) := s in let '(Sf, Lf, A', B') := z in
  i = Nat.modulo k t /\ j = Nat.modulo k c /\ (forall x, (x < t)%nat -> nth x K 0 = Sf x) /\ (forall y, (y < c)%nat -> nth y L 0 = Lf y) /\
  (t <= length K)%nat /\ (c <= length L)%nat /\ A = A' /\ B = B'.
Lemma mix_sim : forall t c k s z, (0 < t)%nat -> (0 < c)%nat -> sim t c k s z -> sim t c (S k) (rc5_mix t c s) (mix t c k z).
Proof.
  intros t c k [[[[[K L] A] B] i] j] [[[Sf Lf] A'] B'] Ht Hc (-> & -> & HK & HL & LK & LL & -> & ->).
  pose proof (Nat.mod_upper_bound k t ltac:(lia)) as Hi. pose proof (Nat.mod_upper_bound k c ltac:(lia)) as Hj.
  unfold rc5_mix, mix, sim. cbv zeta. rewrite (HK _ Hi), (HL _ Hj).
  assert (rotl32 (add32 (Sf (k mod t)%nat) (add32 A' B')) 3 = rol (sum (Sf (k mod t)%nat) (A' + B')) 3) as EA.
  { unfold addw at 2. rewrite sum_mod. apply rol_small; [apply sum_lt|reflexivity]. }
  rewrite EA. set (a := rol (sum (Sf (k mod t)%nat) (A' + B')) 3).
  assert (rotl32 (add32 (Lf (k mod c)%nat) (add32 a B')) (add32 a B' mod 32) = rol (sum (Lf (k mod c)%nat) (a + B')) (a + B')) as EB.
  { rewrite rol_is by (apply N.mod_lt; discriminate). unfold addw at 2 3. rewrite sum_mod, rol_mod. reflexivity. }
  rewrite EB. clear EA EB. clearbody a. set (b := rol _ _). clearbody b.
  split; [rewrite Nat.add_mod_idemp_l, Nat.add_1_r by lia; reflexivity|].
  split; [rewrite Nat.add_mod_idemp_l, Nat.add_1_r by lia; reflexivity|].
  split; [|split; [|rewrite !upd_length; auto]].
  - intros x Hx. rewrite nth_upd by (clear - LK Hi; lia). unfold put. rewrite Nat.eqb_sym. destruct (Nat.eqb x (k mod t)); [reflexivity|apply HK, Hx].
  - intros y Hy. rewrite nth_upd by (clear - LL Hj; lia). unfold put. rewrite Nat.eqb_sym. destruct (Nat.eqb y (k mod c)); [reflexivity|apply HL, Hy].
Qed.
Lemma iter_sim : forall t c s z, (0 < t)%nat -> (0 < c)%nat -> sim t c 0 s z -> forall n, sim t c n (Nat.iter n (rc5_mix t c) s) (mixed t c n z).
Proof. intros t c s z Ht Hc H n. induction n as [|n IH]; [exact H|]. exact (mix_sim t c n _ _ Ht Hc IH). Qed.

Lemma init_is : forall junk n, (n < length junk)%nat ->
  let K := fold_left (fun K i => upd K i (add32 (nth (i - 1) K 0) rc5_qw)) (seq 1 n) (upd junk 0 rc5_pw) in
  length K = length junk /\ forall x, (x <= n)%nat -> nth x K 0 = (P32 + N.of_nat x * Q32) mod 2 ^ 32.
Proof.
  intros junk n. induction n as [|n IH]; intro Hn.
  - cbn [seq fold_left]. cbv zeta. rewrite upd_length. split; [reflexivity|]. intros x Hx. assert (x = O) as -> by lia. rewrite nth_upd by exact Hn. reflexivity.
  - cbv zeta. rewrite seq_S, fold_left_app. cbn [fold_left]. cbv zeta in IH. destruct (IH ltac:(lia)) as [IL IN]. clear IH.
    set (K := fold_left _ _ _) in *. clearbody K. rewrite upd_length. split; [exact IL|]. intros x Hx. rewrite nth_upd by lia.
    destruct (Nat.eqb_spec (1 + n) x) as [<-|]; [|apply IN; lia].
    replace (1 + n - 1)%nat with n by lia. rewrite IN by lia. unfold addw. rewrite N.add_mod_idemp_l by discriminate. f_equal. change rc5_qw with Q32. rewrite Nat2N.inj_add. change (N.of_nat 1) with 1. ring.
Qed.
Lemma load_is : forall calls c key, (0 < c)%nat -> (c <= 800)%nat -> (length key <= calls)%nat -> bytes key -> length key = (4 * c)%nat ->
  let L := ld_user_key 4 rc5_k_nr calls key in
  (c <= length (map rev32 (firstn c L) ++ skipn c L))%nat /\ forall y, (y < c)%nat -> nth y (map rev32 (firstn c L) ++ skipn c L) 0 = word_of key y.
Proof.
  intros calls c key Hc H800 Hcalls Hb HL. cbv zeta.
  rewrite (ld_user_key_words 4 rc5_k_nr calls c 0 key); [| |exact Hb| | | | |]; try lia; [|intros ->; cbn in HL; lia|unfold rc5_k_nr; lia].
  change (Nat.eqb 0 0) with true. cbv iota.
  assert (length (load_be 4 c key) = c) as LL by (unfold load_be; rewrite map_length, seq_length; reflexivity).
  assert (firstn c (load_be 4 c key ++ repeat 0 (rc5_k_nr - c)) = load_be 4 c key) as -> by (rewrite firstn_app, LL, Nat.sub_diag; cbn [firstn]; rewrite app_nil_r; apply firstn_all2; lia).
  split; [rewrite app_length, map_length, LL; lia|]. intros y Hy. rewrite app_nth1 by (rewrite map_length, LL; exact Hy).
  unfold load_be. rewrite map_map. rewrite (nth_indep _ 0 (rev32 (be_val (slice key (0 * 4) 4)))) by (rewrite map_length, seq_length; exact Hy).
  rewrite (map_nth (fun i => rev32 (be_val (slice key (i * 4) 4)))). rewrite seq_nth by exact Hy. cbn [Nat.add]. unfold word_of.
  rewrite (Nat.mul_comm y 4). fold (slice key (4 * y) 4). rewrite slice4 by lia. unfold le_val. cbn [rev app].
  assert (forall k, byte (nth k key 0)) as Bk by (intro k; destruct (Nat.lt_ge_cases k (length key)); [unfold bytes in Hb; rewrite Forall_forall in Hb; apply Hb, nth_In; assumption|rewrite nth_overflow by assumption; reflexivity]).
  exact (rev32_bytes _ _ _ _ (Bk _) (Bk _) (Bk _) (Bk _)).
Qed.
Lemma load_half : forall calls m key, (S m <= 800)%nat -> (length key <= calls)%nat -> bytes key -> length key = (4 * m + 2)%nat ->
  let L := ld_user_key 4 rc5_k_nr calls key in
  (S m <= length (map rev32 (firstn (S m) L) ++ skipn (S m) L))%nat /\ forall y, (y < S m)%nat -> nth y (map rev32 (firstn (S m) L) ++ skipn (S m) L) 0 = word_of key y.
Proof.
  intros calls m key H800 Hcalls Hb HL. cbv zeta.
  rewrite (ld_user_key_words 4 rc5_k_nr calls m 2 key); [| |exact Hb| | | | |]; try lia; [|intros ->; cbn in HL; lia|unfold rc5_k_nr; lia].
  change (Nat.eqb 2 0) with false. cbv iota.
  set (w := (be_val _ * _) mod _). 
  assert (length (load_be 4 m key) = m) as LL by (unfold load_be; rewrite map_length, seq_length; reflexivity).
  assert (firstn (S m) (load_be 4 m key ++ w :: repeat 0 (rc5_k_nr - S m)) = load_be 4 m key ++ [w]) as ->.
  { rewrite firstn_app, LL. replace (S m - m)%nat with 1%nat by lia. rewrite (firstn_all2 (load_be 4 m key)) by lia. reflexivity. }
  split; [rewrite app_length, map_length, app_length, LL; cbn [length]; lia|]. intros y Hy. rewrite app_nth1 by (rewrite map_length, app_length, LL; cbn [length]; lia).
  rewrite map_app. cbn [map].
  assert (forall k, byte (nth k key 0)) as Bk by (intro k; destruct (Nat.lt_ge_cases k (length key)); [unfold bytes in Hb; rewrite Forall_forall in Hb; apply Hb, nth_In; assumption|rewrite nth_overflow by assumption; reflexivity]).
  assert (length (map rev32 (load_be 4 m key)) = m) as LM by (rewrite map_length; exact LL).
  destruct (Nat.eq_dec y m) as [-> |Hne].
  - rewrite app_nth2 by lia. rewrite LM, Nat.sub_diag. cbn [nth].
    unfold w, word_of. rewrite (Nat.mul_comm m 4).
    assert (length (skipn (4 * m) key) = 2%nat) as L2 by (rewrite skipn_length; lia). pose proof (bytes_skipn (4 * m) key Hb) as B2.
    destruct (skipn (4 * m) key) as [|a [|b [|? ?]]]; try discriminate L2. unfold bytes in B2. inversion B2 as [|? ? Ha B3]; subst. inversion B3 as [|? ? Hb' _]; subst. cbn [firstn].
    unfold byte in Ha, Hb'.
    transitivity (rev32 (be_val [a; b; 0; 0])).
    + f_equal. unfold be_val. cbn [fold_left]. change (8 * N.of_nat 2) with 16. change (8 * N.of_nat 4) with 32. rewrite N.mod_small; [change (2 ^ 16) with 65536; ring|]. change (2 ^ 16) with 65536. change (2 ^ 32) with 4294967296. clear - Ha Hb'. lia.
    + etransitivity; [exact (rev32_bytes a b 0 0 Ha Hb' eq_refl eq_refl)|]. unfold le_val, be_val. cbn [rev app fold_left]. ring.
  - rewrite app_nth1 by lia.
    unfold load_be. rewrite map_map. rewrite (nth_indep _ 0 (rev32 (be_val (slice key (0 * 4) 4)))) by (rewrite map_length, seq_length; lia).
    rewrite (map_nth (fun i => rev32 (be_val (slice key (i * 4) 4)))). rewrite seq_nth by lia. cbn [Nat.add]. unfold word_of.
    rewrite (Nat.mul_comm y 4). fold (slice key (4 * y) 4). rewrite slice4 by lia. unfold le_val. cbn [rev app].
    exact (rev32_bytes _ _ _ _ (Bk _) (Bk _) (Bk _) (Bk _)).
Qed.
Definition fits (c : nat) (key : list N) : Prop := length key = (4 * c)%nat \/ (0 < c)%nat /\ length key = (4 * (c - 1) + 2)%nat.
Lemma load_fits : forall calls c key, (0 < c)%nat -> (c <= 800)%nat -> (length key <= calls)%nat -> bytes key -> fits c key ->
  let L := ld_user_key 4 rc5_k_nr calls key in
  (c <= length (map rev32 (firstn c L) ++ skipn c L))%nat /\ forall y, (y < c)%nat -> nth y (map rev32 (firstn c L) ++ skipn c L) 0 = word_of key y.
Proof.
  intros calls c key Hc H8 Hl Hb [H|[_ H]]; [apply load_is; assumption|]. destruct c as [|c]; [lia|]. replace (S c - 1)%nat with c in H by lia. apply load_half; assumption.
Qed.
Lemma sched_gen : forall t calls junk key c, (0 < t <= 800)%nat -> length junk = 800%nat -> (0 < c)%nat -> (c <= t)%nat -> (length key <= calls)%nat -> bytes key -> fits c key ->
  forall x, (x < t)%nat ->
  nth x (let L := ld_user_key 4 rc5_k_nr calls key in
         let '(K, _, _, _, _, _) := Nat.iter (3 * t) (rc5_mix t c) (rc5_init_K t junk, map rev32 (firstn c L) ++ skipn c L, 0, 0, 0%nat, 0%nat) in K) 0 = expanded t key x.
Proof.
  intros t calls junk key c Ht HJ Hc Hct Hcalls Hb HL x Hx. cbv zeta.
  destruct (load_fits calls c key Hc ltac:(lia) Hcalls Hb HL) as [L1 L2]. cbv zeta in L1, L2.
  destruct (init_is junk (t - 1) ltac:(lia)) as [K1 K2]. fold (rc5_init_K t junk) in K1, K2.
  unfold expanded. replace ((length key + 3) / 4)%nat with c by (unfold fits in HL; lia). rewrite Nat.max_l by exact Hct.
  set (L := map rev32 _ ++ _) in *. clearbody L. set (K := rc5_init_K t junk) in *. clearbody K.
  pose proof (iter_sim t c (K, L, 0, 0, 0%nat, 0%nat) (fun i => (P32 + N.of_nat i * Q32) mod 2 ^ 32, word_of key, 0, 0) (proj1 Ht) Hc) as G.
  specialize (G ltac:(split; [rewrite Nat.mod_0_l by lia; reflexivity|]; split; [rewrite Nat.mod_0_l by lia; reflexivity|]; split; [intros; apply K2; lia|]; split; [exact L2|]; split; [lia|]; auto) (3 * t)%nat).
  destruct (Nat.iter (3 * t) _ _) as [[[[[K' L'] A'] B'] i'] j']. destruct (mixed _ _ _ _) as [[[Sf Lf] A2] B2]. destruct G as (_ & _ & G & _). apply G, Hx.
Qed.

Lemma rc5_rounds_is : forall K Sf n l, (forall x, (x < 2 * n + 2)%nat -> nth x K 0 = Sf x) -> (forall i, In i l -> (i <= n)%nat) -> forall s, fst s < 2 ^ 32 -> snd s < 2 ^ 32 ->
  fold_left (rc5_enc_round K) l s = fold_left (RC5_round Sf) l s.
Proof.
  intros K Sf n l HK. induction l as [|i l IH]; intros Hl [A B] HA HB; [reflexivity|]. cbn [fst snd] in *. cbn [fold_left].
  pose proof (Hl i (or_introl eq_refl)) as Hi.
  assert (rc5_enc_round K (A, B) i = RC5_round Sf (A, B) i) as E.
  { unfold rc5_enc_round, RC5_round. cbv zeta. rewrite !HK by lia. rewrite !rol_is by (apply lxor_lt; assumption || apply N.mod_lt; discriminate). reflexivity. }
  rewrite E. apply IH; [intros; apply Hl; right; assumption| |]; unfold RC5_round; cbn [fst snd]; apply sum_lt.
Qed.
Lemma word_lt : forall b i, bytes b -> word_of b i < 2 ^ 32.
Proof.
  intros b i Hb. unfold word_of, le_val.
  assert (bytes (rev (firstn 4 (skipn (4 * i) b)))) as H by (apply Forall_rev, bytes_firstn, bytes_skipn, Hb).
  pose proof (be_val_lt _ H) as V. rewrite rev_length, firstn_length in V. eapply N.lt_le_trans; [exact V|]. 
  change (2 ^ 32) with (256 ^ N.of_nat 4). apply N.pow_le_mono_r; [discriminate|]. lia.
Qed.
Lemma rc5_is : forall junk r key block, (1 <= r <= 398)%nat -> length junk = 800%nat -> bytes key -> key <> [] -> (length key <= 64)%nat -> Nat.modulo (length key) 2 = 0%nat -> (length key <= 4 * (2 * r + 2))%nat ->
  bytes block -> rc5_encrypt r (rc5_ksched r junk key) block = RC5 r key block.
Proof.
  intros junk r key block Hr HJ Hb Hne Hl Hm Hk Hbl.
  assert (0 < length key)%nat as Hp by (destruct key; [congruence|]; cbn [length]; lia).
  assert (exists c, (0 < c)%nat /\ fits c key) as (c & H0 & Hc) by (exists ((length key + 3) / 4)%nat; unfold fits; lia).
  assert (forall x, (x < 2 * r + 2)%nat -> nth x (rc5_ksched r junk key) 0 = expanded (2 * r + 2) key x) as HK.
  { intros x Hx. unfold rc5_ksched. cbv zeta. replace ((length key + 3) / 4)%nat with c by (unfold fits in Hc; lia).
    assert (c <= 2 * r + 2)%nat as Hct by (unfold fits in Hc; lia). destruct (Nat.ltb_spec (2 * r + 2) c); [lia|].
    apply (sched_gen (2 * r + 2) 64 junk key c); (assumption || lia). }
  unfold rc5_encrypt, RC5. cbv zeta. generalize dependent (rc5_ksched r junk key). intros K HK. generalize dependent (expanded (2 * r + 2) key). intros Sf HK.
  unfold blk_le, load_le. cbn [seq map]. change (slice block (0 * 4) 4) with (firstn 4 (skipn (4 * 0) block)). change (slice block (1 * 4) 4) with (firstn 4 (skipn (4 * 1) block)).
  fold (word_of block 0) (word_of block 1). unfold on2. rewrite !HK by lia. fold (sum (word_of block 0) (Sf 0%nat)) (sum (word_of block 1) (Sf 1%nat)).
  change (addw 32 (word_of block 0) (Sf 0%nat)) with (sum (word_of block 0) (Sf 0%nat)). change (addw 32 (word_of block 1) (Sf 1%nat)) with (sum (word_of block 1) (Sf 1%nat)).
  rewrite (rc5_rounds_is K Sf r (seq 1 r)); [|exact HK|intros i Hi; apply in_seq in Hi; lia|apply sum_lt|apply sum_lt].
  destruct (fold_left _ _ _) as [A B]. unfold store_le. cbn [map concat]. rewrite app_nil_r. reflexivity.
Qed.

Lemma quad_is : forall x, rc6_f x = quad x.
Proof.
  intro x. unfold rc6_f, quad. rewrite rol_small; [|apply N.mod_lt; discriminate|reflexivity]. f_equal. unfold mulw, addw, shlw. rewrite N.shiftl_mul_pow2, (N.mul_comm x (2 ^ 1)). change (2 ^ 1) with 2.
  rewrite N.add_mod_idemp_l, N.mul_mod_idemp_r by discriminate. reflexivity.
Qed.
Lemma quad_lt : forall x, quad x < 2 ^ 32.
Proof. intro x. apply rol_lt, N.mod_lt. discriminate. Qed.
Definition small4 (s : N * N * N * N) : Prop := let '(A, B, C, D) := s in A < 2 ^ 32 /\ B < 2 ^ 32 /\ C < 2 ^ 32 /\ D < 2 ^ 32.
Lemma rc6_rounds_is : forall K Sf n l, (forall x, (x < 2 * n + 4)%nat -> nth x K 0 = Sf x) -> (forall i, In i l -> (i <= n)%nat) -> forall s, small4 s ->
  fold_left (rc6_enc_round K) l s = fold_left (RC6_round Sf) l s.
Proof.
  intros K Sf n l HK. induction l as [|i l IH]; intros Hl [[[A B] C] D] (HA & HB & HC & HD); [reflexivity|]. cbn [fold_left].
  pose proof (Hl i (or_introl eq_refl)) as Hi.
  assert (rc6_enc_round K (A, B, C, D) i = RC6_round Sf (A, B, C, D) i) as E.
  { unfold rc6_enc_round, RC6_round. cbv zeta. rewrite !HK by lia. rewrite !quad_is. rewrite !rol_is by (apply lxor_lt; assumption || apply quad_lt). reflexivity. }
  rewrite E. apply IH; [intros; apply Hl; right; assumption|]. unfold RC6_round, small4. cbv zeta. repeat split; try assumption; apply sum_lt.
Qed.
Lemma rc6_is : forall ksize junk r key block, ksize = 16%nat \/ ksize = 24%nat \/ ksize = 32%nat -> (1 <= r <= 398)%nat -> (ksize <= 4 * (2 * r + 4))%nat -> length junk = 800%nat -> bytes key -> length key = ksize ->
  bytes block -> rc6_encrypt r (rc6_ksched ksize r junk key) block = RC6 r key block.
Proof.
  intros ksize junk r key block Hs Hr Hrk HJ Hb Hl Hbl.
  assert (exists c, ksize = (4 * c)%nat /\ (0 < c <= 8)%nat) as (c & Hc & Hc8) by (destruct Hs as [-> |[-> | ->]]; [exists 4%nat|exists 6%nat|exists 8%nat]; lia).
  assert (forall x, (x < 2 * r + 4)%nat -> nth x (rc6_ksched ksize r junk key) 0 = expanded (2 * r + 4) key x) as HK.
  { intros x Hx. unfold rc6_ksched. cbv zeta. replace (firstn ksize (key ++ repeat 0 (32 - length key))) with key by (rewrite firstn_app, <- Hl, Nat.sub_diag, firstn_all; cbn [firstn]; rewrite app_nil_r; reflexivity).
    replace (ksize / 4)%nat with c by (rewrite Hc, Nat.mul_comm, Nat.div_mul; lia).
    apply (sched_gen (2 * r + 4) 32 junk key c); (assumption || lia || (left; lia)). }
  unfold rc6_encrypt, RC6. cbv zeta. generalize dependent (rc6_ksched ksize r junk key). intros K HK. generalize dependent (expanded (2 * r + 4) key). intros Sf HK.
  unfold blk_le, load_le. cbn [seq map].
  change (le_val (slice block (0 * 4) 4)) with (word_of block 0). change (le_val (slice block (1 * 4) 4)) with (word_of block 1).
  change (le_val (slice block (2 * 4) 4)) with (word_of block 2). change (le_val (slice block (3 * 4) 4)) with (word_of block 3). unfold on4. rewrite !HK by lia.
  change (addw 32 (word_of block 1) (Sf 0%nat)) with (sum (word_of block 1) (Sf 0%nat)). change (addw 32 (word_of block 3) (Sf 1%nat)) with (sum (word_of block 3) (Sf 1%nat)).
  rewrite (rc6_rounds_is K Sf r (seq 1 r)); [|exact HK|intros i Hi; apply in_seq in Hi; lia|].
  - destruct (fold_left _ _ _) as [[[A B] C] D]. unfold store_le. cbn [map concat]. rewrite app_nil_r. reflexivity.
  - unfold small4. repeat split; try apply sum_lt; apply word_lt, Hbl.
Qed.
