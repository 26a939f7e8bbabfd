From Verif Require Import Words EncSpec TaskModel CipherBase CipherLib RcProofs StreamModel StreamSpec.
Open Scope N_scope.

Lemma nth_xorl : forall a b i, (i < length a)%nat -> (i < length b)%nat ->
  nth i (xorl a b) 0 = N.lxor (nth i a 0) (nth i b 0).
Proof.
  induction a as [|x a IH]; intros [|y b] i Ha Hb; cbn in Ha, Hb; try lia.
  destruct i; [reflexivity|]. cbn. apply IH; lia.
Qed.
Lemma xorl_length_le : forall a b, (length a <= length b)%nat -> length (xorl a b) = length a.
Proof. induction a as [|x a IH]; intros [|y b] H; cbn in *; try lia. rewrite IH; lia. Qed.

Lemma xored_twice : forall ks a b c, xored_with ks a b -> xored_with ks b c -> c = a.
Proof.
  intros ks a b c [L1 H1] [L2 H2]. apply nth_ext with 0 0; [congruence|].
  intros i Hi. rewrite H2, H1 by congruence. rewrite N.lxor_assoc, N.lxor_nilpotent, N.lxor_0_r. reflexivity.
Qed.
Lemma xored_fun : forall ks a b c, xored_with ks a b -> xored_with ks a c -> b = c.
Proof.
  intros ks a b c [L1 H1] [L2 H2]. apply nth_ext with 0 0; [congruence|].
  intros i Hi. rewrite H1, H2 by congruence. reflexivity.
Qed.
Lemma xored_ext : forall ks ks' a b, (forall i, (i < length a)%nat -> ks i = ks' i) -> xored_with ks a b -> xored_with ks' a b.
Proof. intros ks ks' a b E [L H]. split; [exact L|]. intros i Hi. rewrite H, E by exact Hi. reflexivity. Qed.
Lemma xored_nil : forall ks, xored_with ks [] [].
Proof. intro. split; [reflexivity|]. intros i H. cbn in H. lia. Qed.
(* a first block of b bytes, or less at the end *)
Lemma xored_block : forall ks b inp K out, (0 < b)%nat -> (b <= length K)%nat ->
  (forall i, (i < b)%nat -> ks i = nth i K 0) ->
  xored_with (fun i => ks (b + i)%nat) (skipn b inp) out ->
  xored_with ks inp (xorl (firstn b inp) K ++ out).
Proof.
  intros ks b inp K out Hb HK E [L H].
  assert (length (firstn b inp) <= b)%nat as Hf by (rewrite firstn_length; lia).
  assert (length (xorl (firstn b inp) K) = length (firstn b inp)) as LX by (apply xorl_length_le; lia).
  split.
  - rewrite app_length, LX, L, firstn_length, skipn_length. lia.
  - intros i Hi. rewrite skipn_length in H. rewrite firstn_length in *.
    destruct (Nat.ltb_spec i b) as [Hlt|Hge].
    + rewrite app_nth1 by lia. rewrite nth_xorl by (rewrite ?firstn_length; lia).
      rewrite nth_firstn by lia. rewrite E by exact Hlt. reflexivity.
    + rewrite app_nth2 by lia. rewrite LX. replace (i - Nat.min b (length inp))%nat with (i - b)%nat by lia.
      rewrite H by lia. replace (b + (i - b))%nat with i by lia. f_equal.
      rewrite <- (firstn_skipn b inp) at 2. rewrite app_nth2 by (rewrite firstn_length; lia).
      rewrite firstn_length. f_equal. lia.
Qed.

(* ---- the block loop of ChaCha20 and Salsa20 *)
Lemma iter_S : forall {A} n (f : A -> A) x, Nat.iter n f (f x) = Nat.iter (S n) f x.
Proof. induction n; intros; cbn; [reflexivity|]. f_equal. apply IHn. Qed.
Lemma stream_loop_spec : forall (P : N -> Prop) feed step, (forall l, P l -> length (feed l) = 64%nat) -> (forall l, P l -> P (step l)) ->
  forall fuel l inp, P l -> (length inp <= fuel)%nat ->
  xored_with (fun i => nth (i mod 64) (feed (Nat.iter (i / 64) step l)) 0) inp (fst (stream_loop fuel feed step l inp)).
Proof.
  intros P feed step HL HP. induction fuel as [|f IH]; intros l inp Hl Hf.
  - destruct inp; [|cbn in Hf; lia]. apply xored_nil.
  - destruct inp as [|b inp]; [apply xored_nil|]. cbn [stream_loop].
    set (x := b :: inp) in *. specialize (IH (step l) (skipn 64 x) (HP l Hl)).
    destruct (stream_loop f feed step (step l) (skipn 64 x)) as [r l'] eqn:E. cbn [fst] in *.
    apply xored_block; [lia|rewrite HL by exact Hl; lia| |].
    + intros i Hi. rewrite Nat.mod_small, Nat.div_small by lia. reflexivity.
    + eapply xored_ext; [|apply IH].
      * intros i _. cbv beta. replace (64 + i)%nat with (i + 1 * 64)%nat by lia.
        rewrite Nat.mod_add, Nat.div_add by lia. rewrite Nat.add_1_r, <- iter_S. reflexivity.
      * rewrite skipn_length. unfold x in *. cbn [length] in *. lia.
Qed.
Lemma stream_loop_counter : forall feed step fuel l inp, (length inp <= fuel)%nat ->
  snd (stream_loop fuel feed step l inp) = Nat.iter ((length inp + 63) / 64) step l.
Proof.
  intros feed step. induction fuel as [|f IH]; intros l inp Hf.
  - destruct inp; [reflexivity|cbn in Hf; lia].
  - destruct inp as [|b inp]; [reflexivity|]. cbn [stream_loop]. set (x := b :: inp) in *.
    assert (0 < length x)%nat as Hx by (unfold x; cbn; lia).
    specialize (IH (step l) (skipn 64 x)).
    destruct (stream_loop f feed step (step l) (skipn 64 x)) as [r l'] eqn:E. cbn [snd] in *.
    rewrite IH by (rewrite skipn_length; lia). rewrite skipn_length, iter_S. f_equal.
    destruct (Nat.ltb_spec (length x) 64).
    + replace (length x - 64 + 63)%nat with 63%nat by lia. change (63 / 64)%nat with 0%nat.
      apply Nat.div_unique with (length x - 1)%nat; lia.
    + replace (length x + 63)%nat with (length x - 64 + 63 + 1 * 64)%nat by lia. rewrite Nat.div_add by lia. lia.
Qed.

(* ---- ARC4 *)
Definition box_rel (box : list N) (f : N -> N) : Prop :=
  length box = 256%nat /\ forall x, x < 256 -> nth (N.to_nat x) box 0 = f x.
Lemma swap_exchange : forall box f i j, box_rel box f -> i < 256 -> j < 256 -> box_rel (swap box i j) (exchange f i j).
Proof.
  intros box f i j [L H] Hi Hj. split; [unfold swap; rewrite !upd_length; exact L|].
  intros x Hx. unfold swap, exchange. rewrite nth_upd by (rewrite upd_length; lia). rewrite nth_upd by lia.
  destruct (N.eqb_spec x i) as [->|Hxi].
  - destruct (Nat.eqb_spec (N.to_nat j) (N.to_nat i)) as [E|E].
    + apply N2Nat.inj in E. subst j. apply H, Hi.
    + rewrite Nat.eqb_refl. apply H, Hj.
  - destruct (N.eqb_spec x j) as [->|Hxj].
    + rewrite Nat.eqb_refl. apply H, Hi.
    + destruct (Nat.eqb_spec (N.to_nat j) (N.to_nat x)) as [E|E]; [apply N2Nat.inj in E; congruence|].
      destruct (Nat.eqb_spec (N.to_nat i) (N.to_nat x)) as [E'|E']; [apply N2Nat.inj in E'; congruence|].
      apply H, Hx.
Qed.
Lemma range_nth : forall n x, (x < n)%nat -> nth x (range n) 0 = N.of_nat x.
Proof.
  intros n x H. unfold range. rewrite nth_indep with (d' := N.of_nat 0) by (rewrite map_length, seq_length; exact H).
  rewrite map_nth, seq_nth by exact H. reflexivity.
Qed.
Lemma range_in_lt : forall n x, In x (range n) -> x < N.of_nat n.
Proof. intros n x H. unfold range in H. apply in_map_iff in H. destruct H as [y [<- H]]. apply in_seq in H. lia. Qed.
Lemma arc4_mix_rel : forall key l j box f, Forall (fun i => i < 256) l -> box_rel box f ->
  fst (fold_left (arc4_mix key) l (j, box)) = fst (fold_left (rc4_ksa_step key) l (j, f)) /\
  box_rel (snd (fold_left (arc4_mix key) l (j, box))) (snd (fold_left (rc4_ksa_step key) l (j, f))).
Proof.
  intros key. induction l as [|i l IH]; intros j box f Hl Hb; [split; [reflexivity|exact Hb]|].
  inversion Hl as [|? ? Hi Hl']; subst. cbn [fold_left arc4_mix rc4_ksa_step].
  rewrite (proj2 Hb i Hi). apply IH; [exact Hl'|]. apply swap_exchange; [exact Hb|exact Hi|].
  apply N.mod_lt. discriminate.
Qed.
Lemma arc4_setup_rel : forall key, box_rel (a4_S (arc4_key_setup key)) (rc4_ksa key).
Proof.
  intro key. cbn [arc4_key_setup a4_S]. apply arc4_mix_rel.
  - apply Forall_forall. intros x Hx. apply range_in_lt in Hx. exact Hx.
  - split; [unfold range; rewrite map_length, seq_length; reflexivity|].
    intros x Hx. rewrite range_nth by lia. apply N2Nat.id.
Qed.
Definition arc4_rel (key : list N) (s : arc4_state) (n : nat) : Prop :=
  a4_i s = fst (fst (rc4_state key n)) /\ a4_j s = snd (fst (rc4_state key n)) /\ box_rel (a4_S s) (snd (rc4_state key n)).
Lemma arc4_next_rel : forall key s n, arc4_rel key s n ->
  fst (arc4_next s) = rc4_key_stream key n /\ arc4_rel key (snd (arc4_next s)) (S n).
Proof.
  intros key s n (Hi & Hj & Hb). unfold rc4_key_stream, arc4_rel. rewrite Nat.add_1_r. cbn [rc4_state].
  destruct (rc4_state key n) as [[i j] f] eqn:E. cbn [fst snd] in *. unfold arc4_next. cbv zeta. rewrite Hi, Hj.
  set (i' := (i + 1) mod 256). assert (i' < 256) as Hi' by (apply N.mod_lt; discriminate).
  rewrite (proj2 Hb i' Hi'). set (j' := (j + f i') mod 256). assert (j' < 256) as Hj' by (apply N.mod_lt; discriminate).
  pose proof (swap_exchange _ _ i' j' Hb Hi' Hj') as Hs. cbn [fst snd a4_i a4_j a4_S].
  rewrite (proj2 Hs i' Hi'), (proj2 Hs j' Hj'). split; [|split; [reflexivity|split; [reflexivity|exact Hs]]].
  apply (proj2 Hs). apply N.mod_lt. discriminate.
Qed.
Lemma arc4_loop_spec : forall key inp s n, arc4_rel key s n ->
  xored_with (fun i => rc4_key_stream key (n + i)) inp (arc4_loop s inp).
Proof.
  intros key. induction inp as [|b inp IH]; intros s n H; [apply xored_nil|].
  cbn [arc4_loop]. destruct (arc4_next_rel key s n H) as [H1 H2].
  destruct (arc4_next s) as [k s']. cbn [fst snd] in *. destruct (IH s' (S n) H2) as [L X]. split.
  - cbn. rewrite L. reflexivity.
  - intros [|i] Hi.
    + cbn [nth]. rewrite Nat.add_0_r, H1. reflexivity.
    + cbn [nth]. rewrite X by (cbn in Hi; lia). f_equal. f_equal. lia.
Qed.
Lemma arc4_stream : forall key inp, xored_with (rc4_key_stream key) inp (arc4_loop (arc4_key_setup key) inp).
Proof.
  intros. apply (arc4_loop_spec key inp _ 0). split; [reflexivity|]. split; [reflexivity|]. apply arc4_setup_rel.
Qed.

(* ---- words *)
Lemma rotl_arith : forall w x n, x < 2 ^ w -> n <= w -> rotl w x n = (x * 2 ^ n) mod 2 ^ w + x / 2 ^ (w - n).
Proof.
  intros w x n Hx Hn. unfold rotl, shlw. rewrite N.shiftr_div_pow2, N.shiftl_mul_pow2.
  assert ((x * 2 ^ n) mod 2 ^ w = (x mod 2 ^ (w - n)) * 2 ^ n) as ->.
  { replace (2 ^ w) with (2 ^ (w - n) * 2 ^ n) by (rewrite <- N.pow_add_r; f_equal; lia).
    rewrite N.mul_mod_distr_r by (apply N.pow_nonzero; discriminate). reflexivity. }
  rewrite <- N.shiftl_mul_pow2. rewrite lor_add; [rewrite N.shiftl_mul_pow2; reflexivity|].
  apply N.div_lt_upper_bound; [apply N.pow_nonzero; discriminate|].
  rewrite <- N.pow_add_r. replace (w - n + n) with w by lia. exact Hx.
Qed.
Lemma rot_rotl : forall x n, x < 2 ^ 32 -> n <= 32 -> rotl 32 x n = rot x n.
Proof. intros. apply rotl_arith; assumption. Qed.
Definition word (x : N) : Prop := x < 2 ^ 32.
Lemma plus_word : forall a b, word (a +. b).
Proof. intros. apply N.mod_lt. discriminate. Qed.
Lemma xor_word : forall a b, word a -> word b -> word (N.lxor a b).
Proof. intros. apply lxor_lt; assumption. Qed.
Lemma rot_word : forall x n, word x -> n <= 32 -> word (rot x n).
Proof. intros x n H Hn. rewrite <- rot_rotl by assumption. apply rotl_lt; assumption. Qed.

(* lists of 16 words and states *)
Definition st_rel (l : list N) (s : nat -> N) : Prop :=
  length l = 16%nat /\ forall i, (i < 16)%nat -> nth i l 0 = s i /\ word (s i).
Lemma st_upd : forall l s i v, st_rel l s -> (i < 16)%nat -> word v -> st_rel (upd l i v) (set s i v).
Proof.
  intros l s i v [L H] Hi Hv. split; [rewrite upd_length; exact L|]. intros j Hj. unfold set.
  rewrite nth_upd by lia. rewrite (Nat.eqb_sym j i). destruct (Nat.eqb i j); [auto|]. apply H, Hj.
Qed.
Lemma st_ext : forall l s s', st_rel l s -> (forall i, s i = s' i) -> st_rel l s'.
Proof. intros l s s' [L H] E. split; [exact L|]. intros i Hi. rewrite <- E. apply H, Hi. Qed.
Lemma st_nth : forall l s i, st_rel l s -> (i < 16)%nat -> nth i l 0 = s i.
Proof. intros l s i [L H] Hi. apply H, Hi. Qed.
Lemma st_word : forall l s i, st_rel l s -> (i < 16)%nat -> word (s i).
Proof. intros l s i [L H] Hi. apply H, Hi. Qed.

Lemma set_eq : forall s i v, set s i v i = v.
Proof. intros. unfold set. rewrite Nat.eqb_refl. reflexivity. Qed.
Lemma set_neq : forall s i v j, j <> i -> set s i v j = s j.
Proof. intros s i v j H. unfold set. rewrite (proj2 (Nat.eqb_neq j i) H). reflexivity. Qed.

(* distinct indices *)
Definition four (a b c d : nat) : Prop :=
  (a < 16 /\ b < 16 /\ c < 16 /\ d < 16)%nat /\ a <> b /\ a <> c /\ a <> d /\ b <> c /\ b <> d /\ c <> d.


Ltac sets := repeat (first [rewrite set_eq | rewrite set_neq by (assumption || (apply not_eq_sym; assumption))]).

(* a += b; d ^= a; d <<<= n *)
Definition op3 (a b d : nat) (n : N) (x : list N) : list N :=
  let x := upd x a (add32 (nth a x 0) (nth b x 0)) in
  let x := upd x d (xor (nth d x 0) (nth a x 0)) in
  upd x d (rotl32 (nth d x 0) n).
Definition op3_spec (a b d : nat) (n : N) (s : nat -> N) : nat -> N :=
  set (set s a (s a +. s b)) d ((s d ^. (s a +. s b)) <<< n).
Lemma op3_rel : forall a b d n l s, (a < 16 /\ b < 16 /\ d < 16)%nat -> a <> d -> n <= 32 ->
  st_rel l s -> st_rel (op3 a b d n l) (op3_spec a b d n s).
Proof.
  intros a b d n l s (Ha & Hb & Hd) ad Hn H. unfold op3. cbv zeta.
  assert (st_rel (upd l a (add32 (nth a l 0) (nth b l 0))) (set s a (s a +. s b))) as H1.
  { rewrite (st_nth _ _ a H Ha), (st_nth _ _ b H Hb). apply st_upd; [exact H|exact Ha|apply plus_word]. }
  remember (upd l a (add32 (nth a l 0) (nth b l 0))) as l1 eqn:E1. clear E1.
  assert (word (s d ^. (s a +. s b))) as W by (apply xor_word; [apply (st_word _ _ d H Hd)|apply plus_word]).
  assert (st_rel (upd l1 d (xor (nth d l1 0) (nth a l1 0))) (set (set s a (s a +. s b)) d (s d ^. (s a +. s b)))) as H2.
  { rewrite (st_nth _ _ d H1 Hd), (st_nth _ _ a H1 Ha). sets. apply st_upd; assumption. }
  remember (upd l1 d (xor (nth d l1 0) (nth a l1 0))) as l2 eqn:E2. clear E2.
  rewrite (st_nth _ _ d H2 Hd). sets. rewrite rot_rotl by assumption.
  eapply st_ext; [apply st_upd; [exact H2|exact Hd|apply rot_word; assumption]|].
  intro i. unfold op3_spec, set. destruct (Nat.eqb i d); reflexivity.
Qed.
Lemma chacha_qr_rel : forall a b c d l s, four a b c d -> st_rel l s -> st_rel (chacha_qr a b c d l) (QUARTERROUND a b c d s).
Proof.
  intros a b c d l s ((Ha & Hb & Hc & Hd) & ab & ac & ad & bc & bd & cd) H.
  change (chacha_qr a b c d l) with (op3 c d b 7 (op3 a b d 8 (op3 c d b 12 (op3 a b d 16 l)))).
  eapply st_ext.
  - apply op3_rel; [auto|apply not_eq_sym; exact bc|lia|]. apply op3_rel; [auto|exact ad|lia|].
    apply op3_rel; [auto|apply not_eq_sym; exact bc|lia|]. apply op3_rel; [auto|exact ad|lia|]. exact H.
  - intro i. unfold op3_spec, QUARTERROUND, quarter_round. cbv zeta.
    destruct (Nat.eq_dec i d) as [->|id]; [sets; reflexivity|].
    destruct (Nat.eq_dec i c) as [->|ic]; [sets; reflexivity|].
    destruct (Nat.eq_dec i b) as [->|ib]; [sets; reflexivity|].
    destruct (Nat.eq_dec i a) as [->|ia]; [sets; reflexivity|].
    sets. reflexivity.
Qed.
Ltac fours := (split; [repeat split; lia|repeat split; lia]).
Lemma chacha_round_rel : forall l s, st_rel l s -> st_rel (chacha_dr (chacha_cr l)) (inner_block s).
Proof.
  intros l s H. unfold chacha_dr, chacha_cr, inner_block. cbv zeta.
  repeat (apply chacha_qr_rel; [fours|]). exact H.
Qed.
Lemma iter_rel : forall n f g, (forall l s, st_rel l s -> st_rel (f l) (g s)) ->
  forall l s, st_rel l s -> st_rel (Nat.iter n f l) (Nat.iter n g s).
Proof. intros n f g H. induction n; intros l s Hl; [exact Hl|]. cbn. apply H, IHn, Hl. Qed.

(* y1 ^= (y0 + y3) <<< n *)
Definition sop (y1 y0 y3 : nat) (n : N) (x : list N) : list N :=
  upd x y1 (xor (nth y1 x 0) (rotl32 (add32 (nth y0 x 0) (nth y3 x 0)) n)).
Definition sop_spec (y1 y0 y3 : nat) (n : N) (s : nat -> N) : nat -> N := set s y1 (s y1 ^. ((s y0 +. s y3) <<< n)).
Lemma sop_rel : forall y1 y0 y3 n l s, (y1 < 16 /\ y0 < 16 /\ y3 < 16)%nat -> n <= 32 ->
  st_rel l s -> st_rel (sop y1 y0 y3 n l) (sop_spec y1 y0 y3 n s).
Proof.
  intros y1 y0 y3 n l s (H1 & H0 & H3) Hn H. unfold sop, sop_spec.
  rewrite (st_nth _ _ y1 H H1), (st_nth _ _ y0 H H0), (st_nth _ _ y3 H H3), rot_rotl by (apply plus_word || exact Hn).
  apply st_upd; [exact H|exact H1|]. apply xor_word; [apply (st_word _ _ y1 H H1)|]. apply rot_word; [apply plus_word|exact Hn].
Qed.
Lemma salsa_qr_rel : forall a b c d l s, four a b c d -> st_rel l s -> st_rel (salsa_qr a b c d l) (on_quarter a b c d s).
Proof.
  intros a b c d l s ((Ha & Hb & Hc & Hd) & ab & ac & ad & bc & bd & cd) H.
  change (salsa_qr a b c d l) with (sop a d c 18 (sop d c b 13 (sop c b a 9 (sop b a d 7 l)))).
  eapply st_ext.
  - repeat (apply sop_rel; [auto|lia|]). exact H.
  - intro i. unfold sop_spec, on_quarter, quarterround. cbv zeta.
    destruct (Nat.eq_dec i d) as [->|id]; [sets; reflexivity|].
    destruct (Nat.eq_dec i c) as [->|ic]; [sets; reflexivity|].
    destruct (Nat.eq_dec i b) as [->|ib]; [sets; reflexivity|].
    destruct (Nat.eq_dec i a) as [->|ia]; [sets; reflexivity|].
    sets. reflexivity.
Qed.
Lemma salsa_double_rel : forall l s, st_rel l s -> st_rel (salsa_doubleround l) (doubleround s).
Proof.
  intros l s H. unfold salsa_doubleround, salsa_rowround, salsa_columnround, doubleround, rowround, columnround.
  repeat (apply salsa_qr_rel; [fours|]). exact H.
Qed.

(* byte reversal of a word *)
Lemma land_shifted : forall x m k, N.land x (N.shiftl m k) = N.shiftl (N.land (N.shiftr x k) m) k.
Proof.
  intros x m k. apply N.bits_inj. intro i. rewrite N.land_spec.
  destruct (N.ltb_spec i k).
  - rewrite !N.shiftl_spec_low by assumption. apply andb_false_r.
  - rewrite !N.shiftl_spec_high' by assumption. rewrite N.land_spec, N.shiftr_spec'. f_equal. f_equal. lia.
Qed.
Lemma bytes_of_word : forall a b c d, d < 256 -> c < 256 -> b < 256 ->
  let w := be_val [a; b; c; d] in w / 2 ^ 8 = be_val [a; b; c] /\ w / 2 ^ 16 = be_val [a; b] /\ w / 2 ^ 24 = a /\ w mod 2 ^ 8 = d.
Proof.
  intros a b c d Hd Hc Hb. cbv zeta. unfold be_val. cbn [fold_left].
  change (2 ^ 8) with 256. change (2 ^ 16) with 65536. change (2 ^ 24) with 16777216.
  repeat split; lia.
Qed.
Lemma or_bytes : forall d c b a, a < 256 -> b < 256 -> c < 256 ->
  or (or (or (N.shiftl d 24) (N.shiftl c 16)) (N.shiftl b 8)) a = be_val [d; c; b; a].
Proof.
  intros d c b a Ha Hb Hc.
  assert (forall x y k, y < 256 -> or (N.shiftl x (k + 8)) (N.shiftl y k) = N.shiftl (x * 256 + y) k) as S1.
  { intros x y k Hy.     replace (k + 8) with (8 + k) by lia. rewrite <- N.shiftl_shiftl, <- N.shiftl_lor. f_equal. rewrite lor_add by exact Hy.
    reflexivity. }
  rewrite (S1 d c 16 Hc : or (N.shiftl d 24) (N.shiftl c 16) = _).
  rewrite (S1 (d * 256 + c) b 8 Hb : or (N.shiftl _ 16) (N.shiftl b 8) = _).
  rewrite lor_add by exact Ha. unfold be_val. cbn [fold_left]. change (2 ^ 8) with 256. reflexivity.
Qed.
Lemma rev32_bytes : forall a b c d, byte a -> byte b -> byte c -> byte d -> rev32 (be_val [a; b; c; d]) = be_val [d; c; b; a].
Proof.
  intros a b c d Ha Hb Hc Hd. unfold byte in *. unfold rev32.
  destruct (bytes_of_word a b c d Hd Hc Hb) as (E8 & E16 & E24 & E0). set (w := be_val [a; b; c; d]) in *. clearbody w.
  rewrite <- or_bytes by assumption.
  assert (shl32 w 24 = N.shiftl d 24) as ->.
  { unfold shlw. rewrite !N.shiftl_mul_pow2. change (2 ^ 32) with (2 ^ 8 * 2 ^ 24).
    rewrite N.mul_mod_distr_r by discriminate. rewrite E0. reflexivity. }
  assert (shl32 (and w 0x0000FF00) 8 = N.shiftl c 16) as ->.
  { change 0x0000FF00 with (N.shiftl (N.ones 8) 8). rewrite land_shifted, N.land_ones, N.shiftr_div_pow2, E8.
    unfold be_val. cbn [fold_left]. assert ((((0 * 256 + a) * 256 + b) * 256 + c) mod 2 ^ 8 = c) as ->.
    { change (2 ^ 8) with 256. lia. }
    unfold shlw. rewrite N.shiftl_shiftl. change (8 + 8) with 16. apply N.mod_small.
    rewrite N.shiftl_mul_pow2. change (2 ^ 32) with (65536 * 2 ^ 16). apply N.mul_lt_mono_pos_r; [reflexivity|lia]. }
  assert (shr (and w 0x00FF0000) 8 = N.shiftl b 8) as ->.
  { change 0x00FF0000 with (N.shiftl (N.ones 8) 16). rewrite land_shifted, N.land_ones, (N.shiftr_div_pow2 w 16), E16.
    unfold be_val. cbn [fold_left]. assert (((0 * 256 + a) * 256 + b) mod 2 ^ 8 = b) as ->.
    { change (2 ^ 8) with 256. lia. }
    rewrite !N.shiftl_mul_pow2, N.shiftr_div_pow2. change (2 ^ 16) with (2 ^ 8 * 2 ^ 8). rewrite N.mul_assoc.
    apply N.div_mul. discriminate. }
  rewrite N.shiftr_div_pow2, E24. reflexivity.
Qed.

(* ---- words and bytes *)
Lemma nth_concat_map : forall {A} (f : A -> list N) k (d : A) l i, (0 < k)%nat -> (forall x, In x l -> length (f x) = k) -> (i < k * length l)%nat ->
  nth i (concat (map f l)) 0 = nth (i mod k) (f (nth (i / k) l d)) 0.
Proof.
  intros A f k d. induction l as [|x l IH]; intros i Hk Hf Hi; [cbn in Hi; lia|].
  cbn [map concat]. assert (length (f x) = k) as Hx by (apply Hf; left; reflexivity).
  destruct (Nat.lt_ge_cases i k).
  - rewrite app_nth1 by lia. rewrite Nat.mod_small, Nat.div_small by assumption. reflexivity.
  - rewrite app_nth2 by lia. rewrite Hx, IH by (try lia; try (intros; apply Hf; right; assumption); cbn [length] in Hi; lia).
    replace i with ((i - k) + 1 * k)%nat at 3 4 by lia. rewrite Nat.mod_add, Nat.div_add by lia.
    replace ((i - k) / k + 1)%nat with (S ((i - k) / k)) by lia. reflexivity.
Qed.
Lemma concat_map_length : forall {A} (f : A -> list N) k l, (forall x, In x l -> length (f x) = k) -> length (concat (map f l)) = (k * length l)%nat.
Proof.
  intros A f k. induction l as [|x l IH]; intros Hf; [cbn; lia|].
  cbn [map concat length]. rewrite app_length, Hf by (left; reflexivity). rewrite IH by (intros; apply Hf; right; assumption). lia.
Qed.
Lemma slice4 : forall l i, (i + 4 <= length l)%nat -> slice l i 4 = [nth i l 0; nth (i + 1) l 0; nth (i + 2) l 0; nth (i + 3) l 0].
Proof.
  induction l as [|x l IH]; intros i H; [cbn in H; lia|]. destruct i as [|i].
  - destruct l as [|y [|z [|w l]]]; cbn in H; try lia. reflexivity.
  - change (slice (x :: l) (S i) 4) with (slice l i 4). rewrite IH by (cbn in H; lia). reflexivity.
Qed.
Lemma be_bytes4 : forall w, be_bytes 4 w = [(w / 2 ^ 24) mod 256; (w / 2 ^ 16) mod 256; (w / 2 ^ 8) mod 256; w mod 256].
Proof.
  intro w. cbn [be_bytes app]. rewrite !N.div_div by discriminate. reflexivity.
Qed.
Lemma be_val4_le : forall b i, (4 * i + 4 <= length b)%nat -> be_val (rev (slice b (4 * i) 4)) = le_word b i.
Proof.
  intros b i H. rewrite slice4 by exact H. unfold be_val, le_word. cbn [rev app fold_left].
  change (2 ^ 8) with 256. change (2 ^ 16) with 65536. change (2 ^ 24) with 16777216. ring.
Qed.
Lemma le_word_word : forall b i, bytes b -> word (le_word b i).
Proof.
  intros b i H. unfold le_word, word.
  assert (forall k, nth k b 0 < 256) as B.
  { intro k. destruct (Nat.lt_ge_cases k (length b)); [apply (proj1 (Forall_forall _ _) H), nth_In; assumption|].
    rewrite nth_overflow by assumption. reflexivity. }
  pose proof (B (4 * i)%nat). pose proof (B (4 * i + 1)%nat). pose proof (B (4 * i + 2)%nat). pose proof (B (4 * i + 3)%nat).
  change (2 ^ 8) with 256. change (2 ^ 16) with 65536. change (2 ^ 24) with 16777216. change (2 ^ 32) with 4294967296. lia.
Qed.
Lemma rev32_store : forall w, word w -> be_bytes 4 (rev32 w) = [w mod 256; (w / 2 ^ 8) mod 256; (w / 2 ^ 16) mod 256; (w / 2 ^ 24) mod 256].
Proof.
  intros w H. rewrite <- (be_val_bytes 4 w) at 1 by exact H. rewrite (be_bytes4 w).
  assert (forall x, byte (x mod 256)) as B by (intro; apply N.mod_lt; discriminate).
  rewrite rev32_bytes by apply B.
  change 4%nat with (length [w mod 256; (w / 2 ^ 8) mod 256; (w / 2 ^ 16) mod 256; (w / 2 ^ 24) mod 256]).
  apply be_bytes_val. repeat constructor; apply B.
Qed.
Lemma store_rev_length : forall l s, st_rel l s -> length (store_be 4 (map rev32 l)) = 64%nat.
Proof.
  intros l s [L _]. unfold store_be. rewrite (concat_map_length _ 4%nat); [rewrite map_length, L; reflexivity|].
  intros. apply be_bytes_length.
Qed.
Lemma store_rev_nth : forall l s i, st_rel l s -> (i < 64)%nat -> nth i (store_be 4 (map rev32 l)) 0 = le_byte s i.
Proof.
  intros l s i [L H] Hi. unfold store_be. rewrite map_map.
  rewrite (nth_concat_map (fun x => be_bytes 4 (rev32 x)) 4%nat 0); [|lia|intros; apply be_bytes_length|lia].
  assert (i / 4 < 16)%nat as Hq by (apply Nat.div_lt_upper_bound; lia).
  destruct (H (i / 4)%nat Hq) as [E W]. rewrite E, rev32_store by exact W. unfold le_byte.
  assert (i mod 4 < 4)%nat as Hm by (apply Nat.mod_upper_bound; lia).
  destruct (i mod 4)%nat as [|[|[|[|k]]]]; [| | | |lia].
  - cbn [nth]. change (2 ^ (8 * N.of_nat 0)) with 1. rewrite N.div_1_r. reflexivity.
  - reflexivity.
  - reflexivity.
  - reflexivity.
Qed.
Lemma addl_rel : forall l s m t, st_rel l s -> st_rel m t -> st_rel (addl l m) (fun i => s i +. t i).
Proof.
  intros l s m t [L H] [M K].
  assert (forall n a b, length a = n -> length b = n -> length (addl a b) = n /\ forall i, (i < n)%nat -> nth i (addl a b) 0 = nth i a 0 +. nth i b 0) as G.
  { induction n as [|n IH]; intros [|x a] [|y b] Ha Hb; try discriminate; [split; [reflexivity|intros; lia]|].
    destruct (IH a b ltac:(cbn in Ha; lia) ltac:(cbn in Hb; lia)) as [G1 G2]. cbn [addl]. split; [cbn; lia|].
    intros [|i] Hi; [reflexivity|]. cbn [nth]. apply G2. lia. }
  destruct (G 16%nat l m L M) as [G1 G2]. split; [exact G1|]. intros i Hi. rewrite G2 by exact Hi.
  rewrite (proj1 (H i Hi)), (proj1 (K i Hi)). split; [reflexivity|apply plus_word].
Qed.

(* ---- ChaCha20 blocks *)
Lemma load_be_concat : forall ps, (forall p, In p ps -> length p = 4%nat) -> load_be 4 (length ps) (concat ps) = map be_val ps.
Proof.
  intros ps. unfold load_be.
  induction ps as [|p ps IH]; intros H; [reflexivity|].
  cbn [length seq map concat]. f_equal.
  - unfold slice. cbn [skipn Nat.mul]. rewrite firstn_app, <- (H p) by (left; reflexivity).
    rewrite firstn_all, Nat.sub_diag. cbn [firstn]. rewrite app_nil_r. reflexivity.
  - rewrite <- IH by (intros; apply H; right; assumption). rewrite <- seq_shift, map_map. apply map_ext. intro i.
    f_equal. unfold slice. rewrite skipn_app, skipn_all2 by (rewrite H by (left; reflexivity); lia).
    rewrite H by (left; reflexivity). cbn [app]. f_equal. f_equal. lia.
Qed.
Definition chacha_pieces (key n : list N) (l : N) : list (list N) :=
  [be_bytes 4 0x61707865; be_bytes 4 0x3320646E; be_bytes 4 0x79622D32; be_bytes 4 0x6B206574] ++
  map (fun i => rev (slice key (4 * i) 4)) (seq 0 8) ++ [be_bytes 4 l] ++ map (fun i => rev (slice n (4 * i) 4)) (seq 0 3).
Lemma chacha_pieces_words : forall key n l, octets key -> octets n -> length key = 32%nat -> length n = 12%nat -> word l ->
  st_rel (map be_val (chacha_pieces key n l)) (chacha20_state key n l).
Proof.
  intros key n l Hk Hn Lk Ln Hl. split; [reflexivity|]. intros i Hi.
  assert (forall x, word x -> be_val (be_bytes 4 x) = x /\ word x) as C by (intros x Hx; split; [apply be_val_bytes; exact Hx|exact Hx]).
  assert (forall j, (j < 8)%nat -> be_val (rev (slice key (4 * j) 4)) = le_word key j /\ word (le_word key j)) as K.
  { intros j Hj. split; [apply be_val4_le; lia|apply le_word_word; exact Hk]. }
  assert (forall j, (j < 3)%nat -> be_val (rev (slice n (4 * j) 4)) = le_word n j /\ word (le_word n j)) as Q.
  { intros j Hj. split; [apply be_val4_le; lia|apply le_word_word; exact Hn]. }
  unfold chacha_pieces. change (seq 0 8) with [0; 1; 2; 3; 4; 5; 6; 7]%nat. change (seq 0 3) with [0; 1; 2]%nat.
  cbn [map app].
  do 16 (destruct i as [|i]; [cbn [nth chacha20_state]; first [apply C; exact Hl || reflexivity | apply K; lia | apply Q; lia]|]).
  lia.
Qed.

Lemma chacha20_feed_spec : forall key n l, octets key -> octets n -> length key = 32%nat -> length n = 12%nat -> word l ->
  length (chacha20_feed key n l) = 64%nat /\ forall i, (i < 64)%nat -> nth i (chacha20_feed key n l) 0 = chacha20_block key n l i.
Proof.
  intros key n l Hk Hn Lk Ln Hl.
  assert (chacha20_feed key n l = chacha20_H (concat (chacha_pieces key n l))) as ->.
  { unfold chacha20_feed, chacha_pieces, rev_words. rewrite !concat_app. cbn [concat]. rewrite !app_nil_r, <- !app_assoc. reflexivity. }
  unfold chacha20_H. cbv zeta.
  assert (load_be 4 16 (concat (chacha_pieces key n l)) = map be_val (chacha_pieces key n l)) as ->.
  { apply (load_be_concat (chacha_pieces key n l)). intros p Hp. unfold chacha_pieces in Hp.
    apply in_app_or in Hp. destruct Hp as [Hp|Hp].
    { repeat (destruct Hp as [<-|Hp]; [reflexivity|]). destruct Hp. }
    apply in_app_or in Hp. destruct Hp as [Hp|Hp].
    { apply in_map_iff in Hp. destruct Hp as (i & <- & Hi). apply in_seq in Hi. rewrite rev_length. apply slice_length. lia. }
    apply in_app_or in Hp. destruct Hp as [Hp|Hp].
    { destruct Hp as [<-|[]]. apply be_bytes_length. }
    apply in_map_iff in Hp. destruct Hp as (i & <- & Hi). apply in_seq in Hi. rewrite rev_length. apply slice_length. lia. }
  pose proof (chacha_pieces_words key n l Hk Hn Lk Ln Hl) as R.
  pose proof (addl_rel _ _ _ _ (iter_rel 10 _ _ chacha_round_rel _ _ R) R) as A.
  split; [apply (store_rev_length _ _ A)|]. intros i Hi. rewrite (store_rev_nth _ _ i A Hi). reflexivity.
Qed.

(* ---- Salsa20 blocks *)
Lemma salsa_load : forall x, octets x -> length x = 64%nat -> st_rel (map rev32 (load_be 4 16 x)) (le_word x).
Proof.
  intros x Hx Lx. split; [reflexivity|]. intros i Hi.
  assert (nth i (map rev32 (load_be 4 16 x)) 0 = rev32 (be_val (slice x (i * 4) 4))) as ->.
  { unfold load_be. rewrite map_map. rewrite (nth_indep _ 0 (rev32 (be_val (slice x (0 * 4) 4)))) by (rewrite map_length, seq_length; exact Hi).
    rewrite (map_nth (fun j => rev32 (be_val (slice x (j * 4) 4))) (seq 0 16) 0%nat i), seq_nth by exact Hi. reflexivity. }
  split; [|apply le_word_word; exact Hx].
  rewrite <- be_val4_le by lia. rewrite (Nat.mul_comm i 4), slice4 by lia. cbn [rev app].
  assert (forall j, (j < 64)%nat -> byte (nth j x 0)) as B by (intros j Hj; apply (proj1 (Forall_forall _ _) Hx), nth_In; lia).
  apply rev32_bytes; apply B; lia.
Qed.
Lemma salsa20_H_spec : forall x, octets x -> length x = 64%nat ->
  length (salsa20_H x) = 64%nat /\ forall i, (i < 64)%nat -> nth i (salsa20_H x) 0 = Salsa20 x i.
Proof.
  intros x Hx Lx. pose proof (salsa_load x Hx Lx) as R.
  pose proof (addl_rel _ _ _ _ (iter_rel 10 _ _ salsa_double_rel _ _ R) R) as A.
  split; [apply (store_rev_length _ _ A)|]. intros i Hi. unfold salsa20_H. cbv zeta. rewrite (store_rev_nth _ _ i A Hi).
  unfold Salsa20, le_byte. f_equal. f_equal. unfold plus. f_equal. apply N.add_comm.
Qed.
Lemma salsa_counter : forall l, l < 2 ^ 64 -> be_bytes 4 (rev32 (and l 0xFFFFFFFF)) ++ be_bytes 4 (rev32 (shr l 32)) = le_bytes 8 l.
Proof.
  intros l Hl. change 0xFFFFFFFF with (N.ones 32). rewrite N.land_ones, N.shiftr_div_pow2.
  rewrite !rev32_store.
  2: { apply N.div_lt_upper_bound; [discriminate|exact Hl]. }
  2: { apply N.mod_lt. discriminate. }
  assert (forall a, a + 8 <= 32 -> (l mod 2 ^ 32 / 2 ^ a) mod 256 = (l / 2 ^ a) mod 256) as E.
  { intros a Ha. replace (2 ^ 32) with (2 ^ a * 2 ^ (32 - a)) by (rewrite <- N.pow_add_r; f_equal; lia).
    rewrite N.mod_mul_r by (apply N.pow_nonzero; discriminate). rewrite (N.mul_comm (2 ^ a)), N.div_add by (apply N.pow_nonzero; discriminate).
    rewrite (N.div_small (l mod 2 ^ a)) by (apply N.mod_lt, N.pow_nonzero; discriminate). rewrite N.add_0_l.
    replace (2 ^ (32 - a)) with (256 * 2 ^ (24 - a)) by (change 256 with (2 ^ 8); rewrite <- N.pow_add_r; f_equal; lia).
    rewrite N.mod_mul_r by (try apply N.pow_nonzero; discriminate). rewrite (N.mul_comm 256), N.mod_add by discriminate.
    apply N.mod_mod. discriminate. }
  pose proof (E 0 ltac:(discriminate)) as E0. rewrite !N.pow_0_r, !N.div_1_r in E0. rewrite E0, !E by discriminate.
  unfold le_bytes. cbn [be_bytes rev app]. rewrite !N.div_div by discriminate. reflexivity.
Qed.
Lemma salsa20_feed_expand : forall key v l, octets key -> octets v -> (length key = 32 \/ length key = 16)%nat -> length v = 8%nat -> l < 2 ^ 64 ->
  let k1 := if (length key =? 16)%nat then key else part key 16 16 in
  length (salsa20_feed key v l) = 64%nat /\
  forall i, (i < 64)%nat -> nth i (salsa20_feed key v l) 0 = Salsa20_k sigma (part key 0 16) k1 (v ++ le_bytes 8 l) i.
Proof.
  intros key v l Hk Hv Lk Lv Hl k1. unfold salsa20_feed. cbv zeta.
  rewrite <- (salsa_counter l Hl).
  set (x := be_bytes 4 0x65787061 ++ _).
  assert (x = part sigma 0 4 ++ part key 0 16 ++ part sigma 4 4 ++ (v ++ be_bytes 4 (rev32 (and l 0xFFFFFFFF)) ++ be_bytes 4 (rev32 (shr l 32))) ++
              part sigma 8 4 ++ k1 ++ part sigma 12 4) as E.
  { unfold x, k1. rewrite <- !app_assoc. change (be_bytes 4 1702391905) with (part sigma 0 4). change (be_bytes 4 1852055603) with (part sigma 4 4).
    change (be_bytes 4 841835129) with (part sigma 8 4). change (be_bytes 4 1952784491) with (part sigma 12 4).
    repeat f_equal. destruct Lk as [Lk|Lk]; rewrite Lk; cbn [Nat.eqb].
    - reflexivity.
    - rewrite <- Lk. apply firstn_all. }
  assert (length k1 = 16%nat) as L1.
  { unfold k1, part. destruct Lk as [Lk|Lk]; rewrite Lk; cbn [Nat.eqb]; [rewrite firstn_length, skipn_length; lia|exact Lk]. }
  assert (length (part key 0 16) = 16%nat) as L0 by (unfold part; rewrite firstn_length, skipn_length; lia).
  assert (octets x) as Ox.
  { assert (forall a b, octets a -> octets b -> octets (a ++ b)) as A by (intros; apply Forall_app; split; assumption).
    assert (octets (part key 0 16)) as O0 by (apply bytes_firstn, bytes_skipn, Hk).
    assert (octets k1) as O1.
    { unfold k1, part. destruct (Nat.eqb (length key) 16); [exact Hk|apply bytes_firstn, bytes_skipn, Hk]. }
    assert (forall i n, octets (part sigma i n)) as Os by (intros; apply bytes_firstn, bytes_skipn; repeat constructor; reflexivity).
    assert (forall y, octets (be_bytes 4 y)) as Ob by (intro; apply be_bytes_bytes).
    rewrite E. apply A; [apply Os|]. apply A; [exact O0|]. apply A; [apply Os|]. apply A; [apply A; [exact Hv|apply A; apply Ob]|].
    apply A; [apply Os|]. apply A; [exact O1|apply Os]. }
  assert (length x = 64%nat) as Lx.
  { rewrite E, !app_length, !be_bytes_length, L1, L0, Lv. reflexivity. }
  destruct (salsa20_H_spec x Ox Lx) as [S1 S2]. split; [exact S1|]. intros i Hi. rewrite S2 by exact Hi. rewrite E. reflexivity.
Qed.

(* ---- from blocks to messages *)
Lemma iter_add32 : forall k l, word l -> Nat.iter k (fun l => add32 l 1) l = (l + N.of_nat k) mod 2 ^ 32.
Proof.
  induction k as [|k IH]; intros l Hl.
  - cbn. rewrite N.add_0_r, N.mod_small by exact Hl. reflexivity.
  - cbn [Nat.iter]. change (Nat.iter (S k) ?f l) with (f (Nat.iter k f l)). cbn beta. rewrite IH by exact Hl.
    unfold addw. rewrite N.add_mod_idemp_l by discriminate. f_equal. lia.
Qed.
Lemma iter_add64 : forall k, N.of_nat k < 2 ^ 64 -> Nat.iter k (fun l => addw 64 l 1) 0 = N.of_nat k.
Proof.
  induction k as [|k IH]; intros Hk; [reflexivity|].
  change (Nat.iter (S k) ?f 0) with (f (Nat.iter k f 0)). cbn beta. rewrite IH by lia. unfold addw.
  rewrite N.mod_small by lia. lia.
Qed.
Lemma chacha20_stream : forall key n l inp, octets key -> octets n -> length key = 32%nat -> length n = 12%nat -> word l ->
  let r := stream_loop (length inp) (chacha20_feed key n) (fun l => add32 l 1) l inp in
  xored_with (chacha20_key_stream key n l) inp (fst r) /\ snd r = (l + N.of_nat ((length inp + 63) / 64)) mod 2 ^ 32.
Proof.
  intros key n l inp Hk Hn Lk Ln Hl r. split.
  - eapply xored_ext; [|apply (stream_loop_spec word)].
    + intros i _. cbv beta. rewrite iter_add32 by exact Hl.
      rewrite (proj2 (chacha20_feed_spec key n _ Hk Hn Lk Ln (plus_word l (N.of_nat (i / 64))))); [reflexivity|].
      apply Nat.mod_upper_bound. lia.
    + intros c Hc. apply chacha20_feed_spec; assumption.
    + intros c _. apply N.mod_lt. discriminate.
    + exact Hl.
    + lia.
  - unfold r. rewrite stream_loop_counter by lia. apply iter_add32. exact Hl.
Qed.
(* the key stream of the code for 16 and 32 byte keys *)
Definition sigma_stream (key v : list N) (i : nat) : N :=
  Salsa20_k sigma (part key 0 16) (if (length key =? 16)%nat then key else part key 16 16) (v ++ le_bytes 8 (N.of_nat (i / 64))) (i mod 64).
Lemma salsa20_stream : forall key v inp, octets key -> octets v -> (length key = 32 \/ length key = 16)%nat -> length v = 8%nat ->
  N.of_nat (length inp) < 2 ^ 64 ->
  xored_with (sigma_stream key v) inp (fst (stream_loop (length inp) (salsa20_feed key v) (fun l => addw 64 l 1) 0 inp)).
Proof.
  intros key v inp Hk Hv Lk Lv Hi.
  eapply xored_ext; [|apply (stream_loop_spec (fun l => l < 2 ^ 64))].
  - intros i Hlt. cbv beta.
    assert (N.of_nat (i / 64) < 2 ^ 64) as Hc.
    { assert (i / 64 <= i)%nat by (apply Nat.div_le_upper_bound; lia). lia. }
    rewrite iter_add64 by exact Hc.
    rewrite (proj2 (salsa20_feed_expand key v _ Hk Hv Lk Lv Hc)) by (apply Nat.mod_upper_bound; lia). reflexivity.
  - intros c Hc. apply salsa20_feed_expand; assumption.
  - intros c _. apply N.mod_lt. discriminate.
  - reflexivity.
  - lia.
Qed.
