From Verif Require Import Words EncSpec TaskModel CipherBase CipherLib RcProofs KeyProofs StreamModel StreamSpec StreamProofs.
Open Scope N_scope.

(* ---- little-endian values *)
Lemma pow256 : forall n, 256 ^ n = 2 ^ (8 * n).
Proof. intro n. change 256 with (2 ^ 8). rewrite <- N.pow_mul_r. reflexivity. Qed.
Lemma le_val_cons : forall b l, le_val (b :: l) = b + 256 * le_val l.
Proof. intros. unfold le_val. cbn [rev]. rewrite be_val_app. lia. Qed.
Lemma le_val_app : forall a b, le_val (a ++ b) = le_val a + 256 ^ N.of_nat (length a) * le_val b.
Proof.
  induction a as [|x a IH]; intro b.
  - cbn [app length]. change (le_val []) with 0. change (256 ^ N.of_nat 0) with 1. lia.
  - cbn [app length]. rewrite !le_val_cons, IH, Nat2N.inj_succ, N.pow_succ_r'. ring.
Qed.
Lemma le_val_lt : forall l, bytes l -> le_val l < 256 ^ N.of_nat (length l).
Proof. intros l H. unfold le_val. rewrite <- rev_length. apply be_val_lt. apply bytes_rev. exact H. Qed.
Lemma le_val_part : forall l k n, bytes l -> (le_val l / 256 ^ N.of_nat k) mod 256 ^ N.of_nat n = le_val (firstn n (skipn k l)).
Proof.
  assert (forall l n, bytes l -> le_val l mod 256 ^ N.of_nat n = le_val (firstn n l)) as M.
  { intros l n H. destruct (Nat.le_ge_cases (length l) n) as [Hn|Hn].
    - rewrite firstn_all2 by exact Hn. apply N.mod_small. eapply N.lt_le_trans; [apply le_val_lt, H|].
      apply N.pow_le_mono_r; [discriminate|lia].
    - rewrite <- (firstn_skipn n l) at 1. rewrite le_val_app, firstn_length, Nat.min_l by exact Hn.
      rewrite N.mul_comm, N.mod_add by (apply N.pow_nonzero; discriminate). apply N.mod_small.
      pose proof (le_val_lt (firstn n l) (bytes_firstn n l H)) as L. rewrite firstn_length, Nat.min_l in L by exact Hn. exact L. }
  intros l k n H. rewrite <- M by (apply bytes_skipn; exact H). f_equal.
  destruct (Nat.le_ge_cases (length l) k) as [Hk|Hk].
  - rewrite skipn_all2 by exact Hk. apply N.div_small. eapply N.lt_le_trans; [apply le_val_lt, H|].
    apply N.pow_le_mono_r; [discriminate|lia].
  - rewrite <- (firstn_skipn k l) at 1. rewrite le_val_app, firstn_length, Nat.min_l by exact Hk.
    rewrite N.mul_comm, N.div_add by (apply N.pow_nonzero; discriminate).
    pose proof (le_val_lt (firstn k l) (bytes_firstn k l H)) as L. rewrite firstn_length, Nat.min_l in L by exact Hk.
    rewrite N.div_small by exact L. reflexivity.
Qed.
Lemma le_bytes_S : forall k x, le_bytes (S k) x = x mod 256 :: le_bytes k (x / 256).
Proof. intros. unfold le_bytes. cbn [be_bytes]. rewrite rev_app_distr. reflexivity. Qed.
Lemma le_bytes_length : forall k x, length (le_bytes k x) = k.
Proof. intros. unfold le_bytes. rewrite rev_length. apply be_bytes_length. Qed.
Lemma le_bytes_bytes : forall k x, bytes (le_bytes k x).
Proof. intros. unfold le_bytes. apply bytes_rev, be_bytes_bytes. Qed.
Lemma le_bytes_app : forall a b x y, x < 256 ^ N.of_nat a -> le_bytes (a + b) (x + 256 ^ N.of_nat a * y) = le_bytes a x ++ le_bytes b y.
Proof.
  induction a as [|a IH]; intros b x y H.
  - cbn [Nat.add]. change (256 ^ N.of_nat 0) with 1 in *. replace x with 0 by lia. rewrite N.add_0_l, N.mul_1_l. reflexivity.
  - cbn [Nat.add]. rewrite !le_bytes_S. rewrite Nat2N.inj_succ, N.pow_succ_r' in *.
    replace (x + 256 * 256 ^ N.of_nat a * y) with (x + (256 ^ N.of_nat a * y) * 256) by ring.
    rewrite N.mod_add, N.div_add by discriminate. cbn [app]. f_equal. apply IH.
    apply N.div_lt_upper_bound; [discriminate|exact H].
Qed.
Lemma le_bytes_xor : forall k x y, le_bytes k (N.lxor x y) = xorl (le_bytes k x) (le_bytes k y).
Proof.
  induction k as [|k IH]; intros x y; [reflexivity|].
  rewrite !le_bytes_S. cbn [xorl]. f_equal.
  - change 256 with (2 ^ 8). rewrite <- !N.land_ones. apply N.bits_inj. intro i. rewrite !N.land_spec, !N.lxor_spec, !N.land_spec.
    destruct (N.testbit x i), (N.testbit y i), (N.testbit (N.ones 8) i); reflexivity.
  - rewrite <- IH. f_equal. change 256 with (2 ^ 8). rewrite <- !N.shiftr_div_pow2. apply N.shiftr_lxor.
Qed.
Lemma le_bytes_val : forall l, bytes l -> le_bytes (length l) (le_val l) = l.
Proof.
  intros l H. unfold le_bytes, le_val. rewrite <- rev_length, be_bytes_val by (apply bytes_rev; exact H). apply rev_involutive.
Qed.

(* ---- states *)
Definition arr (l : list N) (f : nat -> N) : Prop := length l = 8%nat /\ forall i, (i < 8)%nat -> nth i l 0 = f i /\ word (f i).
Definition rb_rel (s : rabbit_state) (r : rabbit) : Prop := arr (rb_X s) (rX r) /\ arr (rb_C s) (rC r) /\ rb_b s = rb r /\ rb r <= 1.
Lemma arr_upd : forall l f i v, arr l f -> (i < 8)%nat -> word v -> arr (upd l i v) (set f i v).
Proof.
  intros l f i v [L H] Hi Hv. split; [rewrite upd_length; exact L|]. intros j Hj. unfold set.
  rewrite nth_upd by lia. rewrite (Nat.eqb_sym i j). destruct (Nat.eqb_spec j i) as [->|E].
  - rewrite ?Nat.eqb_refl. split; [reflexivity|exact Hv].
  - apply H; exact Hj.
Qed.
Lemma rabbit_g_spec : forall u v, rabbit_g u v = rfc_G u v.
Proof.
  intros. unfold rabbit_g, rfc_G, rabbit_square. cbv zeta. change 0x100000000 with (2 ^ 32). change (addw 32 u v) with (u +. v).
  rewrite (N.mod_small (u +. v)) by apply plus_word. change 0xFFFFFFFF with (N.ones 32).
  rewrite N.land_ones, N.shiftr_div_pow2, N.pow_2_r. reflexivity.
Qed.
Lemma ctr_round_rel : forall b c f j, arr c f -> b <= 1 -> (j < 8)%nat ->
  let '(b1, c1) := rabbit_ctr_round (b, c) j in
  let temp := f j + rfc_A j + b in b1 = temp / 2 ^ 32 /\ arr c1 (set f j (temp mod 2 ^ 32)) /\ temp / 2 ^ 32 <= 1.
Proof.
  intros b c f j H Hb Hj. unfold rabbit_ctr_round. cbv zeta.
  rewrite (proj1 (proj2 H j Hj)). pose proof (proj2 (proj2 H j Hj)) as W. unfold word in W.
  assert (nth j rabbit_A 0 = rfc_A j /\ 0 < rfc_A j < 2 ^ 32 - 1) as [-> HA].
  { do 8 (destruct j as [|j]; [split; [reflexivity|split; reflexivity]|]). lia. }
  assert (add32 (add32 (f j) (rfc_A j)) b = (f j + rfc_A j + b) mod 2 ^ 32) as ->.
  { unfold addw. rewrite N.add_mod_idemp_l by discriminate. reflexivity. }
  change (2 ^ 32) with 4294967296 in *. split; [|split].
  - destruct (N.ltb_spec ((f j + rfc_A j + b) mod 4294967296) (f j)); lia.
  - apply arr_upd; [exact H|exact Hj|]. apply N.mod_lt. discriminate.
  - lia.
Qed.
Lemma ctr_fold_rel : forall js b c f, arr c f -> b <= 1 -> (forall j, In j js -> (j < 8)%nat) ->
  let '(b1, c1) := fold_left rabbit_ctr_round js (b, c) in
  let '(b2, f2) := fold_left (fun '(b, C) j => let temp := C j + rfc_A j + b in (temp / 2 ^ 32, set C j (temp mod 2 ^ 32))) js (b, f) in
  b1 = b2 /\ arr c1 f2 /\ b2 <= 1.
Proof.
  induction js as [|j js IH]; intros b c f H Hb Hj; [cbn; auto|].
  cbn [fold_left]. pose proof (ctr_round_rel b c f j H Hb (Hj j (or_introl eq_refl))) as R.
  destruct (rabbit_ctr_round (b, c) j) as [b1 c1]. cbv zeta in R. destruct R as (-> & R2 & R3). cbv zeta.
  apply IH; [exact R2|exact R3|]. intros; apply Hj; right; assumption.
Qed.
Lemma ctr_rel : forall s r, rb_rel s r -> rb_rel (rabbit_ctr_system s) (rfc_counter r).
Proof.
  intros s r (HX & HC & Hb & Hb1). unfold rabbit_ctr_system, rfc_counter. rewrite Hb.
  assert (forall j, In j (seq 0 8) -> (j < 8)%nat) as Hj by (intros j Hj; apply in_seq in Hj; lia).
  pose proof (ctr_fold_rel (seq 0 8) (rb r) (rb_C s) (rC r) HC Hb1 Hj) as R.
  destruct (fold_left rabbit_ctr_round (seq 0 8) (rb r, rb_C s)) as [b1 c1].
  destruct (fold_left (fun '(b, C) j => let temp := C j + rfc_A j + b in (temp / 2 ^ 32, set C j (temp mod 2 ^ 32))) (seq 0 8) (rb r, rC r)) as [b2 f2].
  destruct R as (-> & R2 & R3). split; [exact HX|]. split; [exact R2|]. split; [reflexivity|exact R3].
Qed.
Lemma rfc_G_word : forall u v, word (rfc_G u v).
Proof.
  intros. unfold rfc_G. cbv zeta. pose proof (plus_word u v) as W. set (x := u +. v) in *. clearbody x. unfold word in *.
  apply lxor_lt; [apply N.mod_lt; discriminate|]. apply N.div_lt_upper_bound; [discriminate|]. rewrite N.pow_2_r.
  apply N.mul_lt_mono; exact W.
Qed.
Lemma nxt_rel : forall s r, rb_rel s r -> rb_rel (rabbit_nxt s) (rfc_next r).
Proof.
  intros s r (HX & HC & Hb & Hb1). unfold rabbit_nxt, rfc_next. cbv zeta. split; [|split; [exact HC|split; [exact Hb|exact Hb1]]].
  assert (forall j, (j < 8)%nat -> rabbit_g (nth j (rb_X s) 0) (nth j (rb_C s) 0) = rfc_G (rX r j) (rC r j)) as G.
  { intros j Hj. rewrite rabbit_g_spec, (proj1 (proj2 HX j Hj)), (proj1 (proj2 HC j Hj)). reflexivity. }
  cbn [rb_X rX]. rewrite !G by lia. split; [reflexivity|]. intros i Hi.
  rewrite !rot_rotl by (apply rfc_G_word || discriminate).
  split; [|destruct (Nat.even i); apply plus_word].
  do 8 (destruct i as [|i]; [reflexivity|]). lia.
Qed.
Lemma iter_rb : forall n s r, rb_rel s r -> rb_rel (Nat.iter n rabbit_iter s) (Nat.iter n rfc_iteration r).
Proof. induction n; intros s r H; [exact H|]. cbn. apply nxt_rel, ctr_rel, IHn, H. Qed.

(* ---- key and IV *)
Lemma rabbit_key_word : forall key i, octets key -> length key = 16%nat -> (i < 8)%nat ->
  nth i (rabbit_ld_user_key key) 0 = bits (le_val key) (16 * N.of_nat i + 15) (16 * N.of_nat i) /\
  bits (le_val key) (16 * N.of_nat i + 15) (16 * N.of_nat i) < 2 ^ 16.
Proof.
  intros key i Hk Lk Hi. unfold bits. replace (16 * N.of_nat i + 15 - 16 * N.of_nat i + 1) with 16 by lia.
  split; [|apply N.mod_lt; discriminate].
  unfold rabbit_ld_user_key.
  rewrite (ld_user_key_words 2 8 16 8 0 (rev key)); try lia;
    [|apply bytes_rev; exact Hk|intro E; apply (f_equal (@length N)) in E; rewrite rev_length, Lk in E; discriminate E|rewrite rev_length; exact Lk|rewrite rev_length; lia|rewrite rev_length; lia].
  cbn [Nat.eqb Nat.sub repeat]. rewrite app_nil_r.
  replace (2 ^ (16 * N.of_nat i)) with (256 ^ N.of_nat (2 * i)) by (rewrite pow256; f_equal; lia).
  change (2 ^ 16) with (256 ^ N.of_nat 2). rewrite le_val_part by exact Hk.
  do 16 (destruct key as [|? key]; [discriminate Lk|]). destruct key; [|discriminate Lk].
  do 8 (destruct i as [|i]; [reflexivity|]). lia.
Qed.
Lemma or16 : forall a b, a < 2 ^ 16 -> b < 2 ^ 16 -> or (shl32 a 16) b = concat16 a b /\ word (concat16 a b).
Proof.
  intros a b Ha Hb. unfold concat16. assert (a * 2 ^ 16 + b < 2 ^ 32) as W.
  { change (2 ^ 16) with 65536 in *. change (2 ^ 32) with 4294967296. lia. }
  split; [|exact W]. unfold shlw. rewrite N.mod_small.
  - apply lor_add. exact Hb.
  - rewrite N.shiftl_mul_pow2. lia.
Qed.
Lemma init_rel : forall key, octets key -> length key = 16%nat -> rb_rel (rabbit_init (rabbit_ld_user_key key)) (rfc_expand (le_val key)).
Proof.
  intros key Hk Lk. unfold rabbit_init, rfc_expand. cbv zeta.
  assert (forall hi lo, rabbit_key_words hi lo (rabbit_ld_user_key key) =
     concat16 (bits (le_val key) (16 * N.of_nat (hi mod 8) + 15) (16 * N.of_nat (hi mod 8))) (bits (le_val key) (16 * N.of_nat (lo mod 8) + 15) (16 * N.of_nat (lo mod 8)))
     /\ word (concat16 (bits (le_val key) (16 * N.of_nat (hi mod 8) + 15) (16 * N.of_nat (hi mod 8))) (bits (le_val key) (16 * N.of_nat (lo mod 8) + 15) (16 * N.of_nat (lo mod 8))))) as W.
  { intros hi lo. unfold rabbit_key_words.
    destruct (rabbit_key_word key (hi mod 8) Hk Lk) as [-> H1]; [apply Nat.mod_upper_bound; lia|].
    destruct (rabbit_key_word key (lo mod 8) Hk Lk) as [-> H2]; [apply Nat.mod_upper_bound; lia|]. apply or16; assumption. }
  split; [|split; [|split; [reflexivity|discriminate]]].
  - split; [reflexivity|]. intros i Hi. cbn [rb_X rX].
    do 8 (destruct i as [|i]; [cbn [seq map nth Nat.even]; apply W|]). lia.
  - split; [reflexivity|]. intros i Hi. cbn [rb_C rC].
    do 8 (destruct i as [|i]; [cbn [seq map nth Nat.even]; apply W|]). lia.
Qed.
Lemma reinit_rel : forall s r, rb_rel s r ->
  rb_rel (rabbit_reinit s) {| rX := rX r; rC := fun j => N.lxor (rC r j) (rX r ((j + 4) mod 8)%nat); rb := rb r |}.
Proof.
  intros [X C b] r (HX & HC & Hb & Hb1). cbn [rb_X rb_C rb_b] in *. unfold rabbit_reinit.
  split; [exact HX|]. split; [|split; [exact Hb|exact Hb1]].
  split; [reflexivity|]. intros i Hi. cbn [rb_C rC rb_X].
  assert (nth i (map (fun j : nat => xor (nth j C 0) (nth ((j + 4) mod 8) X 0)) (seq 0 8)) 0 = xor (nth i C 0) (nth ((i + 4) mod 8) X 0)) as ->.
  { do 8 (destruct i as [|i]; [reflexivity|]). lia. }
  assert ((i + 4) mod 8 < 8)%nat as Hm by (apply Nat.mod_upper_bound; lia).
  rewrite (proj1 (proj2 HC i Hi)), (proj1 (proj2 HX _ Hm)). split; [reflexivity|].
  apply xor_word; [apply (proj2 HC i Hi)|apply (proj2 HX _ Hm)].
Qed.
Lemma setup_rel : forall key, octets key -> length key = 16%nat -> rb_rel (rabbit_key_setup key None) (rfc_key_setup (le_val key)).
Proof. intros key Hk Lk. exact (reinit_rel _ _ (iter_rb 4 _ _ (init_rel key Hk Lk))). Qed.
Lemma and16 : forall x, and x 0xFFFF = x mod 2 ^ 16.
Proof. intro x. change 0xFFFF with (N.ones 16). apply N.land_ones. Qed.
Lemma mod16 : forall x, x mod 2 ^ 16 < 2 ^ 16.
Proof. intro. apply N.mod_lt. discriminate. Qed.
Lemma iv_words : forall iv, octets iv -> length iv = 8%nat -> forall j, (j < 4)%nat ->
  nth j (rabbit_iv_words iv) 0 =
  match j with
  | 0%nat => bits (le_val iv) 31 0
  | 1%nat => concat16 (bits (le_val iv) 63 48) (bits (le_val iv) 31 16)
  | 2%nat => bits (le_val iv) 63 32
  | _ => concat16 (bits (le_val iv) 47 32) (bits (le_val iv) 15 0)
  end /\ word (nth j (rabbit_iv_words iv) 0).
Proof.
  intros iv Hv Lv j Hj. unfold rabbit_iv_words. cbv zeta. rewrite firstn_all2 by lia.
  pose proof (le_val_lt iv Hv) as B. rewrite Lv in B. change (256 ^ N.of_nat 8) with (2 ^ 64) in B.
  set (v := le_val iv) in *. clearbody v. unfold bits. rewrite !N.shiftr_div_pow2, !and16.
  change 0xFFFFFFFF with (N.ones 32). rewrite N.land_ones.
  assert (v / 2 ^ 48 < 2 ^ 16) as B48 by (apply N.div_lt_upper_bound; [discriminate|exact B]).
  assert (v / 2 ^ 32 < 2 ^ 32) as B32 by (apply N.div_lt_upper_bound; [discriminate|exact B]).
  change (63 - 48 + 1) with 16. change (31 - 16 + 1) with 16. change (47 - 32 + 1) with 16. change (15 - 0 + 1) with 16.
  change (31 - 0 + 1) with 32. change (63 - 32 + 1) with 32. rewrite N.pow_0_r, N.div_1_r.
  destruct j as [|[|[|[|j]]]]; [| | | |lia]; cbn [nth].
  - split; [reflexivity|apply N.mod_lt; discriminate].
  - rewrite (N.mod_small (v / 2 ^ 48)) by exact B48. destruct (or16 (v / 2 ^ 48) ((v / 2 ^ 16) mod 2 ^ 16) B48 (mod16 _)) as [-> W].
    split; [reflexivity|exact W].
  - rewrite (N.mod_small (v / 2 ^ 32)) by exact B32. split; [reflexivity|exact B32].
  - destruct (or16 _ _ (mod16 (v / 2 ^ 32)) (mod16 v)) as [-> W]. split; [reflexivity|exact W].
Qed.
Lemma iv_rel : forall iv s r, octets iv -> length iv = 8%nat -> rb_rel s r -> rb_rel (rabbit_iv_setup iv s) (rfc_iv_setup (le_val iv) r).
Proof.
  intros iv s r Hv Lv (HX & HC & Hb & Hb1). unfold rabbit_iv_setup, rfc_iv_setup. cbv zeta. apply iter_rb.
  split; [exact HX|]. split; [|split; [exact Hb|exact Hb1]]. cbn [rb_C rC].
  assert (length (rabbit_iv_words iv ++ rabbit_iv_words iv) = 8%nat) as LW by reflexivity.
  split; [rewrite xorl_length_le by (rewrite LW, (proj1 HC); lia); exact (proj1 HC)|].
  intros i Hi. rewrite nth_xorl by (rewrite ?LW, ?(proj1 HC); lia). rewrite (proj1 (proj2 HC i Hi)).
  assert (nth i (rabbit_iv_words iv ++ rabbit_iv_words iv) 0 = nth (i mod 4) (rabbit_iv_words iv) 0) as E.
  { do 8 (destruct i as [|i]; [reflexivity|]). lia. }
  assert (i mod 4 < 4)%nat as Hm by (apply Nat.mod_upper_bound; lia).
  destruct (iv_words iv Hv Lv (i mod 4) Hm) as [E1 E2]. rewrite E. split; [rewrite E1; reflexivity|].
  rewrite <- E1. apply xor_word; [apply (proj2 HC i Hi)|exact E2].
Qed.
Lemma start_rel : forall key iv, octets key -> length key = 16%nat -> (forall v, iv = Some v -> octets v /\ length v = 8%nat) ->
  rb_rel (rabbit_key_setup key iv) (rfc_start key iv).
Proof.
  intros key [v|] Hk Lk Hv.
  - destruct (Hv v eq_refl) as [Ov Lv]. exact (iv_rel v _ _ Ov Lv (setup_rel key Hk Lk)).
  - exact (setup_rel key Hk Lk).
Qed.

(* ---- output *)
Lemma pieces4 : forall p0 p1 p2 p3, p0 < 2 ^ 16 -> p1 < 2 ^ 16 -> p2 < 2 ^ 16 -> p3 < 2 ^ 16 ->
  le_bytes 8 (or (or (or p0 (shlw 64 p1 16)) (shlw 64 p2 32)) (shlw 64 p3 48)) = le_bytes 2 p0 ++ le_bytes 2 p1 ++ le_bytes 2 p2 ++ le_bytes 2 p3.
Proof.
  intros p0 p1 p2 p3 H0 H1 H2 H3.
  assert (forall p k, p < 2 ^ 16 -> k <= 48 -> shlw 64 p k = N.shiftl p k) as E.
  { intros p k Hp Hk. unfold shlw. apply N.mod_small. rewrite N.shiftl_mul_pow2.
    apply N.lt_le_trans with (2 ^ 16 * 2 ^ k); [apply N.mul_lt_mono_pos_r; [|exact Hp]; apply N.neq_0_lt_0, N.pow_nonzero; discriminate|].
    rewrite <- N.pow_add_r. apply N.pow_le_mono_r; [discriminate|lia]. }
  rewrite !E by (assumption || discriminate).
  assert (or (or (or p0 (N.shiftl p1 16)) (N.shiftl p2 32)) (N.shiftl p3 48) = p0 + 2 ^ 16 * (p1 + 2 ^ 16 * (p2 + 2 ^ 16 * p3))) as ->.
  { rewrite (N.lor_comm p0), lor_add by exact H0.
    rewrite (N.lor_comm _ (N.shiftl p2 32)), lor_add by (change (2 ^ 32) with 4294967296; change (2 ^ 16) with 65536 in *; lia).
    rewrite (N.lor_comm _ (N.shiftl p3 48)), lor_add by (change (2 ^ 48) with 281474976710656; change (2 ^ 32) with 4294967296; change (2 ^ 16) with 65536 in *; lia).
    change (2 ^ 48) with 281474976710656; change (2 ^ 32) with 4294967296; change (2 ^ 16) with 65536. ring. }
  change (2 ^ 16) with (256 ^ N.of_nat 2) in *.
  rewrite (le_bytes_app 2 6) by assumption. rewrite (le_bytes_app 2 4) by assumption. rewrite (le_bytes_app 2 2) by assumption. reflexivity.
Qed.
Definition rb_block (x : list N) : list N := le_bytes 8 (rabbit_S1 x) ++ le_bytes 8 (rabbit_S0 x).
Lemma bits_and : forall X, word X -> and X 0xFFFF = bits X 15 0 /\ and (shr X 16) 0xFFFF = bits X 31 16 /\ bits X 15 0 < 2 ^ 16 /\ bits X 31 16 < 2 ^ 16.
Proof.
  intros X HX. unfold bits. rewrite !and16, N.shiftr_div_pow2.
  change (15 - 0 + 1) with 16. change (31 - 16 + 1) with 16. rewrite N.pow_0_r, N.div_1_r.
  split; [reflexivity|]. split; [reflexivity|]. split; apply mod16.
Qed.
Lemma rb_block_spec : forall x f, arr x f -> length (rb_block x) = 16%nat /\
  forall i, (i < 16)%nat -> nth i (rb_block x) 0 = bits (rfc_piece f (i / 2)) (8 * N.of_nat (i mod 2) + 7) (8 * N.of_nat (i mod 2)).
Proof.
  intros x f H. unfold rb_block, rabbit_S1, rabbit_S0.
  split; [rewrite app_length, !le_bytes_length; reflexivity|].
  assert (forall i, (i < 8)%nat -> and (nth i x 0) 0xFFFF = bits (f i) 15 0 /\ and (shr (nth i x 0) 16) 0xFFFF = bits (f i) 31 16 /\ bits (f i) 15 0 < 2 ^ 16 /\ bits (f i) 31 16 < 2 ^ 16) as B.
  { intros i Hi. destruct (proj2 H i Hi) as [-> W]. apply bits_and. exact W. }
  assert (forall i j, (i < 8)%nat -> (j < 8)%nat -> N.lxor (bits (f i) 15 0) (bits (f j) 31 16) < 2 ^ 16) as X1.
  { intros i j Hi Hj. apply lxor_lt; [apply (B i Hi)|apply (B j Hj)]. }
  assert (forall i j, (i < 8)%nat -> (j < 8)%nat -> N.lxor (bits (f i) 31 16) (bits (f j) 15 0) < 2 ^ 16) as X2.
  { intros i j Hi Hj. apply lxor_lt; [apply (B i Hi)|apply (B j Hj)]. }
  destruct (B 0%nat ltac:(lia)) as (-> & -> & _). destruct (B 1%nat ltac:(lia)) as (-> & -> & _). destruct (B 2%nat ltac:(lia)) as (-> & -> & _).
  destruct (B 3%nat ltac:(lia)) as (-> & -> & _). destruct (B 4%nat ltac:(lia)) as (-> & -> & _). destruct (B 5%nat ltac:(lia)) as (-> & -> & _).
  destruct (B 6%nat ltac:(lia)) as (-> & -> & _). destruct (B 7%nat ltac:(lia)) as (-> & -> & _).
  rewrite !pieces4 by ((apply X1; lia) || (apply X2; lia)).
  assert (forall p, le_bytes 2 p = [bits p 7 0; bits p 15 8]) as E2.
  { intro p. rewrite !le_bytes_S. change (le_bytes 0 (p / 256 / 256)) with (@nil N). unfold bits. rewrite N.pow_0_r, N.div_1_r. reflexivity. }
  rewrite !E2. intros i Hi. do 16 (destruct i as [|i]; [reflexivity|]). lia.
Qed.
Lemma rabbit_xor_out : forall blk s, bytes blk -> length blk = 16%nat ->
  fst (rabbit_xor blk s) = xorl blk (rb_block (rb_X (rabbit_iter s))) /\ snd (rabbit_xor blk s) = rabbit_iter s.
Proof.
  intros blk s Hb Lb. unfold rabbit_xor, rb_block. cbv zeta. split; [|reflexivity]. cbn [fst]. rewrite !le_bytes_xor.
  set (a := slice blk 0 8). set (b := slice blk 8 8).
  assert (blk = a ++ b) as E.
  { unfold a, b, slice. change (skipn 0 blk) with blk. rewrite <- (firstn_skipn 8 blk) at 1. f_equal. rewrite firstn_all2; [reflexivity|rewrite skipn_length; lia]. }
  assert (length a = 8%nat) as La by (apply slice_length; lia). assert (length b = 8%nat) as Lb' by (apply slice_length; lia).
  assert (bytes a) as Ba by (apply bytes_firstn, bytes_skipn, Hb). assert (bytes b) as Bb by (apply bytes_firstn, bytes_skipn, Hb).
  rewrite <- La at 1. rewrite le_bytes_val by exact Ba. rewrite <- Lb' at 2. rewrite le_bytes_val by exact Bb.
  rewrite E. clearbody a b. clear E.
  assert (forall u v w z, length u = length v -> xorl (u ++ w) (v ++ z) = xorl u v ++ xorl w z) as X.
  { induction u as [|p u IH]; intros [|q v] w z L; try discriminate; [reflexivity|]. cbn. f_equal. apply IH. cbn in L. lia. }
  rewrite X by (rewrite La, le_bytes_length; reflexivity). reflexivity.
Qed.
Lemma rabbit_loop_spec : forall fuel outblock s r inp, octets inp -> bytes outblock -> length outblock = 16%nat -> rb_rel s r -> (length inp <= fuel)%nat ->
  xored_with (fun i => bits (rfc_piece (rX (Nat.iter (i / 16 + 1) rfc_iteration r)) (i mod 16 / 2)) (8 * N.of_nat (i mod 2) + 7) (8 * N.of_nat (i mod 2)))
    inp (rabbit_loop fuel outblock s inp).
Proof.
  induction fuel as [|f IH]; intros ob s r inp Hi Ho Lo R Hf.
  - destruct inp; [|cbn in Hf; lia]. apply xored_nil.
  - destruct inp as [|b0 inp0]; [apply xored_nil|]. cbn [rabbit_loop]. set (inp := b0 :: inp0) in *.
    assert (0 < length inp)%nat as Hpos by (unfold inp; cbn; lia).
    set (c := firstn 16 inp). set (blk := c ++ skipn (length c) ob).
    assert (length c <= 16)%nat as Lc by (unfold c; rewrite firstn_length; lia).
    assert (length blk = 16%nat) as Lb by (unfold blk; rewrite app_length, skipn_length; lia).
    assert (bytes blk) as Bb.
    { apply Forall_app. split; [apply bytes_firstn, Hi|apply bytes_skipn, Ho]. }
    destruct (rabbit_xor_out blk s Bb Lb) as [E1 E2]. destruct (rabbit_xor blk s) as [ob' s'] eqn:E. cbn [fst snd] in E1, E2. subst s'.
    pose proof (iter_rb 1 s r R) as R1. change (Nat.iter 1 rabbit_iter s) with (rabbit_iter s) in R1.
    destruct (rb_block_spec _ _ (proj1 R1)) as [LB NB]. set (K := rb_block (rb_X (rabbit_iter s))) in *.
    assert (bytes K) as BK by (unfold K, rb_block; apply Forall_app; split; apply le_bytes_bytes).
    assert (length ob' = 16%nat) as Lo' by (rewrite E1, xorl_length_le; lia).
    assert (firstn (length c) ob' = xorl c K) as ->.
    { rewrite E1. apply nth_ext with 0 0.
      - rewrite firstn_length, !xorl_length_le by lia. lia.
      - intros i Hlt. rewrite firstn_length in Hlt. rewrite nth_firstn by lia.
        rewrite !nth_xorl by lia. unfold blk. rewrite app_nth1 by lia. reflexivity. }
    apply xored_block; [lia|lia| |].
    + intros i Hlt. rewrite NB by exact Hlt. rewrite Nat.div_small, (Nat.mod_small i 16) by lia. reflexivity.
    + eapply xored_ext; [|apply (IH ob' (rabbit_iter s) (rfc_iteration r) (skipn 16 inp))]; try assumption.
      * intros i _. cbv beta. replace (16 + i)%nat with (i + 1 * 16)%nat by lia. rewrite Nat.div_add, Nat.mod_add by lia.
        replace ((i + 1 * 16) mod 2)%nat with (i mod 2)%nat by (replace (i + 1 * 16)%nat with (i + 8 * 2)%nat by lia; rewrite Nat.mod_add by lia; reflexivity).
        replace (i / 16 + 1 + 1)%nat with (S (i / 16 + 1)) by lia. rewrite <- iter_S. reflexivity.
      * apply bytes_skipn, Hi.
      * rewrite E1. apply xorl_bytes; assumption.
      * rewrite skipn_length. lia.
Qed.
Lemma rabbit_stream : forall junk key iv inp, octets key -> length key = 16%nat -> (forall v, iv = Some v -> octets v /\ length v = 8%nat) ->
  octets inp -> octets junk -> length junk = 16%nat ->
  xored_with (rabbit_key_stream key iv) inp (rabbit_loop (length inp) junk (rabbit_key_setup key iv) inp).
Proof.
  intros junk key iv inp Hk Lk Hv Hi Hj Lj. unfold rabbit_key_stream. cbv zeta.
  apply (rabbit_loop_spec (length inp) junk _ (rfc_start key iv) inp Hi Hj Lj (start_rel key iv Hk Lk Hv)). lia.
Qed.
