(* Sponge, padding and output of src/kryptos_keccak.c against FIPS 202. *)
From Verif Require Import Words EncSpec TaskModel CipherBase CipherLib RcProofs StreamModel HashModel HashProofs HashProofs3 KeccakModel KeccakSpec KeccakProofs.
From Verif Require PresentProofs.
From Coq Require Import List Arith Lia PeanoNat Bool.
Open Scope N_scope.

(* ---- bits of bytes *)
Lemma bits_cons : forall b l, bits_of (b :: l) = map (fun i => N.testbit b (N.of_nat i)) (seq 0 8) ++ bits_of l.
Proof. reflexivity. Qed.
Lemma bits_app : forall a b, bits_of (a ++ b) = bits_of a ++ bits_of b.
Proof. intros a b. unfold bits_of. rewrite map_app, concat_app. reflexivity. Qed.
Lemma bits_length : forall l, length (bits_of l) = (8 * length l)%nat.
Proof. induction l as [|b l IH]; [reflexivity|]. rewrite bits_cons, app_length, IH, map_length, seq_length. cbn [length]. lia. Qed.
Lemma bits_nth : forall l i j, (j < 8)%nat -> nth (8 * i + j) (bits_of l) false = N.testbit (nth i l 0) (N.of_nat j).
Proof.
  induction l as [|b l IH]; intros i j Hj.
  - change (bits_of []) with (@nil bool). destruct (8 * i + j)%nat; destruct i; reflexivity.
  - rewrite bits_cons. destruct i as [|i].
    + rewrite app_nth1 by (rewrite map_length, seq_length; lia). replace (8 * 0 + j)%nat with j by lia. set (f := fun i => N.testbit b (N.of_nat i)). rewrite (nth_indep _ false (f 0%nat)) by (rewrite map_length, seq_length; exact Hj). rewrite map_nth, seq_nth by exact Hj. reflexivity.
    + rewrite app_nth2 by (rewrite map_length, seq_length; lia). rewrite map_length, seq_length. replace (8 * S i + j - 8)%nat with (8 * i + j)%nat by lia. rewrite IH by exact Hj. reflexivity.
Qed.
Lemma bits_zeros : forall n, bits_of (repeat 0 n) = repeat false (8 * n).
Proof. induction n as [|n IH]; [reflexivity|]. cbn [repeat]. rewrite bits_cons, IH. replace (8 * S n)%nat with (8 + 8 * n)%nat by lia. reflexivity. Qed.
Lemma div_parts : forall n k, (k <> 0)%nat -> (n = k * (n / k) + n mod k /\ n mod k < k)%nat.
Proof. intros n k H. split; [apply Nat.div_mod; exact H|apply Nat.mod_upper_bound; exact H]. Qed.

(* ---- absorbing *)
Definition chunk (block : list N) (m_off : nat) : N :=
  let byte i := nth (8 * m_off + i) block 0 in
  or (or (or (or (or (or (or (shlw 64 (byte 7%nat) 56) (shlw 64 (byte 6%nat) 48)) (shlw 64 (byte 5%nat) 40)) (shlw 64 (byte 4%nat) 32))
     (shlw 64 (byte 3%nat) 24)) (shlw 64 (byte 2%nat) 16)) (shlw 64 (byte 1%nat) 8)) (byte 0%nat).
Lemma part_bit : forall b k i j, b < 256 -> (k < 8)%nat -> (i < 8)%nat -> (j < 8)%nat -> N.testbit (shlw 64 b (8 * N.of_nat k)) (N.of_nat (8 * i + j)) = if Nat.eqb k i then N.testbit b (N.of_nat j) else false.
Proof.
  intros b k i j Hb Hk Hi Hj. rewrite PresentProofs.shlw_testbit. assert (N.of_nat (8 * i + j) <? 64 = true) as -> by (apply N.ltb_lt; lia). cbn [andb]. destruct (Nat.eqb_spec k i) as [->|N0].
  - assert (8 * N.of_nat i <=? N.of_nat (8 * i + j) = true) as -> by (apply N.leb_le; lia). cbn [andb]. f_equal. lia.
  - destruct (N.leb_spec (8 * N.of_nat k) (N.of_nat (8 * i + j))) as [L|L]; [|reflexivity]. cbn [andb]. apply (testbit_above b 8); [exact Hb|]. lia.
Qed.
Lemma part0_bit : forall b i j, b < 256 -> (i < 8)%nat -> (j < 8)%nat -> N.testbit b (N.of_nat (8 * i + j)) = if Nat.eqb 0 i then N.testbit b (N.of_nat j) else false.
Proof. intros b i j Hb Hi Hj. destruct i as [|i]; [cbn [Nat.eqb]; f_equal|]. apply (testbit_above b 8); [exact Hb|]. lia. Qed.
Lemma byte_lt : forall block n, bytes block -> nth n block 0 < 256.
Proof. intros block n H. destruct (lt_dec n (length block)) as [L|L]; [|rewrite nth_overflow by lia; reflexivity]. unfold bytes in H. rewrite Forall_forall in H. apply H. apply nth_In. exact L. Qed.
Lemma chunk_bit : forall block o z, bytes block -> (z < 64)%nat -> N.testbit (chunk block o) (N.of_nat z) = nth (64 * o + z) (bits_of block) false.
Proof.
  intros block o z Hb Hz. destruct (div_parts z 8 ltac:(discriminate)) as [E Hj]. set (i := (z / 8)%nat) in *. set (j := (z mod 8)%nat) in *. clearbody i j. subst z. assert (i < 8)%nat as Hi by lia. replace (64 * o + (8 * i + j))%nat with (8 * (8 * o + i) + j)%nat by lia. rewrite bits_nth by exact Hj.
  unfold chunk. cbv zeta. change 56 with (8 * N.of_nat 7). change 48 with (8 * N.of_nat 6). change 40 with (8 * N.of_nat 5). change 32 with (8 * N.of_nat 4). change 24 with (8 * N.of_nat 3). change 16 with (8 * N.of_nat 2). change (shlw 64 (nth (8 * o + 1) block 0) 8) with (shlw 64 (nth (8 * o + 1) block 0) (8 * N.of_nat 1)).
  rewrite !N.lor_spec. rewrite !part_bit by (try (apply byte_lt; exact Hb); lia). rewrite part0_bit by (try (apply byte_lt; exact Hb); lia). clear Hz Hb. do 8 (destruct i as [|i]; [cbn [Nat.eqb orb]; rewrite ?orb_false_r; reflexivity|]). lia.
Qed.
Lemma chunk_lt : forall block o, bytes block -> chunk block o < 2 ^ 64.
Proof.
  intros block o Hb. unfold chunk. cbv zeta. assert (forall b s, shlw 64 b s < 2 ^ 64) as S by (intros; unfold shlw; apply N.mod_lt; discriminate). repeat apply lor_lt; try apply S. eapply N.lt_trans; [apply byte_lt; exact Hb|reflexivity].
Qed.
Lemma lane_set : forall st x y a b v, length st = 25%nat -> (x < 5)%nat -> (y < 5)%nat -> (a < 5)%nat -> (b < 5)%nat -> lane (set_lane st a b v) x y = if (Nat.eqb a x && Nat.eqb b y)%bool then v else lane st x y.
Proof.
  intros st x y a b v L Hx Hy Ha Hb. unfold lane, set_lane. rewrite nth_upd by lia. destruct (Nat.eqb_spec (5 * a + b) (5 * x + y)) as [E|E].
  - assert (a = x /\ b = y) as [-> ->] by lia. rewrite !Nat.eqb_refl. reflexivity.
  - destruct (Nat.eqb_spec a x) as [->|]; [|reflexivity]. destruct (Nat.eqb_spec b y) as [->|]; [lia|reflexivity].
Qed.
Definition mix (block : list N) (st : list N) (m_off : nat) : list N := set_lane st (m_off mod 5) (m_off / 5) (xor (lane st (m_off mod 5) (m_off / 5)) (chunk block m_off)).
Lemma absorb_is : forall rw st block, absorb rw st block = keccak_r1600 (fold_left (mix block) (seq 0 rw) st).
Proof. reflexivity. Qed.
Lemma mix_lanes : forall block n st, length st = 25%nat -> (n <= 25)%nat -> length (fold_left (mix block) (seq 0 n) st) = 25%nat /\
  forall x y, (x < 5)%nat -> (y < 5)%nat -> lane (fold_left (mix block) (seq 0 n) st) x y = xor (lane st x y) (if Nat.ltb (5 * y + x) n then chunk block (5 * y + x) else 0).
Proof.
  intros block n st L. induction n as [|n IH]; intro Hn; [cbn [seq fold_left]; split; [exact L|]; intros x y Hx Hy; cbn [Nat.ltb]; rewrite N.lxor_0_r; reflexivity|]. destruct (IH ltac:(lia)) as [L1 H]. rewrite seq_S, fold_left_app. cbn [fold_left Nat.add]. split; [unfold mix at 1; rewrite set_length; exact L1|].
  intros x y Hx Hy. destruct (div_parts n 5 ltac:(discriminate)) as [E M]. unfold mix at 1. assert (n / 5 < 5)%nat as D by lia. rewrite lane_set by assumption. rewrite !H by assumption. set (a := (n mod 5)%nat) in *. set (b := (n / 5)%nat) in *. clearbody a b. destruct (Nat.eqb_spec a x) as [->|Na]; [destruct (Nat.eqb_spec b y) as [->|Nb]|]; cbn [andb].
  - replace (5 * y + x)%nat with n by lia. rewrite Nat.ltb_irrefl, N.lxor_0_r. assert (Nat.ltb n (S n) = true) as -> by (apply Nat.ltb_lt; lia). reflexivity.
  - f_equal. destruct (Nat.ltb_spec (5 * y + x) n); destruct (Nat.ltb_spec (5 * y + x) (S n)); try reflexivity; lia.
  - f_equal. destruct (Nat.ltb_spec (5 * y + x) n); destruct (Nat.ltb_spec (5 * y + x) (S n)); try reflexivity; lia.
Qed.
Lemma xor_nth : forall a b i, length a = length b -> nth i (xor_string a b) false = xorb (nth i a false) (nth i b false).
Proof.
  induction a as [|x a IH]; intros [|y b] i L; try discriminate; [destruct i; reflexivity|]. destruct i as [|i]; [reflexivity|]. injection L as L. exact (IH b i L).
Qed.
Lemma xor_length : forall a b, length a = length b -> length (xor_string a b) = length a.
Proof. intros a b L. unfold xor_string. rewrite map_length, combine_length. lia. Qed.
Lemma absorb_ok : forall rw st S block, (rw <= 25)%nat -> str st S -> bytes block -> length block = (8 * rw)%nat -> str (absorb rw st block) (KECCAK_p (xor_string S (bits_of block ++ repeat false (1600 - 64 * rw)))).
Proof.
  intros rw st S block Hrw (LS & [Lst W] & R) Hb Lb. rewrite absorb_is. apply permutation_ok. destruct (mix_lanes block rw st Lst Hrw) as [L1 H]. set (st' := fold_left (mix block) (seq 0 rw) st) in *. clearbody st'. set (pad := bits_of block ++ repeat false (1600 - 64 * rw)).
  assert (length S = length pad) as LP by (unfold pad; rewrite app_length, bits_length, repeat_length, Lb, LS; lia). split; [rewrite xor_length by exact LP; exact LS|]. split; [split; [exact L1|]|].
  - intros x y Hx Hy. rewrite H by assumption. apply lxor_lt; [apply W; assumption|]. destruct (Nat.ltb _ _); [apply chunk_lt; exact Hb|reflexivity].
  - intros x y z Hx Hy Hz. rewrite H by assumption. rewrite N.lxor_spec, R by assumption. unfold array. rewrite xor_nth by exact LP. f_equal. unfold pad. destruct (Nat.ltb_spec (5 * y + x) rw) as [C|C].
    + rewrite chunk_bit by assumption. rewrite app_nth1 by (rewrite bits_length, Lb; lia). reflexivity.
    + rewrite app_nth2 by (rewrite bits_length, Lb; lia). rewrite N.bits_0. symmetry. generalize (64 * (5 * y + x) + z - length (bits_of block))%nat (1600 - 64 * rw)%nat. intros i k. revert i. induction k as [|k IH]; intros [|i]; try reflexivity. apply IH.
Qed.
Lemma blocks_rel : forall (A B : Type) (R : A -> B -> Prop) (f : A -> list N -> A) (g : B -> list bool -> B) rw, (0 < rw)%nat ->
  (forall st S block, R st S -> bytes block -> length block = (8 * rw)%nat -> R (f st block) (g S (bits_of block))) ->
  forall n m st S, R st S -> bytes m -> length m = (n * (8 * rw))%nat -> R (fold_left f (chunks (8 * rw) m) st) (fold_left g (blocks n (64 * rw) (bits_of m)) S).
Proof.
  intros A B R f g rw Hrw H n. induction n as [|n IH]; intros m st S HR Hb L.
  - destruct m; [|discriminate]. exact HR.
  - rewrite <- (firstn_skipn (8 * rw) m). assert (length (firstn (8 * rw) m) = (8 * rw)%nat) as L1 by (rewrite firstn_length; lia). rewrite chunks_app by lia. cbn [fold_left]. cbn [blocks]. rewrite bits_app. rewrite firstn_exact, skipn_exact by (rewrite bits_length, L1; lia). cbn [fold_left].
    apply IH; [|apply bytes_skipn; exact Hb|rewrite skipn_length; lia]. apply H; [exact HR|apply bytes_firstn; exact Hb|exact L1].
Qed.
Lemma absorb_all : forall rw n m st S, (0 < rw <= 25)%nat -> str st S -> bytes m -> length m = (n * (8 * rw))%nat ->
  str (fold_left (absorb rw) (chunks (8 * rw) m) st) (fold_left (fun S P => KECCAK_p (xor_string S (P ++ repeat false (1600 - 64 * rw)))) (blocks n (64 * rw) (bits_of m)) S).
Proof.
  intros rw n m st S Hrw. apply (blocks_rel _ _ str); [lia|]. intros st' S' block. apply absorb_ok. apply Hrw.
Qed.

(* ---- padding *)
Definition suffix (t : keccak_padding) : list bool := match t with PadKECCAK => [] | PadSHA3 => [false; true] end.
Lemma repeat_plus : forall (b : bool) m n, repeat b m ++ repeat b n = repeat b (m + n).
Proof. intros. rewrite repeat_app. reflexivity. Qed.
Lemma pad_count : forall rb L d q j, (0 < rb)%nat -> (1 <= d <= rb)%nat -> (L + d = q * rb)%nat -> (1 <= j <= 7)%nat -> ((8 * rb - (8 * L + j) mod (8 * rb)) mod (8 * rb) = 8 * d - j)%nat.
Proof.
  intros rb L d q j Hr Hd E Hj. destruct q as [|q]; [lia|]. assert (8 * L + j = (8 * rb - (8 * d - j)) + q * (8 * rb))%nat as -> by lia. rewrite Nat.mod_add by lia. rewrite (Nat.mod_small (8 * rb - (8 * d - j))) by lia. rewrite Nat.mod_small by lia. lia.
Qed.
Lemma pad_ok : forall rb t m, (0 < rb)%nat -> let d := (rb - length m mod rb)%nat in
  bits_of (m ++ keccak_pad d t) = (bits_of m ++ suffix t) ++ pad10star1 (8 * rb) (length (bits_of m ++ suffix t)) /\ bytes (keccak_pad d t) /\ exists q, (length (m ++ keccak_pad d t) = q * rb)%nat.
Proof.
  intros rb t m Hr d. destruct (div_parts (length m) rb ltac:(lia)) as [E M]. assert (1 <= d <= rb)%nat as Hd by lia. assert (length m + d = (length m / rb + 1) * rb)%nat as Hq by lia. clearbody d.
  assert (length (keccak_pad d t) = d) as LP. { unfold keccak_pad. destruct (Nat.eqb_spec d 1) as [->|]; [reflexivity|]. cbn [length]. rewrite app_length, repeat_length. cbn [length]. lia. }
  split; [|split].
  - rewrite bits_app, <- app_assoc. f_equal. rewrite app_length, bits_length. unfold pad10star1. assert (exists k, (length (suffix t) = k /\ k <= 2)%nat) as (k & Lk & Hk) by (destruct t; eexists; (split; [reflexivity|cbn; lia])).
    rewrite Lk. replace (8 * length m + k + 2)%nat with (8 * length m + (k + 2))%nat by lia. rewrite (pad_count rb (length m) d _ (k + 2) Hr Hd Hq) by lia. unfold keccak_pad. destruct (Nat.eqb_spec d 1) as [->|N1].
    + destruct t; cbn [suffix length] in Lk; subst k; reflexivity.
    + destruct d as [|[|d]]; [lia|congruence|]. replace (S (S d) - 2)%nat with d by lia. rewrite bits_cons, bits_app, bits_zeros.
      change (bits_of [128]) with (repeat false 7 ++ [true]). rewrite (app_assoc (repeat false (8 * d))), repeat_plus. destruct t; cbn [suffix length] in Lk; subst k.
      * change (map (fun i : nat => N.testbit 1 (N.of_nat i)) (seq 0 8)) with ([true] ++ repeat false 7). cbn [suffix]. rewrite <- app_assoc. cbn [app]. f_equal. rewrite app_assoc, repeat_plus. f_equal. f_equal. lia.
      * change (map (fun i : nat => N.testbit 6 (N.of_nat i)) (seq 0 8)) with ([false; true; true] ++ repeat false 5). cbn [suffix]. rewrite <- !app_assoc. cbn [app]. do 3 f_equal. rewrite app_assoc, repeat_plus. f_equal. f_equal. lia.
  - unfold keccak_pad. destruct (Nat.eqb d 1); [destruct t; repeat constructor|]. constructor; [destruct t; reflexivity|]. apply Forall_app. split; [|repeat constructor]. apply Forall_forall. intros x Hx. apply repeat_spec in Hx. subst x. reflexivity.
  - exists (length m / rb + 1)%nat. rewrite app_length, LP. exact Hq.
Qed.

(* ---- squeezing *)
Lemma nth_firstn_b : forall n (l : list bool) i, (i < n)%nat -> nth i (firstn n l) false = nth i l false.
Proof. induction n as [|n IH]; intros l i H; [lia|]. destruct l as [|b l]; [reflexivity|]. destruct i as [|i]; [reflexivity|]. cbn [firstn nth]. apply IH. lia. Qed.
Lemma squeeze_length : forall z st, length (squeeze z st) = z.
Proof. intros. unfold squeeze. rewrite map_length, seq_length. reflexivity. Qed.
Lemma squeeze_nth : forall z st j, (j < z)%nat -> nth j (squeeze z st) 0 = and (shr (lane st (j / 8 mod 5) (j / 8 / 5)) (8 * N.of_nat (j mod 8))) 0xFF.
Proof.
  intros z st j H. unfold squeeze. set (f := fun j : nat => and (shr (lane st (j / 8 mod 5) (j / 8 / 5)) (8 * N.of_nat (j mod 8))) 0xFF). rewrite (nth_indep _ 0 (f 0%nat)) by (rewrite map_length, seq_length; exact H). rewrite map_nth, seq_nth by exact H. reflexivity.
Qed.
Lemma squeeze_bytes : forall z st, bytes (squeeze z st).
Proof. intros z st. unfold squeeze. apply Forall_forall. intros x Hx. apply in_map_iff in Hx. destruct Hx as (j & <- & _). change 255 with (N.ones 8). rewrite N.land_ones. apply N.mod_lt. discriminate. Qed.
Lemma squeeze_ok : forall z st S, (z <= 200)%nat -> str st S -> bits_of (squeeze z st) = firstn (8 * z) S.
Proof.
  intros z st S Hz (LS & _ & R). apply (nth_ext _ _ false false).
  - rewrite bits_length, squeeze_length, firstn_length, LS. lia.
  - rewrite bits_length, squeeze_length. intros k Hk. rewrite nth_firstn_b by exact Hk. destruct (div_parts k 8 ltac:(discriminate)) as [E M]. set (i := (k / 8)%nat) in *. set (j := (k mod 8)%nat) in *. clearbody i j. subst k. rewrite bits_nth by exact M. rewrite squeeze_nth by lia. change 255 with (N.ones 8). rewrite N.land_ones, testbit_mod. assert (N.of_nat j <? 8 = true) as -> by (apply N.ltb_lt; lia). cbn [andb]. rewrite N.shiftr_spec by lia.
    destruct (div_parts i 8 ltac:(discriminate)) as [E1 M1]. set (w := (i / 8)%nat) in *. set (b := (i mod 8)%nat) in *. clearbody w b. subst i. destruct (div_parts w 5 ltac:(discriminate)) as [E2 M2]. set (y := (w / 5)%nat) in *. set (x := (w mod 5)%nat) in *. clearbody x y. subst w.
    replace (N.of_nat j + 8 * N.of_nat b) with (N.of_nat (8 * b + j)) by lia. rewrite R by lia. unfold array. f_equal. lia.
Qed.

(* ---- the sponge *)
Lemma start_ok : str (repeat 0 25) (repeat false 1600).
Proof.
  split; [reflexivity|]. split; [split; [reflexivity|]|].
  - intros x y Hx Hy. five x; five y; reflexivity.
  - intros x y z Hx Hy Hz. unfold array. assert (nth (64 * (5 * y + x) + z) (repeat false 1600) false = false) as ->. { generalize (64 * (5 * y + x) + z)%nat 1600%nat. intros i k. revert i. induction k as [|k IH]; intros [|i]; try reflexivity. apply IH. } five x; five y; apply N.bits_0.
Qed.
Lemma sponge_ok : forall rw zb t m, (0 < rw <= 25)%nat -> (0 < zb <= 8 * rw)%nat -> bytes m ->
  keccak_sponge (64 * rw) (16 * zb) t m = squeeze zb (fold_left (absorb rw) (chunks (8 * rw) (m ++ keccak_pad (8 * rw - length m mod (8 * rw)) t)) (repeat 0 25)) /\
  bits_of (keccak_sponge (64 * rw) (16 * zb) t m) = sponge (64 * rw) (bits_of m ++ suffix t) (8 * zb).
Proof.
  intros rw zb t m Hr Hz Hb. assert (keccak_sponge (64 * rw) (16 * zb) t m = squeeze zb (fold_left (absorb rw) (chunks (8 * rw) (m ++ keccak_pad (8 * rw - length m mod (8 * rw)) t)) (repeat 0 25))) as E.
  { unfold keccak_sponge. assert (64 * rw / 8 = 8 * rw)%nat as -> by (rewrite <- (Nat.div_mul (8 * rw) 8) by discriminate; f_equal; lia). assert (64 * rw / 64 = rw)%nat as -> by (rewrite Nat.mul_comm; apply Nat.div_mul; discriminate). assert (16 * zb / 2 = 8 * zb)%nat as -> by (rewrite <- (Nat.div_mul (8 * zb) 2) by discriminate; f_equal; lia). assert (8 * zb / 8 = zb)%nat as -> by (rewrite Nat.mul_comm; apply Nat.div_mul; discriminate). replace (rw * 8)%nat with (8 * rw)%nat by lia. reflexivity. }
  split; [exact E|]. rewrite E. clear E. destruct (pad_ok (8 * rw) t m ltac:(lia)) as (P1 & P2 & q & P3). cbv zeta in P1. set (m' := m ++ keccak_pad (8 * rw - length m mod (8 * rw)) t) in *. assert (bytes m') as Hm by (apply Forall_app; split; assumption). clearbody m'. replace (8 * (8 * rw))%nat with (64 * rw)%nat in P1 by lia.
  unfold sponge. rewrite <- P1. rewrite bits_length, P3. assert (8 * (q * (8 * rw)) / (64 * rw) = q)%nat as -> by (replace (8 * (q * (8 * rw)))%nat with (q * (64 * rw))%nat by lia; apply Nat.div_mul; lia).
  pose proof (absorb_all rw q m' (repeat 0 25) (repeat false 1600) Hr start_ok Hm P3) as ST. set (st := fold_left (absorb rw) _ _) in *. set (S := fold_left _ (blocks _ _ _) _) in *. clearbody st S. rewrite (squeeze_ok zb st S) by (lia || exact ST).
  replace ((8 * zb + 64 * rw - 1) / (64 * rw))%nat with 1%nat. 2:{ apply (Nat.div_unique _ _ 1 (8 * zb - 1)); lia. } cbn [seq map concat Nat.iter nat_rect]. rewrite app_nil_r, firstn_firstn, Nat.min_l by lia. reflexivity.
Qed.
Lemma split8 : forall n z, (length z = 8 * n)%nat -> bytes z -> concat (map (fun i => word_to_hex 8 (be_val (firstn 8 (skipn (8 * i) z)))) (seq 0 n)) = rfc_base16 z.
Proof.
  induction n as [|n IH]; intros z L Hb; [destruct z; [reflexivity|discriminate]|]. cbn [seq map concat]. rewrite <- seq_shift, map_map. replace (rfc_base16 z) with (rfc_base16 (firstn 8 z ++ skipn 8 z)) by (rewrite firstn_skipn; reflexivity). rewrite base16_app. f_equal.
  - rewrite word_to_hex_eq. rewrite Nat.mul_0_r, skipn_O. assert (length (firstn 8 z) = 8%nat) as L1 by (rewrite firstn_length; lia). f_equal. rewrite <- L1 at 1. apply be_bytes_val. apply bytes_firstn. exact Hb.
  - rewrite <- (IH (skipn 8 z)); [|rewrite skipn_length; lia|apply bytes_skipn; exact Hb]. f_equal. apply map_ext. intro i. rewrite skipn_add. replace (8 + 8 * i)%nat with (8 * S i)%nat by lia. reflexivity.
Qed.
Lemma keccak_hex_ok : forall z, bytes z -> (length z mod 8 = 0 \/ length z mod 8 = 4)%nat -> keccak_hex z = rfc_base16 z.
Proof.
  intros z Hb H. destruct (div_parts (length z) 8 ltac:(discriminate)) as [E M]. unfold keccak_hex. set (n := (length z / 8)%nat) in *. replace (rfc_base16 z) with (rfc_base16 (firstn (8 * n) z ++ skipn (8 * n) z)) by (rewrite firstn_skipn; reflexivity). rewrite base16_app. rewrite <- (split8 n (firstn (8 * n) z)); [|rewrite firstn_length; lia|apply bytes_firstn; exact Hb]. f_equal.
  - f_equal. apply map_ext_in. intros i Hi. apply in_seq in Hi. rewrite skipn_firstn_comm, firstn_firstn, Nat.min_l by lia. reflexivity.
  - destruct H as [H|H]; rewrite H in *; cbn [Nat.eqb].
    + rewrite skipn_all2 by lia. reflexivity.
    + rewrite word_to_hex_eq. assert (length (skipn (8 * n) z) = 4%nat) as L by (rewrite skipn_length; lia). f_equal. rewrite <- L at 1. apply be_bytes_val. apply bytes_skipn. exact Hb.
Qed.
Lemma processor_ok : forall k hex m rw zb, kp_r k = (64 * rw)%nat -> kp_c k = (16 * zb)%nat -> (0 < rw <= 25)%nat -> (0 < zb <= 8 * rw)%nat -> (zb mod 8 = 0 \/ zb mod 8 = 4)%nat -> bytes m ->
  exists z, bits_of z = sponge (64 * rw) (bits_of m ++ suffix (kp_pad k)) (8 * zb) /\ bytes z /\ length z = zb /\
  keccak_processor k hex (Some m) (N.of_nat (length m)) = Done (mkHashRun Success (Some (if hex then rfc_base16 z else z)) (N.of_nat (length (if hex then rfc_base16 z else z)))).
Proof.
  intros k hex m rw zb Er Ec Hr Hz Hm Hb. exists (keccak_sponge (kp_r k) (kp_c k) (kp_pad k) m). rewrite Er, Ec. destruct (sponge_ok rw zb (kp_pad k) m Hr Hz Hb) as [E S]. split; [exact S|]. rewrite E. split; [apply squeeze_bytes|]. split; [apply squeeze_length|]. rewrite <- E.
  unfold keccak_processor, buf. rewrite N.ltb_irrefl, Nat2N.id, firstn_all. cbn [obind]. rewrite Er, Ec. destruct hex; [|reflexivity]. rewrite keccak_hex_ok; [reflexivity| |]; rewrite E; [apply squeeze_bytes|rewrite squeeze_length; exact Hm].
Qed.
Lemma byte_inj : forall a b, a < 256 -> b < 256 -> map (fun i => N.testbit a (N.of_nat i)) (seq 0 8) = map (fun i => N.testbit b (N.of_nat i)) (seq 0 8) -> a = b.
Proof.
  intros a b Ha Hb E. apply N.bits_inj. intro k. destruct (N.lt_ge_cases k 8) as [H|H].
  - pose proof (f_equal (fun l => nth (N.to_nat k) l false) E) as X. cbv beta in X. set (f := fun i => N.testbit a (N.of_nat i)) in X. set (g := fun i => N.testbit b (N.of_nat i)) in X.
    rewrite (nth_indep _ false (f 0%nat)) in X by (rewrite map_length, seq_length; lia). rewrite (nth_indep (map g _) false (g 0%nat)) in X by (rewrite map_length, seq_length; lia). rewrite !map_nth, !seq_nth in X by lia. unfold f, g in X. rewrite Nat.add_0_l, N2Nat.id in X. exact X.
  - rewrite (testbit_above a 8 k), (testbit_above b 8 k); try reflexivity; assumption.
Qed.
Lemma bits_inj : forall y z, octets y -> octets z -> bits_of y = bits_of z -> y = z.
Proof.
  intros y z Hy Hz. apply octets_bytes in Hy, Hz. revert z Hz. induction Hy as [|a y Ha Hy IH]; intros [|b z] Hz E; try reflexivity; try discriminate. inversion Hz as [|? ? Hb Hz']; subst. rewrite !bits_cons in E.
  apply (f_equal (fun l => (firstn 8 l, skipn 8 l))) in E. rewrite !firstn_exact, !skipn_exact in E by (rewrite map_length, seq_length; reflexivity). injection E as E1 E2. f_equal; [|apply IH; assumption].
  apply byte_inj; [exact Ha|exact Hb|]. cbn [map seq]. congruence.
Qed.
