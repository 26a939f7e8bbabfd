From Verif Require Import Words EncSpec TaskModel CipherBase CipherLib RcProofs StreamProofs RabbitProofs HashProofs MacModel MacProofs MacProofs2 SipModel SipSpec.
From Coq Require Import PeanoNat.
Open Scope N_scope.

(* ---- rounds *)
Lemma rotl_lt : forall x n, x < 2 ^ 64 -> n <= 64 -> sip_rotl x n = rot x n.
Proof.
  intros x n Hx Hn. unfold sip_rotl, rot, shlw. rewrite N.shiftl_mul_pow2, N.shiftr_div_pow2.
  replace ((x * 2 ^ n) mod 2 ^ 64) with (N.shiftl (x mod 2 ^ (64 - n)) n).
  - rewrite lor_add; [rewrite N.shiftl_mul_pow2; reflexivity|].
    apply N.div_lt_upper_bound; [apply N.pow_nonzero; discriminate|]. rewrite <- N.pow_add_r. replace (64 - n + n) with 64 by lia. exact Hx.
  - rewrite N.shiftl_mul_pow2. replace (2 ^ 64) with (2 ^ (64 - n) * 2 ^ n) by (rewrite <- N.pow_add_r; f_equal; lia).
    rewrite N.mul_mod_distr_r by (apply N.pow_nonzero; discriminate). reflexivity.
Qed.
Lemma rot_lt : forall x n, x < 2 ^ 64 -> n <= 64 -> rot x n < 2 ^ 64.
Proof.
  intros x n Hx Hn. unfold rot.
  replace ((x * 2 ^ n) mod 2 ^ 64) with ((x mod 2 ^ (64 - n)) * 2 ^ n).
  - assert (x / 2 ^ (64 - n) < 2 ^ n).
    { apply N.div_lt_upper_bound; [apply N.pow_nonzero; discriminate|]. rewrite <- N.pow_add_r. replace (64 - n + n) with 64 by lia. exact Hx. }
    assert (x mod 2 ^ (64 - n) < 2 ^ (64 - n)) by (apply N.mod_lt, N.pow_nonzero; discriminate).
    replace (2 ^ 64) with (2 ^ (64 - n) * 2 ^ n) by (rewrite <- N.pow_add_r; f_equal; lia).
    set (A := 2 ^ (64 - n)) in *. set (B := 2 ^ n) in *. set (y := x mod A) in *. nia.
  - replace (2 ^ 64) with (2 ^ (64 - n) * 2 ^ n) by (rewrite <- N.pow_add_r; f_equal; lia).
    rewrite N.mul_mod_distr_r by (apply N.pow_nonzero; discriminate). reflexivity.
Qed.
Definition q64 (v : N * N * N * N) : Prop := let '(v0, v1, v2, v3) := v in v0 < 2 ^ 64 /\ v1 < 2 ^ 64 /\ v2 < 2 ^ 64 /\ v3 < 2 ^ 64.
Lemma round_eq : forall v, q64 v -> sipround v = SipRound v /\ q64 (SipRound v).
Proof.
  intros [[[v0 v1] v2] v3] (H0 & H1 & H2 & H3). unfold sipround, SipRound.
  change (addw 64) with plus.
  assert (forall a b, plus a b < 2 ^ 64) as P by (intros; apply N.mod_lt; discriminate).
  assert (forall a b, a < 2 ^ 64 -> b < 2 ^ 64 -> N.lxor a b < 2 ^ 64) as X by (intros; apply lxor_lt; assumption).
  cbv zeta.
  rewrite !(rotl_lt v1 13), !(rotl_lt v3 16) by (assumption || lia).
  pose proof (rot_lt v1 13 H1 ltac:(lia)) as R1. pose proof (rot_lt v3 16 H3 ltac:(lia)) as R3.
  set (a0 := plus v0 v1). set (a2 := plus v2 v3). set (a1 := N.lxor (rot v1 13) a0). set (a3 := N.lxor (rot v3 16) a2).
  assert (a0 < 2 ^ 64) by apply P. assert (a2 < 2 ^ 64) by apply P.
  assert (a1 < 2 ^ 64) by (apply X; assumption). assert (a3 < 2 ^ 64) by (apply X; assumption).
  rewrite !(rotl_lt a0 32), !(rotl_lt a1 17), !(rotl_lt a3 21) by (assumption || lia).
  pose proof (rot_lt a1 17 ltac:(assumption) ltac:(lia)). pose proof (rot_lt a3 21 ltac:(assumption) ltac:(lia)).
  rewrite !(rotl_lt (plus a2 a1) 32) by (apply P || lia).
  split; [reflexivity|]. repeat split; [apply P|apply X; [assumption|apply P]|apply rot_lt; [apply P|lia]|apply X; [assumption|apply P]].
Qed.
Lemma rounds_eq : forall n v, q64 v -> Nat.iter n sipround v = Nat.iter n SipRound v /\ q64 (Nat.iter n SipRound v).
Proof.
  induction n as [|n IH]; intros v H; [split; [reflexivity|exact H]|]. change (Nat.iter (S n) sipround v) with (sipround (Nat.iter n sipround v)). change (Nat.iter (S n) SipRound v) with (SipRound (Nat.iter n SipRound v)). destruct (IH v H) as [-> Q]. apply round_eq, Q.
Qed.
(* ---- words *)
Lemma sip_or_init : forall l m mi, sip_or m mi l = N.lor m (sip_or 0 mi l).
Proof.
  induction l as [|b l IH]; intros m mi; cbn [sip_or]; [rewrite N.lor_0_r; reflexivity|].
  rewrite IH, (IH (N.lor 0 _)), N.lor_0_l, N.lor_assoc. reflexivity.
Qed.
Lemma sip_or_val : forall l mi, octets l -> mi + N.of_nat (length l) <= 8 -> sip_or 0 mi l = 2 ^ (8 * mi) * le_val l.
Proof.
  induction l as [|b l IH]; intros mi O L; cbn [sip_or]; [change (le_val []) with 0; rewrite N.mul_0_r; reflexivity|].
  apply Forall_cons_iff in O. destruct O as [Hb O]. cbn [length] in L.
  rewrite sip_or_init, IH by (assumption || lia). rewrite N.lor_0_l, le_val_cons.
  assert (shl64 mi 3 = 8 * mi) as E1. { unfold shlw. rewrite N.shiftl_mul_pow2. change (2 ^ 3) with 8. rewrite N.mod_small; lia. }
  rewrite E1. unfold shlw. rewrite N.shiftl_mul_pow2.
  assert (b * 2 ^ (8 * mi) < 2 ^ (8 * mi + 8)) as Lb. { rewrite N.pow_add_r. change (2 ^ 8) with 256. assert (0 < 2 ^ (8 * mi)) by (apply N.neq_0_lt_0, N.pow_nonzero; discriminate). nia. }
  rewrite N.mod_small by (eapply N.lt_le_trans; [exact Lb|]; apply N.pow_le_mono_r; [discriminate|lia]).
  rewrite N.lor_comm. replace (2 ^ (8 * (mi + 1)) * le_val l) with (N.shiftl (le_val l) (8 * mi + 8)) by (rewrite N.shiftl_mul_pow2; replace (8 * (mi + 1)) with (8 * mi + 8) by lia; ring).
  rewrite lor_add by exact Lb. rewrite N.pow_add_r. change (2 ^ 8) with 256. ring.
Qed.
Lemma word_full : forall l, octets l -> length l = 8%nat -> sip_or 0 0 l = le_val l.
Proof. intros l O L. rewrite sip_or_val by (try assumption; rewrite L; lia). change (2 ^ (8 * 0)) with 1. lia. Qed.
Lemma le_val_zeros : forall n, le_val (repeat 0 n) = 0.
Proof. induction n as [|n IH]; [reflexivity|]. cbn [repeat]. rewrite le_val_cons, IH. reflexivity. Qed.
Lemma word_last : forall l s, octets l -> (length l < 8)%nat -> s < 256 ->
  sip_or (shl64 s 56) 0 l = le_val (l ++ repeat 0 (7 - length l) ++ [s]).
Proof.
  intros l s O L Hs. rewrite sip_or_init, sip_or_val by (try assumption; lia). change (2 ^ (8 * 0)) with 1. rewrite N.mul_1_l.
  unfold shlw. rewrite N.shiftl_mul_pow2. rewrite N.mod_small by (change (2 ^ 56) with 72057594037927936; change (2 ^ 64) with 18446744073709551616; lia).
  rewrite <- N.shiftl_mul_pow2.
  assert (le_val l < 2 ^ 56) as Ll.
  { eapply N.lt_le_trans; [apply CipherLib.le_val_lt; apply (proj1 (octets_bytes l)); exact O|]. rewrite pow256. apply N.pow_le_mono_r; [discriminate|lia]. }
  rewrite lor_add by exact Ll. rewrite !le_val_app, le_val_zeros, repeat_length. change (le_val [s]) with (0 * 256 + s).
  rewrite N.mul_0_l, !N.add_0_l, N.mul_assoc, <- N.pow_add_r. rewrite <- Nat2N.inj_add. replace (length l + (7 - length l))%nat with 7%nat by lia.
  change (256 ^ N.of_nat 7) with (2 ^ 56). lia.
Qed.
Lemma le_val_64 : forall l, octets l -> length l = 8%nat -> le_val l < 2 ^ 64.
Proof.
  intros l O L. eapply N.lt_le_trans; [apply CipherLib.le_val_lt; apply (proj1 (octets_bytes l)); exact O|]. rewrite L. discriminate.
Qed.
(* ---- compression *)
Lemma compress_eq : forall c v m, q64 v -> m < 2 ^ 64 ->
  (let '(v0, v1, v2, v3) := v in let '(v0, v1, v2, v3) := Nat.iter c sipround (v0, v1, v2, xor v3 m) in (xor v0 m, v1, v2, v3)) = compress c v m /\ q64 (compress c v m).
Proof.
  intros c [[[v0 v1] v2] v3] m (H0 & H1 & H2 & H3) Hm. unfold compress.
  destruct (rounds_eq c (v0, v1, v2, N.lxor v3 m)) as [-> Q]; [repeat split; try assumption; apply lxor_lt; assumption|].
  destruct (Nat.iter c SipRound (v0, v1, v2, N.lxor v3 m)) as [[[w0 w1] w2] w3]. destruct Q as (A0 & A1 & A2 & A3).
  split; [reflexivity|]. repeat split; try assumption. apply lxor_lt; assumption.
Qed.
Lemma sip_loop_step : forall fuel c size b r v, sip_loop (S fuel) c size (b :: r) v =
  sip_loop fuel c size (skipn 8 (b :: r)) (let m := sip_or (if Nat.ltb (length (b :: r)) 8 then shl64 (size mod 256) 56 else 0) 0 (firstn 8 (b :: r)) in
    let '(v0, v1, v2, v3) := v in let '(v0, v1, v2, v3) := Nat.iter c sipround (v0, v1, v2, xor v3 m) in (xor v0 m, v1, v2, v3)).
Proof.
  intros. cbn [sip_loop]. destruct v as [[[v0 v1] v2] v3]. cbv zeta.
  destruct (Nat.iter c sipround _) as [[[w0 w1] w2] w3]. reflexivity.
Qed.
Lemma octets_firstn : forall n l, octets l -> octets (firstn n l).
Proof. intros n l H. unfold octets in *. rewrite <- (firstn_skipn n l) in H. apply Forall_app in H. apply H. Qed.
Lemma octets_skipn : forall n l, octets l -> octets (skipn n l).
Proof. intros n l H. unfold octets in *. rewrite <- (firstn_skipn n l) in H. apply Forall_app in H. apply H. Qed.
Lemma loop_eq : forall bl la fuel c size v, (forall b, In b bl -> length b = 8%nat) -> (length la < 8)%nat -> octets (concat bl ++ la) ->
  (length (concat bl ++ la) <= fuel)%nat -> q64 v ->
  sip_loop fuel c size (concat bl ++ la) v =
    fold_left (compress c) (map le_val bl ++ match la with [] => [] | _ => [le_val (la ++ repeat 0 (7 - length la) ++ [size mod 256])] end) v /\
  q64 (fold_left (compress c) (map le_val bl ++ match la with [] => [] | _ => [le_val (la ++ repeat 0 (7 - length la) ++ [size mod 256])] end) v).
Proof.
  induction bl as [|b bl IH]; intros la fuel c size v Hb Hla O Hf Q.
  - cbn [concat app map] in *. destruct la as [|x la]; [destruct fuel; split; (reflexivity || exact Q)|].
    destruct fuel as [|fuel]; [cbn [length] in Hf; lia|]. rewrite sip_loop_step.
    replace (Nat.ltb (length (x :: la)) 8) with true by (symmetry; apply Nat.ltb_lt; exact Hla). cbv zeta.
    rewrite (firstn_all2 (n := 8)) by lia. rewrite word_last by (try assumption; apply N.mod_lt; discriminate).
    rewrite skipn_all2 by lia. set (w := le_val _).
    assert (w < 2 ^ 64) as Hw.
    { apply le_val_64; [repeat apply octets_app; [exact O|apply octets_zeros|constructor; [apply N.mod_lt; discriminate|constructor]]|]. rewrite !app_length, repeat_length. cbn [length] in *. lia. }
    destruct (compress_eq c v w Q Hw) as [E Q']. cbn [fold_left]. split; [|exact Q'].
    transitivity (sip_loop fuel c size [] (compress c v w)); [f_equal; exact E|]. destruct fuel; reflexivity.
  - cbn [concat map app] in *. rewrite <- app_assoc in *. pose proof (Hb b (or_introl eq_refl)) as Lb.
    destruct b as [|x b]; [discriminate Lb|]. destruct fuel as [|fuel]; [cbn [app length] in Hf; lia|].
    change ((x :: b) ++ concat bl ++ la) with (x :: (b ++ concat bl ++ la)). rewrite sip_loop_step.
    change (x :: (b ++ concat bl ++ la)) with ((x :: b) ++ concat bl ++ la).
    replace (Nat.ltb (length ((x :: b) ++ concat bl ++ la)) 8) with false by (symmetry; apply Nat.ltb_ge; rewrite app_length; lia).
    rewrite (firstn_exact N _ _ 8 Lb), (skipn_exact N _ _ 8 Lb). cbv zeta. apply Forall_app in O. destruct O as [Ob O].
    rewrite (word_full _ Ob Lb). destruct (compress_eq c v (le_val (x :: b)) Q (le_val_64 _ Ob Lb)) as [E Q']. cbn [fold_left].
    destruct (IH la fuel c size (compress c v (le_val (x :: b))) (fun y Hy => Hb y (or_intror Hy)) Hla O) as [E1 E2]; [rewrite app_length, Lb in Hf; lia|exact Q'|].
    split; [|exact E2]. rewrite <- E1. f_equal. exact E.
Qed.
Lemma sip_words_eq : forall bl la, (forall b, In b bl -> length b = 8%nat) -> (length la < 8)%nat ->
  let n := N.of_nat (length (concat bl ++ la)) in
  sip_words (concat bl ++ la) = map le_val bl ++ [le_val (la ++ repeat 0 (7 - length la) ++ [n mod 256])] /\ n mod 8 = N.of_nat (length la).
Proof.
  intros bl la Hb Hla n.
  assert (length (concat bl) = 8 * length bl)%nat as Lc.
  { clear Hla n. induction bl as [|b bl IH]; [reflexivity|]. cbn [concat length]. rewrite app_length, IH by (intros; apply Hb; right; assumption). rewrite (Hb b (or_introl eq_refl)). lia. }
  assert ((length (concat bl ++ la) mod 8 = length la)%nat) as M.
  { rewrite app_length, Lc. replace (8 * length bl + length la)%nat with (length la + length bl * 8)%nat by lia. rewrite Nat.mod_add by discriminate. apply Nat.mod_small. exact Hla. }
  split.
  - unfold sip_words. rewrite M, <- app_assoc. rewrite chunks_concat by (try exact Hb; lia). rewrite map_app. f_equal.
    rewrite chunks_one; [reflexivity|lia|]. rewrite !app_length, repeat_length. cbn [length]. lia.
  - unfold n. rewrite <- M. rewrite <- (Nat2N.inj_mod _ 8). reflexivity.
Qed.
Lemma do_siphash_eq : forall m key c d, octets m -> octets key -> length key = 16%nat -> do_siphash m key c d = SipHash c d key m.
Proof.
  intros m key c d Om Ok Lk. unfold do_siphash, SipHash. cbv zeta.
  assert (octets (firstn 8 key) /\ length (firstn 8 key) = 8%nat) as [O1 L1] by (split; [apply octets_firstn, Ok|rewrite firstn_length; lia]).
  assert (octets (skipn 8 key) /\ length (skipn 8 key) = 8%nat) as [O2 L2] by (split; [apply octets_skipn, Ok|rewrite skipn_length; lia]).
  rewrite (word_full _ O1 L1), (word_full _ O2 L2). pose proof (le_val_64 _ O1 L1) as K0. pose proof (le_val_64 _ O2 L2) as K1.
  set (k0 := le_val (firstn 8 key)) in *. set (k1 := le_val (skipn 8 key)) in *.
  rewrite !(N.lxor_comm _ k0), !(N.lxor_comm _ k1).
  set (v := (N.lxor k0 _, N.lxor k1 _, N.lxor k0 _, N.lxor k1 _)).
  assert (q64 v) as Q by (repeat split; apply lxor_lt; (assumption || reflexivity)).
  destruct (blocks_of 8 m ltac:(lia)) as (bl & la & E & Hb & _ & Hl). assert (length la < 8)%nat as Hla by (rewrite Hl; apply Nat.mod_upper_bound; discriminate).
  subst m. destruct (sip_words_eq bl la Hb Hla) as (W & M). rewrite W, M. set (size := N.of_nat (length (concat bl ++ la))) in *.
  destruct (loop_eq bl la (length (concat bl ++ la)) c size v Hb Hla Om (le_n _) Q) as [-> Q1].
  assert ((let v' := fold_left (compress c) (map le_val bl ++ match la with [] => [] | _ => [le_val (la ++ repeat 0 (7 - length la) ++ [size mod 256])] end) v in
     if N.of_nat (length la) =? 0 then let '(v0, v1, v2, v3) := v' in let '(v0, v1, v2, v3) := Nat.iter c sipround (v0, v1, v2, xor v3 (shl64 (size mod 256) 56)) in
                (xor v0 (shl64 (size mod 256) 56), v1, v2, v3) else v') =
     fold_left (compress c) (map le_val bl ++ [le_val (la ++ repeat 0 (7 - length la) ++ [size mod 256])]) v /\
     q64 (fold_left (compress c) (map le_val bl ++ [le_val (la ++ repeat 0 (7 - length la) ++ [size mod 256])]) v)) as [E1 Q2].
  { cbv zeta. destruct la as [|x la].
    - change (N.of_nat (length (@nil N)) =? 0) with true. cbn iota. rewrite app_nil_r in Q1 |- *.
      assert (shl64 (size mod 256) 56 = le_val ([] ++ repeat 0 (7 - @length N []) ++ [size mod 256])) as ->.
      { rewrite <- word_last; [reflexivity|constructor|cbn; lia|apply N.mod_lt; discriminate]. }
      set (w := le_val ([] ++ _)). assert (w < 2 ^ 64) as Hw.
      { apply le_val_64; [repeat apply octets_app; [constructor|apply octets_zeros|constructor; [apply N.mod_lt; discriminate|constructor]]|reflexivity]. }
      rewrite fold_left_app. cbn [fold_left]. exact (compress_eq c _ w Q1 Hw).
    - split; [reflexivity|exact Q1]. }
  cbv zeta in E1. rewrite E1. destruct (fold_left (compress c) (map le_val bl ++ [_]) v) as [[[v0 v1] v2] v3]. destruct Q2 as (A0 & A1 & A2 & A3).
  destruct (rounds_eq d (v0, v1, N.lxor v2 255, v3)) as [-> _]; [repeat split; try assumption; apply lxor_lt; (assumption || reflexivity)|]. reflexivity.
Qed.

(* ---- the key *)
Definition folder : list N * nat -> N -> list N * nat := fun '(ek, k) b => (upd ek k (xor (nth k ek 0) b), ((k + 1) mod 16)%nat).
Lemma upd_mid : forall p y q v, upd (p ++ y :: q) (length p) v = p ++ v :: q.
Proof. induction p as [|x p IH]; intros; [reflexivity|]. cbn [length app upd]. f_equal. apply IH. Qed.
Lemma fold_piece : forall r p q, (length p + length q = 16)%nat -> (length r <= length q)%nat -> r <> [] ->
  fold_left folder r (p ++ q, length p) = (p ++ xorl (firstn (length r) q) r ++ skipn (length r) q, ((length p + length r) mod 16)%nat).
Proof.
  induction r as [|b r IH]; intros p q L H NE; [congruence|]. destruct q as [|y q]; [cbn [length] in H; lia|].
  cbn [fold_left folder length firstn skipn xorl] in *. rewrite app_nth2, Nat.sub_diag by lia. cbn [nth]. rewrite upd_mid.
  destruct r as [|b' r].
  - cbn [fold_left firstn skipn xorl app length]. reflexivity.
  - cbn [length] in H. rewrite Nat.mod_small by lia. replace (length p + 1)%nat with (length (p ++ [xor y b])) by (rewrite app_length; reflexivity).
    replace (p ++ xor y b :: q) with ((p ++ [xor y b]) ++ q) by (rewrite <- app_assoc; reflexivity).
    rewrite IH; [|rewrite app_length; cbn [length] in *; lia|cbn [length]; lia|discriminate].
    rewrite <- app_assoc. cbn [app]. rewrite !app_length. cbn [length]. f_equal. f_equal. lia.
Qed.
Lemma xorl_zeros_r : forall a, xorl a (repeat 0 (length a)) = a.
Proof. induction a as [|x a IH]; [reflexivity|]. cbn [length repeat xorl]. rewrite N.lxor_0_r, IH. reflexivity. Qed.
Lemma xorl_zeros_l : forall a, xorl (repeat 0 (length a)) a = a.
Proof. induction a as [|x a IH]; [reflexivity|]. cbn [length repeat xorl]. rewrite N.lxor_0_l, IH. reflexivity. Qed.
Lemma xorl_part : forall r q, (length r <= length q)%nat -> xorl (firstn (length r) q) r ++ skipn (length r) q = xorl q (r ++ repeat 0 (length q - length r)).
Proof.
  induction r as [|b r IH]; intros q H; [cbn [length firstn skipn xorl app]; rewrite Nat.sub_0_r, xorl_zeros_r; reflexivity|].
  destruct q as [|y q]; [cbn [length] in H; lia|]. cbn [length firstn skipn xorl app Nat.sub] in *. f_equal. apply IH. lia.
Qed.
Lemma fold_blocks : forall bl la ek, length ek = 16%nat -> (forall b, In b bl -> length b = 16%nat) -> (length la < 16)%nat ->
  fst (fold_left folder (concat bl ++ la) (ek, O)) = fold_left xorl (bl ++ match la with [] => [] | _ => [la ++ repeat 0 (16 - length la)] end) ek.
Proof.
  induction bl as [|b bl IH]; intros la ek L Hb Hl; cbn [concat app].
  - destruct la as [|x la]; [reflexivity|].
    assert (fold_left folder (x :: la) (ek, O) = (xorl (firstn (length (x :: la)) ek) (x :: la) ++ skipn (length (x :: la)) ek, (length (x :: la) mod 16)%nat)) as ->
      by (apply (fold_piece (x :: la) [] ek); [exact L|lia|discriminate]). cbn [fst fold_left].
    rewrite xorl_part by lia. rewrite L. reflexivity.
  - rewrite <- app_assoc, fold_left_app. pose proof (Hb b (or_introl eq_refl)) as Lb.
    assert (fold_left folder b (ek, O) = (xorl (firstn (length b) ek) b ++ skipn (length b) ek, (length b mod 16)%nat)) as ->
      by (apply (fold_piece b [] ek); [exact L|lia|intros ->; discriminate Lb]). rewrite Lb.
    change (16 mod 16)%nat with O. rewrite firstn_all2, skipn_all2, app_nil_r by lia. cbn [fold_left]. apply IH.
    + rewrite xorl_length, L, Lb. reflexivity.
    + intros c Hc. apply Hb. right. exact Hc.
    + exact Hl.
Qed.
Lemma pad16 : forall bl la, (forall b, In b bl -> length b = 16%nat) -> (length la < 16)%nat -> length la = (length (concat bl ++ la) mod 16)%nat ->
  key16 (concat bl ++ la) = fold_left xorl (bl ++ match la with [] => [] | _ => [la ++ repeat 0 (16 - length la)] end) (repeat 0 16).
Proof.
  intros bl la Hb Hl E. unfold key16. rewrite <- E, <- app_assoc, chunks_concat by (try exact Hb; lia). f_equal. f_equal.
  destruct la as [|x la]; [reflexivity|]. rewrite Nat.mod_small by (cbn [length] in *; lia). apply chunks_one; [lia|]. rewrite app_length, repeat_length. lia.
Qed.
Lemma sip_key_eq : forall key, sip_key key = key16 key.
Proof.
  intros key. destruct (blocks_of 16 key ltac:(lia)) as (bl & la & -> & Hb & _ & Hl).
  assert (length la < 16)%nat as Hla by (rewrite Hl; apply Nat.mod_upper_bound; discriminate).
  rewrite (pad16 bl la Hb Hla Hl). unfold sip_key, fold_key.
  destruct bl as [|b bl].
  - cbn [concat app]. replace (Nat.leb (length la) 16) with true by (symmetry; apply Nat.leb_le; lia).
    destruct la as [|x la]; [reflexivity|]. cbn [fold_left]. set (y := _ ++ _). replace 16%nat with (length y) at 1; [rewrite xorl_zeros_l; reflexivity|].
    unfold y. rewrite app_length, repeat_length. lia.
  - pose proof (Hb b (or_introl eq_refl)) as Lb. cbn [concat app]. rewrite <- app_assoc.
    rewrite (firstn_exact N _ _ 16 Lb), (skipn_exact N _ _ 16 Lb).
    cbn [fold_left]. replace (xorl (repeat 0 16) b) with b by (rewrite <- Lb, xorl_zeros_l; reflexivity).
    rewrite <- (fold_blocks bl la b Lb (fun c Hc => Hb c (or_intror Hc)) Hla).
    destruct (Nat.leb_spec (length (b ++ concat bl ++ la)) 16) as [H|H]; [|reflexivity].
    rewrite app_length, Lb in H. assert (concat bl ++ la = []) as -> by (destruct (concat bl ++ la); [reflexivity|cbn [length] in H; lia]).
    rewrite app_nil_r, Lb. cbn [Nat.sub repeat fold_left fst]. apply app_nil_r.
Qed.
Lemma octets_xorl : forall a b, octets a -> octets b -> octets (xorl a b).
Proof. intros a b A B. apply octets_bytes, xorl_bytes; apply octets_bytes; assumption. Qed.
Lemma key16_ok : forall key, octets key -> octets (key16 key) /\ length (key16 key) = 16%nat.
Proof.
  intros key O. destruct (blocks_of 16 key ltac:(lia)) as (bl & la & -> & Hb & _ & Hl).
  assert (length la < 16)%nat as Hla by (rewrite Hl; apply Nat.mod_upper_bound; discriminate).
  rewrite (pad16 bl la Hb Hla Hl). apply Forall_app in O. destruct O as [O1 O2].
  assert (forall l ek, (forall b, In b l -> octets b /\ length b = 16%nat) -> octets ek -> length ek = 16%nat -> octets (fold_left xorl l ek) /\ length (fold_left xorl l ek) = 16%nat) as P.
  { induction l as [|b l IH]; intros ek H O L; [split; assumption|]. cbn [fold_left]. destruct (H b (or_introl eq_refl)) as [Ob Lb]. apply IH.
    - intros c Hc. apply H. right. exact Hc.
    - apply octets_xorl; assumption.
    - rewrite xorl_length, L, Lb. reflexivity. }
  apply P; [|apply octets_zeros|reflexivity]. intros b Hin. apply in_app_or in Hin. destruct Hin as [Hin|Hin].
  - split; [|apply Hb, Hin]. unfold octets in *. rewrite Forall_forall in O1 |- *. intros x Hx. apply O1. apply in_concat. exists b. split; assumption.
  - destruct la as [|x la]; [destruct Hin|]. destruct Hin as [<-|[]]. split; [apply octets_app; [exact O2|apply octets_zeros]|rewrite app_length, repeat_length; lia].
Qed.
Lemma key16_pads : forall key n, (length key + n <= 16)%nat -> key16 (key ++ repeat 0 n) = key16 key.
Proof.
  intros key n H. rewrite <- !sip_key_eq. unfold sip_key. rewrite app_length, repeat_length.
  replace (Nat.leb (length key + n) 16) with true by (symmetry; apply Nat.leb_le; lia).
  replace (Nat.leb (length key) 16) with true by (symmetry; apply Nat.leb_le; lia). rewrite <- app_assoc, <- repeat_app. f_equal. f_equal. lia.
Qed.
Lemma siphash_lt : forall m key c d, octets m -> octets key -> length key = 16%nat -> SipHash c d key m < 2 ^ 64.
Proof.
  intros m key c d Om Ok Lk. unfold SipHash. cbv zeta.
  assert (octets (firstn 8 key) /\ length (firstn 8 key) = 8%nat) as [O1 L1] by (split; [apply octets_firstn, Ok|rewrite firstn_length; lia]).
  assert (octets (skipn 8 key) /\ length (skipn 8 key) = 8%nat) as [O2 L2] by (split; [apply octets_skipn, Ok|rewrite skipn_length; lia]).
  pose proof (le_val_64 _ O1 L1) as K0. pose proof (le_val_64 _ O2 L2) as K1.
  set (k0 := le_val (firstn 8 key)) in *. set (k1 := le_val (skipn 8 key)) in *.
  set (v := (N.lxor k0 _, N.lxor k1 _, N.lxor k0 _, N.lxor k1 _)).
  assert (q64 v) as Q by (repeat split; apply lxor_lt; (assumption || reflexivity)).
  destruct (blocks_of 8 m ltac:(lia)) as (bl & la & E & Hb & _ & Hl). assert (length la < 8)%nat as Hla by (rewrite Hl; apply Nat.mod_upper_bound; discriminate).
  subst m. destruct (sip_words_eq bl la Hb Hla) as (W & M). rewrite W. set (size := N.of_nat (length (concat bl ++ la))) in *.
  assert (forall l v, (forall w, In w l -> w < 2 ^ 64) -> q64 v -> q64 (fold_left (compress c) l v)) as P.
  { induction l as [|w l IH]; intros u H Qu; [exact Qu|]. cbn [fold_left]. apply IH; [intros y Hy; apply H; right; exact Hy|]. apply compress_eq; [exact Qu|apply H; left; reflexivity]. }
  specialize (P (map le_val bl ++ [le_val (la ++ repeat 0 (7 - length la) ++ [size mod 256])]) v).
  apply Forall_app in Om. destruct Om as [Ob Ol].
  assert (q64 (fold_left (compress c) (map le_val bl ++ [le_val (la ++ repeat 0 (7 - length la) ++ [size mod 256])]) v)) as Q2.
  { apply P; [|exact Q]. intros w Hw. apply in_app_or in Hw. destruct Hw as [Hw|[<-|[]]].
    - apply in_map_iff in Hw. destruct Hw as (b & <- & Hin). apply le_val_64; [|apply Hb, Hin].
      unfold octets in *. rewrite Forall_forall in Ob |- *. intros x Hx. apply Ob. apply in_concat. exists b. split; assumption.
    - apply le_val_64; [repeat apply octets_app; [exact Ol|apply octets_zeros|constructor; [apply N.mod_lt; discriminate|constructor]]|]. rewrite !app_length, repeat_length. cbn [length]. lia. }
  destruct (fold_left (compress c) _ v) as [[[v0 v1] v2] v3]. destruct Q2 as (A0 & A1 & A2 & A3).
  destruct (rounds_eq d (v0, v1, N.lxor v2 255, v3)) as [_ Q3]; [repeat split; try assumption; apply lxor_lt; (assumption || reflexivity)|].
  destruct (Nat.iter d SipRound _) as [[[w0 w1] w2] w3]. destruct Q3 as (B0 & B1 & B2 & B3). repeat apply lxor_lt; assumption.
Qed.
Lemma sip_tag_bytes : forall o, o < 2 ^ 64 ->
  [and (shr o 56) 0xFF; and (shr o 48) 0xFF; and (shr o 40) 0xFF; and (shr o 32) 0xFF; and (shr o 24) 0xFF; and (shr o 16) 0xFF; and (shr o 8) 0xFF; and o 0xFF] = be_bytes 8 o.
Proof. intros o H. apply counter8. Qed.

(* ---- Poly1305 *)
Lemma step_len : forall y yoff mc ac pp xi mc' ac' pp', poly_mul_step y yoff (mc, ac, pp) xi = Done (mc', ac', pp') -> length pp' = length pp.
Proof.
  intros y yoff mc ac pp [xoff x] mc' ac' pp' H. unfold poly_mul_step, wr in H. cbv zeta in H.
  destruct (rd pp (N.of_nat (yoff + xoff))) as [w|]; [|discriminate H]. cbn [obind] in H.
  destruct (Nat.ltb _ _); [|discriminate H]. cbn [obind] in H. inversion H. apply upd_length.
Qed.
Lemma step_oob : forall y yoff mc ac pp xoff x, (length pp <= yoff + xoff)%nat -> poly_mul_step y yoff (mc, ac, pp) (xoff, x) = UB.
Proof.
  intros. unfold poly_mul_step, rd. cbv zeta. rewrite Nat2N.id. assert (nth_error pp (yoff + xoff) = None) as -> by (apply nth_error_None; lia). reflexivity.
Qed.
Lemma fold_ub : forall A B (f : A -> B -> outcome A) l, fold_left (fun s x => obind s (fun s => f s x)) l UB = UB.
Proof. intros A B f. induction l as [|x l IH]; [reflexivity|]. cbn [fold_left obind]. exact IH. Qed.
Lemma steps_len : forall y yoff l s, match fold_left (fun s xi => obind s (fun s => poly_mul_step y yoff s xi)) l (Done s) with Done s' => length (snd s') = length (snd s) | UB => True end.
Proof.
  intros y yoff. induction l as [|x l IH]; intros s; [reflexivity|]. cbn [fold_left obind].
  destruct s as [[mc ac] pp]. destruct (poly_mul_step y yoff (mc, ac, pp) x) as [[[mc' ac'] pp']|] eqn:E; [|rewrite fold_ub; exact I].
  specialize (IH (mc', ac', pp')). destruct (fold_left _ l _) as [s'|]; [|exact I]. rewrite IH. cbn [snd]. exact (step_len _ _ _ _ _ _ _ _ _ E).
Qed.
Lemma row_len : forall x y yoff pp, match poly_mul_row x y yoff pp with Done pp' => length pp' = length pp | UB => True end.
Proof.
  intros x y yoff pp. unfold poly_mul_row. pose proof (steps_len y yoff (combine (seq 0 poly_size) x) (0, 0, pp)) as H.
  destruct (fold_left _ _ _) as [[[mc ac] pp']|]; [|exact I]. cbn [obind snd] in *. destruct (Nat.ltb _ _); [|exact H].
  unfold wr. destruct (rd pp' _); [|exact I]. cbn [obind]. destruct (Nat.ltb _ _); [rewrite upd_length; exact H|exact I].
Qed.
Lemma row1_ub : forall x y pp, length x = 7%nat -> length pp = 7%nat -> poly_mul_row x y 1 pp = UB.
Proof.
  intros x y pp Lx Lp. unfold poly_mul_row.
  assert (exists x' a, x = x' ++ [a] /\ length x' = 6%nat) as (x' & a & -> & Lx').
  { destruct (exists_last (l := x)) as (x' & a & ->); [intros ->; discriminate Lx|]. exists x', a. rewrite app_length in Lx. cbn [length] in Lx. split; [reflexivity|lia]. }
  assert (combine (seq 0 poly_size) (x' ++ [a]) = combine (seq 0 6) x' ++ [(6%nat, a)]) as ->.
  { destruct x' as [|x0 [|x1 [|x2 [|x3 [|x4 [|x5 [|]]]]]]]; try discriminate Lx'. reflexivity. }
  rewrite fold_left_app. pose proof (steps_len y 1 (combine (seq 0 6) x') (0, 0, pp)) as H.
  destruct (fold_left _ (combine (seq 0 6) x') _) as [[[mc ac] pp']|]; [|reflexivity]. cbn [fold_left obind snd] in *. rewrite step_oob by lia. reflexivity.
Qed.
Lemma poly_mul_ub : forall x y, length x = 7%nat -> length y = 7%nat -> poly_mul x y = UB.
Proof.
  intros x y Lx Ly. unfold poly_mul. destruct y as [|y0 [|y1 y]]; try discriminate Ly.
  change (combine (seq 0 poly_size) (y0 :: y1 :: y)) with ((O, y0) :: (1%nat, y1) :: combine (seq 2 5) y). cbn [fold_left obind fst snd].
  pose proof (row_len x y0 0 (repeat 0 poly_size)) as H. destruct (poly_mul_row x y0 0 _) as [pp|]; cbn [obind]; [|apply fold_ub].
  rewrite row1_ub by (try assumption; exact H). apply fold_ub.
Qed.
(* the task around the tag *)
Definition pkey (key : list N) : list N := if Nat.ltb 16 (length key) then key16 key else key.
Lemma pkey_eq : forall key, (if Nat.ltb 16 (length key) then fold_key key else key) = pkey key.
Proof.
  intro key. unfold pkey. destruct (Nat.ltb_spec 16 (length key)) as [H|H]; [|reflexivity]. rewrite <- sip_key_eq. unfold sip_key.
  replace (Nat.leb (length key) 16) with false by (symmetry; apply Nat.leb_gt; exact H). reflexivity.
Qed.
Lemma key16_length : forall key, length (key16 key) = 16%nat.
Proof.
  intro key. destruct (blocks_of 16 key ltac:(lia)) as (bl & la & -> & Hb & _ & Hl).
  assert (length la < 16)%nat as Hla by (rewrite Hl; apply Nat.mod_upper_bound; discriminate).
  rewrite (pad16 bl la Hb Hla Hl).
  assert (forall l ek, (forall b, In b l -> length b = 16%nat) -> length ek = 16%nat -> length (fold_left xorl l ek) = 16%nat) as P.
  { induction l as [|b l IH]; intros ek H L; [assumption|]. cbn [fold_left]. apply IH.
    - intros c Hc. apply H. right. exact Hc.
    - rewrite xorl_length, L, (H b (or_introl eq_refl)). reflexivity. }
  apply P; [|reflexivity]. intros b Hin. apply in_app_or in Hin. destruct Hin as [Hin|Hin]; [apply Hb, Hin|].
  destruct la as [|x la]; [destruct Hin|]. destruct Hin as [<-|[]]. rewrite app_length, repeat_length. lia.
Qed.
Lemma pkey_length : forall key, key <> [] -> (1 <= length (pkey key) <= 16)%nat.
Proof.
  intros key H. unfold pkey. destruct (Nat.ltb_spec 16 (length key)); [rewrite key16_length; lia|]. destruct key; [congruence|]. cbn [length] in *. lia.
Qed.
Lemma poly_tags : forall tag nonce key x i r g, key <> [] -> x <> [] -> tag x (pkey key ++ nonce (32 - length (pkey key))%nat) = Done g ->
  do_poly1305 tag nonce (mkMT Encrypt (Some key) i (Some x) r) =
    Done (mkMT Encrypt (Some key) i (Some (g ++ nonce (32 - length (pkey key))%nat ++ x)) Success).
Proof.
  intros tag nonce key x i r g Hk Hx Ht. pose proof (pkey_length key Hk) as L. unfold do_poly1305. cbn [mt_key mt_action mt_in mt_out mt_result].
  destruct key as [|k0 key]; [congruence|]. rewrite pkey_eq. set (pk := pkey (k0 :: key)) in *. unfold kryptos_poly1305. cbn [mt_key mt_action mt_in mt_out mt_result].
  replace (Nat.ltb 32 (length pk)) with false by (symmetry; apply Nat.ltb_ge; lia). destruct x as [|b x]; [congruence|].
  destruct pk as [|p0 pk]; [cbn [length] in L; lia|]. rewrite Ht. reflexivity.
Qed.
Lemma poly_checks : forall tag nonce key inp o r, key <> [] -> let n := (32 - length (pkey key))%nat in
  (length inp <= 16 + n)%nat -> do_poly1305 tag nonce (mkMT Decrypt (Some key) (Some inp) o r) = Done (mkMT Decrypt (Some key) (Some inp) o POLY1305Error).
Proof.
  intros tag nonce key inp o r Hk n H. pose proof (pkey_length key Hk) as L. unfold do_poly1305. cbn [mt_key mt_action mt_in mt_out mt_result].
  destruct key as [|k0 key]; [congruence|]. rewrite pkey_eq. unfold n in *. clear n. set (pk := pkey (k0 :: key)) in *. unfold kryptos_poly1305. cbn [mt_key mt_action mt_in mt_out mt_result].
  replace (Nat.ltb 32 (length pk)) with false by (symmetry; apply Nat.ltb_ge; lia). destruct inp as [|b inp]; [reflexivity|].
  destruct pk as [|p0 pk]; [cbn [length] in L; lia|]. cbv zeta. replace (Nat.leb _ _) with true by (symmetry; apply Nat.leb_le; lia). reflexivity.
Qed.
Lemma poly_checks2 : forall tag nonce key g nn x o r g', key <> [] -> length g = 16%nat -> length nn = (32 - length (pkey key))%nat -> x <> [] ->
  tag x (pkey key ++ nn) = Done g' ->
  do_poly1305 tag nonce (mkMT Decrypt (Some key) (Some (g ++ nn ++ x)) o r) =
    Done (if eqb_list g' g then mkMT Decrypt (Some key) (Some x) o Success else mkMT Decrypt (Some key) (Some (g ++ nn ++ x)) o POLY1305Error).
Proof.
  intros tag nonce key g nn x o r g' Hk Lg Ln Hx Ht. pose proof (pkey_length key Hk) as L. unfold do_poly1305. cbn [mt_key mt_action mt_in mt_out mt_result].
  destruct key as [|k0 key]; [congruence|]. rewrite pkey_eq. set (pk := pkey (k0 :: key)) in *. unfold kryptos_poly1305. cbn [mt_key mt_action mt_in mt_out mt_result].
  replace (Nat.ltb 32 (length pk)) with false by (symmetry; apply Nat.ltb_ge; lia).
  assert (exists a t, g ++ nn ++ x = a :: t) as (a & t & E) by (destruct g as [|a g]; [discriminate Lg|]; exists a, (g ++ nn ++ x); reflexivity).
  rewrite E. destruct pk as [|p0 pk]; [cbn [length] in L; lia|]. cbv zeta. rewrite <- E.
  replace (Nat.leb _ _) with false by (symmetry; apply Nat.leb_gt; rewrite !app_length, Lg, Ln; destruct x; [congruence|]; cbn [length]; lia).
  rewrite (firstn_exact N _ _ 16 Lg), (skipn_exact N _ _ 16 Lg), (firstn_exact N _ _ _ Ln).
  rewrite (app_assoc g nn x), (skipn_exact N (g ++ nn) x (16 + (32 - length (p0 :: pk)))) by (rewrite app_length, Lg, Ln; reflexivity).
  change (p0 :: pk ++ nn) with ((p0 :: pk) ++ nn). rewrite Ht. cbn [obind]. destruct (eqb_list g' g); reflexivity.
Qed.
