From Coq Require FinFun.
From Verif Require Import Words EncSpec TaskModel ModeModel ModeSpec CipherBase CipherLib PresentModel PresentProofs.
From Verif Require Import PresentSpec.
Ltac Zify.zify_post_hook ::= Z.div_mod_to_equations.
Open Scope N_scope.

Lemma or_add : forall a b, N.land a b = 0 -> or a b = a + b.
Proof. intros a b H. rewrite (N.add_nocarry_lxor a b H). symmetry. apply N.lxor_lor, H. Qed.
Lemma fold_or_total : forall (f : N -> N) l v, NoDup l -> (forall i j, In i l -> In j l -> i <> j -> N.land (f i) (f j) = 0) ->
  (forall i, In i l -> N.land v (f i) = 0) -> fold_left (fun v i => or v (f i)) l v = v + total (map f l).
Proof.
  intros f l. induction l as [|i l IH]; intros v Hd Hp Hv; cbn [fold_left map total fold_right]; [lia|].
  inversion Hd; subst. rewrite IH.
  - rewrite or_add by (apply Hv; left; reflexivity). unfold total. lia.
  - assumption.
  - intros a b Ha Hb. apply Hp; right; assumption.
  - intros j Hj. rewrite N.land_lor_distr_l, (Hv j) by (right; exact Hj). rewrite (Hp i j); [reflexivity|left; reflexivity|right; exact Hj|].
    intros ->. contradiction.
Qed.
Lemma range_nodup : forall n, NoDup (range n).
Proof.
  intro n. unfold range. apply FinFun.Injective_map_NoDup; [intros a b H; lia|apply seq_NoDup].
Qed.
Lemma S4_is : forall x, nthN present_S x = S4 x.
Proof. reflexivity. Qed.
Lemma S4_lt : forall x, x < 16 -> S4 x < 16.
Proof. intros x H. rewrite <- S4_is. apply S_ok, H. Qed.
Lemma nib_is : forall s i, and (shr s (4 * i)) 0xF = s / 2 ^ (4 * i) mod 16.
Proof. intros. rewrite N.shiftr_div_pow2. change 0xF with (N.ones 4). rewrite N.land_ones. reflexivity. Qed.

Lemma land_disjoint : forall a b, (forall n, N.testbit a n = true -> N.testbit b n = true -> False) -> N.land a b = 0.
Proof.
  intros a b H. apply N.bits_inj_0. intro n. rewrite N.land_spec. destruct (N.testbit a n) eqn:Ea; [|reflexivity].
  destruct (N.testbit b n) eqn:Eb; [|reflexivity]. destruct (H n Ea Eb).
Qed.
Lemma sLayer_is : forall s, present_sbox_layer present_S s = sBoxLayer s.
Proof.
  intro s. unfold present_sbox_layer, sBoxLayer.
  assert (forall i n, In i (range 16) -> N.testbit (shlw 64 (nthN present_S (and (shr s (4 * i)) 0xF)) (4 * i)) n = true -> 4 * i <= n < 4 * i + 4) as B.
  { intros i n Hi H. rewrite shlw_testbit in H. apply Bool.andb_true_iff in H. destruct H as [H H3]. apply Bool.andb_true_iff in H. destruct H as [H1 H2].
    apply N.leb_le in H2. split; [exact H2|]. destruct (N.lt_ge_cases n (4 * i + 4)) as [H4|H4]; [exact H4|].
    rewrite (testbit_above _ 4) in H3; [discriminate H3|apply S_ok, nib_lt|lia]. }
  rewrite fold_or_total.
  - rewrite N.add_0_l. f_equal. apply map_ext_in. intros i Hi. apply range_lt in Hi. rewrite nib_is, S4_is.
    unfold shlw. rewrite N.shiftl_mul_pow2. apply N.mod_small.
    assert (S4 (s / 2 ^ (4 * i) mod 16) < 16) as H by (apply S4_lt, N.mod_lt; discriminate).
    apply N.lt_le_trans with (2 ^ 4 * 2 ^ (4 * i)); [apply N.mul_lt_mono_pos_r; [apply pow2_pos|exact H]|].
    rewrite <- N.pow_add_r. apply N.pow_le_mono_r; [discriminate|]. change (N.of_nat 16) with 16 in Hi. lia.
  - apply range_nodup.
  - intros i j Hi Hj Hne. apply land_disjoint. intros n H1 H2. apply B in H1; [|exact Hi]. apply B in H2; [|exact Hj]. lia.
  - intros. apply N.land_0_l.
Qed.
Lemma P_is : forallb (fun i => nthN present_P i =? P i) (range 64) = true.
Proof. vm_compute. reflexivity. Qed.
Lemma pLayer_is : forall s, present_p_layer s = pLayer s.
Proof.
  intro s. unfold present_p_layer, pLayer.
  assert (forall i n, In i (range 64) -> N.testbit (shlw 64 (shr (and s (shlw 64 1 i)) i) (nthN present_P i)) n = ((n =? nthN present_P i) && N.testbit s i)%bool) as B.
  { intros i n Hi. apply range_lt in Hi. change (N.of_nat 64) with 64 in Hi. destruct (N.lt_ge_cases n 64) as [Hn|Hn]; [apply one_bit; assumption|].
    rewrite (testbit_above _ 64); [|apply shlw_lt|exact Hn]. pose proof (P_lt i Hi). destruct (N.eqb_spec n (nthN present_P i)); [lia|reflexivity]. }
  rewrite fold_or_total.
  - rewrite N.add_0_l. f_equal. apply map_ext_in. intros i Hi. apply N.bits_inj. intro n. rewrite (B i n Hi).
    pose proof (range_lt _ _ Hi) as Hl. pose proof (sweep 64 _ P_is i Hl) as E. cbv beta in E. apply N.eqb_eq in E. rewrite <- E.
    destruct (N.testbit s i); cbn [N.b2n]; [rewrite N.mul_1_l, N.pow2_bits_eqb, N.eqb_sym; apply Bool.andb_true_r|rewrite N.mul_0_l, N.bits_0; apply Bool.andb_false_r].
  - apply range_nodup.
  - intros i j Hi Hj Hne. apply land_disjoint. intros n H1 H2. rewrite B in H1, H2 by assumption.
    apply Bool.andb_true_iff in H1. apply Bool.andb_true_iff in H2. destruct H1 as [H1 _]. destruct H2 as [H2 _]. apply N.eqb_eq in H1, H2.
    apply Hne, P_inj; [exact (range_lt _ _ Hi)|exact (range_lt _ _ Hj)|congruence].
  - intros. apply N.land_0_l.
Qed.

Lemma layers_gen : forall f g f' g' : N -> N, (forall x, f x = f' x) -> (forall x, g x = g' x) -> forall K k, (forall i, (i < 32)%nat -> nth i K 0 = k i) ->
  forall l s, Forall (fun i => (i < 32)%nat) l ->
  fold_left (fun s i => f (g (N.lxor s (nth i K 0)))) l s = fold_left (fun s i => f' (g' (N.lxor s (k i)))) l s.
Proof.
  intros f g f' g' Hf Hg K k H. induction l as [|i l IH]; intros t Hl; [reflexivity|]. inversion Hl; subst. cbn [fold_left].
  rewrite Hf, Hg, H by assumption. apply IH. assumption.
Qed.
Lemma rounds_is : forall K k, (forall i, (i < 32)%nat -> nth i K 0 = k i) -> forall l s, Forall (fun i => (i < 32)%nat) l ->
  fold_left (present_round K) l s = fold_left (round k) l s.
Proof. exact (layers_gen present_p_layer (present_sbox_layer present_S) pLayer sBoxLayer pLayer_is sLayer_is). Qed.
Lemma encrypt_gen : forall n K k s, (n < 32)%nat -> (forall i, (i < 32)%nat -> nth i K 0 = k i) ->
  xor (fold_left (present_round K) (seq 0 n) s) (nth n K 0) = N.lxor (fold_left (round k) (seq 0 n) s) (k n).
Proof.
  intros n K k s Hn H. rewrite (rounds_is K k H) by (apply Forall_forall; intros i Hi; apply in_seq in Hi; lia). rewrite H by exact Hn. exact eq_refl.
Qed.
Lemma encrypt_is : forall K k s, (forall i, (i < 32)%nat -> nth i K 0 = k i) -> present_encrypt_word K s = encrypt k s.
Proof. intros K k s H. exact (encrypt_gen 31 K k s ltac:(lia) H). Qed.

(* the key register *)
Definition kv (lw : N) (k : N * N) : N := fst k * 2 ^ lw + snd k.
Definition kw (lw : N) (k : N * N) : Prop := fst k < 2 ^ 64 /\ snd k < 2 ^ lw.

Lemma or_shl : forall w a b, b < 2 -> 0 < w -> or (shlw w a 1) b = (2 * a) mod 2 ^ w + b.
Proof.
  intros w a b Hb Hw. unfold shlw. rewrite N.shiftl_mul_pow2. change (2 ^ 1) with 2.
  assert ((a * 2) mod 2 ^ w = N.shiftl (a mod 2 ^ (w - 1)) 1) as E.
  { rewrite N.shiftl_mul_pow2. change (2 ^ 1) with 2. replace (2 ^ w) with (2 ^ (w - 1) * 2) by (rewrite <- (N.pow_1_r 2) at 2; rewrite <- N.pow_add_r; f_equal; lia).
    apply N.mul_mod_distr_r; [apply N.pow_nonzero; discriminate|discriminate]. }
  rewrite E, lor_add by exact Hb. rewrite <- N.shiftl_mul_pow2, <- E. f_equal. f_equal. lia.
Qed.
Lemma turn_gen : forall lw A hh hl lh ll, A = 2 ^ (lw - 1) -> 0 < lw -> hh < 2 -> hl < 2 ^ 63 -> lh < 2 -> ll < A ->
  turn (64 + lw) ((hh * 2 ^ 63 + hl) * 2 ^ lw + (lh * A + ll)) = (2 * hl + lh) * 2 ^ lw + (2 * ll + hh).
Proof.
  intros lw A hh hl lh ll EA Hlw Hhh Hhl Hlh Hll. unfold turn.
  assert (2 ^ lw = 2 * A) as E1 by (subst A; rewrite <- (N.pow_1_r 2) at 2; rewrite <- N.pow_add_r; f_equal; lia).
  assert (2 ^ (64 + lw) = 2 * (2 ^ 63 * (2 * A))) as E2 by (rewrite N.pow_add_r, E1; change (2 ^ 64) with (2 * 2 ^ 63); ring).
  assert (2 ^ (64 + lw - 1) = 2 ^ 63 * (2 * A)) as E3 by (rewrite <- E1, <- N.pow_add_r; f_equal; lia).
  rewrite E1, E2, E3. clear E1 E2 E3 EA. set (B := 2 ^ 63) in *. assert (0 < A) as HA by lia. assert (0 < B) as HB by lia. clearbody B.
  set (V := (hh * B + hl) * (2 * A) + (lh * A + ll)). set (R := hl * (2 * A) + (lh * A + ll)).
  assert (R < B * (2 * A)) as HR.
  { unfold R. apply N.lt_le_trans with (hl * (2 * A) + 2 * A); [nia|]. nia. }
  assert (V / (B * (2 * A)) = hh) as ->. { symmetry. apply (N.div_unique _ _ _ R); [exact HR|]. unfold V, R. ring. }
  assert ((2 * V) mod (2 * (B * (2 * A))) = 2 * R) as ->. { symmetry. apply (N.mod_unique _ _ hh); [lia|]. unfold V, R. ring. }
  unfold R. ring.
Qed.
Lemma turn_is : forall lw k, 0 < lw -> kw lw k -> kv lw (present_rotl1 lw k) = turn (64 + lw) (kv lw k) /\ kw lw (present_rotl1 lw k).
Proof.
  intros lw [h l] Hlw [Hh Hl]. cbn [fst snd] in *. unfold present_rotl1, kv, kw. cbn [fst snd].
  rewrite !N.shiftr_div_pow2.
  assert (2 ^ lw = 2 * 2 ^ (lw - 1)) as E1 by (rewrite <- (N.pow_1_r 2) at 2; rewrite <- N.pow_add_r; f_equal; lia).
  assert (l / 2 ^ (lw - 1) < 2) as L2 by (apply N.div_lt_upper_bound; [apply N.pow_nonzero; discriminate|lia]).
  assert (h / 2 ^ 63 < 2) as H2 by (apply N.div_lt_upper_bound; [discriminate|]; change (2 ^ 63 * 2) with (2 ^ 64); exact Hh).
  rewrite !or_shl by (assumption || lia).
  assert (forall x q, q <> 0 -> x < 2 * q -> (2 * x) mod (2 * q) = 2 * (x mod q)) as M by (intros x q Hq _; apply N.mul_mod_distr_l; [exact Hq|discriminate]).
  change (2 ^ 64) with (2 * 2 ^ 63) in *. rewrite (M h (2 ^ 63)) by (assumption || discriminate).
  rewrite E1 in Hl. rewrite E1 at 2. rewrite (M l (2 ^ (lw - 1))) by (exact Hl || (apply N.pow_nonzero; discriminate)).
  pose proof (N.div_mod h (2 ^ 63) ltac:(discriminate)) as Dh. pose proof (N.mod_lt h (2 ^ 63) ltac:(discriminate)) as Mh.
  pose proof (N.div_mod l (2 ^ (lw - 1)) ltac:(apply N.pow_nonzero; discriminate)) as Dl. pose proof (N.mod_lt l (2 ^ (lw - 1)) ltac:(apply N.pow_nonzero; discriminate)) as Ml.
  split.
  - rewrite <- (turn_gen lw (2 ^ (lw - 1)) (h / 2 ^ 63) (h mod 2 ^ 63) (l / 2 ^ (lw - 1)) (l mod 2 ^ (lw - 1)) eq_refl Hlw H2 Mh L2 Ml).
    f_equal. rewrite (N.mul_comm (h / 2 ^ 63)), (N.mul_comm (l / 2 ^ (lw - 1))), <- Dh, <- Dl. reflexivity.
  - rewrite E1. assert (forall a b q : N, a < q -> b < 2 -> 2 * a + b < 2 * q) as X by (clear; intros; lia).
    split; [apply X; assumption|]. rewrite (M l (2 ^ (lw - 1))) by (exact Hl || (apply N.pow_nonzero; discriminate)). apply X; assumption.
Qed.

Lemma turns_is : forall lw n k, 0 < lw -> kw lw k -> kv lw (Nat.iter n (present_rotl1 lw) k) = Nat.iter n (turn (64 + lw)) (kv lw k) /\ kw lw (Nat.iter n (present_rotl1 lw) k).
Proof.
  intros lw n k Hlw Hk. induction n as [|n [IH1 IH2]]; [split; [reflexivity|exact Hk]|].
  change (Nat.iter (S n) (present_rotl1 lw) k) with (present_rotl1 lw (Nat.iter n (present_rotl1 lw) k)).
  change (Nat.iter (S n) (turn (64 + lw)) (kv lw k)) with (turn (64 + lw) (Nat.iter n (turn (64 + lw)) (kv lw k))).
  rewrite <- IH1. apply turn_is; assumption.
Qed.

(* replacing a nibble of h *)
Definition put_nib (p h : N) : N := h / 2 ^ (p + 4) * 2 ^ (p + 4) + S4 (h / 2 ^ p mod 16) * 2 ^ p + h mod 2 ^ p.
Lemma top_nib : forall h, h < 2 ^ 64 -> or (shlw 64 (nthN present_S (shr h 60)) 60) (and h 0x0FFFFFFFFFFFFFFF) = put_nib 60 h /\ put_nib 60 h < 2 ^ 64.
Proof.
  intros h Hh. assert (h / 2 ^ 60 < 16) as H16 by (apply N.div_lt_upper_bound; [discriminate|exact Hh]).
  rewrite N.shiftr_div_pow2, S4_is. pose proof (S4_lt _ H16) as HS.
  assert (put_nib 60 h = S4 (h / 2 ^ 60) * 2 ^ 60 + h mod 2 ^ 60) as E.
  { unfold put_nib. change (60 + 4) with 64. rewrite (N.div_small h) by exact Hh. rewrite (N.mod_small (h / 2 ^ 60)) by exact H16. reflexivity. }
  rewrite E. change 0x0FFFFFFFFFFFFFFF with (N.ones 60). rewrite N.land_ones.
  pose proof (N.mod_lt h (2 ^ 60) ltac:(discriminate)) as Hm. set (x := S4 (h / 2 ^ 60)) in *. set (y := h mod 2 ^ 60) in *. clearbody x y. clear - HS Hm.
  split.
  - unfold shlw. rewrite N.mod_small; [apply lor_add, Hm|]. rewrite N.shiftl_mul_pow2. change (2 ^ 64) with (16 * 2 ^ 60). apply N.mul_lt_mono_pos_r; [reflexivity|exact HS].
  - change (2 ^ 64) with (16 * 2 ^ 60). set (q := 2 ^ 60) in *. clearbody q. nia.
Qed.
Lemma mask56 : forall h, h < 2 ^ 64 -> and h 0xF0FFFFFFFFFFFFFF = or (N.shiftl (h / 2 ^ 60) 60) (h mod 2 ^ 56).
Proof.
  intros h Hh. apply (bits_lt_inj _ _ 64).
  - apply (land_lt_r _ _ 64). reflexivity.
  - apply lor_lt; [rewrite N.shiftl_mul_pow2; change (2 ^ 64) with (16 * 2 ^ 60); apply N.mul_lt_mono_pos_r; [reflexivity|]; apply N.div_lt_upper_bound; [discriminate|exact Hh]|].
    apply N.lt_trans with (2 ^ 56); [apply N.mod_lt; discriminate|reflexivity].
  - intros n Hn. rewrite N.land_spec, N.lor_spec, <- N.shiftr_div_pow2.
    assert (N.testbit 0xF0FFFFFFFFFFFFFF n = ((60 <=? n) || (n <? 56))%bool) as ->.
    { assert (forallb (fun n => Bool.eqb (N.testbit 0xF0FFFFFFFFFFFFFF n) ((60 <=? n) || (n <? 56))%bool) (range 64) = true) as Q by (vm_compute; reflexivity).
      apply Bool.eqb_prop. exact (sweep 64 _ Q n Hn). }
    destruct (N.leb_spec 60 n) as [H|H].
    + rewrite N.shiftl_spec_high', N.shiftr_spec' by exact H. replace (n - 60 + 60) with n by lia. rewrite N.mod_pow2_bits_high by lia. cbn [orb]. rewrite Bool.andb_true_r, Bool.orb_false_r. reflexivity.
    + rewrite N.shiftl_spec_low by exact H. cbn [orb]. destruct (N.ltb_spec n 56) as [H'|H'].
      * rewrite N.mod_pow2_bits_low by exact H'. apply Bool.andb_true_r.
      * rewrite N.mod_pow2_bits_high by exact H'. apply Bool.andb_false_r.
Qed.
Lemma mid_nib : forall h, h < 2 ^ 64 -> or (shlw 64 (nthN present_S (and (shr h 56) 0xF)) 56) (and h 0xF0FFFFFFFFFFFFFF) = put_nib 56 h /\ put_nib 56 h < 2 ^ 64.
Proof.
  intros h Hh. rewrite mask56 by exact Hh. rewrite N.shiftr_div_pow2, S4_is. change 0xF with (N.ones 4). rewrite N.land_ones. change (2 ^ 4) with 16.
  unfold put_nib. change (56 + 4) with 60.
  assert (S4 (h / 2 ^ 56 mod 16) < 16) as HS by (apply S4_lt, N.mod_lt; discriminate).
  assert (h / 2 ^ 60 < 16) as HT by (apply N.div_lt_upper_bound; [discriminate|exact Hh]).
  pose proof (N.mod_lt h (2 ^ 56) ltac:(discriminate)) as Hm.
  set (x := S4 (h / 2 ^ 56 mod 16)) in *. set (t := h / 2 ^ 60) in *. set (y := h mod 2 ^ 56) in *. clearbody x y t. clear - HS Hm HT.
  assert (x * 2 ^ 56 + y < 2 ^ 60) as Hxy. { change (2 ^ 60) with (16 * 2 ^ 56). set (q := 2 ^ 56) in *. clearbody q. nia. }
  split.
  - unfold shlw. rewrite N.mod_small.
    + rewrite N.lor_assoc, (N.lor_comm (N.shiftl x 56)), <- N.lor_assoc, (lor_add x y 56) by exact Hm. rewrite (lor_add t _ 60) by exact Hxy. apply N.add_assoc.
    + rewrite N.shiftl_mul_pow2. change (2 ^ 64) with (256 * 2 ^ 56). apply N.mul_lt_mono_pos_r; [reflexivity|]. apply N.lt_trans with 16; [exact HS|reflexivity].
  - rewrite <- N.add_assoc. change (2 ^ 64) with (16 * 2 ^ 60). set (q := 2 ^ 60) in *. set (z := x * 2 ^ 56 + y) in *. clearbody z q. nia.
Qed.
Lemma S_at_high : forall lw p h l, l < 2 ^ lw -> S_at (p + lw) (h * 2 ^ lw + l) = put_nib p h * 2 ^ lw + l.
Proof.
  intros lw p h l Hl. unfold S_at, put_nib. set (M := 2 ^ lw) in *.
  assert (M <> 0) as HM by (apply N.pow_nonzero; discriminate).
  assert (forall q, q <> 0 -> (h * M + l) / (q * M) = h / q) as D.
  { intros q Hq. rewrite (N.mul_comm q M), <- N.div_div by assumption. rewrite N.div_add_l by exact HM. rewrite (N.div_small l M) by exact Hl. rewrite N.add_0_r. reflexivity. }
  assert (forall a, 2 ^ (a + lw) = 2 ^ a * M) as E by (intro a; apply N.pow_add_r).
  replace (p + lw + 4) with (p + 4 + lw) by (clear; lia). rewrite !E, !D by (apply N.pow_nonzero; discriminate).
  assert ((h * M + l) mod (2 ^ p * M) = h mod 2 ^ p * M + l) as ->.
  { symmetry. pose proof (N.div_mod h (2 ^ p) ltac:(apply N.pow_nonzero; discriminate)) as Dh. pose proof (N.mod_lt h (2 ^ p) ltac:(apply N.pow_nonzero; discriminate)) as Mh.
    set (r := h mod 2 ^ p) in *. set (d := h / 2 ^ p) in *. set (q := 2 ^ p) in *. clearbody r d q M. clear - Dh Mh Hl HM.
    apply (N.mod_unique _ _ d); [nia|]. rewrite Dh. ring. }
  ring.
Qed.

(* the round counter *)
Lemma xor_high : forall k a b x y, x < 2 ^ k -> y < 2 ^ k -> N.lxor (a * 2 ^ k + x) (b * 2 ^ k + y) = N.lxor a b * 2 ^ k + N.lxor x y.
Proof.
  intros k a b x y Hx Hy. rewrite <- !lor_add by (try apply lxor_lt; assumption).
  apply N.bits_inj. intro i. rewrite N.lxor_spec, !N.lor_spec, N.lxor_spec. destruct (N.lt_ge_cases i k) as [L|L].
  - rewrite !N.shiftl_spec_low by exact L. reflexivity.
  - rewrite !N.shiftl_spec_high' by exact L. rewrite (testbit_above x k i Hx L), (testbit_above y k i Hy L), N.lxor_spec. cbn [xorb]. rewrite !Bool.orb_false_r. reflexivity.
Qed.
(* hb = number of low bits of h and lb = number of high bits of l that make the five counter bits *)
Lemma counter_gen : forall hb lb lk r hh hl lh ll, hb + lb = 5 -> hl < 2 ^ hb -> lh < 2 ^ lb -> ll < 2 ^ lk -> r < 32 ->
  let u := N.lxor (hl * 2 ^ lb + lh) r in
  u < 32 /\ N.lxor ((hh * 2 ^ hb + hl) * 2 ^ (lk + lb) + (lh * 2 ^ lk + ll)) (r * 2 ^ lk) =
  (hh * 2 ^ hb + u / 2 ^ lb) * 2 ^ (lk + lb) + (u mod 2 ^ lb * 2 ^ lk + ll).
Proof.
  intros hb lb lk r hh hl lh ll H5 Hhl Hlh Hll Hr u.
  assert (2 ^ hb * 2 ^ lb = 32) as E32 by (rewrite <- N.pow_add_r, H5; reflexivity).
  assert (hl * 2 ^ lb + lh < 2 ^ 5) as Hm.
  { change (2 ^ 5) with 32. rewrite <- E32. set (p := 2 ^ hb) in *. set (q := 2 ^ lb) in *. clearbody p q. clear - Hhl Hlh. nia. }
  assert (u < 2 ^ 5) as Hu by (apply lxor_lt; [exact Hm|exact Hr]). split; [exact Hu|].
  replace ((hh * 2 ^ hb + hl) * 2 ^ (lk + lb) + (lh * 2 ^ lk + ll)) with ((hh * 2 ^ 5 + (hl * 2 ^ lb + lh)) * 2 ^ lk + ll)
    by (rewrite N.pow_add_r; change (2 ^ 5) with 32; rewrite <- E32; ring).
  replace (r * 2 ^ lk) with ((0 * 2 ^ 5 + r) * 2 ^ lk + 0) by ring.
  rewrite xor_high by (exact Hll || apply pow2_pos). rewrite xor_high by (exact Hm || exact Hr). rewrite !N.lxor_0_r. fold u.
  pose proof (N.div_mod u (2 ^ lb) ltac:(apply N.pow_nonzero; discriminate)) as Du. rewrite N.pow_add_r. change (2 ^ 5) with 32. rewrite <- E32. rewrite Du at 1. ring.
Qed.
Lemma and_high : forall x k w mask, x < 2 ^ w -> k <= w -> mask = N.ones w - N.ones k -> N.land mask (N.ones k) = 0 -> N.lor mask (N.ones k) = N.ones w -> and x mask = x / 2 ^ k * 2 ^ k.
Proof.
  intros x k w mask Hx Hk _ Hd Ho.
  assert (and x mask + x mod 2 ^ k = x) as E.
  { rewrite <- N.land_ones. rewrite <- or_add.
    - rewrite <- N.land_lor_distr_r, Ho, N.land_ones. apply N.mod_small, Hx.
    - apply N.bits_inj_0. intro n. rewrite !N.land_spec. pose proof (f_equal (fun z => N.testbit z n) Hd) as Hn. cbv beta in Hn. rewrite N.land_spec, N.bits_0 in Hn.
      destruct (N.testbit x n), (N.testbit mask n), (N.testbit (N.ones k) n); try reflexivity; discriminate Hn. }
  pose proof (N.div_mod x (2 ^ k) ltac:(apply N.pow_nonzero; discriminate)) as D. clear - E D. set (q := 2 ^ k) in *. set (m := x mod q) in *. set (d := x / q) in *. clearbody m d q. lia.
Qed.
Lemma iii_is : forall lw hb lb lk r k, (lw = 16 /\ hb = 4 /\ lb = 1 /\ lk = 15) \/ (lw = 64 /\ hb = 3 /\ lb = 2 /\ lk = 62) -> r < 32 -> kw lw k ->
  kv lw (present_ksched_iii lw r k) = N.lxor (kv lw k) (r * 2 ^ lk) /\ kw lw (present_ksched_iii lw r k).
Proof.
  intros lw hb lb lk r [h l] Hc Hr [Hh Hl]. cbn [fst snd] in Hh, Hl.
  assert (hb + lb = 5 /\ lk + lb = lw) as [H5 Hlw] by (destruct Hc as [(-> & -> & -> & ->)|(-> & -> & -> & ->)]; split; reflexivity).
  assert (l / 2 ^ lk < 2 ^ lb) as Hlh by (apply N.div_lt_upper_bound; [apply N.pow_nonzero; discriminate|]; rewrite <- N.pow_add_r, Hlw; exact Hl).
  destruct (counter_gen hb lb lk r (h / 2 ^ hb) (h mod 2 ^ hb) (l / 2 ^ lk) (l mod 2 ^ lk) H5) as [Hu E]; [apply N.mod_lt, N.pow_nonzero; discriminate|exact Hlh|apply N.mod_lt, N.pow_nonzero; discriminate|exact Hr|].
  set (u := N.lxor (h mod 2 ^ hb * 2 ^ lb + l / 2 ^ lk) r) in *.
  rewrite Hlw, (N.mul_comm (h / 2 ^ hb) (2 ^ hb)), (N.mul_comm (l / 2 ^ lk) (2 ^ lk)), <- !N.div_mod in E by (apply N.pow_nonzero; discriminate).
  assert (present_ksched_iii lw r (h, l) = (2 ^ hb * (h / 2 ^ hb) + u / 2 ^ lb, u mod 2 ^ lb * 2 ^ lk + l mod 2 ^ lk)) as EV.
  { assert (forall a k b, b < 2 ^ k -> a * 2 ^ k < 2 ^ 64 -> or (shlw 64 a k) b = a * 2 ^ k + b) as SH.
    { intros a k b Hb Ha. unfold shlw. rewrite N.mod_small by (rewrite N.shiftl_mul_pow2; exact Ha). apply lor_add, Hb. }
    unfold present_ksched_iii.
    assert (u / 2 ^ lb < 2 ^ hb) as Hd by (apply N.div_lt_upper_bound; [apply N.pow_nonzero; discriminate|]; rewrite <- N.pow_add_r, N.add_comm, H5; exact Hu).
    destruct Hc as [(-> & -> & -> & ->)|(-> & -> & -> & ->)].
    - change (16 =? 16) with true. cbv iota zeta.
      assert (xor (or (shlw 64 (and h 0xF) 1) (shr l 15)) r = u) as EU.
      { unfold u. change 0xF with (N.ones 4). rewrite N.land_ones, N.shiftr_div_pow2. rewrite SH; [reflexivity|exact Hlh|].
        apply N.lt_le_trans with (2 ^ 4 * 2 ^ 1); [apply N.mul_lt_mono_pos_r; [reflexivity|apply N.mod_lt; discriminate]|discriminate]. }
      rewrite EU. f_equal.
      + rewrite (and_high h 4 64) by (exact Hh || discriminate || reflexivity). rewrite N.shiftr_div_pow2, <- N.shiftl_mul_pow2, lor_add by exact Hd. ring.
      + change 0x7FFF with (N.ones 15). change 1 with (N.ones 1) at 1. rewrite !N.land_ones, N.lor_comm. unfold shlw.
        rewrite N.mod_small; [apply lor_add, N.mod_lt; discriminate|]. rewrite N.shiftl_mul_pow2. change (2 ^ 16) with (2 ^ 1 * 2 ^ 15). apply N.mul_lt_mono_pos_r; [reflexivity|apply N.mod_lt; discriminate].
    - change (64 =? 16) with false. cbv iota zeta.
      assert (xor (or (shlw 64 (and h 7) 2) (shr l 62)) r = u) as EU.
      { unfold u. change 7 with (N.ones 3). rewrite N.land_ones, N.shiftr_div_pow2. rewrite SH; [reflexivity|exact Hlh|].
        apply N.lt_le_trans with (2 ^ 3 * 2 ^ 2); [apply N.mul_lt_mono_pos_r; [reflexivity|apply N.mod_lt; discriminate]|discriminate]. }
      rewrite EU. f_equal.
      + rewrite (and_high h 3 64) by (exact Hh || discriminate || reflexivity). rewrite N.shiftr_div_pow2, <- N.shiftl_mul_pow2, lor_add by exact Hd. ring.
      + change 0x3FFFFFFFFFFFFFFF with (N.ones 62). change 3 with (N.ones 2) at 1. rewrite !N.land_ones, N.lor_comm. unfold shlw.
        rewrite N.mod_small; [apply lor_add, N.mod_lt; discriminate|]. rewrite N.shiftl_mul_pow2. change (2 ^ 64) with (2 ^ 2 * 2 ^ 62). apply N.mul_lt_mono_pos_r; [reflexivity|apply N.mod_lt; discriminate]. }
  rewrite EV. unfold kv, kw. cbn [fst snd]. split; [symmetry; exact E|]. split.
  - assert (u / 2 ^ lb < 2 ^ hb) as Hd by (apply N.div_lt_upper_bound; [apply N.pow_nonzero; discriminate|]; rewrite <- N.pow_add_r, N.add_comm, H5; exact Hu).
    assert (h / 2 ^ hb < 2 ^ (64 - hb)) as Hq by (apply N.div_lt_upper_bound; [apply N.pow_nonzero; discriminate|]; rewrite <- N.pow_add_r; replace (hb + (64 - hb)) with 64 by (clear - H5; lia); exact Hh).
    replace 64 with (hb + (64 - hb)) at 1 by (clear - H5; lia). rewrite N.pow_add_r. clear - Hd Hq. set (q := 2 ^ (64 - hb)) in *. set (p := 2 ^ hb) in *. set (d := u / 2 ^ lb) in *. set (e := h / p) in *. clearbody q p d e. nia.
  - rewrite <- Hlw, N.add_comm, N.pow_add_r.
    pose proof (N.mod_lt u (2 ^ lb) ltac:(apply N.pow_nonzero; discriminate)) as A. pose proof (N.mod_lt l (2 ^ lk) ltac:(apply N.pow_nonzero; discriminate)) as C.
    clear - A C. set (q := 2 ^ lb) in *. set (p := 2 ^ lk) in *. set (d := u mod q) in *. set (e := l mod p) in *. clearbody q p d e. nia.
Qed.

Definition upd_of (lw : N) : N -> N -> N := if lw =? 16 then update80 else update128.
Definition step (lw r : N) (k : N * N) : N * N := present_ksched_iii lw r (present_ksched_ii lw (Nat.iter 61 (present_rotl1 lw) k)).
Lemma ii80 : forall k, kw 16 k -> kv 16 (present_ksched_ii 16 k) = S_at 76 (kv 16 k) /\ kw 16 (present_ksched_ii 16 k).
Proof.
  intros [h l] [Hh Hl]. cbn [fst snd] in Hh, Hl. unfold present_ksched_ii. change (16 =? 64) with false. cbv iota zeta.
  destruct (top_nib h Hh) as [E L]. rewrite E. unfold kv, kw. cbn [fst snd]. split; [|split; assumption].
  symmetry. exact (S_at_high 16 60 h l Hl).
Qed.
Lemma ii128 : forall k, kw 64 k -> kv 64 (present_ksched_ii 64 k) = S_at 120 (S_at 124 (kv 64 k)) /\ kw 64 (present_ksched_ii 64 k).
Proof.
  intros [h l] [Hh Hl]. cbn [fst snd] in Hh, Hl. unfold present_ksched_ii. change (64 =? 64) with true. cbv iota zeta.
  destruct (top_nib h Hh) as [E L]. rewrite E. destruct (mid_nib _ L) as [E2 L2]. rewrite E2. unfold kv, kw. cbn [fst snd]. split; [|split; assumption].
  symmetry. etransitivity; [apply f_equal; exact (S_at_high 64 60 h l Hl)|]. exact (S_at_high 64 56 (put_nib 60 h) l Hl).
Qed.
Lemma step_is : forall lw r k, lw = 16 \/ lw = 64 -> r < 32 -> kw lw k -> kv lw (step lw r k) = upd_of lw r (kv lw k) /\ kw lw (step lw r k).
Proof.
  intros lw r k Hlw Hr Hk. unfold step.
  assert (0 < lw) as Hp by (destruct Hlw as [-> | ->]; reflexivity).
  destruct (turns_is lw 61 k Hp Hk) as [T1 T2]. generalize dependent (Nat.iter 61 (present_rotl1 lw) k). intros t T1 T2.
  destruct Hlw as [-> | ->].
  - destruct (ii80 t T2) as [I1 I2]. destruct (iii_is 16 4 1 15 r _ ltac:(left; auto) Hr I2) as [J1 J2]. split; [|exact J2].
    rewrite J1, I1, T1. exact eq_refl.
  - destruct (ii128 t T2) as [I1 I2]. destruct (iii_is 64 3 2 62 r _ ltac:(right; auto) Hr I2) as [J1 J2]. split; [|exact J2].
    rewrite J1, I1, T1. exact eq_refl.
Qed.
Lemma sks_gen : forall lw n r k V, lw = 16 \/ lw = 64 -> (r + n < 32)%nat -> kw lw k -> kv lw k = register (upd_of lw) r V ->
  forall i, (i < n)%nat -> nth i (present_sks lw n (N.of_nat (S r)) k) 0 = register (upd_of lw) (S r + i) V / 2 ^ lw.
Proof.
  intros lw n. induction n as [|n IH]; intros r k V Hlw Hr Hk E i Hi; [lia|]. cbn [present_sks]. fold (step lw (N.of_nat (S r)) k).
  destruct (step_is lw (N.of_nat (S r)) k Hlw ltac:(lia) Hk) as [S1 S2]. rewrite E in S1.
  change (upd_of lw (N.of_nat (S r)) (register (upd_of lw) r V)) with (register (upd_of lw) (S r) V) in S1.
  destruct i as [|i].
  - cbn [nth]. rewrite Nat.add_0_r, <- S1. unfold kv. destruct S2 as [_ S2]. rewrite N.div_add_l by (apply N.pow_nonzero; discriminate). rewrite (N.div_small _ _ S2). symmetry. apply N.add_0_r.
  - cbn [nth]. replace (N.of_nat (S r) + 1) with (N.of_nat (S (S r))) by lia. rewrite (IH (S r) _ V Hlw ltac:(lia) S2 S1 i ltac:(lia)). f_equal. f_equal. lia.
Qed.
Lemma sched_nth : forall lw n h l i, lw = 16 \/ lw = 64 -> (n < 32)%nat -> h < 2 ^ 64 -> l < 2 ^ lw -> (i < S n)%nat ->
  nth i (h :: present_sks lw n 1 (h, l)) 0 = register (upd_of lw) i (h * 2 ^ lw + l) / 2 ^ lw.
Proof.
  intros lw n h l i Hlw Hn Hh Hl Hi. destruct i as [|i].
  - cbn [nth register]. rewrite N.div_add_l by (apply N.pow_nonzero; discriminate). rewrite (N.div_small _ _ Hl). symmetry. apply N.add_0_r.
  - cbn [nth]. exact (sks_gen lw n 0 (h, l) (h * 2 ^ lw + l) Hlw Hn (conj Hh Hl) eq_refl i ltac:(lia)).
Qed.

Lemma block_gen : forall (f g : N -> N) block, (forall s, f s = g s) -> length block = 8%nat -> blk_be 8 1 (on1 f) block = be_bytes 8 (g (be_val block)).
Proof.
  intros f g block H L. unfold blk_be, load_be, on1, store_be. cbn [seq map concat]. rewrite app_nil_r. f_equal. rewrite H. f_equal. f_equal.
  unfold slice. change (0 * 8)%nat with 0%nat. change (skipn 0 block) with block. rewrite <- L. apply firstn_all.
Qed.
Lemma key80_is : forall key, length key = 10%nat -> bytes key -> exists h l, h < 2 ^ 64 /\ l < 2 ^ 16 /\ be_val key = h * 2 ^ 16 + l /\
  present_key_sched 16 key = Done (h :: present_sks 16 31 1 (h, l)).
Proof.
  intros key L Hb. unfold present_key_sched. rewrite L. change (Nat.ltb 128 10) with false. change (16 =? 16) with true. cbv iota zeta.
  exists (be_val (slice (key ++ repeat 0 (128 - 10)) 0 8)), (be_val (slice (key ++ repeat 0 (128 - 10)) 8 2)).
  do 10 (destruct key as [|? key]; [discriminate L|]). destruct key; [|discriminate L]. unfold bytes in Hb.
  repeat match goal with H : Forall _ (_ :: _) |- _ => inversion H; clear H; subst end. unfold byte in *.
  generalize (repeat 0 (128 - 10)). intro z. unfold slice. cbn [skipn firstn app].
  split; [unfold be_val; cbn [fold_left]; change (2 ^ 64) with 18446744073709551616; lia|].
  split; [unfold be_val; cbn [fold_left]; change (2 ^ 16) with 65536; lia|]. split; [unfold be_val; cbn [fold_left]; change (2 ^ 16) with 65536; lia|]. exact eq_refl.
Qed.
Lemma key128_is : forall key, length key = 16%nat -> bytes key -> exists h l, h < 2 ^ 64 /\ l < 2 ^ 64 /\ be_val key = h * 2 ^ 64 + l /\
  present_key_sched 64 key = Done (h :: present_sks 64 31 1 (h, l)).
Proof.
  intros key L Hb. unfold present_key_sched. rewrite L. change (Nat.ltb 128 16) with false. change (64 =? 16) with false. cbv iota zeta.
  exists (be_val (slice (key ++ repeat 0 (128 - 16)) 0 8)), (be_val (slice (key ++ repeat 0 (128 - 16)) 8 8)).
  do 16 (destruct key as [|? key]; [discriminate L|]). destruct key; [|discriminate L]. unfold bytes in Hb.
  repeat match goal with H : Forall _ (_ :: _) |- _ => inversion H; clear H; subst end. unfold byte in *.
  generalize (repeat 0 (128 - 16)). intro z. unfold slice. cbn [skipn firstn app].
  split; [unfold be_val; cbn [fold_left]; change (2 ^ 64) with 18446744073709551616; lia|].
  split; [unfold be_val; cbn [fold_left]; change (2 ^ 64) with 18446744073709551616; lia|]. split; [unfold be_val; cbn [fold_left]; change (2 ^ 64) with 18446744073709551616; lia|]. exact eq_refl.
Qed.
Lemma enc_gen : forall lw upd key h l block, upd_of lw = upd -> lw = 16 \/ lw = 64 -> present_key_sched lw key = Done (h :: present_sks lw 31 1 (h, l)) -> h < 2 ^ 64 -> l < 2 ^ lw -> length block = 8%nat ->
  bc_enc (present lw) key block = be_bytes 8 (encrypt (fun i => register upd i (h * 2 ^ lw + l) / 2 ^ lw) (be_val block)).
Proof.
  intros lw upd key h l block <- Hlw E Hh Hl L. cbn [bc_enc present]. rewrite E. apply block_gen; [|exact L].
  intro s. apply encrypt_is. intros i Hi. apply (sched_nth lw 31 h l i Hlw); (assumption || lia).
Qed.
Lemma present80_is : forall key block, length key = 10%nat -> bytes key -> length block = 8%nat -> bc_enc present80 key block = PRESENT80 key block.
Proof.
  intros key block L Hb Lb. destruct (key80_is key L Hb) as (h & l & Hh & Hl & EV & EK). unfold PRESENT80, present80. rewrite EV.
  assert (upd_of 16 = update80) as U by (unfold upd_of; change (16 =? 16) with true; cbv iota; exact eq_refl).
  pose proof (enc_gen 16 update80 key h l block U (or_introl eq_refl) EK Hh Hl Lb) as G. rewrite G. exact eq_refl.
Qed.
Lemma present128_is : forall key block, length key = 16%nat -> bytes key -> length block = 8%nat -> bc_enc present128 key block = PRESENT128 key block.
Proof.
  intros key block L Hb Lb. destruct (key128_is key L Hb) as (h & l & Hh & Hl & EV & EK). unfold PRESENT128, present128. rewrite EV.
  assert (upd_of 64 = update128) as U by (unfold upd_of; change (64 =? 16) with false; cbv iota; exact eq_refl).
  pose proof (enc_gen 64 update128 key h l block U (or_intror eq_refl) EK Hh Hl Lb) as G. rewrite G. exact eq_refl.
Qed.
