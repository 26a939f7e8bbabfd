(* Machine words and bytes as N, list helpers, and the arithmetic lemmas about
   shifts, masks and rotations shared by all the models. Nothing here models a
   particular C function: these are the C operators on unsigned integers. *)
From Coq Require Export List NArith ZArith Lia Bool Arith.
From Coq Require Export ZifyBool ZifyNat ZifyN.
Export ListNotations.
Open Scope N_scope.

Arguments N.add : simpl never.
Arguments N.sub : simpl never.
Arguments N.mul : simpl never.
Arguments N.div : simpl never.
Arguments N.modulo : simpl never.
Arguments N.pow : simpl never.
Arguments N.shiftl : simpl never.
Arguments N.shiftr : simpl never.
Arguments N.land : simpl never.
Arguments N.lor : simpl never.
Arguments N.lxor : simpl never.
Arguments N.of_nat : simpl never.
Arguments N.to_nat : simpl never.
Arguments N.eqb : simpl never.
Arguments N.ltb : simpl never.
Arguments N.leb : simpl never.

(* Result of a C fragment: a value, or undefined behaviour (out-of-bounds access,
   NULL dereference, division by zero, use of an uninitialised value ...). *)
Inductive outcome (A : Type) : Type :=
| Done (a : A)
| UB.
Arguments Done {A} a.
Arguments UB {A}.

Definition obind {A B} (x : outcome A) (f : A -> outcome B) : outcome B :=
  match x with Done a => f a | UB => UB end.

(* u8/u16/u32/u64 ranges *)
Definition byte (b : N) : Prop := b < 256.
Definition byteb (b : N) : bool := b <? 256.
Definition bytes (l : list N) : Prop := Forall byte l.

Definition W8 : N := 256.
Definition W16 : N := 65536.
Definition W32 : N := 4294967296.
Definition W64 : N := 18446744073709551616.

(* table[i], for tables indexed within bounds *)
Definition nthN (l : list N) (i : N) : N := nth (N.to_nat i) l 0.
(* table[i], undefined behaviour out of bounds *)
Definition rd (l : list N) (i : N) : outcome N :=
  match nth_error l (N.to_nat i) with Some v => Done v | None => UB end.

(* unsigned w-bit operators of C *)
Definition addw (w x y : N) : N := (x + y) mod 2 ^ w.
Definition subw (w x y : N) : N := (x + (2 ^ w - y mod 2 ^ w)) mod 2 ^ w.
Definition mulw (w x y : N) : N := (x * y) mod 2 ^ w.
Definition notw (w x : N) : N := N.lxor (N.ones w) x.
Definition shlw (w x n : N) : N := (N.shiftl x n) mod 2 ^ w.
Definition shrw (x n : N) : N := N.shiftr x n.
Definition rotl (w x n : N) : N := N.lor (shlw w x n) (N.shiftr x (w - n)).
Definition rotr (w x n : N) : N := N.lor (N.shiftr x n) (shlw w x (w - n)).

Lemma pow2_pos : forall k, 0 < 2 ^ k.
Proof. intro k. assert (2 ^ k <> 0) by (apply N.pow_nonzero; lia). lia. Qed.

Lemma lor_add : forall a b k, b < 2 ^ k -> N.lor (N.shiftl a k) b = a * 2 ^ k + b.
Proof.
  intros a b k Hb.
  rewrite N.shiftl_mul_pow2.
  symmetry. rewrite N.add_nocarry_lxor.
  - rewrite N.lxor_lor; [reflexivity|].
    apply N.bits_inj. intro i. rewrite N.land_spec, N.bits_0.
    destruct (N.lt_ge_cases i k) as [Hi|Hi].
    + rewrite N.mul_pow2_bits_low by assumption. reflexivity.
    + assert (N.testbit b i = false) as ->.
      { destruct (N.eq_dec b 0) as [->|Hz]; [apply N.bits_0|].
        apply N.bits_above_log2. apply N.log2_lt_pow2 in Hb; lia. }
      apply andb_false_r.
  - apply N.bits_inj. intro i. rewrite N.land_spec, N.bits_0.
    destruct (N.lt_ge_cases i k) as [Hi|Hi].
    + rewrite N.mul_pow2_bits_low by assumption. reflexivity.
    + assert (N.testbit b i = false) as ->.
      { destruct (N.eq_dec b 0) as [->|Hz]; [apply N.bits_0|].
        apply N.bits_above_log2. apply N.log2_lt_pow2 in Hb; lia. }
      apply andb_false_r.
Qed.

Lemma testbit_above : forall b k i, b < 2 ^ k -> k <= i -> N.testbit b i = false.
Proof.
  intros b k i Hb Hi.
  destruct (N.eq_dec b 0) as [->|Hz]; [apply N.bits_0|].
  apply N.bits_above_log2. apply N.log2_lt_pow2 in Hb; lia.
Qed.

Lemma lt_pow2_testbit : forall b k, (forall i, k <= i -> N.testbit b i = false) -> b < 2 ^ k.
Proof.
  intros b k H.
  assert (b = b mod 2 ^ k) as ->.
  { apply N.bits_inj. intro i. destruct (N.lt_ge_cases i k).
    - rewrite N.mod_pow2_bits_low; auto.
    - rewrite N.mod_pow2_bits_high; auto. }
  apply N.mod_lt. pose proof (pow2_pos k). lia.
Qed.

Lemma testbit_mod : forall x k i, N.testbit (x mod 2 ^ k) i = (i <? k) && N.testbit x i.
Proof.
  intros x k i. destruct (N.ltb_spec i k).
  - rewrite N.mod_pow2_bits_low; auto.
  - rewrite N.mod_pow2_bits_high; auto.
Qed.

(* (x & mask) >> k for a contiguous mask *)
Lemma mask_shift : forall x w k m, m = N.shiftl (N.ones w) k ->
  N.shiftr (N.land x m) k = (x / 2 ^ k) mod 2 ^ w.
Proof.
  intros x w k m ->.
  rewrite N.shiftr_land, N.shiftr_shiftl_l by lia.
  rewrite N.sub_diag, N.shiftl_0_r.
  rewrite N.land_ones, N.shiftr_div_pow2. reflexivity.
Qed.

Lemma land_low : forall x w m, m = N.ones w -> N.land x m = x mod 2 ^ w.
Proof. intros x w m ->. apply N.land_ones. Qed.

Lemma shiftr_div : forall x k, N.shiftr x k = x / 2 ^ k.
Proof. intros; apply N.shiftr_div_pow2. Qed.

Lemma lxor_cancel_r : forall a b, N.lxor (N.lxor a b) b = a.
Proof. intros. rewrite N.lxor_assoc, N.lxor_nilpotent, N.lxor_0_r. reflexivity. Qed.

Lemma lxor_cancel_l : forall a b, N.lxor b (N.lxor b a) = a.
Proof. intros. rewrite <- N.lxor_assoc, N.lxor_nilpotent, N.lxor_0_l. reflexivity. Qed.

Lemma lxor_lt : forall a b k, a < 2 ^ k -> b < 2 ^ k -> N.lxor a b < 2 ^ k.
Proof.
  intros a b k Ha Hb. apply lt_pow2_testbit. intros i Hi.
  rewrite N.lxor_spec, (testbit_above a k i), (testbit_above b k i); auto.
Qed.

Lemma lor_lt : forall a b k, a < 2 ^ k -> b < 2 ^ k -> N.lor a b < 2 ^ k.
Proof.
  intros a b k Ha Hb. apply lt_pow2_testbit. intros i Hi.
  rewrite N.lor_spec, (testbit_above a k i), (testbit_above b k i); auto.
Qed.

Lemma land_lt_l : forall a b k, a < 2 ^ k -> N.land a b < 2 ^ k.
Proof.
  intros a b k Ha. apply lt_pow2_testbit. intros i Hi.
  rewrite N.land_spec, (testbit_above a k i); auto.
Qed.

Lemma land_lt_r : forall a b k, b < 2 ^ k -> N.land a b < 2 ^ k.
Proof. intros. rewrite N.land_comm. apply land_lt_l; auto. Qed.

Lemma shiftr_lt : forall a n k, a < 2 ^ k -> N.shiftr a n < 2 ^ k.
Proof.
  intros a n k Ha. apply lt_pow2_testbit. intros i Hi.
  rewrite N.shiftr_spec by lia. apply (testbit_above a k); lia.
Qed.

Lemma mod_lt_pow2 : forall a k, a mod 2 ^ k < 2 ^ k.
Proof. intros. apply N.mod_lt. pose proof (pow2_pos k). lia. Qed.

Lemma addw_lt : forall w x y, addw w x y < 2 ^ w.
Proof. intros; apply mod_lt_pow2. Qed.
Lemma subw_lt : forall w x y, subw w x y < 2 ^ w.
Proof. intros; apply mod_lt_pow2. Qed.
Lemma mulw_lt : forall w x y, mulw w x y < 2 ^ w.
Proof. intros; apply mod_lt_pow2. Qed.
Lemma shlw_lt : forall w x y, shlw w x y < 2 ^ w.
Proof. intros; apply mod_lt_pow2. Qed.

Lemma ones_lt : forall w, N.ones w < 2 ^ w.
Proof. intro w. rewrite N.ones_equiv. pose proof (pow2_pos w). lia. Qed.

Lemma notw_lt : forall w x, x < 2 ^ w -> notw w x < 2 ^ w.
Proof. intros. unfold notw. apply lxor_lt; auto using ones_lt. Qed.

Lemma rotl_lt : forall w x n, x < 2 ^ w -> rotl w x n < 2 ^ w.
Proof. intros. unfold rotl. apply lor_lt; [apply shlw_lt | apply shiftr_lt; auto]. Qed.

Lemma rotr_lt : forall w x n, x < 2 ^ w -> rotr w x n < 2 ^ w.
Proof. intros. unfold rotr. apply lor_lt; [apply shiftr_lt; auto | apply shlw_lt ]. Qed.

Lemma subw_addw : forall w x y, x < 2 ^ w -> subw w (addw w x y) y = x.
Proof.
  intros w x y Hx. unfold subw, addw.
  pose proof (pow2_pos w) as Hp.
  rewrite N.add_mod_idemp_l by lia.
  pose proof (N.div_mod y (2 ^ w)) as Hd.
  pose proof (N.mod_lt y (2 ^ w)) as Hm.
  replace (x + y + (2 ^ w - y mod 2 ^ w)) with (x + (y / 2 ^ w + 1) * 2 ^ w).
  - rewrite N.mod_add by lia. apply N.mod_small; auto.
  - rewrite N.mul_add_distr_r. lia.
Qed.

Lemma addw_subw : forall w x y, x < 2 ^ w -> addw w (subw w x y) y = x.
Proof.
  intros w x y Hx. unfold subw, addw.
  pose proof (pow2_pos w) as Hp.
  rewrite N.add_mod_idemp_l by lia.
  pose proof (N.div_mod y (2 ^ w)) as Hd.
  pose proof (N.mod_lt y (2 ^ w)) as Hm.
  replace (x + (2 ^ w - y mod 2 ^ w) + y) with (x + (y / 2 ^ w + 1) * 2 ^ w).
  - rewrite N.mod_add by lia. apply N.mod_small; auto.
  - rewrite N.mul_add_distr_r. lia.
Qed.

Lemma addw_comm : forall w x y, addw w x y = addw w y x.
Proof. intros. unfold addw. rewrite N.add_comm. reflexivity. Qed.

Lemma testbit_rotl : forall w x n i, x < 2 ^ w -> n <= w ->
  N.testbit (rotl w x n) i =
  (i <? w) && (if i <? n then N.testbit x (i + w - n) else N.testbit x (i - n)).
Proof.
  intros w x n i Hx Hn. unfold rotl, shlw.
  rewrite N.lor_spec, testbit_mod, N.shiftr_spec by lia.
  destruct (N.ltb_spec i w) as [Hi|Hi]; cbn [andb].
  - destruct (N.ltb_spec i n) as [Hin|Hin].
    + rewrite N.shiftl_spec_low by assumption. cbn [orb].
      f_equal. lia.
    + rewrite N.shiftl_spec_high by lia.
      rewrite (testbit_above x w (i + (w - n))) by lia. apply orb_false_r.
  - apply (testbit_above x w); lia.
Qed.

Lemma testbit_rotr : forall w x n i, x < 2 ^ w -> n <= w ->
  N.testbit (rotr w x n) i =
  (i <? w) && (if i + n <? w then N.testbit x (i + n) else N.testbit x (i + n - w)).
Proof.
  intros w x n i Hx Hn. unfold rotr, shlw.
  rewrite N.lor_spec, testbit_mod, N.shiftr_spec by lia.
  destruct (N.ltb_spec i w) as [Hi|Hi]; cbn [andb].
  - destruct (N.ltb_spec (i + n) w) as [Hin|Hin].
    + rewrite N.shiftl_spec_low by lia. apply orb_false_r.
    + rewrite N.shiftl_spec_high by lia.
      rewrite (testbit_above x w (i + n)) by lia. cbn [orb]. f_equal. lia.
  - rewrite (testbit_above x w) by lia. reflexivity.
Qed.

Lemma rotr_rotl : forall w x n, x < 2 ^ w -> n <= w -> rotr w (rotl w x n) n = x.
Proof.
  intros w x n Hx Hn. apply N.bits_inj. intro i.
  rewrite testbit_rotr by (auto using rotl_lt).
  destruct (N.ltb_spec i w) as [Hi|Hi]; cbn [andb].
  - destruct (N.ltb_spec (i + n) w) as [Hin|Hin].
    + rewrite testbit_rotl by auto.
      destruct (N.ltb_spec (i + n) w) as [|]; [|lia]. cbn [andb].
      destruct (N.ltb_spec (i + n) n); [lia|]. f_equal; lia.
    + rewrite testbit_rotl by auto.
      destruct (N.ltb_spec (i + n - w) w) as [|]; [|lia]. cbn [andb].
      destruct (N.ltb_spec (i + n - w) n).
      * f_equal; lia.
      * lia.
  - symmetry. apply (testbit_above x w); auto.
Qed.

Lemma rotl_rotr : forall w x n, x < 2 ^ w -> n <= w -> rotl w (rotr w x n) n = x.
Proof.
  intros w x n Hx Hn. apply N.bits_inj. intro i.
  rewrite testbit_rotl by (auto using rotr_lt).
  destruct (N.ltb_spec i w) as [Hi|Hi]; cbn [andb].
  - destruct (N.ltb_spec i n) as [Hin|Hin].
    + rewrite testbit_rotr by auto.
      destruct (N.ltb_spec (i + w - n) w) as [|]; [|lia]. cbn [andb].
      destruct (N.ltb_spec (i + w - n + n) w); [lia|]. f_equal; lia.
    + rewrite testbit_rotr by auto.
      destruct (N.ltb_spec (i - n) w) as [|]; [|lia]. cbn [andb].
      destruct (N.ltb_spec (i - n + n) w).
      * f_equal; lia.
      * lia.
  - symmetry. apply (testbit_above x w); auto.
Qed.

(* complete finite sweeps over bytes *)
Definition range (n : nat) : list N := map N.of_nat (seq 0 n).
Definition all_bytes : list N := range 256.

Lemma in_range : forall n b, b < N.of_nat n -> In b (range n).
Proof.
  intros n b Hb. unfold range. apply in_map_iff.
  exists (N.to_nat b). split; [lia|]. apply in_seq. lia.
Qed.

Lemma sweep : forall (n : nat) (P : N -> bool),
  forallb P (range n) = true -> forall b, b < N.of_nat n -> P b = true.
Proof.
  intros n P H b Hb. rewrite forallb_forall in H. apply H, in_range, Hb.
Qed.

Lemma sweep_bytes : forall (P : N -> bool),
  forallb P all_bytes = true -> forall b, b < 256 -> P b = true.
Proof. intros P H b Hb. apply (sweep 256 P H). exact Hb. Qed.

(* list helpers *)
Fixpoint xorl (a b : list N) : list N :=
  match a, b with
  | x :: a', y :: b' => N.lxor x y :: xorl a' b'
  | _, _ => []
  end.

Lemma xorl_length : forall a b, length (xorl a b) = Nat.min (length a) (length b).
Proof. induction a as [|x a IH]; destruct b; cbn; auto. Qed.

Lemma xorl_involutive : forall a k, (length a <= length k)%nat -> xorl (xorl a k) k = a.
Proof.
  induction a as [|x a IH]; intros [|y k] H; cbn in *; auto; try lia.
  rewrite lxor_cancel_r, IH by lia. reflexivity.
Qed.

Lemma xorl_bytes : forall a b, bytes a -> bytes b -> bytes (xorl a b).
Proof.
  induction a as [|x a IH]; intros [|y b] Ha Hb; cbn; try constructor.
  - inversion Ha; inversion Hb; subst. apply (lxor_lt x y 8); assumption.
  - inversion Ha; inversion Hb; subst. apply IH; assumption.
Qed.

Fixpoint eqb_list (a b : list N) : bool :=
  match a, b with
  | [], [] => true
  | x :: a', y :: b' => (x =? y) && eqb_list a' b'
  | _, _ => false
  end.

Lemma eqb_list_eq : forall a b, eqb_list a b = true <-> a = b.
Proof.
  induction a as [|x a IH]; intros [|y b]; cbn; split; intro H; try congruence; auto.
  - apply andb_true_iff in H. destruct H as [H1 H2].
    apply N.eqb_eq in H1. apply IH in H2. congruence.
  - inversion H; subst. rewrite N.eqb_refl. cbn. apply IH. reflexivity.
Qed.

(* k-byte big-endian and little-endian encodings of words *)
Fixpoint be_bytes (k : nat) (x : N) : list N :=
  match k with
  | O => []
  | S k' => be_bytes k' (x / 256) ++ [x mod 256]
  end.
Definition le_bytes (k : nat) (x : N) : list N := rev (be_bytes k x).
Definition be_val (l : list N) : N := fold_left (fun a b => a * 256 + b) l 0.
Definition le_val (l : list N) : N := be_val (rev l).

Lemma be_bytes_length : forall k x, length (be_bytes k x) = k.
Proof. induction k; intro x; cbn; auto. rewrite app_length, IHk. cbn. lia. Qed.

Lemma be_bytes_bytes : forall k x, bytes (be_bytes k x).
Proof.
  induction k; intro x; cbn; [constructor|].
  apply Forall_app. split; [apply IHk|]. constructor; [|constructor].
  unfold byte. apply N.mod_lt. lia.
Qed.

Lemma be_val_app : forall l b, be_val (l ++ [b]) = be_val l * 256 + b.
Proof. intros. unfold be_val. rewrite fold_left_app. reflexivity. Qed.

Lemma be_val_bytes : forall k x, x < 256 ^ N.of_nat k -> be_val (be_bytes k x) = x.
Proof.
  induction k; intros x Hx.
  - cbn in *. unfold N.of_nat in Hx. rewrite N.pow_0_r in Hx. unfold be_val. cbn. lia.
  - cbn [be_bytes]. rewrite be_val_app, IHk.
    + pose proof (N.div_mod x 256). lia.
    + apply N.div_lt_upper_bound; [lia|].
      rewrite Nat2N.inj_succ, N.pow_succ_r' in Hx. lia.
Qed.

Lemma be_bytes_val : forall l, bytes l -> be_bytes (length l) (be_val l) = l.
Proof.
  induction l as [|b l IH] using rev_ind; intros H; [reflexivity|].
  apply Forall_app in H. destruct H as [Hl Hb]. inversion Hb; subst.
  rewrite app_length. cbn [length]. rewrite Nat.add_1_r. cbn [be_bytes].
  rewrite be_val_app. unfold byte in *.
  rewrite N.div_add_l by lia. rewrite N.div_small by assumption. rewrite N.add_0_r.
  rewrite IH by assumption. f_equal. f_equal.
  rewrite N.add_comm, N.mod_add by lia. apply N.mod_small; assumption.
Qed.

Lemma be_val_lt : forall l, bytes l -> be_val l < 256 ^ N.of_nat (length l).
Proof.
  induction l as [|b l IH] using rev_ind; intros H.
  - cbn. unfold be_val. cbn. lia.
  - apply Forall_app in H. destruct H as [Hl Hb]. inversion Hb; subst. unfold byte in *.
    rewrite be_val_app, app_length. cbn [length].
    replace (N.of_nat (length l + 1)) with (N.succ (N.of_nat (length l))) by lia.
    rewrite N.pow_succ_r'. specialize (IH Hl).
    nia.
Qed.

(* split a list in chunks of n (last one possibly short); fuel = length *)
Fixpoint chunks_fuel (fuel n : nat) (l : list N) : list (list N) :=
  match fuel with
  | O => []
  | S f => match l with
           | [] => []
           | _ => firstn n l :: chunks_fuel f n (skipn n l)
           end
  end.
Definition chunks (n : nat) (l : list N) : list (list N) := chunks_fuel (length l) n l.
